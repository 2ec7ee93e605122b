(** The abstract builder: trees, closed nodes, accepted entries. *)
From Verif Require Import Go BitPool BitPoolProofs Dawg Tree DawgRep DawgFrozen DawgFix DawgTrie DawgInsert DawgMain DawgSpec.
Local Open Scope N_scope.
Local Ltac Zify.zify_post_hook ::= Z.div_mod_to_equations.
Local Arguments N.mul : simpl never.
Local Arguments N.add : simpl never.
Local Arguments N.of_nat : simpl never.

(** ** Nodes of a tree, with repetitions *)
Fixpoint nodes (s : sub) : list edges :=
  match s with Leaf _ => [] | Node es => es :: concat (map (fun e => nodes e.2) es) end.
Definition nodes_es (es : edges) : list edges := concat (map (fun e => nodes e.2) es).
Definition pnodes (afs : apath) : list edges := concat (map (fun f => nodes_es f.2) afs).
Fixpoint closeT (afs : apath) (s : sub) : sub :=
  match afs with [] => s | f :: afs' => closeT afs' (Node (aopen f s)) end.
Fixpoint closedl (afs : apath) (s : sub) : list edges :=
  match afs with [] => [] | f :: afs' => aopen f s :: closedl afs' (Node (aopen f s)) end.

Lemma aaclose_eq afs : forall x s, aaclose x afs s = (fold_left afix (closedl afs s) x, closeT afs s).
Proof. induction afs as [|f afs IH]; intros x s; cbn [aaclose closedl closeT fold_left]; [done|]. apply IH. Qed.
Lemma closeT_app a1 a2 s : closeT (a1 ++ a2) s = closeT a2 (closeT a1 s).
Proof. revert s. induction a1 as [|f a1 IH]; intros s; cbn; [done|]. apply IH. Qed.
Lemma nodes_es_app es es' : nodes_es (es ++ es') = nodes_es es ++ nodes_es es'.
Proof. unfold nodes_es. by rewrite map_app, concat_app. Qed.
Lemma pnodes_app a1 a2 : pnodes (a1 ++ a2) = pnodes a1 ++ pnodes a2.
Proof. unfold pnodes. by rewrite map_app, concat_app. Qed.
Lemma nodes_close afs : forall s, nodes (closeT afs s) ≡ₚ closedl afs s ++ pnodes afs ++ nodes s.
Proof.
  induction afs as [|f afs IH]; intros s; [done|].
  cbn [closeT closedl]. rewrite IH. cbn [app]. unfold pnodes. cbn [map concat]. fold (pnodes afs).
  cbn [nodes]. fold (nodes_es (aopen f s)). unfold aopen at 3. rewrite nodes_es_app.
  unfold nodes_es at 2. cbn [map concat snd]. rewrite app_nil_r. solve_Permutation.
Qed.

(** ** The fixed part as a function of the closed nodes *)
Lemma afix_fold cl : let x := fold_left afix cl fx0 in
  NoDup (x_ts x) /\ NoDup (x_fl x) /\ (forall es, es ∈ x_ts x <-> es ∈ cl) /\
  (forall es, es ∈ x_fl x <-> (2 <= length (filter (es =.) cl))%nat) /\
  (psum (x_ts x) + x_mg x = psum cl)%nat.
Proof.
  induction cl as [|e cl IH] using rev_ind.
  - cbn. split; [apply NoDup_nil_2|]. split; [apply NoDup_nil_2|]. split; [done|]. split; [|done].
    intros es. rewrite elem_of_nil. lia.
  - rewrite fold_left_app. cbn [fold_left]. cbv zeta in *. destruct IH as (H1 & H2 & H3 & H4 & H5).
    set (x := fold_left afix cl fx0) in *.
    assert (Hf : forall es, length (filter (es =.) (cl ++ [e])) = (length (filter (es =.) cl) + if decide (es = e) then 1 else 0)%nat).
    { intros es. rewrite filter_app, app_length. f_equal. cbn. unfold filter. cbn. destruct (decide (es = e)); done. }
    assert (Hin : forall es, es ∈ cl <-> (1 <= length (filter (es =.) cl))%nat).
    { intros es. split.
      - intros H. apply elem_of_list_split in H as (l1 & l2 & ->). rewrite filter_app, app_length.
        rewrite filter_cons_True by done. cbn. lia.
      - intros H. destruct (filter (es =.) cl) as [|z l] eqn:E; [cbn in H; lia|].
        assert (z ∈ filter (es =.) cl) as Hz by (rewrite E; by left). by apply elem_of_list_filter in Hz as [<- ?]. }
    pose proof (afix_count x e) as Hc. rewrite psum_app. cbn [sum_list_with].
    unfold afix in *. destruct (decide (e ∈ x_ts x)) as [Hex|Hex]; cbn [x_ts x_fl x_mg] in *.
    + split; [done|]. split; [destruct (decide (e ∈ x_fl x)); [done|by apply NoDup_cons]|].
      split; [|split; [|lia]].
      * intros es. rewrite elem_of_app, H3, elem_of_list_singleton. split; [by left|]. intros [?| ->]; [done|]. by apply H3.
      * intros es. rewrite Hf. apply H3, Hin in Hex as Hex'. destruct (decide (es = e)) as [->|Hne].
        -- split; [lia|]. intros _. destruct (decide (e ∈ x_fl x)); [done|by left].
        -- rewrite Nat.add_0_r, <- H4. destruct (decide (e ∈ x_fl x)); [done|].
           rewrite elem_of_cons. naive_solver.
    + split; [apply NoDup_app; split; [done|split; [intros z Hz ->%elem_of_list_singleton; done|apply NoDup_singleton]]|].
      split; [done|]. split; [|split; [|lia]].
      * intros es. rewrite !elem_of_app, H3. done.
      * intros es. rewrite Hf, H4. destruct (decide (es = e)) as [->|Hne]; [|by rewrite Nat.add_0_r].
        rewrite H3, Hin in Hex. lia.
Qed.

(** ** Entries *)
Definition pfx (p : list N) (kv : list N * N) : list N * N := (p ++ kv.1, kv.2).
Lemma ent_es_app es es' : ent_es (es ++ es') = ent_es es ++ ent_es es'.
Proof. unfold ent_es. by rewrite map_app, concat_app. Qed.
Lemma ent_e_nz l s : l <> 0 -> ent_e (l, s) = map (pfx [l]) (ent s).
Proof. intros H. unfold ent_e. cbn [fst snd]. destruct (N.eqb_spec l 0); done. Qed.
Lemma pfx_map p q l : map (pfx p) (map (pfx q) l) = map (pfx (p ++ q)) l.
Proof. rewrite map_map. apply map_ext. intros [k v]. unfold pfx. cbn. by rewrite app_assoc. Qed.
Lemma pfx_nil l : map (pfx []) l = l.
Proof. rewrite <- (map_id l) at 2. apply map_ext. by intros [k v]. Qed.

Fixpoint apre (afs : apath) : list (list N * N) :=
  match afs with [] => [] | f :: afs' => apre afs' ++ map (pfx (pathof afs')) (ent_es f.2) end.
Lemma pathof_cons f afs : pathof (f :: afs) = pathof afs ++ [f.1].
Proof. done. Qed.
Lemma pathof_app a1 a2 : pathof (a1 ++ a2) = pathof a2 ++ pathof a1.
Proof. unfold pathof. by rewrite fmap_app, rev_app_distr. Qed.
Lemma ent_close afs : Forall (fun f : N * edges => f.1 <> 0) afs -> forall s,
  ent (closeT afs s) = apre afs ++ map (pfx (pathof afs)) (ent s).
Proof.
  induction 1 as [|[l es] afs Hl _ IH]; intros s; cbn [closeT apre].
  - cbn. by rewrite pfx_nil.
  - rewrite IH, ent_node. unfold aopen. cbn [fst snd]. rewrite ent_es_app. unfold ent_es at 2. cbn [map concat].
    rewrite app_nil_r, (ent_e_nz l s) by done. rewrite map_app, pfx_map, pathof_cons, app_assoc. done.
Qed.
Lemma nedges_es_app es es' : nedges_es (es ++ es') = (nedges_es es + nedges_es es')%nat.
Proof. unfold nedges_es. induction es as [|e es IH]; cbn; [done|]. rewrite IH. lia. Qed.
Lemma nedges_close afs : forall s, nedges (closeT afs s) =
  (sum_list_with (fun f => nedges_es f.2) afs + length afs + nedges s)%nat.
Proof.
  induction afs as [|[l es] afs IH]; intros s; cbn [closeT sum_list_with length]; [cbn; lia|].
  rewrite IH. cbn [nedges]. fold (nedges_es (aopen (l, es) s)). unfold aopen. cbn [fst snd]. rewrite nedges_es_app.
  cbn. lia.
Qed.

(** The invariant: [es] are the accepted entries. *)
Definition nval (v : Z) : N := Z.to_N (kept v).
Definition nentry (kv : entry) : list N * N := (kv.1, nval kv.2).
Lemma val31_nval v : val31 v = nval v.
Proof. unfold val31, nval, kept, u32_of_i32. lia. Qed.

Record absinv (x : fixedst) (afs : apath) (v : N) (A : nat) (es : list entry) : Prop := mkAbs {
  ab_path : exists afs', afs = (0, []) :: afs' /\ Forall (fun f : N * edges => f.1 <> 0) afs';
  ab_fix : exists cl, x = fold_left afix cl fx0 /\ cl ≡ₚ pnodes afs;
  ab_ent : ent (closeT afs (Leaf v)) = map nentry es;
  ab_last : exists es' k v0, es = es' ++ [(k, v0)] /\ pathof afs = k ++ [0] /\ key_ok k /\ v = nval v0;
  ab_count : A = nedges (closeT afs (Leaf v)) }.

(** ** Comparing a key with the path *)
Lemma kcmp_app p a b : kcmp (p ++ a) (p ++ b) = kcmp a b.
Proof. induction p as [|x p IH]; cbn; [done|]. by rewrite N.compare_refl. Qed.
Lemma kcmp_refl a : kcmp a a = Eq.
Proof. induction a as [|x a IH]; cbn; [done|]. by rewrite N.compare_refl. Qed.
Lemma kcmp_eq a b : kcmp a b = Eq -> a = b.
Proof.
  revert b. induction a as [|x a IH]; intros [|y b]; cbn; try done.
  destruct (N.compare_spec x y) as [->|?|?]; try done. intros H. by rewrite (IH _ H).
Qed.
Lemma kcmp_term a b : key_ok a -> key_ok b -> kcmp (a ++ [0]) (b ++ [0]) = kcmp a b.
Proof.
  revert b. induction a as [|x a IH]; intros [|y b] Ha Hb; cbn.
  - done.
  - apply Forall_cons in Hb as [Hy _]. destruct y; [lia|done].
  - apply Forall_cons in Ha as [Hx _]. destruct x; [lia|done].
  - apply Forall_cons in Ha as [Hx Ha]. apply Forall_cons in Hb as [Hy Hb]. by rewrite IH.
Qed.
(** Two terminated keys are equal or differ at a first position. *)
Lemma term_split a b : key_ok a -> key_ok b ->
  a = b \/ exists p l q l' r, a ++ [0] = p ++ l :: q /\ b ++ [0] = p ++ l' :: r /\ l <> l'.
Proof.
  revert b. induction a as [|x a IH]; intros [|y b] Ha Hb.
  - by left.
  - right. exists [], 0, [], y, (b ++ [0]). apply Forall_cons in Hb as [Hy _]. repeat split. lia.
  - right. exists [], x, (a ++ [0]), 0, []. apply Forall_cons in Ha as [Hx _]. repeat split. lia.
  - apply Forall_cons in Ha as [Hx Ha]. apply Forall_cons in Hb as [Hy Hb].
    destruct (decide (x = y)) as [->|Hne].
    + destruct (IH b Ha Hb) as [->|(p & l & q & l' & r & H1 & H2 & H3)]; [by left|]. right.
      exists (y :: p), l, q, l', r. cbn. rewrite H1, H2. done.
    + right. exists [], x, (a ++ [0]), y, (b ++ [0]). done.
Qed.

Lemma removelast_snoc {A} (l : list A) a : removelast (l ++ [a]) = l.
Proof. apply removelast_last. Qed.

Lemma nedges_push l es r afs v : nedges (closeT (apush l es r afs) (Leaf v)) =
  (sum_list_with (fun f => nedges_es f.2) afs + length afs + nedges_es es + S (length r))%nat.
Proof.
  unfold apush. rewrite nedges_close, app_length, rev_length, map_length. cbn [length nedges].
  assert (forall a b : apath, sum_list_with (fun f : N * edges => nedges_es f.2) (a ++ b) =
    (sum_list_with (fun f => nedges_es f.2) a + sum_list_with (fun f => nedges_es f.2) b)%nat) as Happ.
  { intros a b. induction a as [|? a IH]; cbn; [done|]. rewrite IH. lia. }
  rewrite Happ. cbn [sum_list_with].
  assert (sum_list_with (fun f : N * edges => nedges_es f.2) (rev (map (fun l' => (l', [])) r)) = 0%nat) as ->.
  { induction r as [|z r IH]; cbn; [done|]. rewrite Happ, IH. done. }
  cbn [snd]. lia.
Qed.

Lemma apush_shape l es r afs k : l :: r = k ++ [0] -> key_ok k -> (l = 0 -> es = []) ->
  Forall (fun f : N * edges => f.1 <> 0) afs ->
  exists afs', apush l es r afs = (0, []) :: afs' /\ Forall (fun f : N * edges => f.1 <> 0) afs'.
Proof.
  intros Hk Hok He Hf. unfold apush. destruct (exists_last (l := l :: r)) as (ks & z & Hks); [done|].
  rewrite Hks in Hk. apply app_inj_tail in Hk as [<- ->]. unfold key_ok in Hok.
  destruct ks as [|k0 ks]; cbn in Hks.
  - injection Hks as -> ->. cbn. rewrite He by done. eauto.
  - injection Hks as <- ->. rewrite map_app, rev_app_distr. cbn [map rev app]. eexists. split; [done|].
    apply Forall_cons in Hok as [H1 H2]. apply Forall_app. split; [|apply Forall_cons; cbn; split; [lia|done]].
    apply Forall_forall. intros f Hf'. apply elem_of_list_In, in_rev, in_map_iff in Hf' as (y & <- & Hy).
    cbn. rewrite Forall_forall in H2. apply elem_of_list_In in Hy. specialize (H2 _ Hy). cbn in H2. lia.
Qed.
Lemma pathof_apush l es r afs : pathof (apush l es r afs) = pathof afs ++ l :: r.
Proof.
  unfold apush. rewrite pathof_app, pathof_cons. cbn [fst]. rewrite <- app_assoc. cbn [app]. do 2 f_equal.
  unfold pathof. rewrite <- (rev_involutive r) at 2. f_equal.
  induction r as [|z r IH]; cbn; [done|]. rewrite fmap_app. cbn. by rewrite IH.
Qed.
Lemma pnodes_apush l es r afs : pnodes (apush l es r afs) = nodes_es es ++ pnodes afs.
Proof.
  unfold apush. rewrite pnodes_app. unfold pnodes at 2. cbn [map concat]. fold (pnodes afs).
  assert (pnodes (rev (map (fun l' => (l', [])) r)) = []) as ->; [|done].
  induction r as [|z r IH]; cbn [map rev]; [done|]. by rewrite pnodes_app, IH.
Qed.
Lemma ent_apush l es r afs v k : l :: r = k ++ [0] -> key_ok k -> (l = 0 -> es = []) ->
  Forall (fun f : N * edges => f.1 <> 0) afs ->
  ent (closeT (apush l es r afs) (Leaf v)) =
  apre afs ++ map (pfx (pathof afs)) (ent_es es) ++ [(pathof afs ++ k, v)].
Proof.
  intros Hk Hok He Hf. destruct (apush_shape l es r afs k Hk Hok He Hf) as (afs' & Ha & Hf').
  pose proof (pathof_apush l es r afs) as Hp. rewrite Ha in *. cbn [closeT]. rewrite ent_close by done.
  rewrite pathof_cons, Hk in Hp. cbn [fst] in Hp. rewrite app_assoc in Hp. apply app_inj_tail in Hp as [Hp _].
  cbn [ent aopen fst snd app map concat]. cbn. rewrite Hp. unfold pfx at 1. cbn [fst snd]. rewrite app_nil_r.
  rewrite app_assoc. f_equal.
  (* apre *)
  unfold apush in Ha. clear -Ha Hk Hok He. destruct (exists_last (l := l :: r)) as (ks & z & Hks); [done|].
  rewrite Hks in Hk. apply app_inj_tail in Hk as [<- ->].
  destruct ks as [|k0 ks]; cbn in Hks.
  - injection Hks as -> ->. cbn in Ha. injection Ha as -> <-. cbn. by rewrite app_nil_r.
  - injection Hks as <- ->. rewrite map_app, rev_app_distr in Ha. cbn [map rev app] in Ha. injection Ha as <-.
    assert (H : forall a, apre (rev (map (fun l' => (l', [])) ks) ++ a) = apre a).
    { clear. induction ks as [|z ks IH]; intros a; cbn [map rev]; [done|]. rewrite <- app_assoc. cbn [app]. rewrite IH. cbn. by rewrite app_nil_r. }
    rewrite H. cbn. done.
Qed.

(** ** One insertion *)
Definition pair_state : Type := fixedst * apath * N * nat.

Lemma insert_abs b x afs v A es k val : brep_st b x afs v A -> absinv x afs v A es -> key_ok k ->
  N.of_nat (S (A + S (length k))) <= 1073741824 ->
  exists x' afs' v' A', (A <= A')%nat /\ (A' <= A + S (length k))%nat /\
    absinv x' afs' v' A' (spec_insert es (k, val)).2 /\
    forall b0, brep_st b0 x afs v A -> exists b', InsertStringValue b0 k val = Ok ((spec_insert es (k, val)).1, b') /\
       brep_st b' x' afs' v' A'.
Proof.
  intros Hb Hab Hk Hsz. destruct Hab as [(afs1 & -> & Hnz) (cl & Hx & Hcl) Hent (es1 & k0 & v0 & -> & Hpath & Hk0 & Hv) HA].
  unfold spec_insert. rewrite last_snoc. cbn [fst snd].
  assert (Hko : keyof k (length k) = k) by (unfold keyof; by rewrite take_ge).
  destruct (term_split k0 k Hk0 Hk) as [<-|(p & l & q & l' & r & H1 & H2 & Hne)].
  - rewrite kcmp_refl, removelast_snoc. exists x, ((0, []) :: afs1), (nval val), A.
    split; [lia|]. split; [lia|]. split.
    + split; eauto.
      * cbn [closeT]. rewrite ent_close by done. cbn [closeT] in Hent. rewrite ent_close in Hent by done.
        rewrite map_app in *. cbn [map] in *. cbn [ent aopen fst snd app map concat] in *. cbn in *.
        rewrite map_app. apply app_inj_tail in Hent as [-> He]. cbn [map]. unfold nentry, pfx in *. cbn in *. simplify_eq. done.
      * exists es1, k0, val. done.
      * rewrite HA. rewrite !nedges_close. done.
    + intros b0 Hb0. unfold InsertStringValue. cbn [fst].
      destruct (insert_same b0 x _ v A k0 (length k0) val Hb0) as (b' & Hr & Hb' & _); [done|by rewrite Hko|].
      exists b'. rewrite <- val31_nval. done.
  - assert (Hcmp : kcmp k0 k = (l ?= l')).
    { rewrite <- kcmp_term by done. rewrite H1, H2, kcmp_app. cbn. destruct (N.compare_spec l l'); done. }
    rewrite Hcmp. rewrite <- Hpath in H1. destruct (N.compare_spec l l') as [?|Hlt|Hgt]; [done| |].
    + (* appended *)
      rewrite <- Hko in H2.
      destruct (insert_higher b x _ v A k (length k) val p l q l' r Hb ltac:(done) ltac:(by rewrite Hko) Hsz H1 H2 Hlt)
        as (inner & es & outer & Hafs & Hpo & Hpi & Hins).
      rewrite aaclose_eq in Hins. set (s' := closeT inner (Leaf v)) in *. rewrite Hko in H2.
      assert (Hlr : exists kr, l' :: r = kr ++ [0] /\ key_ok kr /\ k = p ++ kr).
      { destruct (exists_last (l := l' :: r)) as (ks & z & Hks); [done|]. exists ks.
        rewrite Hks in H2. rewrite app_assoc in H2. apply app_inj_tail in H2 as [H2 <-]. split; [done|]. split; [|done].
        unfold key_ok in *. rewrite H2 in Hk. by apply Forall_app in Hk as [_ ?]. }
      destruct Hlr as (kr & Hkr & Hkrok & Hkp).
      assert (Hout : Forall (fun f : N * edges => f.1 <> 0) outer).
      { destruct inner as [|i0 inner]; cbn in Hafs.
        - injection Hafs as <- <- <-. done.
        - injection Hafs as <- ->. apply Forall_app in Hnz as [_ Hnz]. by apply Forall_cons in Hnz as [_ ?]. }
      assert (Hl' : l' <> 0) by lia.
      assert (Hold : ent (closeT ((0, []) :: afs1) (Leaf v)) = apre outer ++ map (pfx (pathof outer)) (ent_es (es ++ [(l, s')]))).
      { rewrite Hafs, closeT_app. cbn [closeT]. fold s'. rewrite ent_close by done. done. }
      exists (fold_left afix (closedl inner (Leaf v)) x), (apush l' (es ++ [(l, s')]) r outer), (nval val), (A + S (length r))%nat.
      assert (length kr = length r) as Hlkr.
      { apply (f_equal length) in Hkr. rewrite app_length in Hkr. cbn in Hkr. lia. }
      split; [lia|]. split; [rewrite Hkp, app_length; lia|]. split.
      * split.
        -- by eapply apush_shape.
        -- exists (cl ++ closedl inner (Leaf v)). split; [by rewrite fold_left_app, Hx|].
           rewrite pnodes_apush, nodes_es_app. unfold nodes_es at 2. cbn [map concat snd]. rewrite app_nil_r.
           unfold s'. rewrite nodes_close. cbn [nodes]. rewrite app_nil_r, Hcl, Hafs, pnodes_app.
           unfold pnodes at 2. cbn [map concat snd]. fold (pnodes outer). solve_Permutation.
        -- rewrite (ent_apush _ _ _ _ _ kr) by done. rewrite app_assoc, <- Hold, Hent, !map_app. cbn [map].
           rewrite <- !app_assoc. cbn [app]. rewrite Hpo, <- Hkp. cbn [snd]. rewrite map_app. done.
        -- exists (es1 ++ [(k0, v0)]), k, val. split; [done|]. split; [|done]. rewrite pathof_apush, Hpo. done.
        -- rewrite nedges_push. rewrite HA, Hafs, closeT_app. cbn [closeT]. fold s'. rewrite nedges_close. cbn [nedges].
           unfold aopen. cbn [fst snd]. fold (nedges_es (es ++ [(l, s')])). lia.
      * intros b0 Hb0. rewrite <- Hko in H2.
        destruct (insert_higher b0 x _ v A k (length k) val p l q l' r Hb0 ltac:(done) ltac:(by rewrite Hko) Hsz H1 H2 Hlt)
          as (inner' & es' & outer' & Hafs' & Hpo' & Hpi' & Hins').
        assert (inner' = inner /\ es' = es /\ outer' = outer) as (-> & -> & ->).
        { rewrite Hafs in Hafs'. assert (length inner' = length inner) as Hl.
          { apply (f_equal length) in Hpi, Hpi'. unfold pathof in Hpi, Hpi'. rewrite rev_length, fmap_length in Hpi, Hpi'. congruence. }
          apply app_inj_1 in Hafs' as [-> Hq]; [|done]. by simplify_eq. }
        rewrite aaclose_eq in Hins'. destruct Hins' as (b' & Hr & Hb' & _). exists b'. rewrite <- val31_nval. done.
    + exists x, ((0, []) :: afs1), v, A. split; [lia|]. split; [lia|]. split.
      * split; eauto 10.
      * intros b0 Hb0. exists b0. split; [|done]. unfold InsertStringValue.
        eapply insert_lower; [exact Hb0|done|exact H1|rewrite Hko; exact H2|done].
Qed.

(** ** A whole history *)
Lemma run_abs h : forall b x afs v A es, brep_st b x afs v A -> absinv x afs v A es -> Forall (fun kv => key_ok kv.1) h ->
  N.of_nat (S (A + sum_list_with (fun kv => S (length kv.1)) h)) <= 1073741824 ->
  exists x' afs' v' A', (A' <= A + sum_list_with (fun kv => S (length kv.1)) h)%nat /\
    absinv x' afs' v' A' (spec_run es h).2 /\
    forall b0, brep_st b0 x afs v A -> exists b', insert_all b0 h = Ok ((spec_run es h).1, b') /\ brep_st b' x' afs' v' A'.
Proof.
  induction h as [|[k val] h IH]; intros b x afs v A es Hb Hab Hk Hsz.
  - exists x, afs, v, A. split; [cbn; lia|]. split; [done|]. intros b0 Hb0. exists b0. done.
  - apply Forall_cons in Hk as [Hk1 Hk]. cbn [sum_list_with fst] in *.
    destruct (insert_abs b x afs v A es k val Hb Hab Hk1 ltac:(lia)) as (x1 & afs1 & v1 & A1 & HA1 & HA2 & Hab1 & Hins).
    destruct (Hins b Hb) as (b1 & _ & Hb1).
    destruct (IH b1 x1 afs1 v1 A1 _ Hb1 Hab1 Hk ltac:(lia)) as (x2 & afs2 & v2 & A2 & HA3 & Hab2 & Hrun).
    cbn [spec_run]. destruct (spec_insert es (k, val)) as [r es'] eqn:E. cbn [fst snd] in *.
    destruct (spec_run es' h) as [rs es''] eqn:E'. cbn [fst snd] in *.
    exists x2, afs2, v2, A2. split; [lia|]. split; [done|]. intros b0 Hb0.
    destruct (Hins b0 Hb0) as (b0' & Hr & Hb0'). destruct (Hrun b0' Hb0') as (b0'' & Hr' & Hb0'').
    exists b0''. cbn [insert_all]. rewrite Hr. cbn [mbind res_bind]. rewrite Hr'. done.
Qed.

Lemma first_abs k val : key_ok k -> N.of_nat (S (S (length k))) <= 1073741824 ->
  exists afs, absinv fx0 afs (nval val) (S (length k)) [(k, val)] /\
    forall size, (1 <= size < 4294967296)%Z -> exists b,
      InsertStringValue (NewDawgBuilderWithSize size) k val = Ok (true, b) /\
      brep_st b fx0 afs (nval val) (S (length k)).
Proof.
  intros Hk Hsz. assert (Hko : keyof k (length k) = k) by (unfold keyof; by rewrite take_ge).
  destruct (k ++ [0]) as [|l r] eqn:E; [by apply app_eq_nil in E as [_ ?]|].
  exists (apush l [] r []). split.
  - split.
    + by eapply apush_shape.
    + exists []. split; [done|]. rewrite pnodes_apush. done.
    + rewrite (ent_apush _ _ _ _ _ k) by done. done.
    + exists [], k, val. split; [done|]. rewrite pathof_apush. cbn [pathof app]. done.
    + rewrite nedges_push. cbn. apply (f_equal length) in E. rewrite app_length in E. cbn in E. lia.
  - intros size Hs. destruct (insert_first size k (length k) val Hs ltac:(done)) as (b & l' & r' & H1 & H2 & H3 & _); [by rewrite Hko|done|].
    rewrite Hko, E in H1. injection H1 as <- <-. exists b. rewrite <- val31_nval. done.
Qed.

(** The state after a non-empty history. *)
Lemma history_abs kv h : hist_ok (kv :: h) ->
  exists x afs v A, absinv x afs v A (accepted (kv :: h)) /\ N.of_nat A <= hist_size (kv :: h) /\
  forall size, (1 <= size < 4294967296)%Z -> exists b,
    insert_all (NewDawgBuilderWithSize size) (kv :: h) = Ok (results (kv :: h), b) /\ brep_st b x afs v A.
Proof.
  intros [Hk Hsz]. apply Forall_cons in Hk as [Hk1 Hk]. unfold hist_size in *. destruct kv as [k val]. cbn [sum_list_with fst] in *.
  destruct (first_abs k val Hk1 ltac:(lia)) as (afs & Hab & Hb).
  destruct (Hb 1%Z ltac:(lia)) as (b & _ & Hb1).
  destruct (run_abs h b fx0 afs _ _ _ Hb1 Hab Hk ltac:(lia)) as (x & afs' & v & A & HA & Hab' & Hrun).
  unfold accepted, results. cbn [spec_run spec_insert last]. destruct (spec_run [(k, val)] h) as [rs es] eqn:E. cbn [fst snd] in *.
  exists x, afs', v, A. split; [done|]. split; [lia|].
  intros size Hs. destruct (Hb size Hs) as (b0 & Hr0 & Hb0). destruct (Hrun b0 Hb0) as (b' & Hr & Hb').
  exists b'. cbn [insert_all]. rewrite Hr0. cbn [mbind res_bind]. rewrite Hr. done.
Qed.

(** ** The finished Dawg of a tree *)
Definition kid (ts : list edges) (es : edges) (c : N) : Prop :=
  (es = [] /\ c = 0) \/ (exists k, ts !! k = Some es /\ c = N.of_nat (start ts k)).
(** Any Dawg that represents the edges, whatever else was fixed; *)
Record dawgw (d : dawg) (es : edges) (x : fixedst) : Prop := mkDW {
  dw_rep : exists root, dawgrep d x root /\ kid (x_ts x) es root;
  dw_wf : es = [] \/ wf (Node es) }.
(** and one in which nothing else was. *)
Record dawgof (d : dawg) (es : edges) (x : fixedst) : Prop := mkDO {
  do_rep : exists root, dawgrep d x root /\ kid (x_ts x) es root;
  do_wf : es = [] \/ wf (Node es);
  do_fix : exists cl, x = fold_left afix cl fx0 /\ cl ≡ₚ (if es then [] else nodes (Node es)) }.
Lemma dawgof_w d es x : dawgof d es x -> dawgw d es x.
Proof. intros [H1 H2 _]. by split. Qed.
Coercion dawgof_w : dawgof >-> dawgw.

Lemma build_abs h : hist_ok h -> exists es x,
  ent_es es = map nentry (accepted h) /\
  N.of_nat (nedges_es es) <= hist_size h /\
  forall size d0, (1 <= size < 4294967296)%Z -> exists d, build size h d0 = Ok (results h, d) /\ dawgof d es x.
Proof.
  intros Hh. destruct h as [|kv h].
  - exists [], fx0. split; [done|]. split; [cbn; lia|]. intros size d0 Hs.
    destruct (finish_empty size d0 Hs) as (d & b' & Hf & Hr). exists d. unfold build. cbn [insert_all mbind res_bind].
    rewrite Hf. cbn. split; [done|]. split.
    + exists 0. split; [done|]. by left.
    + by left.
    + by exists [].
  - destruct (history_abs kv h Hh) as (x & afs & v & A & Hab & HA & Hrun).
    destruct (Hrun 1%Z ltac:(lia)) as (b1 & _ & Hb1).
    pose proof (finish_ok b1 x afs v A dawg0 Hb1) as Hf0. rewrite aaclose_eq in Hf0.
    destruct Hf0 as (_ & _ & k & es & _ & Hes & Hk & Hwf & _ & Hcnt).
    exists es, (fold_left afix (closedl afs (Leaf v)) x). destruct Hab as [_ (cl & Hx & Hcl) Hent _ HA'].
    rewrite Hes in Hent, HA'. split; [done|]. split; [unfold nedges_es; cbn [nedges] in HA'; rewrite <- HA'; done|].
    intros size d0 Hs. destruct (Hrun size Hs) as (b & Hr & Hb).
    pose proof (finish_ok b x afs v A d0 Hb) as Hf. rewrite aaclose_eq in Hf.
    destruct Hf as (d & b' & k' & es' & Hfin & Hes' & Hk' & Hwf' & Hrep & _).
    rewrite Hes in Hes'. injection Hes' as <-. exists d. unfold build. rewrite Hr. cbn [mbind res_bind]. rewrite Hfin. cbn [mbind res_bind].
    split; [done|]. rewrite Hes in *. split.
    + eexists. split; [exact Hrep|]. right. eauto.
    + by right.
    + exists (cl ++ closedl afs (Leaf v)). split; [by rewrite fold_left_app, Hx|].
      apply wf_node_inv in Hwf' as [Hne _]. destruct es; [done|]. rewrite <- Hes, nodes_close. cbn [nodes].
      rewrite app_nil_r, Hcl. solve_Permutation.
Qed.
