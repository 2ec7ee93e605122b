(** The ranked guide of a dictionary lists the children of every node, terminators
    included, in the order given by the sort. *)
From Verif Require Import Go Dawg DawgRep Tree TreeFacts DawgFrozen DawgFix DawgMain DawgAbs DawgNav Dict DictUnit DictInv DictBuild DictDfs DictRead DictRep Guide GuideProofs Ranked.
Local Open Scope N_scope.
Local Ltac Zify.zify_post_hook ::= Z.div_mod_to_equations.
Local Arguments N.mul : simpl never.
Local Arguments N.add : simpl never.
Local Arguments N.of_nat : simpl never.
Local Arguments N.lxor : simpl never.

(** ** Insertion sort keeps the contract *)
Fixpoint insert_by {A} (less : A -> A -> bool) (x : A) (l : list A) : list A :=
  match l with [] => [x] | y :: l' => if less y x then y :: insert_by less x l' else x :: l end.
Definition isort {A} (less : A -> A -> bool) (l : list A) : list A := fold_right (insert_by less) [] l.
Lemma insert_by_perm {A} (less : A -> A -> bool) x l : insert_by less x l ≡ₚ x :: l.
Proof. induction l as [|y l IH]; [done|]. cbn. destruct (less y x); [|done]. rewrite IH. apply Permutation_swap. Qed.
Lemma isort_perm {A} (less : A -> A -> bool) l : isort less l ≡ₚ l.
Proof. induction l as [|y l IH]; [done|]. cbn [isort fold_right]. rewrite insert_by_perm. by constructor. Qed.
Lemma weak_le {A} (less : A -> A -> bool) a b c : weak_order less -> less b a = false -> less c b = false -> less c a = false.
Proof.
  intros (H1 & H2 & H3) Hba Hcb. destruct (less c a) eqn:E; [|done]. exfalso. destruct (less a b) eqn:Eab.
  - rewrite (H2 c a b E Eab) in Hcb. done.
  - destruct (less b c) eqn:Ebc.
    + rewrite (H2 b c a Ebc E) in Hba. done.
    + destruct (H3 a b c) as [_ H]; [done|done|]. congruence.
Qed.
Lemma weak_asym {A} (less : A -> A -> bool) a b : weak_order less -> less a b = true -> less b a = false.
Proof. intros (H1 & H2 & _) H. destruct (less b a) eqn:E; [|done]. pose proof (H2 _ _ _ H E). by rewrite H1 in *. Qed.
Lemma isort_sorted {A} (less : A -> A -> bool) l : weak_order less -> StronglySorted (fun a b => less b a = false) (isort less l).
Proof.
  intros Hw. induction l as [|x l IH]; [constructor|]. cbn [isort fold_right]. change (fold_right (insert_by less) [] l) with (isort less l).
  induction IH as [|y m Hm IH' Hy]; cbn [insert_by]; [repeat constructor|]. destruct (less y x) eqn:E.
  - constructor; [done|]. apply Forall_forall. intros z Hz. rewrite insert_by_perm in Hz. apply elem_of_cons in Hz as [->|Hz]; [by apply weak_asym|].
    rewrite Forall_forall in Hy. by apply Hy.
  - constructor; [by constructor|]. constructor; [done|]. eapply Forall_impl; [exact Hy|]. intros z Hz. cbn in Hz. by eapply weak_le.
Qed.
Lemma sorted_at {A} (P : A -> A -> Prop) l i j a b : StronglySorted P l -> (i < j)%nat -> l !! i = Some a -> l !! j = Some b -> P a b.
Proof.
  intros Hs. revert i j. induction Hs as [|x l Hs IH Hx]; intros i j Hij Ha Hb; [done|]. destruct j as [|j]; [lia|]. destruct i as [|i].
  - injection Ha as <-. rewrite Forall_forall in Hx. apply Hx. by eapply elem_of_list_lookup_2.
  - by apply (IH i j); [lia| |].
Qed.
Lemma isort_sorter : sorter isort.
Proof.
  split; [intros; apply isort_perm|]. intros less l i j a b Hw Hij Ha Hb.
  by apply (sorted_at (fun a b => less b a = false) _ i j a b (isort_sorted less l Hw) Hij).
Qed.
Lemma sorted_of {A} (P : A -> A -> Prop) (l : list A) : (forall i j a b, (i < j)%nat -> l !! i = Some a -> l !! j = Some b -> P a b) -> StronglySorted P l.
Proof.
  induction l as [|x l IH]; intros H; [constructor|]. constructor.
  - apply IH. intros i j a b Hij Ha Hb. apply (H (S i) (S j)); [lia|done|done].
  - apply Forall_forall. intros y (j & Hj)%elem_of_list_lookup. apply (H 0%nat (S j)); [lia|done|done].
Qed.
(** The order of BuildRankedGuide. *)
Lemma ltb_weak : weak_order (link_less Z.ltb).
Proof.
  unfold weak_order, equiv, link_less. split; [|split].
  - intros [l v]. cbn. rewrite Z.eqb_refl. cbn. apply N.ltb_irrefl.
  - intros [l1 v1] [l2 v2] [l3 v3]. cbn. destruct (Z.eqb_spec v1 v2), (Z.eqb_spec v2 v3), (Z.eqb_spec v1 v3); cbn; rewrite ?Z.ltb_lt, ?N.ltb_lt; lia.
  - intros [l1 v1] [l2 v2] [l3 v3]. cbn. destruct (Z.eqb_spec v1 v2), (Z.eqb_spec v2 v3), (Z.eqb_spec v1 v3), (Z.eqb_spec v2 v1), (Z.eqb_spec v3 v2), (Z.eqb_spec v3 v1); cbn;
      rewrite ?Z.ltb_ge, ?N.ltb_ge; lia.
Qed.

Section order.
  Context (sort : (link -> link -> bool) -> list link -> list link) (cmp : Z -> Z -> bool).
  (** The value of a subtree: that of its first link. *)
  Fixpoint mx (s : sub) : Z :=
    match s with
    | Leaf v => Z.of_N v
    | Node es => match sort (link_less cmp) (map (fun e => (e.1, mx e.2)) es) with [] => 0%Z | k :: _ => k.2 end
    end.
  Definition links (es : edges) : list link := map (fun e => (e.1, mx e.2)) es.
  Definition ord (es : edges) : list link := sort (link_less cmp) (links es).
  Definition sub_at (es : edges) (l : N) : sub := match filter (fun e => e.1 = l) es with [] => Leaf 0 | e :: _ => e.2 end.
  (** The edges in the order of the links. *)
  Definition oe (es : edges) : edges := map (fun k => (k.1, sub_at es k.1)) (ord es).
  Lemma mx_node es : mx (Node es) = match ord es with [] => 0%Z | k :: _ => k.2 end.
  Proof. done. Qed.

  Context (Hs : sorter sort).
  Lemma sub_at_in es l s : wfe es -> (l, s) ∈ es -> sub_at es l = s.
  Proof.
    intros Hw Hin. unfold sub_at. destruct (filter _ es) as [|[l' s'] t] eqn:E.
    - exfalso. assert (H : (l, s) ∈ filter (fun e : N * sub => e.1 = l) es) by (by apply elem_of_list_filter). rewrite E in H. by apply elem_of_nil in H.
    - assert (H : (l', s') ∈ filter (fun e : N * sub => e.1 = l) es) by (rewrite E; constructor). apply elem_of_list_filter in H as [H1 H2]. cbn in H1. subst l'.
      cbn. by apply (wfe_lab es l).
  Qed.
  Lemma oe_perm es : wfe es -> oe es ≡ₚ es.
  Proof.
    intros Hw. unfold oe, ord. rewrite (proj1 Hs). unfold links. rewrite map_map. cbn [fst].
    assert (E : map (fun e : N * sub => (e.1, sub_at es e.1)) es = es); [|by rewrite E].
    transitivity (map id es); [|apply map_id]. apply map_ext_in. intros [l s] Hin. cbn [fst]. unfold id. f_equal. apply sub_at_in; [done|]. by apply elem_of_list_In.
  Qed.
  Lemma oe_links es : wfe es -> map (fun e => (e.1, mx e.2)) (oe es) = ord es.
  Proof.
    intros Hw. unfold oe. rewrite map_map. cbn [fst snd]. transitivity (map id (ord es)); [|apply map_id]. apply map_ext_in. intros [l v] Hin. cbn [fst]. unfold id.
    f_equal. apply elem_of_list_In in Hin. unfold ord in Hin. rewrite (proj1 Hs) in Hin. apply elem_of_list_fmap_2 in Hin as ([l' s] & [= -> ->] & Hin).
    by rewrite (sub_at_in es l' s Hw Hin).
  Qed.
  Lemma oe_labels es : (oe es).*1 = (ord es).*1.
  Proof. unfold oe. change (map ?f ?x) with (f <$> x). rewrite <- list_fmap_compose. by apply list_fmap_ext. Qed.
  Lemma ord_labels es : (ord es).*1 ≡ₚ es.*1.
  Proof.
    unfold ord. rewrite (proj1 Hs). unfold links. change (map ?f ?x) with (f <$> x). rewrite <- list_fmap_compose. done.
  Qed.
  Lemma ord_nodup es : wfe es -> NoDup (ord es).*1.
  Proof. intros Hw. rewrite ord_labels. by apply wfe_labels. Qed.
  Lemma ord_ne es : es <> [] -> ord es <> [].
  Proof. intros Hne E. pose proof (ord_labels es) as H. rewrite E in H. apply Permutation_nil_l in H. by destruct es. Qed.
  (** The first edge decides the value. *)
  Lemma mx_first es : wfe es -> es <> [] -> exists l s rest, oe es = (l, s) :: rest /\ (l, s) ∈ es /\ mx (Node es) = mx s /\ hd 0 (ord es).*1 = l.
  Proof.
    intros Hw Hne. pose proof (ord_ne es Hne) as Ho. pose proof (oe_links es Hw) as Hl. destruct (oe es) as [|[l s] rest] eqn:E; [by rewrite <- Hl in Ho|].
    exists l, s, rest. split; [done|]. split; [rewrite <- (oe_perm es Hw), E; constructor|]. rewrite mx_node, <- Hl. done.
  Qed.
  Lemma nxt_oe es pre l s rest : wfe es -> oe es = pre ++ (l, s) :: rest -> nxt l (ord es).*1 = hd 0 rest.*1.
  Proof.
    intros Hw E. pose proof (ord_nodup es Hw) as Hnd. rewrite <- oe_labels, E, fmap_app in *. cbn [fmap list_fmap fst] in *.
    rewrite (nxt_at _ (length pre)) with (l := l); [|done|].
    - rewrite lookup_app_r by (rewrite fmap_length; lia). rewrite fmap_length. replace (S (length pre) - length pre)%nat with 1%nat by lia. by destruct rest as [|[]].
    - rewrite lookup_app_r by (rewrite fmap_length; lia). rewrite fmap_length, Nat.sub_diag. done.
  Qed.
End order.

(** ** Where the children are *)
Definition pos (us : dict) (i l : N) : N := match us !! N.to_nat i with Some u => N.lxor (N.lxor i (dictOffset u)) l | None => 0 end.
Section pos.
  Context (us : dict) (R : edges) (node : N -> edges -> Prop) (HN : drep us R node).
  Lemma node_unit i es : node i es -> exists u, us !! N.to_nat i = Some u.
  Proof using HN. intros Hn. apply lookup_lt_is_Some_2. pose proof (rp_lt _ _ _ HN _ _ Hn). lia. Qed.
  Lemma fwc_ok i es l : node i es -> fwc us i l = Ok (pos us i l).
  Proof using HN. intros Hn. destruct (node_unit i es Hn) as [u Hu]. unfold fwc, pos, get. by rewrite Hu. Qed.
  Lemma pos_kid i es l e1 : node i es -> (l, Node e1) ∈ es -> dc_Follow us l i = Ok (true, pos us i l) /\ node (pos us i l) e1 /\ pos us i l <> 0.
  Proof using HN.
    intros Hn Hl. destruct (rp_kid _ _ _ HN _ _ _ _ Hn Hl) as (j & Hf & Hj & Hj0). destruct (node_unit i es Hn) as [u Hu].
    assert (E : pos us i l = j) by (unfold pos; rewrite Hu; symmetry; by apply (Follow_inv us l i j u)). by rewrite E.
  Qed.
  Lemma pos_leaf i es v : node i es -> (0, Leaf v) ∈ es -> us !! N.to_nat (pos us i 0) = Some (dictSetValue (Z.of_N v)) /\ forall es', ~ node (pos us i 0) es'.
  Proof using HN.
    intros Hn Hv. destruct (rp_leaf _ _ _ HN _ _ _ Hn Hv) as (u & Hu & H1 & H2). unfold pos. rewrite Hu, N.lxor_0_r. done.
  Qed.
  Lemma pos_lt i es l s : node i es -> (l, s) ∈ es -> pos us i l < N.of_nat (length us).
  Proof using HN.
    intros Hn Hl. pose proof (rp_wf _ _ _ HN _ _ Hn) as Hw. apply wf_wfe in Hw as [_ Hw]. destruct s as [v|e1].
    - destruct (wfe_leaf _ _ _ Hw Hl) as [-> _]. destruct (pos_leaf i es v Hn Hl) as [H _]. apply lookup_lt_Some in H. lia.
    - destruct (pos_kid i es l e1 Hn Hl) as (_ & Hj & _). by eapply rp_lt.
  Qed.
  Lemma pos_up i es l s i' es' l' s' : node i es -> (l, s) ∈ es -> node i' es' -> (l', s') ∈ es' -> pos us i l = pos us i' l' -> es = es' /\ l = l'.
  Proof using HN.
    intros Hn Hl Hn' Hl' E. pose proof (rp_wf _ _ _ HN _ _ Hn) as Hw. apply wf_wfe in Hw as [_ Hw]. pose proof (rp_wf _ _ _ HN _ _ Hn') as Hw'. apply wf_wfe in Hw' as [_ Hw'].
    destruct s as [v|e1], s' as [v'|e1'].
    - destruct (wfe_leaf _ _ _ Hw Hl) as [-> _]. destruct (wfe_leaf _ _ _ Hw' Hl') as [-> _]. split; [|done].
      destruct (node_unit i es Hn) as [u Hu]. destruct (node_unit i' es' Hn') as [u' Hu']. unfold pos in E. rewrite Hu, Hu', !N.lxor_0_r in E.
      exact (rp_leaf_up _ _ _ HN _ _ _ _ _ _ _ _ Hn Hl Hu Hn' Hl' Hu' E).
    - destruct (wfe_leaf _ _ _ Hw Hl) as [-> _]. destruct (pos_leaf i es v Hn Hl) as [_ H]. destruct (pos_kid i' es' l' e1' Hn' Hl') as (_ & Hj & _).
      rewrite <- E in Hj. by apply H in Hj.
    - destruct (wfe_leaf _ _ _ Hw' Hl') as [-> _]. destruct (pos_leaf i' es' v' Hn' Hl') as [_ H]. destruct (pos_kid i es l e1 Hn Hl) as (_ & Hj & _).
      rewrite E in Hj. by apply H in Hj.
    - destruct (pos_kid i es l e1 Hn Hl) as (Hf & _). destruct (pos_kid i' es' l' e1' Hn' Hl') as (Hf' & _). rewrite <- E in Hf'.
      exact (rp_up _ _ _ HN _ _ _ _ _ _ _ _ _ Hn Hl Hf Hn' Hl' Hf').
  Qed.
End pos.

(** ** What a ranked guide should be *)
Record rgrep (sort : (link -> link -> bool) -> list link -> list link) (cmp : Z -> Z -> bool) (us : dict) (node : N -> edges -> Prop) (g : guide) : Prop := mkRG {
  rg_len : length g = length us;
  rg_child : forall i es, node i es -> gd_Child g i = Ok (hd 0 (ord sort cmp es).*1);
  rg_sib : forall i es l s, node i es -> (l, s) ∈ es -> gd_Sibling g (pos us i l) = Ok (nxt l (ord sort cmp es).*1) }.

Section ranked.
  Context (us : dict) (R : edges) (node : N -> edges -> Prop) (HN : drep us R node).
  Context (d : dawg) (x : fixedst) (HD : dawgw d R x) (HR : R <> []).
  Context (sort : (link -> link -> bool) -> list link -> list link) (cmp : Z -> Z -> bool) (Hs : sorter sort).
  Local Notation ts := (x_ts x).
  Local Notation ord es := (ord sort cmp es).
  Local Notation mx s := (mx sort cmp s).
  Local Notation pos i l := (pos us i l).

  Record ri (g : guide) (tbl : list N) (S : list N) : Prop := mkRI {
    ri_len : length g = length us;
    ri_tbl : length tbl = (length us / 8)%nat;
    ri_done : forall i es, node i es -> fxb tbl i = true -> i ∉ S -> gc g i = hd 0 (ord es).*1 /\
      forall l s, (l, s) ∈ es -> gs g (pos i l) = nxt l (ord es).*1 /\ (is_leaf s = false -> fxb tbl (pos i l) = true);
    ri_sib : forall i es l s, node i es -> (l, s) ∈ es -> gs g (pos i l) = 0 \/ gs g (pos i l) = nxt l (ord es).*1 }.
  Lemma gets g tbl S i : ri g tbl S -> i < N.of_nat (length us) -> gd_Child g i = Ok (gc g i) /\ gd_Sibling g i = Ok (gs g i).
  Proof.
    intros HI Hi. unfold gd_Child, gd_Sibling, get. destruct (lookup_lt_is_Some_2 g (N.to_nat i)) as [u ->]; [rewrite (ri_len _ _ _ HI); lia|]. done.
  Qed.
  Lemma findMax_ok g tbl S fuel : ri g tbl S -> forall i es, (hgt (Node es) <= fuel)%nat -> node i es -> fxb tbl i = true ->
    (forall s es', s ∈ S -> node s es' -> (hgt (Node es) < hgt (Node es'))%nat) ->
    rb_findMax fuel us g i = Ok (Some (mx (Node es))).
  Proof using HN Hs.
    intros HI. induction fuel as [|fuel IH]; intros i es Hh Hn Hf HS; [pose proof (hgt_pos (Node es)); lia|]. cbn [rb_findMax].
    pose proof (rp_wf _ _ _ HN _ _ Hn) as Hw. apply wf_wfe in Hw as [Hne Hw].
    assert (Hni : i ∉ S) by (intros Hc; specialize (HS _ _ Hc Hn); lia).
    destruct (gets g tbl S i HI (rp_lt _ _ _ HN _ _ Hn)) as [-> _]. cbn [mbind res_bind].
    destruct (ri_done _ _ _ HI _ _ Hn Hf Hni) as [-> Hk]. destruct (mx_first sort cmp Hs es Hw Hne) as (l & s & rest & _ & Hin & -> & ->).
    destruct (N.eqb_spec l 0) as [->|Hl]; cbn [negb].
    - destruct (wfe_zero _ _ Hw Hin) as [v ->]. rewrite (rp_has _ _ _ HN _ _ Hn). rewrite (proj2 (has0_in es Hw)) by (by exists v). cbn [mbind res_bind negb].
      rewrite (rp_val _ _ _ HN _ _ v Hn Hin). done.
    - destruct s as [v|e1]; [by destruct (wfe_leaf _ _ _ Hw Hin)|]. destruct (pos_kid us R node HN i es l e1 Hn Hin) as (-> & Hj & _). cbn [mbind res_bind negb].
      pose proof (hgt_in _ _ _ Hin). apply IH; [lia|done|by apply (Hk l (Node e1))|]. intros s es' Hs' Hn'. specialize (HS _ _ Hs' Hn'). lia.
  Qed.
  Lemma upd_gc (g : guide) i (f : N * N -> N * N) : i < N.of_nat (length g) -> exists g', upd g i f = Ok g' /\ length g' = length g /\
    forall j, gc g' j = (if j =? i then default 0 (fst <$> (f <$> g !! N.to_nat j)) else gc g j) /\ gs g' j = (if j =? i then default 0 (snd <$> (f <$> g !! N.to_nat j)) else gs g j).
  Proof.
    intros Hi. destruct (upd_get g i f Hi) as (g' & H1 & H2 & H3). exists g'. split; [done|]. split; [done|]. intros j. rewrite H3. by destruct (j =? i).
  Qed.
  Lemma get_some (g : guide) i : i < N.of_nat (length g) -> exists u, g !! N.to_nat i = Some u.
  Proof. intros Hi. apply lookup_lt_is_Some_2. lia. Qed.

  (** Writing the links of [i]. *)
  Lemma turn_ok i es : node i es -> forall rest pre a g, (ord es).*1 = pre ++ a :: rest ->
    length g = length us -> (forall i' es' l s, node i' es' -> (l, s) ∈ es' -> gs g (pos i' l) = 0 \/ gs g (pos i' l) = nxt l (ord es').*1) ->
    exists g', rb_turn us i g (pos i a) rest = Ok g' /\ length g' = length us /\ (forall j, gc g' j = gc g j) /\
      (forall i' es' l s, node i' es' -> (l, s) ∈ es' -> gs g' (pos i' l) = 0 \/ gs g' (pos i' l) = nxt l (ord es').*1) /\
      (forall i' es' l s, node i' es' -> (l, s) ∈ es' -> gs g (pos i' l) = nxt l (ord es').*1 -> gs g' (pos i' l) = nxt l (ord es').*1) /\
      (forall l, l ∈ a :: rest -> gs g' (pos i l) = nxt l (ord es).*1).
  Proof using HN Hs.
    intros Hn. pose proof (rp_wf _ _ _ HN _ _ Hn) as Hw. apply wf_wfe in Hw as [Hne Hw]. pose proof (ord_nodup sort cmp Hs es Hw) as Hnd.
    assert (Hlab : forall l, l ∈ (ord es).*1 -> exists s, (l, s) ∈ es).
    { intros l Hl. rewrite (ord_labels sort cmp Hs) in Hl. apply in_fst in Hl as [s Hl]. by exists s. }
    induction rest as [|b rest IH]; intros pre a g Ho Hlg Hsib; cbn [rb_turn].
    - exists g. split; [done|]. split; [done|]. split; [done|]. split; [done|]. split; [done|]. intros l Hl. apply elem_of_list_singleton in Hl as ->.
      destruct (Hlab a) as [s Ha]; [rewrite Ho; apply elem_of_app; right; left|]. destruct (Hsib i es a s Hn Ha) as [E|E]; [|done]. rewrite E. symmetry.
      rewrite (nxt_at _ (length pre) a Hnd); rewrite Ho.
      + rewrite lookup_ge_None_2; [done|]. rewrite app_length. cbn. lia.
      + rewrite lookup_app_r, Nat.sub_diag by lia. done.
    - rewrite (fwc_ok us R node HN i es b Hn). cbn [mbind res_bind]. destruct (Hlab a) as [sa Ha]; [rewrite Ho; apply elem_of_app; right; left|].
      pose proof (pos_lt us R node HN i es a sa Hn Ha) as Hpl.
      assert (Hnx : nxt a (ord es).*1 = b).
      { rewrite (nxt_at _ (length pre) a Hnd); rewrite Ho; rewrite lookup_app_r by lia; [|by rewrite Nat.sub_diag].
        replace (S (length pre) - length pre)%nat with 1%nat by lia. done. }
      destruct (upd_gc g (pos i a) (fun u => (u.1, b))) as (g1 & -> & Hl1 & Hg1); [lia|]. cbn [mbind res_bind].
      destruct (get_some g (pos i a)) as [ua Hua]; [lia|].
      assert (Hgc : forall j, gc g1 j = gc g j).
      { intros j. destruct (Hg1 j) as [-> _]. destruct (N.eqb_spec j (pos i a)) as [->|]; [|done]. by rewrite Hua. }
      assert (Hgs : forall j, gs g1 j = if j =? pos i a then b else gs g j).
      { intros j. destruct (Hg1 j) as [_ ->]. destruct (N.eqb_spec j (pos i a)) as [->|]; [|done]. by rewrite Hua. }
      assert (Hsib1 : forall i' es' l s, node i' es' -> (l, s) ∈ es' -> gs g1 (pos i' l) = 0 \/ gs g1 (pos i' l) = nxt l (ord es').*1).
      { intros i' es' l s Hn' Hl. rewrite Hgs. destruct (N.eqb_spec (pos i' l) (pos i a)) as [E|]; [|by apply (Hsib i' es' l s)].
        destruct (pos_up us R node HN i' es' l s i es a sa Hn' Hl Hn Ha E) as [-> ->]. by right. }
      assert (Hext : forall i' es' l s, node i' es' -> (l, s) ∈ es' -> gs g (pos i' l) = nxt l (ord es').*1 -> gs g1 (pos i' l) = nxt l (ord es').*1).
      { intros i' es' l s Hn' Hl H. rewrite Hgs. destruct (N.eqb_spec (pos i' l) (pos i a)) as [E|]; [|done].
        destruct (pos_up us R node HN i' es' l s i es a sa Hn' Hl Hn Ha E) as [-> ->]. done. }
      destruct (IH (pre ++ [a]) b g1) as (g' & -> & H1 & H2 & H3 & H4 & H5); [by rewrite <- app_assoc|congruence|done|].
      exists g'. split; [done|]. split; [done|]. split; [intros j; by rewrite H2|]. split; [done|]. split; [intros i' es' l s Hn' Hl H; apply (H4 i' es' l s Hn' Hl); by apply (Hext i' es' l s)|].
      intros l Hl. apply elem_of_cons in Hl as [->|Hl]; [|by apply H5]. apply (H4 i es a sa Hn Ha). by rewrite Hgs, N.eqb_refl.
  Qed.
  Lemma turnLinks_ok i es g tbl S : node i es -> ri g tbl (i :: S) -> fxb tbl i = true -> (forall l e1, (l, Node e1) ∈ es -> fxb tbl (pos i l) = true) ->
    exists g', rb_turnLinks us i g (ord es) = Ok g' /\ ri g' tbl S.
  Proof using HN Hs.
    intros Hn HI Hfi Hk. pose proof (rp_wf _ _ _ HN _ _ Hn) as Hw. apply wf_wfe in Hw as [Hne Hw]. pose proof (ord_ne sort cmp Hs es Hne) as Hone.
    pose proof HI as [A1 A2 A3 A4].
    unfold rb_turnLinks. destruct (ord es) as [|[l0 v0] rest] eqn:Eo; [done|]. cbn [fst].
    destruct (upd_gc g i (fun u => (l0, u.2))) as (g1 & -> & Hl1 & Hg1); [pose proof (rp_lt _ _ _ HN _ _ Hn); lia|]. cbn [mbind res_bind].
    rewrite (fwc_ok us R node HN i es l0 Hn). cbn [mbind res_bind].
    destruct (get_some g i) as [ui Hui]; [pose proof (rp_lt _ _ _ HN _ _ Hn); lia|].
    assert (Hgs : forall j, gs g1 j = gs g j).
    { intros j. destruct (Hg1 j) as [_ ->]. destruct (N.eqb_spec j i) as [->|]; [|done]. by rewrite Hui. }
    assert (Hgc : forall j, gc g1 j = if j =? i then l0 else gc g j).
    { intros j. destruct (Hg1 j) as [-> _]. destruct (N.eqb_spec j i) as [->|]; [|done]. by rewrite Hui. }
    destruct (turn_ok i es Hn rest.*1 [] l0 g1) as (g' & Hg' & H1 & H2 & H3 & H4 & H5).
    - by rewrite Eo.
    - congruence.
    - intros i' es' l s Hn' Hl. rewrite Hgs. by apply (A4 i' es' l s).
    - exists g'. split; [exact Hg'|]. constructor; [done|done| |done]. intros i' es' Hn' Hf' Hni. rewrite H2, Hgc. destruct (N.eqb_spec i' i) as [->|Hii].
      + rewrite (rp_fun _ _ _ HN _ _ _ Hn' Hn), Eo. split; [done|]. intros l s Hl. split.
        * rewrite H5; [by rewrite Eo|]. change (l0 :: rest.*1) with (((l0, v0) :: rest).*1). rewrite <- Eo, (ord_labels sort cmp Hs). by eapply fst_in.
        * intros Hlf. destruct s as [v|e1]; [done|]. by apply (Hk l e1).
      + destruct (A3 i' es' Hn' Hf') as [B1 B2]; [by apply not_elem_of_cons|]. split; [done|]. intros l s Hl. destruct (B2 l s Hl) as [B3 B4]. split; [|done].
        apply (H4 i' es' l s Hn' Hl). by rewrite Hgs.
  Qed.

  Lemma rcall_ok fuel : forall S st i es di k, (hgt (Node es) <= fuel)%nat -> node i es -> ts !! k = Some es ->
    dawg_child d di = Ok (N.of_nat (start ts k)) -> ri (r_units st) (r_tbl st) S ->
    (forall s es', s ∈ S -> node s es' -> (hgt (Node es) < hgt (Node es'))%nat) ->
    exists st', rb_buildIndices sort cmp fuel d us st di i = Ok (Some (mx (Node es)), st') /\ ri (r_units st') (r_tbl st') S /\ r_links st' = r_links st /\
      (forall j, fxb (r_tbl st) j = true -> fxb (r_tbl st') j = true) /\ fxb (r_tbl st') i = true.
  Proof using HN HD Hs.
    pose proof (HF d R x HD) as Hfz.
    induction fuel as [|fuel IH]; intros S st i es di k Hh Hn Hk Hdc HI HS; [pose proof (hgt_pos (Node es)); lia|].
    cbn [rb_buildIndices]. pose proof (rp_lt _ _ _ HN _ _ Hn) as Hi. destruct (rp_blk _ _ _ HN) as [nb Hnb].
    assert (Ht8 : 8 * N.of_nat (length (r_tbl st)) = N.of_nat (length us)).
    { rewrite (ri_tbl _ _ _ HI), Hnb. assert (256 * nb / 8 = 32 * nb)%nat as -> by (replace (256 * nb)%nat with (32 * nb * 8)%nat by lia; by apply Nat.div_mul). lia. }
    rewrite isFixed_ok by lia. cbn [mbind res_bind]. destruct (fxb (r_tbl st) i) eqn:Efx.
    { rewrite (findMax_ok (r_units st) (r_tbl st) S _ HI i es); [|by apply (hgt_units us R node HN i)|done|done|done]. cbn [mbind res_bind]. exists st. done. }
    destruct (setFixed_ok (r_tbl st) i) as (tbl & -> & Htl & Htb); [lia|]. cbn [mbind res_bind]. cbv zeta. rewrite Hdc. cbn [mbind res_bind].
    pose proof (rp_wf _ _ _ HN _ _ Hn) as Hwf. pose proof (proj1 (wf_wfe es) Hwf) as [Hne Hw].
    assert (HI1 : ri (r_units st) tbl (i :: S)).
    { destruct HI as [A1 A2 A3 A4]. constructor; [done|by rewrite Htl| |done]. intros i' es' Hn' Hf' Hni. rewrite Htb in Hf'. apply not_elem_of_cons in Hni as [Hne' Hni].
      rewrite (proj2 (N.eqb_neq _ _) Hne') in Hf'. cbn [orb] in Hf'. destruct (A3 _ _ Hn' Hf' Hni) as [B1 B2]. split; [done|]. intros l s Hl. destruct (B2 l s Hl) as [C1 C2].
      split; [done|]. intros Hlf. rewrite Htb, (C2 Hlf). apply orb_true_r. }
    assert (Hfi : fxb tbl i = true) by (rewrite Htb, N.eqb_refl; done).
    assert (Hmono : forall j, fxb (r_tbl st) j = true -> fxb tbl j = true) by (intros j Hj; rewrite Htb, Hj; apply orb_true_r).
    set (loop := rb_enum (rb_buildIndices sort cmp fuel d us) d us i).
    assert (Hloop : forall m j n st1, (length es = j + m)%nat -> (m <= n)%nat -> ri (r_units st1) (r_tbl st1) (i :: S) ->
      r_links st1 = r_links st ++ links sort cmp (take j es) -> (forall j, fxb tbl j = true -> fxb (r_tbl st1) j = true) ->
      (forall l e1, (l, Node e1) ∈ take j es -> fxb (r_tbl st1) (pos i l) = true) ->
      exists st', loop n st1 (if Nat.ltb j (length es) then N.of_nat (start ts k + j) else 0) = Ok (true, st') /\ ri (r_units st') (r_tbl st') (i :: S) /\
        r_links st' = r_links st ++ links sort cmp es /\ (forall j, fxb tbl j = true -> fxb (r_tbl st') j = true) /\
        (forall l e1, (l, Node e1) ∈ es -> fxb (r_tbl st') (pos i l) = true)).
    { induction m as [|m IHm]; intros j n st1 Hlen Hmn HIj Hlj Hmj Hkj.
      - destruct (Nat.ltb_spec j (length es)); [lia|]. rewrite take_ge in Hlj, Hkj by lia. exists st1. split; [by unfold loop; destruct n|]. done.
      - destruct (Nat.ltb_spec j (length es)) as [Hlt|]; [|lia]. destruct n as [|n]; [lia|]. unfold loop. cbn [rb_enum].
        assert (Hst : (N.of_nat (start ts k + j) =? 0) = false) by (apply N.eqb_neq; unfold start; lia). rewrite Hst.
        destruct (lookup_lt_is_Some_2 es j Hlt) as [[l s] He]. assert (Hin : (l, s) ∈ es) by (by eapply elem_of_list_lookup_2).
        destruct (nav_edge d ts Hfz k es j l s Hk He) as (N1 & N2 & N3). rewrite N1. cbn [mbind res_bind].
        assert (Hstep : exists st2, (if l =? 0 then
              has ← dc_HasValue us i; if negb has then Ok (None, st1) else v ← dc_Value us i; Ok (Some v, st1)
            else '(ok, jj) ← dc_Follow us l i; if negb ok then Ok (None, st1) else rb_buildIndices sort cmp fuel d us st1 (N.of_nat (start ts k + j)) jj) = Ok (Some (mx s), st2) /\
            ri (r_units st2) (r_tbl st2) (i :: S) /\ r_links st2 = r_links st1 /\ (forall j, fxb (r_tbl st1) j = true -> fxb (r_tbl st2) j = true) /\
            (is_leaf s = false -> fxb (r_tbl st2) (pos i l) = true)).
        { destruct s as [v|e1].
          - destruct (wfe_leaf _ _ _ Hw Hin) as [-> _]. exists st1. split; [|done]. cbn [N.eqb].
            rewrite (rp_has _ _ _ HN _ _ Hn). rewrite (proj2 (has0_in es Hw)) by (by exists v). cbn [mbind res_bind negb].
            rewrite (rp_val _ _ _ HN _ _ v Hn Hin). done.
          - destruct (wfe_kid _ _ _ Hw Hin) as (_ & _ & Hl0 & _). rewrite (proj2 (N.eqb_neq _ _) Hl0).
            destruct (pos_kid us R node HN i es l e1 Hn Hin) as (-> & Hj & _). cbn [mbind res_bind negb]. destruct N3 as (k1 & Hk1 & N3).
            pose proof (hgt_in _ _ _ Hin) as Hhl.
            destruct (IH (i :: S) st1 (pos i l) e1 (N.of_nat (start ts k + j)) k1) as (st2 & -> & B1 & B2 & B3 & B4); [lia|done|done|done|done| |].
            + intros s' es' Hs' Hns'. apply elem_of_cons in Hs' as [->|Hs']; [by rewrite (rp_fun _ _ _ HN _ _ _ Hns' Hn)|]. specialize (HS _ _ Hs' Hns'). lia.
            + exists st2. done. }
        destruct Hstep as (st2 & -> & B1 & B2 & B3 & B4). cbn [mbind res_bind]. rewrite N2. cbn [mbind res_bind].
        destruct (IHm (Datatypes.S j) n (mkRst (r_units st2) (r_links st2 ++ [(l, mx s)]) (r_tbl st2))) as (st' & Hst' & C1 & C2 & C3 & C4).
        + lia.
        + lia.
        + done.
        + cbn [r_links]. rewrite B2, Hlj, <- app_assoc. f_equal. rewrite (take_S_r es j (l, s) He). unfold links. by rewrite map_app.
        + intros j' Hj'. cbn [r_tbl]. by apply B3, Hmj.
        + intros l' e1 Hl'. cbn [r_tbl]. rewrite (take_S_r es j (l, s) He) in Hl'. apply elem_of_app in Hl' as [Hl'|Hl'].
          * apply B3. by apply (Hkj l' e1).
          * apply elem_of_list_singleton in Hl' as [= -> <-]. by apply B4.
        + exists st'. split; [|done]. exact Hst'. }
    destruct (Hloop (length es) 0%nat (Datatypes.S (length (d_base d))) (mkRst (r_units st) (r_links st) tbl)) as (st' & Hst' & C1 & C2 & C3 & C4).
    - done.
    - pose proof (frozen_len d ts Hfz k es Hk). lia.
    - done.
    - cbn [r_links take links map]. by rewrite app_nil_r.
    - done.
    - intros l e1 H. by apply elem_of_nil in H.
    - clearbody loop. destruct (Nat.ltb_spec 0 (length es)) as [_|Hbad]; [|destruct es; [done|cbn in Hbad; lia]]. rewrite Nat.add_0_r in Hst'. rewrite Hst'.
      cbn [mbind res_bind negb]. rewrite C2, drop_app, take_app. change (sort (link_less cmp) (links sort cmp es)) with (ord es).
      destruct (turnLinks_ok i es (r_units st') (r_tbl st') S Hn C1 (C3 _ Hfi) C4) as (g' & -> & D1). cbn [mbind res_bind].
      pose proof (ord_ne sort cmp Hs es Hne) as Hone. rewrite mx_node. destruct (ord es) as [|k0 rest]; [done|]. eexists. split; [done|]. cbn [r_units r_tbl r_links].
      split; [done|]. split; [done|]. split; [intros j Hj; by apply C3, Hmono|by apply C3].
  Qed.
  Lemma BuildRanked_ok : exists g, BuildRankedGuideCmp sort cmp d us = Ok (Some g) /\ rgrep sort cmp us node g.
  Proof using HN HD HR Hs.
    destruct (dw_child d R x HD) as (c & Hc & [[? _]|(k & Hk & ->)]); [done|]. pose proof (HF d R x HD) as Hfz.
    assert (Hsz : (dawg_size d <=? 1) = false).
    { apply N.leb_gt. unfold dawg_size. rewrite (fz_base _ _ _ Hfz). pose proof (start_bound _ _ _ Hk).
      destruct R; [done|]. unfold start in *. cbn [length] in *. lia. }
    unfold BuildRankedGuideCmp. rewrite Hsz. cbv zeta.
    assert (Hz : forall i : N, (replicate (length us) (0, 0) : guide) !! N.to_nat i = None \/ (replicate (length us) (0, 0) : guide) !! N.to_nat i = Some (0, 0)).
    { intros i. destruct (replicate (length us) (0, 0) !! N.to_nat i) eqn:E; [right|by left]. apply lookup_replicate in E as [-> _]. done. }
    assert (Hf0 : forall i, fxb (replicate (length us / 8) 0) i = false).
    { intros i. unfold fxb. destruct (replicate (length us / 8) 0 !! N.to_nat (i / 8)) eqn:E; [|done]. apply lookup_replicate in E as [-> _]. apply N.bits_0. }
    destruct (rcall_ok (S (length us)) [] (mkRst (replicate (length us) (0, 0)) [] (replicate (length us / 8) 0)) 0 R dawg_root k) as (st & Hg & HI & _ & _ & H0).
    - by apply (hgt_units us R node HN 0), HN.
    - apply HN.
    - done.
    - done.
    - constructor; cbn [r_units r_tbl].
      + apply replicate_length.
      + apply replicate_length.
      + intros i es _ Hf. by rewrite Hf0 in Hf.
      + intros i es l s _ _. left. by destruct (Hz (pos i l)) as [->| ->].
    - intros s es' Hs'. by apply elem_of_nil in Hs'.
    - rewrite Hg. cbn [mbind res_bind]. exists (r_units st). split; [done|].
      assert (Hnil : forall i, i ∉ ([] : list N)) by (intros i H; by apply elem_of_nil in H).
      assert (Hall : forall i es, node i es -> fxb (r_tbl st) i = true).
      { intros i es Hi. destruct (rp_reach _ _ _ HN _ _ Hi) as (p & Ht & Hf).
        assert (Hstep : forall es0 p es, tnode es0 p es -> forall i0 i, node i0 es0 -> fxb (r_tbl st) i0 = true -> dc_FollowString us p i0 = Ok (true, i) -> fxb (r_tbl st) i = true).
        { clear -HN HI Hnil. induction 1 as [|es0 l es1 p es H1 H2 IH]; intros i0 i Hn Hf0 Hfo; [cbn in Hfo; congruence|]. cbn [dc_FollowString] in Hfo.
          destruct (pos_kid us R node HN _ _ _ _ Hn H1) as (Hj & Hnj & _). rewrite Hj in Hfo. cbn [mbind res_bind] in Hfo.
          eapply IH; [exact Hnj| |exact Hfo]. destruct (ri_done _ _ _ HI _ _ Hn Hf0 (Hnil i0)) as [_ B]. by apply (B l (Node es1)). }
        eapply Hstep; [exact Ht|apply HN|done|done]. }
      constructor.
      + apply HI.
      + intros i es Hi. destruct (gets _ _ _ i HI (rp_lt _ _ _ HN _ _ Hi)) as [-> _]. f_equal. by apply (ri_done _ _ _ HI _ _ Hi (Hall _ _ Hi)).
      + intros i es l s Hi Hl. destruct (gets _ _ _ (pos i l) HI (pos_lt us R node HN _ _ _ _ Hi Hl)) as [_ ->]. f_equal.
        by apply (proj2 (ri_done _ _ _ HI _ _ Hi (Hall _ _ Hi) (Hnil i)) l s).
  Qed.
End ranked.
