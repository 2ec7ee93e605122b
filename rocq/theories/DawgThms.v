(** Proofs of the theorems stated in Properties_Dawg.v. *)
From Verif Require Import Go BitPool BitPoolProofs Dawg Tree DawgRep DawgFrozen DawgFix DawgMain DawgSpec TreeFacts DawgAbs DawgNav.
Local Open Scope N_scope.
Local Ltac Zify.zify_post_hook ::= Z.div_mod_to_equations.
Local Arguments N.mul : simpl never.
Local Arguments N.add : simpl never.
Local Arguments N.of_nat : simpl never.

(** ** Specification facts *)
Lemma spec_run_app es h1 h2 : spec_run es (h1 ++ h2) =
  ((spec_run es h1).1 ++ (spec_run (spec_run es h1).2 h2).1, (spec_run (spec_run es h1).2 h2).2).
Proof.
  revert es. induction h1 as [|kv h1 IH]; intros es; cbn [app spec_run].
  - cbn [fst snd]. by destruct (spec_run es h2).
  - destruct (spec_insert es kv) as [r es']. rewrite IH. destruct (spec_run es' h1) as [rs es'']. done.
Qed.
Lemma results_snoc h kv : results (h ++ [kv]) = results h ++ [(spec_insert (accepted h) kv).1].
Proof. unfold results, accepted. rewrite spec_run_app. cbn [spec_run fst snd]. by destruct (spec_insert _ kv). Qed.
Lemma accepted_snoc h kv : accepted (h ++ [kv]) = (spec_insert (accepted h) kv).2.
Proof. unfold results, accepted. rewrite spec_run_app. cbn [spec_run fst snd]. by destruct (spec_insert _ kv). Qed.
Lemma results_length h : length (results h) = length h.
Proof. induction h as [|kv h IH] using rev_ind; [done|]. rewrite results_snoc, !app_length, IH. done. Qed.
Lemma hist_ok_app h h' : hist_ok (h ++ h') -> hist_ok h.
Proof.
  intros [H1 H2]. apply Forall_app in H1 as [H1 _]. split; [done|]. unfold hist_size in *.
  assert (forall a b : list entry, sum_list_with (fun kv => S (length kv.1)) (a ++ b) =
   (sum_list_with (fun kv => S (length kv.1)) a + sum_list_with (fun kv => S (length kv.1)) b)%nat) as Happ.
  { intros a b. induction a as [|? a IH]; cbn; [done|]. rewrite IH. lia. }
  rewrite Happ in H2. lia.
Qed.
Lemma insert_all_app b h1 h2 : insert_all b (h1 ++ h2) =
  '(rs, b) ← insert_all b h1; '(rs', b) ← insert_all b h2; Ok (rs ++ rs', b).
Proof.
  revert b. induction h1 as [|[k v] h1 IH]; intros b; cbn [app insert_all].
  - cbn [mbind res_bind]. destruct (insert_all b h2) as [[rs b']| |]; done.
  - destruct (InsertStringValue b k v) as [[r b']| |]; cbn [mbind res_bind]; [|done|done].
    rewrite IH. destruct (insert_all b' h1) as [[rs b'']| |]; cbn [mbind res_bind]; [|done|done].
    destruct (insert_all b'' h2) as [[rs' b''']| |]; done.
Qed.

(** ** C09, C10, C15 *)
Lemma insert_all_ok size h : size_ok size -> hist_ok h ->
  exists b, insert_all (NewDawgBuilderWithSize size) h = Ok (results h, b).
Proof.
  intros Hs Hh. destruct h as [|kv h]; [eexists; done|].
  destruct (history_abs kv h Hh) as (x & afs & v & A & _ & _ & Hrun). destruct (Hrun size Hs) as (b & Hr & _). eauto.
Qed.
Lemma insert_next size h k v : size_ok size -> hist_ok (h ++ [(k, v)]) ->
  exists b b', insert_all (NewDawgBuilderWithSize size) h = Ok (results h, b) /\
    InsertStringValue b k v = Ok ((spec_insert (accepted h) (k, v)).1, b') /\
    ((spec_insert (accepted h) (k, v)).1 = false -> b' = b).
Proof.
  intros Hs Hh. pose proof (hist_ok_app _ _ Hh) as Hh1. destruct h as [|kv h].
  - exists (NewDawgBuilderWithSize size). destruct (insert_all_ok size _ Hs Hh) as (b' & Hb'). exists b'. split; [done|].
    cbn [app insert_all] in Hb'. destruct (InsertStringValue (NewDawgBuilderWithSize size) k v) as [[r b1]| |]; try done.
    cbn in Hb'. injection Hb' as -> ->. split; [done|]. cbn. done.
  - destruct (history_abs kv h Hh1) as (x & afs & w & A & Hab & HA & Hrun). destruct (Hrun size Hs) as (b & Hr & Hb).
    destruct Hh as [Hk Hsz]. apply Forall_app in Hk as [_ Hk]. apply Forall_cons in Hk as [Hk _]. cbn in Hk.
    assert (Hsz' : N.of_nat (S (A + S (length k))) <= 1073741824).
    { unfold hist_size in *. clear -HA Hsz.
      assert (forall a b : list entry, sum_list_with (fun kv => S (length kv.1)) (a ++ b) =
        (sum_list_with (fun kv => S (length kv.1)) a + sum_list_with (fun kv => S (length kv.1)) b)%nat) as Happ.
      { intros a b. induction a as [|? a IH]; cbn; [done|]. rewrite IH. lia. }
      rewrite Happ in Hsz. cbn in *. lia. }
    destruct (insert_abs b x afs w A _ k v Hb Hab Hk Hsz') as (x' & afs' & v' & A' & _ & _ & _ & Hins).
    destruct (Hins b Hb) as (b' & Hr' & Hb'). exists b, b'. split; [done|]. split; [done|]. intros Hf.
    (* a rejection is the lower case *)
    destruct Hab as [_ _ _ (es1 & k0 & v0 & He & Hp & Hk0 & _) _]. rewrite He in Hf, Hr'. unfold spec_insert in Hf, Hr'.
    rewrite last_snoc in Hf, Hr'. cbn [fst] in Hf, Hr'.
    destruct (term_split k0 k Hk0 Hk) as [<-|(p & l & q & l' & r & H1 & H2 & Hne)].
    { rewrite kcmp_refl in Hf. done. }
    assert (Hcmp : kcmp k0 k = (l ?= l')).
    { rewrite <- kcmp_term by done. rewrite H1, H2, kcmp_app. cbn. destruct (N.compare_spec l l'); done. }
    rewrite Hcmp in *. destruct (N.compare_spec l l') as [?|?|Hlt]; [done|done|].
    rewrite <- Hp in H1. assert (Hko : keyof k (length k) = k) by (unfold keyof; by rewrite take_ge).
    rewrite <- Hko in H2. pose proof (insert_lower b x afs w A k (length k) v p l q l' r Hb ltac:(done) H1 H2 Hlt) as Hl.
    unfold InsertStringValue in Hr'. rewrite Hl in Hr'. cbn in Hr'. congruence.
Qed.

Lemma key_label_take key len pos : (0 <= len <= Z.of_nat (length key))%Z -> (0 <= pos)%Z ->
  key_label key len pos = key_label (take (Z.to_nat len) key) len pos.
Proof.
  intros Hl Hp. unfold key_label. destruct (Z.ltb_spec pos len); [|done]. rewrite lookup_take by lia. done.
Qed.
Lemma InsertKeyValue_take b key len v : (0 <= len <= Z.of_nat (length key))%Z ->
  InsertKeyValue b key len v = InsertStringValue b (take (Z.to_nat len) key) v.
Proof.
  intros Hl. unfold InsertStringValue, InsertKeyValue. rewrite take_length, Nat.min_l by lia. rewrite Z2Nat.id by lia.
  assert (Hf : forall n b index pos, (0 <= pos)%Z -> insert_find n b key len index pos = insert_find n b (take (Z.to_nat len) key) len index pos).
  { induction n as [|n IH]; intros b0 i pos Hp; [done|]. cbn [insert_find]. destruct (get (b_unit b0) i) as [u| |]; cbn [mbind res_bind]; [|done|done].
    destruct (u_child u =? 0); [done|]. rewrite (key_label_take _ _ _ Hl Hp). destruct (key_label _ len pos) as [l| |]; cbn [mbind res_bind]; [|done|done].
    destruct (get (b_unit b0) (u_child u)) as [cu| |]; cbn [mbind res_bind]; [|done|done].
    destruct (l <? u_label cu); [done|]. destruct (u_label cu <? l); [done|]. apply IH. lia. }
  assert (Ha : forall n b index pos, (0 <= pos)%Z -> insert_add n b key len index pos = insert_add n b (take (Z.to_nat len) key) len index pos).
  { induction n as [|n IH]; intros b0 i pos Hp; [done|]. cbn [insert_add]. rewrite (key_label_take _ _ _ Hl Hp).
    destruct (key_label _ len pos) as [l| |]; cbn [mbind res_bind]; [|done|done].
    destruct (allocateUnit b0) as [[ci b1]| |]; cbn [mbind res_bind]; [|done|done].
    destruct (get (b_unit b1) i) as [u| |]; cbn [mbind res_bind]; [|done|done].
    match goal with |- context [if ?c then ?a else ?b] => destruct (if c then a else b) as [us| |]; cbn [mbind res_bind]; [|done|done] end.
    destruct (upd us ci _) as [us1| |]; cbn [mbind res_bind]; [|done|done].
    destruct (upd us1 i _) as [us2| |]; cbn [mbind res_bind]; [|done|done]. apply IH. lia. }
  assert (Hpos : forall n b index pos i' p' b', (0 <= pos)%Z -> insert_find n b key len index pos = Ok (Some (i', p', b')) -> (0 <= p')%Z).
  { clear. induction n as [|n IH]; intros b0 i pos i' p' b' Hp; cbn [insert_find]; [congruence|].
    destruct (get (b_unit b0) i) as [u| |]; cbn [mbind res_bind]; [|done|done].
    destruct (u_child u =? 0); [congruence|]. destruct (key_label _ len pos) as [l| |]; cbn [mbind res_bind]; [|done|done].
    destruct (get (b_unit b0) (u_child u)) as [cu| |]; cbn [mbind res_bind]; [|done|done].
    destruct (l <? u_label cu); [done|]. destruct (u_label cu <? l).
    - destruct (upd _ _ _) as [us| |]; cbn [mbind res_bind]; [|done|done]. destruct (fixUnits _ _) as [b1| |]; cbn [mbind res_bind]; [|done|done]. congruence.
    - apply IH. lia. }
  destruct (match b_hash b with [] => db_init b | _ => Ok b end) as [b1| |]; cbn [mbind res_bind]; [|done|done].
  rewrite <- Hf by lia. destruct (insert_find _ b1 key len 0 0) as [[[[i p] b2]|]| |] eqn:E; cbn [mbind res_bind]; [|done|done|done].
  rewrite <- Ha by (eapply Hpos; [|exact E]; lia). done.
Qed.

(** ** C11, C16, C19 *)
Lemma nentry_kept (es : list entry) : map (fun kv => (kv.1, Z.of_N kv.2)) (map nentry es) = map kept_entry es.
Proof.
  rewrite map_map. apply map_ext. intros [k v]. unfold nentry, kept_entry, nval, kept. cbn. f_equal. lia.
Qed.
Lemma elem_kept es k v : (k, v) ∈ map kept_entry es <-> exists w, v = Z.of_N w /\ (k, w) ∈ map nentry es.
Proof.
  rewrite <- nentry_kept. split.
  - intros H. apply elem_of_list_fmap_2 in H as ([k' w] & [= -> ->] & H). eauto.
  - intros (w & -> & H). apply elem_of_list_fmap. by exists (k, w).
Qed.
Lemma build_spells size h d0 : size_ok size -> hist_ok h ->
  exists d, build size h d0 = Ok (results h, d) /\
    forall k v, spells d dawg_root k v <-> (k, v) ∈ map kept_entry (accepted h).
Proof.
  intros Hs Hh. destruct (build_abs h Hh) as (es & x & He & _ & Hb). destruct (Hb size d0 Hs) as (d & Hr & Hd).
  exists d. split; [done|]. intros k v. destruct (do_child _ _ _ Hd) as (c & Hc & Hk).
  rewrite (spells_ent d (x_ts x) (do_frozen _ _ _ Hd) dawg_root c es k v (do_wfe _ _ _ Hd) Hc Hk).
  rewrite elem_kept, He. done.
Qed.
Lemma build_same size size' h d0 d0' : size_ok size -> size_ok size' -> hist_ok h -> build size h d0 = build size' h d0'.
Proof.
  intros Hs Hs' Hh. destruct (build_abs h Hh) as (es & x & _ & _ & Hb).
  destruct (Hb size d0 Hs) as (d & Hr & Hd). destruct (Hb size' d0' Hs') as (d' & Hr' & Hd').
  rewrite Hr, Hr'. by rewrite (dawgof_fun _ _ _ _ Hd Hd').
Qed.

(** ** C13, C14, C20 *)
Lemma residual_map {V W} (f : V -> W) (l : list (list N * V)) p :
  residual (map (fun kv => (kv.1, f kv.2)) l) p = map (fun kv => (kv.1, f kv.2)) (residual l p).
Proof.
  induction l as [|[k v] l IH]; [done|]. unfold residual in *. cbn. rewrite IH. unfold strip. cbn.
  destruct (decide _); done.
Qed.
Lemma toZ_inj (l l' : list (list N * N)) :
  map (fun kv => (kv.1, Z.of_N kv.2)) l = map (fun kv => (kv.1, Z.of_N kv.2)) l' -> l = l'.
Proof.
  revert l'. induction l as [|[k v] l IH]; intros [|[k' v'] l']; try done. cbn. intros [= -> Hv H].
  f_equal; [|by apply IH]. f_equal. lia.
Qed.

Lemma build_minimal size h d0 : size_ok size -> hist_ok h ->
  exists d L, build size h d0 = Ok (results h, d) /\
    enumerates L (fun r => r <> [] /\ exists p, r = residual (map kept_entry (accepted h)) p) /\
    d_states d = N.of_nat (S (length L)).
Proof.
  intros Hs Hh. destruct (build_abs h Hh) as (es & x & He & _ & Hb). destruct (Hb size d0 Hs) as (d & Hr & Hd).
  pose proof (do_wfe _ _ _ Hd) as Hw. pose proof (do_frozen _ _ _ Hd) as Hf.
  exists d, (map (fun es' => map (fun kv => (kv.1, Z.of_N kv.2)) (ent_es es')) (x_ts x)). split; [done|]. split; [split|].
  - apply NoDup_alt. intros i j r Hi Hj.
    apply list_lookup_fmap_Some in Hi as (e1 & Hi & Hr1), Hj as (e2 & Hj & Hr2). rewrite Hr1 in Hr2. apply toZ_inj in Hr2.
    assert (Hwf : forall e i, x_ts x !! i = Some e -> wf (Node e)).
    { intros e i0 H. pose proof (fz_wf _ _ _ Hf) as Hall. rewrite Forall_lookup in Hall. by eapply Hall. }
    assert (Node e1 = Node e2) as [= <-]; [|eapply NoDup_lookup; [apply Hf|done|done]].
    apply ent_inj; [done|by eapply Hwf|by eapply Hwf|done].
  - intros r. rewrite elem_of_list_fmap. rewrite <- nentry_kept, <- He. setoid_rewrite (residual_map Z.of_N). split.
    + intros (es' & -> & Hin). pose proof (fz_wf _ _ _ Hf) as Hall. rewrite Forall_forall in Hall. specialize (Hall _ Hin).
      apply (do_in _ _ _ Hd) in Hin as (Hne & p & Ht). split.
      * pose proof (ent_ne _ Hall) as Hn. rewrite ent_node in Hn. destruct (ent_es es'); done.
      * exists p. by rewrite (residual_tnode _ _ _ Hw Ht).
    + intros (Hne & p & ->). destruct (residual_none es p Hw) as (es' & Ht).
      { intros H. rewrite H in Hne. done. }
      exists es'. split; [by rewrite (residual_tnode _ _ _ Hw Ht)|]. apply (do_in _ _ _ Hd). split; [|eauto].
      intros ->. inversion Ht; subst; [|by apply elem_of_nil in H]. done.
  - rewrite map_length. destruct (do_rep _ _ _ Hd) as (r & Hrep & _). apply Hrep.
Qed.

Lemma psum_nodes s : psum (nodes s) = nedges s.
Proof.
  induction s as [v|es IH] using sub_ind'; [done|]. cbn [nodes nedges sum_list_with].
  assert (Hp : psum (concat (map (fun e => nodes e.2) es)) = sum_list_with (fun e => nedges e.2) es).
  { induction IH as [|e es He _ IH]; [done|]. cbn [map concat sum_list_with]. rewrite psum_app, IH, He. done. }
  rewrite Hp. clear. induction es as [|e es IH]; [done|]. cbn. lia.
Qed.
Lemma psum_perm (l l' : list edges) : l ≡ₚ l' -> psum l = psum l'.
Proof. induction 1; cbn; lia. Qed.

Lemma build_counts size h d0 : size_ok size -> hist_ok h ->
  exists d L, build size h d0 = Ok (results h, d) /\ enumerates L (trie_edge (accepted h)) /\
    (dawg_transitions d + Z.of_N (d_mergedTrans d) = Z.of_nat (length L))%Z /\
    (d_mergedStates d = Z.of_nat (length L) + 1 - Z.of_N (d_states d))%Z.
Proof.
  intros Hs Hh. destruct (build_abs h Hh) as (es & x & He & _ & Hb). destruct (Hb size d0 Hs) as (d & Hr & Hd).
  pose proof (do_wfe _ _ _ Hd) as Hw. exists d, (ep (Node es)). split; [done|]. split; [split|].
  - destruct es as [|e es0]; [constructor|]. apply ep_nodup. apply wf_wfe. done.
  - intros p. unfold trie_edge.
    assert (Hin : forall k, (exists v, (k, v) ∈ ent_es es) <-> exists v, (k, v) ∈ accepted h).
    { intros k. rewrite He. split.
      - intros (v & H). apply elem_of_list_fmap_2 in H as ([k' v'] & [= -> _] & H). eauto.
      - intros (v & H). exists (nval v). apply elem_of_list_fmap. exists (k, v). done. }
    assert (Heq : (exists kv : entry, kv ∈ accepted h /\ p `prefix_of` kv.1 ++ [0]) <-> exists k v, (k, v) ∈ ent_es es /\ p `prefix_of` k ++ [0]).
    { split.
      - intros ([k v] & H & Hp). destruct (proj2 (Hin k)) as (w & Hw'); eauto.
      - intros (k & v & H & Hp). destruct (proj1 (Hin k)) as (w & Hw'); [eauto|]. exists (k, w). done. }
    rewrite Heq. destruct es as [|e es0] eqn:E.
    + cbn. split; [intros H; by apply elem_of_nil in H|]. intros (_ & k & v & H & _). by apply elem_of_nil in H.
    + rewrite <- E in *. rewrite ep_in by (apply wf_wfe; rewrite E in *; done). split.
      * intros (Hp & es1 & [= <-] & H). done.
      * intros (Hp & H). split; [done|]. exists es. done.
  - rewrite ep_length. destruct Hd as [(r & Hrep & _) Hw' (cl & Hx & Hcl)].
    pose proof (afix_fold cl) as Hf. rewrite <- Hx in Hf. cbv zeta in Hf. destruct Hf as (_ & _ & _ & _ & Hp).
    assert (Hps : psum cl = nedges (Node es)).
    { rewrite (psum_perm _ _ Hcl). destruct es; [done|]. apply psum_nodes. }
    rewrite Hps in Hp. unfold dawg_transitions. rewrite (fz_base _ _ _ (dr_frozen _ _ _ Hrep)), (dr_merged _ _ _ Hrep), (dr_mstates _ _ _ Hrep), (dr_states _ _ _ Hrep).
    lia.
Qed.

Lemma build_merging size h d0 : size_ok size -> hist_ok h ->
  exists d L, build size h d0 = Ok (results h, d) /\
    enumerates L (fun c => (exists p, state_of d c p) /\ dawg_isMerging d c = Ok true) /\
    d_merging d = N.of_nat (length L) /\
    (forall c p, state_of d c p -> dawg_isMerging d c = Ok true \/ dawg_isMerging d c = Ok false) /\
    forall c, (exists p, state_of d c p) -> dawg_isMerging d c = Ok true <-> exists p p', p <> p' /\ state_of d c p /\ state_of d c p'.
Proof.
  intros Hs Hh. destruct (build_abs h Hh) as (es & x & He & _ & Hb). destruct (Hb size d0 Hs) as (d & Hr & Hd).
  pose proof (do_wfe _ _ _ Hd) as Hw. pose proof (do_frozen _ _ _ Hd) as Hf.
  exists d, (omap (fun k => match x_ts x !! k with Some es' => if decide (es' ∈ x_fl x) then Some (N.of_nat (start (x_ts x) k)) else None | None => None end) (seq 0 (length (x_ts x)))).
  split; [done|].
  assert (Hne : Forall (fun es => es <> []) (x_ts x)) by apply wf_ne, Hf.
  assert (Hst : forall c k es', c = N.of_nat (start (x_ts x) k) -> x_ts x !! k = Some es' -> forall p, state_of d c p <-> tnode es p es').
  { intros c k es' -> Hk p. rewrite (do_state _ _ _ Hd). split; [|eauto 10].
    intros (k' & es2 & Hk' & Hl & Ht). apply Nat2N.inj in Hk'. assert (k = k') as <- by (eapply (start_inj (x_ts x)); eauto). congruence. }
  assert (Hex : forall c, (exists p, state_of d c p) <-> exists k es', c = N.of_nat (start (x_ts x) k) /\ x_ts x !! k = Some es').
  { intros c. split.
    - intros (p & Hp). apply (do_state _ _ _ Hd) in Hp as (k & es' & -> & Hk & _). eauto.
    - intros (k & es' & -> & Hk). assert (es' ∈ x_ts x) as Hin by (by eapply elem_of_list_lookup_2).
      apply (do_in _ _ _ Hd) in Hin as (_ & p & Ht). exists p. by rewrite Hst. }
  split; [split|split; [|split]].
  - assert (Hgen : forall n m, NoDup (omap (fun k => match x_ts x !! k with Some es' => if decide (es' ∈ x_fl x) then Some (N.of_nat (start (x_ts x) k)) else None | None => None end) (seq m n))).
    { induction n as [|n IH]; intros m; [constructor|]. cbn [seq omap list_omap]. destruct (x_ts x !! m) as [es'|] eqn:Em; [|apply IH].
      destruct (decide (es' ∈ x_fl x)); [|apply IH]. constructor; [|apply IH].
      intros Hin. apply elem_of_list_omap in Hin as (k & Hk & Hin). apply elem_of_seq in Hk.
      destruct (x_ts x !! k) as [es2|] eqn:Ek; [|done]. destruct (decide _); [|done]. apply (inj Some), Nat2N.inj in Hin.
      assert (k = m) by (eapply (start_inj (x_ts x)); eauto). lia. }
    apply Hgen.
  - intros c. rewrite Hex. rewrite elem_of_list_omap. split.
    + intros (k & Hk & Hc). destruct (x_ts x !! k) as [es'|] eqn:Ek; [|done]. destruct (decide _); [|done]. injection Hc as <-.
      split; [eauto|]. rewrite (do_merging _ _ _ Hd _ k es') by done. by rewrite bool_decide_eq_true_2.
    + intros ((k & es' & -> & Hk) & Hm). exists k. split; [apply elem_of_seq; apply lookup_lt_Some in Hk; lia|]. rewrite Hk.
      rewrite (do_merging _ _ _ Hd _ k es') in Hm by done. injection Hm as Hm. apply bool_decide_eq_true in Hm. by rewrite decide_True.
  - destruct (do_rep _ _ _ Hd) as (r & Hrep & _). rewrite (dr_merging _ _ _ Hrep). f_equal.
    pose proof (dr_flnd _ _ _ Hrep) as Hnd. pose proof (dr_flin _ _ _ Hrep) as Hin. pose proof (fz_nodup _ _ _ Hf) as Hndt.
    assert (Hlen : forall T, length (omap (fun k => match (x_ts x) !! k with Some es' => if decide (es' ∈ x_fl x) then Some (N.of_nat (start (x_ts x) k)) else None | None => None end) (seq 0 (length T)))
        = length (filter (fun es' => es' ∈ x_fl x) T) \/ ~ T `prefix_of` x_ts x).
    { induction T as [|e T IH] using rev_ind; [by left|]. destruct (decide (T ++ [e] `prefix_of` x_ts x)) as [Hp|]; [|by right].
      left. assert (Hp' : T `prefix_of` x_ts x) by (etransitivity; [|exact Hp]; by apply prefix_app_r).
      destruct IH as [IH|]; [|done]. rewrite app_length, seq_app, omap_app, app_length, IH, filter_app, app_length. f_equal.
      cbn [length seq omap list_omap]. rewrite Nat.add_0_l. destruct Hp as [tl Htl]. rewrite Htl.
      assert (Hl : ((T ++ [e]) ++ tl) !! length T = Some e) by (rewrite <- app_assoc, lookup_app_r, Nat.sub_diag by lia; done).
      rewrite Hl. unfold filter. cbn. destruct (decide (e ∈ x_fl x)); done. }
    destruct (Hlen (x_ts x)) as [->|Hn]; [|by exfalso; apply Hn].
    apply Permutation_length. apply NoDup_Permutation; [done|by apply NoDup_filter|].
    intros e. rewrite elem_of_list_filter. naive_solver.
  - intros c p Hp. apply (do_state _ _ _ Hd) in Hp as (k & es' & -> & Hk & _). rewrite (do_merging _ _ _ Hd _ k es') by done.
    destruct (bool_decide _); auto.
  - intros c Hc. apply Hex in Hc as (k & es' & -> & Hk). rewrite (do_merging _ _ _ Hd _ k es') by done.
    setoid_rewrite (Hst _ k es' eq_refl Hk). pose proof (do_fl _ _ _ Hd es') as Hfl. split.
    + intros [= Hm]. apply bool_decide_eq_true in Hm. apply Hfl in Hm as (p & p' & ? & ? & ? & _). eauto.
    + intros (p & p' & H1 & H2 & H3). f_equal. apply bool_decide_eq_true, Hfl. exists p, p'. split; [done|]. split; [done|]. split; [done|].
      intros ->. inversion H2 as [|? ? ? ? ? Hin _]; subst; [|by apply elem_of_nil in Hin].
      inversion H3 as [|? ? ? ? ? Hin _]; subst; [done|by apply elem_of_nil in Hin].
Qed.

(** ** C58 *)
Lemma after_finish b d d' b' : Finish b d = Ok (d', b') ->
  (forall key len v, (0 <= len)%Z -> InsertKeyValue b' key len v = Panic) /\ (forall d2, Finish b' d2 = Panic).
Proof.
  intros H. assert (Hb : b_hash b' = [0] /\ b_unit b' = [] /\ b_unfixed b' = []).
  { unfold Finish in H. destruct (match b_hash b with [] => _ | _ => _ end) as [b1| |]; cbn [mbind res_bind] in H; try done.
    destruct (fixUnits b1 0) as [b2| |]; cbn [mbind res_bind] in H; try done.
    destruct (get (b_unit b2) 0) as [u| |]; cbn [mbind res_bind] in H; try done.
    destruct (set (b_base b2) 0 (du_base u)) as [bs| |]; cbn [mbind res_bind] in H; try done.
    destruct (set (b_label b2) 0 (u_label u)) as [ls| |]; cbn [mbind res_bind] in H; try done. injection H as _ <-. done. }
  destruct Hb as (H1 & H2 & H3). split.
  - intros key len v Hl. unfold InsertKeyValue. rewrite H1. cbn [mbind res_bind].
    destruct (Z.to_nat (len + 1)) eqn:E; [lia|]. cbn [insert_find]. rewrite H2. done.
  - intros d2. unfold Finish, fixUnits. rewrite H1. cbn [mbind res_bind]. rewrite H3. done.
Qed.
