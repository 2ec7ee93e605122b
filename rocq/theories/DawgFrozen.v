(** The fixed part of a DawgBuilder (transition pools, hash table, flags) and the
    step that fixes one sibling chain. *)
From Verif Require Import Go BitPool BitPoolProofs LinkTable LinkTableProofs Probe Dawg Tree DawgRep.
Local Open Scope N_scope.
Local Ltac Zify.zify_post_hook ::= Z.div_mod_to_equations.
Local Arguments N.mul : simpl never.
Local Arguments N.add : simpl never.
Local Arguments N.of_nat : simpl never.

(** Group [k] of the transition pools starts at [start ts k]; transition 0 is the
    root's. *)
Notation psum := (sum_list_with (@length (N * sub))).
Definition start (ts : list edges) (k : nat) : nat := S (psum (take k ts)).
Global Arguments start : simpl never.

Lemma psum_app (ts ts' : list edges) : psum (ts ++ ts') = (psum ts + psum ts')%nat.
Proof. induction ts as [|t ts IH]; cbn; [done|]. rewrite IH. lia. Qed.
Lemma start_mono ts ts' k : (k <= length ts)%nat -> start (ts ++ ts') k = start ts k.
Proof. intros H. unfold start. by rewrite take_app_le. Qed.
Lemma start_end ts ts' : start (ts ++ ts') (length ts) = S (psum ts).
Proof. unfold start. by rewrite take_app. Qed.
Lemma start_S ts k es : ts !! k = Some es -> start ts (S k) = (start ts k + length es)%nat.
Proof. intros H. unfold start. rewrite (take_S_r _ _ _ H), psum_app. cbn. lia. Qed.
Lemma start_le ts k k' : (k <= k')%nat -> (start ts k <= start ts k')%nat.
Proof.
  intros H. unfold start. replace k' with (k + (k' - k))%nat by lia.
  rewrite <- take_take_drop, psum_app. lia.
Qed.
Lemma start_bound ts k es : ts !! k = Some es -> (start ts k + length es <= S (psum ts))%nat.
Proof.
  intros H. rewrite <- (start_S _ _ _ H). rewrite <- (start_end ts []), app_nil_r.
  apply start_le. apply lookup_lt_Some in H. lia.
Qed.
Lemma start_inj ts k k' es es' : Forall (fun es => es <> []) ts ->
  ts !! k = Some es -> ts !! k' = Some es' -> start ts k = start ts k' -> k = k'.
Proof.
  intros Hne H H' He. rewrite Forall_lookup in Hne.
  destruct (Nat.lt_trichotomy k k') as [Hlt|[?|Hlt]]; [|done|].
  - pose proof (Hne _ _ H). pose proof (start_S _ _ _ H). pose proof (start_le ts (S k) k' ltac:(lia)).
    destruct es; [done|cbn [length] in *; lia].
  - pose proof (Hne _ _ H'). pose proof (start_S _ _ _ H'). pose proof (start_le ts (S k') k ltac:(lia)).
    destruct es'; [done|cbn [length] in *; lia].
Qed.

(** Encoding of an edge / of a group. *)
Definition eenc (ts : list edges) (hs st : bool) (s : sub) (b : N) : Prop :=
  match s with
  | Leaf v => b = 2 * v + N.b2n hs
  | Node es => exists k, ts !! k = Some es /\ b = 4 * N.of_nat (start ts k) + 2 * N.b2n st + N.b2n hs
  end.
Definition more (es : edges) : bool := match es with [] => false | _ => true end.
Fixpoint genc (ts : list edges) (st : bool) (es : edges) (bl : list (N * N)) : Prop :=
  match es, bl with
  | [], [] => True
  | e :: es', x :: bl' => x.2 = e.1 /\ eenc ts (more es') st e.2 x.1 /\ genc ts false es' bl'
  | _, _ => False
  end.

Lemma eenc_mono ts ts' hs st s b : eenc ts hs st s b -> eenc (ts ++ ts') hs st s b.
Proof.
  destruct s as [v|es]; cbn; [done|]. intros (k & Hk & ->). exists k. split.
  - by apply lookup_app_l_Some.
  - rewrite start_mono; [done|]. apply lookup_lt_Some in Hk. lia.
Qed.
Lemma genc_mono ts ts' st es bl : genc ts st es bl -> genc (ts ++ ts') st es bl.
Proof.
  revert st bl. induction es as [|e es IH]; intros st [|x bl]; cbn; try done.
  intros (H1 & H2 & H3). split; [done|]. split; [by apply eenc_mono|by apply IH].
Qed.
Lemma genc_length ts st es bl : genc ts st es bl -> length bl = length es.
Proof.
  revert st bl. induction es as [|e es IH]; intros st [|x bl]; cbn; try done.
  intros (_ & _ & H). by rewrite (IH _ _ H).
Qed.
Lemma eenc_hasSib ts hs st s b : eenc ts hs st s b -> bu_hasSibling b = hs.
Proof.
  destruct s as [v|es]; cbn.
  - intros ->. apply hasSib_enc.
  - intros (k & _ & ->). etransitivity; [|apply (hasSib_enc (2 * N.of_nat (start ts k) + N.b2n st) hs)]. f_equal. lia.
Qed.
Lemma genc_sibbits ts st es bl : genc ts st es bl -> sibbits bl.
Proof.
  revert st bl. induction es as [|e es IH]; intros st [|x bl]; cbn; try done.
  intros (_ & H & Hg). split; [|by eapply IH]. rewrite (eenc_hasSib _ _ _ _ _ H).
  apply genc_length in Hg. destruct es, bl; done.
Qed.
Lemma genc_lookup ts st es bl j e : genc ts st es bl -> es !! j = Some e ->
  exists b, bl !! j = Some (b, e.1) /\
    eenc ts (Nat.ltb (S j) (length es)) (st && Nat.eqb j 0) e.2 b.
Proof.
  revert st bl j. induction es as [|e0 es IH]; intros st [|x bl] j; cbn [genc]; try done.
  intros (H1 & H2 & H3) Hj. destruct j as [|j].
  - cbn in Hj. injection Hj as ->. exists x.1. split; [destruct x; cbn in *; by subst|].
    cbn [Nat.eqb]. rewrite andb_true_r. destruct es; cbn in *; done.
  - destruct (IH _ _ _ H3 Hj) as (b & Hb & He). exists b. split; [done|].
    rewrite andb_false_l in He. rewrite andb_false_r. done.
Qed.
Lemma eenc_fun ts hs st s b b' : NoDup ts -> eenc ts hs st s b -> eenc ts hs st s b' -> b = b'.
Proof.
  destruct s as [v|es]; cbn; intros Hnd; [intros -> ->; done|]. intros (k & Hk & ->) (k' & Hk' & ->).
  assert (k = k') as -> by (eapply NoDup_lookup; eauto). done.
Qed.
Lemma genc_fun ts st es bl bl' : NoDup ts -> genc ts st es bl -> genc ts st es bl' -> bl = bl'.
Proof.
  intros Hnd. revert st bl bl'. induction es as [|e es IH]; intros st [|x bl] [|x' bl']; cbn; try done.
  intros (H1 & H2 & H3) (H1' & H2' & H3'). f_equal; [|by eapply IH].
  destruct x, x'; cbn in *. f_equal; [by eapply eenc_fun|congruence].
Qed.
Lemma eenc_inj ts hs st s s' b : is_leaf s = is_leaf s' -> Forall (fun es => es <> []) ts ->
  eenc ts hs st s b -> eenc ts hs st s' b -> s = s'.
Proof.
  intros Hl Hne. destruct s as [v|es], s' as [v'|es']; cbn in *; try done.
  - intros -> H. f_equal. destruct hs; cbn in *; lia.
  - intros (k & Hk & ->) (k' & Hk' & He).
    assert (start ts k = start ts k') as Hs by (destruct hs, st; cbn in He; lia).
    assert (k = k') as -> by (eapply (start_inj ts); eauto). congruence.
Qed.
Lemma genc_inj ts st es es' bl : Forall (fun es => es <> []) ts ->
  Forall (fun e : N * sub => e.1 = 0 <-> is_leaf e.2 = true) es ->
  Forall (fun e : N * sub => e.1 = 0 <-> is_leaf e.2 = true) es' ->
  genc ts st es bl -> genc ts st es' bl -> es = es'.
Proof.
  intros Hne. revert st es' bl. induction es as [|[l s] es IH]; intros st [|[l' s'] es'] [|[b l0] bl] Hf Hf'; cbn; try done.
  intros (H1 & H2 & H3) (H1' & H2' & H3'). cbn in *. subst l l'.
  apply Forall_cons in Hf as [Hh Hf]. apply Forall_cons in Hf' as [Hh' Hf']. cbn in *.
  assert (more es = more es') as Hm.
  { apply genc_length in H3, H3'. destruct es, es'; cbn in *; congruence. }
  rewrite <- Hm in H2'. f_equal.
  - f_equal. eapply (eenc_inj ts _ _ s s'); [|done|done|done].
    destruct (is_leaf s), (is_leaf s'); naive_solver.
  - eapply IH; eauto.
Qed.

(** ** The frozen pools *)
Record frozen (bs ls : list N) (ts : list edges) : Prop := mkFrozen {
  fz_base : length bs = S (psum ts);
  fz_label : length ls = S (psum ts);
  fz_nodup : NoDup ts;
  fz_wf : Forall (fun es => wf (Node es)) ts;
  fz_grp : forall k es, ts !! k = Some es -> exists bl, genc ts true es bl /\ pat bs ls (start ts k) bl;
  fz_size : N.of_nat (S (psum ts)) <= 1073741824 }.

Lemma wf_ne ts : Forall (fun es => wf (Node es)) ts -> Forall (fun es => es <> []) ts.
Proof. intros H. eapply Forall_impl; [exact H|]. intros es He. apply wf_node_inv in He as [? _]. done. Qed.
Lemma wf_labels es : wf (Node es) -> Forall (fun e : N * sub => e.1 = 0 <-> is_leaf e.2 = true) es.
Proof. intros (_ & _ & H & _)%wf_node_inv. eapply Forall_impl; [exact H|]. by intros e [_ ?]. Qed.

Definition hT (bs ls : list N) (p : N) : N :=
  match hashTransition_loop (S (length bs)) bs ls p 0 with Ok h => h | _ => 0 end.

Lemma frozen_hash bs ls ts k es bl : frozen bs ls ts -> ts !! k = Some es -> genc ts true es bl ->
  hashTransition_loop (S (length bs)) bs ls (N.of_nat (start ts k)) 0 = Ok (hl 0 bl).
Proof.
  intros F Hk Hg. destruct (fz_grp _ _ _ F _ _ Hk) as (bl' & Hg' & Hp).
  assert (bl' = bl) as -> by (eapply genc_fun; [apply F|done|done]).
  pose proof (start_bound _ _ _ Hk) as Hb. pose proof (genc_length _ _ _ _ Hg) as Hlen.
  pose proof (fz_size _ _ _ F) as Hsz.
  apply hashTransition_group; [done|by eapply genc_sibbits| | |..].
  - intros ->. pose proof (wf_ne _ (fz_wf _ _ _ F)) as Hne. rewrite Forall_lookup in Hne. apply (Hne _ _ Hk). by destruct es.
  - unfold start. lia.
  - unfold two32. lia.
  - rewrite (fz_base _ _ _ F). lia.
Qed.
Lemma hT_frozen bs ls ts k es bl : frozen bs ls ts -> ts !! k = Some es -> genc ts true es bl ->
  hT bs ls (N.of_nat (start ts k)) = hl 0 bl.
Proof. intros F Hk Hg. unfold hT. by erewrite frozen_hash. Qed.

(** ** The hash table *)
Definition starts (ts : list edges) : list N := (fun k => N.of_nat (start ts k)) <$> seq 0 (length ts).
Lemma starts_app ts es : starts (ts ++ [es]) = starts ts ++ [N.of_nat (S (psum ts))].
Proof.
  unfold starts. rewrite app_length, seq_app, fmap_app. cbn [length seq fmap list_fmap]. rewrite Nat.add_0_l, start_end. f_equal.
  apply list_fmap_ext. intros i k Hk. apply lookup_seq in Hk as [-> Hk]. rewrite start_mono; [done|lia].
Qed.
Lemma starts_elem ts p : p ∈ starts ts <-> exists k es, ts !! k = Some es /\ p = N.of_nat (start ts k).
Proof.
  unfold starts. rewrite elem_of_list_fmap. split.
  - intros (k & -> & Hk%elem_of_seq). destruct (lookup_lt_is_Some_2 ts k ltac:(lia)) as [es He]. eauto.
  - intros (k & es & Hk & ->). exists k. split; [done|]. apply elem_of_seq. apply lookup_lt_Some in Hk. lia.
Qed.
Lemma starts_take ts k es : ts !! k = Some es -> starts (take (S k) ts) = starts (take k ts) ++ [N.of_nat (start ts k)].
Proof.
  intros H. rewrite (take_S_r _ _ _ H), starts_app. done.
Qed.

Record htab (bs ls : list N) (T : list N) (ps : list N) : Prop := mkHtab {
  ht_len : (1 <= length T)%nat; ht_len32 : N.of_nat (length T) < two32;
  ht_probed : probed id (hT bs ls) T;
  ht_stored : stored id T ≡ₚ ps }.

Lemma probed_ext (h h' : N -> N) T : (forall p, p ∈ stored id T -> h p = h' p) ->
  probed id h T -> probed id h' T.
Proof.
  intros He Hp i x Hi Hx. destruct (Hp i x Hi Hx) as (d & Hd & -> & Ho).
  assert (home h T (id x) = home h' T (id x)) as Hh.
  { unfold home. rewrite (He (id x)); [done|]. apply stored_elem. eauto. }
  rewrite Hh in *. exists d. done.
Qed.

Lemma htab_empty bs ls n : (1 <= n)%nat -> N.of_nat n < two32 -> htab bs ls (replicate n 0) [].
Proof.
  intros H1 H2. split; [by rewrite replicate_length|by rewrite replicate_length| |].
  - intros i x Hi Hx. apply lookup_replicate in Hi as [-> _]. done.
  - clear. induction n as [|n IH]; cbn; [done|]. unfold stored in *. cbn. done.
Qed.

(** Stepping through the table: [d] occupied slots are skipped. *)
Lemma step_slot (T : list N) q : (q < length T)%nat -> N.of_nat (length T) < two32 ->
  rem32 (u32 (N.of_nat q + 1)) (len32 T) = Ok (N.of_nat ((q + 1) mod length T)).
Proof.
  intros Hq HT. rewrite rem32_ok; unfold len32; rewrite ?u32_id by (unfold two32 in *; lia); [|lia].
  f_equal. rewrite Nat2N.inj_mod. f_equal. lia.
Qed.
Lemma mod_step (a d n : nat) : (0 < n)%nat -> (((a + d) mod n + 1) mod n = (a + S d) mod n)%nat.
Proof. intros Hn. rewrite Nat.add_mod_idemp_l by lia. f_equal. lia. Qed.

Lemma findTransition_scan T a : N.of_nat (length T) < two32 -> forall r d fuel,
  (r < fuel)%nat -> (0 < length T)%nat ->
  emp id T ((a + (d + r)) mod length T) ->
  (forall d', (d <= d' < d + r)%nat -> occ id T ((a + d') mod length T)) ->
  findTransition_loop fuel T (N.of_nat ((a + d) mod length T)) = Ok (N.of_nat ((a + (d + r)) mod length T)).
Proof.
  intros HT. induction r as [|r IH]; intros d fuel Hf H0 Hemp Hocc; destruct fuel as [|fuel]; try lia; cbn [findTransition_loop].
  - rewrite Nat.add_0_r in *. destruct Hemp as (x & Hx & Hx0). unfold id in Hx0. subst x.
    rewrite (get_nat _ _ _ Hx). done.
  - destruct (Hocc d ltac:(lia)) as (x & Hx & Hx0). unfold id in Hx0.
    rewrite (get_nat _ _ _ Hx). cbn [mbind res_bind]. destruct (N.eqb_spec x 0); [done|].
    rewrite step_slot; [|apply Nat.mod_upper_bound; lia|done]. cbn [mbind res_bind].
    rewrite mod_step by lia. rewrite IH; [do 2 f_equal; f_equal; lia|lia|lia| |].
    + by replace (S d + r)%nat with (d + S r)%nat by lia.
    + intros d' Hd'. apply Hocc. lia.
Qed.

Lemma home_N (h : N -> N) (T : list N) p : (0 < length T)%nat -> N.of_nat (length T) < two32 ->
  rem32 (h p) (len32 T) = Ok (N.of_nat (home h T p)).
Proof.
  intros H0 HT. rewrite rem32_ok; unfold len32; rewrite ?u32_id by done; [|lia].
  f_equal. unfold home. rewrite Nat2N.inj_mod. by rewrite N2Nat.id.
Qed.

Lemma htab_room bs ls T ps : htab bs ls T ps -> (length ps < length T)%nat -> exists i, (i < length T)%nat /\ emp id T i.
Proof. intros H Hl. apply has_empty. rewrite (Permutation_length (ht_stored _ _ _ _ H)). done. Qed.

(** Insertion at the first free slot. *)
Lemma htab_insert bs ls T ps p d : htab bs ls T ps -> p <> 0 -> (d < length T)%nat ->
  emp id T ((home (hT bs ls) T p + d) mod length T) ->
  (forall d', (d' < d)%nat -> occ id T ((home (hT bs ls) T p + d') mod length T)) ->
  htab bs ls (<[((home (hT bs ls) T p + d) mod length T)%nat := p]> T) (p :: ps).
Proof.
  intros [H1 H2 H3 H4] Hp Hd Hemp Hocc. split.
  - by rewrite insert_length. - by rewrite insert_length.
  - apply (probed_insert id (hT bs ls) T d p); done.
  - destruct Hemp as (y & Hy & Hy0). rewrite (stored_insert id T _ p y); [|done|done|done]. cbn. unfold id at 1. by rewrite H4.
Qed.

Lemma findTransition_ok b bs ls ps k es bl ts : b_base b = bs -> b_label b = ls ->
  frozen bs ls ts -> htab bs ls (b_hash b) ps -> (length ps < length (b_hash b))%nat ->
  ts !! k = Some es -> genc ts true es bl ->
  exists slot, findTransition b (N.of_nat (start ts k)) = Ok slot /\
    exists T', set (b_hash b) slot (N.of_nat (start ts k)) = Ok T' /\ length T' = length (b_hash b) /\
      htab bs ls T' (N.of_nat (start ts k) :: ps).
Proof.
  intros Hbs Hls F H Hroom Hk Hg. set (p := N.of_nat (start ts k)).
  destruct (first_stop (fun i => emp id (b_hash b) i) (length (b_hash b)) (home (hT bs ls) (b_hash b) p)) as (d & Hd & Hemp & Hocc).
  { by eapply htab_room. }
  { unfold home. pose proof (ht_len _ _ _ _ H). apply Nat.mod_upper_bound. lia. }
  assert (Hocc' : forall d', (d' < d)%nat -> occ id (b_hash b) ((home (hT bs ls) (b_hash b) p + d') mod length (b_hash b))).
  { intros d' Hd'. specialize (Hocc d' Hd'). pose proof (ht_len _ _ _ _ H).
    destruct (lookup_lt_is_Some_2 (b_hash b) ((home (hT bs ls) (b_hash b) p + d') mod length (b_hash b))%nat) as [x Hx].
    { apply Nat.mod_upper_bound. lia. }
    exists x. split; [done|]. intros Hx0. apply Hocc. exists x. done. }
  unfold findTransition, hashTransition. rewrite Hbs, Hls. unfold p. erewrite frozen_hash by eauto. cbn [mbind res_bind]. fold p.
  rewrite <- (hT_frozen bs ls ts k es bl) by done. fold p.
  pose proof (ht_len _ _ _ _ H). pose proof (ht_len32 _ _ _ _ H).
  rewrite home_N by (done || lia). cbn [mbind res_bind].
  exists (N.of_nat ((home (hT bs ls) (b_hash b) p + d) mod length (b_hash b))).
  split.
  - pose proof (findTransition_scan (b_hash b) (home (hT bs ls) (b_hash b) p) ltac:(done) d 0 (S (length (b_hash b)))) as Hs.
    rewrite Nat.add_0_r in Hs. rewrite (Nat.mod_small (home (hT bs ls) (b_hash b) p)) in Hs. 2:{ unfold home. apply Nat.mod_upper_bound. lia. }
    rewrite Nat.add_0_l in Hs. apply Hs; [lia|lia|done|].
    intros d' Hd'. apply Hocc'. lia.
  - eexists. split; [rewrite set_nat; [done|]; apply Nat.mod_upper_bound; lia|]. rewrite insert_length. split; [done|].
    apply htab_insert; [done| |done|done|done]. unfold p, start. lia.
Qed.

(** ** expandHashTable *)
Lemma genc_rest_skip b ts es bl : forall k p,
  genc ts false es bl -> Forall (fun e : N * sub => e.1 <> 0) es -> Forall (fun e : N * sub => e.1 = 0 <-> is_leaf e.2 = true) es ->
  pat (b_base b) (b_label b) p bl -> N.of_nat (p + length es) < two32 ->
  expand_loop (length es + k) b (N.of_nat p) = expand_loop k b (N.of_nat (p + length es)).
Proof.
  revert bl. induction es as [|[l s] es IH]; intros [|x bl] k p Hg Hz Hl Hp Hb; try done.
  - cbn [length]. by rewrite Nat.add_0_r.
  - destruct Hg as (Hx & He & Hg). apply pat_cons in Hp as [[H1 H2] Hp].
    apply Forall_cons in Hz as [Hz0 Hz]. apply Forall_cons in Hl as [Hl0 Hl]. cbn [fst snd] in *.
    cbn [length plus expand_loop]. rewrite u32_id by (cbn [length] in Hb; lia).
    rewrite (get_nat _ _ _ H1), (get_nat _ _ _ H2). cbn [mbind res_bind]. rewrite Hx.
    destruct (N.eqb_spec l 0); [done|]. destruct s as [v|es']; [naive_solver|].
    cbn [eenc] in He. destruct He as (k' & _ & ->). rewrite isState_enc. cbn [orb].
    replace (N.of_nat p + 1) with (N.of_nat (S p)) by lia.
    rewrite (IH bl k (S p)); [|done|done|done|done|cbn [length] in Hb; lia]. do 2 f_equal. lia.
Qed.

Lemma expand_group b ts k es bl n :
  frozen (b_base b) (b_label b) ts -> ts !! k = Some es -> genc ts true es bl ->
  pat (b_base b) (b_label b) (start ts k) bl ->
  forall slot T', findTransition b (N.of_nat (start ts k)) = Ok slot ->
    set (b_hash b) slot (N.of_nat (start ts k)) = Ok T' ->
  expand_loop (length es + n) b (N.of_nat (start ts k)) = expand_loop n (set_hash b T') (N.of_nat (start ts k + length es)).
Proof.
  intros F Hk Hg Hp slot T' Hf Hs.
  pose proof (fz_wf _ _ _ F) as Hwf. rewrite Forall_lookup in Hwf. specialize (Hwf _ _ Hk).
  pose proof (start_bound _ _ _ Hk) as Hb. pose proof (fz_size _ _ _ F) as Hsz.
  pose proof (wf_labels _ Hwf) as Hlab. apply wf_node_inv in Hwf as (Hne & Hasc & Hby & _).
  destruct es as [|[l s] es]; [done|]. destruct bl as [|x bl]; [done|].
  destruct Hg as (Hx & He & Hg). apply pat_cons in Hp as [[H1 H2] Hp]. cbn [fst snd length] in *.
  cbn [plus expand_loop]. rewrite u32_id by (unfold two32; lia).
  rewrite (get_nat _ _ _ H1), (get_nat _ _ _ H2). cbn [mbind res_bind]. rewrite Hx.
  apply Forall_cons in Hlab as [Hl0 Hl]. cbn [fst snd] in *.
  assert ((l =? 0) || bu_isState x.1 = true) as ->.
  { destruct (N.eqb_spec l 0); [done|]. destruct s as [v|es']; [naive_solver|].
    cbn [eenc] in He. destruct He as (k' & _ & ->). by rewrite isState_enc. }
  rewrite Hf. cbn [mbind res_bind]. rewrite Hs. cbn [mbind res_bind].
  replace (N.of_nat (start ts k) + 1) with (N.of_nat (S (start ts k))) by lia.
  rewrite (genc_rest_skip (set_hash b T') ts es bl n (S (start ts k))); [do 2 f_equal; lia|done| |done|done|unfold two32; lia].
  unfold asc in Hasc. cbn [fmap list_fmap fst] in Hasc. apply StronglySorted_inv in Hasc as [_ Hall].
  rewrite Forall_fmap in Hall. eapply Forall_impl; [exact Hall|]. intros e He'. cbn in He'. lia.
Qed.

Lemma expand_loop_ok ts : forall r k b T, (k + r = length ts)%nat ->
  b_hash b = T ->
  frozen (b_base b) (b_label b) ts ->
  htab (b_base b) (b_label b) T (rev (starts (take k ts))) -> (length ts < length T)%nat ->
  exists T', expand_loop (psum ts + 1 - start ts k) b (N.of_nat (start ts k)) = Ok (set_hash b T') /\
    length T' = length T /\ htab (b_base b) (b_label b) T' (rev (starts ts)).
Proof.
  induction r as [|r IH]; intros k b T Hkr HT F H Hlen.
  - assert (k = length ts) as -> by lia.
    pose proof (start_end ts []) as Hse. rewrite app_nil_r in Hse. rewrite Hse.
    replace (psum ts + 1 - S (psum ts))%nat with O by lia. cbn [expand_loop].
    exists T. split; [|split; [done|]].
    + subst T. by destruct b.
    + by rewrite take_ge in H.
  - destruct (lookup_lt_is_Some_2 ts k ltac:(lia)) as [es Hk].
    destruct (fz_grp _ _ _ F _ _ Hk) as (bl & Hg & Hp).
    subst T. destruct (findTransition_ok b _ _ _ k es bl ts eq_refl eq_refl F H) as (slot & Hf & T' & Hs & HlT & H'); [|done|done|].
    { rewrite rev_length. unfold starts. rewrite fmap_length, seq_length, take_length. lia. }
    pose proof (start_bound _ _ _ Hk) as Hb.
    replace (psum ts + 1 - start ts k)%nat with (length es + (psum ts + 1 - start ts (S k)))%nat by (rewrite (start_S _ _ _ Hk); lia).
    rewrite (expand_group b ts k es bl _ F Hk Hg Hp slot T' Hf Hs).
    rewrite <- (start_S _ _ _ Hk).
    destruct (IH (S k) (set_hash b T') T') as (T'' & Hr & HlT'' & H''); [lia|done|done| |lia|].
    { cbn [set_hash b_base b_label]. rewrite (starts_take _ _ _ Hk), rev_app_distr. done. }
    exists T''. rewrite Hr. split; [done|]. split; [lia|done].
Qed.

Lemma expandHashTable_ok b ts : frozen (b_base b) (b_label b) ts ->
  (1 <= length (b_hash b))%nat -> (length ts < 2 * length (b_hash b))%nat -> 2 * N.of_nat (length (b_hash b)) < two32 ->
  exists T', expandHashTable b = Ok (set_hash b T') /\ length T' = (2 * length (b_hash b))%nat /\
    htab (b_base b) (b_label b) T' (starts ts).
Proof.
  intros F H1 H2 H3. unfold expandHashTable. rewrite N.shiftl_mul_pow2. change (2 ^ 1) with 2.
  set (n := N.to_nat (N.of_nat (length (b_hash b)) * 2)). assert (n = 2 * length (b_hash b))%nat as Hn by lia.
  destruct (expand_loop_ok ts (length ts) 0 (set_hash b (replicate n 0)) (replicate n 0)) as (T' & Hr & HlT & HT); try done.
  - apply htab_empty; unfold two32 in *; lia.
  - rewrite replicate_length. lia.
  - cbn [set_hash b_base b_label] in *. rewrite replicate_length in HlT. exists T'. split; [|split; [lia|]].
    + rewrite (fz_base _ _ _ F). replace (S (psum ts) - 1)%nat with (psum ts + 1 - start ts 0)%nat by (change (start ts 0) with 1%nat; lia).
      change 1 with (N.of_nat (start ts 0)). rewrite Hr. done.
    + destruct HT as [Ha Hb Hc Hd]. split; [done|done|done|]. rewrite Hd. symmetry. apply Permutation_rev.
Qed.
