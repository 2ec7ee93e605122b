(** arrangeChildNodes keeps the invariant of the dictionary builder. *)
From Verif Require Import Go BitPool LinkTable Dawg DawgRep Tree TreeFacts DawgFrozen DawgNav Dict DictUnit DictX DictGrow DictInv.
Local Open Scope N_scope.
Local Ltac Zify.zify_post_hook ::= Z.div_mod_to_equations.
Local Arguments N.mul : simpl never.
Local Arguments N.add : simpl never.
Local Arguments N.of_nat : simpl never.
Local Arguments N.lxor : simpl never.

(** ** A new block *)
Lemma grow_ok b nb : xinv b nb (nb - 16) -> N.of_nat nb < 2097152 ->
  (forall i, i < 256 * N.of_nat (S nb - 16) -> ~ free (X b) i) -> exists b1 b',
  addBlock (256 * N.of_nat nb) (N.of_nat nb) (N.of_nat (S nb)) b = Ok b1 /\
  linkBlock (256 * N.of_nat nb) (256 * N.of_nat nb + 256) b1 = Ok b' /\
  xinv b' (S nb) (S nb - 16) /\
  db_units b' = db_units b ++ replicate 256 0 /\ db_link b' = db_link b /\ db_unused b' = db_unused b /\
  (forall j, free (X b') j <-> free (X b) j \/ 256 * N.of_nat nb <= j < 256 * N.of_nat (S nb)) /\
  (forall j, used (X b') j <-> used (X b) j /\ 256 * N.of_nat (S nb - 16) <= j).
Proof.
  intros HX Hnb Hno. pose proof HX as [Hlen Hlim Hq Hsh HL Hun].
  destruct (addBlock_ok b nb Hlen Hnb Hsh) as (b1 & H1 & Hu1 & Hl1 & Hf1 & Hn1 & Hs1 & HX1).
  assert (Hold : forall i e, X b i = Some e -> i < 256 * N.of_nat nb) by (intros i e; by apply (xi_lt b nb (nb - 16))).
  assert (Hfr1 : forall j, free (X b1) j <-> free (X b) j \/ 256 * N.of_nat nb <= j < 256 * N.of_nat (S nb)).
  { intros j. unfold free at 1. rewrite HX1. destruct (decide (256 * N.of_nat nb <= j < 256 * N.of_nat (S nb))) as [Hj|Hj].
    - split; [by right|]. intros _. exists (0, 0). done.
    - destruct (decide (256 * N.of_nat (S nb - 16) <= j)) as [Hj2|Hj2].
      + split; [by left|]. intros [?|?]; [done|lia].
      + split; [by intros (? & ? & _)|]. intros [Hf|?]; [|lia]. exfalso. apply (Hno j); [lia|done]. }
  assert (Hin : forall j, j < 256 * N.of_nat nb -> 256 * N.of_nat (S nb - 16) <= j -> X b1 j = X b j).
  { intros j Hj1 Hj2. rewrite HX1, decide_False, decide_True by lia. done. }
  assert (Hfl : forall j, free (X b) j -> 256 * N.of_nat (S nb - 16) <= j < 256 * N.of_nat nb).
  { intros j Hf. split; [|destruct Hf as (e & He & _); by eapply Hold].
    destruct (N.le_gt_cases (256 * N.of_nat (S nb - 16)) j) as [|Hlt]; [done|]. exfalso. by apply (Hno j). }
  destruct (linkBlock_ok b1 (S nb) (S nb - 16) (256 * N.of_nat nb)) as (b' & H2 & (Hf2a & Hf2b & Hf2c & Hf2d) & Hs2 & HL2 & Hfree & Hused).
  - done.
  - lia.
  - lia.
  - lia.
  - intros j Hj. rewrite HX1, decide_True by lia. done.
  - intros i e Hi He Hf.
    assert (Hff : free (X b) i).
    { assert (Hx : free (X b1) i) by (by exists e). apply Hfr1 in Hx as [|]; [done|lia]. }
    pose proof (Hfl i Hff) as Hir. rewrite Hin in He by lia. destruct (HL i e He Hf) as [(en & Hn2 & Hn3 & Hn4) (ep & Hp2 & Hp3 & Hp4)].
    assert (free (X b) (ex_next e)) as Hfn%Hfl by (by exists en). assert (free (X b) (ex_prev e)) as Hfp%Hfl by (by exists ep).
    split; [exists en|exists ep]; (rewrite Hin by lia); (split; [lia|done]).
  - rewrite Hf1. destruct Hun as [Hun|Hun]; [by left|]. right. split; [apply Hfl in Hun; lia|]. apply Hfr1. by left.
  - exists b1, b'. split; [done|]. split; [done|]. split.
    { constructor; [|lia|lia|done|done|].
      - rewrite Hf2a, Hu1, app_length, replicate_length. lia.
      - right. rewrite Hf2c, Hf1, Hfree, Hfr1. destruct Hun as [Hun|Hun]; [right; lia|by left]. }
    split; [congruence|]. split; [congruence|]. split; [congruence|]. split.
    + intros j. by rewrite Hfree.
    + intros j. rewrite Hused. unfold used. rewrite HX1. destruct (decide (256 * N.of_nat nb <= j < 256 * N.of_nat (S nb))) as [Hj|Hj].
      * split; [intros (e & He & Hc); injection He as <-; discriminate Hc|]. intros [(e & He & _) _]. apply Hold in He. lia.
      * destruct (decide (256 * N.of_nat (S nb - 16) <= j)); [tauto|]. split; [by intros (? & ? & _)|]. by intros [_ ?].
Qed.

Lemma lookup_app_zero (us : list N) i : (length us <= i < length us + 256)%nat -> (us ++ replicate 256 0) !! i = Some 0.
Proof. intros Hi. rewrite lookup_app_r by lia. apply lookup_replicate. split; [done|lia]. Qed.

Lemma expand_ok reserve b nb R asg pd ff : rsv_ok reserve -> (0 < nb)%nat -> N.of_nat nb < 2097152 ->
  binv b nb (nb - 16) (256 * N.of_nat (nb - 16)) R asg pd ff -> exists b' ff',
  expand_with reserve b = Ok b' /\ binv b' (S nb) (S nb - 16) (256 * N.of_nat (S nb - 16)) R asg pd ff' /\
  kept_units b b' /\ (forall j, 256 * N.of_nat nb <= j < 256 * N.of_nat (S nb) -> free (X b') j /\ ~ used (X b') j).
Proof.
  intros Hr Hnb0 Hnb HB. pose proof (bi_x _ _ _ _ _ _ _ _ HB) as HX. unfold expand_with.
  rewrite (xi_units _ _ _ HX). unfold blockSize, numOfBlocks, len32. rewrite (proj1 (xi_shape _ _ _ HX)).
  rewrite !u32_small by lia. cbv zeta. unfold numOfUnfixedBlocks.
  assert (exists b1 ff', (if 16 <? N.of_nat nb + 1 then fixBlock_with reserve b (N.of_nat nb - 16) else Ok b) = Ok b1 /\
    binv b1 nb (nb - 16) (256 * N.of_nat (S nb - 16)) R asg pd ff' /\ kept_units b b1 /\ length (db_units b1) = length (db_units b))
    as (b1 & ff' & -> & HB1 & Hk & Hln).
  { destruct (N.ltb_spec 16 (N.of_nat nb + 1)).
    - replace (N.of_nat nb - 16) with (N.of_nat (nb - 16)) by lia.
      destruct (fixBlock_ok reserve b nb (nb - 16) (nb - 16) R asg pd ff Hr HB) as (b1 & ff' & H1 & HB1 & Hk & Hus & Hln); [lia|].
      exists b1, ff'. replace (S nb - 16)%nat with (S (nb - 16)) by lia. done.
    - exists b, ff. replace (S nb - 16)%nat with (nb - 16)%nat by lia. done. }
  cbn [mbind res_bind]. replace (N.of_nat nb + 1) with (N.of_nat (S nb)) by lia.
  pose proof HB1 as [HX1 HU1 Hfr1 Hun1].
  destruct (grow_ok b1 nb HX1 Hnb) as (b2 & b' & H2 & H3 & HX' & Hu' & Hl' & Hn' & Hfree & Hused).
  { intros i Hi Hf. apply (u_free _ _ _ _ _ _ _ _ HU1) in Hf. lia. }
  rewrite H2. cbn [mbind res_bind]. rewrite H3. exists b', ff'. split; [done|].
  assert (Hlen : length (db_units b1) = (256 * nb)%nat) by apply HX1.
  assert (Hlk : forall i u, db_units b1 !! i = Some u -> db_units b' !! i = Some u) by (intros i u Hi; rewrite Hu'; by apply lookup_app_l_Some).
  assert (Hlk' : forall i, i < 256 * N.of_nat nb -> db_units b' !! N.to_nat i = db_units b1 !! N.to_nat i) by (intros i Hi; rewrite Hu', lookup_app_l; [done|lia]).
  assert (Hasg : forall o es l s, (o, es) ∈ asg -> (l, s) ∈ es -> N.lxor o l < 256 * N.of_nat nb).
  { intros o es l s Ho Hl. destruct (u_asg _ _ _ _ _ _ _ _ HU1 _ _ Ho) as (_ & Hlt & Hw & _). apply lxor_lt; [by eapply wf_lab|done]. }
  assert (Hown : forall i, owned asg i -> i < 256 * N.of_nat nb).
  { intros i [->|(o & es & l & s & Ho & Hl & ->)]; [lia|by eapply Hasg]. }
  split; [|split].
  - constructor; [done| |lia|congruence]. destruct HU1 as [u_R0 u_lt0 u_free0 u_used0 u_cls0 u_ff0 u_ffnd0 u_asg0 u_nodup0 u_disj0 u_root0 u_leaf0 u_nd0 u_par0 u_pd0]. constructor; try done.
    + rewrite Hu'. apply Forall_app. split; [done|]. apply Forall_replicate. unfold two32; lia.
    + intros i Hi. apply Hfree in Hi as [Hi|Hi].
      * destruct (u_free0 i Hi) as (? & ? & ?). split; [by apply Hlk|done].
      * split; [rewrite Hu'; apply lookup_app_zero; lia|]. split; [lia|]. intros Ho%Hown. lia.
    + intros i e Hi. assert (Hx : used (X b') i <-> ex_isUsed e = true).
      { unfold used. rewrite Hi. split; [intros (? & ? & ?); congruence|eauto]. }
      rewrite <- Hx, Hused. assert (256 * N.of_nat (S nb - 16) <= i < 256 * N.of_nat (S nb)).
      { apply (shape_xt _ _ _ i (xi_shape _ _ _ HX')). eauto. }
      destruct (N.lt_ge_cases i (256 * N.of_nat nb)) as [Hlt|Hge].
      * destruct (proj2 (shape_xt _ _ _ i (xi_shape _ _ _ HX1))) as [e1 He1]; [lia|]. rewrite <- (u_used0 i e1 He1).
        unfold used. rewrite He1. split; [intros [(? & ? & ?) _]; congruence|]. intros ?. split; [eauto|lia].
      * split.
        -- intros [(e1 & He1 & _) _]. apply (xi_lt _ _ _ _ _ HX1) in He1. lia.
        -- intros [->|Hc]; [lia|]. apply in_fst in Hc as [es Hc]. apply u_asg0 in Hc. lia.
    + intros i Hi. destruct (N.lt_ge_cases i (256 * N.of_nat nb)) as [Hlt|Hge].
      * destruct (u_cls0 i Hlt) as [?|[?|?]]; [left; apply Hfree; by left|by right; left|by right; right].
      * left. apply Hfree. right. lia.
    + intros i Hi. destruct (u_ff0 i Hi) as (? & ? & u & Hu & ?). split; [done|]. split; [done|]. exists u. split; [by apply Hlk|done].
    + intros o es Ho. destruct (u_asg0 o es Ho) as (? & ? & ?). split; [done|]. split; [lia|done].
    + intros o es v Ho Hv. apply Hlk. by eapply u_leaf0.
    + intros i l es Hn. destruct (u_nd0 i l es Hn) as (u & Hu & ?). exists u. split; [by apply Hlk|done].
    + eapply par_ext; [|exact u_par0]. intros i l es Hn Hi. split; [done|]. apply Hlk', Hown. by eapply ndp_owned.
  - destruct Hk as [Hk1 Hk2]. split; [congruence|]. intros i Hi Hil. destruct (Hk2 i Hi Hil) as [Hi1 Hu1].
    assert (i < 256 * N.of_nat nb) by (rewrite (xi_len _ _ _ HX) in Hil; lia). split.
    + rewrite Hfree. intros [?|?]; [done|lia].
    + rewrite Hlk' by done. done.
  - intros j Hj. split; [apply Hfree; by right|]. rewrite Hused. intros [(e & He & _) _]. apply (xi_lt _ _ _ _ _ HX1) in He. lia.
Qed.

(** ** findGoodOffset *)
(** A usable offset in the live blocks. *)
Definition good (b : dbuilder) (labels : list N) (index o : N) : Prop :=
  fits (N.lxor index o) /\ ~ used (X b) o /\ is_Some (X b o) /\ Forall (fun l => free (X b) (N.lxor o l)) labels.

Lemma upperMask_bits k : N.testbit upperMask k = (21 <=? k) && (k <? 32).
Proof.
  unfold upperMask, not32. rewrite N.lxor_spec. change 4294967295 with (2 ^ 32 - 1). change (u32 (offsetMax - 1)) with (2 ^ 21 - 1).
  rewrite !ones_bits. bcase; try done; lia.
Qed.
Lemma upper_zero x : x < two32 -> N.land x upperMask = 0 <-> x < 2097152.
Proof.
  intros Hx. change two32 with (2 ^ 32) in Hx. change 2097152 with (2 ^ 21). rewrite lt_bits. split.
  - intros H k Hk. destruct (N.lt_ge_cases k 32); [|by apply (proj1 (lt_bits 32 x))].
    apply (f_equal (fun y => N.testbit y k)) in H. rewrite N.land_spec, upperMask_bits, N.bits_0 in H.
    destruct (N.leb_spec 21 k), (N.ltb_spec k 32); try lia. by rewrite andb_true_r in H.
  - intros H. apply N.bits_inj. intros k. rewrite N.land_spec, upperMask_bits, N.bits_0. destruct (N.leb_spec 21 k).
    + by rewrite H.
    + apply andb_false_r.
Qed.
Lemma lower_zero x : N.land x lowerMask = x mod 256.
Proof. unfold lowerMask. rewrite c255. apply low_bits. Qed.
Lemma lxor_lt29 a b : a < 536870912 -> b < 536870912 -> N.lxor a b < 536870912.
Proof.
  change 536870912 with (2 ^ 29). rewrite !lt_bits. intros Ha Hb k Hk. by rewrite N.lxor_spec, Ha, Hb.
Qed.
Lemma rel_fits x : x < 536870912 -> (N.land x lowerMask =? 0) || (N.land x upperMask =? 0) = true <-> fits x.
Proof.
  intros Hx. rewrite lower_zero, orb_true_iff, !N.eqb_eq, upper_zero by (unfold two32; lia). unfold fits. split; intros; lia.
Qed.

Lemma no_collision_ok b o labels : Forall (fun l => is_Some (X b (N.lxor o l))) labels -> exists r,
  no_collision b o labels = Ok r /\ (r = true -> Forall (fun l => free (X b) (N.lxor o l)) labels).
Proof.
  induction 1 as [|l labels [e He] _ (r & Hr & Hf)]; cbn [no_collision]; [by exists true|].
  rewrite (db_extra_xt _ _ _ He). cbn [mbind res_bind]. destruct (ex_isFixed e) eqn:E; [by exists false|].
  exists r. split; [done|]. intros Ht. constructor; [by exists e|by apply Hf].
Qed.

Lemma live_block b nb q o l : xinv b nb q -> l < 256 -> is_Some (X b o) -> is_Some (X b (N.lxor o l)).
Proof.
  intros HX Hl Ho. apply (shape_xt _ _ _ _ (xi_shape _ _ _ HX)) in Ho. apply (shape_xt _ _ _ _ (xi_shape _ _ _ HX)).
  split; [apply lxor_ge; [done|lia]|apply lxor_lt; [done|lia]].
Qed.

Lemma isGood_ok b nb q labels index o : xinv b nb q -> index < 536870912 -> is_Some (X b o) -> Forall (fun l => l < 256) labels ->
  (match labels with [] => True | l :: _ => free (X b) (N.lxor o l) end) ->
  exists r, isGoodOffset b labels index o = Ok r /\ (r = true -> good b labels index o).
Proof.
  intros HX Hi [e He] Hl H0. unfold isGoodOffset. rewrite (db_extra_xt _ _ _ He). cbn [mbind res_bind].
  destruct (ex_isUsed e) eqn:Hu; [by exists false|]. cbv zeta.
  pose proof (xi_lt _ _ _ _ _ HX He) as Ho. pose proof (xi_lim _ _ _ HX) as Hlim.
  assert (Hrel : N.lxor index o < 536870912) by (apply lxor_lt29; lia).
  pose proof (rel_fits _ Hrel) as Hfit.
  destruct (negb (N.land (N.lxor index o) lowerMask =? 0) && negb (N.land (N.lxor index o) upperMask =? 0)) eqn:Er; [by exists false|].
  destruct (no_collision_ok b o (tail labels)) as (r & Hr & Hf).
  { destruct labels as [|l ls]; [constructor|]. apply Forall_cons in Hl as [_ Hl]. eapply Forall_impl; [exact Hl|]. intros l' Hl'. eapply live_block; [done|exact Hl'|by exists e]. }
  exists r. split; [done|]. intros ->. specialize (Hf eq_refl). split; [|split; [|split]].
  - apply Hfit. destruct (N.land (N.lxor index o) lowerMask =? 0), (N.land (N.lxor index o) upperMask =? 0); done.
  - intros (e' & He' & ?). congruence.
  - eauto.
  - destruct labels as [|l ls]; [constructor|]. by constructor.
Qed.

(** The walk along the next links returns to its start. *)
Lemma findGood_loop_ok b nb q labels index : xinv b nb q -> index < 536870912 -> labels <> [] -> Forall (fun l => l < 256) labels ->
  forall fuel seen cur, free (X b) cur -> NoDup (cur :: seen) -> (forall i, i ∈ cur :: seen -> i < 256 * N.of_nat nb) ->
  (* the walk so far: [seen], latest first, each leading to the one before it *)
  (forall i e, i ∈ cur :: seen -> i <> db_unfixed b -> X b i = Some e -> ex_prev e ∈ seen) ->
  (256 * nb < fuel + length seen)%nat ->
  exists o, findGood_loop fuel b labels index cur = Ok o /\
    (good b labels index o \/ o = N.lor (numOfUnits b) (N.land index 255)).
Proof.
  intros HX Hi Hne Hl. induction fuel as [|fuel IH]; intros seen cur Hc Hnd Hlt Hp Hfu.
  - exfalso. assert (length (cur :: seen) <= length (seq 0 (256 * nb)))%nat; [|rewrite seq_length in *; cbn [length] in *; lia].
    rewrite <- (fmap_length N.to_nat (cur :: seen)). apply submseteq_length, NoDup_submseteq.
    + apply NoDup_fmap_2; [intros ? ?; lia|done].
    + intros y (z & -> & Hz)%elem_of_list_fmap. apply Hlt in Hz. apply elem_of_seq. lia.
  - cbn [findGood_loop]. destruct labels as [|l0 ls]; [done|]. cbn [get]. unfold get. cbn [N.to_nat lookup list_lookup mbind res_bind].
    apply Forall_cons in Hl as Hl'. destruct Hl' as [Hl0 Hls]. pose proof Hc as (e & He & Hf).
    destruct (isGood_ok b nb q (l0 :: ls) index (N.lxor cur l0)) as (r & Hr & Hg); [done|done| |done| |].
    { eapply live_block; eauto. }
    { by rewrite lxor_cancel. }
    rewrite Hr. cbn [mbind res_bind]. destruct r.
    { eexists. split; [done|]. left. by apply Hg. }
    rewrite (db_extra_xt _ _ _ He). cbn [mbind res_bind].
    destruct (N.eqb_spec (ex_next e) (db_unfixed b)) as [Heq|Hneq].
    { eexists. split; [done|]. by right. }
    destruct (xi_links _ _ _ HX cur e He Hf) as [(en & Hen & Hnf & Hnp) _].
    assert (Hnew : ex_next e ∉ cur :: seen).
    { intros Hin. pose proof (Hp _ en Hin Hneq Hen) as Hin2. rewrite Hnp in Hin2. by apply NoDup_cons in Hnd as [? _]. }
    apply (IH (cur :: seen) (ex_next e)).
    + by exists en.
    + by apply NoDup_cons.
    + intros i Hin. apply elem_of_cons in Hin as [->|Hin]; [by eapply (xi_lt _ _ _ _ _ HX)|by apply Hlt].
    + intros i ei Hin Hiu Hei. apply elem_of_cons in Hin as [->|Hin].
      * rewrite Hen in Hei. injection Hei as <-. rewrite Hnp. constructor.
      * apply elem_of_cons. right. eapply Hp; eauto.
    + cbn [length]. lia.
Qed.

Lemma findGood_ok b nb q labels index : xinv b nb q -> index < 536870912 -> labels <> [] -> Forall (fun l => l < 256) labels ->
  exists o, findGoodOffset b labels index = Ok o /\
    (good b labels index o \/ (o = 256 * N.of_nat nb + index mod 256)).
Proof.
  intros HX Hi Hne Hl. unfold findGoodOffset.
  assert (Hlor : N.lor (numOfUnits b) (N.land index 255) = 256 * N.of_nat nb + index mod 256).
  { rewrite (xi_units _ _ _ HX). rewrite c255, low_bits. change (2 ^ 8) with 256.
    rewrite <- N.lxor_lor, <- N.add_nocarry_lxor; try done.
    all: apply N.bits_inj; intros k; rewrite N.land_spec, N.bits_0; replace (256 * N.of_nat nb) with (N.shiftl (N.of_nat nb) 8) by (rewrite N.shiftl_mul_pow2; change (2 ^ 8) with 256; lia);
      rewrite shiftl_bits; change (index mod 256) with (u8 index); rewrite u8_bits; bcase; try done; lia. }
  destruct (N.leb_spec (numOfUnits b) (db_unfixed b)) as [Hge|Hlt].
  { eexists. split; [done|]. by right. }
  destruct (xi_unf _ _ _ HX) as [Hu|Hu]; [rewrite (xi_units _ _ _ HX) in Hlt; lia|].
  destruct (findGood_loop_ok b nb q labels index HX Hi Hne Hl (S (length (db_units b))) [] (db_unfixed b)) as (o & Ho & Hc).
  - done.
  - apply NoDup_singleton.
  - intros i ->%elem_of_list_singleton. apply (xi_free_lt _ _ _ _ HX) in Hu. lia.
  - intros i e Hin. by apply elem_of_list_singleton in Hin as ->.
  - rewrite (xi_len _ _ _ HX). cbn [length]. lia.
  - exists o. split; [done|]. rewrite <- Hlor. done.
Qed.

(** ** Placing the children of a node *)
Definition child_unit (l : N) (s : sub) : N := match s with Leaf v => dictSetValue (Z.of_N v) | Node _ => dictSetLabel 0 l end.
Definition anyleaf (el : edges) : bool := existsb (fun e => e.1 =? 0) el.
Lemma setHasLeaf_idem u : dictSetHasLeaf (dictSetHasLeaf u) = dictSetHasLeaf u.
Proof. unfold dictSetHasLeaf. by rewrite <- N.lor_assoc, N.lor_diag. Qed.
Lemma anyleaf_has0 es : wfe es -> anyleaf es = has0 es.
Proof.
  destruct es as [|[l s] es]; [done|]. intros Hw. apply wfe_cons in Hw as (Hw & _ & _ & _ & Hall). cbn [anyleaf existsb fst].
  destruct l as [|l]; [done|]. cbn [has0]. change (N.pos l =? 0) with false. cbn [orb].
  assert (H : Forall (fun e : N * sub => (e.1 =? 0) = false) es).
  { eapply Forall_impl; [exact Hall|]. cbn. intros e He. apply N.eqb_neq. lia. }
  clear -H. induction H as [|e es He _ IH]; [done|]. cbn [existsb]. by rewrite He.
Qed.

Section place.
  Context (d : dawg) (ts : list edges).
  Hypothesis Hfz : frozen (d_base d) (d_label d) ts.
  Context (k : nat) (es : edges).
  Hypothesis Hk : ts !! k = Some es.

  Definition cpos (j : nat) : N := if (j <? length es)%nat then N.of_nat (start ts k + j) else 0.

  Lemma chainLabels_ok n : forall j fuel, (length es = j + n)%nat -> (n < fuel)%nat ->
    chainLabels fuel d (cpos j) = Ok (drop j es).*1.
  Proof.
    induction n as [|n IH]; intros j fuel Hn Hf; (destruct fuel as [|fuel]; [lia|]); cbn [chainLabels]; unfold cpos.
    - destruct (Nat.ltb_spec j (length es)); [lia|]. cbn. by rewrite drop_ge by lia.
    - destruct (Nat.ltb_spec j (length es)) as [Hj|]; [|lia]. destruct (N.eqb_spec (N.of_nat (start ts k + j)) 0); [unfold start in *; lia|].
      destruct (lookup_lt_is_Some_2 es j Hj) as [[l s] He]. destruct (nav_edge d ts Hfz k es j l s Hk He) as (H1 & H2 & _).
      rewrite H1, H2. cbn [mbind res_bind]. fold (cpos (S j)). rewrite IH by lia. cbn [mbind res_bind].
      by rewrite (drop_S _ _ _ He).
  Qed.

  Lemma place_ok o idx n : forall j b nb q u, (length es = j + n)%nat -> xinv b nb q ->
    NoDup (drop j es).*1 -> Forall (fun e => e.1 < 256 /\ (e.1 = 0 <-> is_leaf e.2 = true)) (drop j es) ->
    (forall l s, (l, s) ∈ drop j es -> free (X b) (N.lxor o l) /\ db_units b !! N.to_nat (N.lxor o l) = Some 0) ->
    ~ free (X b) idx -> db_units b !! N.to_nat idx = Some u ->
    exists b', placeChildren d idx o (drop j es).*1 b (cpos j) = Ok b' /\ xinv b' nb q /\ db_link b' = db_link b /\ db_unused b' = db_unused b /\
      (forall i, free (X b') i <-> free (X b) i /\ forall l s, (l, s) ∈ drop j es -> i <> N.lxor o l) /\
      (forall i, used (X b') i <-> used (X b) i) /\
      (forall l s, (l, s) ∈ drop j es -> db_units b' !! N.to_nat (N.lxor o l) = Some (child_unit l s)) /\
      db_units b' !! N.to_nat idx = Some (if anyleaf (drop j es) then dictSetHasLeaf u else u) /\
      (forall i, i <> idx -> (forall l s, (l, s) ∈ drop j es -> i <> N.lxor o l) -> db_units b' !! N.to_nat i = db_units b !! N.to_nat i).
  Proof.
    induction n as [|n IH]; intros j b nb q u Hn HX Hnd Hlab Hfr Hidx Hu.
    - rewrite drop_ge in * by lia. cbn [fmap list_fmap placeChildren]. exists b. split; [done|]. split; [done|]. split; [done|]. split; [done|].
      split; [intros i; split; [intros ?; split; [done|]; intros l s Hc; by apply elem_of_nil in Hc|by intros [? _]]|].
      split; [done|]. split; [intros l s Hc; by apply elem_of_nil in Hc|]. split; [done|]. done.
    - assert (Hj : (j < length es)%nat) by lia. destruct (lookup_lt_is_Some_2 es j Hj) as [[l s] He].
      destruct (nav_edge d ts Hfz k es j l s Hk He) as (H1 & H2 & H3).
      rewrite (drop_S _ _ _ He) in *. cbn [fmap list_fmap fst] in *. apply NoDup_cons in Hnd as [Hnl Hnd].
      apply Forall_cons in Hlab as [[Hl Hleaf] Hlab]. cbn [fst snd] in Hl, Hleaf. cbn [placeChildren].
      destruct (Hfr l s) as [Hf0 Hz]; [constructor|].
      assert (Hclt : N.lxor o l < 256 * N.of_nat nb) by (apply (xi_free_lt _ _ _ _ HX) in Hf0; lia).
      rewrite (rsv_unit b nb q _ HX Hclt).
      destruct (unlink_ok b nb q _ HX Hf0) as (b1 & Hb1 & HX1 & (Hs1 & Hs2 & Hs3) & Hfree1 & Hused1). rewrite Hb1. cbn [mbind res_bind].
      assert (Hcp : cpos j = N.of_nat (start ts k + j)) by (unfold cpos; destruct (Nat.ltb_spec j (length es)); [done|lia]).
      rewrite Hcp. unfold dawg_isLeaf. rewrite H1. cbn [mbind res_bind].
      assert (Hne : N.lxor o l <> idx) by (by intros Heq; rewrite Heq in Hf0).
      set (us := <[N.to_nat (N.lxor o l) := child_unit l s]> (<[N.to_nat idx := if l =? 0 then dictSetHasLeaf u else u]> (db_units b1))).
      assert (Hus : (if l =? 0 then us0 ← upd (db_units b1) idx dictSetHasLeaf; v ← dawg_value d (N.of_nat (start ts k + j)); upd us0 (N.lxor o l) (λ _ : N, dictSetValue v)
                     else upd (db_units b1) (N.lxor o l) (λ u0 : N, dictSetLabel u0 l)) = Ok us).
      { unfold us. destruct (N.eqb_spec l 0) as [Hl0|Hl0].
        - destruct s as [v|es']; [|destruct Hleaf as [Hleaf _]; specialize (Hleaf Hl0); discriminate Hleaf].
          rewrite (upd_N _ _ _ u) by (by rewrite Hs3). cbn [mbind res_bind]. rewrite H3. cbn [mbind res_bind]. rewrite (upd_N _ _ _ 0); [done|]. rewrite list_lookup_insert_ne by lia. by rewrite Hs3.
        - destruct s as [v|es']; [destruct Hleaf as [_ Hleaf]; by specialize (Hleaf eq_refl)|].
          rewrite (upd_N _ _ _ 0) by (by rewrite Hs3). cbn [child_unit]. f_equal. f_equal. symmetry. apply list_insert_id. by rewrite Hs3. }
      rewrite Hus. clear Hus. cbn [mbind res_bind].
      rewrite H2. cbn [mbind res_bind]. fold (cpos (S j)).
      assert (Hul : length us = length (db_units b1)) by (unfold us; by rewrite !insert_length).
      assert (Hidl : (N.to_nat idx < length (db_units b))%nat) by (by eapply lookup_lt_Some).
      assert (Hotl : (N.to_nat (N.lxor o l) < length (db_units b))%nat) by (by eapply lookup_lt_Some).
      assert (Hdis : forall l' s', (l', s') ∈ drop (S j) es -> N.lxor o l' <> N.lxor o l).
      { intros l' s' Hin Heq. apply lxor_inj_l in Heq as ->. apply Hnl. by eapply fst_in. }
      destruct (IH (S j) (dbset_units b1 us) nb q (if l =? 0 then dictSetHasLeaf u else u)) as
        (b' & Hb' & HX' & Hl' & Hn' & Hfree' & Hused' & Hch' & Hid' & Hoth').
      + lia.
      + destruct HX1 as [A1 A2 A3 A4 A5 A6]. constructor; cbn [db_units db_extras db_unfixed dbset_units]; try done. by rewrite Hul.
      + done.
      + done.
      + intros l' s' Hin. cbn [db_extras db_units dbset_units]. destruct (Hfr l' s') as [Hf' Hz']; [by constructor|].
        pose proof (Hdis _ _ Hin) as Hd. split; [by apply Hfree1|]. unfold us.
        rewrite list_lookup_insert_ne by lia. rewrite list_lookup_insert_ne; [by rewrite Hs3|]. intros Heq.
        assert (N.lxor o l' = idx) by lia. congruence.
      + cbn [db_extras dbset_units]. rewrite Hfree1. tauto.
      + cbn [db_units dbset_units]. unfold us. rewrite list_lookup_insert_ne by lia. rewrite list_lookup_insert; [done|]. by rewrite Hs3.
      + exists b'. split; [done|]. split; [done|]. cbn [db_link db_unused dbset_units db_extras db_units] in *.
        split; [congruence|]. split; [congruence|]. split; [|split; [|split; [|split]]].
        * intros i. rewrite Hfree', Hfree1. split.
          -- intros [[Ha Hb] Hc]. split; [done|]. intros l' s' Hin. apply elem_of_cons in Hin as [Hin|Hin]; [by simplify_eq|by eapply Hc].
          -- intros [Ha Hb]. split; [split; [done|]|].
             ++ apply (Hb l s). constructor.
             ++ intros l' s' Hin. apply (Hb l' s'). by constructor.
        * intros i. by rewrite Hused'.
        * intros l' s' Hin. apply elem_of_cons in Hin as [Hin|Hin].
          -- simplify_eq. rewrite Hoth'; [|done|].
             ++ unfold us. rewrite list_lookup_insert; [done|]. rewrite insert_length, Hs3. done.
             ++ intros l2 s2 Hin2 Heq. by apply (Hdis l2 s2).
          -- by apply Hch'.
        * rewrite Hid'. f_equal. cbn [anyleaf existsb fst]. fold (anyleaf (drop (S j) es)).
          destruct (l =? 0), (anyleaf (drop (S j) es)); cbn [orb]; try done. apply setHasLeaf_idem.
        * intros i Hi Hc. rewrite Hoth'; [|done|].
          -- unfold us. assert (i <> N.lxor o l) by (apply (Hc l s); constructor).
             rewrite !list_lookup_insert_ne by lia. by rewrite Hs3.
          -- intros l' s' Hin. apply (Hc l' s'). by constructor.
  Qed.
End place.
