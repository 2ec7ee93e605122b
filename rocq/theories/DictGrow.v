(** expandDictionary: adding a block to the free list. *)
From Verif Require Import Go BitPool LinkTable Dawg DawgRep Dict DictUnit DictX.
Local Open Scope N_scope.
Local Ltac Zify.zify_post_hook ::= Z.div_mod_to_equations.
Local Arguments N.mul : simpl never.
Local Arguments N.add : simpl never.
Local Arguments N.of_nat : simpl never.

Definition frame (b b' : dbuilder) : Prop :=
  db_units b' = db_units b /\ db_link b' = db_link b /\ db_unfixed b' = db_unfixed b /\ db_unused b' = db_unused b.
Lemma frame_refl b : frame b b. Proof. done. Qed.
Lemma frame_trans b1 b2 b3 : frame b1 b2 -> frame b2 b3 -> frame b1 b3.
Proof. intros (? & ? & ? & ?) (? & ? & ? & ?). repeat split; congruence. Qed.

Lemma xupd b i f nb q e : shape (db_extras b) nb q -> X b i = Some e -> exists b', db_extra_upd b i f = Ok b' /\ frame b b' /\
  shape (db_extras b') nb q /\ (forall j, X b' j = (if decide (j = i) then f else id) <$> X b j).
Proof.
  intros Hs He. eexists. split; [by apply (db_extra_upd_xt _ _ _ _ He)|]. split; [done|]. split; [by apply shape_xset|].
  intros j. apply xt_xset.
Qed.

Lemma clear_loop n : forall i b nb q, shape (db_extras b) nb q -> N.of_nat nb <= 2097153 ->
  256 * N.of_nat q <= i -> i + N.of_nat n <= 256 * N.of_nat nb ->
  exists b', for_range n i (fun i b => db_extra_upd b i (fun _ => (0, 0))) b = Ok b' /\ frame b b' /\
    shape (db_extras b') nb q /\ (forall j, X b' j = if decide (i <= j < i + N.of_nat n) then Some (0, 0) else X b j).
Proof.
  induction n as [|n IH]; intros i b nb q Hs Hnb Hi Hn; cbn [for_range].
  - exists b. split; [done|]. split; [done|]. split; [done|]. intros j. rewrite decide_False by lia. done.
  - destruct (proj2 (shape_xt _ _ _ i Hs)) as [e He]; [lia|].
    destruct (xupd b i (fun _ => (0, 0)) nb q e Hs He) as (b1 & H1 & Hf1 & Hs1 & HX1). rewrite H1. cbn [mbind res_bind].
    unfold u32, two32. rewrite N.mod_small by lia.
    destruct (IH (i + 1) b1 nb q Hs1) as (b2 & H2 & Hf2 & Hs2 & HX2); [done|lia|lia|].
    exists b2. split; [done|]. split; [by eapply frame_trans|]. split; [done|]. intros j. rewrite HX2, HX1.
    destruct (decide (i + 1 <= j < i + 1 + N.of_nat n)), (decide (j = i)) as [->|]; try lia.
    + by rewrite decide_True by lia.
    + rewrite decide_True by lia. by rewrite He.
    + rewrite decide_False by lia. by destruct (X b j).
Qed.

Lemma xt_app es blk i : xt (es ++ [blk]) i =
  if decide (i / 256 = N.of_nat (length es)) then blk !! N.to_nat (i mod 256) else xt es i.
Proof.
  unfold xt. destruct (decide (i / 256 = N.of_nat (length es))) as [->|Hne].
  - rewrite Nat2N.id, lookup_app_r, Nat.sub_diag by done. done.
  - destruct (decide (i / 256 < N.of_nat (length es))).
    + by rewrite lookup_app_l by lia.
    + rewrite lookup_ge_None_2 by (rewrite app_length; cbn [length]; lia). rewrite lookup_ge_None_2 by lia. done.
Qed.
Lemma xt_insert es k blk i : (k < length es)%nat -> xt (<[k := blk]> es) i =
  if decide (i / 256 = N.of_nat k) then blk !! N.to_nat (i mod 256) else xt es i.
Proof.
  intros Hk. unfold xt. destruct (decide (i / 256 = N.of_nat k)) as [->|Hne].
  - rewrite Nat2N.id, list_lookup_insert by done. done.
  - rewrite list_lookup_insert_ne by lia. done.
Qed.

Lemma addBlock_ok b nb : length (db_units b) = (256 * nb)%nat -> N.of_nat nb < 2097152 ->
  shape (db_extras b) nb (nb - 16) -> exists b',
  addBlock (256 * N.of_nat nb) (N.of_nat nb) (N.of_nat (S nb)) b = Ok b' /\
  db_units b' = db_units b ++ replicate 256 0 /\ db_link b' = db_link b /\ db_unfixed b' = db_unfixed b /\ db_unused b' = db_unused b /\
  shape (db_extras b') (S nb) (S nb - 16) /\
  (forall j, X b' j = if decide (256 * N.of_nat nb <= j < 256 * N.of_nat (S nb)) then Some (0, 0)
                      else if decide (256 * N.of_nat (S nb - 16) <= j) then X b j else None).
Proof.
  intros Hlen Hnb Hs. pose proof Hs as [Hl Hb]. unfold addBlock, numOfUnfixedBlocks. cbv zeta. cbn [dbset_extras dbset_units db_extras].
  destruct (N.ltb_spec 16 (N.of_nat (S nb))) as [Hge|Hlt].
  - replace (N.of_nat nb - 16) with (N.of_nat (nb - 16)) by lia.
    destruct (lookup_lt_is_Some_2 (db_extras b) (nb - 16)) as [old Hold]; [lia|].
    assert (Hold' : (db_extras b ++ [[]]) !! (nb - 16)%nat = Some old) by (rewrite lookup_app_l; [done|lia]).
    rewrite (get_nat _ _ _ Hold'). cbn [mbind res_bind].
    rewrite set_nat by (rewrite app_length; cbn [length]; lia). cbn [mbind res_bind].
    rewrite insert_length, app_length. cbn [length].
    replace (N.of_nat (length (db_extras b) + 1) - 1) with (N.of_nat nb) by lia.
    rewrite set_nat by (rewrite insert_length, app_length; cbn [length]; lia). cbn [mbind res_bind].
    set (es := <[nb:=old]> (<[(nb - 16)%nat:=[]]> (db_extras b ++ [[]]))).
    assert (Hes : shape es (S nb) (S nb - 16)).
    { split; [unfold es; rewrite !insert_length, app_length; cbn [length]; lia|]. intros k blk Hk. unfold es in Hk.
      apply list_lookup_insert_Some in Hk as [(<- & <- & _)|[Hkn Hk]].
      - rewrite (Hb _ _ Hold). destruct (Nat.ltb_spec (nb - 16) (nb - 16)), (Nat.ltb_spec nb (S nb - 16)); lia.
      - apply list_lookup_insert_Some in Hk as [(<- & <- & _)|[Hkn2 Hk]].
        + destruct (Nat.ltb_spec (nb - 16) (S nb - 16)); [done|lia].
        + apply lookup_lt_Some in Hk as Hlt. rewrite app_length in Hlt. cbn [length] in Hlt.
          rewrite lookup_app_l in Hk by lia. rewrite (Hb _ _ Hk).
          destruct (Nat.ltb_spec k (nb - 16)), (Nat.ltb_spec k (S nb - 16)); lia. }
    edestruct (clear_loop 256 (256 * N.of_nat nb) (dbset_extras (dbset_extras (dbset_units b (db_units b ++ replicate 256 0)) (db_extras b ++ [[]])) es) (S nb) (S nb - 16))
      as (b' & Hr & (Hf1 & Hf2 & Hf3 & Hf4) & Hs' & HX); [done|lia|lia|lia|].
    exists b'. split; [exact Hr|]. repeat (split; [done|]). intros j. rewrite HX. cbn [dbset_extras db_extras].
    replace (256 * N.of_nat nb + N.of_nat 256) with (256 * N.of_nat (S nb)) by lia.
    destruct (decide (256 * N.of_nat nb <= j < 256 * N.of_nat (S nb))) as [|Hj]; [done|]. unfold es.
    rewrite xt_insert by (rewrite insert_length, app_length; cbn [length]; lia). rewrite decide_False by lia.
    rewrite xt_insert by (rewrite app_length; cbn [length]; lia). destruct (decide (j / 256 = N.of_nat (nb - 16))).
    + rewrite decide_False by lia. by rewrite lookup_nil.
    + rewrite xt_app, Hl, decide_False by lia. destruct (decide (256 * N.of_nat (S nb - 16) <= j)); [done|].
      apply eq_None_not_Some. rewrite (shape_xt _ _ _ j Hs). lia.
  - rewrite app_length. cbn [length]. replace (N.of_nat (length (db_extras b) + 1) - 1) with (N.of_nat nb) by lia.
    rewrite set_nat by (rewrite app_length; cbn [length]; lia). cbn [mbind res_bind].
    eexists. split; [reflexivity|]. cbn [dbset_extras dbset_units db_extras db_units db_link db_unfixed db_unused].
    repeat (split; [done|]).
    assert (Hins : <[nb:=replicate 256 (0, 0)]> (db_extras b ++ [[]]) = db_extras b ++ [replicate 256 (0, 0)]).
    { rewrite insert_app_r_alt by lia. by rewrite Hl, Nat.sub_diag. }
    rewrite Hins. split.
    + split; [rewrite app_length; cbn [length]; lia|]. intros k blk Hk.
      destruct (Nat.ltb_spec k (S nb - 16)); [lia|]. apply lookup_app_Some in Hk as [Hk|[Hk1 Hk]].
      * rewrite (Hb _ _ Hk). destruct (Nat.ltb_spec k (nb - 16)); [lia|done].
      * apply list_lookup_singleton_Some in Hk as [_ <-]. apply replicate_length.
    + intros j. rewrite xt_app, Hl.
      destruct (decide (j / 256 = N.of_nat nb)), (decide (256 * N.of_nat nb <= j < 256 * N.of_nat (S nb))); try lia.
      * apply lookup_replicate. split; [done|]. lia.
      * rewrite decide_True by lia. done.
Qed.

(** Links of the new block after [m] steps of the loop. *)
Lemma link_loop n : forall i b nb q src m, shape (db_extras b) nb q -> N.of_nat nb <= 2097152 ->
  i = src + N.of_nat m + 1 -> (m + n <= 255)%nat -> 256 * N.of_nat q <= src -> src + 256 <= 256 * N.of_nat nb ->
  (forall t, (t < 256)%nat -> exists e, X b (src + N.of_nat t) = Some e /\ ex_isFixed e = false /\ ex_isUsed e = false /\
     ((t < m)%nat -> ex_next e = src + N.of_nat t + 1) /\ ((1 <= t <= m)%nat -> ex_prev e + 1 = src + N.of_nat t)) ->
  exists b', for_range n i (fun i b => b ← db_extra_upd b (dec32 i) (ex_setNext i); db_extra_upd b i (ex_setPrev (dec32 i))) b = Ok b' /\
    frame b b' /\ shape (db_extras b') nb q /\ (forall j, ~ (src <= j < src + 256) -> X b' j = X b j) /\
  (forall t, (t < 256)%nat -> exists e, X b' (src + N.of_nat t) = Some e /\ ex_isFixed e = false /\ ex_isUsed e = false /\
     ((t < m + n)%nat -> ex_next e = src + N.of_nat t + 1) /\ ((1 <= t <= m + n)%nat -> ex_prev e + 1 = src + N.of_nat t)).
Proof.
  induction n as [|n IH]; intros i b nb q src m Hs Hnb -> Hm Hq Hsrc Hlk; cbn [for_range].
  - exists b. split; [done|]. split; [done|]. split; [done|]. split; [done|]. rewrite Nat.add_0_r. done.
  - assert (Hdec : dec32 (src + N.of_nat m + 1) = src + N.of_nat m).
    { unfold dec32, u32, two32. lia. }
    rewrite Hdec. destruct (Hlk m) as (e & He & _); [lia|].
    destruct (xupd b (src + N.of_nat m) (ex_setNext (src + N.of_nat m + 1)) nb q e Hs He) as (b1 & H1 & Hf1 & Hs1 & HX1).
    rewrite H1. cbn [mbind res_bind].
    destruct (Hlk (S m)) as (e2 & He2 & _); [lia|].
    destruct (xupd b1 (src + N.of_nat m + 1) (ex_setPrev (src + N.of_nat m)) nb q e2) as (b2 & H2 & Hf2 & Hs2 & HX2); [done| |].
    { rewrite HX1, decide_False by lia. replace (src + N.of_nat m + 1) with (src + N.of_nat (S m)) by lia. by rewrite He2. }
    rewrite H2. cbn [mbind res_bind].
    destruct (IH (u32 (src + N.of_nat m + 1 + 1)) b2 nb q src (S m) Hs2) as (b3 & H3 & Hf3 & Hs3 & Ho3 & Hl3); [done| |lia|done|done| |].
    { unfold u32, two32. lia. }
    { intros t Ht. destruct (Hlk t Ht) as (et & Het & Hfx & Hus & Hn & Hp). rewrite HX2, HX1, Het. cbn [fmap option_fmap option_map].
      eexists. split; [reflexivity|].
      destruct (decide (src + N.of_nat t = src + N.of_nat m + 1)), (decide (src + N.of_nat t = src + N.of_nat m)); try lia; cbn [id].
      - rewrite ex_fixed_prev, ex_used_prev, ex_next_prev, ex_prev_prev by lia. repeat (split; [done|]). split; [lia|lia].
      - rewrite ex_fixed_next, ex_used_next, ex_prev_next, ex_next_next by lia. repeat (split; [done|]). split; [lia|]. intros; apply Hp; lia.
      - repeat (split; [done|]). split; intros; [apply Hn|apply Hp]; lia. }
    exists b3. split; [done|]. split; [by eapply frame_trans; [eapply frame_trans|]|]. split; [done|]. split.
    { intros j Hj. rewrite Ho3, HX2, HX1 by done. rewrite !decide_False by lia. by destruct (X b j). }
    replace (m + S n)%nat with (S m + n)%nat by lia. done.
Qed.

(** [lia] without division is faster in the long contexts below. *)
Lemma u32_small x : x < 4294967296 -> u32 x = x.
Proof. intros H. unfold u32, two32. by apply N.mod_small. Qed.
Lemma dec32_small x : 1 <= x < 4294967296 -> dec32 x = x - 1.
Proof. intros H. unfold dec32, u32, two32. lia. Qed.
Local Ltac Zify.zify_post_hook ::= idtac.
Local Ltac xstep b i f e Hs He b' :=
  let H := fresh "H" in let Hf := fresh "Hf" in let Hs' := fresh "Hs" in let HX := fresh "HX" in
  destruct (xupd b i f _ _ e Hs He) as (b' & H & Hf & Hs' & HX); rewrite H; cbn [mbind res_bind].

Lemma linkBlock_ok b nb q src : shape (db_extras b) nb q -> N.of_nat nb <= 2097152 ->
  256 * N.of_nat q <= src -> src + 256 = 256 * N.of_nat nb ->
  (forall j, src <= j < src + 256 -> X b j = Some (0, 0)) ->
  (forall i e, i < src -> X b i = Some e -> ex_isFixed e = false ->
     (exists e', ex_next e < src /\ X b (ex_next e) = Some e' /\ ex_isFixed e' = false /\ ex_prev e' = i) /\
     (exists e', ex_prev e < src /\ X b (ex_prev e) = Some e' /\ ex_isFixed e' = false /\ ex_next e' = i)) ->
  db_unfixed b = src \/ (db_unfixed b < src /\ free (X b) (db_unfixed b)) ->
  exists b', linkBlock src (src + 256) b = Ok b' /\ frame b b' /\ shape (db_extras b') nb q /\ links (X b') /\
    (forall j, free (X b') j <-> free (X b) j) /\ (forall j, used (X b') j <-> used (X b) j).
Proof.
  intros Hs Hnb Hq Hsrc Hnew Hold Hunf. unfold linkBlock.
  destruct (link_loop 255 (u32 (src + 1)) b nb q src 0) as (b1 & H1 & Hf1 & Hs1 & Ho1 & Hl1); [done|done|rewrite u32_small; lia|lia|done|lia| |].
  { intros t Ht. exists (0, 0). split; [apply Hnew; lia|]. repeat (split; [done|]). lia. }
  rewrite H1. cbn [mbind res_bind].
  assert (Hd : dec32 (src + 256) = src + 255) by (rewrite dec32_small; lia). rewrite Hd.
  destruct (Hl1 0%nat) as (e0 & He0 & Hfx0 & Hus0 & Hn0 & _); [lia|]. rewrite N.add_0_r in *.
  destruct (Hl1 255%nat) as (eL & HeL & HfxL & HusL & _ & HpL); [lia|]. change (N.of_nat 255) with 255 in *.
  specialize (Hn0 ltac:(lia)). specialize (HpL ltac:(lia)).
  xstep b1 src (ex_setPrev (src + 255)) e0 Hs1 He0 b2.
  assert (HeL2 : X b2 (src + 255) = Some eL) by (rewrite HX, decide_False, HeL by lia; done).
  xstep b2 (src + 255) (ex_setNext src) eL Hs0 HeL2 b3.
  assert (Hunf3 : db_unfixed b3 = db_unfixed b) by (destruct Hf1 as (_ & _ & ? & _), Hf as (_ & _ & ? & _), Hf0 as (_ & _ & ? & _); congruence).
  rewrite Hunf3.
  (* what b3 holds *)
  assert (Hout3 : forall j, ~ (src <= j < src + 256) -> X b3 j = X b j).
  { intros j Hj. rewrite HX0, HX, !decide_False, Ho1 by lia. by destruct (X b j). }
  assert (Hin3 : forall t, (t < 256)%nat -> exists e, X b3 (src + N.of_nat t) = Some e /\ ex_isFixed e = false /\ ex_isUsed e = false /\
     ex_next e = (if decide (t = 255%nat) then src else src + N.of_nat t + 1) /\
     ex_prev e = (if decide (t = 0%nat) then src + 255 else src + N.of_nat t - 1)).
  { intros t Ht. destruct (Hl1 t Ht) as (e & He & Hfx & Hus & Hn & Hp). rewrite HX0, HX, He. cbn [fmap option_fmap option_map].
    eexists. split; [reflexivity|].
    destruct (decide (src + N.of_nat t = src)) as [q1|q1], (decide (src + N.of_nat t = src + 255)) as [q2|q2], (decide (t = 255%nat)) as [q3|q3], (decide (t = 0%nat)) as [q4|q4]; try (exfalso; clear - q1 q2 q3 q4; lia); cbn [id].
    - rewrite ex_fixed_prev, ex_used_prev, ex_next_prev, ex_prev_prev by lia. split_and!; try done. apply Hn; lia.
    - rewrite ex_fixed_next, ex_used_next, ex_next_next, ex_prev_next by lia. specialize (Hp ltac:(lia)). split_and!; try done. lia.
    - specialize (Hp ltac:(lia)). specialize (Hn ltac:(lia)). split_and!; try done; lia. }
  clear HX HX0 He0 HeL HeL2 Hl1 Ho1 H1 H H0 Hfx0 Hus0 Hn0 HfxL HusL HpL e0 eL.
  destruct Hunf as [Hu|[Hult (eu & Heu & Hfu)]].
  - (* the list was empty *)
    rewrite Hu. destruct (Hin3 0%nat) as (e0 & He0 & Hfx0 & Hus0 & Hn0 & Hp0); [lia|]. rewrite N.add_0_r in He0.
    cbn [decide] in Hp0. rewrite (db_extra_xt _ _ _ He0). cbn [mbind res_bind].
    rewrite decide_True in Hp0 by done. rewrite decide_False in Hn0 by done. rewrite Hp0.
    destruct (Hin3 255%nat) as (eL & HeL & HfxL & HusL & HnL & HpL); [lia|]. change (N.of_nat 255) with 255 in HeL.
    xstep b3 src (ex_setPrev (src + 255)) e0 Hs2 He0 b4.
    assert (HeL4 : X b4 (src + 255) = Some eL) by (rewrite HX, decide_False, HeL by lia; done).
    assert (Hunf4 : db_unfixed b4 = src) by (destruct Hf2 as (_ & _ & ? & _); congruence). rewrite Hunf4.
    xstep b4 (src + 255) (ex_setNext src) eL Hs3 HeL4 b5.
    assert (Hunf5 : db_unfixed b5 = src) by (destruct Hf3 as (_ & _ & ? & _); congruence). rewrite Hunf5.
    assert (He5 : X b5 src = Some (ex_setPrev (src + 255) e0)).
    { rewrite HX0, HX, He0, decide_False, decide_True by lia. done. }
    rewrite (db_extra_xt _ _ _ He5). cbn [mbind res_bind]. rewrite ex_prev_prev by lia.
    assert (HeL5 : X b5 (src + 255) = Some (ex_setNext src eL)).
    { rewrite HX0, HX, HeL, decide_True, decide_False by lia. done. }
    xstep b5 (src + 255) (ex_setNext src) (ex_setNext src eL) Hs4 HeL5 b6.
    assert (Hunf6 : db_unfixed b6 = src) by (destruct Hf4 as (_ & _ & ? & _); congruence). rewrite Hunf6.
    assert (He6 : X b6 src = Some (ex_setPrev (src + 255) e0)) by (rewrite HX1, He5, decide_False by lia; done).
    destruct (xupd b6 src (ex_setPrev (src + 255)) _ _ _ Hs5 He6) as (b7 & H7 & Hf7 & Hs7 & HX7). rewrite H7.
    exists b7. split; [done|]. split; [by repeat (eapply frame_trans; [eassumption|])|]. split; [done|].
    assert (Hout : forall j, ~ (src <= j < src + 256) -> X b7 j = X b j).
    { intros j Hj. rewrite HX7, HX1, HX0, HX, Hout3 by done. rewrite !decide_False by lia. by destruct (X b j). }
    assert (Hin : forall t, (t < 256)%nat -> exists e, X b7 (src + N.of_nat t) = Some e /\ ex_isFixed e = false /\ ex_isUsed e = false /\
      ex_next e = (if decide (t = 255%nat) then src else src + N.of_nat t + 1) /\
      ex_prev e = (if decide (t = 0%nat) then src + 255 else src + N.of_nat t - 1)).
    { intros t Ht. destruct (Hin3 t Ht) as (e & He & Hfx & Hus & Hn & Hp). rewrite HX7, HX1, HX0, HX, He. cbn [fmap option_fmap option_map].
      eexists. split; [reflexivity|].
      destruct (decide (src + N.of_nat t = src)) as [q1|q1], (decide (src + N.of_nat t = src + 255)) as [q2|q2], (decide (t = 255%nat)) as [q3|q3], (decide (t = 0%nat)) as [q4|q4]; try (exfalso; clear - q1 q2 q3 q4; lia); cbn [id].
      - rewrite !ex_fixed_prev, !ex_used_prev, !ex_next_prev, ex_prev_prev by lia. split_and!; done.
      - rewrite !ex_fixed_next, !ex_used_next, ex_next_next, !ex_prev_next by lia. split_and!; done.
      - done. }
    clear - Hin Hout Hold Hnew Hs7 Hsrc.
    assert (Hcase : forall j, src <= j < src + 256 -> exists t, (t < 256)%nat /\ j = src + N.of_nat t).
    { intros j Hj. exists (N.to_nat (j - src)). lia. }
    split; [|split].
    + intros i e He Hf. destruct (decide (src <= i < src + 256)) as [Hi|Hi].
      * destruct (Hcase i Hi) as (t & Ht & ->). destruct (Hin t Ht) as (e' & He' & _ & _ & Hn & Hp). rewrite He in He'. injection He' as <-.
        rewrite Hn, Hp. split.
        -- destruct (decide (t = 255%nat)) as [->|].
           ++ destruct (Hin 0%nat) as (e' & He' & Hf' & _ & _ & Hp'); [lia|]. rewrite N.add_0_r in He'. exists e'. split; [done|]. split; [done|].
              rewrite Hp', decide_True by done. lia.
           ++ destruct (Hin (S t)) as (e' & He' & Hf' & _ & _ & Hp'); [lia|]. exists e'.
              replace (src + N.of_nat t + 1) with (src + N.of_nat (S t)) by lia. split; [done|]. split; [done|]. rewrite Hp', decide_False by done. lia.
        -- destruct (decide (t = 0%nat)) as [->|].
           ++ destruct (Hin 255%nat) as (e' & He' & Hf' & _ & Hn' & _); [lia|]. exists e'. split; [done|]. split; [done|].
              rewrite Hn', decide_True by done. lia.
           ++ destruct (Hin (t - 1)%nat) as (e' & He' & Hf' & _ & Hn' & _); [lia|]. exists e'.
              replace (src + N.of_nat t - 1) with (src + N.of_nat (t - 1)) by lia. split; [done|]. split; [done|]. rewrite Hn', decide_False by lia. lia.
      * assert (i < src). { assert (i < 256 * N.of_nat nb) by (apply (shape_xt _ _ _ i Hs7); eauto). lia. }
        rewrite Hout in He by done. destruct (Hold i e) as [(en & Hn1 & Hn2) (ep & Hp1 & Hp2)]; [done|done|done|].
        split; [exists en|exists ep]; (rewrite Hout by lia); done.
    + intros j. unfold free. destruct (decide (src <= j < src + 256)) as [Hi|Hi]; [|by rewrite Hout].
      rewrite (Hnew j Hi). destruct (Hcase j Hi) as (t & Ht & ->). destruct (Hin t Ht) as (e' & -> & Hf & _). split; eauto.
    + intros j. unfold used. destruct (decide (src <= j < src + 256)) as [Hi|Hi]; [|by rewrite Hout].
      rewrite (Hnew j Hi). destruct (Hcase j Hi) as (t & Ht & ->). destruct (Hin t Ht) as (e' & -> & _ & Hus & _).
      split; intros (y & Hy & Hu); injection Hy as <-; [congruence|discriminate Hu].
  - (* splice *)
    set (f := db_unfixed b) in *. assert (Heu3 : X b3 f = Some eu) by (rewrite Hout3 by lia; done).
    rewrite (db_extra_xt _ _ _ Heu3). cbn [mbind res_bind]. set (g := ex_prev eu).
    destruct (Hold f eu Hult Heu Hfu) as [_ (eg & Hglt & Heg & Hfg & Hgn)]. fold g in Hglt, Heg.
    destruct (Hin3 0%nat) as (e0 & He0 & Hfx0 & Hus0 & Hn0 & Hp0); [lia|]. rewrite N.add_0_r in He0.
    rewrite decide_True in Hp0 by done. rewrite decide_False in Hn0 by done.
    destruct (Hin3 255%nat) as (eL & HeL & HfxL & HusL & HnL & HpL); [lia|]. change (N.of_nat 255) with 255 in HeL.
    xstep b3 src (ex_setPrev g) e0 Hs2 He0 b4.
    assert (HeL4 : X b4 (src + 255) = Some eL) by (rewrite HX, decide_False, HeL by lia; done).
    assert (Hunf4 : db_unfixed b4 = f) by (destruct Hf2 as (_ & _ & ? & _); congruence). rewrite Hunf4.
    xstep b4 (src + 255) (ex_setNext f) eL Hs3 HeL4 b5.
    assert (Hunf5 : db_unfixed b5 = f) by (destruct Hf3 as (_ & _ & ? & _); congruence). rewrite Hunf5.
    assert (Heu5 : X b5 f = Some eu) by (rewrite HX0, HX, Heu3, !decide_False by lia; done).
    rewrite (db_extra_xt _ _ _ Heu5). cbn [mbind res_bind]. fold g.
    assert (Heg5 : X b5 g = Some eg) by (rewrite HX0, HX, Hout3, Heg, !decide_False by lia; done).
    xstep b5 g (ex_setNext src) eg Hs4 Heg5 b6.
    assert (Hunf6 : db_unfixed b6 = f) by (destruct Hf4 as (_ & _ & ? & _); congruence). rewrite Hunf6.
    assert (exists y, X b6 f = Some y) as [y Hy] by (rewrite HX1, Heu5; eauto).
    destruct (xupd b6 f (ex_setPrev (src + 255)) _ _ _ Hs5 Hy) as (b7 & H7 & Hf7 & Hs7 & HX7). rewrite H7.
    exists b7. split; [done|]. split; [by repeat (eapply frame_trans; [eassumption|])|]. split; [done|].
    assert (Hout : forall j e, ~ (src <= j < src + 256) -> X b j = Some e -> exists e', X b7 j = Some e' /\
      ex_isFixed e' = ex_isFixed e /\ ex_isUsed e' = ex_isUsed e /\
      (ex_next e' = if decide (j = g) then src else ex_next e) /\ (ex_prev e' = if decide (j = f) then src + 255 else ex_prev e)).
    { intros j e Hj He. rewrite HX7, HX1, HX0, HX, Hout3, He by done. rewrite (decide_False (P := j = src + 255)), (decide_False (P := j = src)) by lia.
      cbn [fmap option_fmap option_map]. eexists. split; [reflexivity|]. destruct (decide (j = f)), (decide (j = g)); cbn [id];
        rewrite ?ex_fixed_prev, ?ex_fixed_next, ?ex_used_prev, ?ex_used_next, ?ex_next_prev; rewrite ?ex_prev_prev, ?ex_next_next by lia; done. }
    assert (Hnone : forall j, X b j = None -> X b7 j = None).
    { intros j Hj. destruct (decide (src <= j < src + 256)); [by rewrite Hnew in Hj|]. rewrite HX7, HX1, HX0, HX, Hout3, Hj by done. done. }
    assert (Hin : forall t, (t < 256)%nat -> exists e, X b7 (src + N.of_nat t) = Some e /\ ex_isFixed e = false /\ ex_isUsed e = false /\
      ex_next e = (if decide (t = 255%nat) then f else src + N.of_nat t + 1) /\
      ex_prev e = (if decide (t = 0%nat) then g else src + N.of_nat t - 1)).
    { intros t Ht. destruct (Hin3 t Ht) as (e & He & Hfx & Hus & Hn & Hp). rewrite HX7, HX1, HX0, HX, He. cbn [fmap option_fmap option_map].
      eexists. split; [reflexivity|].
      rewrite (decide_False (P := src + N.of_nat t = f)), (decide_False (P := src + N.of_nat t = g)) by lia.
      destruct (decide (src + N.of_nat t = src)) as [q1|q1], (decide (src + N.of_nat t = src + 255)) as [q2|q2], (decide (t = 255%nat)) as [q3|q3], (decide (t = 0%nat)) as [q4|q4]; try (exfalso; clear - q1 q2 q3 q4; lia); cbn [id].
      - rewrite !ex_fixed_prev, !ex_used_prev, !ex_next_prev, ex_prev_prev by lia. split_and!; done.
      - rewrite !ex_fixed_next, !ex_used_next, ex_next_next, !ex_prev_next by lia. split_and!; done.
      - done. }
    clearbody f. clear - Hin Hout Hnone Hold Hnew Hs7 Hsrc Hs Heg Heu Hfu Hgn Hfg Hult Hglt.
    assert (Hcase : forall j, src <= j < src + 256 -> exists t, (t < 256)%nat /\ j = src + N.of_nat t).
    { intros j Hj. exists (N.to_nat (j - src)). lia. }
    assert (Hlt : forall i e, X b7 i = Some e -> ~ (src <= i < src + 256) -> i < src).
    { intros i e He Hi. assert (i < 256 * N.of_nat nb) by (apply (shape_xt _ _ _ i Hs7); eauto). lia. }
    split; [|split].
    + intros i e He Hf. destruct (decide (src <= i < src + 256)) as [Hi|Hi].
      * destruct (Hcase i Hi) as (t & Ht & ->). destruct (Hin t Ht) as (e' & He' & _ & _ & Hn & Hp). rewrite He in He'. injection He' as <-.
        rewrite Hn, Hp. split.
        -- destruct (decide (t = 255%nat)) as [->|].
           ++ destruct (Hout f eu) as (e' & He' & Hf' & _ & _ & Hp'); [lia|done|]. exists e'. split; [done|]. split; [congruence|].
              rewrite Hp', decide_True by done. lia.
           ++ destruct (Hin (S t)) as (e' & He' & Hf' & _ & _ & Hp'); [lia|]. exists e'.
              replace (src + N.of_nat t + 1) with (src + N.of_nat (S t)) by lia. split; [done|]. split; [done|]. rewrite Hp', decide_False by done. lia.
        -- destruct (decide (t = 0%nat)) as [->|].
           ++ destruct (Hout g eg) as (e' & He' & Hf' & _ & Hn' & _); [lia|done|]. exists e'. split; [done|]. split; [congruence|].
              rewrite Hn', decide_True by done. lia.
           ++ destruct (Hin (t - 1)%nat) as (e' & He' & Hf' & _ & Hn' & _); [lia|]. exists e'.
              replace (src + N.of_nat t - 1) with (src + N.of_nat (t - 1)) by lia. split; [done|]. split; [done|]. rewrite Hn', decide_False by lia. lia.
      * specialize (Hlt i e He Hi). destruct (X b i) as [eb|] eqn:Heb; [|by rewrite Hnone in He].
        destruct (Hout i eb Hi Heb) as (e' & He' & Hf' & _ & Hn & Hp). rewrite He in He'. injection He' as <-.
        destruct (Hold i eb) as [(en & Hn1 & Hn2 & Hn3 & Hn4) (ep & Hp1 & Hp2 & Hp3 & Hp4)]; [done|done|congruence|]. rewrite Hn, Hp. split.
        -- destruct (decide (i = g)) as [->|Hig].
           ++ destruct (Hin 0%nat) as (e' & He' & Hf2 & _ & _ & Hp'); [lia|]. rewrite N.add_0_r in He'. exists e'. split; [done|]. split; [done|].
              by rewrite Hp', decide_True.
           ++ destruct (Hout (ex_next eb) en) as (e' & He' & Hf2 & _ & _ & Hp'); [lia|done|]. exists e'. split; [done|]. split; [congruence|].
              rewrite Hp'. destruct (decide (ex_next eb = f)) as [Hnf|]; [|done]. exfalso. rewrite Hnf, Heu in Hn2. injection Hn2 as ->.
              apply Hig. rewrite <- Hn4. done.
        -- destruct (decide (i = f)) as [->|Hif].
           ++ destruct (Hin 255%nat) as (e' & He' & Hf2 & _ & Hn' & _); [lia|]. exists e'. split; [done|]. split; [done|].
              by rewrite Hn', decide_True.
           ++ destruct (Hout (ex_prev eb) ep) as (e' & He' & Hf2 & _ & Hn' & _); [lia|done|]. exists e'. split; [done|]. split; [congruence|].
              rewrite Hn'. destruct (decide (ex_prev eb = g)) as [Hpg|]; [|done]. exfalso. rewrite Hpg, Heg in Hp2. injection Hp2 as ->. congruence.
    + intros j. unfold free. destruct (decide (src <= j < src + 256)) as [Hi|Hi].
      * rewrite (Hnew j Hi). destruct (Hcase j Hi) as (t & Ht & ->). destruct (Hin t Ht) as (e' & -> & Hf & _). split; eauto.
      * destruct (X b j) as [e|] eqn:He; [|by rewrite Hnone]. destruct (Hout j e Hi He) as (e' & -> & Hf & _).
        split; intros (y & Hy & Hyf); injection Hy as <-; eexists; (split; [reflexivity|congruence]).
    + intros j. unfold used. destruct (decide (src <= j < src + 256)) as [Hi|Hi].
      * rewrite (Hnew j Hi). destruct (Hcase j Hi) as (t & Ht & ->). destruct (Hin t Ht) as (e' & -> & _ & Hus & _).
        split; intros (y & Hy & Hu); injection Hy as <-; [congruence|discriminate Hu].
      * destruct (X b j) as [e|] eqn:He; [|by rewrite Hnone]. destruct (Hout j e Hi He) as (e' & -> & _ & Hu & _).
        split; intros (y & Hy & Hyf); injection Hy as <-; eexists; (split; [reflexivity|congruence]).
Qed.
