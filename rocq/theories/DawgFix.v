(** Fixing one sibling chain: findUnit and the body of the loop of fixUnits. *)
From Verif Require Import Go BitPool BitPoolProofs LinkTable LinkTableProofs Probe Dawg Tree DawgRep DawgFrozen.
Local Open Scope N_scope.
Local Ltac Zify.zify_post_hook ::= Z.div_mod_to_equations.
Local Arguments N.mul : simpl never.
Local Arguments N.add : simpl never.
Local Arguments N.of_nat : simpl never.

Lemma frozen_snoc bs ls ts es bl : frozen bs ls ts -> wf (Node es) -> es ∉ ts -> genc ts true es bl ->
  N.of_nat (S (psum ts + length es)) <= 1073741824 ->
  frozen (bs ++ bl.*1) (ls ++ bl.*2) (ts ++ [es]).
Proof.
  intros F Hwf Hni Hg Hsz. pose proof (genc_length _ _ _ _ Hg) as Hlen.
  assert (psum (ts ++ [es]) = psum ts + length es)%nat as Hps by (rewrite psum_app; cbn; lia).
  split.
  - rewrite app_length, fmap_length, (fz_base _ _ _ F), Hlen, Hps. lia.
  - rewrite app_length, fmap_length, (fz_label _ _ _ F), Hlen, Hps. lia.
  - apply NoDup_app. split; [apply F|]. split; [|apply NoDup_singleton].
    intros x Hx ->%elem_of_list_singleton. done.
  - apply Forall_app. split; [apply F|]. by apply Forall_singleton.
  - intros k e Hk. destruct (decide (k < length ts)%nat) as [Hlt|Hge].
    + rewrite lookup_app_l in Hk by done. destruct (fz_grp _ _ _ F _ _ Hk) as (bl' & Hg' & Hp).
      exists bl'. split; [by apply genc_mono|]. rewrite start_mono by lia. by apply pat_mono.
    + apply lookup_app_Some in Hk as [Hk|[_ Hk]]; [apply lookup_lt_Some in Hk; lia|].
      apply list_lookup_singleton_Some in Hk as [Hk ->]. assert (k = length ts) as -> by lia.
      exists bl. split; [by apply genc_mono|]. rewrite start_end.
      rewrite <- (fz_base _ _ _ F). pose proof (pat_end bs ls bl [] []) as Hp. rewrite !app_nil_r in Hp.
      apply Hp. by rewrite (fz_base _ _ _ F), (fz_label _ _ _ F).
  - rewrite Hps. done.
Qed.

Lemma bwords_iter n p : bwords p -> bwords (Nat.iter n bp_allocate p).
Proof.
  intros H. induction n as [|n IH]; [done|].
  change (Nat.iter (S n) bp_allocate p) with (bp_allocate (Nat.iter n bp_allocate p)). by apply bwords_allocate.
Qed.

(** ** findUnit *)
Lemma findUnit_scan b i a : let T := b_hash b in
  (0 < length T)%nat -> N.of_nat (length T) < two32 -> forall r d fuel x m,
  (r < fuel)%nat ->
  T !! ((a + (d + r)) mod length T)%nat = Some x ->
  (x = 0 /\ m = 0 \/ x <> 0 /\ m = x /\ areEqual b i x = Ok true) ->
  (forall d', (d <= d' < d + r)%nat -> exists y, T !! ((a + d') mod length T)%nat = Some y /\ y <> 0 /\ areEqual b i y = Ok false) ->
  findUnit_loop fuel b i (N.of_nat ((a + d) mod length T)) = Ok (m, N.of_nat ((a + (d + r)) mod length T)).
Proof.
  intros T H0 HT. unfold T in *. clear T. induction r as [|r IH]; intros d fuel x m Hf Hx Hm Hocc; destruct fuel as [|fuel]; try lia; cbn [findUnit_loop].
  - rewrite Nat.add_0_r in *. rewrite (get_nat _ _ _ Hx). cbn [mbind res_bind].
    destruct Hm as [[-> ->]|(Hx0 & -> & He)]; [done|]. destruct (N.eqb_spec x 0); [done|].
    rewrite He. done.
  - destruct (Hocc d ltac:(lia)) as (y & Hy & Hy0 & He).
    rewrite (get_nat _ _ _ Hy). cbn [mbind res_bind]. destruct (N.eqb_spec y 0); [done|].
    rewrite He. cbn [mbind res_bind].
    rewrite step_slot; [|apply Nat.mod_upper_bound; lia|done]. cbn [mbind res_bind].
    rewrite mod_step by lia. rewrite (IH (S d) fuel x m); [do 3 f_equal; f_equal; lia|lia| |done|].
    + by replace (S d + r)%nat with (d + S r)%nat by lia.
    + intros d' Hd'. apply Hocc. lia.
Qed.

Lemma findUnit_ok b i l es ts :
  let T := b_hash b in let L := length T in
  frozen (b_base b) (b_label b) ts -> htab (b_base b) (b_label b) T (starts ts) -> (length ts < L)%nat ->
  uchain (b_unit b) i l -> (length l <= length (b_unit b))%nat ->
  genc ts true es (rev (uenc l)) -> wf (Node es) ->
  (exists k slot, ts !! k = Some es /\ findUnit b i = Ok (N.of_nat (start ts k), slot)) \/
  (es ∉ ts /\ exists d, (d < L)%nat /\
     findUnit b i = Ok (0, N.of_nat ((N.to_nat (hl 0 (rev (uenc l))) mod L + d) mod L)) /\
     emp id T ((N.to_nat (hl 0 (rev (uenc l))) mod L + d) mod L) /\
     forall d', (d' < d)%nat -> occ id T ((N.to_nat (hl 0 (rev (uenc l))) mod L + d') mod L)).
Proof.
  intros T L F H Hroom Hc Hul Hg Hwf. set (bl := rev (uenc l)) in *. assert (HLT : L = length (b_hash b)) by done.
  assert (l <> []) as Hlne.
  { intros ->. apply wf_node_inv in Hwf as (Hne & _). by destruct es. }
  set (a := (N.to_nat (hl 0 bl) mod L)%nat).
  pose proof (ht_len _ _ _ _ H) as HL1. pose proof (ht_len32 _ _ _ _ H) as HL2. fold L in HL1, HL2.
  assert (Hloop : findUnit b i = findUnit_loop (S L) b i (N.of_nat ((a + 0) mod L))).
  { unfold findUnit, hashUnit. rewrite (hashUnit_chain _ l) by (done || lia). cbn [mbind res_bind].
    rewrite <- hl_rev. fold bl. rewrite (home_N (fun _ => hl 0 bl) (b_hash b) 0) by (done || lia). cbn [mbind res_bind].
    unfold L, T, home, a. rewrite Nat.add_0_r. rewrite Nat.mod_mod by lia. done. }
  (* comparison with a stored group *)
  assert (Heq : forall k es', ts !! k = Some es' -> areEqual b i (N.of_nat (start ts k)) = Ok (bool_decide (es' = es))).
  { intros k es' Hk. destruct (fz_grp _ _ _ F _ _ Hk) as (bl' & Hg' & Hp).
    pose proof (start_bound _ _ _ Hk) as Hb. pose proof (fz_size _ _ _ F) as Hsz.
    pose proof (fz_wf _ _ _ F) as Hwf'. rewrite Forall_lookup in Hwf'. specialize (Hwf' _ _ Hk).
    pose proof (genc_length _ _ _ _ Hg') as Hlen.
    rewrite (areEqual_group b i l bl' (start ts k)); [|done|done|done|done|by eapply genc_sibbits| | |].
    - f_equal. apply bool_decide_ext. fold bl. split.
      + intros <-. eapply (genc_inj ts true); [apply wf_ne, F|by apply wf_labels|by apply wf_labels|done|done].
      + intros ->. eapply genc_fun; [apply F|done|done].
    - intros ->. apply wf_node_inv in Hwf' as (Hne & _). by destruct es'.
    - unfold start. lia.
    - unfold two32. lia. }
  (* what the occupied slots hold *)
  assert (Hslot : forall q x, T !! q = Some x -> x <> 0 -> exists k es', ts !! k = Some es' /\ x = N.of_nat (start ts k)).
  { intros q x Hq Hx. apply starts_elem. rewrite <- (ht_stored _ _ _ _ H). apply stored_elem. split; [done|].
    exists q, x. done. }
  set (tgt := if decide (es ∈ ts) then hT (b_base b) (b_label b) 0 else 0). clear tgt.
  assert (exists tgt, (tgt = 0 /\ es ∉ ts \/ exists k, ts !! k = Some es /\ tgt = N.of_nat (start ts k))) as (tgt & Htgt).
  { destruct (decide (es ∈ ts)) as [He|He].
    - apply elem_of_list_lookup in He as [k Hk]. eexists. right. eauto.
    - exists 0. by left. }
  destruct (first_stop (fun q => T !! q = Some 0 \/ T !! q = Some tgt) L a) as (d & Hd & HP & HnP).
  { destruct (htab_room _ _ _ _ H) as (q & Hq & x & Hx & Hx0).
    - unfold starts. rewrite fmap_length, seq_length. done.
    - exists q. split; [done|]. unfold id in Hx0. subst x. by left. }
  { apply Nat.mod_upper_bound. lia. }
  assert (Hprev : forall d', (d' < d)%nat -> exists y, T !! ((a + d') mod L)%nat = Some y /\ y <> 0 /\ areEqual b i y = Ok false).
  { intros d' Hd'. destruct (lookup_lt_is_Some_2 T ((a + d') mod L)%nat) as [y Hy]; [apply Nat.mod_upper_bound; lia|].
    exists y. split; [done|]. specialize (HnP d' Hd'). split; [intros ->; tauto|].
    destruct (decide (y = 0)) as [->|Hy0]; [tauto|].
    destruct (Hslot _ _ Hy Hy0) as (k & es' & Hk & ->). rewrite (Heq _ _ Hk). f_equal.
    apply bool_decide_eq_false. intros ->. apply HnP. right.
    destruct Htgt as [[_ Hni]|(k' & Hk' & ->)].
    - exfalso. apply Hni. by eapply elem_of_list_lookup_2.
    - assert (k' = k) as -> by (eapply NoDup_lookup; [apply F|done|done]). done. }
  rewrite Hloop.
  destruct (decide (T !! ((a + d) mod L)%nat = Some 0)) as [H0|H0].
  - right.
    assert (Hocc : forall d', (d' < d)%nat -> occ id T ((a + d') mod L)).
    { intros d' Hd'. destruct (Hprev d' Hd') as (y & Hy & Hy0 & _). exists y. done. }
    split.
    + intros He. destruct Htgt as [[_ Hni]|(k & Hk & ->)]; [done|].
      assert (Hst : N.of_nat (start ts k) ∈ stored id T).
      { rewrite (ht_stored _ _ _ _ H). apply starts_elem. eauto. }
      apply stored_elem in Hst as (Hk0 & q & x & Hq & Hx). unfold id in Hx. subst x.
      assert (Hah : a = home (hT (b_base b) (b_label b)) T (N.of_nat (start ts k))).
      { unfold home, a. by erewrite hT_frozen by eauto. }
      eapply (probed_absent id (hT (b_base b) (b_label b)) T (N.of_nat (start ts k)) d); [apply H| |done| |done|exact Hq|done].
      * rewrite <- Hah. exists 0. done.
      * intros d' x Hd' Hx. rewrite <- Hah in Hx. unfold id. intros ->. eapply (HnP d' Hd'). by right.
    + exists d. split; [done|]. split; [|split; [exists 0; done|done]].
      apply (findUnit_scan b i a) with (r := d) (d := 0%nat) (x := 0); [lia|done|lia| |by left|].
      * done.
      * intros d' Hd'. apply Hprev. lia.
  - left. destruct HP as [?|HP]; [done|].
    destruct Htgt as [[-> _]|(k & Hk & ->)]; [done|].
    exists k, (N.of_nat ((a + d) mod L)). split; [done|].
    apply (findUnit_scan b i a) with (r := d) (d := 0%nat) (x := N.of_nat (start ts k)); [lia|done|lia|done| |].
    + right. split; [unfold start; lia|]. split; [done|]. rewrite (Heq _ _ Hk). by rewrite bool_decide_eq_true_2.
    + intros d' Hd'. apply Hprev. lia.
Qed.

(** ** The abstract fixed part *)
Record fixedst := mkFx { x_ts : list edges; x_fl : list edges; x_mg : nat }.
Definition afix (x : fixedst) (es : edges) : fixedst :=
  if decide (es ∈ x_ts x)
  then mkFx (x_ts x) (if decide (es ∈ x_fl x) then x_fl x else es :: x_fl x) (x_mg x + length es)
  else mkFx (x_ts x ++ [es]) (x_fl x) (x_mg x).

Record fixedrep (b : builder) (x : fixedst) : Prop := mkFixed {
  fr_frozen : frozen (b_base b) (b_label b) (x_ts x);
  fr_hash : htab (b_base b) (b_label b) (b_hash b) (starts (x_ts x));
  fr_states : b_states b = N.of_nat (S (length (x_ts x)));
  fr_load : (S (length (x_ts x)) <= length (b_hash b) - length (b_hash b) / 4)%nat;
  fr_flag : exists f, brep (b_flag b) f /\ bp_size (b_flag b) = N.of_nat (S (psum (x_ts x))) /\
    forall p, f p = true <-> exists k es, x_ts x !! k = Some es /\ es ∈ x_fl x /\ p = N.of_nat (start (x_ts x) k);
  fr_flnd : NoDup (x_fl x);
  fr_flin : forall es, es ∈ x_fl x -> es ∈ x_ts x;
  fr_merging : b_merging b = N.of_nat (length (x_fl x));
  fr_merged : b_mergedTrans b = N.of_nat (x_mg x);
  fr_words : bwords (b_flag b) }.

Lemma ts_le_psum ts : Forall (fun es : edges => es <> []) ts -> (length ts <= psum ts)%nat.
Proof. induction 1 as [|es ts He _ IH]; cbn; [done|]. destruct es; [done|]. cbn. lia. Qed.

Lemma afix_in x es : exists k, x_ts (afix x es) !! k = Some es.
Proof.
  unfold afix. destruct (decide (es ∈ x_ts x)) as [H|H]; cbn [x_ts].
  - apply elem_of_list_lookup in H as [k Hk]. eauto.
  - exists (length (x_ts x)). by rewrite lookup_app_r, Nat.sub_diag by lia.
Qed.
Lemma afix_ext x es : exists e, x_ts (afix x es) = x_ts x ++ e.
Proof.
  unfold afix. destruct (decide (es ∈ x_ts x)) as [H|H]; cbn [x_ts]; [exists []; by rewrite app_nil_r|eauto].
Qed.

(** First part of the loop body: the hash table is enlarged when needed. *)
Lemma fixed_expand b x : fixedrep b x -> let L := length (b_hash b) in
  exists b', (if N.of_nat L - N.shiftr (N.of_nat L) 2 <=? b_states b then expandHashTable b else Ok b) = Ok b' /\
    fixedrep b' x /\ (exists T, b' = set_hash b T) /\
    (S (length (x_ts x)) < length (b_hash b') - length (b_hash b') / 4)%nat.
Proof.
  intros H L. pose proof (fr_states _ _ H) as Hs. pose proof (fr_load _ _ H) as Hl. fold L in Hl.
  pose proof (fr_frozen _ _ H) as F. pose proof (fz_size _ _ _ F) as Hsz. pose proof (ts_le_psum _ (wf_ne _ (fz_wf _ _ _ F))) as Hts.
  rewrite N.shiftr_div_pow2. change (2 ^ 2) with 4.
  pose proof (ht_len _ _ _ _ (fr_hash _ _ H)) as HL1. fold L in HL1.
  destruct (N.leb_spec (N.of_nat L - N.of_nat L / 4) (b_states b)) as [Hle|Hgt].
  - destruct (expandHashTable_ok b (x_ts x) F) as (T & HT & HlT & HhT); fold L; [lia|lia|unfold two32; lia|].
    fold L in HlT. exists (set_hash b T). rewrite HT. split; [done|]. split; [|split; [eauto|cbn [set_hash b_hash]; lia]].
    destruct H as [A1 A2 A3 A4 A5 A6 A7 A8 A9 A10]. split; cbn [set_hash b_base b_label b_hash b_states b_flag b_merging b_mergedTrans]; try done.
    lia.
  - exists b. split; [done|]. split; [done|]. split; [exists (b_hash b); by destruct b|]. fold L. lia.
Qed.

Lemma fixUnit_ok b x i l es top rest u0 :
  fixedrep b x -> uchain (b_unit b) i l -> (length l <= length (b_unit b))%nat ->
  genc (x_ts x) true es (rev (uenc l)) -> wf (Node es) ->
  N.of_nat (S (psum (x_ts x) + length es)) <= 1073741824 ->
  b_unfixed b = top :: rest -> b_unit b !! N.to_nat top = Some u0 ->
  exists b' k, fixUnit b i = Ok b' /\ fixedrep b' (afix x es) /\ x_ts (afix x es) !! k = Some es /\
    b_unit b' = <[N.to_nat top := du_set_child u0 (N.of_nat (start (x_ts (afix x es)) k))]> (b_unit b) /\
    b_unused b' = rev l.*1 ++ b_unused b /\ b_unfixed b' = b_unfixed b /\ b_init b' = b_init b.
Proof.
  intros H0 Hc Hul Hg Hwf Hsz Hunf Hu0.
  destruct (fixed_expand b x H0) as (b1 & Hb1 & H & (T & HbT) & Hload). cbv zeta in Hb1.
  assert (b_unit b1 = b_unit b /\ b_unused b1 = b_unused b /\ b_unfixed b1 = b_unfixed b /\ b_init b1 = b_init b) as (Eu & Eun & Euf & Ei).
  { subst b1. done. }
  unfold fixUnit. rewrite Hb1. cbn [mbind res_bind]. clear Hb1 HbT T H0.
  rewrite <- Eu in Hc, Hul, Hu0. rewrite <- Euf in Hunf.
  rewrite (countSiblings_chain _ l) by (done || lia). cbn [mbind res_bind].
  pose proof (fr_frozen _ _ H) as F. pose proof (genc_length _ _ _ _ Hg) as Hlen.
  rewrite rev_length in Hlen. unfold uenc in Hlen. rewrite map_length in Hlen.
  destruct (fr_flag _ _ H) as (f & Hf & Hfs & Hfp). pose proof (brep_size _ _ Hf) as Hcap. rewrite Hfs in Hcap.
  destruct (findUnit_ok b1 i l es (x_ts x) F (fr_hash _ _ H)) as [(k & slot & Hk & Hfu)|(Hni & d & Hd & Hfu & Hemp & Hocc)]; [lia|done|done|done|done| |].
  - (* merged with an existing group *)
    rewrite Hfu. cbn [mbind res_bind]. destruct (N.eqb_spec (N.of_nat (start (x_ts x) k)) 0) as [Hz|_]; [unfold start in Hz; lia|].
    cbn [negb]. assert (es ∈ x_ts x) as Hin by (by eapply elem_of_list_lookup_2).
    pose proof (start_bound _ _ _ Hk) as Hsb.
    assert (length es <> 0)%nat as Hesl.
    { apply wf_node_inv in Hwf as (Hne & _). by destruct es. }
    cbn [set_mergedTrans b_flag]. rewrite (brep_get _ f) by (done || lia). cbn [mbind res_bind].
    unfold afix. rewrite decide_True by done.
    destruct (f (N.of_nat (start (x_ts x) k))) eqn:Efk.
    + apply Hfp in Efk as (k' & es' & Hk' & Hfl & He).
      assert (k = k') as -> by (eapply (start_inj (x_ts x)); [apply wf_ne, F|done|done|lia]).
      assert (es' = es) as -> by congruence. rewrite decide_True by done.
      cbn [mbind res_bind]. rewrite (freeUnits_chain l); [|done|cbn; lia]. cbn [mbind res_bind set_unused b_unfixed b_unit set_mergedTrans].
      rewrite Hunf. rewrite (upd_N _ _ _ _ Hu0). cbn [mbind res_bind].
      eexists. exists k'. split; [done|]. cbn [set_unit set_unused set_mergedTrans b_unit b_unused b_unfixed b_init x_ts].
      rewrite Eun, Eu, Ei. split; [|done].
      destruct H as [A1 A2 A3 A4 A5 A6 A7 A8 A9 A10]. split; cbn; try done. rewrite A9, Hlen. lia.
    + assert (es ∉ x_fl x) as Hnf.
      { intros Hfl. assert (f (N.of_nat (start (x_ts x) k)) = true) by (apply Hfp; eauto). congruence. }
      rewrite decide_False by done.
      destruct (brep_set (b_flag b1) f (N.of_nat (start (x_ts x) k)) true Hf ltac:(lia)) as (fp & Hfset & Hfrep & Hfcap & _).
      cbn [set_merging set_mergedTrans b_flag]. rewrite Hfset. cbn [mbind res_bind].
      rewrite (freeUnits_chain l); [|done|cbn; lia]. cbn [mbind res_bind set_unused set_flag set_merging b_unfixed b_unit set_mergedTrans].
      rewrite Hunf. rewrite (upd_N _ _ _ _ Hu0). cbn [mbind res_bind].
      eexists. exists k. split; [done|]. cbn [set_unit set_unused set_flag set_merging set_mergedTrans b_unit b_unused b_unfixed b_init x_ts].
      rewrite Eun, Eu, Ei. split; [|done].
      destruct H as [A1 A2 A3 A4 A5 A6 A7 A8 A9 A10]. split; cbn; try done.
      * eexists. split; [exact Hfrep|]. split; [congruence|]. intros p. cbn.
        destruct (N.eqb_spec p (N.of_nat (start (x_ts x) k))) as [->|Hne].
        -- split; [|done]. intros _. exists k, es. split; [done|]. split; [by left|done].
        -- rewrite Hfp. split; intros (k' & es' & Hk' & Hfl & ->).
           ++ exists k', es'. split; [done|]. split; [by right|done].
           ++ exists k', es'. split; [done|]. split; [|done]. apply elem_of_cons in Hfl as [->|Hfl]; [|done].
              assert (k' = k) as -> by (eapply NoDup_lookup; [apply F|done|done]). done.
      * by apply NoDup_cons.
      * intros es' [->|Hfl]%elem_of_cons; [done|by apply A7].
      * rewrite A8. lia.
      * rewrite A9, Hlen. lia.
      * by eapply bwords_set.
  - (* a new group *)
    rewrite Hfu. cbn [mbind res_bind N.eqb negb].
    unfold afix. rewrite decide_False by done. cbn [x_ts].
    rewrite allocateTransitions_spec. cbn [set_pools b_unit b_base b_label].
    assert (Hesl : (1 <= length l)%nat).
    { apply wf_node_inv in Hwf as (Hne & _). destruct es; [done|]. cbn in Hlen. lia. }
    pose proof (fz_base _ _ _ F) as HB. pose proof (fz_label _ _ _ F) as HLb.
    replace (match length l with O => 0 | S _ => u32 (N.of_nat (length (b_label b1) + length l) - 1) end)
      with (N.of_nat (length (b_base b1) + length l - 1)).
    2:{ destruct (length l) as [|n] eqn:En; [lia|]. rewrite u32_id by (unfold two32; lia). lia. }
    pose proof (writeTransitions_chain (b_unit b1) l (S (length (b_unit b1))) i (b_base b1) (b_label b1) [] []) as Hw.
    rewrite !app_nil_r in Hw. rewrite Hw; [|done|lia|lia|lia|unfold two32; lia]. clear Hw. cbn [mbind res_bind].
    set (bl := rev (uenc l)) in *.
    rewrite u32_id by (unfold two32; lia).
    replace (N.of_nat (length (b_base b1) - 1) + 1) with (N.of_nat (S (psum (x_ts x)))) by lia.
    set (L := length (b_hash b1)) in *.
    assert (HL1 : (1 <= L)%nat) by (apply (fr_hash _ _ H)).
    cbn [set_pools b_hash b_states].
    rewrite set_nat by (apply Nat.mod_upper_bound; lia). cbn [mbind res_bind].
    rewrite (freeUnits_chain l); [|done|cbn; lia].
    cbn [mbind res_bind set_unused set_states set_hash set_pools b_unfixed b_unit].
    rewrite Hunf. rewrite (upd_N _ _ _ _ Hu0). cbn [mbind res_bind].
    eexists. exists (length (x_ts x)). split; [done|].
    cbn [set_unit set_unused set_states set_hash set_pools b_unit b_unused b_unfixed b_init].
    rewrite Eun, Eu, Ei, start_end. split; [|split; [by rewrite lookup_app_r, Nat.sub_diag by lia|done]].
    pose proof (frozen_snoc _ _ _ _ bl F Hwf Hni Hg Hsz) as F'.
    assert (Hps : psum (x_ts x ++ [es]) = (psum (x_ts x) + length es)%nat) by (rewrite psum_app; cbn; lia).
    destruct H as [A1 A2 A3 A4 A5 A6 A7 A8 A9 A10]. split; cbn [set_unit set_unused set_states set_hash set_pools b_base b_label b_hash b_states b_flag b_merging b_mergedTrans x_ts x_fl x_mg]; try done.
    + assert (Hold : htab (b_base b1 ++ bl.*1) (b_label b1 ++ bl.*2) (b_hash b1) (starts (x_ts x))).
      { destruct A2 as [B1 B2 B3 B4]. split; try done. eapply probed_ext; [|exact B3].
        intros p Hp. rewrite B4 in Hp. apply starts_elem in Hp as (k' & es' & Hk' & ->).
        destruct (fz_grp _ _ _ F _ _ Hk') as (bl' & Hg' & _).
        rewrite (hT_frozen _ _ _ _ _ bl' F Hk' Hg').
        rewrite <- (start_mono (x_ts x) [es] k') by (apply lookup_lt_Some in Hk'; lia).
        erewrite (hT_frozen _ _ _ _ _ bl' F'); [done| |by apply genc_mono]. by apply lookup_app_l_Some. }
      assert (HhT : hT (b_base b1 ++ bl.*1) (b_label b1 ++ bl.*2) (N.of_nat (S (psum (x_ts x)))) = hl 0 bl).
      { rewrite <- (start_end (x_ts x) [es]). erewrite (hT_frozen _ _ _ _ es bl F'); [done| |by apply genc_mono].
        by rewrite lookup_app_r, Nat.sub_diag by lia. }
      pose proof (htab_insert _ _ _ _ (N.of_nat (S (psum (x_ts x)))) d Hold ltac:(lia) Hd) as Hins.
      unfold home in Hins. rewrite HhT in Hins. fold L in Hins.
      destruct (Hins Hemp Hocc) as [C1 C2 C3 C4]. split; try done. rewrite C4, starts_app. by rewrite Permutation_app_comm.
    + rewrite A3, app_length. cbn. lia.
    + rewrite insert_length, app_length. cbn [length]. fold L. lia.
    + destruct (brep_iter (length l) _ _ Hf) as [Hf' Hfs']. exists f. split; [done|]. split; [rewrite Hfs', Hfs, Hps; lia|].
      intros p. rewrite Hfp. split.
      * intros (k' & es' & Hk' & Hfl & ->). exists k', es'. split; [by apply lookup_app_l_Some|]. split; [done|].
        rewrite start_mono; [done|]. apply lookup_lt_Some in Hk'. lia.
      * intros (k' & es' & Hk' & Hfl & ->). apply lookup_app_Some in Hk' as [Hk'|[Hge Hk']].
        -- exists k', es'. split; [done|]. split; [done|]. rewrite start_mono; [done|]. apply lookup_lt_Some in Hk'. lia.
        -- apply list_lookup_singleton_Some in Hk' as [_ ->]. exfalso. by apply Hni, A7.
    + intros es' Hfl. apply elem_of_app. left. by apply A7.
    + by apply bwords_iter.
Qed.
