(** Proofs about link_table.go: the table is a map. *)
From Verif Require Import Go LinkTable Probe.
Local Open Scope N_scope.

Lemma u32_lt x : u32 x < two32.
Proof. unfold u32, two32. apply N.mod_lt. done. Qed.
Lemma u32_id x : x < two32 -> u32 x = x.
Proof. intros H. unfold u32. by apply N.mod_small. Qed.
Lemma rem32_ok x n : 0 < n -> rem32 x n = Ok (x mod n).
Proof. intros H. unfold rem32. destruct (N.eqb_spec n 0); [lia|done]. Qed.

Lemma filter_all {A} (P : A -> Prop) `{forall x, Decision (P x)} l : Forall P l -> filter P l = l.
Proof. induction 1 as [|x l Hx Hl IH]; [done|]. rewrite filter_cons_True by done. by rewrite IH. Qed.

Section Probing.
  Context (lt : linktable) (Hn : 0 < N.of_nat (length lt) < two32).
  Local Notation n := (length lt).

  Lemma len32_lt : len32 lt = N.of_nat n.
  Proof. unfold len32. apply u32_id. lia. Qed.

  Lemma home_N k : N.of_nat (home intHash lt k) = intHash k mod N.of_nat n.
  Proof. unfold home. rewrite Nat2N.inj_mod, N2Nat.id. done. Qed.

  (** Slot [d] steps from [p]. *)
  Definition stp (k : N) (j : nat) : Prop := exists i o, lt !! j = Some (i, o) /\ (i = 0 \/ i = k).
  Global Instance stp_dec k j : Decision (stp k j).
  Proof.
    unfold stp. destruct (lt !! j) as [[i o]|] eqn:E.
    - destruct (decide (i = 0)); [left; eauto|]. destruct (decide (i = k)); [left; eauto|].
      right. intros (i' & o' & H & [|]); simplify_eq.
    - right. by intros (i' & o' & H & _).
  Qed.

  Lemma next_slot p : (p < n)%nat ->
    rem32 (u32 (N.of_nat p + 1)) (len32 lt) = Ok (N.of_nat ((p + 1) mod n)).
  Proof.
    intros Hp. rewrite len32_lt, rem32_ok by lia. rewrite u32_id by lia.
    f_equal. rewrite Nat2N.inj_mod. f_equal. lia.
  Qed.

  Lemma loop_stop k d : forall fuel p, (p < n)%nat -> (d < fuel)%nat ->
    stp k ((p + d) mod n) -> (forall d', (d' < d)%nat -> ~ stp k ((p + d') mod n)) ->
    findId_loop fuel lt k (N.of_nat p) = Ok (N.of_nat ((p + d) mod n)).
  Proof.
    induction d as [|d IH]; intros fuel p Hp Hf Hs Hb; destruct fuel as [|fuel]; try lia; cbn [findId_loop].
    - rewrite Nat.add_0_r, Nat.mod_small in * by lia. unfold get. rewrite Nat2N.id.
      destruct Hs as (i & o & -> & Hi). cbn [mbind res_bind].
      destruct (N.eqb_spec i 0); [done|]. destruct (N.eqb_spec k i); [done|]. naive_solver.
    - assert (H0 : ~ stp k p).
      { specialize (Hb 0%nat). rewrite Nat.add_0_r, Nat.mod_small in Hb by lia. apply Hb. lia. }
      destruct (lookup_lt_is_Some_2 lt p Hp) as [[i o] Hi]. unfold get. rewrite Nat2N.id, Hi. cbn [mbind res_bind].
      destruct (N.eqb_spec i 0) as [->|Hne]; [exfalso; apply H0; eexists _, _; eauto|].
      destruct (N.eqb_spec k i) as [->|Hne']; [exfalso; apply H0; eexists _, _; eauto|].
      rewrite next_slot by done. cbn [mbind res_bind].
      assert (Hp1 : forall e, (((p + 1) mod n + e) mod n = (p + S e) mod n)%nat).
      { intros e. rewrite Nat.add_mod_idemp_l by lia. f_equal. lia. }
      rewrite <- (Hp1 d). apply IH.
      + apply Nat.mod_upper_bound. lia.
      + lia.
      + by rewrite Hp1.
      + intros d' Hd'. rewrite Hp1. apply Hb. lia.
  Qed.

  Lemma loop_hang k : (forall j, (j < n)%nat -> ~ stp k j) -> forall fuel p, (p < n)%nat ->
    findId_loop fuel lt k (N.of_nat p) = Hang.
  Proof.
    intros Hno fuel. induction fuel as [|fuel IH]; intros p Hp; cbn [findId_loop]; [done|].
    destruct (lookup_lt_is_Some_2 lt p Hp) as [[i o] Hi]. unfold get. rewrite Nat2N.id, Hi. cbn [mbind res_bind].
    assert (H0 : ~ stp k p) by (by apply Hno).
    destruct (N.eqb_spec i 0) as [->|Hne]; [exfalso; apply H0; eexists _, _; eauto|].
    destruct (N.eqb_spec k i) as [->|Hne']; [exfalso; apply H0; eexists _, _; eauto|].
    rewrite next_slot by done. cbn [mbind res_bind]. apply IH. apply Nat.mod_upper_bound. lia.
  Qed.

  Lemma home_lt k : (home intHash lt k < n)%nat.
  Proof. unfold home. apply Nat.mod_upper_bound. lia. Qed.

  Lemma findId_cases k :
    (exists d, (d < n)%nat /\ stp k ((home intHash lt k + d) mod n) /\
       (forall d', (d' < d)%nat -> ~ stp k ((home intHash lt k + d') mod n)) /\
       findId lt k = Ok (N.of_nat ((home intHash lt k + d) mod n))) \/
    ((forall j, (j < n)%nat -> ~ stp k j) /\ findId lt k = Hang).
  Proof.
    unfold findId. rewrite len32_lt, rem32_ok by lia. cbn [mbind res_bind]. rewrite <- home_N.
    destruct (decide (Exists (stp k) (seq 0 n))) as [He|Hno].
    - left. apply Exists_exists in He as (j & Hj & Hs). apply elem_of_seq in Hj.
      destruct (first_stop (stp k) n (home intHash lt k)) as (d & Hd & Hsd & Hb); [exists j; split; [lia|done]|apply home_lt|].
      exists d. split; [done|]. split; [done|]. split; [done|].
      apply loop_stop; [apply home_lt|lia|done|done].
    - right. assert (Hall : forall j, (j < n)%nat -> ~ stp k j).
      { intros j Hj Hs. apply Hno, Exists_exists. exists j. split; [apply elem_of_seq; lia|done]. }
      split; [done|]. apply loop_hang; [done|apply home_lt].
  Qed.
End Probing.

(** Invariant: [m] is the map held by the table. *)
Record ltinv (lt : linktable) (size : nat) (m : N -> option N) : Prop := {
  li_len : length lt = size;
  li_size : 0 < N.of_nat size < two32;
  li_probed : probed fst intHash lt;
  li_nodup : NoDup (stored fst lt);
  li_get : forall j i o, lt !! j = Some (i, o) -> if i =? 0 then o = 0 else m i = Some o;
  li_dom : forall i o, m i = Some o -> i ∈ stored fst lt }.

Lemma ltinv_slot lt size m k : ltinv lt size m -> k <> 0 ->
  (exists d o, (d < size)%nat /\ let j := ((home intHash lt k + d) mod size)%nat in
     findId lt k = Ok (N.of_nat j) /\ lt !! j = Some (k, o) /\ m k = Some o) \/
  (exists d, (d < size)%nat /\ let j := ((home intHash lt k + d) mod size)%nat in
     findId lt k = Ok (N.of_nat j) /\ lt !! j = Some (0, 0) /\ m k = None /\ k ∉ stored fst lt /\
     (forall d', (d' < d)%nat -> occ fst lt ((home intHash lt k + d') mod size))) \/
  (findId lt k = Hang /\ m k = None /\ k ∉ stored fst lt /\ length (stored fst lt) = size).
Proof.
  intros H Hk. pose proof H as [Hl Hs Hp Hnd Hg Hd]. subst size.
  destruct (findId_cases lt Hs k) as [(d & Hdn & (i & o & Hj & Hi) & Hb & Hf)|[Hno Hf]].
  - destruct (decide (i = 0)) as [->|Hi0].
    + right. left. exists d. split; [done|]. cbv zeta. split; [done|].
      pose proof (Hg _ _ _ Hj) as Ho. cbn in Ho. subst o. split; [done|].
      assert (Habs : k ∉ stored fst lt).
      { intros (_ & i & x & Hx & Hxk)%stored_elem. revert Hxk.
        eapply (probed_absent fst intHash lt k d); [done| |done| |done|done].
        - by exists (0, 0).
        - intros d' [i' o'] Hd' Hx'. cbn. intros ->. apply (Hb d' Hd'). eexists _, _; eauto. }
      split; [|split; [done|]].
      * destruct (m k) as [o|] eqn:Hm; [|done]. by apply Hd in Hm.
      * intros d' Hd'. specialize (Hb d' Hd').
        destruct (lookup_lt_is_Some_2 lt ((home intHash lt k + d') mod length lt)) as [[i' o'] Hx].
        { apply Nat.mod_upper_bound. lia. }
        exists (i', o'). split; [done|]. cbn. intros ->. apply Hb. eexists _, _; eauto.
    + destruct Hi as [Hi| ->]; [done|]. left. exists d, o. split; [done|]. cbv zeta. split; [done|]. split; [done|].
      apply Hg in Hj. destruct (N.eqb_spec k 0); done.
  - right. right. split; [done|].
    assert (Habs : k ∉ stored fst lt).
    { intros (_ & i & [i' o'] & Hx & Hxk)%stored_elem. cbn in Hxk. subst i'.
      apply (Hno i); [by apply lookup_lt_Some in Hx|]. eexists _, _; eauto. }
    split; [|split; [done|]].
    + destruct (m k) as [o|] eqn:Hm; [|done]. by apply Hd in Hm.
    + clear -Hno. unfold stored.
      rewrite filter_all, fmap_length; [done|].
      apply Forall_fmap, Forall_lookup. intros j [i o] Hj. cbn. intros ->.
      apply (Hno j); [by apply lookup_lt_Some in Hj|]. eexists _, _; eauto.
Qed.

Lemma ltinv_new size : 0 < N.of_nat size < two32 ->
  ltinv (NewLinkTable (N.of_nat size)) size (fun _ => None).
Proof.
  intros Hs. unfold NewLinkTable. rewrite Nat2N.id.
  assert (Hz : forall j x, replicate size (0, 0) !! j = Some x -> x = (0, 0)).
  { intros j x H. by apply lookup_replicate in H as [-> _]. }
  constructor.
  - apply replicate_length.
  - done.
  - intros i x Hi Hx. apply Hz in Hi. by subst.
  - replace (stored fst (replicate size (0, 0))) with (@nil N); [constructor|]. symmetry.
    destruct (stored fst (replicate size (0, 0))) as [|k l] eqn:E; [done|exfalso].
    assert (He : k ∈ stored fst (replicate size (0, 0))) by (rewrite E; constructor).
    apply stored_elem in He as (Hk & i & x & Hi & Hx). apply Hz in Hi. subst. done.
  - intros j i o Hj. apply Hz in Hj. by simplify_eq.
  - done.
Qed.

Lemma ltinv_find lt size m k : ltinv lt size m -> k <> 0 ->
  lt_find lt k = match m k with
                 | Some o => Ok o
                 | None => if Nat.ltb (length (stored fst lt)) size then Ok 0 else Hang
                 end.
Proof.
  intros H Hk. unfold lt_find.
  assert (Hle : (length (stored fst lt) <= size)%nat).
  { rewrite <- (li_len _ _ _ H). unfold stored. rewrite filter_length. by rewrite fmap_length. }
  destruct (ltinv_slot lt size m k H Hk) as [(d & o & Hd & Hf & Hj & Hm)|[(d & Hd & Hf & Hj & Hm & Habs & _)|(Hf & Hm & Habs & Hfull)]];
    rewrite Hf, Hm; cbn [mbind res_bind].
  - unfold get. rewrite Nat2N.id, Hj. done.
  - unfold get. rewrite Nat2N.id, Hj. cbn [mbind res_bind].
    destruct (Nat.ltb_spec (length (stored fst lt)) size); [done|].
    (* an empty slot was found, so the table is not full *)
    exfalso. pose proof (li_len _ _ _ H) as Hl.
    assert (Hx : (length (stored fst lt) < length lt)%nat).
    { unfold stored. rewrite <- (fmap_length fst lt).
      apply filter_length_lt with (x := 0); [|intros Hc; by apply Hc].
      apply elem_of_list_fmap. exists (0, 0). split; [done|]. by apply elem_of_list_lookup_2 in Hj. }
    lia.
  - destruct (Nat.ltb_spec (length (stored fst lt)) size); [lia|done].
Qed.

Lemma ltinv_insert lt size m k o : ltinv lt size m -> k <> 0 ->
  match lt_insert lt k o with
  | Ok lt' => ltinv lt' size (fun i => if i =? k then Some o else m i) /\
              (stored fst lt' ≡ₚ if decide (k ∈ stored fst lt) then stored fst lt else k :: stored fst lt)
  | Panic => False
  | Hang => k ∉ stored fst lt /\ length (stored fst lt) = size
  end.
Proof.
  intros H Hk. pose proof H as [Hl Hs Hp Hnd Hg Hdom]. unfold lt_insert.
  destruct (ltinv_slot lt size m k H Hk) as [(d & o' & Hd & Hf & Hj & Hm)|[(d & Hd & Hf & Hj & Hm & Habs & Hocc)|(Hf & Hm & Habs & Hfull)]];
    rewrite Hf; cbn [mbind res_bind]; [| |done].
  - unfold set. rewrite Nat2N.id, Hj. set (j := ((home intHash lt k + d) mod size)%nat) in *.
    pose proof (stored_update fst lt j (k, o) (k, o') Hj eq_refl) as Hst.
    split.
    + constructor; [by rewrite insert_length|done| |by rewrite Hst| |].
      * by eapply (probed_update fst intHash lt j (k, o)).
      * intros j' i oo Hj'. destruct (decide (j' = j)) as [->|Hne].
        -- rewrite list_lookup_insert in Hj' by (by apply lookup_lt_Some in Hj).
           simplify_eq. destruct (N.eqb_spec i 0); [done|]. by rewrite N.eqb_refl.
        -- rewrite list_lookup_insert_ne in Hj' by done. pose proof (Hg _ _ _ Hj') as Hx.
           destruct (N.eqb_spec i 0); [done|]. destruct (N.eqb_spec i k) as [->|]; [|done].
           (* two slots with the same key *)
           exfalso. apply Hne. by eapply (stored_unique fst lt).
      * intros i oo. rewrite Hst. destruct (N.eqb_spec i k) as [->|]; [|by apply Hdom].
        intros _. by eapply Hdom.
    + rewrite Hst. destruct (decide (k ∈ stored fst lt)) as [|Hno]; [done|].
      exfalso. apply Hno. by eapply Hdom.
  - unfold set. rewrite Nat2N.id, Hj. set (j := ((home intHash lt k + d) mod size)%nat) in *.
    pose proof (stored_insert fst lt j (k, o) (0, 0) Hj eq_refl Hk) as Hst. cbn [fst] in Hst.
    split.
    + constructor; [by rewrite insert_length|done| | | |].
      * subst j size. apply (probed_insert fst intHash lt d (k, o)); [lia|done|by exists (0,0)|done|done].
      * rewrite Hst. by apply NoDup_cons.
      * intros j' i oo Hj'. destruct (decide (j' = j)) as [->|Hne].
        -- rewrite list_lookup_insert in Hj' by (by apply lookup_lt_Some in Hj).
           simplify_eq. destruct (N.eqb_spec i 0); [done|]. by rewrite N.eqb_refl.
        -- rewrite list_lookup_insert_ne in Hj' by done. pose proof (Hg _ _ _ Hj') as Hx.
           destruct (N.eqb_spec i 0); [done|]. destruct (N.eqb_spec i k) as [->|]; [|done].
           congruence.
      * intros i oo. rewrite Hst. destruct (N.eqb_spec i k) as [->|]; [intros _; constructor|].
        intros Hi. apply elem_of_cons. right. by eapply Hdom.
    + rewrite Hst. destruct (decide (k ∈ stored fst lt)); [done|done].
Qed.

(** ** Histories of Insert calls *)
Fixpoint lt_run (lt : linktable) (ops : list (N * N)) : res linktable :=
  match ops with [] => Ok lt | (i, o) :: ops' => lt' ← lt_insert lt i o; lt_run lt' ops' end.

(** Specification: the last offset inserted for an index; distinct indices. *)
Definition last_insert (ops : list (N * N)) (i : N) : option N :=
  fold_left (fun acc p => if i =? fst p then Some (snd p) else acc) ops None.
Definition indices (ops : list (N * N)) : list N := remove_dups (map fst ops).

Lemma lt_run_spec ops : forall lt size m seen, ltinv lt size m -> Forall (fun p => fst p <> 0) ops ->
  NoDup seen -> stored fst lt ≡ₚ seen ->
  let tot := remove_dups (map fst ops ++ seen) in
  match lt_run lt ops with
  | Ok lt' => ltinv lt' size (fun i => fold_left (fun acc p => if i =? fst p then Some (snd p) else acc) ops (m i)) /\
              stored fst lt' ≡ₚ tot
  | Panic => False
  | Hang => (size < length tot)%nat
  end.
Proof.
  induction ops as [|[i o] ops IH]; intros lt size m seen Hinv Hnz Hns Hseen tot; cbn [lt_run fold_left].
  - split; [done|]. subst tot. cbn [map app].
    rewrite Hseen. apply NoDup_Permutation; [done|apply NoDup_remove_dups|].
    intros x. by rewrite elem_of_remove_dups.
  - inversion Hnz as [|? ? Hi Hnz']; subst. cbn [fst] in Hi.
    pose proof (ltinv_insert lt size m i o Hinv Hi) as H.
    destruct (lt_insert lt i o) as [lt'| |]; cbn [mbind res_bind]; [|done|].
    + destruct H as [Hinv' Hst].
      set (seen' := if decide (i ∈ seen) then seen else i :: seen).
      assert (Hst' : stored fst lt' ≡ₚ seen').
      { rewrite Hst. subst seen'. destruct (decide (i ∈ stored fst lt)) as [H1|H1], (decide (i ∈ seen)) as [H2|H2].
        - done.
        - exfalso. apply H2. by rewrite <- Hseen.
        - exfalso. apply H1. by rewrite Hseen.
        - by constructor. }
      assert (Hns' : NoDup seen').
      { subst seen'. destruct (decide (i ∈ seen)); [done|]. by constructor. }
      specialize (IH lt' size _ seen' Hinv' Hnz' Hns' Hst'). cbv zeta in IH.
      assert (Hperm : remove_dups (map fst ops ++ seen') ≡ₚ tot).
      { subst tot. apply NoDup_Permutation; [apply NoDup_remove_dups|apply NoDup_remove_dups|].
        intros x. rewrite !elem_of_remove_dups. cbn [map fst app]. subst seen'.
        destruct (decide (i ∈ seen)); set_solver. }
      destruct (lt_run lt' ops) as [lt''| |]; [|done|].
      * destruct IH as [I1 I2]. split; [|by rewrite I2].
        destruct I1 as [J1 J2 J3 J4 J5 J6]. constructor; try done.
      * by rewrite <- Hperm.
    + destruct H as [Habs Hfull]. rewrite Hseen in Habs, Hfull. subst tot.
      assert (Hsub : i :: seen ⊆+ remove_dups (map fst ((i, o) :: ops) ++ seen)).
      { apply NoDup_submseteq; [by constructor|]. intros x. rewrite elem_of_remove_dups. cbn [map fst]. set_solver. }
      apply submseteq_length in Hsub. cbn [length] in Hsub. lia.
Qed.

Lemma linktable_map size ops : 0 < size < two32 -> Forall (fun p => fst p <> 0) ops ->
  match lt_run (NewLinkTable size) ops with
  | Ok lt => (length (indices ops) <= N.to_nat size)%nat /\
      forall i, i <> 0 ->
        lt_find lt i = match last_insert ops i with
                       | Some o => Ok o
                       | None => if Nat.ltb (length (indices ops)) (N.to_nat size) then Ok 0 else Hang
                       end
  | Panic => False
  | Hang => (N.to_nat size < length (indices ops))%nat
  end.
Proof.
  intros Hs Hnz. pose proof (ltinv_new (N.to_nat size)) as H0. rewrite N2Nat.id in H0. specialize (H0 Hs).
  assert (He : stored fst (NewLinkTable size) ≡ₚ []).
  { destruct (stored fst (NewLinkTable size)) as [|k l] eqn:E; [done|exfalso].
    assert (Hk : k ∈ stored fst (NewLinkTable size)) by (rewrite E; constructor).
    apply stored_elem in Hk as (Hk & i & x & Hi & Hx). unfold NewLinkTable in Hi.
    apply lookup_replicate in Hi as [-> _]. done. }
  pose proof (lt_run_spec ops _ _ _ [] H0 Hnz (NoDup_nil_2) He) as H. cbv zeta in H.
  rewrite app_nil_r in H. fold (indices ops) in H.
  destruct (lt_run (NewLinkTable size) ops) as [lt| |]; [|done|done].
  destruct H as [Hinv Hst]. split.
  - rewrite <- Hst. rewrite <- (li_len _ _ _ Hinv). unfold stored.
    etrans; [apply filter_length|]. by rewrite fmap_length.
  - intros i Hi. rewrite (ltinv_find _ _ _ _ Hinv Hi). unfold last_insert.
    by rewrite (Permutation_length Hst).
Qed.
