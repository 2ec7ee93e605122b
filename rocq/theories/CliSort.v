(** Proofs about Cli.v: sorted lexicons. *)
From Coq Require Import Sorting.Sorted.
From Verif Require Import Go Dawg DawgSpec DawgAbs Dict DictSpec Utfc Utf8 Ranked RankedProofs Cli CliSpec CliProofs CliFile.
Local Open Scope N_scope.

(** A stable sort exists. *)
Lemma insert_stable {A} (less : A -> A -> bool) x a l : weak_order less ->
  filter (fun y => equiv less x y) (insert_by less a l) = filter (fun y => equiv less x y) (a :: l).
Proof.
  intros (W1 & W2 & W3). induction l as [|b l IH]; [done|]. cbn [insert_by]. destruct (less b a) eqn:E; [|done].
  rewrite filter_cons, IH, !filter_cons. destruct (decide (equiv less x b)) as [Hb|Hb]; [|done]. destruct (decide (equiv less x a)) as [Ha|Ha]; [|done].
  exfalso. destruct (W3 b x a) as [H _]; [split; apply Hb|done|]. by rewrite H in E.
Qed.
Lemma isort_stable {A} : stable_sorter (@isort A).
Proof.
  split; [intros; apply isort_perm|]. intros less l Hw. split.
  - intros i j a b Hij Ha Hb. by apply (sorted_at (fun a b => less b a = false) _ i j a b (isort_sorted less l Hw) Hij).
  - intros x. induction l as [|a l IH]; [done|]. cbn [isort fold_right]. change (fold_right (insert_by less) [] l) with (isort less l).
    rewrite insert_stable by done. rewrite !filter_cons. by rewrite IH.
Qed.

Lemma sorted_of {A} (P : A -> A -> Prop) l : (forall i j a b, (i < j)%nat -> l !! i = Some a -> l !! j = Some b -> P a b) -> StronglySorted P l.
Proof.
  induction l as [|x l IH]; intros H; constructor.
  - apply IH. intros i j a b Hij Ha Hb. apply (H (S i) (S j)); [lia|done|done].
  - apply Forall_forall. intros y (j & Hj)%elem_of_list_lookup. apply (H 0%nat (S j)); [lia|done|done].
Qed.
Lemma sorted_filter {A} (P : A -> A -> Prop) (Q : A -> Prop) `{!forall x, Decision (Q x)} (l : list A) : StronglySorted P l -> StronglySorted P (filter Q l).
Proof.
  induction 1 as [|x l Hs IH Hx]; [constructor|]. rewrite filter_cons. destruct (decide (Q x)); [|done]. constructor; [done|].
  rewrite Forall_forall in *. intros y [_ Hy]%elem_of_list_filter. by apply Hx.
Qed.
Lemma sorted_zip {A B} (P : A -> A -> Prop) (R : B -> B -> Prop) (Q : A -> B -> Prop) l k : StronglySorted P l -> Forall2 Q l k ->
  (forall a b a' b', Q a b -> Q a' b' -> P a a' -> R b b') -> StronglySorted R k.
Proof.
  intros Hs Hf HR. revert k Hf. induction Hs as [|x l Hs IH Hx]; intros k Hf; inversion Hf as [|? y ? k' Hxy Hf']; subst; constructor; [by apply IH|].
  apply Forall_forall. intros b Hb. apply elem_of_list_lookup in Hb as [j Hj]. destruct (Forall2_lookup_r _ _ _ _ _ Hf' Hj) as (a & Ha & Hab).
  rewrite Forall_forall in Hx. apply (HR x y a b); [done|done|]. apply Hx. by eapply elem_of_list_lookup_2.
Qed.
Lemma perm_zip {A B} (Q : A -> B -> Prop) l l' : l ≡ₚ l' -> forall k, Forall2 Q l k -> exists k', k ≡ₚ k' /\ Forall2 Q l' k'.
Proof.
  induction 1 as [|x l l' Hp IH|x y l|l1 l2 l3 H1 IH1 H2 IH2]; intros k Hf.
  - by exists k.
  - inversion Hf as [|? b ? k1 Hxb Hf1]; subst. destruct (IH k1 Hf1) as (k' & Hk & Hf'). exists (b :: k'). split; [by constructor|by constructor].
  - inversion Hf as [|? b ? k1 Hxb Hf1]; subst. inversion Hf1 as [|? b' ? k2 Hxb' Hf2]; subst. exists (b' :: b :: k2). split; [constructor|]. by repeat constructor.
  - destruct (IH1 k Hf) as (k1 & Hk1 & Hf1). destruct (IH2 k1 Hf1) as (k2 & Hk2 & Hf2). exists k2. split; [by etrans|done].
Qed.
Lemma sum_perm (h h' : list entry) : h ≡ₚ h' -> sum_list_with (fun kv : entry => S (length kv.1)) h = sum_list_with (fun kv : entry => S (length kv.1)) h'.
Proof. induction 1; cbn; lia. Qed.
Lemma hist_ok_perm h h' : h ≡ₚ h' -> hist_ok h -> hist_ok h'.
Proof.
  intros Hp [H1 H2]. split; [by rewrite <- Hp|]. unfold hist_size in *. by rewrite <- (sum_perm h h' Hp).
Qed.
Lemma nondecreasing_sorted es : nondecreasing es <-> StronglySorted (fun a b => kcmp a.1 b.1 <> Gt) es.
Proof. split; [apply sorted_of|]. intros H i j a b. by apply (sorted_at (fun a b : entry => kcmp a.1 b.1 <> Gt)). Qed.

(** Without -u. *)
Lemma plain_order lsort grow calls o lexicon es0 : stable_sorter lsort -> o_sort o = true -> o_utfc o = false ->
  lines_entries o (scan_lines lexicon) es0 -> (o_tab o = true -> Forall (fun kv => Forall (fun c => 9 <= c) kv.1) es0) ->
  exists es, es ≡ₚ es0 /\ lines_entries o (cli_lines lsort grow calls o lexicon) es /\ nondecreasing es.
Proof.
  intros Hs Ho Hu He Hk. destruct (plain_sorted lsort grow calls Hs o lexicon Hu Ho) as [Hp Hsort]. set (L := cli_lines lsort grow calls o lexicon) in *.
  destruct (perm_zip (line_entry_is o) (filter (fun l => l <> []) (scan_lines lexicon)) (filter (fun l => l <> []) L)) with (k := es0) as (es & Hp' & Hes); [by rewrite Hp|exact He|].
  exists es. split; [by symmetry|]. split; [exact Hes|]. apply nondecreasing_sorted.
  assert (Hs1 : StronglySorted (fun a b => kcmp a b <> Gt) (filter (fun l => l <> []) L)) by (apply sorted_filter, sorted_of; exact Hsort).
  assert (Hk' : o_tab o = true -> Forall (fun kv => Forall (fun c => 9 <= c) kv.1) es) by (intros Ht; rewrite <- Hp'; by apply Hk).
  clear Hsort Hp Hp' He Hk. unfold lines_entries in Hes. revert Hs1 Hes. generalize (filter (fun l : list N => l <> []) L) as M. intros M Hs1 Hes.
  destruct (o_tab o) eqn:Et.
  - specialize (Hk' eq_refl). apply (sorted_zip (fun a b => kcmp a b <> Gt) _ (fun l kv => line_entry_is o l kv /\ Forall (fun c => 9 <= c) kv.1) M es Hs1).
    + clear Hs1. induction Hes as [|l e M es Hle Hes IH]; constructor.
      * split; [done|]. by apply Forall_cons in Hk' as [? _].
      * apply IH. by apply Forall_cons in Hk' as [_ ?].
    + intros a [ka va] b [kb vb] [(k1 & H1 & E1) K1] [(k2 & H2 & E2) K2] Hab. unfold line_kv in H1, H2. rewrite Et in H1, H2. unfold key_bytes in E1, E2. rewrite Hu in E1, E2. cbn [fst snd] in *. subst ka kb.
      destruct H1 as (s1 & z1 & (F1 & _ & G1) & _). destruct H2 as (s2 & z2 & (F2 & _ & G2) & _).
      assert (exists r1, a = k1 ++ 9 :: s1 ++ r1) as [r1 ->] by (destruct G1 as [->|[r ->]]; [exists []; by rewrite app_nil_r|by exists (9 :: r)]).
      assert (exists r2, b = k2 ++ 9 :: s2 ++ r2) as [r2 ->] by (destruct G2 as [->|[r ->]]; [exists []; by rewrite app_nil_r|by exists (9 :: r)]).
      by apply (lines_keys_le k1 s1 r1 k2 s2 r2).
  - apply (sorted_zip (fun a b => kcmp a b <> Gt) _ (line_entry_is o) M es Hs1 Hes).
    intros a [ka va] b [kb vb] (k1 & H1 & E1) (k2 & H2 & E2) Hab. unfold line_kv in H1, H2. rewrite Et in H1, H2. unfold key_bytes in E1, E2. rewrite Hu in E1, E2. cbn [fst snd] in *. destruct H1 as [-> _], H2 as [-> _]. by subst.
Qed.
