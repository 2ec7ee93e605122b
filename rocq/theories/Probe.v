(** Linear probing: facts shared by the hash tables of dawg_builder.go and
    link_table.go. *)
From Verif Require Import Go.
Local Ltac Zify.zify_post_hook ::= Z.div_mod_to_equations.

(** Walking cyclically from [pos], the first slot with property [P] is met
    within [n] steps. *)
Lemma first_stop (P : nat -> Prop) `{forall i, Decision (P i)} n pos :
  (exists i, i < n /\ P i) -> pos < n ->
  exists d, d < n /\ P ((pos + d) mod n) /\ forall d', d' < d -> ~ P ((pos + d') mod n).
Proof.
  intros (i & Hi & HP) Hpos.
  assert (Hex : exists d, d < n /\ P ((pos + d) mod n)).
  { exists ((i + n - pos) mod n). split; [apply Nat.mod_upper_bound; lia|].
    replace ((pos + (i + n - pos) mod n) mod n) with i; [done|].
    rewrite Nat.add_mod_idemp_r by lia.
    replace (pos + (i + n - pos)) with (i + 1 * n) by lia.
    rewrite Nat.mod_add, Nat.mod_small by lia. done. }
  destruct Hex as (d & Hd & Hp). revert Hd Hp.
  induction (lt_wf d) as [d _ IH]. intros Hd Hp.
  destruct (decide (Exists (fun d' => P ((pos + d') mod n)) (seq 0 d))) as [He|Hno].
  - apply Exists_exists in He as (d' & Hd' & Hp'). apply elem_of_seq in Hd'.
    apply (IH d'); [lia|lia|done].
  - exists d. split; [done|]. split; [done|]. intros d' Hlt Hc. apply Hno, Exists_exists.
    exists d'. split; [apply elem_of_seq; lia|done].
Qed.

Section Table.
  Context {A : Type} (key : A -> N).

  Definition occ (T : list A) (i : nat) : Prop := exists x, T !! i = Some x /\ key x <> 0%N.
  Definition emp (T : list A) (i : nat) : Prop := exists x, T !! i = Some x /\ key x = 0%N.

  (** Home position of a key. *)
  Definition home (h : N -> N) (T : list A) (k : N) : nat := N.to_nat (h k) mod length T.

  (** Every stored key is reachable from its home position through occupied slots. *)
  Definition probed (h : N -> N) (T : list A) : Prop :=
    forall i x, T !! i = Some x -> key x <> 0%N ->
      exists d, d < length T /\ i = (home h T (key x) + d) mod length T /\
        forall d', d' < d -> occ T ((home h T (key x) + d') mod length T).

  Definition stored (T : list A) : list N := filter (fun k => k <> 0%N) (key <$> T).

  Lemma stored_elem T k : k ∈ stored T <-> k <> 0%N /\ exists i x, T !! i = Some x /\ key x = k.
  Proof.
    unfold stored. rewrite elem_of_list_filter. split.
    - intros [Hk He]. split; [done|]. apply elem_of_list_fmap in He as (x & -> & He).
      apply elem_of_list_lookup in He as [i Hi]. eauto.
    - intros (Hk & i & x & Hi & <-). split; [done|]. apply elem_of_list_fmap. exists x.
      split; [done|]. by apply elem_of_list_lookup_2 in Hi.
  Qed.

  (** A table with fewer stored keys than slots has an empty slot. *)
  Lemma has_empty T : length (stored T) < length T -> exists i, i < length T /\ emp T i.
  Proof.
    unfold stored. induction T as [|x T IH]; [cbn; lia|]. rewrite fmap_cons. cbn [length].
    destruct (decide (key x <> 0%N)) as [Hx|Hx].
    - rewrite filter_cons_True by done. cbn [length]. intros Hl.
      destruct IH as (i & Hi & Hemp); [lia|]. exists (S i). split; [lia|]. done.
    - intros _. exists 0. split; [lia|]. exists x. split; [done|]. lia.
  Qed.

  (** Storing a new key in the first empty slot of its probe sequence. *)
  Lemma probed_insert h T d x :
    0 < length T -> probed h T ->
    emp T ((home h T (key x) + d) mod length T) -> d < length T ->
    (forall d', d' < d -> occ T ((home h T (key x) + d') mod length T)) ->
    probed h (<[(home h T (key x) + d) mod length T := x]> T).
  Proof.
    intros Hn Hp Hemp Hd Hocc. set (j := (home h T (key x) + d) mod length T).
    assert (Hj : j < length T) by (apply Nat.mod_upper_bound; lia).
    intros i y Hi Hy. unfold home. rewrite insert_length. fold (home h T (key y)).
    assert (Hmono : forall i', occ T i' -> i' <> j -> occ (<[j:=x]> T) i').
    { intros i' (z & Hz & Hzk) Hne. exists z. by rewrite list_lookup_insert_ne. }
    assert (Hno : forall i', occ T i' -> i' <> j).
    { intros i' (z & Hz & Hzk) ->. destruct Hemp as (z' & Hz' & Hz0). fold j in Hz'. congruence. }
    destruct (decide (i = j)) as [->|Hne].
    - rewrite list_lookup_insert in Hi by done. injection Hi as <-.
      exists d. split; [done|]. split; [done|]. intros d' Hd'. apply Hmono; [by apply Hocc|].
      by apply Hno, Hocc.
    - rewrite list_lookup_insert_ne in Hi by done.
      destruct (Hp i y Hi Hy) as (dy & Hdy & Hiy & Hoy). exists dy. split; [done|]. split; [done|].
      intros d' Hd'. apply Hmono; [by apply Hoy|]. by apply Hno, Hoy.
  Qed.

  (** Overwriting a slot by an entry with the same key. *)
  Lemma probed_update h T j x y :
    T !! j = Some y -> key x = key y -> probed h T -> probed h (<[j := x]> T).
  Proof.
    intros Hj Hk Hp i z Hi Hz. unfold home. rewrite insert_length. fold (home h T (key z)).
    assert (Hmono : forall i', occ T i' -> occ (<[j:=x]> T) i').
    { intros i' (w & Hw & Hwk). destruct (decide (i' = j)) as [->|Hne].
      - exists x. rewrite list_lookup_insert by (by apply lookup_lt_Some in Hw). split; [done|].
        rewrite Hk. congruence.
      - exists w. by rewrite list_lookup_insert_ne. }
    assert (exists z', T !! i = Some z' /\ key z' = key z) as (z' & Hz' & Hk').
    { destruct (decide (i = j)) as [->|Hne].
      - rewrite list_lookup_insert in Hi by (by apply lookup_lt_Some in Hj).
        injection Hi as <-. by exists y.
      - rewrite list_lookup_insert_ne in Hi by done. by exists z. }
    rewrite <- Hk' in *. destruct (Hp i z' Hz' Hz) as (d & Hd & He & Ho).
    exists d. split; [done|]. split; [done|]. intros d' Hd'. apply Hmono, Ho, Hd'.
  Qed.

  (** If probing for [k] stops at an empty slot without having met it, [k] is
      not stored. *)
  Lemma probed_absent h T k d :
    probed h T ->
    emp T ((home h T k + d) mod length T) -> d < length T ->
    (forall d' x, d' < d -> T !! ((home h T k + d') mod length T) = Some x -> key x <> k) ->
    k <> 0%N -> forall i x, T !! i = Some x -> key x <> k.
  Proof.
    intros Hp Hemp Hd Hne Hk i x Hi <-. destruct (Hp i x Hi Hk) as (dx & Hdx & -> & Ho).
    destruct (decide (dx < d)) as [Hlt|Hge].
    - by apply (Hne dx x).
    - destruct (decide (dx = d)) as [->|Hne2].
      + destruct Hemp as (y & Hy & Hy0). rewrite Hi in Hy. injection Hy as ->. done.
      + destruct (Ho d) as (y & Hy & Hyk); [lia|]. destruct Hemp as (z & Hz & Hz0). congruence.
  Qed.

  Lemma stored_insert T j x y :
    T !! j = Some y -> key y = 0%N -> key x <> 0%N ->
    stored (<[j := x]> T) ≡ₚ key x :: stored T.
  Proof.
    intros Hj Hy Hx. unfold stored.
    rewrite <- (take_drop_middle T j y Hj) at 2.
    rewrite insert_take_drop by (by apply lookup_lt_Some in Hj).
    rewrite !fmap_app, !fmap_cons, !filter_app.
    rewrite (filter_cons_True _ (key x)) by done.
    rewrite (filter_cons_False _ (key y)) by (by rewrite Hy; intros []). 
    by rewrite Permutation_middle.
  Qed.

  Lemma stored_unique T j j' x y : NoDup (stored T) -> T !! j = Some x -> T !! j' = Some y ->
    key x = key y -> key x <> 0%N -> j = j'.
  Proof.
    unfold stored. revert j j'. induction T as [|z T IH]; intros j j' Hnd Hj Hj' Hxy Hk; [done|].
    rewrite fmap_cons in Hnd.
    destruct j as [|j], j' as [|j']; cbn in Hj, Hj'; simplify_eq; [done| | |].
    - rewrite filter_cons_True in Hnd by done. apply NoDup_cons in Hnd as [Hnd _].
      exfalso. apply Hnd, elem_of_list_filter. split; [done|]. apply elem_of_list_fmap.
      exists y. split; [done|]. by eapply elem_of_list_lookup_2.
    - rewrite filter_cons_True in Hnd by congruence. apply NoDup_cons in Hnd as [Hnd _].
      exfalso. apply Hnd, elem_of_list_filter. split; [congruence|]. apply elem_of_list_fmap.
      exists x. split; [done|]. by eapply elem_of_list_lookup_2.
    - f_equal. apply (IH j j'); [|done|done|done|done]. destruct (decide (key z <> 0%N)).
      + rewrite filter_cons_True in Hnd by done. by apply NoDup_cons in Hnd as [_ ?].
      + by rewrite filter_cons_False in Hnd by done.
  Qed.

  Lemma stored_update T j x y :
    T !! j = Some y -> key x = key y -> stored (<[j := x]> T) = stored T.
  Proof.
    intros Hj Hk. unfold stored. f_equal. apply list_eq. intros i.
    rewrite !list_lookup_fmap. destruct (decide (i = j)) as [->|Hne].
    - rewrite list_lookup_insert by (by apply lookup_lt_Some in Hj). by rewrite Hj; cbn; rewrite Hk.
    - by rewrite list_lookup_insert_ne.
  Qed.
End Table.

Global Instance occ_dec {A} (key : A -> N) T i : Decision (occ key T i).
Proof.
  unfold occ. destruct (T !! i) as [x|] eqn:E.
  - destruct (decide (key x = 0%N)).
    + right. intros (y & Hy & Hne). by simplify_eq.
    + left. eauto.
  - right. intros (y & Hy & _). done.
Defined.
Global Instance emp_dec {A} (key : A -> N) T i : Decision (emp key T i).
Proof.
  unfold emp. destruct (T !! i) as [x|] eqn:E.
  - destruct (decide (key x = 0%N)).
    + left. eauto.
    + right. intros (y & Hy & Hne). by simplify_eq.
  - right. intros (y & Hy & _). done.
Defined.
