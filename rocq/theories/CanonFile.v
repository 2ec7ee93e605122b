(** The order sort.SliceStable leaves links in, and with it the ranked guide, is settled
    by its contract when no two links are equivalent. *)
From Coq Require Import Sorted.
From stdpp Require Import sorting.
From Verif Require Import Go Dawg Dict Guide Index Ranked RankedProofs RankedSpec RankedThms Serial Cli CliSpec.
Local Open Scope N_scope.

Lemma sorted_lookup {A} (R : A -> A -> Prop) l : (forall i j a b, (i < j)%nat -> l !! i = Some a -> l !! j = Some b -> R a b) -> StronglySorted R l.
Proof.
  induction l as [|x l IH]; intros H; constructor.
  - apply IH. intros i j a b Hij Ha Hb. apply (H (S i) (S j) a b); [lia|done|done].
  - apply Forall_forall. intros y [j Hy]%elem_of_list_lookup. apply (H 0%nat (S j) x y); [lia|done|done].
Qed.
Lemma sort_same sort sort' less l : sorter sort -> sorter sort' -> weak_order less -> (forall a b, equiv less a b -> a = b) -> sort less l = sort' less l.
Proof.
  intros [Hp Hs] [Hp' Hs'] Hw He. pose (R := fun a b : link => less b a = false).
  assert (AntiSymm (=) R) by (intros a b Ha Hb; apply He; by split).
  assert (Transitive R) by (intros a b c Ha Hb; unfold R in *; by eapply weak_le).
  apply (StronglySorted_unique R).
  - apply sorted_lookup. intros i j a b Hij Ha Hb. by eapply (Hs less l i j).
  - apply sorted_lookup. intros i j a b Hij Ha Hb. by eapply (Hs' less l i j).
  - by rewrite Hp, Hp'.
Qed.

Section same.
  Context (sort sort' : (link -> link -> bool) -> list link -> list link) (cmp : Z -> Z -> bool) (Hs : forall l, sort (link_less cmp) l = sort' (link_less cmp) l).
  Lemma enum_same rec rec' d us i n s c : (forall s a b, rec s a b = rec' s a b) -> rb_enum rec d us i n s c = rb_enum rec' d us i n s c.
  Proof.
    intros Hr. revert s c. induction n as [|n IH]; intros s c; [done|]. cbn [rb_enum]. destruct (c =? 0); [done|]. destruct (dawg_lbl d c) as [l| |]; [|done|done]. cbn [mbind res_bind].
    destruct (l =? 0).
    - destruct (dc_HasValue us i) as [[]| |]; cbn [mbind res_bind negb]; [|done|done|done]. destruct (dc_Value us i) as [v| |]; cbn [mbind res_bind]; [|done|done].
      destruct (dawg_sibling d c) as [c'| |]; cbn [mbind res_bind]; [apply IH|done|done].
    - destruct (dc_Follow us l i) as [[[] j]| |]; cbn [mbind res_bind negb]; [|done|done|done]. rewrite Hr. destruct (rec' s c j) as [[[v|] s1]| |]; cbn [mbind res_bind]; [|done|done|done].
      destruct (dawg_sibling d c) as [c'| |]; cbn [mbind res_bind]; [apply IH|done|done].
  Qed.
  Lemma indices_same fuel d us s a b : rb_buildIndices sort cmp fuel d us s a b = rb_buildIndices sort' cmp fuel d us s a b.
  Proof using Hs.
    revert s a b. induction fuel as [|fuel IH]; intros s a b; [done|]. cbn [rb_buildIndices]. destruct (gb_isFixed (r_tbl s) b) as [[]| |]; [done| |done|done]. cbn [mbind res_bind].
    destruct (gb_setIsFixed (r_tbl s) b) as [tbl| |]; [|done|done]. cbn [mbind res_bind]. destruct (dawg_child d a) as [c| |]; [|done|done]. cbn [mbind res_bind].
    rewrite (enum_same _ _ d us b _ _ c IH). destruct (rb_enum _ d us b _ _ c) as [[ok s1]| |]; [|done|done]. cbn [mbind res_bind]. by rewrite Hs.
  Qed.
  Lemma guide_same d us : BuildRankedGuideCmp sort cmp d us = BuildRankedGuideCmp sort' cmp d us.
  Proof using Hs. unfold BuildRankedGuideCmp. by rewrite indices_same. Qed.
End same.
Lemma total_same sort sort' cmp d us : sorter sort -> sorter sort' -> total_order cmp -> BuildRankedGuideCmp sort cmp d us = BuildRankedGuideCmp sort' cmp d us.
Proof.
  intros H H' Ht. apply guide_same. intros l. apply sort_same; [done|done|by apply total_weak|]. intros [a v] [b w] [H1 H2]. unfold link_less in *. cbn [fst snd] in *.
  destruct (v =? w)%Z eqn:E.
  - apply Z.eqb_eq in E as ->. rewrite Z.eqb_refl in H2. cbn in *. f_equal. lia.
  - exfalso. apply Z.eqb_neq in E. rewrite (proj2 (Z.eqb_neq w v)) in H2 by done. cbn in *. destruct Ht as (_ & _ & Ht). destruct (Ht v w E); congruence.
Qed.
