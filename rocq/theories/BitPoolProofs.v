(** Proofs about bit_pool.go: the pool is an array of booleans. *)
From Verif Require Import Go BitPool.
Local Open Scope N_scope.
Local Ltac Zify.zify_post_hook ::= Z.div_mod_to_equations.

Lemma shiftr6 i : N.shiftr i 6 = i / 64.
Proof. by rewrite N.shiftr_div_pow2. Qed.
Lemma land63 i : N.land i 63 = i mod 64.
Proof. change 63 with (N.ones 6). by rewrite N.land_ones. Qed.
Lemma bit_test w k : negb (N.land w (N.shiftl 1 k) =? 0) = N.testbit w k.
Proof.
  rewrite N.shiftl_1_l. destruct (N.eqb_spec (N.land w (2 ^ k)) 0) as [H|H]; cbn.
  - symmetry. assert (N.testbit (N.land w (2 ^ k)) k = false) as Hb by (rewrite H; apply N.bits_0).
    rewrite N.land_spec, N.pow2_bits_true, andb_true_r in Hb. done.
  - symmetry. apply not_false_iff_true. intros Hf. apply H. apply N.bits_inj. intros m.
    rewrite N.land_spec, N.bits_0, N.pow2_bits_eqb.
    destruct (N.eqb_spec k m) as [<-|]; [by rewrite Hf|by rewrite andb_false_r].
Qed.

(** Capacity in bits. *)
Definition bcap (p : bitpool) : N := 64 * N.of_nat (length (bp_words p)).

Definition brep (p : bitpool) (f : N -> bool) : Prop :=
  length (bp_words p) = N.to_nat ((bp_size p + 63) / 64) /\
  forall i, (i < bcap p -> exists w, bp_words p !! N.to_nat (i / 64) = Some w /\
                          N.testbit w (i mod 64) = f i) /\
            (bcap p <= i -> f i = false).

Lemma brep_size p f : brep p f -> bp_size p <= bcap p.
Proof. intros [H _]. unfold bcap. rewrite H. lia. Qed.

Lemma brep_get p f i : brep p f -> i < bcap p -> bp_get p i = Ok (f i).
Proof.
  intros [_ Hr] Hi. destruct (proj1 (Hr i) Hi) as (w & Hw & Hb).
  unfold bp_get, get. rewrite shiftr6, Hw. cbn [mbind res_bind]. by rewrite land63, bit_test, Hb.
Qed.
Lemma get_out p i : bcap p <= i -> bp_get p i = Panic.
Proof.
  intros Hi. unfold bp_get, get. rewrite shiftr6, lookup_ge_None_2; [done|]. unfold bcap in Hi. lia.
Qed.

Lemma brep_new : brep NewBitPool (fun _ => false).
Proof. split; [done|]. intros i. unfold bcap; cbn. split; [lia|done]. Qed.

Lemma brep_allocate p f : brep p f -> brep (bp_allocate p) f /\ bp_size (bp_allocate p) = bp_size p + 1.
Proof.
  intros [Hl Hr]. split; [|done]. unfold bp_allocate, brep, bcap. cbn [bp_words bp_size].
  destruct (N.eqb_spec (bp_size p mod 64) 0) as [H0|H0].
  - rewrite app_length. cbn [length]. split; [lia|]. intros i.
    destruct (Hr i) as [H1 H2]. unfold bcap in *. split; [|intros ?; apply H2; lia].
    intros Hi. destruct (decide (i < 64 * N.of_nat (length (bp_words p)))) as [Hlt|Hge].
    + destruct (H1 Hlt) as (w & Hw & Hb). exists w. split; [|done].
      rewrite lookup_app_l; [done|]. by apply lookup_lt_Some in Hw.
    + exists 0. rewrite lookup_app_r by lia. split; [|rewrite H2 by lia; apply N.bits_0].
      replace (N.to_nat (i / 64) - length (bp_words p))%nat with 0%nat by lia. done.
  - split; [lia|]. exact Hr.
Qed.

Lemma brep_set p f i b : brep p f -> i < bcap p ->
  exists p', bp_set p i b = Ok p' /\ brep p' (fun j => if j =? i then b else f j) /\
             bp_size p' = bp_size p /\ bcap p' = bcap p.
Proof.
  intros [Hl Hr] Hi. destruct (proj1 (Hr i) Hi) as (w & Hw & Hb).
  unfold bp_set, get, set. rewrite shiftr6, Hw. cbn [mbind res_bind]. rewrite land63, N.shiftl_1_l.
  eexists. split; [done|]. unfold brep, bcap. cbn [bp_words bp_size]. rewrite insert_length.
  split; [|done]. split; [done|]. intros j. destruct (Hr j) as [H1 H2]. unfold bcap in *. split.
  - intros Hj. destruct (H1 Hj) as (wj & Hwj & Hbj).
    destruct (decide (j / 64 = i / 64)) as [He|Hne].
    + rewrite He. rewrite list_lookup_insert by (by apply lookup_lt_Some in Hw).
      eexists. split; [done|]. rewrite He in Hwj. rewrite Hw in Hwj. injection Hwj as <-.
      destruct (N.eqb_spec j i) as [->|Hji].
      * destruct b.
        -- rewrite N.lor_spec, N.pow2_bits_true. by rewrite orb_true_r.
        -- rewrite N.ldiff_spec, N.pow2_bits_true. by rewrite andb_false_r.
      * assert (Hm : i mod 64 <> j mod 64) by lia.
        destruct b.
        -- rewrite N.lor_spec, N.pow2_bits_false by done. by rewrite orb_false_r, Hbj.
        -- rewrite N.ldiff_spec, N.pow2_bits_false by done. by rewrite andb_true_r, Hbj.
    + rewrite list_lookup_insert_ne by lia. exists wj. split; [done|].
      destruct (N.eqb_spec j i) as [->|]; [done|done].
  - intros Hj. destruct (N.eqb_spec j i) as [->|]; [lia|]. by apply H2.
Qed.

Lemma set_out p i b : bcap p <= i -> bp_set p i b = Panic.
Proof.
  intros Hi. unfold bp_set, get. rewrite shiftr6, lookup_ge_None_2; [done|]. unfold bcap in Hi. lia.
Qed.

(** Words stay 64-bit; such pools are determined by their size and bits. *)
Definition bwords (p : bitpool) : Prop := Forall (fun w => w < 2 ^ 64) (bp_words p).
Lemma bwords_new : bwords NewBitPool.
Proof. constructor. Qed.
Lemma bwords_allocate p : bwords p -> bwords (bp_allocate p).
Proof.
  intros H. unfold bp_allocate, bwords in *. cbn [bp_words]. destruct (_ =? 0); [|done].
  apply Forall_app. split; [done|]. apply Forall_singleton. done.
Qed.
Lemma lt64_bits w : w < 2 ^ 64 <-> forall m, 64 <= m -> N.testbit w m = false.
Proof.
  split.
  - intros H m Hm. destruct (decide (w = 0)) as [->|Hw]; [apply N.bits_0|]. apply N.bits_above_log2.
    apply N.log2_lt_pow2; [lia|]. eapply N.lt_le_trans; [exact H|]. apply N.pow_le_mono_r; lia.
  - intros H. destruct (decide (w = 0)) as [->|Hw]; [done|].
    apply N.log2_lt_pow2; [lia|]. destruct (N.lt_ge_cases (N.log2 w) 64) as [|Hge]; [done|].
    specialize (H _ Hge). rewrite N.bit_log2 in H by done. done.
Qed.
Lemma bwords_set p i b p' : bwords p -> bp_set p i b = Ok p' -> bwords p'.
Proof.
  intros H. unfold bp_set, get, set. destruct (bp_words p !! N.to_nat (N.shiftr i 6)) as [w|] eqn:Hw; [|done].
  cbn [mbind res_bind]. intros [= <-]. unfold bwords in *. cbn [bp_words].
  apply Forall_insert; [done|]. rewrite Forall_lookup in H. specialize (H _ _ Hw). rewrite lt64_bits in *.
  intros m Hm. rewrite land63 in *. destruct b.
  - rewrite N.lor_spec, H by done. cbn [orb].
    change (N.pos (Pos.shiftl 1 (i mod 64))) with (N.shiftl 1 (i mod 64)).
    rewrite N.shiftl_spec_high' by lia. apply (N.bits_above_log2 1). cbn. lia.
  - rewrite N.ldiff_spec, H by done. done.
Qed.
Lemma brep_inj p p' f : brep p f -> brep p' f -> bp_size p = bp_size p' -> bwords p -> bwords p' -> p = p'.
Proof.
  intros [Hl Hr] [Hl' Hr'] Hs Hw Hw'. destruct p as [ws n], p' as [ws' n']. cbn in Hs. subst n'. f_equal.
  unfold bcap, bwords in *. cbn [bp_words bp_size] in *. rewrite <- Hl in Hl'.
  apply list_eq_same_length with (n := length ws); [done|done|]. intros i w w' Hi Hwi Hwi'.
  rewrite Forall_lookup in Hw, Hw'. pose proof (Hw _ _ Hwi) as B. pose proof (Hw' _ _ Hwi') as B'.
  rewrite lt64_bits in B, B'. apply N.bits_inj. intros m. destruct (N.lt_ge_cases m 64) as [Hm|Hm]; [|by rewrite B, B'].
  destruct (Hr (64 * N.of_nat i + m)) as [H1 _]. destruct (Hr' (64 * N.of_nat i + m)) as [H1' _].
  destruct H1 as (v & Hv & Hb); [lia|]. destruct H1' as (v' & Hv' & Hb'); [lia|].
  replace ((64 * N.of_nat i + m) / 64) with (N.of_nat i) in * by lia.
  replace ((64 * N.of_nat i + m) mod 64) with m in * by lia. rewrite Nat2N.id in *. congruence.
Qed.

Lemma bcap_round p f : brep p f -> bcap p = 64 * ((bp_size p + 63) / 64).
Proof. intros [H _]. unfold bcap. rewrite H. lia. Qed.

(** ** Histories *)
Inductive bop := Alloc | SetBit (i : N) (b : bool).
Global Instance bop_eq_dec : EqDecision bop.
Proof. solve_decision. Defined.
Definition bstep (p : bitpool) (o : bop) : res bitpool :=
  match o with Alloc => Ok (bp_allocate p) | SetBit i b => bp_set p i b end.
Fixpoint brun (p : bitpool) (os : list bop) : res bitpool :=
  match os with [] => Ok p | o :: os' => p' ← bstep p o; brun p' os' end.

Lemma brun_app p os1 os2 : brun p (os1 ++ os2) = p' ← brun p os1; brun p' os2.
Proof.
  revert p; induction os1 as [|o os1 IH]; intros p; cbn [brun app]; [done|].
  destruct (bstep p o); cbn [mbind res_bind]; [apply IH|done|done].
Qed.

(** Specification: number of allocations, last bit set at a position. *)
Definition allocs (os : list bop) : N :=
  N.of_nat (length (filter (fun o => o = Alloc) os)).
Definition last_set (os : list bop) (i : N) : bool :=
  fold_left (fun acc o => match o with SetBit j b => if j =? i then b else acc | Alloc => acc end) os false.
(** Bits that exist after [n] allocations (whole words). *)
Definition bit_capacity (n : N) : N := 64 * ((n + 63) / 64).

Lemma brep_ext p f g : (forall i, f i = g i) -> brep p f -> brep p g.
Proof. intros He [H1 H2]. split; [done|]. intros i. rewrite <- He. apply H2. Qed.

Lemma brun_spec os :
  match brun NewBitPool os with
  | Ok p => brep p (last_set os) /\ bp_size p = allocs os
  | Panic => exists os1 i b os2, os = os1 ++ SetBit i b :: os2 /\ bit_capacity (allocs os1) <= i
  | Hang => False
  end.
Proof.
  induction os as [|o os IH] using rev_ind; cbn [brun].
  - split; [apply brep_new|]. done.
  - rewrite brun_app. destruct (brun NewBitPool os) as [p| |]; cbn [mbind res_bind]; [|..].
    + destruct IH as (Hr & Hs). cbn [brun bstep]. destruct o as [|i b]; cbn [bstep mbind res_bind].
      * destruct (brep_allocate p _ Hr) as [Hr' Hs'].
        split.
        -- eapply brep_ext; [|exact Hr']. intros i. unfold last_set. by rewrite fold_left_app.
        -- rewrite Hs', Hs. unfold allocs. rewrite filter_app, app_length.
           rewrite (filter_cons_True _ Alloc []) by done. rewrite filter_nil. cbn [length]. lia.
      * destruct (decide (i < bcap p)) as [Hi|Hi].
        -- destruct (brep_set p _ i b Hr Hi) as (p' & -> & Hr' & Hs' & _). cbn [mbind res_bind].
           split.
           ++ eapply brep_ext; [|exact Hr']. intros j. unfold last_set. rewrite fold_left_app.
              cbn [fold_left]. by rewrite (N.eqb_sym i j).
           ++ rewrite Hs', Hs. unfold allocs. rewrite filter_app, app_length.
              rewrite (filter_cons_False _ (SetBit i b) []) by done. rewrite filter_nil. cbn [length]. lia.
        -- rewrite set_out by lia. cbn [mbind res_bind]. exists os, i, b, [].
           split; [done|]. rewrite (bcap_round _ _ Hr), Hs in Hi. unfold bit_capacity. lia.
    + destruct IH as (os1 & i & b & os2 & -> & Hi). exists os1, i, b, (os2 ++ [o]).
      split; [by rewrite <- app_assoc|done].
    + done.
Qed.

(** The pool panics exactly when a bit beyond the allocated words is set; else
    every bit reads as last set. *)
Lemma bitpool_array os :
  match brun NewBitPool os with
  | Ok p => forall i, bp_get p i =
              if i <? bit_capacity (allocs os) then Ok (last_set os i) else Panic
  | Panic => exists os1 i b os2, os = os1 ++ SetBit i b :: os2 /\ bit_capacity (allocs os1) <= i
  | Hang => False
  end.
Proof.
  pose proof (brun_spec os) as H. destruct (brun NewBitPool os) as [p| |]; [|exact H|exact H].
  destruct H as (Hr & Hs). intros i.
 pose proof (bcap_round _ _ Hr) as Hc. rewrite Hs in Hc.
  fold (bit_capacity (allocs os)) in Hc. rewrite <- Hc.
  destruct (N.ltb_spec i (bcap p)); [by apply brep_get|by apply get_out].
Qed.
