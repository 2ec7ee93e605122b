(** Dictionaries with UTF-C keys, and the UtfcState objects (utfc.go:131-150). *)
From Verif Require Import Go Utfc UtfcSpec UtfcArith UtfcProofs UtfcMain Dict.
Local Open Scope Z_scope.

Lemma encs_prefix st s t : uinv st -> Forall scalar s -> Forall scalar t -> (encs st s).1 `prefix_of` (encs st t).1 -> s `prefix_of` t.
Proof.
  intros Hi Hs. revert st t Hi. induction Hs as [|c s Hc Hs IH]; intros st t Hi Ht [z Heq]; [apply prefix_nil|]. rewrite encs_cons in Heq. cbn [fst] in Heq. rewrite <- app_assoc in Heq.
  destruct Ht as [|d t Hd Ht].
  { cbn in Heq. symmetry in Heq. apply app_eq_nil in Heq as [Heq _]. pose proof (enc1_length st c). rewrite Heq in *. cbn in *; lia. }
  apply scalar_bound in Hc, Hd. rewrite encs_cons in Heq. cbn [fst] in Heq.
  pose proof (dstep_enc1 true st c ((encs (enc1 st c).2 s).1 ++ z) Hi Hc (or_introl eq_refl)) as D1. pose proof (dstep_enc1 true st d (encs (enc1 st d).2 t).1 Hi Hd (or_introl eq_refl)) as D2.
  rewrite <- Heq in D1. rewrite D2 in D1. injection D1 as -> _ Hr. apply prefix_cons, (IH (enc1 st c).2); [by apply enc1_uinv|done|]. by exists z.
Qed.
Lemma encode_prefix s t : is_text s -> is_text t -> utfc_encode s `prefix_of` utfc_encode t <-> s `prefix_of` t.
Proof.
  intros Hs%text_scalar Ht%text_scalar. split.
  - rewrite !encode_encs. by apply (encs_prefix ustate0 s t uinv0).
  - intros [z ->]. apply streaming_prefix.
Qed.

(** A follower that walks in a dictionary: Follow(b) calls dictionary.Follow(b, &index).
    A panic ends the run; here it is a state that takes nothing more. *)
Definition walk (us : dict) (i : res N) (b : N) : res N * bool :=
  match i with
  | Ok i => match dc_Follow us b i with Ok (ok, j) => (Ok j, ok) | Panic => (Panic, false) | Hang => (Hang, false) end
  | _ => (i, false)
  end.
Lemma walk_feed us bs i : feed (walk us) (Ok i) bs = match dc_FollowString us bs i with Ok (ok, j) => (Ok j, ok) | Panic => (Panic, false) | Hang => (Hang, false) end.
Proof.
  revert i. induction bs as [|b bs IH]; intros i; cbn [feed dc_FollowString]; [done|]. unfold walk at 1. destruct (dc_Follow us b i) as [[[] j]| |]; cbn [mbind res_bind]; [apply IH|done|done|done].
Qed.

(** ** Objects.  [cell]s hold the states a program has; NewUtfcState and Clear set one to
    the initial state (utfc.go:131-142), Copy to the state of another (:145-149), Follow
    advances it (:151-285).  Only the results are kept of the followers: the bytes that they
    took, and whether they took all. *)
Inductive call := CNew (i : nat) | CCopy (i j : nat) | CFollow (i : nat) (c : Z) (room : nat).
(** A follower that takes [room] bytes, and no more. *)
Definition taking (f : list N * nat) (b : N) : list N * nat * bool :=
  match f.2 with O => (f, false) | S n => (f.1 ++ [b], n, true) end.
Definition cells : Type := nat -> ustate.
Definition put {A} (m : nat -> A) (i : nat) (x : A) : nat -> A := fun j => if Nat.eqb j i then x else m j.
Definition do_call (m : cells) (c : call) : cells * (list N * bool) :=
  match c with
  | CNew i => (put m i ustate0, ([], true))
  | CCopy i j => (put m i (mkU (offs (m j)) (auxOffs (m j)) (is21Bit (m j))), ([], true))
  | CFollow i c room => let '(f, st, ok) := ustate_follow taking (m i) c ([], room) in (put m i st, (f.1, ok))
  end.
Fixpoint do_calls (m : cells) (cs : list call) : list (list N * bool) :=
  match cs with [] => [] | c :: cs' => let '(m', r) := do_call m c in r :: do_calls m' cs' end.
Lemma copy_eq st : mkU (offs st) (auxOffs st) (is21Bit st) = st.
Proof. by destruct st. Qed.
Lemma taking_feed bs : forall l n, feed taking (l, n) bs = ((l ++ take n bs, n - length bs)%nat, (length bs <=? n)%nat).
Proof.
  induction bs as [|b bs IH]; intros l n; cbn [feed length]; [by rewrite take_nil, app_nil_r, Nat.sub_0_r|]. unfold taking at 1. cbn [fst snd]. destruct n as [|n].
  - by rewrite take_0, app_nil_r.
  - rewrite IH. cbn [take Nat.sub Nat.leb]. by rewrite <- app_assoc.
Qed.
Lemma taking_follow st c n : ustate_follow taking st c ([], n) =
  ((take n (enc1 st c).1, n - length (enc1 st c).1)%nat, if (length (enc1 st c).1 <=? n)%nat then (enc1 st c).2 else st, (length (enc1 st c).1 <=? n)%nat).
Proof. rewrite follow_enc1. unfold emit. rewrite taking_feed. cbn [app]. by destruct (_ <=? _)%nat. Qed.
