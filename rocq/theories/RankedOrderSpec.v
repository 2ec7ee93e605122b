(** The order in which a ranked completer gives its completions.  Nothing here depends
    on how it works.  Keys are taken with a NUL at their end, so that none is a prefix of
    another, and a key that ends is a branch like the bytes with which others go on. *)
From Verif Require Import Go RankedIndexSpec.
Local Open Scope N_scope.

Definition ended (kv : list N * Z) : list N * Z := (kv.1 ++ [0], kv.2).
(** After [p], the branch of the byte [c] is before that of [d]: a better value is below
    it, or the same one and [c] is smaller. *)
Definition before (cmp : Z -> Z -> bool) (E : list (list N * Z)) (p : list N) (c d : N) : Prop :=
  exists v w, best_below cmp E (p ++ [c]) v /\ best_below cmp E (p ++ [d]) w /\ (cmp w v = true \/ (v = w /\ c < d)).
Definition entered (O : list (list N)) (p : list N) : Prop := exists o, o ∈ O /\ p `prefix_of` o.
(** After the completions [O], a key is open when it is not one of them, and all branches
    before those it takes have been entered. *)
Definition open (cmp : Z -> Z -> bool) (E : list (list N * Z)) (O : list (list N)) (k : list N) : Prop :=
  k ∈ E.*1 /\ k ∉ O /\ forall p c d t, k = p ++ d :: t -> before cmp E p c d -> entered O (p ++ [c]).
(** How many bytes keys have in common. *)
Fixpoint shared (x y : list N) : nat :=
  match x, y with
  | a :: x', b :: y' => if a =? b then S (shared x' y') else 0%nat
  | _, _ => 0%nat
  end.
(** [x] was opened after [y], or by the same completion, with which it has fewer bytes in
    common. *)
Definition opened_later (cmp : Z -> Z -> bool) (E : list (list N * Z)) (O : list (list N)) (x y : list N) : Prop :=
  exists j, (j <= length O)%nat /\ open cmp E (take j O) y /\
    (~ open cmp E (take j O) x \/
     exists i o, j = S i /\ O !! i = Some o /\ ~ open cmp E (take i O) x /\ ~ open cmp E (take i O) y /\ (shared x o < shared y o)%nat).
(** Every completion is open, of the open ones with the greatest value, and of these the
    one opened last. *)
Definition best_first (cmp : Z -> Z -> bool) (E : list (list N * Z)) (es : list (list N * Z)) : Prop :=
  forall n kv, es !! n = Some kv -> let O := (take n es).*1 in open cmp E O kv.1 /\
    forall kv', kv' ∈ E -> open cmp E O kv'.1 -> kv' = kv \/ (kv'.2 < kv.2)%Z \/ (kv'.2 = kv.2 /\ opened_later cmp E O kv.1 kv'.1).
