(** What reads deliver to a Scanner. *)
From Verif Require Import Go Serial.
Local Open Scope N_scope.
(** Reads [i] to [i] + 100 are made and give nothing. *)
Definition stalls (r : reader) (i : nat) : Prop := forall j, (i <= j <= i + 100)%nat -> r !! j = Some [].
Definition steady (r : reader) : Prop := forall i, ~ stalls r i.
(** The bytes that a Scanner gets: all, or those before 101 reads that give nothing. *)
Definition delivers (r : reader) (bs : list N) : Prop :=
  (steady r /\ bs = concat r) \/ exists i, stalls r i /\ (forall k, (k < i)%nat -> ~ stalls r k) /\ bs = concat (take i r).
(** ** Lines of a text.  A line ends with \n or with the text, not with nothing; one \r at its end is left out.
    The lines before one of 65536 bytes or more are given, and whether there is one. *)
Inductive trimmed : list N -> list N -> Prop :=
| trim_cr l : trimmed (l ++ [13]) l
| trim_none l : last l <> Some 13 -> trimmed l l.
Definition one_line (l : list N) : Prop := 10 ∉ l /\ N.of_nat (length l) < 65536.
Inductive text_lines : list N -> list (list N) -> bool -> Prop :=
| tl_end : text_lines [] [] false
| tl_line l t bs ls b : one_line l -> trimmed l t -> text_lines bs ls b -> text_lines (l ++ 10 :: bs) (t :: ls) b
| tl_last l t : l <> [] -> one_line l -> trimmed l t -> text_lines l [t] false
| tl_long l bs : 10 ∉ l -> 65536 <= N.of_nat (length l) -> text_lines (l ++ bs) [] true.
