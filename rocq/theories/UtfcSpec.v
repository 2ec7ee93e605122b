(** Specification vocabulary for the UTF-C properties; independent of the model
    (only byte lists, texts as lists of Unicode scalar values, and followers). *)
From Verif Require Import Go.

(** A text: what ranging over a Go string yields (never a surrogate, never
    above U+10FFFF). *)
Definition is_text (s : list Z) : Prop :=
  Forall (fun c => 0 <= c <= 0x10FFFF /\ ~ (0xD800 <= c <= 0xDFFF))%Z s.

(** [accepts fol f bs f']: a follower in state [f], offered the bytes [bs] one
    after the other, accepts every one of them and ends in state [f']. *)
Inductive accepts {F} (fol : F -> N -> F * bool) : F -> list N -> F -> Prop :=
| accepts_nil f : accepts fol f [] f
| accepts_cons f b f1 bs f2 :
    fol f b = (f1, true) -> accepts fol f1 bs f2 -> accepts fol f (b :: bs) f2.

(** Byte-lexicographic order, and a boolean version for sorting. *)
Fixpoint lex_lt (a b : list N) : Prop :=
  match a, b with
  | _, [] => False
  | [], _ :: _ => True
  | x :: a', y :: b' => (x < y)%N \/ (x = y /\ lex_lt a' b')
  end.
