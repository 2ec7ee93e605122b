(** What an index made with a ranked guide holds.  Nothing here depends on how it
    works. *)
From Verif Require Import Go.
Local Open Scope N_scope.

(** [v] is the value of an entry whose key starts with [p], and no such entry has a
    better one. *)
Definition best_below (cmp : Z -> Z -> bool) (E : list (list N * Z)) (p : list N) (v : Z) : Prop :=
  (exists k, (p ++ k, v) ∈ E) /\ forall k v', (p ++ k, v') ∈ E -> cmp v v' = false.
(** A key is held when, at each key that is a proper prefix of it, it continues with
    a byte below which there is a value better than the one of the prefix. *)
Definition held (cmp : Z -> Z -> bool) (E : list (list N * Z)) (k : list N) : Prop :=
  k ∈ E.*1 /\ forall p c t v, k = p ++ c :: t -> (p, v) ∈ E -> exists t' v', (p ++ c :: t', v') ∈ E /\ cmp v v' = true.
(** Prefixes first; where keys part, the byte with the better value below it first,
    and of equal ones the smaller byte. *)
Definition ahead (cmp : Z -> Z -> bool) (E : list (list N * Z)) (k k' : list N) : Prop :=
  (exists t, t <> [] /\ k' = k ++ t) \/
  exists p c d s t v w, k = p ++ c :: s /\ k' = p ++ d :: t /\ best_below cmp E (p ++ [c]) v /\ best_below cmp E (p ++ [d]) w /\
    (cmp w v = true \/ (v = w /\ c < d)).
