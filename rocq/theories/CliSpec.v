(** What dawgtool should do with a lexicon and with queries.  Nothing here depends on
    how it works, except [opts], [answer] and the encodings of keys (Utfc.v, Utf8.v). *)
From Verif Require Import Go Utfc Utf8 Dawg DawgSpec Dict DictSpec Guide GuideSpec RankedSpec Index Cli.
Local Open Scope N_scope.

(** Text files: every line ended by \n (10). *)
Notation text ls := (flat_map (fun l : list N => l ++ [10]) ls).
(** Lines that are read back as they are: no \n, no \r at the end, fewer than 65536 bytes. *)
Definition line_ok (l : list N) : Prop := 10 ∉ l /\ last l <> Some 13 /\ N.of_nat (length l) < 65536.

(** Decimal numerals with an optional sign. *)
Definition digit (b : N) : Prop := 48 <= b <= 57.
Fixpoint decimal (ds : list N) : Z :=
  match ds with [] => 0 | d :: r => (Z.of_N d - 48) * 10 ^ Z.of_nat (length r) + decimal r end%Z.
Inductive numeral : list N -> Z -> Prop :=
| nu_plain ds : ds <> [] -> Forall digit ds -> numeral ds (decimal ds)
| nu_plus ds : ds <> [] -> Forall digit ds -> numeral (43 :: ds) (decimal ds)
| nu_minus ds : ds <> [] -> Forall digit ds -> numeral (45 :: ds) (- decimal ds).
Definition int64 (z : Z) : Prop := (- 2 ^ 63 <= z < 2 ^ 63)%Z.
Definition clamped (z : Z) : Z := Z.max 0 (Z.min z (2 ^ 31 - 1)).

(** The fields of a line with tabs (9): the first two, whatever comes after. *)
Definition fields (line k s : list N) : Prop := 9 ∉ k /\ 9 ∉ s /\ (line = k ++ 9 :: s \/ exists rest, line = k ++ 9 :: s ++ 9 :: rest).
(** The key and the value of a line... *)
Definition line_kv (o : opts) (line k : list N) (v : Z) : Prop :=
  if o_tab o then exists s z, fields line k s /\ numeral s z /\ int64 z /\ v = clamped z else k = line /\ v = 0%Z.
(** ...and the entry it stands for. *)
Definition key_bytes (o : opts) (k : list N) : list N := if o_utfc o then utfc_encode (runes k) else k.
Definition line_entry_is (o : opts) (line : list N) (e : entry) : Prop := exists k, line_kv o line k e.2 /\ e.1 = key_bytes o k.
(** The entries of a lexicon; empty lines do not count. *)
Definition lines_entries (o : opts) (lines : list (list N)) (es : list entry) : Prop :=
  Forall2 (line_entry_is o) (filter (fun l => l <> []) lines) es.
(** Keys never decrease. *)
Definition nondecreasing (es : list entry) : Prop := forall i j a b, (i < j)%nat -> es !! i = Some a -> es !! j = Some b -> kcmp a.1 b.1 <> Gt.

(** What a query prints: without a guide, the entries whose keys are non-empty prefixes
    of it; with a guide, the entries whose keys start with it, the keys followed by a NUL;
    with an index, the position of the key. *)
Definition prefix_hits (es : list entry) (q : list N) : list entry := filter (fun kv => kv.1 <> [] /\ kv.1 `prefix_of` q) es.
Definition with_nul (kv : entry) : entry := (kv.1 ++ [0], kv.2).
Definition position (es : list entry) (q : list N) : N := match list_find (fun kv : entry => kv.1 = q) es with Some (i, _) => N.of_nat i | None => 4294967295 end.
Definition plain_answer (es : list entry) (q : list N) : answer := mkAns q None (prefix_hits es q).
Definition guide_answer (index : bool) (es : list entry) (q : list N) : answer :=
  mkAns q (if index then Some (position es q) else None) (map with_nul (with_prefix q es)).
Definition ranked_answer (es : list entry) (q : list N) (a : answer) : Prop :=
  exists l, l ≡ₚ with_prefix q es /\ ranked Z.ltb l.*2 /\ a = mkAns q None (map with_nul l).
(** With -r and an index of the words [ks]: NotFound for strings that are no keys; for
    a word, at most its position, and its position exactly when the words before it are
    bytewise smaller. *)
Definition ranked_index_answer (es : list entry) (ks : list (list N)) (q : list N) (a : answer) : Prop :=
  exists l n, l ≡ₚ with_prefix q es /\ ranked Z.ltb l.*2 /\ a = mkAns q (Some n) (map with_nul l) /\
    (q ∉ es.*1 -> n = 4294967295) /\
    forall i, ks !! i = Some q -> n <= N.of_nat i /\ (n = N.of_nat i <-> forall j k, (j < i)%nat -> ks !! j = Some k -> kcmp k q = Lt).
(** The queries for which dictionaries are exact. *)
Definition query_ok (h : list entry) (q : list N) : Prop := bytes q /\ safe h q.
