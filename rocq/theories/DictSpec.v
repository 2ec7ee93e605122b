(** What a dictionary built from a history should answer.  Nothing here depends on
    how the builder works. *)
From Verif Require Import Go Dawg DawgSpec Dict.
Local Open Scope N_scope.

(** NewDawgBuilderWithSize, InsertStringValue..., Finish, BuildWithUnused. *)
Definition build_dict (size : Z) (h : list entry) (d0 : dawg) : res (option (dict * N)) :=
  '(_, d) ← build size h d0; dict_BuildWithUnused d.
(** [us] is a dictionary made from the history [h]. *)
Definition made (h : list entry) (us : dict) : Prop :=
  exists size d0 unused, size_ok size /\ build_dict size h d0 = Ok (Some (us, unused)).

(** The accepted entries, as they are kept. *)
Notation entries h := (map kept_entry (accepted h)).
Definition is_key (h : list entry) (k : list N) : Prop := exists v, (k, v) ∈ entries h.
Definition key_prefix (h : list entry) (p : list N) : Prop := exists k v, (k, v) ∈ entries h /\ p `prefix_of` k.
Definition bytes (q : list N) : Prop := Forall (fun c => c < 256) q.

(** Queries whose first byte that leaves the keys is not the low byte of a value. *)
Definition safe (h : list entry) (q : list N) : Prop := forall p c t, q = p ++ c :: t ->
  p = [] \/ key_prefix h p -> ~ key_prefix h (p ++ [c]) -> forall k v, (k, v) ∈ entries h -> (v mod 256)%Z <> Z.of_N c.

(** Units used by the root, by the node of a prefix, or by the value of a key. *)
Definition unit_used (h : list entry) (us : dict) (i : N) : Prop :=
  i = 0 \/ (exists p, key_prefix h p /\ dc_FollowString us p 0 = Ok (true, i)) \/
  (exists k j u, is_key h k /\ dc_FollowString us k 0 = Ok (true, j) /\ us !! N.to_nat j = Some u /\ i = N.lxor j (dictOffset u)).
