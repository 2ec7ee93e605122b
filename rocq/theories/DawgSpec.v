(** What a history of insertions means, and how a Dawg is read through its public
    methods.  Nothing here depends on how the builder works. *)
From Verif Require Import Go Dawg.
Local Open Scope N_scope.

(** Byte-lexicographic order. *)
Fixpoint kcmp (a b : list N) : comparison :=
  match a, b with
  | [], [] => Eq
  | [], _ :: _ => Lt
  | _ :: _, [] => Gt
  | x :: a', y :: b' => match x ?= y with Eq => kcmp a' b' | c => c end
  end.

(** Keys the builder supports: bytes other than 0. *)
Definition key_ok (k : list N) : Prop := Forall (fun c => 0 < c < 256) k.

Notation entry := (list N * Z)%type.

(** One insertion: accepted when the key is not before the last accepted one. *)
Definition spec_insert (es : list entry) (kv : entry) : bool * list entry :=
  match last es with
  | None => (true, [kv])
  | Some (k0, _) =>
      match kcmp k0 kv.1 with
      | Lt => (true, es ++ [kv])
      | Eq => (true, removelast es ++ [kv])
      | Gt => (false, es)
      end
  end.
Fixpoint spec_run (es : list entry) (h : list entry) : list bool * list entry :=
  match h with
  | [] => ([], es)
  | kv :: h' => let '(r, es') := spec_insert es kv in let '(rs, es'') := spec_run es' h' in (r :: rs, es'')
  end.
(** The results and the accepted entries of a history. *)
Definition results (h : list entry) : list bool := (spec_run [] h).1.
Definition accepted (h : list entry) : list entry := (spec_run [] h).2.

(** Values keep 31 bits. *)
Definition kept (v : Z) : Z := (v mod 2147483648)%Z.
Definition kept_entry (kv : entry) : entry := (kv.1, kept kv.2).

(** Bytes of a history, one terminator per key. *)
Definition hist_size (h : list entry) : N := N.of_nat (sum_list_with (fun kv => S (length kv.1)) h).
Definition hist_ok (h : list entry) : Prop := Forall (fun kv => key_ok kv.1) h /\ hist_size h < 1073741824.

(** Initial hash table sizes. *)
Definition size_ok (size : Z) : Prop := (1 <= size < 4294967296)%Z.

(** The calls on the builder. *)
Fixpoint insert_all (b : builder) (h : list entry) : res (list bool * builder) :=
  match h with
  | [] => Ok ([], b)
  | (k, v) :: h' =>
      '(r, b) ← InsertStringValue b k v;
      '(rs, b) ← insert_all b h';
      Ok (r :: rs, b)
  end.
Definition build (size : Z) (h : list entry) (d0 : dawg) : res (list bool * dawg) :=
  '(rs, b) ← insert_all (NewDawgBuilderWithSize size) h;
  '(d, _) ← Finish b d0;
  Ok (rs, d).

(** Reading a Dawg with Root (transition 0), Child, Sibling, Label and Value:
    [in_chain d c j] when transition [j] is [c] or one of its next siblings. *)
Inductive in_chain (d : dawg) : N -> N -> Prop :=
| ic_here c : c <> 0 -> in_chain d c c
| ic_next c n j : c <> 0 -> dawg_sibling d c = Ok n -> in_chain d n j -> in_chain d c j.
Inductive spells (d : dawg) : N -> list N -> Z -> Prop :=
| sp_end i c j v : dawg_child d i = Ok c -> in_chain d c j -> dawg_lbl d j = Ok 0 ->
    dawg_value d j = Ok v -> spells d i [] v
| sp_step i c j l k v : dawg_child d i = Ok c -> in_chain d c j -> dawg_lbl d j = Ok l -> l <> 0 ->
    spells d j k v -> spells d i (l :: k) v.

(** States: reached by Child from the root, through labels other than 0. *)
Inductive state_of (d : dawg) : N -> list N -> Prop :=
| so_root c : dawg_child d 0 = Ok c -> c <> 0 -> state_of d c []
| so_step c p j l c' : state_of d c p -> in_chain d c j -> dawg_lbl d j = Ok l -> l <> 0 ->
    dawg_child d j = Ok c' -> state_of d c' (p ++ [l]).

(** Residual of a set of entries after a prefix. *)
Definition strip {V} (p : list N) (kv : list N * V) : option (list N * V) :=
  if decide (take (length p) kv.1 = p) then Some (drop (length p) kv.1, kv.2) else None.
Definition residual {V} (es : list (list N * V)) (p : list N) : list (list N * V) := omap (strip p) es.

(** Edges of the plain trie of the entries: non-empty prefixes of the keys, each
    key being followed by a terminator 0. *)
Definition trie_edge (es : list entry) (p : list N) : Prop :=
  p <> [] /\ exists kv, kv ∈ es /\ p `prefix_of` kv.1 ++ [0].
(** [l] lists, without repetition, the elements of a predicate. *)
Definition enumerates {A} (l : list A) (P : A -> Prop) : Prop := NoDup l /\ forall a, a ∈ l <-> P a.
