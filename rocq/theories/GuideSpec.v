(** What guides and completers built from a history should answer.  Nothing here
    depends on how they work. *)
From Verif Require Import Go Dawg DawgSpec Dict DictSpec Guide Completer.
Local Open Scope N_scope.

(** A Dawg and a dictionary made from the history [h]. *)
Definition made_dawg (h : list entry) (d : dawg) (us : dict) : Prop :=
  exists size d0 rs unused, size_ok size /\ build size h d0 = Ok (rs, d) /\ dict_BuildWithUnused d = Ok (Some (us, unused)).
(** A dictionary and a guide. *)
Definition made_guide (h : list entry) (us : dict) (g : guide) : Prop :=
  exists d, made_dawg h d us /\ BuildGuide d us = Ok (Some g).

(** The entries whose keys start with [p], in the order of [entries]. *)
Definition with_prefix (p : list N) (es : list entry) : list entry := filter (fun kv => take (length p) kv.1 = p) es.
(** Strictly increasing keys. *)
Definition increasing (es : list entry) : Prop :=
  forall i j a b, (i < j)%nat -> es !! i = Some a -> es !! j = Some b -> kcmp a.1 b.1 = Lt.

(** All that a completer gives from a state, by calling Next until it returns
    false: Key(), Length() and Value() after each call. *)
Inductive outputs (us : dict) (g : guide) : comp -> list (list N * Z * Z) -> Prop :=
| out_end c c' : cp_Next us g c = Ok (false, c') -> outputs us g c []
| out_step c c' v l : cp_Next us g c = Ok (true, c') -> cp_Value us c' = Ok v -> outputs us g c' l ->
    outputs us g c ((cp_Key c', cp_Length c', v) :: l).
(** States reached by calls of Next. *)
Inductive nexts (us : dict) (g : guide) : comp -> comp -> Prop :=
| nx_here c : nexts us g c c
| nx_step c c' c'' b : nexts us g c c' -> cp_Next us g c' = Ok (b, c'') -> nexts us g c c''.
