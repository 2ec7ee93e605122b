(** What ranked guides and ranked completers built from a history should answer.
    Nothing here depends on how they work. *)
From Verif Require Import Go Dawg DawgSpec Dict DictSpec Guide GuideSpec Ranked RankedCompleter.
Local Open Scope N_scope.

(** A dictionary and a ranked guide made with a comparator; any implementation of
    sort.SliceStable. *)
Definition made_ranked (cmp : Z -> Z -> bool) (h : list entry) (us : dict) (g : guide) : Prop :=
  exists d sort, sorter sort /\ made_dawg h d us /\ BuildRankedGuideCmp sort cmp d us = Ok (Some g).
(** BuildRankedGuide *)
Definition made_default (h : list entry) (us : dict) (g : guide) : Prop :=
  exists d sort, sorter sort /\ made_dawg h d us /\ BuildRankedGuide sort d us = Ok (Some g).

(** All that a ranked completer gives from a state, by calling Next until it
    returns false: Key(), Length() and Value() after each call. *)
Inductive routputs (us : dict) (g : guide) : rcomp -> list (list N * Z * Z) -> Prop :=
| rout_end c c' : rc_Next us g c = Ok (false, c') -> routputs us g c []
| rout_step c c' l : rc_Next us g c = Ok (true, c') -> routputs us g c' l ->
    routputs us g c ((rc_Key c', rc_Length c', rc_Value c') :: l).
(** States reached by calls of Next. *)
Inductive rnexts (us : dict) (g : guide) : rcomp -> rcomp -> Prop :=
| rnx_here c : rnexts us g c c
| rnx_step c c' c'' b : rnexts us g c c' -> rc_Next us g c' = Ok (b, c'') -> rnexts us g c c''.

(** Values in the order of a comparator: none is before a better one. *)
Definition ranked (cmp : Z -> Z -> bool) (vs : list Z) : Prop := forall i j v w, (i < j)%nat -> vs !! i = Some v -> vs !! j = Some w -> cmp v w = false.
(** Comparators that order the values completely. *)
Definition total_order (cmp : Z -> Z -> bool) : Prop :=
  (forall a, cmp a a = false) /\ (forall a b c, cmp a b = true -> cmp b c = true -> cmp a c = true) /\ (forall a b, a <> b -> cmp a b = true \/ cmp b a = true).
