(** Model of ranked_completer.go, ranked_completer_candidate.go and
    ranked_completer_node.go.  Slices that are cut and grown again have no other
    reader, so they are plain lists; candidates are never changed, so the pointers
    to them are the candidates. *)
From Verif Require Import Go Dawg Dict Guide Ranked Heap.
Local Open Scope N_scope.

(** ranked_completer_node.go:3-9 *)
Record rnode := mkRN { rn_dict : N; rn_prev : N; rn_label : N; rn_queued : bool; rn_term : bool }.
(** ranked_completer_candidate.go:3-6: (nodeIndex, value) *)
Notation cand := (N * Z)%type.
(** ranked_completer_candidate.go:24-29 Less *)
Definition cand_less (a b : cand) : bool := if negb (a.2 =? b.2)%Z then (b.2 <? a.2)%Z else b.1 <? a.1.
(** ranked_completer.go:7-18 *)
Record rcomp := mkRC { rc_path : list N; rc_plen : nat; rc_value : Z; rc_nodes : list rnode; rc_nq : list N; rc_cq : list cand }.
(** ranked_completer.go:20-27 *)
Definition NewRankedCompleter : rcomp := mkRC [] 0 (-1) [] [] [].
(** ranked_completer.go:29-39 Key, Value, Length *)
Definition rc_Key (c : rcomp) : list N := rc_path c.
Definition rc_Value (c : rcomp) : Z := rc_value c.
Definition rc_Length (c : rcomp) : Z := Z.of_nat (length (rc_path c)) - 1.

Section completer.
  Context (us : dict) (g : guide).
  (** ranked_completer.go:171-179 createNode on the nodes *)
  Definition rc_createNode (ns : list rnode) (dictIndex prev label : N) : res (list rnode * N) :=
    has ← (if negb (label =? 0) then dc_HasValue us dictIndex else Ok false);
    Ok (ns ++ [mkRN dictIndex prev label false has], u32 (N.of_nat (length ns))).
  (** ranked_completer.go:111-118 enqueueNode on (nodes, nodeQueue) *)
  Definition rc_enqueueNode (ns : list rnode) (nq : list N) (i : N) : res (list rnode * list N) :=
    x ← get ns i;
    if rn_queued x then Ok (ns, nq) else
    ns ← upd ns i (fun x => mkRN (rn_dict x) (rn_prev x) (rn_label x) true (rn_term x));
    Ok (ns, nq ++ [i]).
  Definition clear_term (x : rnode) : rnode := mkRN (rn_dict x) (rn_prev x) (rn_label x) (rn_queued x) false.
  (** ranked_completer.go:150-163 findTerminal.  The dictionary index decides what
      follows and must be below the number of units. *)
  Fixpoint rc_findTerminal (fuel : nat) (ns : list rnode) (i : N) : res (list rnode * N) :=
    match fuel with
    | O => Hang
    | S fuel' =>
        x ← get ns i;
        if rn_label x =? 0 then Ok (ns, i) else
        l ← gd_Child g (rn_dict x);
        ns ← (if l =? 0 then upd ns i clear_term else Ok ns);
        j ← fwc us (rn_dict x) l;
        '(ns, i) ← rc_createNode ns j i l;
        rc_findTerminal fuel' ns i
    end.
  (** ranked_completer.go:129-147 findSibling: None when false is returned *)
  Definition rc_findSibling (ns : list rnode) (i : N) : res (list rnode * option N) :=
    x ← get ns i;
    l ← gd_Sibling g (rn_dict x);
    p ← get ns (rn_prev x);
    if (l =? 0) && negb (rn_term p) then Ok (ns, None) else
    ns ← (if l =? 0 then upd ns (rn_prev x) clear_term else Ok ns);
    j ← fwc us (rn_dict p) l;
    '(ns, i) ← rc_createNode ns j (rn_prev x) l;
    Ok (ns, Some i).
  (** ranked_completer.go:121-126 enqueueCandidate *)
  Definition rc_enqueueCandidate (ns : list rnode) (cq : list cand) (i : N) : res (list cand) :=
    x ← get ns i;
    u ← get us (rn_dict x);
    hp_Push cand_less cq (i, dictValue u).
  (** ranked_completer.go:74-81: the nodes queued by the previous call; the queue is
      not changed meanwhile *)
  Fixpoint rc_expand (value : Z) (nq : list N) (ns : list rnode) (cq : list cand) : res (list rnode * list cand) :=
    match nq with
    | [] => Ok (ns, cq)
    | i :: nq' =>
        '(ns, o) ← (if negb (value =? -1)%Z then rc_findSibling ns i else Ok (ns, Some i));
        match o with
        | None => rc_expand value nq' ns cq
        | Some i =>
            '(ns, i) ← rc_findTerminal (S (S (length us))) ns i;
            cq ← rc_enqueueCandidate ns cq i;
            rc_expand value nq' ns cq
        end
    end.
  (** ranked_completer.go:96-100: up to node 0.  Nodes come after their parents. *)
  Fixpoint rc_up (fuel : nat) (ns : list rnode) (nq : list N) (path : list N) (i : N) : res (list rnode * list N * list N) :=
    if i =? 0 then Ok (ns, nq, path) else
    match fuel with
    | O => Hang
    | S fuel' =>
        x ← get ns i;
        '(ns, nq) ← rc_enqueueNode ns nq i;
        rc_up fuel' ns nq (path ++ [rn_label x]) (rn_prev x)
    end.
  (** ranked_completer.go:73-108 Next *)
  Definition rc_Next (c : rcomp) : res (bool * rcomp) :=
    '(ns, cq) ← rc_expand (rc_value c) (rc_nq c) (rc_nodes c) (rc_cq c);
    match cq with
    | [] => Ok (false, mkRC (rc_path c) (rc_plen c) (rc_value c) ns [] cq)
    | k :: _ =>
        '(ns, nq) ← rc_enqueueNode ns [] k.1;
        x ← get ns k.1;
        if (Nat.ltb (length (rc_path c)) (rc_plen c)) then Panic else
        '(ns, nq, labels) ← rc_up (length ns) ns nq [] (rn_prev x);
        '(_, cq) ← hp_Pop cand_less cq;
        Ok (true, mkRC (take (rc_plen c) (rc_path c) ++ rev labels ++ [0]) (rc_plen c) k.2 ns nq cq)
    end.
  (** ranked_completer.go:47-63 StartStringLen.  A negative length panics in make, a
      length beyond the prefix at prefix[i]. *)
  Definition rc_StartStringLen (c : rcomp) (index : N) (prefix : list N) (length : Z) : res rcomp :=
    if (length <? 0)%Z then Panic else
    if (Z.of_nat (List.length prefix) <? length)%Z then Panic else
    let path := take (Z.to_nat length) prefix in
    match g with
    | [] => Ok (mkRC path (Z.to_nat length) (-1) [] [] [])
    | _ =>
        '(ns, _) ← rc_createNode [] index 0 88;
        '(ns, nq) ← rc_enqueueNode ns [] 0;
        Ok (mkRC path (Z.to_nat length) (-1) ns nq [])
    end.
  (** ranked_completer.go:44-46 StartString, :41-43 Start *)
  Definition rc_StartString (c : rcomp) (index : N) (prefix : list N) : res rcomp :=
    rc_StartStringLen c index prefix (Z.of_nat (List.length prefix)).
  Definition rc_Start (c : rcomp) (index : N) : res rcomp := rc_StartStringLen c index [] 0.
End completer.
