(** Ghost trees: the trie held by a builder, a Dawg or a dictionary.  Used in
    proofs only; the user-level specification is in DawgSpec.v. *)
From Coq Require Export Sorted.
From Verif Require Import Go.
Local Open Scope N_scope.

(** A value at the end of a key (reached by label 0), or a node with its
    outgoing edges in increasing order of labels. *)
Inductive sub := Leaf (v : N) | Node (es : list (N * sub)).
Notation edges := (list (N * sub)).

Definition sub_ind' (P : sub -> Prop) (Hl : forall v, P (Leaf v))
  (Hn : forall es, Forall (fun e => P e.2) es -> P (Node es)) : forall s, P s :=
  fix go s := match s with
              | Leaf v => Hl v
              | Node es => Hn es ((fix gol (l : edges) : Forall (fun e => P e.2) l :=
                  match l with [] => Forall_nil_2 _ | e :: l' => Forall_cons_2 _ _ _ (go e.2) (gol l') end) es)
              end.

Fixpoint sub_eqb (x y : sub) {struct x} : bool :=
  match x, y with
  | Leaf a, Leaf b => a =? b
  | Node es, Node es' =>
      (fix gol (l l' : edges) {struct l} : bool :=
        match l, l' with
        | [], [] => true
        | e :: l, e' :: l' => (e.1 =? e'.1) && sub_eqb e.2 e'.2 && gol l l'
        | _, _ => false
        end) es es'
  | _, _ => false
  end.
Lemma sub_eqb_eq x : forall y, sub_eqb x y = true <-> x = y.
Proof.
  induction x as [a|es IH] using sub_ind'; intros [b|es']; cbn [sub_eqb]; try (split; congruence).
  - rewrite N.eqb_eq. split; congruence.
  - transitivity (es = es'); [|split; congruence]. revert es'.
    induction IH as [|[l s] es Hs IH IH2]; intros [|[l' s'] es']; try (split; congruence).
    rewrite !andb_true_iff, IH2, N.eqb_eq. cbn [fst snd] in *. rewrite Hs. split; [intros [[-> ->] ->]; done|].
    intros H; by simplify_eq.
Qed.
Global Instance sub_eq_dec : EqDecision sub.
Proof.
  intros x y. destruct (sub_eqb x y) eqn:E.
  - left. by apply sub_eqb_eq.
  - right. intros ->. assert (sub_eqb y y = true) by (by apply sub_eqb_eq). congruence.
Defined.

Definition is_leaf (s : sub) : bool := match s with Leaf _ => true | Node _ => false end.

(** Labels strictly increasing. *)
Definition asc (es : edges) : Prop := StronglySorted N.lt es.*1.

(** Well-formed trees: nodes are non-empty, labels are increasing bytes, label 0
    leads to leaves and only it does; values have 31 bits. *)
Inductive wf : sub -> Prop :=
| wf_leaf v : v < 2147483648 -> wf (Leaf v)
| wf_node es : es <> [] -> asc es ->
    Forall (fun e => e.1 < 256 /\ (e.1 = 0 <-> is_leaf e.2 = true)) es ->
    Forall (fun e => wf e.2) es -> wf (Node es).

Lemma wf_node_inv es : wf (Node es) ->
  es <> [] /\ asc es /\ Forall (fun e => e.1 < 256 /\ (e.1 = 0 <-> is_leaf e.2 = true)) es /\
  Forall (fun e => wf e.2) es.
Proof. inversion 1; subst. done. Qed.

(** Edges of a tree (terminators included). *)
Fixpoint nedges (s : sub) : nat :=
  match s with Leaf _ => 0 | Node es => sum_list_with (fun e => S (nedges e.2)) es end.
Definition nedges_es (es : edges) : nat := sum_list_with (fun e => S (nedges e.2)) es.

(** The entries of a tree, in order. *)
Fixpoint ent (s : sub) : list (list N * N) :=
  match s with
  | Leaf v => [([], v)]
  | Node es => concat (map (fun e => if e.1 =? 0 then ent e.2
                                     else map (fun kv => (e.1 :: kv.1, kv.2)) (ent e.2)) es)
  end.
Definition ent_e (e : N * sub) : list (list N * N) :=
  if e.1 =? 0 then ent e.2 else map (fun kv => (e.1 :: kv.1, kv.2)) (ent e.2).
Definition ent_es (es : edges) : list (list N * N) := concat (map ent_e es).
Lemma ent_node es : ent (Node es) = ent_es es.
Proof. done. Qed.
