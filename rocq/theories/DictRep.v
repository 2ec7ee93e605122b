(** A dictionary seen as a tree: which unit is which node. *)
From Verif Require Import Go Dawg Tree TreeFacts Dict DictInv DictBuild DictRead.
Local Open Scope N_scope.
Local Ltac Zify.zify_post_hook ::= Z.div_mod_to_equations.
Local Arguments N.mul : simpl never.
Local Arguments N.add : simpl never.
Local Arguments N.of_nat : simpl never.
Local Arguments N.lxor : simpl never.

(** [node i es]: unit [i] is a node with edges [es]. *)
Record drep (us : dict) (R : edges) (node : N -> edges -> Prop) : Prop := mkDR {
  rp_root : node 0 R;
  rp_fun : forall i es es', node i es -> node i es' -> es = es';
  rp_wf : forall i es, node i es -> wf (Node es);
  rp_lt : forall i es, node i es -> i < N.of_nat (length us);
  rp_blk : exists nb, length us = (256 * nb)%nat;
  rp_lim : N.of_nat (length us) <= 536870912;
  rp_has : forall i es, node i es -> dc_HasValue us i = Ok (has0 es);
  rp_val : forall i es v, node i es -> (0, Leaf v) ∈ es -> dc_Value us i = Ok (Z.of_N v);
  rp_kid : forall i es l es', node i es -> (l, Node es') ∈ es -> exists j, dc_Follow us l i = Ok (true, j) /\ node j es' /\ j <> 0;
  (** a unit is below one set of edges only *)
  rp_up : forall i es l es1 j i' es' l' es1', node i es -> (l, Node es1) ∈ es -> dc_Follow us l i = Ok (true, j) ->
    node i' es' -> (l', Node es1') ∈ es' -> dc_Follow us l' i' = Ok (true, j) -> es = es' /\ l = l';
  rp_reach : forall i es, node i es -> exists p, tnode R p es /\ dc_FollowString us p 0 = Ok (true, i);
  (** the unit of a value *)
  rp_leaf : forall i es v, node i es -> (0, Leaf v) ∈ es -> exists u, us !! N.to_nat i = Some u /\
    us !! N.to_nat (N.lxor i (dictOffset u)) = Some (dictSetValue (Z.of_N v)) /\ (forall es', ~ node (N.lxor i (dictOffset u)) es');
  rp_leaf_up : forall i es v u i' es' v' u', node i es -> (0, Leaf v) ∈ es -> us !! N.to_nat i = Some u ->
    node i' es' -> (0, Leaf v') ∈ es' -> us !! N.to_nat i' = Some u' ->
    N.lxor i (dictOffset u) = N.lxor i' (dictOffset u') -> es = es' }.

Lemma Follow_inv us l i j u : us !! N.to_nat i = Some u -> dc_Follow us l i = Ok (true, j) -> j = N.lxor (N.lxor i (dictOffset u)) l.
Proof.
  intros Hu. unfold dc_Follow, get. rewrite Hu. cbn [mbind res_bind]. cbv zeta. destruct (us !! N.to_nat (N.lxor (N.lxor i (dictOffset u)) l)); cbn [mbind res_bind]; [|done].
  destruct (negb _); congruence.
Qed.
Lemma binv_drep b nb R asg ff : binv b nb (nb - 16) (256 * N.of_nat nb) R asg [] ff -> drep (db_units b) R (dn R asg).
Proof.
  intros HB. pose proof (bi_u _ _ _ _ _ _ _ _ HB) as U. constructor.
  - apply dn_root.
  - intros i es es' [l H] [l' H']. by destruct (@ndp_fun _ _ _ _ _ _ _ _ U _ _ _ _ _ H H').
  - apply (dn_wf _ _ _ _ _ HB).
  - intros i es H. destruct (dn_unit _ _ _ _ _ HB _ _ H) as (u & Hu & _). apply lookup_lt_Some in Hu. lia.
  - exists nb. apply (us_len _ _ _ _ _ HB).
  - rewrite (us_len _ _ _ _ _ HB). pose proof (DictX.xi_lim _ _ _ (bi_x _ _ _ _ _ _ _ _ HB)). lia.
  - apply (HasValue_dn _ _ _ _ _ HB).
  - apply (Value_dn _ _ _ _ _ HB).
  - intros i es l es' H Hl. destruct (Follow_hit _ _ _ _ _ HB _ _ _ _ H Hl) as (j & Hf & Hj). exists j. split; [done|]. split; [done|].
    destruct (dn_unit _ _ _ _ _ HB _ _ H) as (u & Hu & _ & _ & Ha). rewrite (Follow_inv _ _ _ _ _ Hu Hf).
    by apply (u_root _ _ _ _ _ _ _ _ U _ _ _ _ Ha Hl).
  - intros i es l es1 j i' es' l' es1' H Hl Hf H' Hl' Hf'. destruct (dn_unit _ _ _ _ _ HB _ _ H) as (u & Hu & _ & _ & Ha).
    destruct (dn_unit _ _ _ _ _ HB _ _ H') as (u' & Hu' & _ & _ & Ha'). apply (Follow_inv _ _ _ _ _ Hu) in Hf. apply (Follow_inv _ _ _ _ _ Hu') in Hf'.
    subst j. pose proof (u_disj _ _ _ _ _ _ _ _ U _ _ _ _ _ _ _ _ Ha Hl Ha' Hl' Hf') as E. rewrite <- E in Ha', Hf'.
    apply lxor_inj_l in Hf'. split; [|done]. eapply asg_fun; [apply U|exact Ha|exact Ha'].
  - apply (reach_dn _ _ _ _ _ HB).
  - intros i es v H Hv. destruct (dn_unit _ _ _ _ _ HB _ _ H) as (u & Hu & _ & _ & Ha). exists u. split; [done|].
    split; [by apply (dn_val _ _ _ _ _ HB _ _ es)|]. intros es' [l Hn]. by apply (@ndp_leaf_ne _ _ _ _ _ _ _ _ U _ _ _ _ _ _ Hn Ha Hv).
  - intros i es v u i' es' v' u' H Hv Hu H' Hv' Hu' E.
    destruct (dn_unit _ _ _ _ _ HB _ _ H) as (w & Hw & _ & _ & Ha). destruct (dn_unit _ _ _ _ _ HB _ _ H') as (w' & Hw' & _ & _ & Ha').
    rewrite Hu in Hw. rewrite Hu' in Hw'. injection Hw as <-. injection Hw' as <-. rewrite E in Ha. eapply asg_fun; [apply U|exact Ha|exact Ha'].
Qed.

(** Non-zero labels, in order, and the one after a label. *)
Notation nzl es := (filter (fun l : N => l <> 0) (fst <$> (es : edges))).
Fixpoint nxt (l : N) (ls : list N) : N :=
  match ls with [] => 0 | a :: rest => if a =? l then hd 0 rest else nxt l rest end.
