(** Paths, entries and residuals of ghost trees. *)
From Verif Require Import Go Dawg Tree DawgSpec.
Local Open Scope N_scope.

(** Well-formed edge lists, possibly empty. *)
Definition wfe (es : edges) : Prop := asc es /\
  Forall (fun e => e.1 < 256 /\ (e.1 = 0 <-> is_leaf e.2 = true)) es /\ Forall (fun e => wf e.2) es.
Lemma wf_wfe es : wf (Node es) <-> es <> [] /\ wfe es.
Proof. split; [intros H; by apply wf_node_inv in H|]. intros (? & ? & ? & ?). by constructor. Qed.
Lemma wfe_nil : wfe [].
Proof. split; [constructor|]. by split. Qed.
Lemma wfe_or es : es = [] \/ wf (Node es) -> wfe es.
Proof. intros [->|H%wf_wfe]; [apply wfe_nil|apply H]. Qed.
Lemma wfe_cons e es : wfe (e :: es) -> wfe es /\ wf e.2 /\ e.1 < 256 /\ (e.1 = 0 <-> is_leaf e.2 = true) /\
  Forall (fun e' : N * sub => e.1 < e'.1) es.
Proof.
  intros (H1 & H2 & H3). unfold asc in H1. cbn in H1. apply StronglySorted_inv in H1 as [H1 H4].
  apply Forall_cons in H2 as [[H5 H6] H2]. apply Forall_cons in H3 as [H7 H3].
  split; [done|]. split; [done|]. split; [done|]. split; [done|]. by rewrite Forall_fmap in H4.
Qed.
Lemma wfe_in es e : wfe es -> e ∈ es -> wf e.2 /\ e.1 < 256 /\ (e.1 = 0 <-> is_leaf e.2 = true).
Proof. intros (_ & H2 & H3) He. rewrite Forall_forall in H2, H3. destruct (H2 _ He). split; [by apply H3|done]. Qed.
Lemma wfe_lab es l s s' : wfe es -> (l, s) ∈ es -> (l, s') ∈ es -> s = s'.
Proof.
  induction es as [|e es IH]; intros Hw H H'; [by apply elem_of_nil in H|].
  apply wfe_cons in Hw as (Hw & _ & _ & _ & Hlt). rewrite Forall_forall in Hlt.
  apply elem_of_cons in H, H'. destruct H as [H|H], H' as [H'|H'].
  - congruence.
  - subst e. specialize (Hlt _ H'). cbn in Hlt. lia.
  - subst e. specialize (Hlt _ H). cbn in Hlt. lia.
  - by apply IH.
Qed.
Lemma wfe_kid es l es1 : wfe es -> (l, Node es1) ∈ es -> wfe es1 /\ es1 <> [] /\ l <> 0 /\ l < 256.
Proof.
  intros Hw H. destruct (wfe_in _ _ Hw H) as (H1 & H2 & H3). cbn in *. apply wf_wfe in H1 as [? ?].
  split; [done|]. split; [done|]. split; [|done]. intros ->. discriminate (proj1 H3 eq_refl).
Qed.
Lemma wfe_leaf es l v : wfe es -> (l, Leaf v) ∈ es -> l = 0 /\ v < 2147483648.
Proof.
  intros Hw H. destruct (wfe_in _ _ Hw H) as (H1 & H2 & H3). cbn in *. split; [by apply H3|]. by inversion H1.
Qed.
Lemma wfe_zero es s : wfe es -> (0, s) ∈ es -> exists v, s = Leaf v.
Proof.
  intros Hw H. destruct (wfe_in _ _ Hw H) as (H1 & H2 & H3). cbn in *. destruct s; [eauto|]. discriminate (proj1 H3 eq_refl).
Qed.

(** ** Nodes along a path *)
Inductive tnode : edges -> list N -> edges -> Prop :=
| tn_here es : tnode es [] es
| tn_step es l es1 p es' : (l, Node es1) ∈ es -> tnode es1 p es' -> tnode es (l :: p) es'.
Lemma tnode_fun es p a b : wfe es -> tnode es p a -> tnode es p b -> a = b.
Proof.
  intros Hw H. revert b. induction H as [|es l es1 p es' H1 _ IH]; intros b Hb; inversion Hb; subst; [done|].
  assert (Node es1 = Node es2) as [= <-] by (by eapply wfe_lab).
  apply IH; [|done]. by eapply wfe_kid.
Qed.
Lemma tnode_wf es p a : wfe es -> tnode es p a -> wfe a /\ (p <> [] -> a <> []).
Proof.
  intros Hw H. induction H as [|es l es1 p es' H1 H2 IH]; [done|].
  destruct (wfe_kid _ _ _ Hw H1) as (Hw1 & Hne & _). destruct (IH Hw1) as [Hw' Hp]. split; [done|].
  intros _. destruct p; [|by apply Hp]. inversion H2; by subst.
Qed.
Lemma tnode_app es p a q b : tnode es p a -> tnode a q b -> tnode es (p ++ q) b.
Proof. induction 1; cbn; [done|]. intros. econstructor; eauto. Qed.
Lemma tnode_split es p q b : tnode es (p ++ q) b -> exists a, tnode es p a /\ tnode a q b.
Proof.
  revert es. induction p as [|l p IH]; cbn; intros es H; [exists es; split; [constructor|done]|].
  inversion H; subst. destruct (IH _ H5) as (a & Ha & Hb). exists a. split; [by econstructor|done].
Qed.
Lemma tnode_lab es p a : wfe es -> tnode es p a -> Forall (fun c => 0 < c < 256) p.
Proof.
  intros Hw H. induction H as [|es l es1 p es' H1 H2 IH]; [constructor|].
  destruct (wfe_kid _ _ _ Hw H1) as (Hw1 & Hne & H3 & H4). constructor; [lia|by apply IH].
Qed.

(** ** Entries *)
Lemma elem_ent_es es kv : kv ∈ ent_es es <-> exists e, e ∈ es /\ kv ∈ ent_e e.
Proof.
  unfold ent_es. rewrite elem_of_list_In, in_concat. split.
  - intros (l & Hl & Hkv). apply in_map_iff in Hl as (e & <- & He). exists e. by rewrite !elem_of_list_In.
  - intros (e & He & Hkv). exists (ent_e e). rewrite !elem_of_list_In in *. split; [by apply in_map|done].
Qed.
Lemma ent_in es k v : wfe es -> (k, v) ∈ ent_es es <-> exists es', tnode es k es' /\ (0, Leaf v) ∈ es'.
Proof.
  intros Hw. split.
  - revert es Hw v. induction k as [|c k IH]; intros es Hw v H; apply elem_ent_es in H as ([l s] & He & H);
    unfold ent_e in H; cbn [fst snd] in H; destruct (N.eqb_spec l 0) as [->|Hl].
    + destruct (wfe_zero _ _ Hw He) as [w ->]. cbn in H. apply elem_of_list_singleton in H as [= ->]. exists es. split; [constructor|done].
    + apply elem_of_list_fmap_2 in H as ([k' v'] & H & _). done.
    + destruct (wfe_zero _ _ Hw He) as [w ->]. cbn in H. apply elem_of_list_singleton in H. done.
    + apply elem_of_list_fmap_2 in H as ([k' v'] & H & Hin). cbn in H. injection H as -> -> ->.
      destruct s as [w|es1]; [by apply wfe_leaf in He as [? _]|].
      destruct (wfe_kid _ _ _ Hw He) as (Hw1 & _). destruct (IH es1 Hw1 v' Hin) as (es' & Ht & Hz).
      exists es'. split; [by econstructor|done].
  - intros (es' & Ht & Hz). revert Hw. induction Ht as [es|es l es1 p es' H1 H2 IH]; intros Hw.
    + apply elem_ent_es. exists (0, Leaf v). split; [done|]. cbn. by apply elem_of_list_singleton.
    + destruct (wfe_kid _ _ _ Hw H1) as (Hw1 & _ & Hl & _). apply elem_ent_es. exists (l, Node es1). split; [done|].
      unfold ent_e. cbn [fst snd]. destruct (N.eqb_spec l 0); [done|]. rewrite ent_node.
      apply elem_of_list_fmap. exists (p, v). split; [done|]. by apply IH.
Qed.
Lemma ent_ne s : wf s -> ent s <> [].
Proof.
  induction s as [v|es IH] using sub_ind'; [done|]. intros H%wf_wfe. destruct H as [Hne Hw].
  destruct es as [|[l s] es]; [done|]. rewrite ent_node. unfold ent_es. cbn [map concat].
  apply wfe_cons in Hw as (_ & Hs & _). apply Forall_cons in IH as [IH _]. specialize (IH Hs).
  unfold ent_e. cbn [fst snd] in *. intros [H _]%app_eq_nil. destruct (l =? 0); [done|]. destruct (ent s); done.
Qed.
(** A node has a continuation: some key goes through it. *)
Lemma tnode_key es : wf (Node es) -> exists k es' v, tnode es k es' /\ (0, Leaf v) ∈ es'.
Proof.
  intros H. pose proof (ent_ne _ H) as Hne. apply wf_wfe in H as [_ Hw]. rewrite ent_node in Hne.
  destruct (ent_es es) as [|[k v] l] eqn:E; [done|]. destruct (proj1 (ent_in es k v Hw)) as (es' & ? & ?); [rewrite E; by left|]. eauto.
Qed.

(** ** Residuals *)
Lemma residual_app {V} (l1 l2 : list (list N * V)) p : residual (l1 ++ l2) p = residual l1 p ++ residual l2 p.
Proof. unfold residual. by rewrite omap_app. Qed.
Lemma residual_nil {V} (l : list (list N * V)) : residual l [] = l.
Proof. induction l as [|[k v] l IH]; [done|]. unfold residual in *. cbn. by rewrite IH. Qed.
Lemma residual_step {V} (l : list (list N * V)) c p : residual l (c :: p) = residual (residual l [c]) p.
Proof.
  induction l as [|[k v] l IH]; [done|]. change ((k, v) :: l) with ([(k, v)] ++ l). rewrite !residual_app, IH. f_equal.
  unfold residual. cbn [omap list_omap]. unfold strip. cbn [fst snd length].
  destruct k as [|c' k]; cbn.
  - destruct (decide _); [done|]. destruct (decide _); done.
  - destruct (decide (c' = c)) as [->|Hne].
    + rewrite (decide_True _ _ (eq_refl : [c] = [c])). cbn. unfold strip. cbn.
      rewrite !drop_0. destruct (decide (c :: take (length p) k = c :: p)), (decide (take (length p) k = p)); try done; congruence.
    + destruct (decide _); [congruence|]. destruct (decide _); [congruence|]. done.
Qed.
Lemma residual_one es c : wfe es ->
  (forall es1, (c, Node es1) ∈ es -> residual (ent_es es) [c] = ent_es es1) /\
  ((forall es1, (c, Node es1) ∉ es) -> residual (ent_es es) [c] = []).
Proof.
  induction es as [|[l s] es IH]; intros Hw; [split; [intros es1 H; by apply elem_of_nil in H|done]|].
  apply wfe_cons in Hw as (Hw & Hs & Hb & Hl & Hlt). destruct (IH Hw) as [IH1 IH2]. cbn [fst snd] in *.
  unfold ent_es. cbn [map concat]. fold (ent_es es). rewrite residual_app.
  destruct s as [v|es1].
  - assert (l = 0) as -> by (by apply Hl). assert (residual (ent_e (0, Leaf v)) [c] = []) as -> by done. cbn [app]. split.
    + intros es1 H. apply IH1. apply elem_of_cons in H as [?|?]; [done|done].
    + intros H. apply IH2. intros es1 H'. apply (H es1). by right.
  - assert (l <> 0) as Hnz by (intros ->; discriminate (proj1 Hl eq_refl)). unfold ent_e. cbn [fst snd].
    destruct (N.eqb_spec l 0) as [|_]; [done|]. rewrite ent_node.
    assert (Hm : residual (map (fun kv : list N * N => (l :: kv.1, kv.2)) (ent_es es1)) [c] = if decide (l = c) then ent_es es1 else []).
    { clear. induction (ent_es es1) as [|[k v] L IH]; [by destruct (decide _)|]. unfold residual in *. cbn in *.
      unfold strip in *. cbn in *. rewrite IH. destruct (decide (l = c)) as [->|H].
      - destruct (decide _); [|done]. cbn. done.
      - destruct (decide _); [congruence|done]. }
    rewrite Hm. split.
    + intros es2 [H|H]%elem_of_cons.
      * injection H as -> ->. rewrite decide_True by done. rewrite IH2, app_nil_r; [done|].
        intros es2 H2. rewrite Forall_forall in Hlt. specialize (Hlt _ H2). cbn in Hlt. lia.
      * rewrite Forall_forall in Hlt. specialize (Hlt _ H). cbn in Hlt. rewrite decide_False by lia. by apply IH1.
    + intros H. rewrite decide_False by (intros ->; by apply (H es1); left). apply IH2. intros es2 H2. apply (H es2). by right.
Qed.
Lemma residual_tnode es p es' : wfe es -> tnode es p es' -> residual (ent_es es) p = ent_es es'.
Proof.
  intros Hw H. induction H as [|es l es1 p es' H1 H2 IH]; [apply residual_nil|].
  rewrite residual_step. destruct (residual_one es l Hw) as [H _]. rewrite (H _ H1). apply IH. by eapply wfe_kid.
Qed.
Lemma residual_none es p : wfe es -> residual (ent_es es) p <> [] -> exists es', tnode es p es'.
Proof.
  revert es. induction p as [|c p IH]; intros es Hw H; [exists es; constructor|].
  rewrite residual_step in H. destruct (residual_one es c Hw) as [H1 H2].
  assert (Hd : (exists es1, (c, Node es1) ∈ es) \/ (forall es1, (c, Node es1) ∉ es)).
  { clear. induction es as [|[l s] es IH]; [right; intros es1 H; by apply elem_of_nil in H|].
    destruct IH as [[es1 H]|H]; [left; exists es1; by right|].
    destruct (decide (l = c)) as [->|Hne]; [destruct s as [v|es1]|].
    - right. intros es1 [H'|H']%elem_of_cons; [done|]. by apply (H es1).
    - left. exists es1. by left.
    - right. intros es1 [H'|H']%elem_of_cons; [congruence|]. by apply (H es1). }
  destruct Hd as [[es1 Hin]|Hno].
  - rewrite (H1 _ Hin) in H. destruct (IH es1) as [es' Ht]; [by eapply wfe_kid|done|]. exists es'. by econstructor.
  - rewrite (H2 Hno) in H. done.
Qed.

(** Entries determine the tree. *)
Lemma asc_eq (es es' : edges) : asc es -> asc es' -> (forall e, e ∈ es <-> e ∈ es') -> es = es'.
Proof.
  unfold asc. revert es'. induction es as [|[l s] es IH]; intros [|[l' s'] es'] H H' Heq.
  - done.
  - exfalso. by apply (elem_of_nil (l', s')), Heq; left.
  - exfalso. by apply (elem_of_nil (l, s)), Heq; left.
  - cbn in H, H'. apply StronglySorted_inv in H as [H Hlt], H' as [H' Hlt'].
    rewrite Forall_fmap in Hlt, Hlt'. rewrite Forall_forall in Hlt, Hlt'.
    assert (H1 : (l, s) = (l', s')).
    { assert (Ha : (l, s) ∈ (l', s') :: es') by (apply Heq; by left).
      assert (Hb : (l', s') ∈ (l, s) :: es) by (apply Heq; by left).
      apply elem_of_cons in Ha as [?|Ha]; [done|]; apply elem_of_cons in Hb as [?|Hb]; [done|].
      specialize (Hlt _ Hb); specialize (Hlt' _ Ha); cbn in *; lia. }
    injection H1 as <- <-. f_equal. apply IH; [done|done|]. intros e. specialize (Heq e). rewrite !elem_of_cons in Heq.
    split; intros He.
    + destruct (proj1 Heq (or_intror He)) as [->|?]; [|done]. specialize (Hlt _ He). cbn in Hlt. lia.
    + destruct (proj2 Heq (or_intror He)) as [->|?]; [|done]. specialize (Hlt' _ He). cbn in Hlt'. lia.
Qed.
Lemma ent_inj s : forall s', is_leaf s = is_leaf s' -> wf s -> wf s' -> ent s = ent s' -> s = s'.
Proof.
  induction s as [v|es IH] using sub_ind'; intros [v'|es'] Hl Hs Hs' He; try done.
  - cbn in He. congruence.
  - f_equal. rewrite !ent_node in He. apply wf_wfe in Hs as [Hne Hw], Hs' as [Hne' Hw'].
    apply asc_eq; [apply Hw|apply Hw'|]. rewrite Forall_forall in IH.
    assert (Hdir : forall A B, wfe A -> wfe B -> ent_es A = ent_es B ->
       (forall l e1 e2, (l, Node e1) ∈ A -> (l, Node e2) ∈ B -> ent (Node e1) = ent (Node e2) -> Node e1 = Node e2) -> forall e, e ∈ A -> e ∈ B).
    { clear. intros A B HA HB He H [l s] Hin. destruct s as [v|es1].
      - apply wfe_leaf in Hin as Hv; [|done]. destruct Hv as [-> _].
        assert (([], v) ∈ ent_es A) as Hv by (apply ent_in; [done|]; exists A; split; [constructor|done]).
        rewrite He in Hv. apply ent_in in Hv as (B' & Ht & Hz); [|done]. inversion Ht; by subst.
      - destruct (wfe_kid _ _ _ HA Hin) as (Hw1 & Hne1 & _). pose proof (residual_tnode A [l] es1 HA) as Hr.
        rewrite He in Hr. assert (Ht : tnode A [l] es1) by (econstructor; [done|constructor]). specialize (Hr Ht).
        assert (Hne : ent_es es1 <> []) by (apply (ent_ne (Node es1)); by apply wf_wfe).
        destruct (residual_none B [l] HB) as (es2 & Ht2); [by rewrite Hr|].
        rewrite (residual_tnode B [l] es2 HB Ht2) in Hr. inversion Ht2 as [|? ? es3 ? ? Hin2 Ht3]; subst. inversion Ht3; subst.
        rewrite (H l es1 es2 Hin Hin2); [done|]. by rewrite !ent_node. }
    assert (Hk : forall A l e1, wfe A -> (l, Node e1) ∈ A -> wf (Node e1)).
    { intros A l e1 HA Hin. apply (wfe_in _ _ HA Hin). }
    intros e. split; [apply Hdir; try done|apply Hdir; try done].
    + intros l e1 e2 H1 H2 H3. apply (IH _ H1); [done|by apply (Hk es l)|by apply (Hk es' l)|done].
    + intros l e1 e2 H1 H2 H3. symmetry. apply (IH _ H2); [done|by apply (Hk es l)|by apply (Hk es' l)|done].
Qed.

(** ** Enumerations *)
Fixpoint pn (s : sub) : list (list N * edges) :=
  match s with
  | Leaf _ => []
  | Node es => ([], es) :: concat (map (fun e => map (fun q => (e.1 :: q.1, q.2)) (pn e.2)) es)
  end.
Fixpoint ep (s : sub) : list (list N) :=
  match s with
  | Leaf _ => []
  | Node es => concat (map (fun e => map (cons e.1) ([] :: ep e.2)) es)
  end.
Lemma elem_concat_map {A B} (f : A -> list B) l b : b ∈ concat (map f l) <-> exists a, a ∈ l /\ b ∈ f a.
Proof.
  rewrite elem_of_list_In, in_concat. split.
  - intros (x & Hx & Hb). apply in_map_iff in Hx as (a & <- & Ha). exists a. by rewrite !elem_of_list_In.
  - intros (a & Ha & Hb). exists (f a). rewrite !elem_of_list_In in *. split; [by apply in_map|done].
Qed.
Lemma pn_in s p es' : (p, es') ∈ pn s -> exists es, s = Node es /\ tnode es p es'.
Proof.
  revert p. induction s as [v|es IH] using sub_ind'; intros p H; cbn [pn] in H; [by apply elem_of_nil in H|].
  exists es. split; [done|]. apply elem_of_cons in H as [[= -> ->]|H]; [constructor|].
  apply elem_concat_map in H as ([l s] & He & H). apply elem_of_list_fmap_2 in H as ([q es2] & [= -> ->] & H). cbn in *.
  rewrite Forall_forall in IH. destruct (IH _ He q H) as (es1 & Hs & Ht). cbn in Hs. subst s. by econstructor.
Qed.
Lemma tnode_pn es p es' : tnode es p es' -> (p, es') ∈ pn (Node es).
Proof.
  induction 1 as [|es l es1 p es' H1 H2 IH]; cbn [pn]; [by left|]. right. apply elem_concat_map. exists (l, Node es1).
  split; [done|]. apply elem_of_list_fmap. exists (p, es'). done.
Qed.
Lemma NoDup_heads (es : edges) (f : sub -> list (list N)) : wfe es ->
  (forall e, e ∈ es -> NoDup (f e.2)) -> NoDup (concat (map (fun e => map (cons e.1) (f e.2)) es)).
Proof.
  induction es as [|e es IH]; intros Hw Hf; [constructor|]. cbn [map concat].
  apply wfe_cons in Hw as (Hw & _ & _ & _ & Hlt). rewrite Forall_forall in Hlt. apply NoDup_app. split; [|split].
  - apply NoDup_fmap_2; [intros ? ? ?; congruence|]. apply Hf. by left.
  - intros p Hp H. apply elem_of_list_fmap_2 in Hp as (q & -> & _). apply elem_concat_map in H as (e' & He & H).
    apply elem_of_list_fmap_2 in H as (q' & [= H _] & _). specialize (Hlt _ He). lia.
  - apply IH; [done|]. intros e' He'. apply Hf. by right.
Qed.
Lemma pn_nodup s : wf s -> NoDup (pn s).*1.
Proof.
  induction s as [v|es IH] using sub_ind'; intros Hs; cbn [pn]; [constructor|]. apply wf_wfe in Hs as [_ Hw]. cbn.
  assert (Hc : (concat (map (fun e : N * sub => map (fun q : list N * edges => (e.1 :: q.1, q.2)) (pn e.2)) es)).*1 =
               concat (map (fun e => map (cons e.1) ((fun s => (pn s).*1) e.2)) es)).
  { clear. induction es as [|e es IH]; [done|]. cbn [map concat]. rewrite fmap_app, IH. f_equal.
    induction (pn e.2) as [|q L IHL]; [done|]. cbn. by f_equal. }
  rewrite Hc. constructor.
  - rewrite elem_concat_map. intros (e & _ & H). by apply elem_of_list_fmap_2 in H as (q & ? & _).
  - apply (NoDup_heads es (fun s => (pn s).*1)); [done|]. intros e He. rewrite Forall_forall in IH. apply IH; [done|]. by apply (wfe_in _ _ Hw He).
Qed.
Lemma ep_length s : length (ep s) = nedges s.
Proof.
  induction s as [v|es IH] using sub_ind'; [done|]. cbn [ep nedges]. induction IH as [|e es He _ IH]; [done|].
  cbn in IH |- *. rewrite app_length, map_length. unfold mbind in *. rewrite IH. lia.
Qed.
Lemma ep_nonnil s : [] ∉ ep s.
Proof. destruct s; cbn [ep]; [apply not_elem_of_nil|]. rewrite elem_concat_map. intros (e & _ & H). by apply elem_of_list_fmap_2 in H as (q & ? & _). Qed.
Lemma ep_nodup s : wf s -> NoDup (ep s).
Proof.
  induction s as [v|es IH] using sub_ind'; intros Hs; cbn [ep]; [constructor|]. apply wf_wfe in Hs as [_ Hw].
  apply (NoDup_heads es (fun s => [] :: ep s)); [done|]. intros e He. constructor; [apply ep_nonnil|].
  rewrite Forall_forall in IH. apply IH; [done|]. by apply (wfe_in _ _ Hw He).
Qed.
Lemma ep_in s p : wf s -> p ∈ ep s <->
  p <> [] /\ exists es, s = Node es /\ exists k v, (k, v) ∈ ent_es es /\ p `prefix_of` k ++ [0].
Proof.
  revert p. induction s as [v|es IH] using sub_ind'; intros p Hs; cbn [ep].
  - split; [intros H; by apply elem_of_nil in H|]. intros (_ & es & ? & _). done.
  - apply wf_wfe in Hs as [_ Hw]. rewrite Forall_forall in IH. rewrite elem_concat_map. split.
    + intros ([l s] & He & H). apply elem_of_list_fmap_2 in H as (q & -> & H). split; [done|]. exists es. split; [done|].
      cbn [fst snd] in *. destruct s as [v|es1].
      * destruct (wfe_leaf _ _ _ Hw He) as [-> Hv]. cbn in H. apply elem_of_list_singleton in H as ->.
        exists [], v. split; [|done]. apply ent_in; [done|]. exists es. split; [constructor|done].
      * assert (Hw1 : wf (Node es1)) by apply (wfe_in _ _ Hw He).
        assert (H' : exists k v, (k, v) ∈ ent_es es1 /\ q `prefix_of` k ++ [0]).
        { apply elem_of_cons in H as [->|H].
          - destruct (tnode_key _ Hw1) as (k & es' & v & Ht & Hz). exists k, v. split; [apply ent_in; [by apply wf_wfe|eauto]|].
            apply prefix_nil.
          - apply (IH _ He q Hw1) in H as (_ & es2 & [= <-] & H). done. }
        destruct H' as (k & v & Hk & Hq). exists (l :: k), v. split; [|by apply prefix_cons].
        apply wf_wfe in Hw1 as [_ Hw1]. apply ent_in in Hk as (es' & Ht & Hz); [|done].
        apply ent_in; [done|]. exists es'. split; [by econstructor|done].
    + intros (Hp & es0 & [= <-] & k & v & Hk & Hpre). apply ent_in in Hk as (es' & Ht & Hz); [|done].
      destruct p as [|c p]; [done|]. destruct Ht as [es|es l es1 k es' Hin Ht].
      * cbn in Hpre. apply prefix_cons_inv_1 in Hpre as Hc. apply prefix_cons_inv_2 in Hpre. subst c.
        apply prefix_nil_inv in Hpre as ->. exists (0, Leaf v). split; [done|]. cbn. by left.
      * cbn in Hpre. apply prefix_cons_inv_1 in Hpre as Hc. apply prefix_cons_inv_2 in Hpre. subst c.
        exists (l, Node es1). split; [done|]. apply elem_of_list_fmap. exists p. split; [done|].
        destruct p as [|c p]; [by left|]. right. assert (Hw1 : wf (Node es1)) by apply (wfe_in _ _ Hw Hin).
        apply (IH _ Hin); [done|]. split; [done|]. exists es1. split; [done|]. exists k, v. split; [|done].
        apply wf_wfe in Hw1 as [_ Hw1]. apply ent_in; [done|]. eauto.
Qed.
