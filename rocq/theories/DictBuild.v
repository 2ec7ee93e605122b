(** buildDictionaryIndices keeps the invariant of the dictionary builder. *)
From Verif Require Import Go BitPool LinkTable LinkTableProofs Dawg DawgRep Tree TreeFacts DawgFrozen DawgAbs DawgNav Dict DictUnit DictX DictGrow DictInv DictPlace.
Local Open Scope N_scope.
Local Ltac Zify.zify_post_hook ::= Z.div_mod_to_equations.
Local Arguments N.mul : simpl never.
Local Arguments N.add : simpl never.
Local Arguments N.of_nat : simpl never.
Local Arguments N.lxor : simpl never.

(** The units of the children of [es] that are nodes. *)
Definition kids (o : N) (es : edges) : list N :=
  omap (fun e => match e.2 with Node _ => Some (N.lxor o e.1) | Leaf _ => None end) es.
Lemma kids_in o es i : i ∈ kids o es <-> exists l es', (l, Node es') ∈ es /\ i = N.lxor o l.
Proof.
  unfold kids. rewrite elem_of_list_omap. split.
  - intros ([l [v|es']] & Hin & He); cbn in He; [done|]. injection He as <-. eauto.
  - intros (l & es' & Hin & ->). exists (l, Node es'). done.
Qed.
Lemma kids_nodup o es : wfe es -> NoDup (kids o es).
Proof.
  induction es as [|[l s] es IH]; intros Hw; [apply NoDup_nil_2|]. apply wfe_cons in Hw as (Hw & _ & _ & _ & Hall).
  unfold kids. cbn. destruct s as [v|es']; [by apply IH|]. apply NoDup_cons. split; [|by apply IH].
  fold (kids o es). rewrite kids_in. intros (l' & es2 & Hin & Heq). apply lxor_inj_l in Heq as ->.
  rewrite Forall_forall in Hall. apply Hall in Hin. cbn in Hin. lia.
Qed.

Section ui.
  Context {us : list N} {x : N -> option extra} {nb : nat} {fr : N} {R : edges} {asg : list (N * edges)} {pd ff : list N}.
  Hypothesis HU : uinv us x nb fr R asg pd ff.

  Lemma asg_wfe o es : (o, es) ∈ asg -> wfe es.
  Proof using HU. intros H. apply (u_asg _ _ _ _ _ _ _ _ HU) in H as (_ & _ & H & _). by apply wf_wfe in H as [_ ?]. Qed.
  Lemma ndp_wf i l es : ndp R asg i l es -> wf (Node es) /\ exists p, tnode R p es.
  Proof using HU.
    intros [(-> & -> & ->)|(o & es' & H1 & H2 & ->)].
    - split; [apply HU|]. exists []. constructor.
    - pose proof (asg_wfe _ _ H1) as Hw. destruct (wfe_in _ _ Hw H2) as (Hw' & _). split; [done|].
      destruct (u_asg _ _ _ _ _ _ _ _ HU _ _ H1) as (_ & _ & _ & p & Hp). exists (p ++ [l]). eapply tnode_app; [done|].
      econstructor; [done|constructor].
  Qed.
  Lemma ndp_fun i l es l' es' : ndp R asg i l es -> ndp R asg i l' es' -> l = l' /\ es = es'.
  Proof using HU.
    intros [(-> & -> & ->)|(o & e1 & H1 & H2 & ->)] [(E & -> & ->)|(o' & e2 & H1' & H2' & E)].
    - done.
    - exfalso. by apply (u_root _ _ _ _ _ _ _ _ HU _ _ _ _ H1' H2').
    - exfalso. by apply (u_root _ _ _ _ _ _ _ _ HU _ _ _ _ H1 H2).
    - assert (o = o') as <- by (by eapply (u_disj _ _ _ _ _ _ _ _ HU)).
      apply lxor_inj_l in E as <-. split; [done|].
      assert (e1 = e2) as <- by (eapply asg_fun; [apply HU|done|done]).
      assert (Node es = Node es') as [= ->]; [|done]. eapply wfe_lab; [by eapply asg_wfe|done|done].
  Qed.
  Lemma ndp_leaf_ne i l es o es' v : ndp R asg i l es -> (o, es') ∈ asg -> (0, Leaf v) ∈ es' -> i <> o.
  Proof using HU.
    intros Hn Ho Hv ->. destruct Hn as [(-> & -> & ->)|(o' & e & H1 & H2 & E)].
    - by apply (u_asg _ _ _ _ _ _ _ _ HU) in Ho as [? _].
    - assert (o' = o) as ->.
      { eapply (u_disj _ _ _ _ _ _ _ _ HU _ _ _ _ _ _ _ _ H1 H2 Ho Hv). by rewrite N.lxor_0_r, E. }
      assert (l = 0) as ->. { rewrite <- (N.lxor_0_r o) in E at 1. by apply lxor_inj_l in E. }
      apply wfe_kid in H2 as (_ & _ & ? & _); [done|by eapply asg_wfe].
  Qed.
  Lemma ndp_cons i l es a : ndp R (a :: asg) i l es -> ndp R asg i l es \/ (l, Node es) ∈ a.2 /\ i = N.lxor a.1 l.
  Proof.
    intros [?|(o & e & H1 & H2 & ->)]; [by left; left|]. apply elem_of_cons in H1 as [<-|H1]; [by right|].
    left. right. eauto.
  Qed.
  Lemma ndp_mono i l es a : ndp R asg i l es -> ndp R (a :: asg) i l es.
  Proof. intros [?|(o & e & H1 & H2 & ->)]; [by left|]. right. exists o, e. split; [by constructor|done]. Qed.
End ui.

(** A pending unit may change, but for its label and its leaf bits. *)
Lemma pend_change us x nb fr R asg pd ff idx u u' : uinv us x nb fr R asg pd ff -> idx ∈ pd -> us !! N.to_nat idx = Some u ->
  u' < two32 -> dictLabel u' = dictLabel u -> dictIsLeaf u' = dictIsLeaf u -> dictHasLeaf u' = dictHasLeaf u ->
  uinv (<[N.to_nat idx := u']> us) x nb fr R asg pd ff.
Proof.
  intros HU Hin Hu Hlt Hl Hi Hh. destruct (proj2 (u_pd _ _ _ _ _ _ _ _ HU) _ Hin) as (l0 & es0 & Hn0).
  pose proof (ndp_owned _ _ _ _ _ Hn0) as Hown.
  pose proof (fun i l es o es' v => @ndp_leaf_ne us x nb fr R asg pd ff HU i l es o es' v) as Hlne.
  destruct HU as [u_R0 u_lt0 u_free0 u_used0 u_cls0 u_ff0 u_ffnd0 u_asg0 u_nodup0 u_disj0 u_root0 u_leaf0 u_nd0 u_par0 u_pd0].
  constructor; try done.
  - apply Forall_insert; done.
  - intros i Hf. destruct (u_free0 i Hf) as (? & ? & ?). assert (i <> idx) by (by intros ->).
    rewrite list_lookup_insert_ne by lia. done.
  - intros i Hf. destruct (u_ff0 i Hf) as (? & ? & ?). assert (i <> idx) by (by intros ->).
    rewrite list_lookup_insert_ne by lia. done.
  - intros o es v Ho Hv. pose proof (Hlne _ _ _ _ _ _ Hn0 Ho Hv). rewrite list_lookup_insert_ne by lia. by eapply u_leaf0.
  - intros i l es Hn. destruct (decide (i = idx)) as [->|Hne].
    + destruct (u_nd0 _ _ _ Hn) as (u1 & Hu1 & H1 & H2 & H3). assert (u1 = u) as -> by congruence.
      exists u'. split; [rewrite list_lookup_insert; [done|by eapply lookup_lt_Some]|]. split; [congruence|]. split; [congruence|].
      left. split; [done|]. destruct H3 as [[_ H3]|[H3 _]]; [congruence|done].
    + rewrite list_lookup_insert_ne by lia. by apply u_nd0.
  - eapply par_ext; [|exact u_par0]. intros i l es Hn Hi'. split; [done|]. assert (i <> idx) by (by intros ->).
    by rewrite list_lookup_insert_ne by lia.
Qed.

(** A node takes the offset of another node with the same edges. *)
Lemma reuse_inv us x nb fr R asg pd ff idx l es o u u' : uinv us x nb fr R asg (idx :: pd) ff -> ndp R asg idx l es ->
  (o, es) ∈ asg -> us !! N.to_nat idx = Some u -> u' < two32 -> dictLabel u' = dictLabel u -> dictIsLeaf u' = dictIsLeaf u ->
  dictHasLeaf u' = has0 es -> N.lxor idx (dictOffset u') = o -> uinv (<[N.to_nat idx := u']> us) x nb fr R asg pd ff.
Proof.
  intros HU Hn0 Ho Hu Hlt Hl Hi Hh Hoff. 
  pose proof (ndp_owned _ _ _ _ _ Hn0) as Hown.
  pose proof (fun i l es o es' v => @ndp_leaf_ne us x nb fr R asg _ ff HU i l es o es' v) as Hlne.
  pose proof (fun i l es l' es' => @ndp_fun us x nb fr R asg _ ff HU i l es l' es') as Hfun.
  destruct HU as [u_R0 u_lt0 u_free0 u_used0 u_cls0 u_ff0 u_ffnd0 u_asg0 u_nodup0 u_disj0 u_root0 u_leaf0 u_nd0 u_par0 [u_pdn u_pdo]].
  apply NoDup_cons in u_pdn as [Hnp u_pdn].
  constructor; try done.
  - apply Forall_insert; done.
  - intros i Hf. destruct (u_free0 i Hf) as (? & ? & ?). assert (i <> idx) by (by intros ->).
    rewrite list_lookup_insert_ne by lia. done.
  - intros i Hf. destruct (u_ff0 i Hf) as (? & ? & ?). assert (i <> idx) by (by intros ->).
    rewrite list_lookup_insert_ne by lia. done.
  - intros o' es' v Ho' Hv. pose proof (Hlne _ _ _ _ _ _ Hn0 Ho' Hv). rewrite list_lookup_insert_ne by lia. by eapply u_leaf0.
  - intros i l' es' Hn. destruct (decide (i = idx)) as [->|Hne].
    + destruct (Hfun _ _ _ _ _ Hn0 Hn) as [<- <-].
      destruct (u_nd0 _ _ _ Hn) as (u1 & Hu1 & H1 & H2 & H3). assert (u1 = u) as -> by congruence.
      exists u'. split; [rewrite list_lookup_insert; [done|by eapply lookup_lt_Some]|]. split; [congruence|]. split; [congruence|].
      right. split; [done|]. split; [by rewrite Hoff|done].
    + rewrite list_lookup_insert_ne by lia. destruct (u_nd0 _ _ _ Hn) as (u1 & Hu1 & H1 & H2 & H3). exists u1.
      split; [done|]. split; [done|]. split; [done|]. destruct H3 as [[H3 H4]|[H3 H4]]; [left|right].
      * split; [|done]. by apply elem_of_cons in H3 as [?|?].
      * split; [|done]. intros H5. apply H3. by constructor.
  - eapply par_ext; [|exact u_par0]. intros i l' es' Hn Hi'. apply not_elem_of_cons in Hi' as [Hi1 Hi2]. split; [done|].
    by rewrite list_lookup_insert_ne by lia.
  - split; [done|]. intros i Hin. apply u_pdo. by constructor.
Qed.

(** A node takes a new offset. *)
Lemma place_inv us x nb f R asg pd ff idx l es o us' x' u' : uinv us x nb (256 * f) R asg (idx :: pd) ff -> ndp R asg idx l es ->
  o < 256 * N.of_nat nb -> is_Some (x o) -> ~ used x o -> (forall l s, (l, s) ∈ es -> free x (N.lxor o l)) ->
  (forall i, is_Some (x' i) -> is_Some (x i)) -> (forall i, free x' i <-> free x i /\ forall l s, (l, s) ∈ es -> i <> N.lxor o l) ->
  (forall i, used x' i <-> used x i \/ i = o) ->
  Forall (fun u => u < two32) us' -> (forall l s, (l, s) ∈ es -> us' !! N.to_nat (N.lxor o l) = Some (child_unit l s)) ->
  (forall i, i <> idx -> (forall l s, (l, s) ∈ es -> i <> N.lxor o l) -> us' !! N.to_nat i = us !! N.to_nat i) ->
  us' !! N.to_nat idx = Some u' -> dictLabel u' = l -> dictIsLeaf u' = false -> dictHasLeaf u' = has0 es -> N.lxor idx (dictOffset u') = o ->
  uinv us' x' nb (256 * f) R ((o, es) :: asg) (kids o es ++ pd) ff.
Proof.
  intros HU Hn0 Holt Hlive Hnu Hfr Hsome Hfree Hused Hlt Hch Hoth Hidx Hl Hil Hh Hoff.
  pose proof (ndp_owned _ _ _ _ _ Hn0) as Hown.
  pose proof (fun i l es o es' v => @ndp_leaf_ne us x nb _ R asg _ ff HU i l es o es' v) as Hlne.
  pose proof (fun i l es l' es' => @ndp_fun us x nb _ R asg _ ff HU i l es l' es') as Hfun.
  destruct (@ndp_wf us x nb _ R asg _ ff HU _ _ _ Hn0) as [Hwf Htn].
  pose proof (proj1 (wf_wfe es) Hwf) as [Hne Hw].
  destruct HU as [u_R0 u_lt0 u_free0 u_used0 u_cls0 u_ff0 u_ffnd0 u_asg0 u_nodup0 u_disj0 u_root0 u_leaf0 u_nd0 u_par0 [u_pdn u_pdo]].
  apply NoDup_cons in u_pdn as [Hnp u_pdn].
  destruct Hlive as [eo Heo].
  assert (Hol : o <> 0 /\ o ∉ asg.*1).
  { split; intros Hc; apply Hnu; exists eo; (split; [done|]); apply (u_used0 _ _ Heo); [by left|by right]. }
  destruct Hol as [Ho0 Hoa].
  assert (Hof : 256 * f <= o).
  { destruct es as [|[l1 s1] es']; [done|]. assert (Hin : (l1, s1) ∈ (l1, s1) :: es') by constructor.
    pose proof (Hfr _ _ Hin) as Hf1. apply u_free0 in Hf1 as (_ & Hf1 & _). pose proof (wf_lab _ _ _ Hwf Hin) as Hl1.
    pose proof (lxor_block o l1 Hl1). lia. }
  assert (Hnow : forall i, owned asg i -> forall l s, (l, s) ∈ es -> i <> N.lxor o l).
  { intros i Hi l' s' Hin ->. apply (Hfr l' s') in Hin. apply u_free0 in Hin as (_ & _ & Hc). done. }
  assert (Hcons : forall i, owned ((o, es) :: asg) i <-> owned asg i \/ exists l s, (l, s) ∈ es /\ i = N.lxor o l).
  { intros i. split.
    - intros [->|(o' & e' & l' & s' & H1 & H2 & ->)]; [by left; left|]. apply elem_of_cons in H1 as [[= -> ->]|H1]; [right; eauto|left; right; eauto 10].
    - intros [[->|(o' & e' & l' & s' & H1 & H2 & ->)]|(l' & s' & H & ->)]; [by left|right|right].
      + exists o', e', l', s'. split; [by constructor|done].
      + exists o, es, l', s'. split; [by constructor|done]. }
  constructor; try done.
  - intros i Hi. apply Hfree in Hi as [Hi Hno]. destruct (u_free0 i Hi) as (H1 & H2 & H3). split; [|split; [done|]].
    + rewrite Hoth; [done|by intros ->|done].
    + rewrite Hcons. intros [?|(l' & s' & Hin & ->)]; [done|]. by apply (Hno l' s').
  - intros i e He. destruct (Hsome i) as [e0 He0]; [eauto|]. pose proof (Hused i) as Hui. unfold used in Hui. rewrite He, He0 in Hui.
    pose proof (u_used0 _ _ He0) as Hu0. cbn [fmap list_fmap fst]. rewrite elem_of_cons. split; intros H.
    + destruct (proj1 Hui) as [(y & Hy & Hyu)| ->]; [eauto|simplify_eq|tauto]. apply Hu0 in Hyu. tauto.
    + destruct (proj2 Hui) as (y & Hy & Hyu); [|congruence]. destruct H as [H|[->|H]]; [|by right|]; left; exists e0; (split; [done|]); tauto.
  - intros i Hi. destruct (u_cls0 i Hi) as [Hf|[?|?]].
    + destruct (decide (Exists (fun e => i = N.lxor o e.1) es)) as [Hex|Hex].
      * right; left. apply Hcons. right. apply Exists_exists in Hex as ([l' s'] & Hin & ->). eauto.
      * left. apply Hfree. split; [done|]. intros l' s' Hin ->. apply Hex, Exists_exists. by exists (l', s').
    + right; left. apply Hcons. by left.
    + by right; right.
  - intros i Hi. destruct (u_ff0 i Hi) as (H1 & H2 & u & Hu & H3 & H4). split; [done|].
    assert (Hni : forall l s, (l, s) ∈ es -> i <> N.lxor o l).
    { intros l' s' Hin ->. pose proof (wf_lab _ _ _ Hwf Hin) as Hl1. pose proof (lxor_block o l' Hl1). lia. }
    split; [|exists u; split; [|split; [done|]]].
    + rewrite Hcons. intros [?|(l' & s' & Hin & ->)]; [done|]. by apply (Hni l' s').
    + rewrite Hoth; [done|by intros ->|done].
    + cbn [fmap list_fmap fst]. apply not_elem_of_cons. split; [|done]. intros Hc.
      assert (Hd : dictLabel u < 256) by (rewrite dictLabel_mod; lia). pose proof (lxor_block i _ Hd). lia.
  - intros o' es' H. apply elem_of_cons in H as [[= -> ->]|H]; [|by apply u_asg0]. done.
  - cbn [fmap list_fmap fst]. by apply NoDup_cons.
  - intros o1 e1 l1 s1 o2 e2 l2 s2 H1 H2 H3 H4 E. apply elem_of_cons in H1 as [[= -> ->]|H1], H3 as [[= -> ->]|H3].
    + done.
    + exfalso. eapply (Hnow (N.lxor o2 l2)); [right; eauto 10|exact H2|done].
    + exfalso. eapply (Hnow (N.lxor o1 l1)); [right; eauto 10|exact H4|done].
    + by eapply u_disj0.
  - intros o1 e1 l1 s1 H1 H2. apply elem_of_cons in H1 as [[= -> ->]|H1]; [|by eapply u_root0].
    intros E. by apply (Hnow 0 (or_introl eq_refl) l1 s1).
  - intros o1 e1 v H1 H2. apply elem_of_cons in H1 as [[= -> ->]|H1].
    + specialize (Hch _ _ H2). by rewrite N.lxor_0_r in Hch.
    + rewrite Hoth; [by eapply u_leaf0|intros ->; by eapply (Hlne idx)|]. apply Hnow. right. exists o1, e1, 0, (Leaf v). by rewrite N.lxor_0_r.
  - intros i l1 e1 Hn. apply ndp_cons in Hn as [Hn|[Hin ->]].
    + destruct (decide (i = idx)) as [->|Hid].
      * destruct (Hfun _ _ _ _ _ Hn0 Hn) as [<- <-]. exists u'. split; [done|]. split; [done|]. split; [done|]. right.
        split; [|split; [rewrite Hoff; constructor|done]]. rewrite elem_of_app. intros [Hk|?]; [|done]. apply kids_in in Hk as (l2 & e2 & Hin & Hk).
        by apply (Hnow idx Hown l2 (Node e2)).
      * pose proof (ndp_owned _ _ _ _ _ Hn) as Hoi. rewrite Hoth; [|done|by apply Hnow].
        destruct (u_nd0 _ _ _ Hn) as (u1 & Hu1 & H1 & H2 & H3). exists u1. split; [done|]. split; [done|]. split; [done|].
        destruct H3 as [[H3 H4]|(H3 & H4 & H5)]; [left|right].
        -- split; [|done]. apply elem_of_app. right. by apply elem_of_cons in H3 as [?|?].
        -- split; [|split; [by constructor|done]]. rewrite elem_of_app. intros [Hk|Hk]; [|apply H3; by constructor].
           apply kids_in in Hk as (l2 & e2 & Hin & Hk). by apply (Hnow i Hoi l2 (Node e2)).
    + cbn [fst snd] in *. eexists. split; [by apply Hch|]. cbn [child_unit]. pose proof (wf_lab _ _ _ Hwf Hin) as Hl1.
      split; [by apply setLabel_label|]. split; [by rewrite setLabel_isLeaf|]. left. split; [|by rewrite setLabel_hasLeaf].
      apply elem_of_app. left. apply kids_in. eauto.
  - cbn [par]. split.
    + exists idx, l, u'. split; [done|]. split; [done|]. split; [|done]. rewrite elem_of_app. intros [Hk|?]; [|done].
      apply kids_in in Hk as (l2 & e2 & Hin & Hk). by apply (Hnow idx Hown l2 (Node e2)).
    + eapply par_ext; [|exact u_par0]. intros i l' es' Hn Hi'. apply not_elem_of_cons in Hi' as [Hi1 Hi2].
      pose proof (ndp_owned _ _ _ _ _ Hn) as Hoi. split; [|apply Hoth; [done|by apply Hnow]].
      rewrite elem_of_app. intros [Hk|?]; [|done]. apply kids_in in Hk as (l2 & e2 & Hin & Hk). by apply (Hnow i Hoi l2 (Node e2)).
  - split.
    + apply NoDup_app. split; [by apply kids_nodup|]. split; [|done]. intros i Hk Hi. apply kids_in in Hk as (l2 & e2 & Hin & Hk).
      destruct (u_pdo i) as (l3 & e3 & Hn3); [by constructor|]. apply ndp_owned in Hn3. by apply (Hnow i Hn3 l2 (Node e2)).
    + intros i Hi. apply elem_of_app in Hi as [Hk|Hi].
      * apply kids_in in Hk as (l2 & e2 & Hin & ->). exists l2, e2. right. exists o, es. split; [constructor|done].
      * destruct (u_pdo i) as (l3 & e3 & Hn3); [by constructor|]. exists l3, e3. by apply ndp_mono.
Qed.

(** ** arrangeChildNodes *)
(** The state between two steps of the builder. *)
Notation BI b nb R asg pd ff := (binv b nb (nb - 16) (256 * N.of_nat (nb - 16)) R asg pd ff).

Lemma xinv_units b nb q us : xinv b nb q -> length us = length (db_units b) -> xinv (dbset_units b us) nb q.
Proof. intros [A1 A2 A3 A4 A5 A6] Hl. constructor; cbn [db_units db_extras db_unfixed dbset_units]; try done. by rewrite Hl. Qed.
Lemma xinv_used b nb q o e : xinv b nb q -> X b o = Some e -> exists b', db_extra_upd b o ex_setIsUsed = Ok b' /\ xinv b' nb q /\
  db_units b' = db_units b /\ db_link b' = db_link b /\ db_unused b' = db_unused b /\
  (forall i, free (X b') i <-> free (X b) i) /\ (forall i, used (X b') i <-> used (X b) i \/ i = o) /\ (forall i, is_Some (X b' i) <-> is_Some (X b i)).
Proof.
  intros HX He. destruct (xupd b o ex_setIsUsed nb q e (xi_shape _ _ _ HX) He) as (b' & Hb' & (F1 & F2 & F3 & F4) & Hsh & Hx).
  assert (Hget : forall i e', X b i = Some e' -> X b' i = Some (if decide (i = o) then ex_setIsUsed e' else e')).
  { intros i e' Hi. rewrite Hx, Hi. by destruct (decide (i = o)). }
  assert (Hget' : forall i e', X b' i = Some e' -> exists e0, X b i = Some e0 /\ e' = if decide (i = o) then ex_setIsUsed e0 else e0).
  { intros i e' Hi. rewrite Hx in Hi. destruct (X b i) as [e0|]; [|done]. exists e0. split; [done|]. injection Hi as <-. by destruct (decide (i = o)). }
  assert (Hfree : forall i, free (X b') i <-> free (X b) i).
  { intros i. split.
    - intros (e' & Hi & Hf). apply Hget' in Hi as (e0 & Hi & ->). exists e0. split; [done|]. by destruct (decide (i = o)).
    - intros (e' & Hi & Hf). eexists. split; [by apply Hget|]. by destruct (decide (i = o)). }
  exists b'. split; [done|]. split; [|split; [congruence|split; [congruence|split; [congruence|split; [done|split]]]]].
  - destruct HX as [A1 A2 A3 A4 A5 A6]. constructor; try congruence; try done.
    + intros i ei Hi Hf. apply Hget' in Hi as (e0 & Hi & ->).
      assert (Hf0 : ex_isFixed e0 = false) by (by destruct (decide (i = o))).
      destruct (A5 i e0 Hi Hf0) as [(e1 & H1 & H2 & H3) (e2 & H4 & H5 & H6)]. split.
      * exists (if decide (ex_next e0 = o) then ex_setIsUsed e1 else e1). split; [|split].
        -- replace (ex_next (if decide (i = o) then ex_setIsUsed e0 else e0)) with (ex_next e0) by (by destruct (decide (i = o))). by apply Hget.
        -- by destruct (decide (ex_next e0 = o)).
        -- destruct (decide (ex_next e0 = o)); [by rewrite ex_prev_used|done].
      * exists (if decide (ex_prev e0 = o) then ex_setIsUsed e2 else e2). split; [|split].
        -- replace (ex_prev (if decide (i = o) then ex_setIsUsed e0 else e0)) with (ex_prev e0) by (destruct (decide (i = o)); [by rewrite ex_prev_used|done]). by apply Hget.
        -- by destruct (decide (ex_prev e0 = o)).
        -- by destruct (decide (ex_prev e0 = o)).
    + rewrite F3. destruct A6 as [A6|A6]; [by left|right; by apply Hfree].
  - intros i. split.
    + intros (e' & Hi & Hf). apply Hget' in Hi as (e0 & Hi & ->). destruct (decide (i = o)); [by right|]. left. by exists e0.
    + intros [(e0 & Hi & Hf)| ->].
      * eexists. split; [by apply Hget|]. destruct (decide (i = o)); [apply ex_used_used|done].
      * eexists. split; [by apply Hget|]. rewrite decide_True by done. apply ex_used_used.
  - intros i. rewrite Hx. by rewrite fmap_is_Some.
Qed.

Section arrange.
  Context (d : dawg) (ts : list edges).
  Hypothesis Hfz : frozen (d_base d) (d_label d) ts.

  Lemma frozen_len k es : ts !! k = Some es -> (length es < S (length (d_base d)))%nat.
  Proof using Hfz. intros Hk. pose proof (start_bound _ _ _ Hk). rewrite (fz_base _ _ _ Hfz). unfold start in *. lia. Qed.

  Lemma cpos_0 k es : es <> [] -> cpos ts k es 0 = N.of_nat (start ts k).
  Proof. intros Hne. unfold cpos. destruct es; [done|]. cbn. f_equal. lia. Qed.
  Lemma wfe_labels es : wfe es -> NoDup es.*1.
  Proof.
    induction es as [|[l s] es IH]; intros Hw; [apply NoDup_nil_2|]. apply wfe_cons in Hw as (Hw & _ & _ & _ & Hall).
    cbn [fmap list_fmap fst]. apply NoDup_cons. split; [|by apply IH]. intros Hin. apply in_fst in Hin as [s' Hin].
    rewrite Forall_forall in Hall. apply Hall in Hin. cbn in Hin. lia.
  Qed.
  Lemma pend_unit b nb q fr R asg pd ff idx l es : binv b nb q fr R asg (idx :: pd) ff -> ndp R asg idx l es ->
    exists u, db_units b !! N.to_nat idx = Some u /\ u < two32 /\ dictLabel u = l /\ dictIsLeaf u = false /\ dictHasLeaf u = false /\
      ~ free (X b) idx /\ idx < 256 * N.of_nat nb.
  Proof.
    intros HB Hn. destruct HB as [HX HU _ _]. destruct (u_nd _ _ _ _ _ _ _ _ HU _ _ _ Hn) as (u & Hu & H1 & H2 & H3).
    exists u. split; [done|]. split; [|split; [done|split; [done|split; [|split]]]].
    - pose proof (u_lt _ _ _ _ _ _ _ _ HU) as Hlt. by apply (Forall_lookup_1 _ _ _ _ Hlt Hu).
    - destruct H3 as [[_ H3]|[H3 _]]; [done|]. exfalso. apply H3. constructor.
    - intros Hf. apply (u_free _ _ _ _ _ _ _ _ HU) in Hf as (_ & _ & Hf). by apply Hf, (ndp_owned _ _ _ _ _ Hn).
    - apply lookup_lt_Some in Hu. rewrite (xi_len _ _ _ HX) in Hu. lia.
  Qed.

  Lemma arr_place b nb R asg pd ff idx l es k o u : BI b nb R asg (idx :: pd) ff -> ndp R asg idx l es -> ts !! k = Some es ->
    db_units b !! N.to_nat idx = Some u -> N.lxor idx (dictOffset u) = o -> is_Some (X b o) -> ~ used (X b) o ->
    (forall l s, (l, s) ∈ es -> free (X b) (N.lxor o l)) ->
    exists b', (b ← placeChildren d idx o es.*1 b (N.of_nat (start ts k)); b ← db_extra_upd b o ex_setIsUsed; Ok (o, b)) = Ok (o, b') /\
      o <> 0 /\ BI b' nb R ((o, es) :: asg) (kids o es ++ pd) ff /\ db_link b' = db_link b.
  Proof using Hfz.
    intros HB Hn Hk Hu Hoff Hlive Hnu Hfr.
    destruct (pend_unit _ _ _ _ _ _ _ _ _ _ _ HB Hn) as (u0 & Hu0 & Hult & Hlab & Hil & Hhl & Hnf & Hilt).
    assert (u0 = u) as -> by congruence. pose proof HB as [HX HU Hfrr Hun].
    destruct (@ndp_wf _ _ _ _ _ _ _ _ HU _ _ _ Hn) as [Hwf _]. pose proof (proj1 (wf_wfe es) Hwf) as [Hne Hw].
    destruct (place_ok d ts Hfz k es Hk o idx (length es) 0 b nb (nb - 16) u) as
      (b1 & Hb1 & HX1 & Hl1 & Hn1 & Hfree1 & Hused1 & Hch1 & Hid1 & Hoth1); rewrite ?drop_0 in *.
    - done.
    - done.
    - by apply wfe_labels.
    - apply Hw.
    - intros l' s' Hin. split; [by eapply Hfr|]. apply (u_free _ _ _ _ _ _ _ _ HU). by eapply Hfr.
    - done.
    - done.
    - rewrite cpos_0 in Hb1 by done. rewrite Hb1. cbn [mbind res_bind].
      assert (Hlv : forall i, is_Some (X b1 i) <-> is_Some (X b i)).
      { intros i. rewrite (shape_xt _ _ _ i (xi_shape _ _ _ HX)), (shape_xt _ _ _ i (xi_shape _ _ _ HX1)). done. }
      destruct (proj2 (Hlv o) Hlive) as [eo Heo].
      destruct (xinv_used b1 nb (nb - 16) o eo HX1 Heo) as (b2 & Hb2 & HX2 & Hus2 & Hlk2 & Hn2 & Hfree2 & Hused2 & Hsome2).
      rewrite Hb2. cbn [mbind res_bind]. exists b2. split; [done|].
      assert (HU2 : uinv (db_units b2) (X b2) nb (256 * N.of_nat (nb - 16)) R ((o, es) :: asg) (kids o es ++ pd) ff).
      { rewrite anyleaf_has0 in Hid1 by done.
        eapply (place_inv (db_units b) (X b) nb _ R asg pd ff idx l es o); [exact HU|exact Hn| |exact Hlive|exact Hnu|exact Hfr| | | | | | | | | | |]; rewrite ?Hus2.
        - destruct Hlive as [e He]. exact (xi_lt _ _ _ _ _ HX He).
        - intros i Hi. by apply Hlv, Hsome2.
        - intros i. rewrite Hfree2. apply Hfree1.
        - intros i. rewrite Hused2. by rewrite Hused1.
        - apply Forall_lookup. intros i w Hw'. destruct (decide (N.of_nat i = idx)) as [He|He].
          + assert (i = N.to_nat idx) as -> by lia. rewrite Hid1 in Hw'. injection Hw' as <-. destruct (has0 es); [by apply setHasLeaf_lt|done].
          + destruct (decide (Exists (fun e => N.of_nat i = N.lxor o e.1) es)) as [Hex|Hex].
            * apply Exists_exists in Hex as ([l' s'] & Hin & Hex). cbn in Hex. specialize (Hch1 l' s' Hin). rewrite <- Hex, Nat2N.id in Hch1.
              rewrite Hch1 in Hw'. injection Hw' as <-. destruct s'; [apply setValue_lt|]. apply setLabel_lt; [by eapply wf_lab|unfold two32; lia].
            * rewrite <- (Nat2N.id i) in Hw'. rewrite Hoth1 in Hw'; [|done|].
              -- pose proof (u_lt _ _ _ _ _ _ _ _ HU) as Hlt. by apply (Forall_lookup_1 _ _ _ _ Hlt Hw').
              -- intros l' s' Hin Heq. apply Hex, Exists_exists. by exists (l', s').
        - done.
        - done.
        - exact Hid1.
        - destruct (has0 es); by rewrite ?setHasLeaf_label.
        - destruct (has0 es); by rewrite ?setHasLeaf_isLeaf.
        - destruct (has0 es); by rewrite ?setHasLeaf_hasLeaf.
        - destruct (has0 es); by rewrite ?setHasLeaf_offset. }
      split; [|split; [|congruence]].
      + apply (u_asg _ _ _ _ _ _ _ _ HU2 o es). constructor.
      + constructor; [done|done|lia|congruence].
  Qed.

  Lemma arrange_ok b nb R asg pd ff idx l es k di : BI b nb R asg (idx :: pd) ff -> ndp R asg idx l es -> ts !! k = Some es ->
    dawg_child d di = Ok (N.of_nat (start ts k)) -> (0 < nb)%nat ->
    (N.of_nat nb = 2097152 /\ arrangeChildNodes d b di idx = Ok (0, b)) \/
    exists o b' nb' ff', arrangeChildNodes d b di idx = Ok (o, b') /\ o <> 0 /\ (nb <= nb' <= S nb)%nat /\
      BI b' nb' R ((o, es) :: asg) (kids o es ++ pd) ff' /\ db_link b' = db_link b.
  Proof using Hfz.
    intros HB Hn Hk Hdc Hnb.
    destruct (pend_unit _ _ _ _ _ _ _ _ _ _ _ HB Hn) as (u & Hu & Hult & Hlab & Hil & Hhl & Hnf & Hilt).
    pose proof HB as [HX HU Hfrr Hun]. pose proof (xi_lim _ _ _ HX) as Hlim.
    destruct (@ndp_wf _ _ _ _ _ _ _ _ HU _ _ _ Hn) as [Hwf _]. pose proof (proj1 (wf_wfe es) Hwf) as [Hne Hw].
    unfold arrangeChildNodes. rewrite Hdc. cbn [mbind res_bind].
    pose proof (chainLabels_ok d ts Hfz k es Hk (length es) 0 (S (length (d_base d))) eq_refl (frozen_len _ _ Hk)) as Hcl.
    rewrite cpos_0, drop_0 in Hcl by done. rewrite Hcl. cbn [mbind res_bind].
    assert (Hl256 : Forall (fun l => l < 256) es.*1).
    { apply Forall_forall. intros l' Hin. apply in_fst in Hin as [s' Hin]. by eapply wf_lab. }
    destruct (findGood_ok b nb (nb - 16) es.*1 idx HX) as (o & Ho & Hcase); [lia|by destruct es|done|].
    rewrite Ho. cbn [mbind res_bind]. rewrite (get_N _ _ _ Hu). cbn [mbind res_bind].
    destruct (dictSetOffset u (N.lxor idx o)) as [ok u'] eqn:Eso.
    destruct (decide (fits (N.lxor idx o))) as [Hfit|Hnfit].
    - (* the offset can be stored *)
      assert (Hok : ok = true) by (pose proof (setOffset_ok u _ Hfit) as Hx; by rewrite Eso in Hx). rewrite Hok. cbn [negb].
      rewrite (set_N _ _ _ u) by done. cbn [mbind res_bind].
      assert (Hu'l : dictLabel u' = dictLabel u) by (pose proof (setOffset_label u _ Hfit) as Hx; by rewrite Eso in Hx).
      assert (Hu'i : dictIsLeaf u' = dictIsLeaf u) by (pose proof (setOffset_isLeaf u _ Hfit) as Hx; by rewrite Eso in Hx).
      assert (Hu'h : dictHasLeaf u' = dictHasLeaf u) by (pose proof (setOffset_hasLeaf u _ Hfit) as Hx; by rewrite Eso in Hx).
      assert (Hu'o : dictOffset u' = N.lxor idx o) by (pose proof (setOffset_offset u _ Hfit Hult Hil) as Hx; by rewrite Eso in Hx).
      assert (Hu'lt : u' < two32) by (pose proof (setOffset_lt u (N.lxor idx o) Hult) as Hx; by rewrite Eso in Hx).
      set (b1 := dbset_units b (<[N.to_nat idx := u']> (db_units b))).
      assert (HB1 : BI b1 nb R asg (idx :: pd) ff).
      { constructor; [by apply xinv_units; [|rewrite insert_length]| |done|done].
        eapply pend_change; [exact HU|constructor|exact Hu|done|done|done|done]. }
      assert (Hu1 : db_units b1 !! N.to_nat idx = Some u').
      { cbn [b1 db_units dbset_units]. rewrite list_lookup_insert; [done|by eapply lookup_lt_Some]. }
      destruct Hcase as [(Hg1 & Hg2 & Hg3 & Hg4)|Hnew].
      + right. destruct (arr_place b1 nb R asg pd ff idx l es k o u' HB1 Hn Hk Hu1) as (b' & Hb' & Ho0 & HB' & Hlk).
        * by rewrite Hu'o, lxor_cancel_l.
        * done.
        * done.
        * intros l' s' Hin. rewrite Forall_forall in Hg4. apply Hg4. by eapply fst_in.
        * exists o, b', nb, ff. rewrite Hb'. split; [done|]. split; [done|]. split; [lia|]. done.
      + assert (Hnb2 : N.of_nat nb < 2097152).
        { destruct (N.lt_ge_cases (N.of_nat nb) 2097152) as [|Hge]; [done|exfalso].
          assert (Hx : N.lxor idx o < 536870912) by (destruct Hfit; lia).
          assert (o < 536870912); [|lia]. rewrite <- (lxor_cancel_l idx o). apply lxor_lt29; [lia|done]. }
        right. destruct (expand_ok reserve_in b1 nb R asg (idx :: pd) ff rsv_in Hnb Hnb2 HB1) as (b2 & ff2 & Hb2 & HB2 & [Hk2 Hku] & Hfree2).
        assert (Hu2 : db_units b2 !! N.to_nat idx = Some u').
        { destruct (Hku idx) as [_ Hx]; [done| |by rewrite Hx]. by eapply lookup_lt_Some. }
        assert (Hblk : forall l s, (l, s) ∈ es -> 256 * N.of_nat nb <= N.lxor o l < 256 * N.of_nat (S nb)).
        { intros l' s' Hin. pose proof (wf_lab _ _ _ Hwf Hin) as Hl'. pose proof (lxor_block o l' Hl'). lia. }
        assert (Hpl : placeChildren d idx o es.*1 b1 (N.of_nat (start ts k)) = placeChildren d idx o es.*1 b2 (N.of_nat (start ts k))).
        { destruct es as [|[l1 s1] es']; [done|]. cbn [fmap list_fmap fst placeChildren].
          assert (Hr : reserveUnit b1 (N.lxor o l1) = reserveUnit b2 (N.lxor o l1)).
          { destruct (Hblk l1 s1) as [Hb1 Hb1']; [constructor|]. rewrite (rsv_unit b2 (S nb) (S nb - 16)%nat _ (bi_x _ _ _ _ _ _ _ _ HB2) Hb1').
            unfold reserveUnit. rewrite (xi_units _ _ _ (bi_x _ _ _ _ _ _ _ _ HB1)).
            destruct (N.leb_spec (256 * N.of_nat nb) (N.lxor o l1)); [|lia]. rewrite Hb2. done. }
          by rewrite Hr. }
        destruct (arr_place b2 (S nb) R asg pd ff2 idx l es k o u' HB2 Hn Hk Hu2) as (b' & Hb' & Ho0 & HB' & Hlk).
        * by rewrite Hu'o, lxor_cancel_l.
        * destruct (Hfree2 o) as [(e & He & _) _]; [lia|]. eauto.
        * apply Hfree2. lia.
        * intros l' s' Hin. apply Hfree2. by eapply Hblk.
        * exists o, b', (S nb), ff2. rewrite Hpl, Hb'. split; [done|]. split; [done|]. split; [lia|]. split; [done|].
          rewrite Hlk, Hk2. done.
    - (* only past the last block *)
      left. destruct Hcase as [(Hg1 & _)|Hnew]; [done|].
      assert (Hmod : N.lxor idx o mod 256 = 0).
      { change (u8 (N.lxor idx o) = 0). apply N.bits_inj. intros t. rewrite N.bits_0, u8_bits, N.lxor_spec. bcase; [|done].
        assert (Ht : N.testbit o t = N.testbit idx t); [|rewrite Ht; by destruct (N.testbit idx t)].
        assert (Hx : u8 o = u8 idx) by (unfold u8; lia). pose proof (f_equal (fun z => N.testbit z t) Hx) as Hy. cbn in Hy. rewrite !u8_bits in Hy.
        destruct (N.ltb_spec t 8); [done|lia]. }
      assert (Hge : 536870912 <= N.lxor idx o).
      { destruct (N.lt_ge_cases (N.lxor idx o) 536870912) as [Hlt|]; [|done]. exfalso. apply Hnfit. right. split; [done|].
        done. }
      pose proof (proj1 (setOffset_refused u _) Hge) as Hr. rewrite Eso in Hr. cbn in Hr. rewrite Hr. cbn [negb]. split; [|done].
      destruct (N.lt_ge_cases (N.of_nat nb) 2097152) as [Hlt|]; [|lia]. exfalso.
      assert (N.lxor idx o < 536870912); [|lia]. apply lxor_lt29; lia.
  Qed.
End arrange.
