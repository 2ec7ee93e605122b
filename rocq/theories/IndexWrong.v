(** BytesToIndex where a string leaves the keys. *)
From Verif Require Import Go Dawg DawgSpec Tree TreeFacts DawgAbs DictDfs Dict DictUnit DictInv DictRead DictMain DictRep DictSpec DictThms Guide GuideProofs Completer CompleterProofs GuideSpec GuideThms Index IndexProofs.
Local Open Scope N_scope.
Local Arguments N.mul : simpl never.
Local Arguments N.add : simpl never.
Local Arguments N.of_nat : simpl never.

(** The number of keys smaller than [q] among those of the edges [es]. *)
Local Notation lower q l := (filter (fun kv => kcmp kv.1 q = Lt) l).
Definition below (es : edges) (q : list N) : N := N.of_nat (length (lower q (ent_es es))).

Lemma filter_every {A} (P : A -> Prop) `{forall x, Decision (P x)} l : Forall P l -> filter P l = l.
Proof. induction 1 as [|x l Hx _ IH]; [done|]. by rewrite filter_cons_True, IH. Qed.
Lemma filter_never {A} (P : A -> Prop) `{forall x, Decision (P x)} l : Forall (fun x => ~ P x) l -> filter P l = [].
Proof. induction 1 as [|x l Hx _ IH]; [done|]. by rewrite filter_cons_False, IH. Qed.
Lemma kids_heads es k v : nodes_only es -> (k, v) ∈ ent_es es -> exists l e1 k', (l, Node e1) ∈ es /\ k = l :: k' /\ (k', v) ∈ ent_es e1.
Proof.
  intros Hno. intros ([l s] & Hin & H)%elem_ent_es. unfold nodes_only in Hno. rewrite Forall_forall in Hno. destruct (Hno _ Hin) as [Hl [e1 Hs]].
  cbn [fst snd] in *. subst s. unfold ent_e in H. cbn [fst snd] in H. rewrite (proj2 (N.eqb_neq _ _) Hl) in H.
  apply elem_of_list_fmap_2 in H as ([k' v'] & E & H). cbn in E. injection E as -> ->. by exists l, e1, k'.
Qed.
Lemma lower_pre es c q : nodes_only es -> Forall (fun e => e.1 < c) es -> lower (c :: q) (ent_es es) = ent_es es.
Proof.
  intros Hno Hlt. apply filter_every. apply Forall_forall. intros [k v] H. destruct (kids_heads es k v Hno H) as (l & e1 & k' & Hin & -> & _).
  rewrite Forall_forall in Hlt. apply Hlt in Hin. cbn [fst] in *. cbn [kcmp]. by rewrite (proj2 (N.compare_lt_iff _ _) Hin).
Qed.
Lemma lower_post es c q : nodes_only es -> Forall (fun e => c < e.1) es -> lower (c :: q) (ent_es es) = [].
Proof.
  intros Hno Hlt. apply filter_never. apply Forall_forall. intros [k v] H. destruct (kids_heads es k v Hno H) as (l & e1 & k' & Hin & -> & _).
  rewrite Forall_forall in Hlt. apply Hlt in Hin. cbn [fst] in *. cbn [kcmp]. by rewrite (proj2 (N.compare_gt_iff _ _) Hin).
Qed.
Lemma lower_same c q (l : list (list N * N)) : length (lower (c :: q) (map (fun kv => (c :: kv.1, kv.2)) l)) = length (lower q l).
Proof.
  induction l as [|[k v] l IH]; [done|]. cbn [map]. rewrite !filter_cons. cbn [fst snd kcmp]. rewrite N.compare_refl.
  destruct (decide (kcmp k q = Lt)); cbn [length]; by rewrite IH.
Qed.
Lemma lower_kids es c q : wfe es -> length (lower (c :: q) (ent_es es)) = ((if has0 es then 1 else 0) + length (lower (c :: q) (ent_es (kids es))))%nat.
Proof.
  intros Hw. destruct es as [|[[|l] s] es]; [done| |].
  - destruct (wfe_zero _ s Hw) as [v ->]; [left|]. cbn [kids]. change (ent_es ((0, Leaf v) :: es)) with (([], v) :: ent_es es).
    rewrite filter_cons_True by done. done.
  - cbn [kids]. destruct (has0 ((N.pos l, s) :: es)) eqn:E; [|done]. exfalso. apply (has0_in _ Hw) in E as [v Hv].
    apply elem_of_cons in Hv as [?|Hv]; [done|]. apply wfe_cons in Hw as (_ & _ & _ & _ & Hlt). rewrite Forall_forall in Hlt. apply Hlt in Hv. cbn in Hv. lia.
Qed.
Lemma below_miss es c q pre tl : wfe es -> kids es = pre ++ tl -> Forall (fun e => e.1 < c) pre -> Forall (fun e => c <= e.1) tl ->
  (forall e1, (c, Node e1) ∉ es) -> below es (c :: q) = (if has0 es then 1 else 0) + cnt pre.
Proof.
  intros Hw Hk H1 H2 Hno. unfold below. rewrite (lower_kids es c q Hw), Hk, ent_es_app, filter_app, app_length.
  pose proof (kids_nodes es Hw) as Hn. rewrite Hk in Hn. apply Forall_app in Hn as [Hn1 Hn2]. rewrite (lower_pre pre c q Hn1 H1).
  rewrite (lower_post tl c q Hn2); [cbn [length]; destruct (has0 es); lia|]. rewrite Forall_forall in H2 |- *. intros [l s] Hin.
  specialize (H2 _ Hin). cbn [fst] in *. destruct (N.eq_dec l c) as [->|]; [|lia]. exfalso. rewrite Forall_forall in Hn2.
  destruct (Hn2 _ Hin) as [_ [e1 Hs]]. cbn in Hs. subst s. destruct (kids_in es) as [p0 He]. apply (Hno e1). rewrite He, Hk. rewrite !elem_of_app. by right; right.
Qed.
Lemma below_hit es c q e1 pre tl : wfe es -> kids es = pre ++ tl -> Forall (fun e => e.1 < c) pre -> Forall (fun e => c <= e.1) tl ->
  (c, Node e1) ∈ es -> below es (c :: q) = (if has0 es then 1 else 0) + cnt pre + below e1 q /\ (if has0 es then 1 else 0) + cnt pre + cnt e1 <= cnt es.
Proof.
  intros Hw Hk H1 H2 Hin. unfold below. rewrite (lower_kids es c q Hw), (cnt_kids es Hw), Hk, !ent_es_app, filter_app, !app_length.
  pose proof (kids_nodes es Hw) as Hn. rewrite Hk in Hn. apply Forall_app in Hn as [Hn1 Hn2]. rewrite (lower_pre pre c q Hn1 H1).
  destruct (wfe_kid _ _ _ Hw Hin) as (_ & _ & Hc0 & _).
  assert (Hin2 : (c, Node e1) ∈ tl).
  { assert (Hk2 : (c, Node e1) ∈ kids es) by (destruct es as [|[[|p] s] es']; cbn [kids]; [done| |done]; by apply elem_of_cons in Hin as [[= -> _]|?]).
    rewrite Hk in Hk2. apply elem_of_app in Hk2 as [Hk2|Hk2]; [|done]. rewrite Forall_forall in H1. apply H1 in Hk2. cbn in Hk2. lia. }
  destruct tl as [|[l s] tl]; [by apply elem_of_nil in Hin2|].
  assert (Hasc : asc ((l, s) :: tl)) by (destruct (kids_in es) as [p0 He]; apply (asc_app pre), (asc_app p0); rewrite <- Hk, <- He; apply Hw).
  unfold asc in Hasc. cbn [fmap list_fmap fst] in Hasc. apply StronglySorted_inv in Hasc as [_ Hall]. rewrite Forall_fmap in Hall.
  apply elem_of_cons in Hin2 as [[= <- <-]|Hin2].
  - rewrite cnt_cons, ent_es_cons, filter_app, app_length, lower_same by done. apply Forall_cons in Hn2 as [_ Hn2].
    rewrite (lower_post tl c q Hn2); [|eapply Forall_impl; [exact Hall|]; intros e He; exact He]. cbn [length]. destruct (has0 es); lia.
  - exfalso. apply Forall_cons in H2 as [H2 _]. cbn in H2. rewrite Forall_forall in Hall. apply Hall in Hin2. cbn in Hin2. lia.
Qed.

Section walk.
  Context (us : dict) (R : edges) (node : N -> edges -> Prop) (HN : drep us R node) (g : guide) (HG : grep us node g) (Hlim : cnt R < two32).
  Context (ix : list N) (HX : forall i es, node i es -> get ix i = Ok (cnt es)).
  Lemma walk_to q es p es1 : tnode es p es1 -> forall i r, node i es -> r + cnt es < two32 -> exists i1 r1, dc_FollowString us p i = Ok (true, i1) /\ node i1 es1 /\
    ir_walk us g ix (p ++ q) i r = ir_walk us g ix q i1 r1 /\ r1 + cnt es1 < two32 /\ forall s, r + below es (p ++ s) = r1 + below es1 s.
  Proof using HN HG Hlim HX.
    induction 1 as [es|es c e1 p es1 Hin Ht IH]; intros i r Hn Hr; [by exists i, r|].
    pose proof (wfn us R node HN i es Hn) as Hw. destruct (walk_step us R node HN g HG Hlim ix HX i es c (p ++ q) r Hn Hr) as (pre & tl & Hk & H1 & H2 & Hwalk).
    destruct (rp_kid _ _ _ HN _ _ _ _ Hn Hin) as (j & Hf & Hj & _).
    assert (Hb : forall s, below es (c :: s) = (if has0 es then 1 else 0) + cnt pre + below e1 s /\ (if has0 es then 1 else 0) + cnt pre + cnt e1 <= cnt es)
      by (intros s; by apply (below_hit es c s e1 pre tl)). destruct (Hb []) as [_ Hle].
    destruct (IH j (r + (if has0 es then 1 else 0) + cnt pre) Hj) as (i1 & r1 & Hf1 & Hn1 & Hw1 & Hr1 & Hs1); [lia|].
    exists i1, r1. split; [cbn [dc_FollowString]; by rewrite Hf|]. split; [done|]. split; [|split; [done|]].
    - cbn [app]. rewrite Hwalk. destruct tl as [|e tl].
      { exfalso. destruct (wfe_kid _ _ _ Hw Hin) as (_ & _ & Hc0 & _).
        assert (Hk2 : (c, Node e1) ∈ kids es) by (destruct es as [|[[|l] s] es']; cbn [kids]; [done| |done]; by apply elem_of_cons in Hin as [[= -> _]|?]).
        rewrite Hk, app_nil_r in Hk2. rewrite Forall_forall in H1. apply H1 in Hk2. cbn in Hk2. lia. }
      rewrite Hf. cbn [mbind res_bind negb]. exact Hw1.
    - intros s. cbn [app]. rewrite (proj1 (Hb (p ++ s))), <- Hs1. lia.
  Qed.
  (** The step that leaves the keys. *)
  Lemma walk_off c t i es r : node i es -> r + cnt es < two32 -> (forall e1, (c, Node e1) ∉ es) ->
    (ir_walk us g ix (c :: t) i r = Ok NotFound /\ forall l e1, (l, Node e1) ∈ es -> l < c) \/
    ((exists l e1, (l, Node e1) ∈ es /\ c < l) /\
     ir_walk us g ix (c :: t) i r = ('(ok, j) ← dc_Follow us c i; if negb ok then Ok NotFound else ir_walk us g ix t j (r + below es (c :: t)))).
  Proof using HN HG Hlim HX.
    intros Hn Hr Hno. pose proof (wfn us R node HN i es Hn) as Hw. destruct (walk_step us R node HN g HG Hlim ix HX i es c t r Hn Hr) as (pre & tl & Hk & H1 & H2 & Hwalk).
    rewrite Hwalk. destruct tl as [|[l s] tl].
    - left. split; [done|]. intros l e1 Hin. destruct (wfe_kid _ _ _ Hw Hin) as (_ & _ & Hc0 & _).
      assert (Hk2 : (l, Node e1) ∈ kids es) by (destruct es as [|[[|l'] s] es']; cbn [kids]; [done| |done]; by apply elem_of_cons in Hin as [[= -> _]|?]).
      rewrite Hk, app_nil_r in Hk2. rewrite Forall_forall in H1. by apply H1 in Hk2.
    - right. pose proof (kids_nodes es Hw) as Hnd. rewrite Hk in Hnd. apply Forall_app in Hnd as [_ Hnd]. apply Forall_cons in Hnd as [[Hl [e1 Hs]] _].
      cbn [fst snd] in *. subst s. assert (Hin : (l, Node e1) ∈ es).
      { destruct (kids_in es) as [p0 He]. rewrite He, Hk. apply elem_of_app. right. apply elem_of_app. right. left. }
      split.
      + exists l, e1. split; [done|]. apply Forall_cons in H2 as [H2 _]. cbn in H2. destruct (N.eq_dec l c) as [->|]; [by apply Hno in Hin|lia].
      + destruct (dc_Follow us c i) as [[ok j]| |]; cbn [mbind res_bind]; [|done|done]. destruct ok; cbn [negb]; [|done].
        by rewrite (below_miss es c t pre ((l, Node e1) :: tl) Hw Hk H1 H2 Hno), N.add_assoc.
  Qed.
  (** From a unit that is no node the walk stops. *)
  Lemma walk_stop j c t r has : j < N.of_nat (length us) -> (forall es, ~ node j es) -> dc_HasValue us j = Ok has -> ir_walk us g ix (c :: t) j r = Ok NotFound.
  Proof using HG.
    intros Hj Hno Hh. cbn [ir_walk]. rewrite Hh. cbn [mbind res_bind]. unfold gd_Child, get. rewrite (gr_off _ _ _ HG j Hj Hno). cbn [mbind res_bind fst ir_skip].
    cbn [N.eqb negb]. rewrite andb_false_r. done.
  Qed.
End walk.
