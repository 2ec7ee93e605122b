(** Reading a finished dictionary. *)
From Verif Require Import Go BitPool LinkTable Dawg DawgRep Tree TreeFacts Dict DictUnit DictX DictGrow DictInv DictBuild.
Local Open Scope N_scope.
Local Ltac Zify.zify_post_hook ::= Z.div_mod_to_equations.
Local Arguments N.mul : simpl never.
Local Arguments N.add : simpl never.
Local Arguments N.of_nat : simpl never.
Local Arguments N.lxor : simpl never.

(** ** The methods compose, whatever the units *)
Lemma FollowString_app d p s i : dc_FollowString d (p ++ s) i =
  ('(ok, j) ← dc_FollowString d p i; if (ok : bool) then dc_FollowString d s j else Ok (false, j)).
Proof.
  revert i. induction p as [|c p IH]; intros i; [done|]. cbn [app dc_FollowString].
  destruct (dc_Follow d c i) as [[[] j]| |]; cbn [mbind res_bind]; [apply IH|done|done|done].
Qed.
Lemma Count_spec d q : forall i c, dc_FollowStringCount d q i c =
  match dc_FollowString d q i with
  | Ok _ => dc_FollowStringCount d q i c
  | Panic => Panic
  | Hang => Hang
  end /\
  forall b j c', dc_FollowStringCount d q i c = Ok (b, j, c') -> dc_FollowString d q i = Ok (b, j) /\
    exists p t, q = p ++ t /\ c' = (c + Z.of_nat (length p))%Z /\ dc_FollowString d p i = Ok (true, j) /\
    match t with [] => b = true | x :: _ => b = false /\ dc_Follow d x j = Ok (false, j) end.
Proof.
  induction q as [|x q IH]; intros i c.
  - split; [done|]. intros b j c' [= <- <- <-]. split; [done|]. exists [], []. cbn. split; [done|]. split; [lia|done].
  - cbn [dc_FollowString dc_FollowStringCount]. destruct (dc_Follow d x i) as [[[] j0]| |] eqn:Ef; cbn [mbind res_bind]; try done.
    + destruct (IH j0 (c + 1)%Z) as [IH1 IH2]. split; [done|]. intros b j c' H. destruct (IH2 _ _ _ H) as (H1 & p & t & -> & -> & Hp & Ht).
      split; [done|]. exists (x :: p), t. split; [done|]. split; [cbn; lia|]. cbn [dc_FollowString]. rewrite Ef. cbn [mbind res_bind]. done.
    + split; [done|]. intros b j c' [= <- <- <-]. split; [done|]. exists [], (x :: q). cbn [length app dc_FollowString]. split; [done|]. split; [lia|].
      assert (j0 = i) as ->.
      { unfold dc_Follow in Ef. destruct (get d i) as [u| |]; cbn [mbind res_bind] in Ef; try done. cbv zeta in Ef.
        destruct (get d _) as [n| |]; cbn [mbind res_bind] in Ef; try done. destruct (negb _); congruence. }
      done.
Qed.
Lemma follow_len_take d key n : forall i index count, (i + n <= length key)%nat ->
  follow_len n d key i index count = dc_FollowStringCount d (take n (drop i key)) index count.
Proof.
  induction n as [|n IH]; intros i index count H; [done|].
  destruct (lookup_lt_is_Some_2 key i) as [c Hc]; [lia|]. rewrite (drop_S _ _ _ Hc). cbn [take dc_FollowStringCount follow_len].
  unfold get. rewrite Nat2N.id, Hc. cbn [mbind res_bind]. destruct (dc_Follow d c index) as [[[] j]| |]; cbn [mbind res_bind]; try done.
  apply IH. lia.
Qed.
Lemma Count_0 d q i c : ('(ok, j, _) ← dc_FollowStringCount d q i c; Ok (ok, j)) = dc_FollowString d q i.
Proof.
  revert i c. induction q as [|x q IH]; intros i c; [done|]. cbn [dc_FollowStringCount dc_FollowString].
  destruct (dc_Follow d x i) as [[[] j]| |]; cbn [mbind res_bind]; [apply IH|done|done|done].
Qed.
Lemma FollowLen_take d key n i : (0 <= n <= Z.of_nat (length key))%Z ->
  dc_FollowStringLen d key n i = dc_FollowString d (take (Z.to_nat n) key) i.
Proof.
  intros Hn. unfold dc_FollowStringLen. rewrite follow_len_take by lia. rewrite drop_0. apply Count_0.
Qed.

Section read.
  Context (b : dbuilder) (nb : nat) (R : edges) (asg : list (N * edges)) (ff : list N).
  Context (HB : binv b nb (nb - 16) (256 * N.of_nat nb) R asg [] ff).
  Notation us := (db_units b).
  Let U := bi_u _ _ _ _ _ _ _ _ HB.

  Lemma us_len : length us = (256 * nb)%nat.
  Proof. apply (xi_len _ _ _ (bi_x _ _ _ _ _ _ _ _ HB)). Qed.
  (** Unit [i] is the unit of a node with edges [es]. *)
  Definition dn (i : N) (es : edges) : Prop := exists l, ndp R asg i l es.
  Lemma dn_root : dn 0 R.
  Proof. exists 0. by left. Qed.
  Lemma dn_unit i es : dn i es -> exists u, us !! N.to_nat i = Some u /\ dictIsLeaf u = false /\
    dictHasLeaf u = has0 es /\ (N.lxor i (dictOffset u), es) ∈ asg.
  Proof.
    intros [l H]. destruct (u_nd _ _ _ _ _ _ _ _ U _ _ _ H) as (u & Hu & _ & Hl & [[Hp _]|(_ & Ha & Hh)]); [by apply elem_of_nil in Hp|].
    exists u. done.
  Qed.
  Lemma dn_wf i es : dn i es -> wf (Node es).
  Proof. intros (u & _ & _ & _ & H)%dn_unit. by apply (u_asg _ _ _ _ _ _ _ _ U _ _ H). Qed.
  Lemma dn_kid i u l es es' : us !! N.to_nat i = Some u -> dn i es -> (l, Node es') ∈ es ->
    dn (N.lxor (N.lxor i (dictOffset u)) l) es' /\
    exists u', us !! N.to_nat (N.lxor (N.lxor i (dictOffset u)) l) = Some u' /\ dictLabel u' = l.
  Proof.
    intros Hu H Hl. destruct (dn_unit _ _ H) as (u' & Hu' & _ & _ & Ha). rewrite Hu in Hu'. injection Hu' as <-.
    assert (Hn : ndp R asg (N.lxor (N.lxor i (dictOffset u)) l) l es').
    { right. eexists _, _. split; [exact Ha|]. done. }
    split; [by exists l|]. destruct (u_nd _ _ _ _ _ _ _ _ U _ _ _ Hn) as (u' & Hu' & Hlab & _). exists u'. done.
  Qed.
  Lemma dn_val i u es v : us !! N.to_nat i = Some u -> dn i es -> (0, Leaf v) ∈ es ->
    us !! N.to_nat (N.lxor i (dictOffset u)) = Some (dictSetValue (Z.of_N v)).
  Proof.
    intros Hu H Hl. destruct (dn_unit _ _ H) as (u' & Hu' & _ & _ & Ha). rewrite Hu in Hu'. injection Hu' as <-.
    by apply (u_leaf _ _ _ _ _ _ _ _ U _ _ _ Ha).
  Qed.
  (** A label that is no edge: either the unit found has another label, or it
      holds the value of another node. *)
  Lemma dn_miss i u l es : us !! N.to_nat i = Some u -> dn i es -> l < 256 -> l ∉ es.*1 ->
    exists u', us !! N.to_nat (N.lxor (N.lxor i (dictOffset u)) l) = Some u' /\
    (dictLabel u' <> l \/ exists es' v, (N.lxor (N.lxor i (dictOffset u)) l, es') ∈ asg /\ (0, Leaf v) ∈ es' /\ u' = dictSetValue (Z.of_N v)).
  Proof.
    intros Hu H Hl Hno. destruct (dn_unit _ _ H) as (u' & Hu' & _ & _ & Ha). rewrite Hu in Hu'. injection Hu' as <-.
    set (o := N.lxor i (dictOffset u)) in *. clearbody o. destruct (u_asg _ _ _ _ _ _ _ _ U _ _ Ha) as (Ho0 & Ho & Hw & _).
    assert (Hlt : N.lxor o l < 256 * N.of_nat nb) by (by apply lxor_lt).
    destruct (lookup_lt_is_Some_2 us (N.to_nat (N.lxor o l))) as [u' Hu']; [rewrite us_len; lia|]. exists u'. split; [done|].
    destruct (u_cls _ _ _ _ _ _ _ _ U _ Hlt) as [Hf|[Hown|Hff]].
    - apply (u_free _ _ _ _ _ _ _ _ U) in Hf as (_ & Hf & _). lia.
    - destruct Hown as [H0|(o' & es' & l' & s' & Ha' & Hl' & Heq)].
      + left. destruct (u_nd _ _ _ _ _ _ _ _ U 0 0 R) as (u0 & Hu0 & Hlab & _); [by left|]. rewrite H0, Hu0 in Hu'. injection Hu' as <-.
        rewrite Hlab. intros <-. by rewrite N.lxor_0_r in H0.
      + destruct (u_asg _ _ _ _ _ _ _ _ U _ _ Ha') as (_ & _ & Hw' & _). destruct s' as [v|es2].
        * apply wf_wfe in Hw' as [_ Hw']. destruct (wfe_leaf _ _ _ Hw' Hl') as [-> _]. rewrite N.lxor_0_r in Heq. right. exists es', v.
          rewrite Heq. split; [done|]. split; [done|]. rewrite Heq in Hu'. rewrite (u_leaf _ _ _ _ _ _ _ _ U _ _ _ Ha' Hl') in Hu'. by injection Hu'.
        * left. assert (Hn : ndp R asg (N.lxor o l) l' es2) by (right; by exists o', es').
          destruct (u_nd _ _ _ _ _ _ _ _ U _ _ _ Hn) as (u2 & Hu2 & Hlab & _). rewrite Hu' in Hu2. injection Hu2 as <-. rewrite Hlab. intros ->.
          apply lxor_inj_r in Heq. subst o'. rewrite (asg_fun asg o es es') in Hno by (done || apply U). apply Hno. by eapply fst_in.
    - left. apply (u_ff _ _ _ _ _ _ _ _ U) in Hff as (_ & _ & u2 & Hu2 & _ & Hni). rewrite Hu' in Hu2. injection Hu2 as <-. intros Hlab.
      apply Hni. rewrite Hlab, lxor_cancel. by eapply fst_in.
  Qed.
  (** ** Follow *)
  Lemma get_us i u : us !! N.to_nat i = Some u -> get us i = Ok u.
  Proof. intros H. unfold get. by rewrite H. Qed.
  Lemma Follow_hit i es l es' : dn i es -> (l, Node es') ∈ es -> exists j, dc_Follow us l i = Ok (true, j) /\ dn j es'.
  Proof.
    intros Hd Hl. destruct (dn_unit _ _ Hd) as (u & Hu & _). destruct (dn_kid _ _ _ _ _ Hu Hd Hl) as (Hd' & u' & Hu' & Hlab).
    unfold dc_Follow. rewrite (get_us _ _ Hu). cbn [mbind res_bind]. cbv zeta. rewrite (get_us _ _ Hu'). cbn [mbind res_bind].
    rewrite Hlab, N.eqb_refl. cbn [negb]. by eexists.
  Qed.
  Definition stored (v : N) : Prop := exists o es, (o, es) ∈ asg /\ (0, Leaf v) ∈ es.
  Lemma Follow_miss i es l : dn i es -> l < 256 -> (forall es', (l, Node es') ∉ es) -> (forall v, stored v -> v mod 256 <> l) ->
    dc_Follow us l i = Ok (false, i).
  Proof.
    intros Hd Hl Hno Hs. destruct (dn_unit _ _ Hd) as (u & Hu & _ & _ & Ha). pose proof (dn_wf _ _ Hd) as Hw. apply wf_wfe in Hw as [_ Hw].
    assert (Hmiss : exists u', us !! N.to_nat (N.lxor (N.lxor i (dictOffset u)) l) = Some u' /\ dictLabel u' <> l).
    { assert (Hsv : forall v, stored v -> dictLabel (dictSetValue (Z.of_N v)) <> l).
      { intros v Hv Heq. apply (Hs v Hv). pose proof (setValue_label (Z.of_N v)) as E. rewrite Heq in E. lia. }
      destruct (decide (l ∈ es.*1)) as [Hin|Hin].
      - apply in_fst in Hin as [[v|es'] Hin]; [|by apply Hno in Hin]. destruct (wfe_leaf _ _ _ Hw Hin) as [-> _]. rewrite N.lxor_0_r.
        exists (dictSetValue (Z.of_N v)). split; [by eapply dn_val|]. apply Hsv. by eexists _, _.
      - destruct (dn_miss _ _ _ _ Hu Hd Hl Hin) as (u' & Hu' & [Hne|(es' & v & Ha' & Hv & ->)]); [by exists u'|].
        eexists. split; [exact Hu'|]. apply Hsv. by eexists _, _. }
    destruct Hmiss as (u' & Hu' & Hne). unfold dc_Follow. rewrite (get_us _ _ Hu). cbn [mbind res_bind]. cbv zeta.
    rewrite (get_us _ _ Hu'). cbn [mbind res_bind]. rewrite (proj2 (N.eqb_neq _ _) Hne). done.
  Qed.
  Lemma FollowString_hit i es p es' : dn i es -> tnode es p es' -> exists j, dc_FollowString us p i = Ok (true, j) /\ dn j es'.
  Proof.
    intros Hd Ht. revert i Hd. induction Ht as [es|es l es1 p es' H1 H2 IH]; intros i Hd; [by exists i|].
    destruct (Follow_hit _ _ _ _ Hd H1) as (j & Hf & Hj). destruct (IH _ Hj) as (k & Hk & Hdk). exists k. split; [|done].
    cbn [dc_FollowString]. rewrite Hf. done.
  Qed.
  Lemma HasValue_dn i es : dn i es -> dc_HasValue us i = Ok (has0 es).
  Proof. intros (u & Hu & _ & Hh & _)%dn_unit. unfold dc_HasValue. rewrite (get_us _ _ Hu). cbn [mbind res_bind]. by rewrite Hh. Qed.
  Lemma Value_dn i es v : dn i es -> (0, Leaf v) ∈ es -> dc_Value us i = Ok (Z.of_N v).
  Proof.
    intros Hd Hv. destruct (dn_unit _ _ Hd) as (u & Hu & _). unfold dc_Value. rewrite (get_us _ _ Hu). cbn [mbind res_bind].
    rewrite (get_us _ _ (dn_val _ _ _ _ Hu Hd Hv)). cbn [mbind res_bind]. rewrite setValue_value. f_equal.
    pose proof (dn_wf _ _ Hd) as Hw. apply wf_wfe in Hw as [_ Hw]. destruct (wfe_leaf _ _ _ Hw Hv) as [_ Hlt]. lia.
  Qed.
  (** A query whose first unmatched byte is not the low byte of a stored value. *)
  Definition clean (es : edges) (q : list N) : Prop := forall p c t es1, q = p ++ c :: t -> tnode es p es1 ->
    (forall es2, (c, Node es2) ∉ es1) -> forall v, stored v -> v mod 256 <> c.
  Lemma FollowString_clean q : forall i es, dn i es -> Forall (fun c => c < 256) q -> clean es q ->
    (exists j es', dc_FollowString us q i = Ok (true, j) /\ tnode es q es' /\ dn j es') \/
    (exists j, dc_FollowString us q i = Ok (false, j) /\ forall es', ~ tnode es q es').
  Proof.
    induction q as [|c q IH]; intros i es Hd Hb Hc; [left; exists i, es; split; [done|]; split; [constructor|done]|].
    apply Forall_cons in Hb as [Hb Hbs]. pose proof (dn_wf _ _ Hd) as Hw. apply wf_wfe in Hw as [_ Hw].
    assert (Hdec : (exists es1, (c, Node es1) ∈ es) \/ (forall es1, (c, Node es1) ∉ es)).
    { destruct (decide (c ∈ es.*1)) as [Hin|Hin].
      - apply in_fst in Hin as [[v|es1] Hin]; [right|left; by eexists]. intros es1 H. by pose proof (wfe_lab _ _ _ _ Hw Hin H).
      - right. intros es1 H. apply Hin. by eapply fst_in. }
    cbn [dc_FollowString]. destruct Hdec as [[es1 Hin]|Hno].
    - destruct (Follow_hit _ _ _ _ Hd Hin) as (j & -> & Hj). cbn [mbind res_bind]. destruct (IH j es1 Hj Hbs) as [(k & es' & Hk & Ht & Hdk)|(k & Hk & Hn)].
      + intros p x t es2 -> Ht. apply (Hc (c :: p) x t es2); [done|]. by econstructor.
      + left. exists k, es'. split; [done|]. split; [by econstructor|done].
      + right. exists k. split; [done|]. intros es' Ht. inversion Ht as [|? ? es2 ? ? Hin2 Ht2]; subst.
        pose proof (wfe_lab _ _ _ _ Hw Hin Hin2) as E. injection E as <-. by apply (Hn es').
    - rewrite (Follow_miss _ _ _ Hd Hb Hno); [|apply (Hc [] c q es); [done|constructor|done]]. cbn [mbind res_bind]. right. exists i.
      split; [done|]. intros es' Ht. inversion Ht as [|? ? es2 ? ? Hin2 Ht2]; subst. by apply Hno in Hin2.
  Qed.
  (** ** Every node of [asg] is reached from the root *)
  Lemma par_app l1 l2 : par us [] R (l1 ++ l2) -> par us [] R l2.
  Proof. induction l1 as [|[o es] l1 IH]; [done|]. cbn. intros [_ H]. by apply IH. Qed.
  Lemma reach_ndp n : forall rest l1, length rest = n -> asg = l1 ++ rest -> forall i l es, ndp R rest i l es ->
    exists p, tnode R p es /\ dc_FollowString us p 0 = Ok (true, i).
  Proof.
    induction n as [n IH] using lt_wf_ind. intros rest l1 Hlen Hasg i l es [(-> & _ & ->)|(o & es' & Ha & Hl & ->)]; [exists []; split; [constructor|done]|].
    apply elem_of_list_split in Ha as (r1 & r2 & ->). rewrite app_length in Hlen. cbn in Hlen.
    assert (Hp : par us [] R ((o, es') :: r2)).
    { apply (par_app (l1 ++ r1)). rewrite <- app_assoc, <- Hasg. apply U. }
    destruct Hp as [(i & l' & u & Hn & Hu & _ & Ho) _].
    destruct (IH (length r2)) with (rest := r2) (l1 := l1 ++ r1 ++ [(o, es')]) (i := i) (l := l') (es := es') as (p & Ht & Hf); [lia|done| |done|].
    { rewrite Hasg, <- !app_assoc. done. }
    exists (p ++ [l]). split; [eapply tnode_app; [done|econstructor; [done|constructor]]|].
    rewrite FollowString_app, Hf. cbn [mbind res_bind dc_FollowString].
    assert (Hd : dn i es').
    { exists l'. destruct Hn as [?|(o2 & es2 & H1 & H2 & H3)]; [by left|]. right. exists o2, es2. split; [|done]. rewrite Hasg.
      apply elem_of_app. right. apply elem_of_app. right. by right. }
    destruct (Follow_hit _ _ _ _ Hd Hl) as (j & Hj & _). rewrite Hj. cbn [mbind res_bind].
    unfold dc_Follow in Hj. rewrite (get_us _ _ Hu) in Hj. cbn [mbind res_bind] in Hj. cbv zeta in Hj. rewrite Ho in Hj.
    destruct (get us (N.lxor o l)); cbn [mbind res_bind] in Hj; try done. destruct (negb _); congruence.
  Qed.
  Lemma reach_dn i es : dn i es -> exists p, tnode R p es /\ dc_FollowString us p 0 = Ok (true, i).
  Proof. intros [l H]. by apply (reach_ndp (length asg) asg [] eq_refl eq_refl i l es). Qed.
  Lemma reach_asg o es : (o, es) ∈ asg -> exists p i u, tnode R p es /\ dc_FollowString us p 0 = Ok (true, i) /\ dn i es /\
    us !! N.to_nat i = Some u /\ o = N.lxor i (dictOffset u).
  Proof.
    intros Ha. apply elem_of_list_split in Ha as (r1 & r2 & E).
    assert (Hp : par us [] R ((o, es) :: r2)) by (apply (par_app r1); rewrite <- E; apply U).
    destruct Hp as [(i & l' & u & Hn & Hu & _ & Ho) _].
    destruct (reach_ndp (length r2) r2 (r1 ++ [(o, es)]) eq_refl) with (i := i) (l := l') (es := es) as (p & Ht & Hf); [by rewrite <- app_assoc|done|].
    exists p, i, u. split; [done|]. split; [done|]. split; [|done]. exists l'. destruct Hn as [?|(o2 & es2 & H1 & H2 & H3)]; [by left|].
    right. exists o2, es2. split; [|done]. rewrite E. apply elem_of_app. right. by right.
  Qed.
  Lemma stored_ent v : stored v -> exists k, (k, v) ∈ ent_es R.
  Proof.
    intros (o & es & Ha & Hv). destruct (u_asg _ _ _ _ _ _ _ _ U _ _ Ha) as (_ & _ & _ & p & Ht). exists p.
    apply ent_in; [|by exists es]. apply wf_wfe. apply U.
  Qed.
  (** ** Units in use *)
  Definition reached (i : N) : Prop := (exists p es, tnode R p es /\ dc_FollowString us p 0 = Ok (true, i)) \/
    (exists p es v j u, tnode R p es /\ (0, Leaf v) ∈ es /\ dc_FollowString us p 0 = Ok (true, j) /\ us !! N.to_nat j = Some u /\ i = N.lxor j (dictOffset u)).
  Lemma dn_owned i es : dn i es -> owned asg i.
  Proof. intros [l H]. by eapply ndp_owned. Qed.
  Lemma reached_owned i : reached i <-> owned asg i.
  Proof.
    split.
    - intros [(p & es & Ht & Hf)|(p & es & v & j & u & Ht & Hv & Hf & Hu & ->)]; destruct (FollowString_hit 0 R p es dn_root Ht) as (k & Hk & Hd);
        rewrite Hf in Hk; injection Hk as <-; [by eapply dn_owned|].
      destruct (dn_unit _ _ Hd) as (u' & Hu' & _ & _ & Ha). rewrite Hu in Hu'. injection Hu' as <-. right.
      exists (N.lxor j (dictOffset u)), es, 0, (Leaf v). split; [done|]. split; [done|]. by rewrite N.lxor_0_r.
    - intros [->|(o & es & l & s & Ha & Hl & ->)]; [left; exists [], R; split; [constructor|done]|].
      destruct (u_asg _ _ _ _ _ _ _ _ U _ _ Ha) as (_ & _ & Hw & _). apply wf_wfe in Hw as [_ Hw]. destruct s as [v|es'].
      + destruct (wfe_leaf _ _ _ Hw Hl) as [-> _]. right. destruct (reach_asg _ _ Ha) as (p & i & u & Ht & Hf & Hd & Hu & ->).
        exists p, es, v, i, u. rewrite N.lxor_0_r. done.
      + left. destruct (reach_dn (N.lxor o l) es') as (p & Ht & Hf); [|by exists p, es']. exists l. right. by exists o, es.
  Qed.
  Lemma ff_unused i : i ∈ ff <-> i < 256 * N.of_nat nb /\ ~ reached i.
  Proof.
    rewrite reached_owned. split.
    - intros H. apply (u_ff _ _ _ _ _ _ _ _ U) in H as (H & Hn & _). done.
    - intros [H Hn]. destruct (u_cls _ _ _ _ _ _ _ _ U i H) as [Hf|[?|?]]; [|done|done]. apply (u_free _ _ _ _ _ _ _ _ U) in Hf as (_ & Hf & _). lia.
  Qed.
End read.
