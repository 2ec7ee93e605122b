(** Invariant of the dictionary builder. *)
From Verif Require Import Go BitPool LinkTable Dawg DawgRep Tree TreeFacts Dict DictUnit DictX DictGrow.
Local Open Scope N_scope.
Local Ltac Zify.zify_post_hook ::= Z.div_mod_to_equations.
Local Arguments N.mul : simpl never.
Local Arguments N.add : simpl never.
Local Arguments N.of_nat : simpl never.
Local Arguments N.lxor : simpl never.

(** ** Xor inside a block *)
Lemma lxor_div a b : N.lxor a b / 256 = N.lxor (a / 256) (b / 256).
Proof. change 256 with (2 ^ 8). by rewrite <- !N.shiftr_div_pow2, N.shiftr_lxor. Qed.
Lemma lxor_block o l : l < 256 -> N.lxor o l / 256 = o / 256.
Proof. intros H. rewrite lxor_div, (N.div_small l) by done. apply N.lxor_0_r. Qed.
Lemma lxor_cancel a b : N.lxor (N.lxor a b) b = a.
Proof. by rewrite N.lxor_assoc, N.lxor_nilpotent, N.lxor_0_r. Qed.
Lemma lxor_cancel_l a b : N.lxor a (N.lxor a b) = b.
Proof. by rewrite <- N.lxor_assoc, N.lxor_nilpotent, N.lxor_0_l. Qed.
Lemma lxor_inj_r a b c : N.lxor a c = N.lxor b c -> a = b.
Proof. intros H. by rewrite <- (lxor_cancel a c), H, lxor_cancel. Qed.
Lemma lxor_inj_l a b c : N.lxor a b = N.lxor a c -> b = c.
Proof. intros H. by rewrite <- (lxor_cancel_l a b), H, lxor_cancel_l. Qed.
Lemma lxor_eq_iff a b c : N.lxor a b = c <-> a = N.lxor c b.
Proof. split; [intros <-; by rewrite lxor_cancel|intros ->; by rewrite lxor_cancel]. Qed.
Lemma lxor_same_block a b : a / 256 = b / 256 -> N.lxor a b < 256.
Proof.
  intros H. assert (E : N.lxor a b / 256 = 0) by (rewrite lxor_div, H; apply N.lxor_nilpotent).
  lia.
Qed.
Lemma lxor_lt o l n : l < 256 -> o < 256 * n -> N.lxor o l < 256 * n.
Proof. intros Hl Ho. pose proof (lxor_block o l Hl). lia. Qed.
Lemma lxor_ge o l n : l < 256 -> 256 * n <= o -> 256 * n <= N.lxor o l.
Proof. intros Hl Ho. pose proof (lxor_block o l Hl). lia. Qed.

(** ** Ghost state *)
(** [asg]: the offsets given to nodes, latest first, with the edges placed there.
    [ff]: units that no node uses, filled by fixBlock.  [pd]: units of nodes that
    have no offset yet.  [R]: the edges of the root, whose unit is 0. *)
Definition ndp (R : edges) (asg : list (N * edges)) (i l : N) (es : edges) : Prop :=
  (i = 0 /\ l = 0 /\ es = R) \/ exists o es', (o, es') ∈ asg /\ (l, Node es) ∈ es' /\ i = N.lxor o l.
Definition owned (asg : list (N * edges)) (i : N) : Prop :=
  i = 0 \/ exists o es l s, (o, es) ∈ asg /\ (l, s) ∈ es /\ i = N.lxor o l.
Definition has0 (es : edges) : bool := match es with (0, _) :: _ => true | _ => false end.
Fixpoint par (us : list N) (pd : list N) (R : edges) (asg : list (N * edges)) : Prop :=
  match asg with
  | [] => True
  | (o, es) :: rest =>
      (exists i l u, ndp R rest i l es /\ us !! N.to_nat i = Some u /\ i ∉ pd /\ N.lxor i (dictOffset u) = o) /\ par us pd R rest
  end.

Record uinv (us : list N) (x : N -> option extra) (nb : nat) (fr : N) (R : edges)
    (asg : list (N * edges)) (pd ff : list N) : Prop := mkUI {
  u_R : wf (Node R);
  u_lt : Forall (fun u => u < two32) us;
  u_free : forall i, free x i -> us !! N.to_nat i = Some 0 /\ fr <= i /\ ~ owned asg i;
  u_used : forall i e, x i = Some e -> ex_isUsed e = true <-> i = 0 \/ i ∈ asg.*1;
  u_cls : forall i, i < 256 * N.of_nat nb -> free x i \/ owned asg i \/ i ∈ ff;
  u_ff : forall i, i ∈ ff -> i < fr /\ ~ owned asg i /\
    exists u, us !! N.to_nat i = Some u /\ N.lxor i (dictLabel u) <> 0 /\ N.lxor i (dictLabel u) ∉ asg.*1;
  u_ffnd : NoDup ff;
  u_asg : forall o es, (o, es) ∈ asg -> o <> 0 /\ o < 256 * N.of_nat nb /\ wf (Node es) /\ exists p, tnode R p es;
  u_nodup : NoDup asg.*1;
  u_disj : forall o es l s o' es' l' s', (o, es) ∈ asg -> (l, s) ∈ es -> (o', es') ∈ asg -> (l', s') ∈ es' ->
    N.lxor o l = N.lxor o' l' -> o = o';
  u_root : forall o es l s, (o, es) ∈ asg -> (l, s) ∈ es -> N.lxor o l <> 0;
  u_leaf : forall o es v, (o, es) ∈ asg -> (0, Leaf v) ∈ es -> us !! N.to_nat o = Some (dictSetValue (Z.of_N v));
  u_nd : forall i l es, ndp R asg i l es -> exists u, us !! N.to_nat i = Some u /\ dictLabel u = l /\ dictIsLeaf u = false /\
    ((i ∈ pd /\ dictHasLeaf u = false) \/ (i ∉ pd /\ (N.lxor i (dictOffset u), es) ∈ asg /\ dictHasLeaf u = has0 es));
  u_par : par us pd R asg;
  u_pd : NoDup pd /\ forall i, i ∈ pd -> exists l es, ndp R asg i l es }.

Record binv (b : dbuilder) (nb q : nat) (fr : N) (R : edges) (asg : list (N * edges)) (pd ff : list N) : Prop := mkBI {
  bi_x : xinv b nb q;
  bi_u : uinv (db_units b) (X b) nb fr R asg pd ff;
  bi_fr : 256 * N.of_nat q <= fr <= 256 * N.of_nat nb;
  bi_un : db_unused b = N.of_nat (length ff) }.

Lemma wf_lab es l s : wf (Node es) -> (l, s) ∈ es -> l < 256.
Proof. intros H Hl. apply wf_wfe in H as [_ H]. by apply (wfe_in es (l, s) H Hl). Qed.
Lemma fst_in {A B} (l : list (A * B)) a b : (a, b) ∈ l -> a ∈ l.*1.
Proof. intros H. apply elem_of_list_fmap. by exists (a, b). Qed.
Lemma in_fst {A B} (l : list (A * B)) a : a ∈ l.*1 -> exists b, (a, b) ∈ l.
Proof. intros ([a' b] & -> & H)%elem_of_list_fmap. by exists b. Qed.
Lemma asg_fun (asg : list (N * edges)) o es es' : NoDup asg.*1 -> (o, es) ∈ asg -> (o, es') ∈ asg -> es = es'.
Proof.
  induction asg as [|[a e] asg IH]; cbn; intros Hnd H1 H2; [by apply elem_of_nil in H1|]. apply NoDup_cons in Hnd as [Hn Hnd].
  apply elem_of_cons in H1 as [H1|H1], H2 as [H2|H2]; simplify_eq; [done| | |by apply IH]; exfalso; apply Hn; by eapply fst_in.
Qed.
Lemma has0_in es : wfe es -> has0 es = true <-> exists v, (0, Leaf v) ∈ es.
Proof.
  intros Hw. split.
  - destruct es as [|[[|l] s] es]; try done. intros _. destruct (wfe_zero _ s Hw) as [v ->]; [constructor|]. exists v. constructor.
  - intros [v H]. destruct es as [|[l s] es]; [by apply elem_of_nil in H|]. apply elem_of_cons in H as [H|H]; [by simplify_eq|].
    destruct Hw as [Ha _]. unfold asc in Ha. cbn in Ha. inversion Ha as [|? ? _ Hall]; subst. rewrite Forall_forall in Hall.
    apply fst_in in H. apply Hall in H. lia.
Qed.

Lemma par_ext us us' pd pd' R asg : (forall i l es, ndp R asg i l es -> i ∉ pd -> i ∉ pd' /\ us' !! N.to_nat i = us !! N.to_nat i) ->
  par us pd R asg -> par us' pd' R asg.
Proof.
  induction asg as [|[o es] asg IH]; cbn [par]; intros Hx Hp; [done|]. destruct Hp as [(i & l & u & Hn & Hu & Hi & Ho) Hp]. split.
  - assert (Hn' : ndp R ((o, es) :: asg) i l es).
    { destruct Hn as [?|(o' & es' & H1 & H2 & H3)]; [by left|]. right. exists o', es'. split; [by constructor|done]. }
    destruct (Hx _ _ _ Hn' Hi) as [Hi' Hu']. exists i, l, u. rewrite Hu'. done.
  - apply IH; [|done]. intros i' l' es' Hn'. apply (Hx i' l' es'). destruct Hn' as [?|(o' & es2 & H1 & H2 & H3)]; [by left|].
    right. exists o', es2. split; [by constructor|done].
Qed.
Lemma ndp_owned R asg i l es : ndp R asg i l es -> owned asg i.
Proof. intros [(-> & _)|(o & es' & H1 & H2 & ->)]; [by left|]. right. by exists o, es', l, (Node es). Qed.

(** Owned units of a block are at least as many as its used offsets: a block
    with a free unit has an offset that is not used. *)
Lemma block_unused us x nb fr R asg pd ff k i : uinv us x nb fr R asg pd ff ->
  (forall t, (t < 256)%nat -> exists e, x (256 * k + N.of_nat t) = Some e /\ ex_isUsed e = true) ->
  i / 256 = k -> ~ free x i.
Proof.
  intros HU Hall Hi Hf.
  (* each used offset owns a unit of the block *)
  assert (Hown : forall t, (t < 256)%nat -> exists l, l < 256 /\ let o := 256 * k + N.of_nat t in
    (o = 0 /\ l = 0) \/ exists es s, (o, es) ∈ asg /\ (l, s) ∈ es).
  { intros t Ht. destruct (Hall t Ht) as (e & He & Hu). apply (u_used _ _ _ _ _ _ _ _ HU _ _ He) in Hu as [Hu|Hu].
    - exists 0. split; [lia|]. by left.
    - apply in_fst in Hu as [es Hes]. destruct (u_asg _ _ _ _ _ _ _ _ HU _ _ Hes) as (_ & _ & Hw & _).
      destruct es as [|[l s] es]; [by inversion Hw|]. exists l. split; [eapply wf_lab; [done|constructor]|]. right.
      eexists _, s. split; [done|constructor]. }
  assert (Hch : exists f : nat -> N, forall t, (t < 256)%nat -> f t < 256 /\ let o := 256 * k + N.of_nat t in
    (o = 0 /\ f t = 0) \/ exists es s, (o, es) ∈ asg /\ (f t, s) ∈ es).
  { clear - Hown. revert Hown. generalize (fun (t : nat) l => l < 256 /\ let o := 256 * k + N.of_nat t in
      (o = 0 /\ l = 0) \/ exists es s, (o, es) ∈ asg /\ (l, s) ∈ es). intros P.
    generalize 256%nat. intros n. induction n as [|n IH]; intros H; [by exists (fun _ => 0); lia|].
    destruct IH as [f Hf]; [intros t Ht; apply H; lia|]. destruct (H n) as [l Hl]; [lia|].
    exists (fun t => if decide (t = n) then l else f t). intros t Ht. destruct (decide (t = n)) as [->|]; [done|]. apply Hf. lia. }
  destruct Hch as [f Hch].
  set (u := fun t : nat => N.lxor (256 * k + N.of_nat t) (f t)).
  assert (Hu : forall t, (t < 256)%nat -> owned asg (u t) /\ u t / 256 = k).
  { intros t Ht. destruct (Hch t Ht) as [Hl Ho]. cbv zeta in Ho. unfold u. split; [|rewrite lxor_block by done; lia].
    destruct Ho as [[-> ->]|(es & s & H1 & H2)]; [by left|]. right. by eexists _, es, (f t), s. }
  assert (Hinj : forall t t', (t < 256)%nat -> (t' < 256)%nat -> u t = u t' -> t = t').
  { intros t t' Ht Ht' He. destruct (Hch t Ht) as [Hl Ho]. destruct (Hch t' Ht') as [Hl' Ho']. cbv zeta in Ho, Ho'. unfold u in He.
    assert (256 * k + N.of_nat t = 256 * k + N.of_nat t'); [|lia].
    destruct Ho as [[E1 E2]|(es & s & H1 & H2)], Ho' as [[E3 E4]|(es' & s' & H3 & H4)].
    - lia.
    - exfalso. apply (u_root _ _ _ _ _ _ _ _ HU _ _ _ _ H3 H4). rewrite <- He, E1, E2. done.
    - exfalso. apply (u_root _ _ _ _ _ _ _ _ HU _ _ _ _ H1 H2). rewrite He, E3, E4. done.
    - by eapply (u_disj _ _ _ _ _ _ _ _ HU). }
  assert (Hperm : (u <$> seq 0 256) ≡ₚ ((fun t => 256 * k + N.of_nat t) <$> seq 0 256)).
  { apply submseteq_Permutation_length_eq; [rewrite !fmap_length; done|]. apply NoDup_submseteq.
    - apply NoDup_fmap_2_strong; [|apply NoDup_seq]. intros t t' Ht Ht'. apply elem_of_seq in Ht, Ht'. apply Hinj; lia.
    - intros y (t & -> & Ht)%elem_of_list_fmap. apply elem_of_seq in Ht. destruct (Hu t ltac:(lia)) as [_ Hd].
      apply elem_of_list_fmap. exists (N.to_nat (u t mod 256)). split; [lia|]. apply elem_of_seq. lia. }
  assert (Hin : i ∈ u <$> seq 0 256).
  { rewrite Hperm. apply elem_of_list_fmap. exists (N.to_nat (i mod 256)). split; [lia|]. apply elem_of_seq. lia. }
  apply elem_of_list_fmap in Hin as (t & -> & Ht). apply elem_of_seq in Ht.
  destruct (u_free _ _ _ _ _ _ _ _ HU _ Hf) as (_ & _ & Hno). apply Hno. apply Hu. lia.
Qed.

(** ** findUnused *)
Lemma findUnused_ok n : forall b i, (forall t, (t < n)%nat -> is_Some (X b (i + N.of_nat t))) -> i + N.of_nat n < 4294967296 ->
  exists w, findUnused n b i = Ok w /\
    ((i <= w < i + N.of_nat n /\ exists e, X b w = Some e /\ ex_isUsed e = false) \/
     (w = 0 /\ forall t, (t < n)%nat -> exists e, X b (i + N.of_nat t) = Some e /\ ex_isUsed e = true)).
Proof.
  induction n as [|n IH]; intros b i Hd Hlt; cbn [findUnused].
  - exists 0. split; [done|]. right. split; [done|]. lia.
  - destruct (Hd 0%nat) as [e He]; [lia|]. rewrite N.add_0_r in He. rewrite (db_extra_xt _ _ _ He). cbn [mbind res_bind].
    destruct (ex_isUsed e) eqn:Hu; cbn [negb].
    + rewrite u32_small by lia. destruct (IH b (i + 1)) as (w & Hw & Hc); [|lia|].
      { intros t Ht. replace (i + 1 + N.of_nat t) with (i + N.of_nat (S t)) by lia. apply Hd. lia. }
      exists w. split; [done|]. destruct Hc as [[Hr Hw2]|[-> Hw2]]; [left; split; [lia|done]|].
      right. split; [done|]. intros [|t] Ht; [rewrite N.add_0_r; eauto|].
      replace (i + N.of_nat (S t)) with (i + 1 + N.of_nat t) by lia. apply Hw2. lia.
    + exists i. split; [done|]. left. split; [lia|]. eauto.
Qed.

(** ** fixBlock *)
Definition rsv_ok (reserve : dbuilder -> N -> res dbuilder) : Prop :=
  forall b nb q i, xinv b nb q -> i < 256 * N.of_nat nb -> reserve b i = unlinkUnit b i.
Lemma rsv_in : rsv_ok reserve_in.
Proof. intros b nb q i HI Hi. unfold reserve_in. rewrite (xi_units _ _ _ HI). destruct (N.leb_spec (256 * N.of_nat nb) i); [lia|done]. Qed.
Lemma rsv_unit : rsv_ok reserveUnit.
Proof. intros b nb q i HI Hi. unfold reserveUnit. rewrite (xi_units _ _ _ HI). destruct (N.leb_spec (256 * N.of_nat nb) i); [lia|done]. Qed.

Definition kept_units (b b' : dbuilder) : Prop :=
  db_link b' = db_link b /\ forall i, ~ free (X b) i -> (N.to_nat i < length (db_units b))%nat -> ~ free (X b') i /\ db_units b' !! N.to_nat i = db_units b !! N.to_nat i.
Lemma kept_refl b : kept_units b b. Proof. done. Qed.
Lemma kept_trans b1 b2 b3 : (length (db_units b1) <= length (db_units b2))%nat -> kept_units b1 b2 -> kept_units b2 b3 -> kept_units b1 b3.
Proof.
  intros Hl [H1 H2] [H3 H4]. split; [congruence|]. intros i Hi Hlt. destruct (H2 i Hi Hlt) as [H5 H6]. destruct (H4 i H5) as [H7 H8]; [lia|].
  split; [done|congruence].
Qed.

Lemma unit_lookup us (P : N -> Prop) i : Forall P us -> (N.to_nat i < length us)%nat -> exists u, us !! N.to_nat i = Some u /\ P u.
Proof.
  intros H Hi. destruct (lookup_lt_is_Some_2 us (N.to_nat i) Hi) as [u Hu]. exists u. split; [done|]. by eapply Forall_lookup_1.
Qed.

(** A used-set that did not change, and a free set that lost [i]. *)
Lemma binv_skip b nb q fr R asg pd ff : binv b nb q fr R asg pd ff -> ~ free (X b) fr -> fr < 256 * N.of_nat nb ->
  binv b nb q (fr + 1) R asg pd ff.
Proof.
  intros [HX HU Hfr Hun] Hno Hlt. constructor; [done| |lia|done]. destruct HU. constructor; try done.
  - intros i Hi. destruct (u_free0 i Hi) as (? & ? & ?). split; [done|]. split; [|done].
    destruct (decide (i = fr)) as [->|]; [done|lia].
  - intros i Hi. destruct (u_ff0 i Hi) as (? & ?). split; [lia|done].
Qed.

Lemma same_block_label i w : i / 256 = w / 256 -> N.lxor i (u8 (N.lxor i w)) = w.
Proof. intros H. apply lxor_same_block in H. unfold u8. rewrite N.mod_small by done. apply lxor_cancel_l. Qed.

Lemma fix_step reserve b nb q fr R asg pd ff w e : rsv_ok reserve -> binv b nb q fr R asg pd ff -> fr < 256 * N.of_nat nb ->
  free (X b) fr -> w / 256 = fr / 256 -> X b w = Some e -> ex_isUsed e = false -> exists b1 us b',
    reserve b fr = Ok b1 /\ upd (db_units b1) fr (fun u => dictSetLabel u (u8 (N.lxor fr w))) = Ok us /\
    b' = dbset_unused (dbset_units b1 us) (u32 (db_unused b1 + 1)) /\
    binv b' nb q (fr + 1) R asg pd (fr :: ff) /\ kept_units b b' /\ (forall j, used (X b') j <-> used (X b) j) /\
    length (db_units b') = length (db_units b).
Proof.
  intros Hr HB Hlt Hf Hw He Hu. pose proof HB as [HX HU Hfr Hun].
  destruct (unlink_ok b nb q fr HX Hf) as (b1 & H1 & HX1 & (Hs1 & Hs2 & Hs3) & Hfree & Hused).
  rewrite (Hr b nb q fr HX Hlt).
  destruct (u_free _ _ _ _ _ _ _ _ HU _ Hf) as (Hz & _ & Hno).
  set (lab := u8 (N.lxor fr w)). set (us := <[N.to_nat fr := dictSetLabel 0 lab]> (db_units b1)).
  exists b1, us. eexists. split; [done|]. split; [rewrite (upd_N _ _ _ 0) by (by rewrite Hs3); done|]. split; [reflexivity|].
  assert (Hlab : lab < 256) by (unfold lab, u8; lia).
  assert (Hlook : forall i, i <> fr -> us !! N.to_nat i = db_units b !! N.to_nat i).
  { intros i Hi. unfold us. rewrite list_lookup_insert_ne by lia. by rewrite Hs3. }
  assert (Hlen : length us = length (db_units b)) by (unfold us; rewrite insert_length; by rewrite Hs3).
  assert (Hul : (length ff <= 256 * nb)%nat).
  { transitivity (length (seq 0 (256 * nb))); [|by rewrite seq_length]. rewrite <- (fmap_length N.to_nat ff). apply submseteq_length, NoDup_submseteq.
    - apply NoDup_fmap_2; [intros ? ?; lia|apply HU].
    - intros y (z & -> & Hz2)%elem_of_list_fmap. apply elem_of_seq. apply (u_ff _ _ _ _ _ _ _ _ HU) in Hz2. lia. }
  pose proof (xi_lim _ _ _ HX) as Hlim.
  split; [|split; [|split; [|done]]].
  - constructor; cbn [db_units db_extras db_unused dbset_units dbset_unused].
    + destruct HX1. constructor; cbn [db_units db_extras db_unfixed dbset_units dbset_unused]; try done. by rewrite Hlen, <- Hs3.
    + destruct HU. constructor; try done.
      * unfold us. apply Forall_insert; [by rewrite Hs3|]. apply setLabel_lt; [done|unfold two32; lia].
      * intros i Hi. apply Hfree in Hi as [Hi Hne]. destruct (u_free0 i Hi) as (? & ? & ?). rewrite Hlook by done. split; [done|]. split; [lia|done].
      * intros i ei Hi. assert (Hui : used (X b1) i <-> used (X b) i) by apply Hused.
        assert (is_Some (X b i)) as [ei' Hi'].
        { apply (shape_xt _ _ _ i (xi_shape _ _ _ HX)). apply (shape_xt _ _ _ i (xi_shape _ _ _ HX1)). eauto. }
        rewrite <- (u_used0 i ei' Hi'). unfold used in Hui. rewrite Hi, Hi' in Hui. split; intros H.
        -- destruct (proj1 Hui) as (y & Hy & ?); [eauto|]. congruence.
        -- destruct (proj2 Hui) as (y & Hy & ?); [eauto|]. congruence.
      * intros i Hi. destruct (decide (i = fr)) as [->|Hne]; [right; right; constructor|].
        destruct (u_cls0 i Hi) as [?|[?|?]]; [left; by apply Hfree|by right; left|right; right; by constructor].
      * intros i Hi. apply elem_of_cons in Hi as [->|Hi].
        -- split; [lia|]. split; [done|]. eexists. split; [unfold us; rewrite list_lookup_insert; [reflexivity|]|].
           { rewrite Hs3, (xi_len _ _ _ HX). lia. }
           rewrite setLabel_label by done. unfold lab. rewrite same_block_label by done.
           pose proof (u_used0 w e He) as Hx. rewrite Hu in Hx. split; intros Hc.
           ++ discriminate (proj2 Hx (or_introl Hc)).
           ++ discriminate (proj2 Hx (or_intror Hc)).
        -- destruct (u_ff0 i Hi) as (? & ?). rewrite Hlook by lia. split; [lia|done].
      * apply NoDup_cons. split; [|done]. intros Hi. apply u_ff0 in Hi. lia.
      * intros o es v Ho Hv. rewrite Hlook; [by eapply u_leaf0|]. intros ->. apply Hno. right. exists fr, es, 0, (Leaf v).
        by rewrite N.lxor_0_r.
      * intros i l es Hn. rewrite Hlook; [by apply u_nd0|]. intros ->. by apply Hno, (ndp_owned R asg fr l es).
      * eapply par_ext; [|exact u_par0]. intros i l es Hn Hi. split; [done|]. apply Hlook. intros ->. by apply Hno, (ndp_owned R asg fr l es).
    + lia.
    + rewrite Hs2, Hun, u32_small; cbn [length]; lia.
  - split; [done|]. intros i Hi Hil. cbn [db_units db_extras dbset_units dbset_unused]. split; [rewrite Hfree; tauto|]. apply Hlook. by intros ->.
  - done.
Qed.

Lemma fix_loop reserve w n : rsv_ok reserve -> forall fr b nb q R asg pd ff, binv b nb q fr R asg pd ff ->
  fr + N.of_nat n <= 256 * N.of_nat nb -> 256 * N.of_nat q <= fr ->
  (forall i, fr <= i < fr + N.of_nat n -> free (X b) i -> w / 256 = i / 256 /\ exists e, X b w = Some e /\ ex_isUsed e = false) ->
  exists b' ff', for_range n fr (fun index b =>
    e ← db_extra b index;
    if ex_isFixed e then Ok b else
    b ← reserve b index;
    us ← upd (db_units b) index (fun u => dictSetLabel u (u8 (N.lxor index w)));
    Ok (dbset_unused (dbset_units b us) (u32 (db_unused b + 1)))) b = Ok b' /\
    binv b' nb q (fr + N.of_nat n) R asg pd ff' /\ kept_units b b' /\ (forall j, used (X b') j <-> used (X b) j) /\
    length (db_units b') = length (db_units b).
Proof.
  intros Hr. induction n as [|n IH]; intros fr b nb q R asg pd ff HB Hn Hq Hw; cbn [for_range].
  - exists b, ff. rewrite N.add_0_r. done.
  - pose proof (bi_x _ _ _ _ _ _ _ _ HB) as HX. destruct (proj2 (shape_xt _ _ _ fr (xi_shape _ _ _ HX))) as [e He]; [lia|].
    pose proof (xi_lim _ _ _ HX) as Hlim.
    rewrite (db_extra_xt _ _ _ He). cbn [mbind res_bind]. rewrite (u32_small (fr + 1)) by lia. destruct (ex_isFixed e) eqn:Hf; cbn [mbind res_bind].
    + destruct (IH (fr + 1) b nb q R asg pd ff) as (b' & ff' & H' & HB' & Hk & Hus & Hln).
      * apply binv_skip; [done| |lia]. intros (e' & He' & Hf'). congruence.
      * lia.
      * lia.
      * intros i Hi. apply Hw. lia.
      * exists b', ff'. replace (fr + N.of_nat (S n)) with (fr + 1 + N.of_nat n) by lia. done.
    + assert (Hfree : free (X b) fr) by (by exists e). destruct (Hw fr) as [Hwb (ew & Hew & Huw)]; [lia|done|].
      destruct (fix_step reserve b nb q fr R asg pd ff w ew Hr HB) as (b1 & us & b2 & H1 & H2 & H3 & HB2 & Hk & Hus & Hln); [lia|done|done|done|done|].
      rewrite H1. cbn [mbind res_bind]. rewrite H2. cbn [mbind res_bind]. rewrite <- H3.
      destruct (IH (fr + 1) b2 nb q R asg pd (fr :: ff) HB2) as (b' & ff' & H' & HB' & Hk' & Hus' & Hln'); [lia|lia| |].
      * intros i Hi Hfi. assert (free (X b) i).
        { destruct (free_dec (X b) i) as [|Hnf]; [done|]. destruct Hk as [_ Hk]. exfalso. apply (Hk i Hnf); [|done].
          rewrite (xi_len _ _ _ HX). lia. }
        destruct (Hw i) as [Hwb' _]; [lia|done|]. split; [done|].
        assert (is_Some (X b2 w)) as [e2 He2].
        { apply (shape_xt _ _ _ w (xi_shape _ _ _ (bi_x _ _ _ _ _ _ _ _ HB2))). apply (shape_xt _ _ _ w (xi_shape _ _ _ HX)). eauto. }
        exists e2. split; [done|]. destruct (ex_isUsed e2) eqn:E; [|done]. destruct (proj1 (Hus w)) as (y & Hy & ?); [by exists e2|]. congruence.
      * exists b', ff'. replace (fr + N.of_nat (S n)) with (fr + 1 + N.of_nat n) by lia. split; [done|]. split; [done|].
        split; [eapply kept_trans; [|done|done]; lia|]. split; [|lia]. intros j. by rewrite Hus'.
Qed.

Lemma fixBlock_ok reserve b nb q k R asg pd ff : rsv_ok reserve -> binv b nb q (256 * N.of_nat k) R asg pd ff ->
  (q <= k < nb)%nat -> exists b' ff', fixBlock_with reserve b (N.of_nat k) = Ok b' /\
    binv b' nb q (256 * N.of_nat (S k)) R asg pd ff' /\ kept_units b b' /\ (forall j, used (X b') j <-> used (X b) j) /\
    length (db_units b') = length (db_units b).
Proof.
  intros Hr HB Hk. unfold fixBlock_with, blockSize. pose proof (bi_x _ _ _ _ _ _ _ _ HB) as HX. pose proof (xi_lim _ _ _ HX) as Hlim.
  replace (u32 (N.of_nat k * 256)) with (256 * N.of_nat k) by (rewrite u32_small; lia).
  destruct (findUnused_ok 256 b (256 * N.of_nat k)) as (w & Hw & Hc); [|lia|].
  { intros t Ht. apply (shape_xt _ _ _ _ (xi_shape _ _ _ HX)). lia. }
  rewrite Hw. cbn [mbind res_bind].
  destruct (fix_loop reserve w 256 Hr (256 * N.of_nat k) b nb q R asg pd ff HB) as (b' & ff' & H' & HB' & Hrest); [lia|lia| |].
  - intros i Hi Hf. destruct Hc as [[Hc He]|[-> Hall]]; [split; [lia|done]|]. exfalso.
    eapply (block_unused _ _ _ _ _ _ _ _ (N.of_nat k) i); [apply HB|exact Hall|lia|done].
  - exists b', ff'. split; [done|]. split; [|done]. replace (256 * N.of_nat (S k)) with (256 * N.of_nat k + N.of_nat 256) by lia. done.
Qed.
