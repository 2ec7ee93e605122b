(** Built guides, ranked guides and indexes hold bytes and 32-bit numbers, so that
    they can be written. *)
From Verif Require Import Go Dawg Dict Guide Index Ranked.
Local Open Scope N_scope.
Local Arguments N.mul : simpl never.
Local Arguments N.add : simpl never.
Local Arguments N.of_nat : simpl never.

Lemma bind_Ok {A B} (m : res A) (f : A -> res B) b : m ≫= f = Ok b -> exists a, m = Ok a /\ f a = Ok b.
Proof. destruct m as [a| |]; [|done|done]. intros H. by exists a. Qed.
Ltac bnd H a E := apply bind_Ok in H as (a & E & H).
Lemma upd_Forall {A} (P : A -> Prop) l i f l' : Forall P l -> (forall x, P x -> P (f x)) -> upd l i f = Ok l' -> Forall P l'.
Proof.
  intros Hl Hf H. unfold upd in H. bnd H x E. unfold get in E. unfold set in H. destruct (l !! N.to_nat i) as [y|] eqn:Ey; [|done]. injection E as ->. injection H as <-.
  apply Forall_insert; [done|]. apply Hf. rewrite Forall_lookup in Hl. by apply (Hl (N.to_nat i)).
Qed.
Lemma Follow_label us l i j : dc_Follow us l i = Ok (true, j) -> l < 256.
Proof.
  intros H. unfold dc_Follow in H. bnd H u E. bnd H n E2. destruct (N.eqb_spec (dictLabel n) l) as [<-|]; cbn [negb] in H; [|done].
  unfold dictLabel, u8. by apply N.mod_lt.
Qed.

Notation gu_ok := (fun x : N * N => x.1 < 256 /\ x.2 < 256).
Section guide.
  Context (d : dawg) (us : dict).
  Lemma gb_loop_label rec dictIndex n g c g' : gb_loop rec d us dictIndex n g c = Ok (true, g') -> exists l, dawg_lbl d c = Ok l /\ l < 256.
  Proof using Type.
    destruct n as [|n]; cbn [gb_loop]; [done|]. intros H. bnd H l El. exists l. split; [done|]. bnd H oj Ef. destruct oj as [[|] j]; cbn [negb] in H; [|done]. by eapply Follow_label.
  Qed.
  Lemma gb_loop_ok rec dictIndex : (forall g c i g', rec g c i = Ok (true, g') -> Forall gu_ok g.1 -> Forall gu_ok g'.1) ->
    forall n g c g', gb_loop rec d us dictIndex n g c = Ok (true, g') -> Forall gu_ok g.1 -> Forall gu_ok g'.1.
  Proof using Type.
    intros Hrec. induction n as [|n IH]; intros g c g' H Hg; [done|]. cbn [gb_loop] in H. fold (gb_loop rec d us dictIndex) in H.
    bnd H l El. bnd H oj Ef. destruct oj as [[|] j]; cbn [negb] in H; [|done]. bnd H og Er. destruct og as [[|] g1]; cbn [negb] in H; [|done].
    apply Hrec in Er; [|done]. bnd H s Es. bnd H sl Esl. bnd H units Eu. destruct (s =? 0) eqn:E0; cbn [negb] in Eu.
    - injection Eu as <-. injection H as <-. done.
    - destruct (gb_loop_label _ _ _ _ _ _ H) as (l' & El' & Hl'). rewrite Esl in El'. injection El' as <-. apply (IH _ _ _ H). cbn [fst].
      eapply upd_Forall; [exact Er| |exact Eu]. intros x [? ?]. done.
  Qed.
  Lemma gb_build_ok fuel : forall g c i g', gb_buildIndices fuel d us g c i = Ok (true, g') -> Forall gu_ok g.1 -> Forall gu_ok g'.1.
  Proof using Type.
    induction fuel as [|fuel IH]; intros g c i g' H Hg; [done|]. cbn [gb_buildIndices] in H. bnd H fx Ef. destruct fx; [by injection H as <-|].
    bnd H tbl Et. bnd H c1 Ec. bnd H l El. bnd H fo Efi. destruct fo as [c2|]; [|by injection H as <-]. bnd H l2 El2. bnd H units Eu.
    destruct (gb_loop_label _ _ _ _ _ _ H) as (l' & El' & Hl'). rewrite El2 in El'. injection El' as <-.
    apply (gb_loop_ok _ _ IH _ _ _ _ H). cbn [fst]. eapply upd_Forall; [exact Hg| |exact Eu]. intros x [? ?]. done.
  Qed.
  Lemma BuildGuide_bytes g : BuildGuide d us = Ok (Some g) -> Forall gu_ok g.
  Proof using Type.
    unfold BuildGuide. destruct (dawg_size d <=? 1); [intros [= <-]; constructor|]. intros H. bnd H og E. destruct og as [[|] g1]; [|done]. injection H as <-.
    apply gb_build_ok in E; [done|]. apply Forall_replicate. done.
  Qed.
End guide.

Section ranked.
  Context (sort : (link -> link -> bool) -> list link -> list link) (cmp : Z -> Z -> bool) (Hs : forall less l, sort less l ≡ₚ l) (d : dawg) (us : dict).
  Definition rst_ok (s : rst) : Prop := Forall gu_ok (r_units s) /\ Forall (fun l => l.1 < 256) (r_links s).
  Lemma rb_turn_ok i labels : Forall (fun l => l < 256) labels -> forall units prev units', rb_turn us i units prev labels = Ok units' -> Forall gu_ok units -> Forall gu_ok units'.
  Proof using Type.
    induction 1 as [|l labels Hl _ IH]; intros units prev units' H Hu; cbn [rb_turn] in H; [by injection H as <-|].
    bnd H j Ej. bnd H u2 Eu. apply (IH _ _ _ H). eapply upd_Forall; [exact Hu| |exact Eu]. intros x [? ?]. done.
  Qed.
  Lemma rb_turnLinks_ok i links units units' : Forall (fun l => l.1 < 256) links -> rb_turnLinks us i units links = Ok units' -> Forall gu_ok units -> Forall gu_ok units'.
  Proof using Type.
    intros Hl H Hu. destruct links as [|l0 rest]; [done|]. apply Forall_cons in Hl as [H0 Hl]. cbn [rb_turnLinks] in H. bnd H u2 Eu. bnd H j Ej.
    apply rb_turn_ok in H; [done| |]; [by apply Forall_fmap|]. eapply upd_Forall; [exact Hu| |exact Eu]. intros x [? ?]. done.
  Qed.
  Lemma rb_enum_ok rec dictIndex : (forall s c i o s', rec s c i = Ok (Some o, s') -> rst_ok s -> rst_ok s') ->
    forall n s c s', rb_enum rec d us dictIndex n s c = Ok (true, s') -> rst_ok s -> rst_ok s'.
  Proof using cmp.
    intros Hrec. induction n as [|n IH]; intros s c s' H Hg; cbn [rb_enum] in H; (destruct (c =? 0); [by injection H as <-|]); [done|]. fold (rb_enum rec d us dictIndex) in H.
    bnd H l El. bnd H os Eo. destruct os as [[v|] s1]; [|done]. bnd H c' Ec. apply (IH _ _ _ H).
    assert (l < 256 /\ rst_ok s1) as [Hl [Hu Hk]].
    { destruct (N.eqb_spec l 0) as [E0|_].
      - subst l. bnd Eo has Eh. destruct has; cbn [negb] in Eo; [|done]. bnd Eo v1 Ev. injection Eo as _ <-. split; [lia|done].
      - bnd Eo oj Ef. destruct oj as [[|] j]; cbn [negb] in Eo; [|done]. split; [by eapply Follow_label|]. by apply (Hrec _ _ _ _ _ Eo). }
    split; cbn [r_units r_links]; [done|]. apply Forall_app. split; [done|]. by apply Forall_singleton.
  Qed.
  Lemma rb_build_ok fuel : forall s c i o s', rb_buildIndices sort cmp fuel d us s c i = Ok (Some o, s') -> rst_ok s -> rst_ok s'.
  Proof using Hs.
    induction fuel as [|fuel IH]; intros s c i o s' H Hg; [done|]. cbn [rb_buildIndices] in H. bnd H fx Ef. destruct fx.
    - bnd H o1 Eo. by injection H as _ <-.
    - bnd H tbl Et. bnd H c1 Ec. bnd H os Ee. destruct os as [[|] s1]; cbn [negb] in H; [|done].
      apply (rb_enum_ok _ _ IH) in Ee; [|exact Hg]. destruct Ee as [Hu Hl]. bnd H units Eu.
      assert (Hso : Forall (fun l => l.1 < 256) (sort (link_less cmp) (drop (length (r_links s)) (r_links s1)))).
      { rewrite Hs. by apply Forall_drop. }
      apply rb_turnLinks_ok in Eu; [|exact Hso|exact Hu]. destruct (sort _ _) as [|l0 rest]; [done|]. injection H as _ <-.
      split; cbn [r_units r_links]; [done|]. by apply Forall_take.
  Qed.
  Lemma BuildRankedGuideCmp_bytes g : BuildRankedGuideCmp sort cmp d us = Ok (Some g) -> Forall gu_ok g.
  Proof using Hs.
    unfold BuildRankedGuideCmp. destruct (dawg_size d <=? 1); [intros [= <-]; constructor|]. intros H. bnd H os E. destruct os as [[o|] s1]; [|done]. injection H as <-.
    apply rb_build_ok in E; [apply E|]. split; [|constructor]. apply Forall_replicate. done.
  Qed.
End ranked.

Section index.
  Context (us : dict) (g : guide).
  Notation ix_ok := (Forall (fun x => x < two32)).
  Lemma u32_lt x : u32 x < two32.
  Proof using Type. by apply N.mod_lt. Qed.
  Lemma ib_loop_ok rec i : (forall ix j ok ix', rec ix j = Ok (ok, ix') -> ix_ok ix -> ix_ok ix') ->
    forall n ix child ok ix', ib_loop rec us g i n ix child = Ok (ok, ix') -> ix_ok ix -> ix_ok ix'.
  Proof using Type.
    intros Hrec. induction n as [|n IH]; intros ix child ok ix' H Hx; cbn [ib_loop] in H; (destruct (child =? 0); [by injection H as _ <-|]); [done|]. fold (ib_loop rec us g i) in H.
    bnd H oj Ef. destruct oj as [[|] j]; cbn [negb] in H; [|by injection H as _ <-]. bnd H n0 E0. bnd H ox Er. destruct ox as [ok1 ix1].
    assert (Hx1 : ix_ok ix1) by (destruct (n0 =? 0); [by apply (Hrec _ _ _ _ Er)|by injection Er as _ <-]).
    destruct ok1; cbn [negb] in H; [|by injection H as _ <-]. bnd H c Ec. bnd H ix2 Eu. bnd H s Es. apply (IH _ _ _ _ H). eapply upd_Forall; [exact Hx1| |exact Eu]. intros; apply u32_lt.
  Qed.
  Lemma ib_build_ok fuel : forall ix i ok ix', ib_buildIndices fuel us g ix i = Ok (ok, ix') -> ix_ok ix -> ix_ok ix'.
  Proof using Type.
    induction fuel as [|fuel IH]; intros ix i ok ix' H Hx; [done|]. cbn [ib_buildIndices] in H. bnd H has Eh. bnd H ix1 E1. bnd H child Ec.
    apply (ib_loop_ok _ _ IH _ _ _ _ _ H). destruct has; [|by injection E1 as <-]. eapply upd_Forall; [exact Hx| |exact E1]. intros; apply u32_lt.
  Qed.
  Lemma BuildIndex_bytes ix : BuildIndex us g = Ok (Some ix) -> ix_ok ix.
  Proof using Type.
    unfold BuildIndex. intros H. bnd H ox E. destruct ox as [[|] ix1]; [|done]. injection H as <-. apply ib_build_ok in E; [done|]. apply Forall_replicate. done.
  Qed.
  Lemma ib_loop_len rec i m : (forall ix j ok ix', rec ix j = Ok (ok, ix') -> length ix = m -> length ix' = m) ->
    forall n ix child ok ix', ib_loop rec us g i n ix child = Ok (ok, ix') -> length ix = m -> length ix' = m.
  Proof using Type.
    intros Hrec. induction n as [|n IH]; intros ix child ok ix' H Hx; cbn [ib_loop] in H; (destruct (child =? 0); [by injection H as _ <-|]); [done|]. fold (ib_loop rec us g i) in H.
    bnd H oj Ef. destruct oj as [[|] j]; cbn [negb] in H; [|by injection H as _ <-]. bnd H n0 E0. bnd H ox Er. destruct ox as [ok1 ix1].
    assert (Hx1 : length ix1 = m) by (destruct (n0 =? 0); [by apply (Hrec _ _ _ _ Er)|by injection Er as _ <-]).
    destruct ok1; cbn [negb] in H; [|by injection H as _ <-]. bnd H c Ec. bnd H ix2 Eu. bnd H s Es. apply (IH _ _ _ _ H).
    unfold upd, get, set in Eu. destruct (ix1 !! N.to_nat i) eqn:E; cbn [mbind res_bind] in Eu; [|done]. injection Eu as <-. by rewrite insert_length.
  Qed.
  Lemma ib_build_len fuel m : forall ix i ok ix', ib_buildIndices fuel us g ix i = Ok (ok, ix') -> length ix = m -> length ix' = m.
  Proof using Type.
    induction fuel as [|fuel IH]; intros ix i ok ix' H Hx; [done|]. cbn [ib_buildIndices] in H. bnd H has Eh. bnd H ix1 E1. bnd H child Ec.
    apply (ib_loop_len _ _ m IH _ _ _ _ _ H). destruct has; [|by injection E1 as <-].
    unfold upd, get, set in E1. destruct (ix !! N.to_nat i) eqn:E; cbn [mbind res_bind] in E1; [|done]. injection E1 as <-. by rewrite insert_length.
  Qed.
  Lemma BuildIndex_len ix : BuildIndex us g = Ok (Some ix) -> length ix = length us.
  Proof using Type.
    unfold BuildIndex. intros H. bnd H ox E. destruct ox as [[|] ix1]; [|done]. injection H as <-. eapply ib_build_len; [exact E|]. by rewrite replicate_length.
  Qed.
End index.
