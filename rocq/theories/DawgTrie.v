(** The open part of a DawgBuilder: the path of the last key, with the fixed
    siblings hanging off it, laid out in the unit pool. *)
From Verif Require Import Go BitPool BitPoolProofs LinkTable LinkTableProofs Probe Dawg Tree DawgRep DawgFrozen DawgFix.
Local Open Scope N_scope.
Local Ltac Zify.zify_post_hook ::= Z.div_mod_to_equations.
Local Arguments N.mul : simpl never.
Local Arguments N.add : simpl never.
Local Arguments N.of_nat : simpl never.

(** A closed sibling, and a level of the open path (siblings newest first). *)
Record sib := mkSib { s_id : N; s_c : N; s_l : N; s_s : sub }.
Record frame := mkFr { f_u : N; f_l : N; f_hs : bool; f_sibs : list sib }.

Definition none {A} (l : list A) : bool := match l with [] => true | _ => false end.
Definition sid (ss : list sib) : N := match ss with [] => 0 | s :: _ => s_id s end.
Fixpoint lay_sibs (ss : list sib) : list (N * dunit) :=
  match ss with
  | [] => []
  | s :: r => (s_id s, mkDU (s_c s) (sid r) (s_l s) (none r) true) :: lay_sibs r
  end.
Definition fmk (f : frame) (c : N) : dunit := mkDU c (sid (f_sibs f)) (f_l f) (none (f_sibs f)) (f_hs f).
(** Frames are listed innermost first; below the last one is the root unit. *)
Definition lastu (fs : list frame) : N := match fs with [] => 0 | f :: _ => f_u f end.
Definition lastmk (fs : list frame) (c : N) : dunit :=
  match fs with [] => mkDU c 0 0xff false false | f :: _ => fmk f c end.
Fixpoint rest (fs : list frame) : list (N * dunit) :=
  match fs with
  | [] => []
  | f :: fs' => (lastu fs', lastmk fs' (f_u f)) :: rest fs' ++ lay_sibs (f_sibs f)
  end.
Definition layout (fs : list frame) (c : N) (L : list (N * dunit)) : list (N * dunit) :=
  (lastu fs, lastmk fs c) :: rest fs ++ L.

(** Child number [c] stands for the subtree [s]. *)
Definition fenc (ts : list edges) (s : sub) (c : N) : Prop :=
  match s with
  | Leaf v => c mod 2147483648 = v
  | Node es => exists k, ts !! k = Some es /\ c = N.of_nat (start ts k)
  end.
Definition sibok (ts : list edges) (s : sib) : Prop :=
  fenc ts (s_s s) (s_c s) /\ wf (s_s s) /\ s_l s < 256 /\ (s_l s = 0 <-> is_leaf (s_s s) = true).
Definition chainok (ts : list edges) (ss : list sib) : Prop :=
  Forall (sibok ts) ss /\ StronglySorted (fun a b => s_l b < s_l a) ss.
Definition fok (ts : list edges) (f : frame) : Prop :=
  chainok ts (f_sibs f) /\ Forall (fun s => s_l s < f_l f) (f_sibs f) /\ f_l f < 256.
Fixpoint fsok (ts : list edges) (fs : list frame) (leaf : bool) : Prop :=
  match fs with
  | [] => True
  | f :: fs' => fok ts f /\ (f_l f = 0 <-> leaf = true) /\ fsok ts fs' false
  end.

Definition sedge (s : sib) : N * sub := (s_l s, s_s s).
Definition fes (f : frame) : edges := rev (map sedge (f_sibs f)).
Definition cles (f : frame) (s : sub) : edges := fes f ++ [(f_l f, s)].
Fixpoint aclose (x : fixedst) (fs : list frame) (s : sub) : fixedst * sub :=
  match fs with
  | [] => (x, s)
  | f :: fs' => aclose (afix x (cles f s)) fs' (Node (cles f s))
  end.

(** ** Monotonicity in the frozen groups *)
Lemma fenc_mono ts e s c : fenc ts s c -> fenc (ts ++ e) s c.
Proof.
  destruct s as [v|es]; cbn; [done|]. intros (k & Hk & ->). exists k. split; [by apply lookup_app_l_Some|].
  rewrite start_mono; [done|]. apply lookup_lt_Some in Hk. lia.
Qed.
Lemma chainok_mono ts e ss : chainok ts ss -> chainok (ts ++ e) ss.
Proof.
  intros [H1 H2]. split; [|done]. eapply Forall_impl; [exact H1|]. intros s (A & B & C). split; [by apply fenc_mono|done].
Qed.
Lemma fok_mono ts e f : fok ts f -> fok (ts ++ e) f.
Proof. intros (A & B & C). split; [by apply chainok_mono|done]. Qed.
Lemma fsok_mono ts e fs lf : fsok ts fs lf -> fsok (ts ++ e) fs lf.
Proof. revert lf. induction fs as [|f fs IH]; intros lf; cbn; [done|]. intros (A & B & C). split; [by apply fok_mono|]. eauto. Qed.

(** ** The encoding of a closed chain *)
Lemma enc_unit ts s c sb l st hs : N.of_nat (S (psum ts)) <= 1073741824 -> Forall (fun es : edges => es <> []) ts ->
  fenc ts s c -> (l = 0 <-> is_leaf s = true) ->
  eenc ts hs st s (du_base (mkDU c sb l st hs)).
Proof.
  intros Hsz Hne Hf Hl. destruct s as [v|es]; cbn [fenc eenc is_leaf] in *.
  - assert (l = 0) as -> by tauto. rewrite du_base_leaf. by rewrite Hf.
  - destruct Hf as (k & Hk & ->). exists k. split; [done|].
    apply du_base_node; [intros Hl0; apply Hl in Hl0; done|].
    pose proof (start_bound _ _ _ Hk). rewrite Forall_lookup in Hne. pose proof (Hne _ _ Hk).
    destruct es; [done|]. cbn [length] in *. lia.
Qed.

(** A group still to be continued: hasSibling everywhere. *)
Fixpoint gopen (ts : list edges) (st : bool) (es : edges) (bl : list (N * N)) : Prop :=
  match es, bl with
  | [], [] => True
  | e :: es', x :: bl' => x.2 = e.1 /\ eenc ts true st e.2 x.1 /\ gopen ts false es' bl'
  | _, _ => False
  end.
Lemma gopen_snoc ts st es bl e x : gopen ts st es bl -> x.2 = e.1 -> eenc ts true (st && none es) e.2 x.1 ->
  gopen ts st (es ++ [e]) (bl ++ [x]).
Proof.
  revert st bl. induction es as [|e0 es IH]; intros st [|x0 bl]; cbn; try done.
  - rewrite andb_true_r. done.
  - intros (A & B & C) D E. split; [done|]. split; [done|]. apply IH; [done|done|].
    by rewrite andb_false_r in E.
Qed.
Lemma genc_snoc ts st es bl e x : gopen ts st es bl -> x.2 = e.1 -> eenc ts false (st && none es) e.2 x.1 ->
  genc ts st (es ++ [e]) (bl ++ [x]).
Proof.
  revert st bl. induction es as [|e0 es IH]; intros st [|x0 bl]; cbn; try done.
  - rewrite andb_true_r. done.
  - intros (A & B & C) D E. split; [done|]. split; [|apply IH; [done|done|by rewrite andb_false_r in E]].
    by destruct es.
Qed.
Lemma none_rev {A B} (g : A -> B) l : none (rev (map g l)) = none l.
Proof. destruct l as [|a l]; [done|]. cbn. destruct (rev (map g l)); done. Qed.
Lemma gopen_sibs ts ss : N.of_nat (S (psum ts)) <= 1073741824 -> Forall (fun es : edges => es <> []) ts ->
  Forall (sibok ts) ss -> gopen ts true (rev (map sedge ss)) (rev (uenc (lay_sibs ss))).
Proof.
  intros Hsz Hne. induction 1 as [|s ss (A & B & C & D) _ IH]; [done|].
  cbn [map rev lay_sibs uenc]. apply gopen_snoc; [done|done|]. cbn [fst snd sedge].
  rewrite none_rev. cbn [andb]. by apply enc_unit.
Qed.

Definition fchain (f : frame) (c : N) : list (N * dunit) := (f_u f, fmk f c) :: lay_sibs (f_sibs f).

Lemma genc_frame ts f s c : N.of_nat (S (psum ts)) <= 1073741824 -> Forall (fun es : edges => es <> []) ts ->
  fok ts f -> f_hs f = false -> fenc ts s c -> (f_l f = 0 <-> is_leaf s = true) ->
  genc ts true (cles f s) (rev (uenc (fchain f c))).
Proof.
  intros Hsz Hne ((A & _) & _) Hhs Hf Hl. unfold fchain, cles. cbn [uenc map rev]. apply genc_snoc.
  - by apply gopen_sibs. - done.
  - cbn [fst snd]. unfold fes. rewrite none_rev. cbn [andb]. unfold fmk. rewrite Hhs. by apply enc_unit.
Qed.

Lemma wf_frame ts f s : fok ts f -> wf s -> (f_l f = 0 <-> is_leaf s = true) -> wf (Node (cles f s)).
Proof.
  intros ((A & B) & C & D) Hw Hl. unfold cles, fes. constructor.
  - intros [_ ?]%app_eq_nil. done.
  - unfold asc. rewrite fmap_app. cbn [fmap list_fmap fst].
    clear Hw Hl D A. revert C. generalize (f_l f) as m. intros m C.
    assert (H : forall ss m, StronglySorted (fun a b => s_l b < s_l a) ss -> Forall (fun x => s_l x < m) ss ->
       StronglySorted N.lt ((rev (map sedge ss)).*1 ++ [m])); [|by apply H].
    clear. induction ss as [|a ss IH]; intros m Hs Hm; [repeat constructor|].
    apply StronglySorted_inv in Hs as [Hs Ha]. apply Forall_cons in Hm as [Ham Hm].
    cbn [map rev]. rewrite fmap_app. cbn [fmap list_fmap fst sedge].
    specialize (IH (s_l a) Hs Ha).
    assert (Hall : Forall (fun z => z < m) ((rev (map sedge ss)).*1 ++ [s_l a])).
    { apply Forall_app. split; [|by apply Forall_singleton]. rewrite Forall_fmap.
      apply Forall_forall. intros e He. apply elem_of_list_In, in_rev, in_map_iff in He as (z & <- & Hz).
      rewrite Forall_forall in Ha. cbn. apply elem_of_list_In in Hz. specialize (Ha _ Hz). lia. }
    revert IH Hall. generalize ((rev (map sedge ss)).*1 ++ [s_l a]). clear.
    induction 1 as [|z zs Hs IH Hz]; intros Hall; cbn; [repeat constructor|].
    apply Forall_cons in Hall as [H1 H2]. constructor; [by apply IH|]. apply Forall_app. split; [done|by apply Forall_singleton].
  - apply Forall_app. split; [|apply Forall_singleton; done].
    apply Forall_forall. intros e He. apply elem_of_list_In, in_rev, in_map_iff in He as (z & <- & Hz).
    rewrite Forall_forall in A. apply elem_of_list_In in Hz. destruct (A _ Hz) as (_ & _ & ?). done.
  - apply Forall_app. split; [|apply Forall_singleton; done].
    apply Forall_forall. intros e He. apply elem_of_list_In, in_rev, in_map_iff in He as (z & <- & Hz).
    rewrite Forall_forall in A. apply elem_of_list_In in Hz. destruct (A _ Hz) as (_ & ? & _). done.
Qed.

(** ** The representation invariant *)
Definition agrees (us : list dunit) (ly : list (N * dunit)) : Prop :=
  Forall (fun p => us !! N.to_nat p.1 = Some p.2) ly.

Record dyn (b : builder) (x : fixedst) (fs : list frame) (c : N) (L : list (N * dunit)) (A : nat) : Prop := mkDyn {
  dy_fixed : fixedrep b x;
  dy_agrees : agrees (b_unit b) (layout fs c L);
  dy_perm : (layout fs c L).*1 ++ b_unused b ≡ₚ N.of_nat <$> seq 0 (length (b_unit b));
  dy_pool : (length (b_unit b) <= S A)%nat;
  dy_count : (psum (x_ts x) + x_mg x + length (layout fs c L) = S A)%nat;
  dy_size : N.of_nat (S A) <= 1073741824 }.

Lemma seqN_nodup n : NoDup (N.of_nat <$> seq 0 n).
Proof. apply NoDup_fmap_2; [intros ???; lia|apply NoDup_seq]. Qed.
Lemma dyn_nodup b x fs c L A : dyn b x fs c L A -> NoDup ((layout fs c L).*1 ++ b_unused b).
Proof. intros H. rewrite (dy_perm _ _ _ _ _ _ H). apply seqN_nodup. Qed.

Lemma agrees_insert us ly i u : agrees us ly -> i ∉ ly.*1 -> agrees (<[N.to_nat i := u]> us) ly.
Proof.
  intros H Hi. unfold agrees in *. rewrite Forall_forall in *. intros p Hp. rewrite list_lookup_insert_ne; [by apply H|].
  intros He. apply Hi. apply elem_of_list_fmap. exists p. split; [lia|done].
Qed.

Lemma uchain_sibs us ss : agrees us (lay_sibs ss) -> Forall (fun s => s_id s <> 0) ss -> uchain us (sid ss) (lay_sibs ss).
Proof.
  induction ss as [|s ss IH]; cbn [lay_sibs uchain sid]; [done|]. intros H H0.
  apply Forall_cons in H as [H1 H2]. apply Forall_cons in H0 as [H3 H4]. repeat split; try done. by apply IH.
Qed.
Lemma lay_ids ss : (lay_sibs ss).*1 = map s_id ss.
Proof. induction ss as [|s ss IH]; cbn; [done|]. by rewrite IH. Qed.
Lemma root_in fs c L : exists u, (0, u) ∈ layout fs c L.
Proof.
  revert c L. induction fs as [|f fs IH]; intros c L.
  - eexists. by left.
  - unfold layout. cbn [rest]. destruct (IH (f_u f) (lay_sibs (f_sibs f) ++ L)) as [u Hu]. exists u. right. unfold layout in Hu.
    cbn [app]. rewrite <- app_assoc. done.
Qed.
Lemma chain_ids_ne us fs c ss u : NoDup ((u :: (layout fs c (lay_sibs ss)).*1) ++ us) ->
  u <> 0 /\ Forall (fun s => s_id s <> 0) ss.
Proof.
  intros Hnd. cbn [app] in Hnd. apply NoDup_cons in Hnd as [Hu Hnd]. split.
  - intros ->. destruct (root_in fs c (lay_sibs ss)) as [u Hin].
    apply Hu. apply elem_of_app. left. apply elem_of_list_fmap. exists (0, u). done.
  - apply Forall_forall. intros s Hs H0. apply NoDup_app in Hnd as [Hnd _].
    unfold layout in Hnd. destruct (root_in fs c []) as [u0 Hu0]. unfold layout in Hu0. rewrite app_nil_r in Hu0.
    rewrite app_comm_cons, fmap_app in Hnd. apply NoDup_app in Hnd as (_ & Hnd & _). apply (Hnd 0).
    + apply elem_of_list_fmap. exists (0, u0). done.
    + rewrite lay_ids. apply elem_of_list_In, in_map_iff. exists s. split; [done|]. by apply elem_of_list_In.
Qed.

Lemma afix_count x es : (psum (x_ts (afix x es)) + x_mg (afix x es) = psum (x_ts x) + x_mg x + length es)%nat.
Proof. unfold afix. destruct (decide (es ∈ x_ts x)); cbn [x_ts x_mg]; [lia|]. rewrite psum_app. cbn. lia. Qed.

Lemma layout_cons f fs c L : layout (f :: fs) c L = (f_u f, fmk f c) :: layout fs (f_u f) (lay_sibs (f_sibs f) ++ L).
Proof. unfold layout. cbn [lastu lastmk rest app]. by rewrite <- app_assoc. Qed.
Lemma lastmk_set fs c c' : du_set_child (lastmk fs c) c' = lastmk fs c'.
Proof. by destruct fs. Qed.

(** Closing one level. *)
Lemma fix_step b x f fs c s A r :
  dyn b x (f :: fs) c [] A -> fsok (x_ts x) (f :: fs) (is_leaf s) -> f_hs f = false ->
  fenc (x_ts x) s c -> wf s -> b_unfixed b = lastu fs :: r ->
  exists b' c', fixUnit b (f_u f) = Ok b' /\ dyn b' (afix x (cles f s)) fs c' [] A /\
    fenc (x_ts (afix x (cles f s))) (Node (cles f s)) c' /\ b_unfixed b' = b_unfixed b /\ b_init b' = b_init b.
Proof.
  intros H (Hf & Hl & Hfs) Hhs Hfe Hwf Hunf.
  pose proof (dyn_nodup _ _ _ _ _ _ H) as Hnd. destruct H as [F Hag Hperm Hpool Hcnt Hsz].
  pose proof (fr_frozen _ _ F) as Fz.
  rewrite layout_cons, app_nil_r in *. cbn [fmap list_fmap fst] in *.
  destruct (chain_ids_ne _ _ _ _ _ Hnd) as [Hu0 Hss0].
  apply Forall_cons in Hag as [Hag1 Hag]. cbn [fst snd] in Hag1.
  assert (Hag' := Hag). unfold layout in Hag'. apply Forall_cons in Hag' as [Hag2 Hag3].
  apply Forall_app in Hag3 as [Hag3 Hag4]. cbn [fst snd] in Hag2.
  assert (Hchain : uchain (b_unit b) (f_u f) (fchain f c)).
  { cbn [uchain fchain]. repeat split; try done. by apply uchain_sibs. }
  assert (Hlen : length (layout fs (f_u f) (lay_sibs (f_sibs f))) = (S (length (rest fs)) + length (lay_sibs (f_sibs f)))%nat).
  { unfold layout. cbn [length]. rewrite app_length. lia. }
  assert (Hlc : length (cles f s) = S (length (lay_sibs (f_sibs f)))).
  { unfold cles, fes. rewrite app_length, rev_length, map_length. cbn [length].
    rewrite <- (map_length s_id), <- lay_ids, fmap_length. lia. }
  cbn [length] in Hcnt.
  destruct (fixUnit_ok b x (f_u f) (fchain f c) (cles f s) (lastu fs) r (lastmk fs (f_u f)) F Hchain) as
    (b' & k & Hr & F' & Hk & Hus & Hun & Huf & Hi).
  - apply Permutation_length in Hperm. rewrite fmap_length, seq_length in Hperm.
    cbn [app length] in Hperm. rewrite app_length, fmap_length in Hperm. unfold fchain. cbn [length]. lia.
  - apply genc_frame; try done; [apply Fz|apply wf_ne, Fz].
  - by eapply wf_frame.
  - lia.
  - done.
  - done.
  - exists b', (N.of_nat (start (x_ts (afix x (cles f s))) k)). split; [done|]. split; [|split; [cbn; eauto|done]].
    rewrite lastmk_set in Hus.
    assert (Hni : lastu fs ∉ (rest fs).*1).
    { cbn [app] in Hnd. apply NoDup_cons in Hnd as [_ Hnd]. apply NoDup_app in Hnd as [Hnd _].
      unfold layout in Hnd. cbn [fmap list_fmap fst] in Hnd. apply NoDup_cons in Hnd as [Hnd _].
      intros Hin. apply Hnd. rewrite fmap_app. apply elem_of_app. by left. }
    split; try done.
    + rewrite Hus. unfold layout. rewrite app_nil_r. apply Forall_cons. split.
      * cbn [fst snd]. apply list_lookup_insert. by apply lookup_lt_Some in Hag2.
      * by apply agrees_insert.
    + rewrite Hus, insert_length, <- Hperm, Hun. unfold layout, fchain. rewrite app_nil_r. cbn [fmap list_fmap fst rev].
      rewrite fmap_app. rewrite <- (Permutation_rev (lay_sibs (f_sibs f)).*1).
      solve_Permutation.
    + rewrite Hus, insert_length. done.
    + rewrite afix_count, Hlc. unfold layout. cbn [length]. rewrite app_nil_r. lia.
Qed.

Lemma fsok_app ts fs1 fs2 lf : fsok ts (fs1 ++ fs2) lf -> fsok ts fs2 (match fs1 with [] => lf | _ => false end).
Proof.
  revert lf. induction fs1 as [|f fs1 IH]; intros lf; cbn [app fsok]; [done|].
  intros (_ & _ & H). apply IH in H. by destruct fs1.
Qed.

Lemma lastu_in inner outer : forall c L, lastu outer ∈ (layout (inner ++ outer) c L).*1.
Proof.
  induction inner as [|g inner IH]; intros c L; cbn [app].
  - unfold layout. left.
  - rewrite layout_cons. right. apply IH.
Qed.

(** fixUnits: closing the levels inside [outer]. *)
Lemma close_loop inner : forall b x c s outer A,
  dyn b x (inner ++ outer) c [] A -> fsok (x_ts x) (inner ++ outer) (is_leaf s) ->
  Forall (fun f => f_hs f = false) inner ->
  fenc (x_ts x) s c -> wf s -> b_unfixed b = map f_u (inner ++ outer) ++ [0] ->
  exists b' c', fixUnits b (lastu outer) = Ok b' /\
    dyn b' (aclose x inner s).1 outer c' [] A /\ fenc (x_ts (aclose x inner s).1) (aclose x inner s).2 c' /\
    wf (aclose x inner s).2 /\
    (exists e, x_ts (aclose x inner s).1 = x_ts x ++ e) /\
    (inner <> [] -> is_leaf (aclose x inner s).2 = false) /\
    b_unfixed b' = tail (map f_u outer ++ [0]) /\ b_init b' = b_init b.
Proof.
  induction inner as [|f inner IH]; intros b x c s outer A H Hok Hhs Hfe Hwf Huf.
  - cbn [app aclose fst snd] in *. exists (set_unfixed b (tail (map f_u outer ++ [0]))), c.
    split.
    + unfold fixUnits. rewrite Huf. destruct outer as [|g outer]; cbn [map app fixUnits_loop lastu tail]; by rewrite N.eqb_refl.
    + split.
      * destruct H as [F H1 H2 H3 H4 H5]. split; try done. destruct F. by split.
      * split; [done|]. split; [done|]. split; [exists []; by rewrite app_nil_r|]. done.
  - cbn [app aclose] in *. apply Forall_cons in Hhs as [Hh Hhs].
    assert (Hstk : exists r, map f_u (inner ++ outer) ++ [0] = lastu (inner ++ outer) :: r).
    { destruct (inner ++ outer); cbn; eauto. }
    destruct Hstk as [r Hstk].
    assert (Hne : f_u f <> lastu outer).
    { pose proof (dyn_nodup _ _ _ _ _ _ H) as Hnd. rewrite layout_cons in Hnd. cbn [fmap list_fmap fst app] in Hnd.
      apply NoDup_cons in Hnd as [Hnd _]. intros He. apply Hnd. apply elem_of_app. left. rewrite He.
      apply lastu_in. }
    set (b0 := set_unfixed b (map f_u (inner ++ outer) ++ [0])).
    assert (H0 : dyn b0 x (f :: inner ++ outer) c [] A).
    { destruct H as [F H1 H2 H3 H4 H5]. split; try done. destruct F. by split. }
    destruct (fix_step b0 x f (inner ++ outer) c s A r H0 Hok Hh Hfe Hwf) as (b' & c' & Hr & H' & Hfe' & Huf' & Hi'); [done|].
    destruct (afix_ext x (cles f s)) as [e He].
    destruct Hok as (Hok1 & Hok2 & Hok3).
    destruct (IH b' (afix x (cles f s)) c' (Node (cles f s)) outer A) as (b'' & c'' & Hr' & H'' & Hfe'' & Hwf'' & [e' He'] & Hl'' & Huf'' & Hi''); try done.
    + rewrite He. by apply fsok_mono.
    + by eapply wf_frame.
    + exists b'', c''. split.
      * unfold fixUnits in *. rewrite Huf. cbn [map app fixUnits_loop]. destruct (N.eqb_spec (f_u f) (lastu outer)); [done|].
        fold b0. rewrite Hr. cbn [mbind res_bind]. rewrite <- Huf'  in Hr' || idtac.
        change (b_unfixed b0) with (map f_u (inner ++ outer) ++ [0]) in Huf'. rewrite <- Huf'. done.
      * split; [exact H''|]. split; [exact Hfe''|]. split; [exact Hwf''|]. split; [|split; [|split; [exact Huf''|by rewrite Hi'']]].
        -- exists (e ++ e'). rewrite He', He. by rewrite app_assoc.
        -- intros _. destruct inner; [done|by apply Hl''].
Qed.
