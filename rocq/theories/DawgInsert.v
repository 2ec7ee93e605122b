(** InsertKeyValue against the layout of DawgTrie.v. *)
From Verif Require Import Go BitPool BitPoolProofs LinkTable LinkTableProofs Probe Dawg Tree DawgRep DawgFrozen DawgFix DawgTrie.
Local Open Scope N_scope.
Local Ltac Zify.zify_post_hook ::= Z.div_mod_to_equations.
Local Arguments N.mul : simpl never.
Local Arguments N.add : simpl never.
Local Arguments N.of_nat : simpl never.

(** ** allocateUnit *)
Lemma allocateUnit_ok b x fs c L A : dyn b x fs c L A -> N.of_nat (S (S A)) <= 1073741824 ->
  exists id us un, allocateUnit b = Ok (id, set_unit (set_unused b un) us) /\
    us !! N.to_nat id = Some du_zero /\ agrees us (layout fs c L) /\
    id :: (layout fs c L).*1 ++ un ≡ₚ N.of_nat <$> seq 0 (length us) /\
    (length us <= S (S A))%nat.
Proof.
  intros H Hsz. pose proof (dyn_nodup _ _ _ _ _ _ H) as Hnd. destruct H as [F Hag Hperm Hpool Hcnt Hs].
  unfold allocateUnit. destruct (b_unused b) as [|i un] eqn:Eun.
  - exists (N.of_nat (length (b_unit b))), (b_unit b ++ [du_zero]), []. split; [|split; [|split; [|split]]].
    + unfold len32. rewrite u32_id by (unfold two32; lia). do 3 f_equal. rewrite <- Eun. by destruct b.
    + rewrite Nat2N.id, lookup_app_r, Nat.sub_diag by lia. done.
    + eapply Forall_impl; [exact Hag|]. intros p Hp. by apply lookup_app_l_Some.
    + rewrite app_length, seq_app, fmap_app, <- Hperm, app_nil_r. cbn [seq fmap list_fmap]. rewrite Nat.add_0_l.
      apply Permutation_cons_append.
    + rewrite app_length. cbn [length]. lia.
  - assert (Hi : (N.to_nat i < length (b_unit b))%nat).
    { assert (i ∈ N.of_nat <$> seq 0 (length (b_unit b))) as Hin.
      { rewrite <- Hperm. apply elem_of_app. right. by left. }
      apply elem_of_list_fmap in Hin as (j & -> & Hj%elem_of_seq). lia. }
    destruct (lookup_lt_is_Some_2 _ _ Hi) as [u Hu].
    rewrite (set_N _ _ _ _ Hu). cbn [mbind res_bind].
    exists i, (<[N.to_nat i := du_zero]> (b_unit b)), un. split; [done|]. split; [by apply list_lookup_insert|].
    split; [|split].
    + apply agrees_insert; [done|]. intros Hin. apply NoDup_app in Hnd as (_ & Hnd & _). apply (Hnd i); [done|by left].
    + rewrite insert_length, <- Hperm. apply Permutation_middle.
    + rewrite insert_length. lia.
Qed.

Lemma mem_agrees us ly i u : agrees us ly -> (i, u) ∈ ly -> us !! N.to_nat i = Some u.
Proof. intros H Hin. unfold agrees in H. rewrite Forall_forall in H. by apply (H (i, u)). Qed.
Lemma layout_hd fs c L : (lastu fs, lastmk fs c) ∈ layout fs c L.
Proof. left. Qed.

Definition ctx (b : builder) (x : fixedst) (fs : list frame) : Prop :=
  b_unfixed b = map f_u fs ++ [0] /\ Forall (fun f => f_hs f = false) fs.

(** One iteration of the second loop. *)
Lemma add_step b x fs ss A key len l pos n :
  dyn b x fs (sid ss) (lay_sibs ss) A -> N.of_nat (S (S A)) <= 1073741824 ->
  Forall (fun s => s_id s <> 0) ss ->
  key_label key len pos = Ok l -> ctx b x fs ->
  exists b' u, dyn b' x (mkFr u l false ss :: fs) 0 [] (S A) /\ ctx b' x (mkFr u l false ss :: fs) /\
    b_init b' = b_init b /\
    insert_add (S n) b key len (lastu fs) pos = insert_add n b' key len u (pos + 1).
Proof.
  intros H Hsz Hss0 Hk [Hst Hhs]. destruct (allocateUnit_ok _ _ _ _ _ _ H Hsz) as (id & us & un & Hal & Hid & Hag & Hperm & Hpool).
  cbn [insert_add]. rewrite Hk. cbn [mbind res_bind]. rewrite Hal. cbn [mbind res_bind set_unit set_unused b_unit b_unfixed].
  pose proof (mem_agrees _ _ _ _ Hag (layout_hd fs (sid ss) (lay_sibs ss))) as Hlu.
  rewrite (get_N _ _ _ Hlu). cbn [mbind res_bind].
  assert (u_child (lastmk fs (sid ss)) = sid ss) as -> by (by destruct fs).
  assert (Hnd : NoDup (id :: (layout fs (sid ss) (lay_sibs ss)).*1 ++ un)).
  { rewrite Hperm. apply seqN_nodup. }
  assert (Hni : id ∉ (layout fs (sid ss) (lay_sibs ss)).*1).
  { apply NoDup_cons in Hnd as [Hnd _]. intros Hin. apply Hnd. apply elem_of_app. by left. }
  assert (Hne : id <> lastu fs).
  { intros ->. apply Hni. unfold layout. by left. }
  set (new := mkDU 0 (sid ss) l (none ss) false).
  assert (Hus1 : (if sid ss =? 0 then upd us id (fun c => du_set_isState c true) else Ok us)
            = Ok (if sid ss =? 0 then <[N.to_nat id := du_set_isState du_zero true]> us else us)).
  { destruct (sid ss =? 0); [|done]. by rewrite (upd_N _ _ _ _ Hid). }
  rewrite Hus1. cbn [mbind res_bind].
  assert (Hus2 : upd (if sid ss =? 0 then <[N.to_nat id := du_set_isState du_zero true]> us else us) id
       (fun c => du_set_label (du_set_sibling c (sid ss)) l) = Ok (<[N.to_nat id := new]> us)).
  { assert (Hb : (sid ss =? 0) = none ss).
    { destruct ss as [|s ss]; [done|]. apply Forall_cons in Hss0 as [Hs0 _]. cbn. by apply N.eqb_neq. }
    rewrite Hb. destruct (none ss) eqn:En.
    - erewrite upd_N by (apply list_lookup_insert; by apply lookup_lt_Some in Hid).
      rewrite list_insert_insert. unfold new. rewrite ?En. done.
    - rewrite (upd_N _ _ _ _ Hid). unfold new. rewrite ?En. done. }
  rewrite Hus2. cbn [mbind res_bind].
  assert (Hlu2 : <[N.to_nat id := new]> us !! N.to_nat (lastu fs) = Some (lastmk fs (sid ss))).
  { rewrite list_lookup_insert_ne by lia. done. }
  rewrite (upd_N _ _ _ _ Hlu2). cbn [mbind res_bind]. rewrite lastmk_set.
  eexists _, id. split; [|split; [|split; [|reflexivity]]]; [|split|done].
  - destruct H as [F _ _ _ Hcnt _]. split.
    + destruct F. by split.
    + cbn [set_unfixed set_unit set_unused b_unit]. rewrite layout_cons. cbn [f_u f_l f_sibs]. rewrite app_nil_r.
      apply Forall_cons. cbn [fst snd]. split.
      * rewrite list_lookup_insert_ne by lia. apply list_lookup_insert. by apply lookup_lt_Some in Hid.
      * unfold layout. apply Forall_cons. split.
        -- cbn [fst snd]. apply list_lookup_insert. rewrite insert_length. by apply lookup_lt_Some in Hlu.
        -- unfold layout in Hag, Hni, Hnd. apply Forall_cons in Hag as [_ Hag]. cbn [fmap list_fmap fst] in Hni, Hnd.
           apply agrees_insert; [apply agrees_insert; [done|]|].
           ++ intros Hin. apply Hni. by right.
           ++ apply NoDup_cons in Hnd as [_ Hnd]. cbn [app] in Hnd. apply NoDup_cons in Hnd as [Hnd _].
              intros Hin. apply Hnd. apply elem_of_app. by left.
    + cbn [set_unfixed set_unit set_unused b_unit b_unused]. rewrite !insert_length, <- Hperm.
      rewrite layout_cons. cbn [f_u f_sibs]. rewrite app_nil_r. done.
    + cbn [set_unfixed set_unit set_unused b_unit]. rewrite !insert_length. lia.
    + rewrite layout_cons. cbn [length f_u f_sibs]. rewrite app_nil_r. unfold layout in *. cbn [length] in *. lia.
    + lia.
  - cbn [set_unfixed b_unfixed map app]. by rewrite Hst.
  - apply Forall_cons. done.
Qed.

Lemma dyn_ids b x fs ss A : dyn b x fs (sid ss) (lay_sibs ss) A -> Forall (fun s => s_id s <> 0) ss.
Proof.
  intros H. apply dyn_nodup in H. apply Forall_forall. intros s Hs H0.
  apply NoDup_app in H as [Hnd _]. unfold layout in Hnd. destruct (root_in fs (sid ss) []) as [u0 Hu0].
  unfold layout in Hu0. rewrite app_nil_r in Hu0.
  rewrite app_comm_cons, fmap_app in Hnd. apply NoDup_app in Hnd as (_ & Hnd & _). apply (Hnd 0).
  - apply elem_of_list_fmap. exists (0, u0). done.
  - rewrite lay_ids. apply elem_of_list_In, in_map_iff. exists s. split; [done|]. by apply elem_of_list_In.
Qed.

(** Frames pushed for the rest [ks ++ [0]] of a key. *)
Fixpoint push (fs : list frame) (ss : list sib) (ls us : list N) : list frame :=
  match ls, us with
  | l :: ls', u :: us' => push (mkFr u l false ss :: fs) [] ls' us'
  | _, _ => fs
  end.

Lemma add_loop ks : forall b x fs ss A key len pos,
  dyn b x fs (sid ss) (lay_sibs ss) A -> N.of_nat (S (A + S (length ks))) <= 1073741824 ->
  ctx b x fs -> chainok (x_ts x) ss -> fsok (x_ts x) fs false ->
  Forall (fun l => 0 < l < 256) ks ->
  Forall (fun s => s_l s < match ks with [] => 0 | l :: _ => l end) ss ->
  (forall j l, (ks ++ [0]) !! j = Some l -> key_label key len (pos + Z.of_nat j) = Ok l) ->
  exists b' us, length us = S (length ks) /\ let fs' := push fs ss (ks ++ [0]) us in
    insert_add (S (length ks)) b key len (lastu fs) pos = Ok (lastu fs', b') /\
    dyn b' x fs' 0 [] (A + S (length ks)) /\ ctx b' x fs' /\ fsok (x_ts x) fs' true /\ fs' <> [] /\
    b_init b' = b_init b.
Proof.
  induction ks as [|l ks IH]; intros b x fs ss A key len pos H Hsz Hctx Hch Hok Hks Hlt Hkey.
  - cbn [length app] in *. pose proof (dyn_ids _ _ _ _ _ H) as Hss0.
    destruct (add_step b x fs ss A key len 0 pos 0 H ltac:(lia) Hss0) as (b' & u & H' & Hctx' & Hi & Hr); [|done|].
    { specialize (Hkey 0%nat 0 eq_refl). by rewrite Z.add_0_r in Hkey. }
    exists b', [u]. split; [done|]. cbn [push]. rewrite Hr. cbn [insert_add lastu f_u]. split; [done|].
    rewrite Nat.add_1_r. split; [done|]. split; [done|]. split; [|done].
    cbn [fsok f_l]. repeat split; try done.
    all: cbn [f_sibs f_l]; try apply Hch; try lia.
  - cbn [length app] in *. pose proof (dyn_ids _ _ _ _ _ H) as Hss0. apply Forall_cons in Hks as [Hl Hks].
    destruct (add_step b x fs ss A key len l pos (S (length ks)) H ltac:(lia) Hss0) as (b' & u & H' & Hctx' & Hi & Hr); [|done|].
    { specialize (Hkey 0%nat l eq_refl). by rewrite Z.add_0_r in Hkey. }
    destruct (IH b' x (mkFr u l false ss :: fs) [] (S A) key len (pos + 1)%Z) as (b'' & us & Hus & Hr' & H'' & Hctx'' & Hok'' & Hne & Hi''); try done.
    + lia.
    + split; [constructor|constructor].
    + cbn [fsok f_l]. repeat split; try done; cbn [f_sibs f_l]; try apply Hch; lia.
    + intros j l' Hj. specialize (Hkey (S j) l' Hj). rewrite <- Hkey. f_equal. lia.
    + exists b'', (u :: us). split; [cbn; lia|]. cbn [push]. cbv zeta in *. rewrite Hr. cbn [lastu f_u] in Hr'. rewrite Hr'.
      split; [done|]. replace (A + S (S (length ks)))%nat with (S A + S (length ks))%nat by lia.
      split; [done|]. split; [done|]. split; [done|]. split; [done|]. congruence.
Qed.

(** ** The first loop *)
Lemma lay_mem inner g outer : forall c L, exists c',
  (f_u g, fmk g c') ∈ layout (inner ++ g :: outer) c L /\ (lastu outer, lastmk outer (f_u g)) ∈ layout (inner ++ g :: outer) c L.
Proof.
  induction inner as [|f inner IH]; intros c L; cbn [app]; rewrite layout_cons.
  - exists c. split; [left|right; left].
  - destruct (IH (f_u f) (lay_sibs (f_sibs f) ++ L)) as (c' & H1 & H2). exists c'. split; by right.
Qed.
Definition seths (g : frame) (hs : bool) : frame := mkFr (f_u g) (f_l g) hs (f_sibs g).
Lemma lay_split inner g outer : forall c L, exists P c' Q, forall hs,
  layout (inner ++ seths g hs :: outer) c L = P ++ (f_u g, fmk (seths g hs) c') :: Q.
Proof.
  induction inner as [|f inner IH]; intros c L.
  - exists [], c, (layout outer (f_u g) (lay_sibs (f_sibs g) ++ L)). intros hs. cbn [app]. by rewrite layout_cons.
  - destruct (IH (f_u f) (lay_sibs (f_sibs f) ++ L)) as (P & c' & Q & He).
    exists ((f_u f, fmk f c) :: P), c', Q. intros hs. cbn [app]. rewrite layout_cons. by rewrite He.
Qed.

(** Setting hasSibling of an open unit. *)
Lemma dyn_seths b x inner g outer c L A : dyn b x (inner ++ g :: outer) c L A ->
  exists us, upd (b_unit b) (f_u g) (fun u => du_set_hasSibling u true) = Ok us /\
    dyn (set_unit b us) x (inner ++ seths g true :: outer) c L A.
Proof.
  intros H. destruct (lay_split inner g outer c L) as (P & c' & Q & He).
  assert (Hg : g = seths g (f_hs g)) by (by destruct g).
  assert (He0 := He (f_hs g)). rewrite <- Hg in He0. specialize (He true).
  pose proof (dyn_nodup _ _ _ _ _ _ H) as Hnd. destruct H as [F Hag Hperm Hpool Hcnt Hs]. rewrite He0 in *.
  assert (Hu : b_unit b !! N.to_nat (f_u g) = Some (fmk g c')).
  { eapply mem_agrees; [exact Hag|]. apply elem_of_app. right. by left. }
  eexists. split; [by apply upd_N|]. split; cbn [set_unit b_unit b_unused].
  - destruct F. by split.
  - rewrite He. apply Forall_app in Hag as [Ha1 Ha2]. apply Forall_cons in Ha2 as [_ Ha2].
    rewrite fmap_app in Hnd. cbn [fmap list_fmap fst] in Hnd.
    apply NoDup_app in Hnd as (Hnd & _). apply NoDup_app in Hnd as (_ & Hnd1 & Hnd2). apply NoDup_cons in Hnd2 as [Hnd2 _].
    apply Forall_app. split; [apply agrees_insert; [done|]|].
    + intros Hin. apply (Hnd1 (f_u g)); [done|by left].
    + apply Forall_cons. split; [|by apply agrees_insert]. cbn [fst snd].
      rewrite list_lookup_insert by (by apply lookup_lt_Some in Hu). done.
  - rewrite He, insert_length, <- Hperm. rewrite !fmap_app. done.
  - by rewrite insert_length.
  - rewrite He, app_length in *. cbn [length] in *. lia.
  - done.
Qed.

(** Matching levels are skipped. *)
Lemma find_skip ks g1 : forall b inner outer c L n key len pos,
  agrees (b_unit b) (layout (inner ++ rev g1 ++ outer) c L) -> NoDup (layout (inner ++ rev g1 ++ outer) c L).*1 ->
  map f_l g1 = ks ->
  (forall j l, ks !! j = Some l -> key_label key len (pos + Z.of_nat j) = Ok l) ->
  insert_find (length ks + n) b key len (lastu outer) pos =
  insert_find n b key len (lastu (rev g1 ++ outer)) (pos + Z.of_nat (length ks)).
Proof.
  revert ks. induction g1 as [|g g1 IH]; intros ks b inner outer c L n key len pos Hag Hnd Hks Hkey; cbn [map] in Hks; subst ks.
  - cbn [length rev app]. by rewrite Z.add_0_r.
  - cbn [length plus insert_find rev] in *. rewrite <- app_assoc in *. cbn [app] in *.
    rewrite app_assoc in Hag, Hnd.
    destruct (lay_mem (inner ++ rev g1) g outer c L) as (c' & Hm1 & Hm2).
    pose proof (mem_agrees _ _ _ _ Hag Hm1) as Hu1. pose proof (mem_agrees _ _ _ _ Hag Hm2) as Hu2.
    rewrite (get_N _ _ _ Hu2). cbn [mbind res_bind].
    assert (u_child (lastmk outer (f_u g)) = f_u g) as -> by (by destruct outer).
    assert (f_u g <> 0) as Hg0.
    { intros Hz. clear -Hnd Hz. revert Hnd. generalize (inner ++ rev g1) as fs. intros fs. revert c L.
      induction fs as [|f fs IH]; intros c L; cbn [app]; rewrite layout_cons; intros Hnd; cbn [fmap list_fmap fst] in Hnd; apply NoDup_cons in Hnd as [Hnd Hnd2].
      - rewrite Hz in Hnd. apply Hnd. rewrite <- Hz. destruct (root_in outer (f_u g) (lay_sibs (f_sibs g) ++ L)) as [u Hu].
        apply elem_of_list_fmap. exists (0, u). done.
      - by eapply IH. }
    destruct (N.eqb_spec (f_u g) 0); [done|].
    assert (Hk0 := Hkey 0%nat (f_l g) eq_refl). rewrite Z.add_0_r in Hk0. rewrite Hk0. cbn [mbind res_bind].
    rewrite (get_N _ _ _ Hu1). cbn [mbind res_bind fmk u_label].
    rewrite N.ltb_irrefl. rewrite <- app_assoc in Hag, Hnd.
    pose proof (IH (map f_l g1) b inner (g :: outer) c L n key len (pos + 1)%Z Hag Hnd eq_refl) as IH'.
    cbn [lastu] in IH'. rewrite IH'.
    + f_equal. lia.
    + intros j l Hj. specialize (Hkey (S j) l Hj). rewrite <- Hkey. f_equal. lia.
Qed.

Lemma open_ne us fs g outer c L : agrees us (layout (fs ++ g :: outer) c L) -> NoDup (layout (fs ++ g :: outer) c L).*1 -> f_u g <> 0.
Proof.
  intros _ Hnd Hz. revert c L Hnd. induction fs as [|f fs IH]; intros c L; cbn [app]; rewrite layout_cons; intros Hnd; cbn [fmap list_fmap fst] in Hnd; apply NoDup_cons in Hnd as [Hnd Hnd2].
  - rewrite Hz in Hnd. apply Hnd. rewrite <- Hz. destruct (root_in outer (f_u g) (lay_sibs (f_sibs g) ++ L)) as [u Hu].
    apply elem_of_list_fmap. exists (0, u). done.
  - by eapply IH.
Qed.

(** The level where the key leaves the path. *)
Lemma find_reject b inner g outer c L n key len pos l :
  agrees (b_unit b) (layout (inner ++ g :: outer) c L) -> NoDup (layout (inner ++ g :: outer) c L).*1 ->
  key_label key len pos = Ok l -> l < f_l g ->
  insert_find (S n) b key len (lastu outer) pos = Ok None.
Proof.
  intros Hag Hnd Hk Hl. cbn [insert_find]. destruct (lay_mem inner g outer c L) as (c' & Hm1 & Hm2).
  pose proof (mem_agrees _ _ _ _ Hag Hm1) as Hu1. pose proof (mem_agrees _ _ _ _ Hag Hm2) as Hu2.
  rewrite (get_N _ _ _ Hu2). cbn [mbind res_bind].
  assert (u_child (lastmk outer (f_u g)) = f_u g) as -> by (by destruct outer).
  pose proof (open_ne _ _ _ _ _ _ Hag Hnd). destruct (N.eqb_spec (f_u g) 0); [done|].
  rewrite Hk, (get_N _ _ _ Hu1). cbn [mbind res_bind fmk u_label].
  destruct (N.ltb_spec l (f_l g)); [done|lia].
Qed.

Lemma find_close b x inner g outer c A n key len pos l s :
  dyn b x (inner ++ g :: outer) c [] A -> ctx b x (inner ++ g :: outer) ->
  fsok (x_ts x) (inner ++ g :: outer) (is_leaf s) -> fenc (x_ts x) s c -> wf s ->
  key_label key len pos = Ok l -> f_l g < l ->
  let x' := (aclose x inner s).1 in let s' := (aclose x inner s).2 in
  exists b' c', let ss := mkSib (f_u g) c' (f_l g) s' :: f_sibs g in
    insert_find (S n) b key len (lastu outer) pos = Ok (Some (lastu outer, pos, b')) /\
    dyn b' x' outer (sid ss) (lay_sibs ss) A /\ ctx b' x' outer /\ chainok (x_ts x') ss /\ fsok (x_ts x') outer false /\
    Forall (fun s => s_l s < l) ss /\ b_init b' = b_init b.
Proof.
  intros H [Hst Hhs] Hok Hfe Hwf Hk Hl x' s'. cbn [insert_find].
  pose proof (dyn_nodup _ _ _ _ _ _ H) as Hnd. apply NoDup_app in Hnd as [Hnd _].
  pose proof (dy_agrees _ _ _ _ _ _ H) as Hag.
  destruct (lay_mem inner g outer c []) as (c' & Hm1 & Hm2).
  pose proof (mem_agrees _ _ _ _ Hag Hm1) as Hu1. pose proof (mem_agrees _ _ _ _ Hag Hm2) as Hu2.
  rewrite (get_N _ _ _ Hu2). cbn [mbind res_bind].
  assert (u_child (lastmk outer (f_u g)) = f_u g) as -> by (by destruct outer).
  pose proof (open_ne _ _ _ _ _ _ Hag Hnd). destruct (N.eqb_spec (f_u g) 0); [done|].
  rewrite Hk, (get_N _ _ _ Hu1). cbn [mbind res_bind fmk u_label].
  destruct (N.ltb_spec l (f_l g)); [lia|]. destruct (N.ltb_spec (f_l g) l); [|lia].
  destruct (dyn_seths _ _ _ _ _ _ _ _ H) as (us & Hus & H'). rewrite Hus. cbn [mbind res_bind].
  apply Forall_app in Hhs as [Hhs1 Hhs2].
  assert (Hok' : fsok (x_ts x) (inner ++ seths g true :: outer) (is_leaf s)).
  { clear -Hok. revert Hok. generalize (is_leaf s). induction inner as [|f inner IH]; intros lf; cbn [app fsok]; [done|].
    intros (A & B & C). split; [done|]. split; [done|]. by apply IH. }
  destruct (close_loop inner (set_unit b us) x c s (seths g true :: outer) A H' Hok' Hhs1 Hfe Hwf) as
    (b' & c'' & Hr & H'' & Hfe'' & Hwf'' & [e He] & Hlf & Huf & Hi).
  { cbn [set_unit b_unfixed]. rewrite Hst. f_equal. rewrite !map_app. done. }
  cbn [lastu seths f_u] in Hr. rewrite Hr. cbn [mbind res_bind].
  exists b', c''. split; [done|]. fold x' in H'', He, Hfe''. fold s' in Hfe'', Hwf'', Hlf.
  assert (Hgok : fok (x_ts x) g /\ (f_l g = 0 <-> is_leaf s' = true) /\ fsok (x_ts x) outer false).
  { apply fsok_app in Hok. destruct Hok as (A1 & A2 & A3). split; [done|]. split; [|done].
    destruct inner as [|f inner]; [done|]. unfold s' in *. rewrite Hlf by done. done. }
  destruct Hgok as (Hgok & Hglf & Hook).
  split; [|split; [|split; [|split; [|split]]]].
  - destruct H'' as [F Hag'' Hperm Hpool Hcnt Hsz]. rewrite layout_cons, app_nil_r in *. cbn [seths f_u f_sibs] in *.
    set (ss := mkSib (f_u g) c'' (f_l g) s' :: f_sibs g).
    assert (Hpm : (f_u g, fmk (seths g true) c'') :: layout outer (f_u g) (lay_sibs (f_sibs g)) ≡ₚ layout outer (sid ss) (lay_sibs ss)).
    { unfold layout, ss. cbn [sid lay_sibs s_id s_c s_l]. rewrite <- !Permutation_middle. apply Permutation_swap. }
    split; try done.
    + unfold agrees in *. by rewrite <- Hpm.
    + by rewrite <- Hpm.
    + rewrite <- Hcnt. f_equal. apply Permutation_length. by symmetry.
  - split; [|by apply Forall_cons in Hhs2 as [_ ?]]. rewrite Huf. done.
  - rewrite He. destruct Hgok as ((B1 & B2) & B3 & B4). split.
    + apply Forall_cons. split.
      * unfold sibok. cbn [s_s s_c s_l]. rewrite <- He. done.
      * eapply Forall_impl; [exact B1|]. intros z (Z1 & Z2). split; [by apply fenc_mono|done].
    + constructor; [done|]. done.
  - rewrite He. by apply fsok_mono.
  - destruct Hgok as (_ & B3 & _). apply Forall_cons. split; [done|]. eapply Forall_impl; [exact B3|].
    intros z Hz. cbn in *. lia.
  - done.
Qed.
