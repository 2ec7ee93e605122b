(** Keys with zero bytes (dawg_builder.go:264-320). *)
From Verif Require Import Go BitPool BitPoolProofs LinkTable LinkTableProofs Probe Dawg Tree DawgRep DawgFrozen DawgFix DawgTrie DawgInsert DawgMain DawgAbs TreeFacts DawgNav DawgThms DawgSpec.
Local Open Scope N_scope.
Local Ltac Zify.zify_post_hook ::= Z.div_mod_to_equations.
Local Arguments N.mul : simpl never.
Local Arguments N.add : simpl never.
Local Arguments N.of_nat : simpl never.

(** ** The same key and then a zero byte: the value is taken for a unit *)
Lemma find_past b x afs v A key k r n :
  brep_st b x afs v A -> pathof afs = k ++ [0] -> key = k ++ 0 :: r -> n = S (length r) ->
  exists c u, c mod 2147483648 = v /\ (length (b_unit b) <= S A)%nat /\
  insert_find (length k + 1 + n) b key (Z.of_nat (length key)) 0 0 = insert_find n b key (Z.of_nat (length key)) u (Z.of_nat (length k + 1)) /\
  exists d, b_unit b !! N.to_nat u = Some d /\ u_child d = c /\ forall c', rawc b c' -> c' = c.
Proof.
  intros [(fs & c & H & Hctx & Hok & Hne & Hc & <-)] Hp Hk Hn. rewrite pathof_alpha in Hp.
  pose proof (dyn_nodup _ _ _ _ _ _ H) as Hnd. apply NoDup_app in Hnd as [Hnd _]. pose proof (dy_agrees _ _ _ _ _ _ H) as Hag.
  exists c, (lastu fs). split; [done|]. split; [apply (dy_pool _ _ _ _ _ _ H)|]. split.
  - pose proof (find_skip (k ++ [0]) (rev fs) b [] [] c [] n key (Z.of_nat (length key)) 0%Z) as Hskip.
    cbn [app] in Hskip. rewrite app_nil_r, rev_involutive in Hskip. rewrite app_length in Hskip. cbn [length lastu] in Hskip.
    rewrite Hskip; [done|done|done|by rewrite map_rev|].
    intros j l Hj. rewrite Z.add_0_l. apply key_labels; [lia|]. unfold keyof. rewrite take_ge by lia. subst key.
    rewrite <- app_assoc. change (0 :: r) with ([0] ++ r). rewrite <- (app_assoc [0]), app_assoc. by apply lookup_app_l_Some.
  - exists (lastmk fs c). split; [apply (mem_agrees _ _ _ _ Hag), layout_hd|]. split; [by destruct fs|]. destruct fs as [|f fs]; [done|]. intros c'. by eapply rawc_dyn.
Qed.
Lemma big_panic b x afs v A c k r w : brep_st b x afs v A -> pathof afs = k ++ [0] -> rawc b c -> N.of_nat (S A) <= c ->
  InsertStringValue b (k ++ 0 :: r) w = Panic.
Proof.
  intros Hb Hp Hraw Hc. destruct (find_past b x afs v A (k ++ 0 :: r) k r (S (length r)) Hb Hp eq_refl eq_refl) as (c' & u & _ & Hpool & Hf & d & Hd & Hch & Hun).
  apply Hun in Hraw as <-. clear Hun.
  unfold InsertStringValue, InsertKeyValue. pose proof Hb as [(fs & c' & H & _)]. pose proof (hash_ne _ _ _ _ _ _ H) as Hh'.
  destruct (b_hash b) as [|h0 hh] eqn:Eh; [done|]. cbn [mbind res_bind].
  remember (k ++ 0 :: r) as key eqn:Ek.
  assert (Hlk : (length key = length k + S (length r))%nat) by (subst key; rewrite app_length; done).
  replace (Z.to_nat (Z.of_nat (length key) + 1)) with (length k + 1 + S (length r))%nat by lia. rewrite Hf. cbn [insert_find].
  rewrite (get_N _ _ _ Hd). cbn [mbind res_bind]. rewrite Hch. destruct (N.eqb_spec c 0); [lia|].
  assert (Hkl : exists l, key_label key (Z.of_nat (length key)) (Z.of_nat (length k + 1)) = Ok l).
  { unfold key_label. destruct (Z.ltb_spec (Z.of_nat (length k + 1)) (Z.of_nat (length key))) as [Hlt|]; [|eauto].
    destruct (lookup_lt_is_Some_2 key (Z.to_nat (Z.of_nat (length k + 1)))) as [l ->]; [lia|]. eauto. }
  destruct Hkl as [l ->]. cbn [mbind res_bind]. unfold get at 1. rewrite lookup_ge_None_2 by lia. done.
Qed.

(** ** Keys after the last one *)
(** DawgTrie.fix_step, without a condition on the outer levels. *)
Lemma fix_step1 b x f fs c s A r :
  dyn b x (f :: fs) c [] A -> fok (x_ts x) f -> (f_l f = 0 <-> is_leaf s = true) -> f_hs f = false ->
  fenc (x_ts x) s c -> wf s -> b_unfixed b = lastu fs :: r ->
  exists b' c', fixUnit b (f_u f) = Ok b' /\ dyn b' (afix x (cles f s)) fs c' [] A /\
    fenc (x_ts (afix x (cles f s))) (Node (cles f s)) c' /\ b_unfixed b' = b_unfixed b /\ b_init b' = b_init b.
Proof.
  intros H Hf Hl Hhs Hfe Hwf Hunf.
  pose proof (dyn_nodup _ _ _ _ _ _ H) as Hnd. destruct H as [F Hag Hperm Hpool Hcnt Hsz].
  pose proof (fr_frozen _ _ F) as Fz.
  rewrite layout_cons, app_nil_r in *. cbn [fmap list_fmap fst] in *.
  destruct (chain_ids_ne _ _ _ _ _ Hnd) as [Hu0 Hss0].
  apply Forall_cons in Hag as [Hag1 Hag]. cbn [fst snd] in Hag1.
  assert (Hag' := Hag). unfold layout in Hag'. apply Forall_cons in Hag' as [Hag2 Hag3].
  apply Forall_app in Hag3 as [Hag3 Hag4]. cbn [fst snd] in Hag2.
  assert (Hchain : uchain (b_unit b) (f_u f) (fchain f c)).
  { cbn [uchain fchain]. repeat split; try done. by apply uchain_sibs. }
  assert (Hlen : length (layout fs (f_u f) (lay_sibs (f_sibs f))) = (S (length (rest fs)) + length (lay_sibs (f_sibs f)))%nat).
  { unfold layout. cbn [length]. rewrite app_length. lia. }
  assert (Hlc : length (cles f s) = S (length (lay_sibs (f_sibs f)))).
  { unfold cles, fes. rewrite app_length, rev_length, map_length. cbn [length].
    rewrite <- (map_length s_id), <- lay_ids, fmap_length. lia. }
  cbn [length] in Hcnt.
  destruct (fixUnit_ok b x (f_u f) (fchain f c) (cles f s) (lastu fs) r (lastmk fs (f_u f)) F Hchain) as
    (b' & k & Hr & F' & Hk & Hus & Hun & Huf & Hi).
  - apply Permutation_length in Hperm. rewrite fmap_length, seq_length in Hperm.
    cbn [app length] in Hperm. rewrite app_length, fmap_length in Hperm. unfold fchain. cbn [length]. lia.
  - apply genc_frame; try done; [apply Fz|apply wf_ne, Fz].
  - by eapply wf_frame.
  - lia.
  - done.
  - done.
  - exists b', (N.of_nat (start (x_ts (afix x (cles f s))) k)). split; [done|]. split; [|split; [cbn; eauto|done]].
    rewrite lastmk_set in Hus.
    assert (Hni : lastu fs ∉ (rest fs).*1).
    { cbn [app] in Hnd. apply NoDup_cons in Hnd as [_ Hnd]. apply NoDup_app in Hnd as [Hnd _].
      unfold layout in Hnd. cbn [fmap list_fmap fst] in Hnd. apply NoDup_cons in Hnd as [Hnd _].
      intros Hin. apply Hnd. rewrite fmap_app. apply elem_of_app. by left. }
    split; try done.
    + rewrite Hus. unfold layout. rewrite app_nil_r. apply Forall_cons. split.
      * cbn [fst snd]. apply list_lookup_insert. by apply lookup_lt_Some in Hag2.
      * by apply agrees_insert.
    + rewrite Hus, insert_length, <- Hperm, Hun. unfold layout, fchain. rewrite app_nil_r. cbn [fmap list_fmap fst rev].
      rewrite fmap_app. rewrite <- (Permutation_rev (lay_sibs (f_sibs f)).*1).
      solve_Permutation.
    + rewrite Hus, insert_length. done.
    + rewrite afix_count, Hlc. unfold layout. cbn [length]. rewrite app_nil_r. lia.
Qed.


(** Closing levels with any labels: a level with label 0 takes the number of the
    group below for a value. *)
Lemma close_any inner : forall b x c s outer A,
  dyn b x (inner ++ outer) c [] A -> Forall (fok (x_ts x)) inner -> Forall (fun f => f_hs f = false) inner ->
  fenc (x_ts x) s c -> wf s -> (is_leaf s = true -> match inner with [] => True | f :: _ => f_l f = 0 end) ->
  b_unfixed b = map f_u (inner ++ outer) ++ [0] ->
  exists b' c' x' s', (forall i, i ∉ map f_u inner -> fixUnits b i = fixUnits b' i) /\
    dyn b' x' outer c' [] A /\ fenc (x_ts x') s' c' /\ wf s' /\ (exists e, x_ts x' = x_ts x ++ e) /\
    is_leaf s' = match inner with [] => is_leaf s | _ => false end /\ b_unfixed b' = map f_u outer ++ [0] /\ b_init b' = b_init b.
Proof.
  induction inner as [|f inner IH]; intros b x c s outer A H Hok Hhs Hfe Hwf Hlf Huf.
  - exists b, c, x, s. split; [done|]. split; [done|]. split; [done|]. split; [done|]. split; [exists []; by rewrite app_nil_r|]. done.
  - cbn [app] in *. apply Forall_cons in Hhs as [Hh Hhs]. apply Forall_cons in Hok as [Hf Hok].
    assert (Hstk : exists r, map f_u (inner ++ outer) ++ [0] = lastu (inner ++ outer) :: r).
    { destruct (inner ++ outer); cbn; eauto. }
    destruct Hstk as [r Hstk].
    set (b0 := set_unfixed b (map f_u (inner ++ outer) ++ [0])).
    assert (H0 : dyn b0 x (f :: inner ++ outer) c [] A).
    { destruct H as [F H1 H2 H3 H4 H5]. split; try done. destruct F. by split. }
    set (s1 := if f_l f =? 0 then Leaf (c mod 2147483648) else s).
    assert (Hs1 : (f_l f = 0 <-> is_leaf s1 = true) /\ fenc (x_ts x) s1 c /\ wf s1).
    { unfold s1. destruct (N.eqb_spec (f_l f) 0) as [E|E].
      - split; [done|]. split; [done|]. constructor. apply N.mod_lt. lia.
      - split; [|done]. split; [done|]. intros Hz. by apply Hlf in Hz. }
    destruct Hs1 as (Hl1 & Hfe1 & Hwf1).
    destruct (fix_step1 b0 x f (inner ++ outer) c s1 A r H0 Hf Hl1 Hh Hfe1 Hwf1) as (b' & c' & Hr & H' & Hfe' & Huf' & Hi'); [done|].
    destruct (afix_ext x (cles f s1)) as [e He].
    destruct (IH b' (afix x (cles f s1)) c' (Node (cles f s1)) outer A) as (b'' & c'' & x'' & s'' & Hr' & H'' & Hfe'' & Hwf'' & [e' He'] & Hl'' & Huf'' & Hi''); try done.
    + rewrite He. eapply Forall_impl; [exact Hok|]. intros g Hg. by apply fok_mono.
    + by eapply wf_frame.
    + exists b'', c'', x'', s''. split.
      * intros i Hi. cbn [map] in Hi. rewrite not_elem_of_cons in Hi. destruct Hi as [Hi1 Hi2]. rewrite <- Hr' by done.
        unfold fixUnits. rewrite Huf. cbn [map app fixUnits_loop]. destruct (N.eqb_spec (f_u f) i); [done|].
        fold b0. rewrite Hr. cbn [mbind res_bind]. change (b_unfixed b0) with (map f_u (inner ++ outer) ++ [0]) in Huf'. by rewrite <- Huf'.
      * split; [exact H''|]. split; [exact Hfe''|]. split; [exact Hwf''|]. split; [|split; [|split; [exact Huf''|by rewrite Hi'']]].
        -- exists (e ++ e'). rewrite He', He. by rewrite app_assoc.
        -- rewrite Hl''. by destruct inner.
Qed.

Lemma front_ne ir : forall rest c L, NoDup (layout (ir ++ rest) c L).*1 -> forall i, i ∈ map f_u ir -> forall inner outer, rest = inner ++ outer -> i <> lastu outer.
Proof.
  induction ir as [|f ir IH]; intros rest c L Hnd i Hi inner outer Hr; [by apply not_elem_of_nil in Hi|]. cbn [app] in Hnd. rewrite layout_cons in Hnd. cbn [fmap list_fmap fst] in Hnd.
  apply NoDup_cons in Hnd as [Hnd1 Hnd]. cbn [map] in Hi. apply elem_of_cons in Hi as [->|Hi]; [|by eapply IH].
  intros E. apply Hnd1. rewrite E, Hr, app_assoc. apply lastu_in.
Qed.
Lemma close2 ir inner outer b x c A :
  dyn b x (ir ++ inner ++ outer) c [] A -> Forall (fok (x_ts x)) ir -> Forall (fun f => f_hs f = false) (ir ++ inner) ->
  match ir with [] => False | f :: _ => f_l f = 0 end -> fsok (x_ts x) (inner ++ outer) true ->
  b_unfixed b = map f_u (ir ++ inner ++ outer) ++ [0] ->
  exists t x1, 0 < t < 1073741824 /\ (exists e, x_ts x1 = x_ts x ++ e) /\
  exists b' c', fixUnits b (lastu outer) = Ok b' /\
    dyn b' (aclose x1 inner (Leaf t)).1 outer c' [] A /\ fenc (x_ts (aclose x1 inner (Leaf t)).1) (aclose x1 inner (Leaf t)).2 c' /\
    wf (aclose x1 inner (Leaf t)).2 /\
    (exists e, x_ts (aclose x1 inner (Leaf t)).1 = x_ts x ++ e) /\
    (inner <> [] -> is_leaf (aclose x1 inner (Leaf t)).2 = false) /\
    b_unfixed b' = tail (map f_u outer ++ [0]) /\ b_init b' = b_init b.
Proof.
  intros H Hir Hhs Hir0 Hok Huf. apply Forall_app in Hhs as [Hhs1 Hhs2]. pose proof (dyn_nodup _ _ _ _ _ _ H) as Hnd. apply NoDup_app in Hnd as [Hnd _].
  destruct (close_any ir b x c (Leaf (c mod 2147483648)) (inner ++ outer) A H Hir Hhs1) as (b1 & c1 & x1 & s1 & Hfix & H1 & Hfe1 & Hwf1 & [e1 He1] & Hl1 & Huf1 & Hi1).
  { done. }
  { constructor. apply N.mod_lt. lia. }
  { by destruct ir. }
  { done. }
  assert (Hs1 : is_leaf s1 = false) by (by destruct ir). destruct s1 as [|es1]; [done|]. destruct Hfe1 as (k1 & Hk1 & Hc1).
  assert (Ht : 0 < c1 < 1073741824).
  { pose proof (start_bound _ _ _ Hk1) as Hb. pose proof (fz_size _ _ _ (fr_frozen _ _ (dy_fixed _ _ _ _ _ _ H1))) as Hsz.
    assert (length es1 <> 0)%nat by (apply wf_node_inv in Hwf1 as (Hn & _); by destruct es1). unfold start in *. lia. }
  exists c1, x1. split; [done|]. split; [by exists e1|].
  destruct (close_loop inner b1 x1 c1 (Leaf c1) outer A) as (b' & c' & Hr & H' & Hfe' & Hwf' & [e He] & Hlf & Huf' & Hi'); try done.
  { rewrite He1. by apply fsok_mono. }
  { cbn. rewrite N.mod_small by lia. done. }
  { constructor. lia. }
  exists b', c'. split; [rewrite Hfix; [done|]|].
  { intros Hin. by apply (front_ne ir (inner ++ outer) c [] Hnd _ Hin inner outer). }
  split; [done|]. split; [done|]. split; [done|]. split; [|split; [done|split; [done|by rewrite Hi']]].
  exists (e1 ++ e). by rewrite He, He1, app_assoc.
Qed.
Lemma find_close_nul b x ir inner g outer c A n key len pos l :
  dyn b x (ir ++ inner ++ g :: outer) c [] A -> ctx b x (ir ++ inner ++ g :: outer) ->
  Forall (fok (x_ts x)) ir -> match ir with [] => False | f :: _ => f_l f = 0 end ->
  fsok (x_ts x) (inner ++ g :: outer) true ->
  key_label key len pos = Ok l -> f_l g < l ->
  exists t x1, 0 < t < 1073741824 /\
  let x' := (aclose x1 inner (Leaf t)).1 in let s' := (aclose x1 inner (Leaf t)).2 in
  exists b' c', let ss := mkSib (f_u g) c' (f_l g) s' :: f_sibs g in
    insert_find (S n) b key len (lastu outer) pos = Ok (Some (lastu outer, pos, b')) /\
    dyn b' x' outer (sid ss) (lay_sibs ss) A /\ ctx b' x' outer /\ chainok (x_ts x') ss /\ fsok (x_ts x') outer false /\
    Forall (fun s => s_l s < l) ss /\ b_init b' = b_init b.
Proof.
  intros H [Hst Hhs] Hir Hir0 Hok Hk Hl. cbn [insert_find]. rewrite (app_assoc ir) in H, Hst, Hhs.
  pose proof (dyn_nodup _ _ _ _ _ _ H) as Hnd. apply NoDup_app in Hnd as [Hnd _].
  pose proof (dy_agrees _ _ _ _ _ _ H) as Hag.
  destruct (lay_mem (ir ++ inner) g outer c []) as (c' & Hm1 & Hm2).
  pose proof (mem_agrees _ _ _ _ Hag Hm1) as Hu1. pose proof (mem_agrees _ _ _ _ Hag Hm2) as Hu2.
  rewrite (get_N _ _ _ Hu2). cbn [mbind res_bind].
  assert (u_child (lastmk outer (f_u g)) = f_u g) as -> by (by destruct outer).
  pose proof (open_ne _ _ _ _ _ _ Hag Hnd). destruct (N.eqb_spec (f_u g) 0); [done|].
  rewrite Hk, (get_N _ _ _ Hu1). cbn [mbind res_bind fmk u_label].
  destruct (N.ltb_spec l (f_l g)); [lia|]. destruct (N.ltb_spec (f_l g) l); [|lia].
  destruct (dyn_seths _ _ _ _ _ _ _ _ H) as (us & Hus & H'). rewrite Hus. cbn [mbind res_bind].
  apply Forall_app in Hhs as [Hhs1 Hhs2].
  assert (Hok' : fsok (x_ts x) (inner ++ seths g true :: outer) true).
  { clear -Hok. revert Hok. generalize true at 1 3. induction inner as [|f inner IH]; intros lf; cbn [app fsok]; [done|].
    intros (A & B & C). split; [done|]. split; [done|]. by apply IH. }
  rewrite <- app_assoc in H'.
  destruct (close2 ir inner (seths g true :: outer) (set_unit b us) x c A H' Hir Hhs1 Hir0 Hok') as
    (t & x1 & Ht & [e1 He1] & b' & c'' & Hr & H'' & Hfe'' & Hwf'' & [e He] & Hlf & Huf & Hi).
  { cbn [set_unit b_unfixed]. rewrite Hst. f_equal. rewrite !map_app, <- app_assoc. done. }
  cbn [lastu seths f_u] in Hr. rewrite Hr. cbn [mbind res_bind].
  exists t, x1. split; [done|]. set (x' := (aclose x1 inner (Leaf t)).1) in *. set (s' := (aclose x1 inner (Leaf t)).2) in *. cbv zeta. exists b', c''. split; [done|].
  assert (Hgok : fok (x_ts x) g /\ (f_l g = 0 <-> is_leaf s' = true) /\ fsok (x_ts x) outer false).
  { apply fsok_app in Hok. destruct Hok as (A1 & A2 & A3). split; [done|]. split; [|done].
    destruct inner as [|f inner]; [done|]. unfold s' in *. rewrite Hlf by done. done. }
  destruct Hgok as (Hgok & Hglf & Hook).
  split; [|split; [|split; [|split; [|split]]]].
  - destruct H'' as [F Hag'' Hperm Hpool Hcnt Hsz]. rewrite layout_cons, app_nil_r in *. cbn [seths f_u f_sibs] in *.
    set (ss := mkSib (f_u g) c'' (f_l g) s' :: f_sibs g).
    assert (Hpm : (f_u g, fmk (seths g true) c'') :: layout outer (f_u g) (lay_sibs (f_sibs g)) ≡ₚ layout outer (sid ss) (lay_sibs ss)).
    { unfold layout, ss. cbn [sid lay_sibs s_id s_c s_l]. rewrite <- !Permutation_middle. apply Permutation_swap. }
    split; try done.
    + unfold agrees in *. by rewrite <- Hpm.
    + by rewrite <- Hpm.
    + rewrite <- Hcnt. f_equal. apply Permutation_length. by symmetry.
  - split; [|by apply Forall_cons in Hhs2 as [_ ?]]. rewrite Huf. done.
  - rewrite He. destruct Hgok as ((B1 & B2) & B3 & B4). split.
    + apply Forall_cons. split.
      * unfold sibok. cbn [s_s s_c s_l]. rewrite <- He. done.
      * eapply Forall_impl; [exact B1|]. intros z (Z1 & Z2). split; [by apply fenc_mono|done].
    + constructor; [done|]. done.
  - rewrite He. by apply fsok_mono.
  - destruct Hgok as (_ & B3 & _). apply Forall_cons. split; [done|]. eapply Forall_impl; [exact B3|].
    intros z Hz. cbn in *. lia.
  - done.
Qed.
(** A key with a zero byte has been accepted; [afs] is the path up to that byte. *)
Definition pendw (b : builder) (x : fixedst) (afs : apath) (w : list N) (c : N) (A : nat) : Prop := exists ir fs, rev (map f_l ir) = w /\
  dyn b x (ir ++ fs) c [] A /\ ctx b x (ir ++ fs) /\ Forall (fok (x_ts x)) ir /\ match ir with [] => False | f :: _ => f_l f = 0 end /\
  fsok (x_ts x) fs true /\ fs <> [] /\ map alpha fs = afs.
Definition pend (b : builder) (x : fixedst) (afs : apath) (A : nat) : Prop := exists w c, pendw b x afs w c A.
Lemma insert_lower_nul b x afs A key len val p l q l' r :
  pend b x afs A -> (len <= length key)%nat -> pathof afs = p ++ l :: q ->
  keyof key len ++ [0] = p ++ l' :: r -> l' < l ->
  InsertKeyValue b key (Z.of_nat len) val = Ok (false, b).
Proof.
  intros (w0 & c & ir & fs & _ & H & Hctx & Hir & Hir0 & Hok & Hne & <-) Hlen Hp Hk Hl. rewrite pathof_alpha in Hp.
  pose proof (dyn_nodup _ _ _ _ _ _ H) as Hnd. apply NoDup_app in Hnd as [Hnd _]. pose proof (dy_agrees _ _ _ _ _ _ H) as Hag.
  assert (Hlk : length (keyof key len) = len) by (unfold keyof; rewrite take_length; lia).
  destruct (frames_split _ _ _ _ Hp) as (inner & g & g1 & -> & Hg1 & Hg & Hq).
  unfold InsertKeyValue. pose proof (hash_ne _ _ _ _ _ _ H) as Hh.
  destruct (b_hash b) as [|h0 hh] eqn:Eh; [done|]. cbn [mbind res_bind].
  assert (Hn : (len + 1 = length p + S (length r))%nat).
  { apply (f_equal length) in Hk. rewrite !app_length, Hlk in Hk. cbn [length] in Hk. lia. }
  replace (Z.to_nat (Z.of_nat len + 1)) with (length p + S (length r))%nat by lia.
  pose proof (find_skip p g1 b (ir ++ inner ++ [g]) [] c [] (S (length r)) key (Z.of_nat len) 0%Z) as Hskip.
  rewrite app_nil_r, <- !app_assoc in Hskip. cbn [app lastu] in Hskip. rewrite Hskip; [|done|done|done|].
  - rewrite (find_reject _ (ir ++ inner) g (rev g1) c [] _ _ _ _ l'); [done|by rewrite <- app_assoc|by rewrite <- app_assoc| |lia].
    rewrite Z.add_0_l. apply key_labels; [done|]. rewrite Hk, lookup_app_r, Nat.sub_diag by lia. done.
  - intros j z Hj. rewrite Z.add_0_l. apply key_labels; [done|]. rewrite Hk. by apply lookup_app_l_Some.
Qed.
Lemma insert_higher_nul b x afs A key len val p l q l' r :
  pend b x afs A -> (len <= length key)%nat -> zfree (keyof key len) ->
  N.of_nat (S (A + S len)) <= 1073741824 ->
  pathof afs = p ++ l :: q -> keyof key len ++ [0] = p ++ l' :: r -> l < l' ->
  exists inner es outer, afs = inner ++ (l, es) :: outer /\ pathof outer = p /\ pathof inner = q /\
    exists t x1, 0 < t < 1073741824 /\ let '(x', s') := aaclose x1 inner (Leaf t) in
    exists b', InsertKeyValue b key (Z.of_nat len) val = Ok (true, b') /\
      brep_st b' x' (apush l' (es ++ [(l, s')]) r outer) (val31 val) (A + S (length r)) /\ rawc b' (u32_of_i32 val).
Proof.
  intros (w0 & c & ir & fs & _ & H & Hctx & Hir & Hir0 & Hok & Hne & <-) Hlen Hz Hsz Hp Hk Hl. rewrite pathof_alpha in Hp.
  pose proof (dyn_nodup _ _ _ _ _ _ H) as Hnd. apply NoDup_app in Hnd as [Hnd _]. pose proof (dy_agrees _ _ _ _ _ _ H) as Hag.
  assert (Hlk : length (keyof key len) = len) by (unfold keyof; rewrite take_length; lia).
  destruct (frames_split _ _ _ _ Hp) as (inner & g & g1 & -> & Hg1 & Hg & Hq).
  exists (map alpha inner), (fes g), (map alpha (rev g1)). split; [rewrite map_app; cbn [map alpha]; by rewrite <- Hg|].
  split; [by rewrite pathof_alpha, map_rev, rev_involutive|]. split; [by rewrite pathof_alpha|].
  pose proof (hash_ne _ _ _ _ _ _ H) as Hh. destruct (b_hash b) as [|h0 hh] eqn:Eh; [done|].
  assert (Hn : (len + 1 = length p + S (length r))%nat).
  { apply (f_equal length) in Hk. rewrite !app_length, Hlk in Hk. cbn [length] in Hk. lia. }
  pose proof (find_skip p g1 b (ir ++ inner ++ [g]) [] c [] (S (length r)) key (Z.of_nat len) 0%Z) as Hskip.
  rewrite app_nil_r, <- !app_assoc in Hskip. cbn [app lastu] in Hskip.
  assert (Hskip' := Hskip). clear Hskip. specialize (Hskip' (dy_agrees _ _ _ _ _ _ H) Hnd Hg1). lapply Hskip'; [clear Hskip'; intros Hskip'|].
  2:{ intros j z Hj. rewrite Z.add_0_l. apply key_labels; [done|]. rewrite Hk. by apply lookup_app_l_Some. }
  destruct (find_close_nul b x ir inner g (rev g1) c A (length r) key (Z.of_nat len) (0 + Z.of_nat (length p))%Z l' H Hctx Hir Hir0 Hok) as
     (t & x1 & Ht & Hcl).
  { rewrite Z.add_0_l. apply key_labels; [done|]. rewrite Hk, lookup_app_r, Nat.sub_diag by lia. done. }
  { lia. }
  exists t, x1. split; [done|]. rewrite <- aclose_alpha. destruct (aclose x1 inner (Leaf t)) as [x' s'] eqn:Ecl. cbn [fst snd] in *. cbv zeta in Hcl.
  destruct Hcl as (b' & c' & Hr & H' & Hctx' & Hch & Hok' & Hlt & Hi).
  unfold InsertKeyValue. rewrite Eh. cbn [mbind res_bind].
  replace (Z.to_nat (Z.of_nat len + 1)) with (length p + S (length r))%nat by lia. rewrite Hskip', Hr. cbn [mbind res_bind].
  replace (Z.to_nat (Z.of_nat len + 1 - (0 + Z.of_nat (length p)))) with (S (length r)) by lia.
  set (ss := mkSib (f_u g) c' (f_l g) s' :: f_sibs g) in *.
  (* the remaining labels *)
  assert (Hkr : exists ks, l' :: r = ks ++ [0] /\ Forall (fun l => 0 < l < 256) ks /\ ks <> []).
  { destruct (exists_last (l := l' :: r)) as (ks & z & Hks); [done|]. exists ks.
    rewrite Hks in Hk. rewrite app_assoc in Hk. apply app_inj_tail in Hk as [Hk <-]. split; [done|]. split.
    - unfold zfree in Hz. rewrite Hk in Hz. by apply Forall_app in Hz as [_ ?].
    - intros ->. injection Hks as -> ->. lia. }
  destruct Hkr as (ks & Hks & Hksz & Hksne).
  assert (Hlr : length r = length ks).
  { apply (f_equal length) in Hks. rewrite app_length in Hks. cbn [length] in Hks. lia. }
  destruct (add_loop ks b' x' (rev g1) ss A key (Z.of_nat len) (0 + Z.of_nat (length p))%Z) as
    (b'' & us & Hus & Hr' & H'' & Hctx'' & Hok'' & Hne'' & Hi'');
    [exact H'|lia|exact Hctx'|exact Hch|exact Hok'|exact Hksz| | |].
  { destruct ks as [|k0 ks]; [done|]. injection Hks as <- _. done. }
  { intros j z Hj. rewrite <- Hks in Hj. rewrite Z.add_0_l, <- Nat2Z.inj_add. apply key_labels; [done|].
    rewrite Hk, lookup_app_r by lia. by replace (length p + j - length p)%nat with j by lia. }
  rewrite Hlr. rewrite Hr'. cbn [mbind res_bind].
  rewrite <- Hks in *. assert (Halpha := push_alpha1 l' r (rev g1) ss us ltac:(lia)).
  destruct (push (rev g1) ss (l' :: r) us) as [|f fs'] eqn:Epush; [done|]. cbn [lastu].
  destruct (set_value _ _ _ _ _ _ (u32_of_i32 val) H'' Hctx'') as (us' & Hus' & H3 & Hctx3). rewrite Hus'. cbn [mbind res_bind].
  eexists. split; [done|]. split; [|by eapply dyn_rawc]. split. exists (f :: fs'), (u32_of_i32 val).
  split; [done|]. split; [done|]. split; [done|]. split; [done|]. split; [done|].
  rewrite Halpha. unfold ss. cbn [map rev sedge s_l s_s]. unfold fes. by rewrite Hg.
Qed.

(** Inserting such a key. *)
Lemma insert_add_split m : forall n b key len i pos, insert_add (m + n) b key len i pos =
  ('(j, b') ← insert_add m b key len i pos; insert_add n b' key len j (pos + Z.of_nat m)).
Proof.
  induction m as [|m IH]; intros n b key len i pos; cbn [Nat.add insert_add].
  - cbn [mbind res_bind]. by rewrite Z.add_0_r.
  - destruct (key_label key len pos) as [l| |]; [|done|done]. cbn [mbind res_bind]. destruct (allocateUnit b) as [[ci b1]| |]; [|done|done]. cbn [mbind res_bind].
    destruct (get (b_unit b1) i) as [u| |]; [|done|done]. cbn [mbind res_bind].
    destruct (if u_child u =? 0 then _ else _) as [us| |]; [|done|done]. cbn [mbind res_bind].
    destruct (upd us ci _) as [us1| |]; [|done|done]. cbn [mbind res_bind].
    destruct (upd us1 i _) as [us2| |]; [|done|done]. cbn [mbind res_bind]. rewrite IH.
    destruct (insert_add m _ key len ci (pos + 1)) as [[j b']| |]; [|done|done]. cbn [mbind res_bind]. f_equal. lia.
Qed.
Lemma add_any ls : forall b x fs A key len pos,
  dyn b x fs 0 [] A -> N.of_nat (S (A + length ls)) <= 1073741824 -> ctx b x fs -> Forall (fun l => l < 256) ls ->
  (forall j l, ls !! j = Some l -> key_label key len (pos + Z.of_nat j) = Ok l) ->
  exists b' new, map f_l new = rev ls /\ insert_add (length ls) b key len (lastu fs) pos = Ok (lastu (new ++ fs), b') /\
    dyn b' x (new ++ fs) 0 [] (A + length ls) /\ ctx b' x (new ++ fs) /\ Forall (fok (x_ts x)) new /\ b_init b' = b_init b.
Proof.
  induction ls as [|l ls IH]; intros b x fs A key len pos H Hsz Hctx Hls Hkey.
  - exists b, []. cbn [length insert_add app]. rewrite Nat.add_0_r. done.
  - cbn [length] in *. apply Forall_cons in Hls as [Hl Hls].
    destruct (add_step b x fs [] A key len l pos (length ls) H ltac:(lia)) as (b' & u & H' & Hctx' & Hi & Hr); [done| |done|].
    { specialize (Hkey 0%nat l eq_refl). by rewrite Z.add_0_r in Hkey. }
    destruct (IH b' x (mkFr u l false [] :: fs) (S A) key len (pos + 1)%Z) as (b'' & new & Hn & Hr' & H'' & Hctx'' & Hok & Hi''); try done.
    + lia.
    + intros j l' Hj. specialize (Hkey (S j) l' Hj). rewrite <- Hkey. f_equal. lia.
    + exists b'', (new ++ [mkFr u l false []]). rewrite <- app_assoc. cbn [app]. split; [rewrite map_app, Hn; done|]. rewrite Hr. cbn [lastu f_u] in Hr'. rewrite Hr'.
      split; [done|]. replace (A + S (length ls))%nat with (S A + length ls)%nat by lia. split; [done|]. split; [done|]. split; [|congruence].
      apply Forall_app. split; [done|]. apply Forall_singleton. split; [split; constructor|]. split; [constructor|done].
Qed.
(** Both stages of insert_add, and the value. *)
Lemma add_nul b x fs ss A k ks r val pos l r' : dyn b x fs (sid ss) (lay_sibs ss) A -> N.of_nat (S (A + S (length ks) + S (length r))) <= 1073741824 ->
  ctx b x fs -> chainok (x_ts x) ss -> fsok (x_ts x) fs false -> Forall (fun l => 0 < l < 256) ks -> Forall (fun c => c < 256) r ->
  Forall (fun s => s_l s < match ks with [] => 0 | l :: _ => l end) ss ->
  (forall j l, (ks ++ [0]) !! j = Some l -> key_label k (Z.of_nat (length k)) (pos + Z.of_nat j) = Ok l) ->
  (forall j l, (r ++ [0]) !! j = Some l -> key_label k (Z.of_nat (length k)) (pos + Z.of_nat (S (length ks)) + Z.of_nat j) = Ok l) ->
  ks ++ [0] = l :: r' ->
  exists b', ('(index, b) ← insert_add (S (length ks) + S (length r)) b k (Z.of_nat (length k)) (lastu fs) pos;
      us ← upd (b_unit b) index (fun u => du_set_child u (u32_of_i32 val)); Ok (true, set_unit b us)) = Ok (true, b') /\
    pendw b' x (apush l (rev (map sedge ss)) r' (map alpha fs)) (r ++ [0]) (u32_of_i32 val) (A + S (length ks) + S (length r)) /\ b_init b' = b_init b.
Proof.
  intros H Hsz Hctx Hch Hok Hks Hr Hlt Hk1 Hk2 Hl. rewrite insert_add_split.
  destruct (add_loop ks b x fs ss A k (Z.of_nat (length k)) pos H ltac:(lia) Hctx Hch Hok Hks Hlt Hk1) as (b1 & us & Hus & Hr1 & H1 & Hctx1 & Hok1 & Hne1 & Hi1).
  cbv zeta in *. rewrite Hr1. cbn [mbind res_bind]. rewrite Hl in *. assert (Halpha := push_alpha1 l r' fs ss us).
  destruct (add_any (r ++ [0]) b1 x (push fs ss (l :: r') us) (A + S (length ks)) k (Z.of_nat (length k)) (pos + Z.of_nat (S (length ks)))%Z H1) as (b2 & new & Hn & Hr2 & H2 & Hctx2 & Hok2 & Hi2).
  { rewrite app_length. cbn [length]. lia. }
  { done. }
  { apply Forall_app. split; [done|]. by apply Forall_singleton. }
  { exact Hk2. }
  rewrite app_length, Nat.add_1_r in Hr2, H2. rewrite Hr2. cbn [mbind res_bind]. rewrite rev_app_distr in Hn. cbn [rev app] in Hn.
  destruct new as [|z new]; [done|]. cbn [map] in Hn. injection Hn as Hz Hn. cbn [app lastu].
  destruct (set_value _ _ _ _ _ _ (u32_of_i32 val) H2 Hctx2) as (us' & Hus' & H3 & Hctx3). rewrite Hus'. cbn [mbind res_bind].
  eexists. split; [done|]. split; [|cbn; congruence]. exists (z :: new), (push fs ss (l :: r') us). split; [cbn [map]; rewrite Hz, Hn; cbn [rev]; by rewrite rev_involutive|].
  split; [done|]. split; [done|]. split; [done|]. split; [done|]. split; [done|]. split; [done|]. apply Halpha.
  apply (f_equal length) in Hl. rewrite app_length in Hl. cbn in Hl. lia.
Qed.
Lemma higher_nul b x afs v A k r val p l q l' r' : brep_st b x afs v A -> key_ok k -> Forall (fun c => c < 256) r ->
  N.of_nat (S (A + S (length k) + S (length r))) <= 1073741824 ->
  pathof afs = p ++ l :: q -> k ++ [0] = p ++ l' :: r' -> l < l' ->
  exists inner es outer, afs = inner ++ (l, es) :: outer /\ pathof outer = p /\ pathof inner = q /\
    let '(x', s') := aaclose x inner (Leaf v) in
    exists b', InsertStringValue b (k ++ 0 :: r) val = Ok (true, b') /\
      pendw b' x' (apush l' (es ++ [(l, s')]) r' outer) (r ++ [0]) (u32_of_i32 val) (A + S (length r') + S (length r)) /\ b_init b' = b_init b.
Proof.
  intros [(fs & c & H & Hctx & Hok & Hne & Hc & <-)] Hz Hrb Hsz Hp Hk Hl. rewrite pathof_alpha in Hp. remember (k ++ 0 :: r) as key eqn:Ekey.
  pose proof (dyn_nodup _ _ _ _ _ _ H) as Hnd. apply NoDup_app in Hnd as [Hnd _]. pose proof (dy_agrees _ _ _ _ _ _ H) as Hag.
  destruct (frames_split _ _ _ _ Hp) as (inner & g & g1 & -> & Hg1 & Hg & Hq).
  exists (map alpha inner), (fes g), (map alpha (rev g1)). split; [rewrite map_app; cbn [map alpha]; by rewrite <- Hg|].
  split; [by rewrite pathof_alpha, map_rev, rev_involutive|]. split; [by rewrite pathof_alpha|].
  rewrite <- aclose_alpha. destruct (aclose x inner (Leaf v)) as [x' s'] eqn:Ecl.
  unfold InsertStringValue, InsertKeyValue. pose proof (hash_ne _ _ _ _ _ _ H) as Hh.
  destruct (b_hash b) as [|h0 hh] eqn:Eh; [done|]. cbn [mbind res_bind].
  assert (Hlk : (length key = length k + S (length r))%nat) by (subst key; rewrite app_length; done).
  assert (Hn : (length k + 1 = length p + S (length r'))%nat).
  { apply (f_equal length) in Hk. rewrite !app_length in Hk. cbn [length] in Hk. lia. }
  assert (Hkey : key ++ [0] = p ++ l' :: r' ++ r ++ [0]).
  { subst key. change (0 :: r) with ([0] ++ r). by rewrite app_assoc, Hk, <- !app_assoc. }
  assert (Hlab : forall j z, (key ++ [0]) !! j = Some z -> key_label key (Z.of_nat (length key)) (Z.of_nat j) = Ok z).
  { intros j z Hj. apply key_labels; [done|]. unfold keyof. by rewrite take_ge by lia. }
  replace (Z.to_nat (Z.of_nat (length key) + 1)) with (length p + S (length r' + S (length r)))%nat by lia.
  pose proof (find_skip p g1 b (inner ++ [g]) [] c [] (S (length r' + S (length r))) key (Z.of_nat (length key)) 0%Z) as Hskip.
  rewrite app_nil_r, <- app_assoc in Hskip. cbn [app lastu] in Hskip. rewrite Hskip; [|done|done|done|].
  2:{ intros j z Hj. rewrite Z.add_0_l. apply Hlab. rewrite Hkey. by apply lookup_app_l_Some. }
  destruct (find_close b x inner g (rev g1) c A (length r' + S (length r)) key (Z.of_nat (length key)) (0 + Z.of_nat (length p))%Z l' (Leaf v)) as
     (b' & c' & Hr & H' & Hctx' & Hch & Hok' & Hlt & Hi); try done.
  { cbn. constructor. subst v. apply N.mod_lt. lia. }
  { rewrite Z.add_0_l. apply Hlab. rewrite Hkey, lookup_app_r, Nat.sub_diag by lia. done. }
  { lia. }
  rewrite Ecl in *. cbn [fst snd] in *. rewrite Hr. cbn [mbind res_bind].
  set (ss := mkSib (f_u g) c' (f_l g) s' :: f_sibs g) in *.
  assert (Hkr : exists ks, l' :: r' = ks ++ [0] /\ Forall (fun l => 0 < l < 256) ks /\ ks <> []).
  { destruct (exists_last (l := l' :: r')) as (ks & z & Hks); [done|]. exists ks.
    rewrite Hks in Hk. rewrite app_assoc in Hk. apply app_inj_tail in Hk as [Hk <-]. split; [done|]. split.
    - unfold key_ok in Hz. rewrite Hk in Hz. by apply Forall_app in Hz as [_ ?].
    - intros ->. injection Hks as -> ->. lia. }
  destruct Hkr as (ks & Hks & Hksz & Hksne).
  assert (Hlr : length r' = length ks).
  { apply (f_equal length) in Hks. rewrite app_length in Hks. cbn [length] in Hks. lia. }
  replace (Z.to_nat (Z.of_nat (length key) + 1 - (0 + Z.of_nat (length p)))) with (S (length ks) + S (length r))%nat by lia.
  destruct (add_nul b' x' (rev g1) ss A key ks r val (0 + Z.of_nat (length p))%Z l' r' H') as (b'' & Hadd & Hpend & Hi'').
  { lia. } { done. } { done. } { done. } { done. } { done. }
  { destruct ks as [|k0 ks]; [done|]. injection Hks as <- _. done. }
  { intros j z Hj. rewrite <- Hks in Hj. rewrite Z.add_0_l, <- Nat2Z.inj_add. apply Hlab.
    rewrite Hkey, lookup_app_r by lia. replace (length p + j - length p)%nat with j by lia. change (l' :: r' ++ r ++ [0]) with ((l' :: r') ++ r ++ [0]). by apply lookup_app_l_Some. }
  { intros j z Hj. rewrite Z.add_0_l, <- !Nat2Z.inj_add. apply Hlab. change (l' :: r' ++ r ++ [0]) with ((l' :: r') ++ r ++ [0]) in Hkey.
    rewrite Hkey, app_assoc, lookup_app_r by (rewrite app_length; cbn [length]; lia). rewrite app_length. cbn [length].
    replace (length p + S (length ks) + j - (length p + S (length r')))%nat with j by lia. done. }
  { done. }
  exists b''. split; [exact Hadd|]. split; [|congruence]. rewrite Hlr. unfold ss in Hpend. cbn [map rev sedge s_l s_s] in Hpend. unfold fes. by rewrite <- Hg.
Qed.
Lemma higher_nul2 b x afs A k r val p l q l' r' : pend b x afs A -> key_ok k -> Forall (fun c => c < 256) r ->
  N.of_nat (S (A + S (length k) + S (length r))) <= 1073741824 ->
  pathof afs = p ++ l :: q -> k ++ [0] = p ++ l' :: r' -> l < l' ->
  exists inner es outer, afs = inner ++ (l, es) :: outer /\ pathof outer = p /\ pathof inner = q /\
    exists t x1, 0 < t < 1073741824 /\ let '(x', s') := aaclose x1 inner (Leaf t) in
    exists b', InsertStringValue b (k ++ 0 :: r) val = Ok (true, b') /\
      pendw b' x' (apush l' (es ++ [(l, s')]) r' outer) (r ++ [0]) (u32_of_i32 val) (A + S (length r') + S (length r)) /\ b_init b' = b_init b.
Proof.
  intros (w0 & c & ir & fs & _ & H & Hctx & Hir & Hir0 & Hok & Hne & <-) Hz Hrb Hsz Hp Hk Hl. rewrite pathof_alpha in Hp. remember (k ++ 0 :: r) as key eqn:Ekey.
  pose proof (dyn_nodup _ _ _ _ _ _ H) as Hnd. apply NoDup_app in Hnd as [Hnd _]. pose proof (dy_agrees _ _ _ _ _ _ H) as Hag.
  destruct (frames_split _ _ _ _ Hp) as (inner & g & g1 & -> & Hg1 & Hg & Hq).
  exists (map alpha inner), (fes g), (map alpha (rev g1)). split; [rewrite map_app; cbn [map alpha]; by rewrite <- Hg|].
  split; [by rewrite pathof_alpha, map_rev, rev_involutive|]. split; [by rewrite pathof_alpha|].
  unfold InsertStringValue, InsertKeyValue. pose proof (hash_ne _ _ _ _ _ _ H) as Hh.
  destruct (b_hash b) as [|h0 hh] eqn:Eh; [done|]. cbn [mbind res_bind].
  assert (Hlk : (length key = length k + S (length r))%nat) by (subst key; rewrite app_length; done).
  assert (Hn : (length k + 1 = length p + S (length r'))%nat).
  { apply (f_equal length) in Hk. rewrite !app_length in Hk. cbn [length] in Hk. lia. }
  assert (Hkey : key ++ [0] = p ++ l' :: r' ++ r ++ [0]).
  { subst key. change (0 :: r) with ([0] ++ r). by rewrite app_assoc, Hk, <- !app_assoc. }
  assert (Hlab : forall j z, (key ++ [0]) !! j = Some z -> key_label key (Z.of_nat (length key)) (Z.of_nat j) = Ok z).
  { intros j z Hj. apply key_labels; [done|]. unfold keyof. by rewrite take_ge by lia. }
  replace (Z.to_nat (Z.of_nat (length key) + 1)) with (length p + S (length r' + S (length r)))%nat by lia.
  pose proof (find_skip p g1 b (ir ++ inner ++ [g]) [] c [] (S (length r' + S (length r))) key (Z.of_nat (length key)) 0%Z) as Hskip.
  rewrite app_nil_r, <- !app_assoc in Hskip. cbn [app lastu] in Hskip. specialize (Hskip (dy_agrees _ _ _ _ _ _ H) Hnd Hg1). lapply Hskip; [clear Hskip; intros Hskip|].
  2:{ intros j z Hj. rewrite Z.add_0_l. apply Hlab. rewrite Hkey. by apply lookup_app_l_Some. }
  destruct (find_close_nul b x ir inner g (rev g1) c A (length r' + S (length r)) key (Z.of_nat (length key)) (0 + Z.of_nat (length p))%Z l' H Hctx Hir Hir0 Hok) as
     (t & x1 & Ht & Hcl).
  { rewrite Z.add_0_l. apply Hlab. rewrite Hkey, lookup_app_r, Nat.sub_diag by lia. done. }
  { lia. }
  exists t, x1. split; [done|]. rewrite <- aclose_alpha. destruct (aclose x1 inner (Leaf t)) as [x' s'] eqn:Ecl. cbn [fst snd] in *. cbv zeta in Hcl.
  destruct Hcl as (b' & c' & Hr & H' & Hctx' & Hch & Hok' & Hlt & Hi).
  rewrite Hskip, Hr. cbn [mbind res_bind].
  set (ss := mkSib (f_u g) c' (f_l g) s' :: f_sibs g) in *.
  assert (Hkr : exists ks, l' :: r' = ks ++ [0] /\ Forall (fun l => 0 < l < 256) ks /\ ks <> []).
  { destruct (exists_last (l := l' :: r')) as (ks & z & Hks); [done|]. exists ks.
    rewrite Hks in Hk. rewrite app_assoc in Hk. apply app_inj_tail in Hk as [Hk <-]. split; [done|]. split.
    - unfold key_ok in Hz. rewrite Hk in Hz. by apply Forall_app in Hz as [_ ?].
    - intros ->. injection Hks as -> ->. lia. }
  destruct Hkr as (ks & Hks & Hksz & Hksne).
  assert (Hlr : length r' = length ks).
  { apply (f_equal length) in Hks. rewrite app_length in Hks. cbn [length] in Hks. lia. }
  replace (Z.to_nat (Z.of_nat (length key) + 1 - (0 + Z.of_nat (length p)))) with (S (length ks) + S (length r))%nat by lia.
  destruct (add_nul b' x' (rev g1) ss A key ks r val (0 + Z.of_nat (length p))%Z l' r' H') as (b'' & Hadd & Hpend & Hi'').
  { lia. } { done. } { done. } { done. } { done. } { done. }
  { destruct ks as [|k0 ks]; [done|]. injection Hks as <- _. done. }
  { intros j z Hj. rewrite <- Hks in Hj. rewrite Z.add_0_l, <- Nat2Z.inj_add. apply Hlab.
    rewrite Hkey, lookup_app_r by lia. replace (length p + j - length p)%nat with j by lia. change (l' :: r' ++ r ++ [0]) with ((l' :: r') ++ r ++ [0]). by apply lookup_app_l_Some. }
  { intros j z Hj. rewrite Z.add_0_l, <- !Nat2Z.inj_add. apply Hlab. change (l' :: r' ++ r ++ [0]) with ((l' :: r') ++ r ++ [0]) in Hkey.
    rewrite Hkey, app_assoc, lookup_app_r by (rewrite app_length; cbn [length]; lia). rewrite app_length. cbn [length].
    replace (length p + S (length ks) + j - (length p + S (length r')))%nat with j by lia. done. }
  { done. }
  exists b''. split; [exact Hadd|]. split; [|congruence]. rewrite Hlr. unfold ss in Hpend. cbn [map rev sedge s_l s_s] in Hpend. unfold fes. by rewrite <- Hg.
Qed.
(** The first key. *)
Lemma first_nul size k r val l r' : (1 <= size < 4294967296)%Z -> key_ok k -> Forall (fun c => c < 256) r ->
  N.of_nat (S (S (length k) + S (length r))) <= 1073741824 -> k ++ [0] = l :: r' ->
  exists b, InsertStringValue (NewDawgBuilderWithSize size) (k ++ 0 :: r) val = Ok (true, b) /\
    pendw b fx0 (apush l [] r' []) (r ++ [0]) (u32_of_i32 val) (S (length k) + S (length r)).
Proof.
  intros Hs Hz Hrb Hsz Hl. remember (k ++ 0 :: r) as key eqn:Ekey. unfold InsertStringValue, InsertKeyValue. cbn [b_hash NewDawgBuilderWithSize].
  destruct (init_ok size Hs) as (b & Hb & H & Hctx & Hi). fold (NewDawgBuilderWithSize size) in *. rewrite Hb. cbn [mbind res_bind].
  assert (Hlk : (length key = length k + S (length r))%nat) by (subst key; rewrite app_length; done).
  assert (Hlab : forall j z, (key ++ [0]) !! j = Some z -> key_label key (Z.of_nat (length key)) (Z.of_nat j) = Ok z).
  { intros j z Hj. apply key_labels; [done|]. unfold keyof. by rewrite take_ge by lia. }
  assert (Hkey : key ++ [0] = (k ++ [0]) ++ r ++ [0]) by (subst key; by rewrite <- !app_assoc).
  replace (Z.to_nat (Z.of_nat (length key) + 1)) with (S (length k + S (length r))) by lia. cbn [insert_find].
  pose proof (mem_agrees _ _ _ _ (dy_agrees _ _ _ _ _ _ H) (layout_hd [] 0 [])) as Hu. cbn [lastu lastmk] in Hu.
  rewrite (get_N _ _ _ Hu). cbn [mbind res_bind u_child N.eqb].
  replace (Z.to_nat (Z.of_nat (length key) + 1 - 0)) with (S (length k) + S (length r))%nat by lia.
  destruct (add_nul b fx0 [] [] 0 key k r val 0%Z l r' H) as (b'' & Hadd & Hpend & Hi''); try done.
  { split; constructor. }
  { intros j z Hj. rewrite Z.add_0_l. apply Hlab. rewrite Hkey. by apply lookup_app_l_Some. }
  { intros j z Hj. rewrite Z.add_0_l, <- !Nat2Z.inj_add. apply Hlab. rewrite Hkey, lookup_app_r by (rewrite app_length; cbn [length]; lia). rewrite app_length. cbn [length].
    replace (S (length k) + j - (length k + 1))%nat with j by lia. done. }
  exists b''. split; [exact Hadd|]. exact Hpend.
Qed.

(** The last key again, its value being 0. *)
Lemma same_nul b x afs v A k r val : brep_st b x afs v A -> rawc b 0 -> Forall (fun c => c < 256) r ->
  N.of_nat (S (A + S (length r))) <= 1073741824 -> pathof afs = k ++ [0] ->
  exists b', InsertStringValue b (k ++ 0 :: r) val = Ok (true, b') /\ pendw b' x afs (r ++ [0]) (u32_of_i32 val) (A + S (length r)).
Proof.
  intros [(fs & c & H & Hctx & Hok & Hne & Hc & <-)] Hraw Hrb Hsz Hp. rewrite pathof_alpha in Hp. remember (k ++ 0 :: r) as key eqn:Ekey.
  assert (c = 0) as ->. { destruct fs as [|f fs]; [done|]. symmetry. by eapply rawc_dyn. }
  pose proof (dyn_nodup _ _ _ _ _ _ H) as Hnd. apply NoDup_app in Hnd as [Hnd _]. pose proof (dy_agrees _ _ _ _ _ _ H) as Hag.
  unfold InsertStringValue, InsertKeyValue. pose proof (hash_ne _ _ _ _ _ _ H) as Hh.
  destruct (b_hash b) as [|h0 hh] eqn:Eh; [done|]. cbn [mbind res_bind].
  assert (Hlk : (length key = length k + S (length r))%nat) by (subst key; rewrite app_length; done).
  assert (Hkey : key ++ [0] = (k ++ [0]) ++ r ++ [0]) by (subst key; by rewrite <- !app_assoc).
  assert (Hlab : forall j z, (key ++ [0]) !! j = Some z -> key_label key (Z.of_nat (length key)) (Z.of_nat j) = Ok z).
  { intros j z Hj. apply key_labels; [done|]. unfold keyof. by rewrite take_ge by lia. }
  replace (Z.to_nat (Z.of_nat (length key) + 1)) with (length (k ++ [0%N]) + S (length r))%nat by (rewrite app_length; cbn [length]; lia).
  pose proof (find_skip (k ++ [0]) (rev fs) b [] [] 0 [] (S (length r)) key (Z.of_nat (length key)) 0%Z) as Hskip.
  cbn [app] in Hskip. rewrite app_nil_r, rev_involutive in Hskip. cbn [lastu] in Hskip.
  rewrite Hskip; [|done|done|by rewrite map_rev|].
  2:{ intros j z Hj. rewrite Z.add_0_l. apply Hlab. rewrite Hkey. by apply lookup_app_l_Some. }
  cbn [insert_find]. rewrite (get_N _ _ _ (mem_agrees _ _ _ _ Hag (layout_hd fs 0 []))). cbn [mbind res_bind].
  assert (u_child (lastmk fs 0) = 0) as -> by (by destruct fs). cbn [N.eqb mbind res_bind].
  rewrite app_length. cbn [length]. replace (Z.to_nat (Z.of_nat (length key) + 1 - (0 + Z.of_nat (length k + 1)))) with (S (length r)) by lia.
  destruct (add_any (r ++ [0]) b x fs A key (Z.of_nat (length key)) (0 + Z.of_nat (length k + 1))%Z H) as (b2 & new & Hn & Hr2 & H2 & Hctx2 & Hok2 & Hi2).
  { rewrite app_length. cbn [length]. lia. }
  { done. }
  { apply Forall_app. split; [done|]. by apply Forall_singleton. }
  { intros j z Hj. rewrite Z.add_0_l, <- Nat2Z.inj_add. apply Hlab. rewrite Hkey, lookup_app_r by (rewrite app_length; cbn [length]; lia). rewrite app_length. cbn [length].
    by replace (length k + 1 + j - (length k + 1))%nat with j by lia. }
  rewrite app_length, Nat.add_1_r in Hr2, H2. rewrite Hr2. cbn [mbind res_bind]. rewrite rev_app_distr in Hn. cbn [rev app] in Hn.
  destruct new as [|z new]; [done|]. cbn [map] in Hn. injection Hn as Hz Hn. cbn [app lastu].
  destruct (set_value _ _ _ _ _ _ (u32_of_i32 val) H2 Hctx2) as (us' & Hus' & H3 & Hctx3). rewrite Hus'. cbn [mbind res_bind].
  eexists. split; [done|]. exists (z :: new), fs. split; [cbn [map]; rewrite Hz, Hn; cbn [rev]; by rewrite rev_involutive|]. done.
Qed.

(** ** What is stored *)
Record absw (afs : apath) (v : N) (es : list entry) : Prop := mkAbsw {
  aw_path : exists afs', afs = (0, []) :: afs' /\ Forall (fun f : N * edges => f.1 <> 0) afs';
  aw_ent : ent (closeT afs (Leaf v)) = map nentry es;
  aw_last : exists es' k v0, es = es' ++ [(k, v0)] /\ pathof afs = k ++ [0] /\ key_ok k /\ v = nval v0 }.
Lemma absw_of x afs v A es : absinv x afs v A es -> absw afs v es.
Proof. intros [H1 _ H2 H3 _]. by split. Qed.
Lemma absw_val afs v es k v0 val : absw afs v (es ++ [(k, v0)]) -> absw afs (nval val) (es ++ [(k, val)]).
Proof.
  intros [(afs1 & -> & Hnz) Hent (es1 & k1 & v1 & He & Hp & Hk & Hv)]. apply app_inj_tail in He as [<- [= <- <-]]. split; [by exists afs1| |by exists es, k, val].
  cbn [closeT]. rewrite ent_close by done. cbn [closeT] in Hent. rewrite ent_close in Hent by done.
  rewrite map_app in *. cbn [map] in *. cbn [ent aopen fst snd app map concat] in *. cbn in *.
  apply app_inj_tail in Hent as [Hent Hlast]. rewrite Hent. unfold nentry, pfx in *. cbn in *. simplify_eq. done.
Qed.
Lemma absw_higher inner l es outer v hs k val p q l' r k0 :
  absw (inner ++ (l, es) :: outer) v hs -> pathof (inner ++ (l, es) :: outer) = k0 ++ [0] -> key_ok k ->
  k0 ++ [0] = p ++ l :: q -> k ++ [0] = p ++ l' :: r -> l < l' -> pathof outer = p ->
  absw (apush l' (es ++ [(l, closeT inner (Leaf v))]) r outer) (nval val) (hs ++ [(k, val)]).
Proof.
  intros [(afs1 & Hafs & Hnz) Hent (es1 & k1 & v0 & He & Hpath & Hk0 & Hv)] Hp Hk H1 H2 Hlt Hpo. rewrite Hp in Hpath. apply app_inj_tail in Hpath as [<- _].
  set (s' := closeT inner (Leaf v)) in *.
  assert (Hlr : exists kr, l' :: r = kr ++ [0] /\ key_ok kr /\ k = p ++ kr).
  { destruct (exists_last (l := l' :: r)) as (ks & z & Hks); [done|]. exists ks.
    rewrite Hks in H2. rewrite app_assoc in H2. apply app_inj_tail in H2 as [H2 <-]. split; [done|]. split; [|done].
    unfold key_ok in *. rewrite H2 in Hk. by apply Forall_app in Hk as [_ ?]. }
  destruct Hlr as (kr & Hkr & Hkrok & Hkp).
  assert (Hout : Forall (fun f : N * edges => f.1 <> 0) outer).
  { destruct inner as [|i0 inner]; cbn in Hafs.
    - injection Hafs as -> -> ->. done.
    - injection Hafs as -> <-. apply Forall_app in Hnz as [_ Hnz]. by apply Forall_cons in Hnz as [_ ?]. }
  assert (Hl' : l' <> 0) by lia.
  assert (Hold : ent (closeT (inner ++ (l, es) :: outer) (Leaf v)) = apre outer ++ map (pfx (pathof outer)) (ent_es (es ++ [(l, s')]))).
  { rewrite closeT_app. cbn [closeT]. fold s'. rewrite ent_close by done. done. }
  split.
  - by eapply apush_shape.
  - rewrite (ent_apush _ _ _ _ _ kr) by done. rewrite app_assoc, <- Hold, Hent, !map_app. cbn [map]. rewrite Hpo, <- Hkp. done.
  - exists hs, k, val. split; [done|]. split; [|done]. rewrite pathof_apush, Hpo. done.
Qed.
Lemma split_cmp k0 k : key_ok k0 -> key_ok k -> (k0 = k /\ kcmp k0 k = Eq) \/
  exists p l q l' r, k0 ++ [0] = p ++ l :: q /\ k ++ [0] = p ++ l' :: r /\ ((kcmp k0 k = Lt /\ l < l') \/ (kcmp k0 k = Gt /\ l' < l)).
Proof.
  intros Hk0 Hk. destruct (term_split k0 k Hk0 Hk) as [<-|(p & l & q & l' & r & H1 & H2 & Hne)]; [left; split; [done|apply kcmp_refl]|].
  right. exists p, l, q, l', r. split; [done|]. split; [done|].
  assert (Hcmp : kcmp k0 k = (l ?= l')).
  { rewrite <- kcmp_term by done. rewrite H1, H2, kcmp_app. cbn. destruct (N.compare_spec l l'); done. }
  rewrite Hcmp. destruct (N.compare_spec l l'); [done|by left|by right].
Qed.

(** Insertions without zero bytes, and Finish, on any such state. *)
Definition raw_last (b : builder) (es : list entry) : Prop := forall k v, last es = Some (k, v) -> rawc b (u32_of_i32 v).
Lemma ins_w b x afs v A es k val : brep_st b x afs v A -> absw afs v es -> raw_last b es -> key_ok k -> N.of_nat (S (A + S (length k))) <= 1073741824 ->
  exists b' x' afs' v' A', InsertStringValue b k val = Ok ((spec_insert es (k, val)).1, b') /\ brep_st b' x' afs' v' A' /\
    absw afs' v' (spec_insert es (k, val)).2 /\ raw_last b' (spec_insert es (k, val)).2 /\ (A' <= A + S (length k))%nat.
Proof.
  intros Hb Hab Hraw Hk Hsz. pose proof Hab as [_ _ (es1 & k0 & v0 & He & Hp & Hk0 & Hv)].
  assert (Hsn : forall b' es', rawc b' (u32_of_i32 val) -> raw_last b' (es' ++ [(k, val)])).
  { intros b' es' Hr k' v' Hl. rewrite last_snoc in Hl. by injection Hl as <- <-. }
  assert (Hko : keyof k (length k) = k) by (unfold keyof; by rewrite take_ge).
  subst es. unfold spec_insert. rewrite last_snoc. cbn [fst snd]. unfold InsertStringValue.
  destruct (split_cmp k0 k Hk0 Hk) as [[<- ->]|(p & l & q & l' & r & H1 & H2 & [[-> Hlt]|[-> Hlt]])].
  - destruct (insert_same_raw b x _ v A k0 (length k0) val Hb) as (b' & Hr & Hb' & _ & Hraw'); [done|by rewrite Hko|].
    exists b', x, afs, (nval val), A. rewrite removelast_snoc. rewrite val31_nval in Hb'. split; [done|]. split; [done|]. split; [by eapply absw_val|]. split; [by apply Hsn|lia].
  - pose proof H1 as H1'. rewrite <- Hp in H1. pose proof H2 as H2'. rewrite <- Hko in H2.
    destruct (insert_higher_raw b x afs v A k (length k) val p l q l' r Hb ltac:(done) ltac:(by rewrite Hko) Hsz H1 H2 Hlt)
        as (inner & es & outer & Hafs & Hpo & Hpi & Hins).
    rewrite aaclose_eq in Hins. destruct Hins as (b' & Hr & Hb' & _ & Hraw'). rewrite val31_nval in Hb'.
    eexists b', _, _, _, _. split; [exact Hr|]. split; [exact Hb'|]. cbn [fst snd]. subst afs. split; [by eapply absw_higher|]. split; [by apply Hsn|].
    apply (f_equal length) in H2'. rewrite !app_length in H2'. cbn [length] in H2'. lia.
  - rewrite <- Hp in H1. rewrite <- Hko in H2. exists b, x, afs, v, A. split; [by eapply insert_lower|]. split; [done|]. split; [done|]. split; [done|lia].
Qed.
Lemma spells_w d x root es k v : dawgrep d x root -> wf (Node es) -> kid (x_ts x) es root ->
  spells d dawg_root k v <-> exists w, v = Z.of_N w /\ (k, w) ∈ ent_es es.
Proof.
  intros Hr Hw Hk. apply (spells_ent d (x_ts x) (dr_frozen _ _ _ Hr) dawg_root root es k v); [apply wfe_or; by right| |done].
  unfold dawg_child. rewrite (get_N _ dawg_root _ (dr_root _ _ _ Hr)). cbn [mbind res_bind]. f_equal.
  rewrite <- (child_enc root false false) at 2. f_equal. cbn [N.b2n]. lia.
Qed.
Lemma finish_w b x afs v A es d : brep_st b x afs v A -> absw afs v es ->
  exists d' b', Finish b d = Ok (d', b') /\ forall k w, spells d' dawg_root k w <-> (k, w) ∈ map kept_entry es.
Proof.
  intros Hb Hab. pose proof (finish_ok b x afs v A d Hb) as Hf. rewrite aaclose_eq in Hf.
  destruct Hf as (d' & b' & k' & es' & Hfin & Hes' & Hk' & Hwf' & Hrep & _). rewrite Hes' in Hwf'. exists d', b'. split; [exact Hfin|]. intros k w.
  rewrite (spells_w d' _ _ es' k w Hrep Hwf') by (right; eauto). pose proof (aw_ent _ _ _ Hab) as Hent. rewrite Hes' in Hent. rewrite elem_kept, <- Hent. done.
Qed.

Lemma finish_nul b x afs A d : pend b x afs A -> exists t x1, 0 < t < 1073741824 /\
  let '(x', s') := aaclose x1 afs (Leaf t) in
  exists d' b' k es, Finish b d = Ok (d', b') /\ s' = Node es /\ x_ts x' !! k = Some es /\ wf s' /\
    dawgrep d' x' (N.of_nat (start (x_ts x') k)).
Proof.
  intros (w0 & c & ir & fs & _ & H & [Hst Hhs] & Hir & Hir0 & Hok & Hne & <-).
  pose proof (hash_ne _ _ _ _ _ _ H) as Hh.
  destruct (close2 ir fs [] b x c A) as (t & x1 & Ht & [e1 He1] & b' & c' & Hr & H' & Hfe & Hwf & [e He] & Hlf & Huf & Hi); rewrite ?app_nil_r; try done.
  exists t, x1. split; [done|]. rewrite <- aclose_alpha.
  destruct (aclose x1 fs (Leaf t)) as [x' s'] eqn:Ecl. cbn [fst snd] in *.
  specialize (Hlf Hne). destruct s' as [|es]; [done|]. destruct Hfe as (k & Hk & ->).
  unfold Finish. destruct (b_hash b) as [|h0 hh] eqn:Eh; [done|]. cbn [mbind res_bind].
  cbn [lastu] in Hr. rewrite Hr. cbn [mbind res_bind].
  pose proof (mem_agrees _ _ _ _ (dy_agrees _ _ _ _ _ _ H') (layout_hd [] _ [])) as Hu. cbn [lastu lastmk] in Hu.
  rewrite (get_N _ _ _ Hu). cbn [mbind res_bind u_label].
  pose proof (start_bound _ _ _ Hk) as Hb. pose proof (fz_size _ _ _ (fr_frozen _ _ (dy_fixed _ _ _ _ _ _ H'))) as Hsz.
  assert (length es <> 0)%nat as Hesl.
  { apply wf_node_inv in Hwf as (Hn & _). by destruct es. }
  rewrite du_base_node by (done || lia). cbn [N.b2n]. rewrite N.mul_0_r, !N.add_0_r.
  destruct (finish_core b' x' (N.of_nat (start (x_ts x') k)) A 0%nat H' ltac:(lia)) as (bs & ls & Hbs & Hls & Hdr & _ & HA).
  rewrite Hbs, Hls. cbn [mbind res_bind].
  eexists _, _, k, es. split; [done|]. split; [done|]. split; [done|]. split; [done|]. exact Hdr.
Qed.

