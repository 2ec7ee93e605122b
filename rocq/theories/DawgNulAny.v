(** Keys with zero bytes, in any order (dawg_builder.go:196-320): units whose child
    field is not what the stack of open units says. *)
From Verif Require Import Go BitPool BitPoolProofs LinkTable LinkTableProofs Probe Dawg Tree DawgRep DawgFrozen DawgFix DawgTrie DawgInsert DawgMain DawgAbs TreeFacts DawgNav DawgThms DawgSpec DawgNul.
Local Open Scope N_scope.
Local Ltac Zify.zify_post_hook ::= Z.div_mod_to_equations.
Local Arguments N.mul : simpl never.
Local Arguments N.add : simpl never.
Local Arguments N.of_nat : simpl never.

(** ** fixUnit reads the units of its chain only *)
Section Local.
  Context (us1 us2 : list dunit).
  Lemma count_local l : forall fuel i, uchain us1 i l -> uchain us2 i l -> countSiblings fuel us1 i = countSiblings fuel us2 i.
  Proof.
    induction l as [|[j u] l IH]; intros [|fuel] i H1 H2; cbn [countSiblings]; try done; cbn [uchain] in *.
    - by subst.
    - destruct H1 as (-> & Hj & Hu & H1). destruct H2 as (_ & _ & Hu2 & H2). destruct (N.eqb_spec j 0); [done|]. rewrite (get_N _ _ _ Hu), (get_N _ _ _ Hu2). cbn [mbind res_bind]. by rewrite (IH fuel _ H1 H2).
  Qed.
  Lemma hash_local l : forall fuel i a, uchain us1 i l -> uchain us2 i l -> hashUnit_loop fuel us1 i a = hashUnit_loop fuel us2 i a.
  Proof.
    induction l as [|[j u] l IH]; intros [|fuel] i a H1 H2; cbn [hashUnit_loop]; try done; cbn [uchain] in *.
    - by subst.
    - destruct H1 as (-> & Hj & Hu & H1). destruct H2 as (_ & _ & Hu2 & H2). destruct (N.eqb_spec j 0); [done|]. rewrite (get_N _ _ _ Hu), (get_N _ _ _ Hu2). cbn [mbind res_bind]. apply (IH fuel _ _ H1 H2).
  Qed.
  Lemma eqcount_local bs l : forall fuel i t, uchain us1 i l -> uchain us2 i l -> areEqual_count fuel us1 bs i t = areEqual_count fuel us2 bs i t.
  Proof.
    induction l as [|[j u] l IH]; intros [|fuel] i t H1 H2; cbn [areEqual_count]; try done; cbn [uchain] in *.
    - by subst.
    - destruct H1 as (-> & Hj & Hu & H1). destruct H2 as (_ & _ & Hu2 & H2). destruct (N.eqb_spec j 0); [done|]. destruct (get bs t); [|done|done]. cbn [mbind res_bind]. rewrite (get_N _ _ _ Hu), (get_N _ _ _ Hu2). cbn [mbind res_bind]. by rewrite (IH fuel _ _ H1 H2).
  Qed.
  Lemma eqcmp_local bs ls l : forall fuel i t, uchain us1 i l -> uchain us2 i l -> areEqual_cmp fuel us1 bs ls i t = areEqual_cmp fuel us2 bs ls i t.
  Proof.
    induction l as [|[j u] l IH]; intros [|fuel] i t H1 H2; cbn [areEqual_cmp]; try done; cbn [uchain] in *.
    - by subst.
    - destruct H1 as (-> & Hj & Hu & H1). destruct H2 as (_ & _ & Hu2 & H2). destruct (N.eqb_spec j 0); [done|]. rewrite (get_N _ _ _ Hu), (get_N _ _ _ Hu2). cbn [mbind res_bind]. by rewrite (IH fuel _ _ H1 H2).
  Qed.
  Lemma write_local l : forall fuel bs ls i t, uchain us1 i l -> uchain us2 i l -> writeTransitions fuel us1 bs ls i t = writeTransitions fuel us2 bs ls i t.
  Proof.
    induction l as [|[j u] l IH]; intros [|fuel] bs ls i t H1 H2; cbn [writeTransitions]; try done; cbn [uchain] in *.
    - by subst.
    - destruct H1 as (-> & Hj & Hu & H1). destruct H2 as (_ & _ & Hu2 & H2). destruct (N.eqb_spec j 0); [done|]. rewrite (get_N _ _ _ Hu), (get_N _ _ _ Hu2). cbn [mbind res_bind].
      destruct (set bs t _); [|done|done]. cbn [mbind res_bind]. destruct (set ls t _); [|done|done]. cbn [mbind res_bind]. apply (IH fuel _ _ _ _ H1 H2).
  Qed.
End Local.
Lemma equal_local b us i l t : length us = length (b_unit b) -> uchain (b_unit b) i l -> uchain us i l -> l <> [] -> areEqual (set_unit b us) i t = areEqual b i t.
Proof.
  intros Hlen H1 H2 Hne. unfold areEqual. cbn [set_unit b_unit b_base b_label]. rewrite Hlen.
  pose proof H1 as H1'. pose proof H2 as H2'. destruct l as [|[j u] l]; [done|]. cbn [uchain] in H1', H2'. destruct H1' as (-> & Hj & Hu & H1'). destruct H2' as (_ & _ & Hu2 & H2').
  rewrite (get_N _ _ _ Hu), (get_N _ _ _ Hu2). cbn [mbind res_bind]. rewrite (eqcount_local us (b_unit b) _ l _ _ _ H2' H1').
  destruct (areEqual_count _ (b_unit b) _ _ _) as [[t'|]| |]; [|done|done|done]. cbn [mbind res_bind]. by rewrite (eqcmp_local us (b_unit b) _ _ _ _ _ _ H2 H1).
Qed.
Lemma findloop_local b us i l : length us = length (b_unit b) -> uchain (b_unit b) i l -> uchain us i l -> l <> [] -> forall fuel h, findUnit_loop fuel (set_unit b us) i h = findUnit_loop fuel b i h.
Proof.
  intros Hlen H1 H2 Hne. induction fuel as [|fuel IH]; intros h; cbn [findUnit_loop]; [done|].
  cbn [set_unit b_hash]. destruct (get (b_hash b) h) as [t| |]; [|done|done]. cbn [mbind res_bind]. destruct (t =? 0); [done|]. rewrite (equal_local b us i l) by done. destruct (areEqual b i t) as [[]| |]; [done| |done|done]. cbn [mbind res_bind]. 
  destruct (rem32 _ _); [|done|done]. cbn [mbind res_bind]. apply IH.
Qed.
Lemma find_local b us i l : length us = length (b_unit b) -> uchain (b_unit b) i l -> uchain us i l -> l <> [] -> findUnit (set_unit b us) i = findUnit b i.
Proof.
  intros Hlen H1 H2 Hne. unfold findUnit, hashUnit. cbn [set_unit b_unit b_hash]. rewrite Hlen, (hash_local us (b_unit b) l _ _ _ H2 H1).
  destruct (hashUnit_loop _ _ _ _); [|done|done]. cbn [mbind res_bind]. destruct (rem32 _ _); [|done|done]. cbn [mbind res_bind]. by apply (findloop_local b us i l).
Qed.
Lemma expand_local us k : forall b i, expand_loop k (set_unit b us) i = (b' ← expand_loop k b i; Ok (set_unit b' us)).
Proof.
  induction k as [|k IH]; intros b i; cbn [expand_loop]; [done|]. cbn [set_unit b_label b_base].
  destruct (get (b_label b) (u32 i)); [|done|done]. cbn [mbind res_bind]. destruct (get (b_base b) (u32 i)); [|done|done]. cbn [mbind res_bind].
  destruct (_ || _); [|apply IH]. unfold findTransition, hashTransition. cbn [set_unit b_base b_label b_hash].
  destruct (hashTransition_loop _ _ _ _ _); [|done|done]. cbn [mbind res_bind]. destruct (rem32 _ _); [|done|done]. cbn [mbind res_bind].
  destruct (findTransition_loop _ _ _); [|done|done]. cbn [mbind res_bind]. destruct (set (b_hash b) _ _) as [tbl| |]; [|done|done]. cbn [mbind res_bind]. apply (IH (set_hash b tbl)).
Qed.
Lemma expand_keeps k : forall b i b', expand_loop k b i = Ok b' -> b_unit b' = b_unit b /\ b_unfixed b' = b_unfixed b.
Proof.
  induction k as [|k IH]; intros b i b'; cbn [expand_loop]; [by intros [= ->]|].
  destruct (get (b_label b) (u32 i)); [|done|done]. cbn [mbind res_bind]. destruct (get (b_base b) (u32 i)); [|done|done]. cbn [mbind res_bind].
  destruct (_ || _); [|apply IH]. destruct (findTransition b (u32 i)); [|done|done]. cbn [mbind res_bind]. destruct (set (b_hash b) _ _) as [tbl| |]; [|done|done]. cbn [mbind res_bind].
  intros H. apply IH in H. done.
Qed.
Lemma alloc_local us n : forall b t, allocateTransitions n (set_unit b us) t = ((allocateTransitions n b t).1, set_unit (allocateTransitions n b t).2 us).
Proof. induction n as [|n IH]; intros b t; cbn [allocateTransitions]; [done|]. unfold allocateTransition. cbn [set_unit b_base b_label b_flag set_pools]. apply (IH (set_pools b (b_base b ++ [0]) (b_label b ++ [0]) (bp_allocate (b_flag b)))). Qed.
Lemma alloc_keeps n : forall b t, b_unit (allocateTransitions n b t).2 = b_unit b /\ b_unfixed (allocateTransitions n b t).2 = b_unfixed b.
Proof. induction n as [|n IH]; intros b t; cbn [allocateTransitions]; [done|]. unfold allocateTransition. cbn [set_pools b_label]. destruct (IH (set_pools b (b_base b ++ [0]) (b_label b ++ [0]) (bp_allocate (b_flag b))) (u32 (N.of_nat (length (b_label b ++ [0])) - 1))) as [-> ->]. done. Qed.
Lemma fixUnit_local b us i l top rest u0 u1 b1 : length us = length (b_unit b) -> uchain (b_unit b) i l -> uchain us i l -> l <> [] -> (length l <= length us)%nat ->
  b_unfixed b = top :: rest -> b_unit b !! N.to_nat top = Some u0 -> us !! N.to_nat top = Some u1 -> fixUnit b i = Ok b1 ->
  exists m, b_unit b1 = <[N.to_nat top := du_set_child u0 m]> (b_unit b) /\ fixUnit (set_unit b us) i = Ok (set_unit b1 (<[N.to_nat top := du_set_child u1 m]> us)).
Proof.
  intros Hlen H1 H2 Hne Hll Huf Hu0 Hu1. unfold fixUnit. change (b_hash (set_unit b us)) with (b_hash b). change (b_states (set_unit b us)) with (b_states b).
  assert (He : (if N.of_nat (length (b_hash b)) - N.shiftr (N.of_nat (length (b_hash b))) 2 <=? b_states b then expandHashTable (set_unit b us) else Ok (set_unit b us)) =
    (b' ← (if N.of_nat (length (b_hash b)) - N.shiftr (N.of_nat (length (b_hash b))) 2 <=? b_states b then expandHashTable b else Ok b); Ok (set_unit b' us))).
  { destruct (_ <=? _); [|done]. unfold expandHashTable. apply (expand_local us _ (set_hash b _)). }
  cbv zeta. rewrite He. clear He.
  assert (Hk : forall b', (if N.of_nat (length (b_hash b)) - N.shiftr (N.of_nat (length (b_hash b))) 2 <=? b_states b then expandHashTable b else Ok b) = Ok b' -> b_unit b' = b_unit b /\ b_unfixed b' = b_unfixed b).
  { destruct (_ <=? _); [|by intros b' [= ->]]. unfold expandHashTable. intros b' H. apply expand_keeps in H. done. }
  destruct (if N.of_nat (length (b_hash b)) - N.shiftr (N.of_nat (length (b_hash b))) 2 <=? b_states b then expandHashTable b else Ok b) as [b0| |]; [|done|done]. cbn [mbind res_bind].
  destruct (Hk b0 eq_refl) as [Hku Hkf]. clear Hk. rewrite <- Hku in *. rewrite <- Hkf in Huf. clear Hku Hkf b. rename b0 into b.
  cbn [set_unit b_unit]. rewrite Hlen, (count_local us (b_unit b) l _ _ H2 H1), (find_local b us i l) by done.
  destruct (countSiblings _ _ _) as [n| |]; [|done|done]. cbn [mbind res_bind]. destruct (findUnit b i) as [[matched h]| |]; [|done|done]. cbn [mbind res_bind].
  assert (Hfin : forall b0 m, b_unit b0 = b_unit b -> b_unfixed b0 = b_unfixed b ->
    (b2 ← freeUnits (S (length (b_unit b0))) b0 i; match b_unfixed b2 with [] => Panic | top :: _ => us0 ← upd (b_unit b2) top (fun u => du_set_child u m); Ok (set_unit b2 us0) end) = Ok b1 ->
    exists m0, b_unit b1 = <[N.to_nat top := du_set_child u0 m0]> (b_unit b) /\
    (b2 ← freeUnits (S (length us)) (set_unit b0 us) i; match b_unfixed b2 with [] => Panic | top :: _ => us0 ← upd (b_unit b2) top (fun u => du_set_child u m); Ok (set_unit b2 us0) end) = Ok (set_unit b1 (<[N.to_nat top := du_set_child u1 m0]> us))).
  { intros b0 m Hbu Hbf. rewrite (freeUnits_chain l) by (rewrite ?Hbu; first [done|lia]). rewrite (freeUnits_chain l) by (cbn [set_unit b_unit]; first [done|lia]). cbn [mbind res_bind set_unused set_unit b_unfixed b_unit b_unused].
    rewrite Hbf, Huf, Hbu. rewrite (upd_N _ _ _ _ Hu0), (upd_N _ _ _ _ Hu1). cbn [mbind res_bind]. intros [= <-]. exists m. split; [done|]. done. }
  destruct (negb (matched =? 0)).
  - cbn [set_mergedTrans set_unit b_flag b_mergedTrans]. destruct (bp_get (b_flag b) matched) as [[]| |]; [| |done|done]; cbn [mbind res_bind].
    + apply (Hfin (set_mergedTrans b (b_mergedTrans b + N.of_nat n))); done.
    + cbn [set_merging set_mergedTrans set_unit b_flag b_merging]. destruct (bp_set (b_flag b) matched true) as [fp| |]; [|done|done]. cbn [mbind res_bind].
      apply (Hfin (set_flag (set_merging (set_mergedTrans b (b_mergedTrans b + N.of_nat n)) (b_merging b + 1)) fp)); done.
  - rewrite alloc_local. destruct (alloc_keeps n b 0) as [Ha1 Ha2]. destruct (allocateTransitions n b 0) as [t b0]. cbn [fst snd] in *. cbn [set_unit b_unit b_base b_label].
    rewrite Ha1, Hlen, (write_local us (b_unit b) l _ _ _ _ _ H2 H1). destruct (writeTransitions _ (b_unit b) _ _ _ _) as [[[bs ls] t']| |]; [|done|done]. cbn [mbind res_bind].
    cbn [set_pools set_unit b_hash b_flag]. destruct (set (b_hash b0) h (u32 (t' + 1))) as [tbl| |]; [|done|done]. cbn [mbind res_bind].
    match goal with |- context [freeUnits _ ?bb _] => lazymatch bb with set_states _ _ => idtac end end.
    intros Hr.
    refine (Hfin (set_states (set_hash (set_pools b0 bs ls (b_flag b0)) tbl) (b_states b0 + 1)) (u32 (t' + 1)) Ha1 Ha2 _).
    exact Hr.
Qed.

(** ** Units that are as in the layout except for the child field of some *)
Definition loose (I : list N) (us us0 : list dunit) : Prop :=
  length us = length us0 /\ (forall i u, us0 !! N.to_nat i = Some u -> exists ch, us !! N.to_nat i = Some (du_set_child u ch)) /\
  forall i, i ∉ I -> us !! N.to_nat i = us0 !! N.to_nat i.
Lemma set_child_idem u : du_set_child u (u_child u) = u.
Proof. by destruct u. Qed.
Lemma set_child_twice u a b : du_set_child (du_set_child u a) b = du_set_child u b.
Proof. by destruct u. Qed.
Lemma loose_refl I us : loose I us us.
Proof. split; [done|]. split; [|done]. intros i u Hu. exists (u_child u). by rewrite set_child_idem. Qed.
Lemma loose_nil us us0 : loose [] us us0 -> us = us0.
Proof. intros (_ & _ & H). apply list_eq. intros i. specialize (H (N.of_nat i)). rewrite Nat2N.id in H. apply H, not_elem_of_nil. Qed.
Lemma loose_mono I J us us0 : (forall i, i ∈ I -> i ∈ J) -> loose I us us0 -> loose J us us0.
Proof. intros HIJ (H1 & H2 & H3). split; [done|]. split; [done|]. intros i Hi. apply H3. intros H. by apply Hi, HIJ. Qed.
Lemma set_unit_same b : set_unit b (b_unit b) = b.
Proof. by destruct b. Qed.
Lemma set_unit_twice b u1 u2 : set_unit (set_unit b u1) u2 = set_unit b u2.
Proof. by destruct b. Qed.
Lemma uchain_ext us us0 l : forall i, uchain us0 i l -> (forall j, j ∈ l.*1 -> us !! N.to_nat j = us0 !! N.to_nat j) -> uchain us i l.
Proof.
  induction l as [|[j u] l IH]; intros i H He; [done|]. cbn [uchain] in *. destruct H as (-> & Hj & Hu & H). cbn [fmap list_fmap fst] in He.
  split; [done|]. split; [done|]. split; [rewrite He; [done|left]|]. apply IH; [done|]. intros k Hk. apply He. by right.
Qed.
Lemma frames_in fs : forall c L i, i ∈ map f_u fs -> i ∈ (layout fs c L).*1.
Proof.
  induction fs as [|f fs IH]; intros c L i Hi; [by apply not_elem_of_nil in Hi|]. rewrite layout_cons. cbn [map fmap list_fmap fst] in *. apply elem_of_cons in Hi as [->|Hi]; [left|]. right. by apply IH.
Qed.
Lemma frames_nodup fs : forall c L, NoDup (layout fs c L).*1 -> NoDup (map f_u fs).
Proof.
  induction fs as [|f fs IH]; intros c L H; [constructor|]. rewrite layout_cons in H. cbn [map fmap list_fmap fst] in *. apply NoDup_cons in H as [H1 H]. constructor; [|by eapply IH].
  intros Hi. apply H1. by apply frames_in.
Qed.
Lemma chain_out f fs c : NoDup (layout (f :: fs) c []).*1 -> forall j, j ∈ (fchain f c).*1 -> j ∉ map f_u fs.
Proof.
  intros Hnd j Hj Hi. rewrite layout_cons, app_nil_r in Hnd. cbn [fmap list_fmap fst] in Hnd. apply NoDup_cons in Hnd as [H1 H2]. unfold fchain in Hj. cbn [fmap list_fmap fst] in Hj.
  apply elem_of_cons in Hj as [->|Hj]; [apply H1; by apply frames_in|].
  unfold layout in H2. rewrite app_comm_cons, fmap_app in H2. apply NoDup_app in H2 as (_ & H2 & _). apply (H2 j); [|done].
  pose proof (frames_in fs (f_u f) [] j Hi) as H. unfold layout in H. by rewrite app_nil_r in H.
Qed.
Lemma close_loose inner : forall b us x c s E outer A,
  dyn b x (inner ++ E ++ outer) c [] A -> loose (map f_u (tail (inner ++ E))) us (b_unit b) ->
  Forall (fok (x_ts x)) inner -> Forall (fun f => f_hs f = false) inner ->
  fenc (x_ts x) s c -> wf s -> (is_leaf s = true -> match inner with [] => True | f :: _ => f_l f = 0 end) ->
  b_unfixed b = map f_u (inner ++ E ++ outer) ++ [0] ->
  exists b' us' c' x' s', (forall i, i ∉ map f_u inner -> fixUnits b i = fixUnits b' i /\ fixUnits (set_unit b us) i = fixUnits (set_unit b' us') i) /\
    dyn b' x' (E ++ outer) c' [] A /\ loose (map f_u (tail E)) us' (b_unit b') /\
    (forall i, i ∉ map f_u inner -> i <> lastu (E ++ outer) -> us' !! N.to_nat i = us !! N.to_nat i) /\
    fenc (x_ts x') s' c' /\ wf s' /\ (exists e, x_ts x' = x_ts x ++ e) /\
    is_leaf s' = match inner with [] => is_leaf s | _ => false end /\ b_unfixed b' = map f_u (E ++ outer) ++ [0] /\ b_init b' = b_init b.
Proof.
  induction inner as [|f inner IH]; intros b us x c s E outer A H Hlo Hok Hhs Hfe Hwf Hlf Huf.
  - exists b, us, c, x, s. split; [done|]. split; [done|]. split; [done|]. split; [done|]. split; [done|]. split; [done|]. split; [exists []; by rewrite app_nil_r|]. done.
  - cbn [app] in *. apply Forall_cons in Hhs as [Hh Hhs]. apply Forall_cons in Hok as [Hf Hok]. cbn [tail] in Hlo.
    assert (Hstk : exists r, map f_u (inner ++ E ++ outer) ++ [0] = lastu (inner ++ E ++ outer) :: r).
    { destruct (inner ++ E ++ outer); cbn; eauto. }
    destruct Hstk as [r Hstk].
    set (b0 := set_unfixed b (map f_u (inner ++ E ++ outer) ++ [0])).
    assert (H0 : dyn b0 x (f :: inner ++ E ++ outer) c [] A).
    { destruct H as [F H1 H2 H3 H4 H5]. split; try done. destruct F. by split. }
    set (s1 := if f_l f =? 0 then Leaf (c mod 2147483648) else s).
    assert (Hs1 : (f_l f = 0 <-> is_leaf s1 = true) /\ fenc (x_ts x) s1 c /\ wf s1).
    { unfold s1. destruct (N.eqb_spec (f_l f) 0) as [E0|E0].
      - split; [done|]. split; [done|]. constructor. apply N.mod_lt. lia.
      - split; [|done]. split; [done|]. intros Hz. by apply Hlf in Hz. }
    destruct Hs1 as (Hl1 & Hfe1 & Hwf1).
    destruct (fix_step1 b0 x f (inner ++ E ++ outer) c s1 A r H0 Hf Hl1 Hh Hfe1 Hwf1) as (b' & c' & Hr & H' & Hfe' & Huf' & Hi'); [done|].
    destruct (afix_ext x (cles f s1)) as [e He].
    (* the same step on the loose units *)
    pose proof (dyn_nodup _ _ _ _ _ _ H) as Hnd. pose proof Hnd as Hnd0. apply NoDup_app in Hnd0 as [Hnd0 _].
    pose proof (dy_agrees _ _ _ _ _ _ H) as Hag. pose proof Hag as Hag0. rewrite layout_cons, app_nil_r in Hag0, Hnd. cbn [fmap list_fmap fst] in Hnd.
    destruct (chain_ids_ne _ _ _ _ _ Hnd) as [Hu0 Hss0]. apply Forall_cons in Hag0 as [Hag1 Hag2]. cbn [fst snd] in Hag1.
    pose proof (mem_agrees _ _ _ _ Hag2 (layout_hd _ _ _)) as Htop.
    unfold layout in Hag2. apply Forall_cons in Hag2 as [_ Hag3]. apply Forall_app in Hag3 as [_ Hag4].
    assert (Hchain : uchain (b_unit b) (f_u f) (fchain f c)).
    { cbn [uchain fchain]. repeat split; try done. by apply uchain_sibs. }
    destruct Hlo as (Hlen & Hup & Heq).
    assert (Hchain' : uchain us (f_u f) (fchain f c)).
    { apply (uchain_ext us (b_unit b)); [done|]. intros j Hj. apply Heq. pose proof (chain_out _ _ _ Hnd0 j Hj) as Hout. intros Hin. apply Hout. rewrite app_assoc, map_app. apply elem_of_app. by left. }
    destruct (Hup (lastu (inner ++ E ++ outer)) _ Htop) as [ch Htop'].
    assert (Hll : (length (fchain f c) <= length us)%nat).
    { pose proof (dy_perm _ _ _ _ _ _ H) as Hperm. apply Permutation_length in Hperm. rewrite fmap_length, seq_length, layout_cons, app_nil_r in Hperm. cbn [fmap list_fmap app length] in Hperm. rewrite app_length, fmap_length in Hperm.
      unfold layout in Hperm. cbn [length] in Hperm. rewrite app_length in Hperm. unfold fchain. cbn [length]. lia. }
    destruct (fixUnit_local b0 us (f_u f) (fchain f c) (lastu (inner ++ E ++ outer)) r _ _ b' Hlen Hchain Hchain' ltac:(done) Hll Hstk Htop Htop' Hr) as (m & Hbu & Hr').
    rewrite set_child_twice in Hr'.
    set (us1 := <[N.to_nat (lastu (inner ++ E ++ outer)) := du_set_child (lastmk (inner ++ E ++ outer) (f_u f)) m]> us) in *.
    assert (Hlo1 : loose (map f_u (tail (inner ++ E))) us1 (b_unit b')).
    { unfold us1. rewrite Hbu. split; [by rewrite !insert_length|]. split.
      - intros i u Hi. destruct (decide (i = lastu (inner ++ E ++ outer))) as [->|Hne].
        + rewrite list_lookup_insert in Hi |- * by (first [by apply lookup_lt_Some in Htop|by apply lookup_lt_Some in Htop']). injection Hi as <-. eexists. by rewrite set_child_idem.
        + rewrite list_lookup_insert_ne in Hi |- * by lia. by apply Hup.
      - intros i Hi. destruct (decide (i = lastu (inner ++ E ++ outer))) as [->|Hne].
        + rewrite !list_lookup_insert by (first [by apply lookup_lt_Some in Htop|by apply lookup_lt_Some in Htop']). done.
        + rewrite !list_lookup_insert_ne by lia. apply Heq. intros Hin. rewrite app_assoc in Hne. destruct (inner ++ E) as [|g gs]; [by apply not_elem_of_nil in Hin|]. cbn [tail map app lastu] in *. apply elem_of_cons in Hin as [->|Hin]; done. }
    destruct (IH b' us1 (afix x (cles f s1)) c' (Node (cles f s1)) E outer A) as (b'' & us'' & c'' & x'' & s'' & Hrr & H'' & Hlo'' & Hsame & Hfe'' & Hwf'' & [e' He'] & Hl'' & Huf'' & Hi''); try done.
    + rewrite He. eapply Forall_impl; [exact Hok|]. intros g Hg. by apply fok_mono.
    + by eapply wf_frame.
    + exists b'', us'', c'', x'', s''. split; [|split; [exact H''|]].
      * intros i Hi. cbn [map] in Hi. rewrite not_elem_of_cons in Hi. destruct Hi as [Hi1 Hi2]. destruct (Hrr i Hi2) as [<- <-].
        change (b_unfixed b0) with (map f_u (inner ++ E ++ outer) ++ [0]) in Huf'. split.
        -- unfold fixUnits. rewrite Huf. cbn [map app fixUnits_loop]. destruct (N.eqb_spec (f_u f) i); [done|]. fold b0. rewrite Hr. cbn [mbind res_bind]. by rewrite <- Huf'.
        -- unfold fixUnits. cbn [set_unit b_unfixed]. rewrite Huf. cbn [map app fixUnits_loop]. destruct (N.eqb_spec (f_u f) i); [done|].
           change (set_unfixed (set_unit b us) (map f_u (inner ++ E ++ outer) ++ [0])) with (set_unit b0 us). rewrite Hr'. cbn [mbind res_bind]. by rewrite <- Huf'.
      * split; [done|]. split; [|split; [exact Hfe''|split; [exact Hwf''|split; [|split; [|split; [exact Huf''|by rewrite Hi'']]]]]].
        -- intros i Hi Hne. cbn [map] in Hi. rewrite not_elem_of_cons in Hi. destruct Hi as [Hi1 Hi2]. rewrite Hsame by done. unfold us1. apply list_lookup_insert_ne.
           intros Heqi. apply N2Nat.inj in Heqi. subst i. destruct inner as [|g inner]; [done|]. cbn [app lastu map] in Hi2. apply Hi2. left.
        -- exists (e ++ e'). rewrite He', He. by rewrite app_assoc.
        -- rewrite Hl''. by destruct inner.
Qed.

(** ** insert_add on loose units *)
Definition guarded (b : builder) (J : list N) : Prop := forall i, i ∈ J -> i ∉ b_unused b /\ (N.to_nat i < length (b_unit b))%nat.
Lemma alloc_unit_loose b us I J id b1 : loose I us (b_unit b) -> guarded b J -> (forall i, i ∈ I -> i ∈ J) -> NoDup (b_unused b) -> N.of_nat (length (b_unit b)) < two32 ->
  allocateUnit b = Ok (id, b1) ->
  id ∉ J /\ guarded b1 (id :: J) /\ NoDup (b_unused b1) /\ (length (b_unit b1) <= S (length (b_unit b)))%nat /\ b_unit b1 !! N.to_nat id = Some du_zero /\ (forall i, i ∈ J -> b_unit b1 !! N.to_nat i = b_unit b !! N.to_nat i) /\
  exists us1, allocateUnit (set_unit b us) = Ok (id, set_unit b1 us1) /\ loose I us1 (b_unit b1) /\ (forall i, i ∈ J -> us1 !! N.to_nat i = us !! N.to_nat i).
Proof.
  intros (Hlen & Hup & Heq) Hg HIJ Hnd Hsz. unfold allocateUnit. cbn [set_unit b_unused b_unit].
  destruct (b_unused b) as [|u un] eqn:Eun.
  - intros [= <- <-]. unfold len32. rewrite u32_id by done. cbn [set_unit b_unit b_unused]. rewrite !Hlen, Eun.
    assert (Hid : N.of_nat (length (b_unit b)) ∉ J). { intros Hin. destruct (Hg _ Hin) as [_ Hlt]. lia. }
    split; [done|]. split; [|split; [constructor|split; [rewrite app_length; cbn; lia|split; [|split]]]].
    + intros i Hi. cbn [set_unit b_unused b_unit]. rewrite Eun. split; [apply not_elem_of_nil|]. rewrite app_length. cbn [length]. apply elem_of_cons in Hi as [->|Hi]; [lia|]. destruct (Hg _ Hi). lia.
    + rewrite Nat2N.id, lookup_app_r, Nat.sub_diag by lia. done.
    + intros i Hi. destruct (Hg _ Hi) as [_ Hlt]. by rewrite lookup_app_l by lia.
    + exists (us ++ [du_zero]). rewrite ?set_unit_twice, ?Hlen; rewrite ?u32_id by done. split; [done|]. split; [|intros i Hi; destruct (Hg _ Hi) as [_ Hlt]; by rewrite lookup_app_l by lia].
      split; [by rewrite !app_length, Hlen|]. split.
      * intros i u Hi. destruct (decide (N.to_nat i < length (b_unit b))%nat) as [Hlt|Hge].
        -- rewrite lookup_app_l in Hi |- * by lia. by apply Hup.
        -- rewrite lookup_app_r in Hi |- * by lia. rewrite Hlen. exists (u_child u). rewrite set_child_idem. done.
      * intros i Hi. destruct (decide (N.to_nat i < length (b_unit b))%nat) as [Hlt|Hge].
        -- rewrite !lookup_app_l by lia. by apply Heq.
        -- rewrite !lookup_app_r by lia. by rewrite Hlen.
  - unfold set. destruct (b_unit b !! N.to_nat u) as [u0|] eqn:Eu; [|done]. cbn [mbind res_bind]. intros [= <- <-]. cbn [set_unit set_unused b_unit b_unused].
    apply NoDup_cons in Hnd as [Hnd1 Hnd2].
    assert (Hid : u ∉ J). { intros Hin. destruct (Hg _ Hin) as [Hn _]. apply Hn. rewrite Eun. left. }
    split; [done|]. split; [|split; [done|split; [rewrite insert_length; lia|split; [|split]]]].
    + intros i Hi. cbn [set_unit set_unused b_unused b_unit]. rewrite insert_length. apply elem_of_cons in Hi as [->|Hi]; [split; [done|by apply lookup_lt_Some in Eu]|]. destruct (Hg _ Hi) as [Hn Hlt]. split; [|done]. intros Hin. apply Hn. rewrite Eun. by right.
    + apply list_lookup_insert. by apply lookup_lt_Some in Eu.
    + intros i Hi. apply list_lookup_insert_ne. intros E. apply N2Nat.inj in E. by subst.
    + destruct (Hup u u0 Eu) as [ch Ech]. rewrite Ech. cbn [mbind res_bind]. exists (<[N.to_nat u := du_zero]> us). split; [done|]. split.
      * split; [by rewrite !insert_length|]. split.
        -- intros i v Hi. destruct (decide (i = u)) as [->|Hne].
           ++ rewrite list_lookup_insert in Hi |- * by (first [by apply lookup_lt_Some in Eu|by apply lookup_lt_Some in Ech]). injection Hi as <-. eexists. by rewrite set_child_idem.
           ++ rewrite list_lookup_insert_ne in Hi |- * by lia. by apply Hup.
        -- intros i Hi. destruct (decide (i = u)) as [->|Hne].
           ++ rewrite !list_lookup_insert by (first [by apply lookup_lt_Some in Eu|by apply lookup_lt_Some in Ech]). done.
           ++ rewrite !list_lookup_insert_ne by lia. by apply Heq.
      * intros i Hi. apply list_lookup_insert_ne. intros E. apply N2Nat.inj in E. by subst.
Qed.
Lemma upd_loose I us us0 i f us0' : loose I us us0 -> i ∉ I -> upd us0 i f = Ok us0' -> exists us', upd us i f = Ok us' /\ loose I us' us0' /\ forall j, j <> i -> us' !! N.to_nat j = us !! N.to_nat j.
Proof.
  intros (Hlen & Hup & Heq) Hi. unfold upd, get. rewrite (Heq i Hi). destruct (us0 !! N.to_nat i) as [u|] eqn:Eu; [|done]. cbn [mbind res_bind].
  pose proof Eu as Eu'. rewrite <- (Heq i Hi) in Eu'. rewrite (set_N _ _ _ _ Eu), (set_N _ _ _ _ Eu'). intros [= <-]. eexists. split; [done|]. split.
  - split; [by rewrite !insert_length|]. split.
    + intros j v Hj. destruct (decide (j = i)) as [->|Hne].
      * rewrite list_lookup_insert in Hj |- * by (first [by apply lookup_lt_Some in Eu|by apply lookup_lt_Some in Eu']). injection Hj as <-. eexists. by rewrite set_child_idem.
      * rewrite list_lookup_insert_ne in Hj |- * by lia. by apply Hup.
    + intros j Hj. destruct (decide (j = i)) as [->|Hne].
      * rewrite !list_lookup_insert by (first [by apply lookup_lt_Some in Eu|by apply lookup_lt_Some in Eu']). done.
      * rewrite !list_lookup_insert_ne by lia. by apply Heq.
  - intros j Hj. apply list_lookup_insert_ne. lia.
Qed.
Lemma upd_length {A} (l : list A) i f l' : upd l i f = Ok l' -> length l' = length l.
Proof. unfold upd, get, set. destruct (l !! N.to_nat i) as [a|] eqn:E; [|done]. cbn [mbind res_bind]. rewrite ?E. intros [= <-]. apply insert_length. Qed.
Lemma upd_other {A} (l : list A) i f l' j : upd l i f = Ok l' -> j <> i -> l' !! N.to_nat j = l !! N.to_nat j.
Proof. unfold upd, get, set. destruct (l !! N.to_nat i) as [a|] eqn:E; [|done]. cbn [mbind res_bind]. rewrite ?E. intros [= <-] Hj. apply list_lookup_insert_ne. lia. Qed.
Lemma add_same n : forall b us key len i pos j b' I J,
  insert_add n b key len i pos = Ok (j, b') -> loose I us (b_unit b) -> guarded b J -> (forall k, k ∈ I -> k ∈ J) -> i ∈ J -> i ∉ I -> NoDup (b_unused b) ->
  N.of_nat (length (b_unit b) + n) < two32 ->
  exists us', insert_add n (set_unit b us) key len i pos = Ok (j, set_unit b' us') /\ loose I us' (b_unit b') /\ (forall k, k ∈ J -> k <> i -> us' !! N.to_nat k = us !! N.to_nat k).
Proof.
  induction n as [|n IH]; intros b us key len i pos j b' I J Hr Hlo Hg HIJ HiJ HiI Hnd Hsz; cbn [insert_add] in *.
  - injection Hr as <- <-. exists us. done.
  - destruct (key_label key len pos) as [l| |]; [|done|done]. cbn [mbind res_bind] in *.
    destruct (allocateUnit b) as [[id b1]| |] eqn:Eal; [|done|done]. cbn [mbind res_bind] in Hr.
    destruct (alloc_unit_loose b us I J id b1 Hlo Hg HIJ Hnd ltac:(lia) Eal) as (Hid & Hg1 & Hnd1 & Hl1 & _ & _ & us1 & Hal & Hlo1 & Hs1). rewrite Hal. cbn [mbind res_bind set_unit b_unit b_unfixed].
    assert (HidI : id ∉ I) by (intros Hin; by apply Hid, HIJ). assert (Hne : id <> i) by (intros ->; done).
    destruct (get (b_unit b1) i) as [u| |] eqn:Eg; [|done|done]. cbn [mbind res_bind] in Hr.
    assert (Hg' : get us1 i = Ok u). { destruct Hlo1 as (_ & _ & Heq). unfold get in *. by rewrite (Heq i HiI). } rewrite Hg'. cbn [mbind res_bind].
    destruct (if u_child u =? 0 then upd (b_unit b1) id (fun c => du_set_isState c true) else Ok (b_unit b1)) as [ua| |] eqn:Ea; [|done|done]. cbn [mbind res_bind] in Hr.
    assert (exists usa, (if u_child u =? 0 then upd us1 id (fun c => du_set_isState c true) else Ok us1) = Ok usa /\ loose I usa ua /\ (forall k, k <> id -> usa !! N.to_nat k = us1 !! N.to_nat k) /\ length ua = length (b_unit b1)) as (usa & Hea & Hloa & Hsa & Hla).
    { destruct (u_child u =? 0); [|injection Ea as <-; by exists us1]. pose proof (upd_length _ _ _ _ Ea). destruct (upd_loose _ _ _ _ _ _ Hlo1 HidI Ea) as (v & H1 & H2 & H3). by exists v. }
    rewrite Hea. cbn [mbind res_bind].
    destruct (upd ua id (fun c => du_set_label (du_set_sibling c (u_child u)) l)) as [ub| |] eqn:Eb; [|done|done]. cbn [mbind res_bind] in Hr. pose proof (upd_length _ _ _ _ Eb) as Hlb.
    destruct (upd_loose _ _ _ _ _ _ Hloa HidI Eb) as (usb & Heb & Hlob & Hsb). rewrite Heb. cbn [mbind res_bind].
    destruct (upd ub i (fun u => du_set_child u id)) as [uc| |] eqn:Ec; [|done|done]. cbn [mbind res_bind] in Hr. pose proof (upd_length _ _ _ _ Ec) as Hlc.
    destruct (upd_loose _ _ _ _ _ _ Hlob HiI Ec) as (usc & Hec & Hloc & Hsc). rewrite Hec. cbn [mbind res_bind].
    destruct (IH _ usc key len id (pos + 1)%Z j b' I (id :: J) Hr) as (us' & Hr' & Hlo' & Hs').
    + exact Hloc.
    + intros k Hk. cbn [set_unfixed set_unit b_unused b_unit]. destruct (Hg1 k Hk) as [H1 H2]. split; [done|]. lia.
    + intros k Hk. right. by apply HIJ.
    + left.
    + done.
    + done.
    + cbn [set_unfixed set_unit b_unit]. lia.
    + exists us'. split; [exact Hr'|]. split; [done|]. intros k Hk Hki. assert (k <> id) by (intros ->; done). rewrite Hs' by (done || by right). rewrite Hsc, Hsb, Hsa by done. by apply Hs1.
Qed.
(** The first step, below different units. *)
Lemma add_other n b us key len i0 i1 pos j b' I J u0 u1 :
  insert_add (S n) b key len i0 pos = Ok (j, b') -> loose I us (b_unit b) -> guarded b J -> (forall k, k ∈ I -> k ∈ J) -> i0 ∈ J -> i1 ∈ J -> NoDup (b_unused b) ->
  N.of_nat (length (b_unit b) + S n) < two32 -> b_unit b !! N.to_nat i0 = Some u0 -> us !! N.to_nat i1 = Some u1 -> u_child u1 = u_child u0 ->
  exists us' m, insert_add (S n) (set_unit b us) key len i1 pos = Ok (j, set_unit b' us') /\ loose (i0 :: i1 :: I) us' (b_unit b') /\
    b_unit b' !! N.to_nat i0 = Some (du_set_child u0 m) /\ us' !! N.to_nat i1 = Some (du_set_child u1 m) /\ (forall k, k ∈ J -> k <> i1 -> us' !! N.to_nat k = us !! N.to_nat k).
Proof.
  intros Hr Hlo Hg HIJ Hi0 Hi1 Hnd Hsz Hu0 Hu1 Hch. cbn [insert_add] in *.
  destruct (key_label key len pos) as [l| |]; [|done|done]. cbn [mbind res_bind] in *.
  destruct (allocateUnit b) as [[id b1]| |] eqn:Eal; [|done|done]. cbn [mbind res_bind] in Hr.
  destruct (alloc_unit_loose b us I J id b1 Hlo Hg HIJ Hnd ltac:(lia) Eal) as (Hid & Hg1 & Hnd1 & Hl1 & Hz & Hb1 & us1 & Hal & Hlo1 & Hs1). rewrite Hal. cbn [mbind res_bind set_unit b_unit b_unfixed].
  assert (HidI : id ∉ I) by (intros Hin; by apply Hid, HIJ). assert (Hne0 : id <> i0) by (intros ->; done). assert (Hne1 : id <> i1) by (intros ->; done).
  rewrite <- (Hb1 i0 Hi0) in Hu0. rewrite <- (Hs1 i1 Hi1) in Hu1. rewrite (get_N _ _ _ Hu0) in Hr. rewrite (get_N _ _ _ Hu1). cbn [mbind res_bind] in *. rewrite Hch.
  destruct (if u_child u0 =? 0 then upd (b_unit b1) id (fun c => du_set_isState c true) else Ok (b_unit b1)) as [ua| |] eqn:Ea; [|done|done]. cbn [mbind res_bind] in Hr.
  assert (exists usa, (if u_child u0 =? 0 then upd us1 id (fun c => du_set_isState c true) else Ok us1) = Ok usa /\ loose I usa ua /\ (forall k, k <> id -> usa !! N.to_nat k = us1 !! N.to_nat k) /\ length ua = length (b_unit b1) /\ forall k, k <> id -> ua !! N.to_nat k = b_unit b1 !! N.to_nat k) as (usa & Hea & Hloa & Hsa & Hla & Hua).
  { destruct (u_child u0 =? 0); [|injection Ea as <-; by exists us1]. pose proof (upd_length _ _ _ _ Ea). destruct (upd_loose _ _ _ _ _ _ Hlo1 HidI Ea) as (v & H1 & H2 & H3). exists v. split; [done|]. split; [done|]. split; [done|]. split; [done|]. intros k Hk. by eapply upd_other. }
  rewrite Hea. cbn [mbind res_bind].
  destruct (upd ua id (fun c => du_set_label (du_set_sibling c (u_child u0)) l)) as [ub| |] eqn:Eb; [|done|done]. cbn [mbind res_bind] in Hr. pose proof (upd_length _ _ _ _ Eb) as Hlb.
  destruct (upd_loose _ _ _ _ _ _ Hloa HidI Eb) as (usb & Heb & Hlob & Hsb). rewrite Heb. cbn [mbind res_bind].
  assert (Hub0 : ub !! N.to_nat i0 = Some u0) by (rewrite (upd_other _ _ _ _ i0 Eb), Hua by done; done).
  assert (Hub1 : usb !! N.to_nat i1 = Some u1) by (rewrite Hsb, Hsa by done; done).
  rewrite (upd_N _ _ _ _ Hub0) in Hr. rewrite (upd_N _ _ _ _ Hub1). cbn [mbind res_bind] in *.
  set (uc := <[N.to_nat i0 := du_set_child u0 id]> ub) in *. set (usc := <[N.to_nat i1 := du_set_child u1 id]> usb) in *.
  assert (Hloc : loose (i0 :: i1 :: I) usc uc).
  { destruct Hlob as (Hlen & Hup & Heq). unfold usc, uc. split; [by rewrite !insert_length|]. split.
    - intros k v Hk. assert (Hv : exists w, ub !! N.to_nat k = Some w /\ exists c, v = du_set_child w c).
      { destruct (decide (k = i0)) as [->|Hn]; [|rewrite list_lookup_insert_ne in Hk by lia; exists v; split; [done|exists (u_child v); by rewrite set_child_idem]]. rewrite list_lookup_insert in Hk by (by apply lookup_lt_Some in Hub0). injection Hk as <-. eauto. }
      destruct Hv as (w & Hw & c & ->). destruct (Hup k w Hw) as [ch Hc]. destruct (decide (k = i1)) as [->|Hn].
      + rewrite Hub1 in Hc. injection Hc as ->. rewrite list_lookup_insert by (by apply lookup_lt_Some in Hub1). exists id. by rewrite !set_child_twice.
      + rewrite list_lookup_insert_ne by lia. rewrite Hc. exists ch. by rewrite set_child_twice.
    - intros k Hk. rewrite !not_elem_of_cons in Hk. destruct Hk as (Hk0 & Hk1 & Hk). rewrite !list_lookup_insert_ne by lia. by apply Heq. }
  destruct (add_same n (set_unfixed (set_unit b1 uc) (id :: b_unfixed b1)) usc key len id (pos + 1)%Z j b' (i0 :: i1 :: I) (id :: J) Hr) as (us' & Hr' & Hlo' & Hs').
  - exact Hloc.
  - intros k Hk. cbn [set_unfixed set_unit b_unused b_unit]. destruct (Hg1 k Hk) as [H1 H2]. split; [done|]. unfold uc. rewrite insert_length. lia.
  - intros k Hk. right. apply elem_of_cons in Hk as [->|Hk]; [done|]. apply elem_of_cons in Hk as [->|Hk]; [done|]. by apply HIJ.
  - left.
  - rewrite !not_elem_of_cons. done.
  - done.
  - cbn [set_unfixed set_unit b_unit]. unfold uc. rewrite insert_length. lia.
  - exists us', id. split; [exact Hr'|]. split; [done|].
    destruct (add_same n (set_unfixed (set_unit b1 uc) (id :: b_unfixed b1)) uc key len id (pos + 1)%Z j b' [] (id :: J) Hr) as (us2 & Hr2 & Hlo2 & Hs2).
    { apply loose_refl. } { intros k Hk. cbn [set_unfixed set_unit b_unused b_unit]. destruct (Hg1 k Hk) as [H1 H2]. split; [done|]. unfold uc. rewrite insert_length. lia. }
    { intros k Hk. by apply not_elem_of_nil in Hk. } { left. } { apply not_elem_of_nil. } { done. } { cbn [set_unfixed set_unit b_unit]. unfold uc. rewrite insert_length. lia. }
    apply loose_nil in Hlo2. subst us2. split; [|split].
    + rewrite Hs2 by (first [by right|done]). unfold uc. apply list_lookup_insert. by apply lookup_lt_Some in Hub0.
    + rewrite Hs' by (first [by right|done]). unfold usc. apply list_lookup_insert. by apply lookup_lt_Some in Hub1.
    + intros k Hk Hki. assert (k <> id) by (intros ->; done). rewrite Hs' by (first [by right|done]). unfold usc. rewrite list_lookup_insert_ne by lia. rewrite Hsb, Hsa by done. by apply Hs1.
Qed.

(** ** Open units as they are reached from the root *)
Fixpoint vlink (us : list dunit) (vis : list frame) (c : N) : Prop :=
  us !! N.to_nat (lastu vis) = Some (lastmk vis c) /\ match vis with [] => True | f :: vis' => vlink us vis' (f_u f) end.
Lemma vlink_split us v1 : forall g v2 c, vlink us (v1 ++ g :: v2) c -> vlink us v2 (f_u g) /\ exists c', us !! N.to_nat (f_u g) = Some (fmk g c').
Proof.
  induction v1 as [|f v1 IH]; intros g v2 c; cbn [app vlink lastu lastmk].
  - intros [H1 H2]. split; [done|]. by exists c.
  - intros [_ H]. by apply IH in H.
Qed.
Lemma vlink_hd us vis c : vlink us vis c -> us !! N.to_nat (lastu vis) = Some (lastmk vis c).
Proof. by destruct vis; intros [H _]. Qed.
Lemma vlink_tl us f vis c : vlink us (f :: vis) c -> vlink us vis (f_u f).
Proof. by intros [_ H]. Qed.
Lemma vlink_ext us us' vis : forall c, vlink us vis c -> (forall i, i ∈ 0 :: map f_u vis -> us' !! N.to_nat i = us !! N.to_nat i) -> vlink us' vis c.
Proof.
  induction vis as [|f vis IH]; intros c [H1 H2] He; cbn [vlink lastu lastmk] in *.
  - split; [|done]. rewrite He by left. done.
  - split; [rewrite He; [done|]; right; left|]. apply IH; [done|]. intros i Hi. apply He. apply elem_of_cons in Hi as [->|Hi]; [left|]. right. by right.
Qed.
Lemma vlink_child us us' vis c c' : vlink us vis c -> us' !! N.to_nat (lastu vis) = Some (lastmk vis c') -> (forall i, i ∈ 0 :: map f_u vis -> i <> lastu vis -> us' !! N.to_nat i = us !! N.to_nat i) ->
  NoDup (0 :: map f_u vis) -> vlink us' vis c'.
Proof.
  destruct vis as [|f vis]; intros [H1 H2] H He Hnd; cbn [vlink lastu lastmk map] in *; [done|]. split; [done|]. eapply vlink_ext; [exact H2|].
  intros i Hi. apply He.
  - apply elem_of_cons in Hi as [->|Hi]; [left|]. right. by right.
  - apply NoDup_cons in Hnd as [Hn0 Hnd]. apply NoDup_cons in Hnd as [Hnf Hnd]. intros ->. apply elem_of_cons in Hi as [E|Hi]; [|done]. apply Hn0. rewrite E. left.
Qed.
Lemma vlink_skip ks v1 : forall a n key len pos v2 c, vlink (b_unit a) (v1 ++ v2) c -> Forall (fun f => f_u f <> 0) v1 -> rev (map f_l v1) = ks ->
  (forall j l, ks !! j = Some l -> key_label key len (pos + Z.of_nat j) = Ok l) ->
  insert_find (length ks + n) a key len (lastu v2) pos = insert_find n a key len (lastu (v1 ++ v2)) (pos + Z.of_nat (length ks)).
Proof.
  revert ks. induction v1 as [|g v1 IH] using rev_ind; intros ks a n key len pos v2 c Hv Hne Hks Hkey.
  - subst ks. cbn [length map rev app]. by rewrite Z.add_0_r.
  - rewrite map_app, rev_app_distr in Hks. cbn [map rev app] in Hks. subst ks. cbn [length Nat.add insert_find]. rewrite <- app_assoc in Hv |- *. cbn [app] in *.
    destruct (vlink_split _ _ _ _ _ Hv) as [Hv2 [c' Hg]]. rewrite (get_N _ _ _ (vlink_hd _ _ _ Hv2)). cbn [mbind res_bind].
    assert (u_child (lastmk v2 (f_u g)) = f_u g) as -> by (by destruct v2). apply Forall_app in Hne as [Hne1 Hne2]. apply Forall_cons in Hne2 as [Hne2 _]. destruct (N.eqb_spec (f_u g) 0); [done|].
    assert (Hk0 := Hkey 0%nat (f_l g) eq_refl). rewrite Z.add_0_r in Hk0. rewrite Hk0. cbn [mbind res_bind].
    rewrite (get_N _ _ _ Hg). cbn [mbind res_bind fmk u_label]. rewrite N.ltb_irrefl.
    pose proof (IH (rev (map f_l v1)) a n key len (pos + 1)%Z (g :: v2) c Hv Hne1 eq_refl) as IH'. cbn [lastu] in IH'. rewrite IH'.
    + f_equal. lia.
    + intros j l Hj. specialize (Hkey (S j) l Hj). rewrite <- Hkey. f_equal. lia.
Qed.
Lemma dyn_vlink b x fs c A : dyn b x fs c [] A -> vlink (b_unit b) fs c.
Proof.
  intros H. pose proof (dy_agrees _ _ _ _ _ _ H) as Hag. clear H. revert c Hag. generalize (@nil (N * dunit)) as L. induction fs as [|f fs IH]; intros L c Hag.
  - cbn [vlink]. split; [|done]. exact (mem_agrees _ _ _ _ Hag (layout_hd [] c L)).
  - cbn [vlink]. split; [exact (mem_agrees _ _ _ _ Hag (layout_hd (f :: fs) c L))|]. rewrite layout_cons in Hag. apply Forall_cons in Hag as [_ Hag]. by eapply IH.
Qed.
Lemma dyn_ids0 b x fs c L A : dyn b x fs c L A -> NoDup (0 :: map f_u fs) /\ NoDup (b_unused b) /\ guarded b (0 :: map f_u fs) /\ (length (b_unit b) <= S A)%nat.
Proof.
  intros H. pose proof (dyn_nodup _ _ _ _ _ _ H) as Hnd. apply NoDup_app in Hnd as (Hnd1 & Hnd2 & Hnd3).
  assert (Hin : forall i, i ∈ 0 :: map f_u fs -> i ∈ (layout fs c L).*1).
  { intros i Hi. apply elem_of_cons in Hi as [->|Hi]; [|by apply frames_in]. destruct (root_in fs c L) as [u Hu]. apply elem_of_list_fmap. by exists (0, u). }
  split; [|split; [done|split; [|by apply (dy_pool _ _ _ _ _ _ H)]]].
  - constructor; [|by eapply frames_nodup]. intros Hz. apply elem_of_list_In, in_map_iff in Hz as (g & Hg & Hgi). apply elem_of_list_In, elem_of_list_split in Hgi as (l1 & l2 & ->).
    eapply (open_ne (b_unit b)); [exact (dy_agrees _ _ _ _ _ _ H)|exact Hnd1|exact Hg].
  - intros i Hi. split; [by apply Hnd2, Hin|]. apply Hin in Hi.
    assert (i ∈ N.of_nat <$> seq 0 (length (b_unit b))) as Hs. { rewrite <- (dy_perm _ _ _ _ _ _ H). apply elem_of_app. by left. }
    apply elem_of_list_fmap in Hs as (j & -> & Hj%elem_of_seq). lia.
Qed.

(** Keys with a zero byte, any number of them with the same bytes before it. *)
Definition lst (a : builder) (x : fixedst) (afs : apath) (w : list N) (cv : N) (A : nat) : Prop := exists b us ir fs c iv,
  a = set_unit b us /\ dyn b x (ir ++ fs) c [] A /\ ctx b x (ir ++ fs) /\ Forall (fok (x_ts x)) ir /\ match ir with [] => False | f :: _ => f_l f = 0 end /\
  fsok (x_ts x) fs true /\ fs <> [] /\ map alpha fs = afs /\
  loose (map f_u (tail (ir ++ take 1 fs))) us (b_unit b) /\ iv `sublist_of` ir /\ vlink us (iv ++ fs) cv /\ rev (map f_l iv) = w.
Lemma pendw_lst b x afs w c A : pendw b x afs w c A -> lst b x afs w c A.
Proof.
  intros (ir & fs & <- & H & Hctx & Hok & H0 & Hfs & Hne & <-). exists b, (b_unit b), ir, fs, c, ir. split; [by rewrite set_unit_same|].
  split; [done|]. split; [done|]. split; [done|]. split; [done|]. split; [done|]. split; [done|]. split; [done|]. split; [apply loose_refl|]. split; [done|]. split; [|done].
  by eapply dyn_vlink.
Qed.
Lemma take_drop1 {A} (l : list A) : take 1 l ++ drop 1 l = l.
Proof. apply take_drop. Qed.
Lemma nodup_sublist {A} (l k : list A) : l `sublist_of` k -> NoDup k -> NoDup l.
Proof.
  intros Hs. induction Hs as [|y l k Hs IH|y l k Hs IH]; intros H; [constructor| |].
  - apply NoDup_cons in H as [H1 H2]. constructor; [|by apply IH]. intros Hi. apply H1. eapply elem_of_submseteq; [exact Hi|by apply sublist_submseteq].
  - apply NoDup_cons in H as [_ H]. by apply IH.
Qed.
Lemma sub_nodup (iv ir fs : list frame) : iv `sublist_of` ir -> NoDup (0 :: map f_u (ir ++ fs)) -> NoDup (0 :: map f_u (iv ++ fs)).
Proof.
  intros Hs H. eapply nodup_sublist; [|exact H]. apply sublist_skip. rewrite !map_app. apply sublist_app; [|done]. clear H. induction Hs; cbn [map]; by constructor.
Qed.
Lemma sub_in (iv ir : list frame) i : iv `sublist_of` ir -> i ∈ map f_u iv -> i ∈ map f_u ir.
Proof. intros Hs Hi. eapply elem_of_submseteq; [exact Hi|]. apply sublist_submseteq. clear Hi. induction Hs; cbn [map]; by constructor. Qed.

(** Closing what is open below [i] does not depend on the loose fields. *)
Lemma fix_same b us x ir fs c A i : dyn b x (ir ++ fs) c [] A -> b_unfixed b = map f_u (ir ++ fs) ++ [0] -> Forall (fun f => f_hs f = false) ir ->
  Forall (fok (x_ts x)) ir -> match ir with [] => False | f :: _ => f_l f = 0 end ->
  loose (map f_u (tail (ir ++ take 1 fs))) us (b_unit b) -> i ∉ map f_u ir -> fixUnits (set_unit b us) i = fixUnits b i.
Proof.
  intros H Huf Hhs Hok H0 Hlo Hi.
  destruct (close_loose ir b us x c (Leaf (c mod 2147483648)) (take 1 fs) (drop 1 fs) A) as (b' & us' & c' & x' & s' & Hfix & _ & Hlo' & _).
  { by rewrite take_drop1. } { done. } { done. } { done. } { done. } { constructor. apply N.mod_lt. lia. } { by destruct ir. } { by rewrite take_drop1. }
  destruct (Hfix i Hi) as [-> ->]. assert (us' = b_unit b') as ->. { apply loose_nil. destruct fs; exact Hlo'. } by rewrite set_unit_same.
Qed.

(** ** One insertion *)
Lemma lab_of key j z : (key ++ [0]) !! j = Some z -> key_label key (Z.of_nat (length key)) (Z.of_nat j) = Ok z.
Proof. intros Hj. apply key_labels; [done|]. unfold keyof. by rewrite take_ge by lia. Qed.
Lemma vlink_app us v1 : forall v2 c, vlink us (v1 ++ v2) c -> exists c', vlink us v2 c'.
Proof. induction v1 as [|f v1 IH]; intros v2 c; cbn [app]; [eauto|]. intros H. apply vlink_tl in H. eauto. Qed.
Lemma reach a v2 c p key r : vlink (b_unit a) v2 c -> NoDup (0 :: map f_u v2) -> rev (map f_l v2) = p -> key ++ [0] = p ++ r ->
  insert_find (Z.to_nat (Z.of_nat (length key) + 1)) a key (Z.of_nat (length key)) 0 0 = insert_find (length r) a key (Z.of_nat (length key)) (lastu v2) (Z.of_nat (length p)).
Proof.
  intros Hv Hnd Hp Hk. replace (Z.to_nat (Z.of_nat (length key) + 1)) with (length p + length r)%nat by (apply (f_equal length) in Hk; rewrite !app_length in Hk; cbn [length] in Hk; lia).
  pose proof (vlink_skip p v2 a (length r) key (Z.of_nat (length key)) 0%Z [] c) as Hs. rewrite app_nil_r in Hs. cbn [lastu] in Hs. rewrite Hs; [by rewrite Z.add_0_l|done| |done|].
  - apply NoDup_cons in Hnd as [Hnd _]. apply Forall_forall. intros f Hf Hz. apply Hnd. rewrite <- Hz. apply elem_of_list_In, in_map. by apply elem_of_list_In.
  - intros j l Hj. rewrite Z.add_0_l. apply lab_of. rewrite Hk. by apply lookup_app_l_Some.
Qed.
Lemma nodup_tail (v1 v2 : list frame) : NoDup (0 :: map f_u (v1 ++ v2)) -> NoDup (0 :: map f_u v2).
Proof. apply nodup_sublist. apply sublist_skip. rewrite map_app. by apply sublist_inserts_l. Qed.
Lemma nodup_ne (v1 v2 : list frame) g : NoDup (0 :: map f_u (v1 ++ g :: v2)) -> f_u g <> 0 /\ (forall i, i ∈ 0 :: map f_u v2 -> i <> f_u g).
Proof.
  intros H. apply nodup_tail in H. cbn [map] in H. apply NoDup_cons in H as [H1 H]. apply NoDup_cons in H as [H2 H]. split.
  - intros E. apply H1, elem_of_cons. left. by rewrite E.
  - intros i Hi ->. apply elem_of_cons in Hi as [E|Hi]; [|done]. apply H1, elem_of_cons. left. by rewrite E.
Qed.
Lemma lst_lower a x afs w cv A key val p l q l' r : lst a x afs w cv A -> pathof afs ++ w = p ++ l :: q -> key ++ [0] = p ++ l' :: r -> l' < l ->
  InsertStringValue a key val = Ok (false, a).
Proof.
  intros (b & us & ir & fs & c & iv & -> & H & Hctx & Hok & H0 & Hfs & Hne & <- & Hlo & Hiv & Hv & <-) Hp Hk Hl. rewrite pathof_alpha, <- rev_app_distr, <- map_app in Hp.
  destruct (dyn_ids0 _ _ _ _ _ _ H) as (Hnd & _). pose proof (sub_nodup _ _ _ Hiv Hnd) as Hnd'.
  destruct (frames_split _ _ _ _ Hp) as (inner & g & g1 & Evis & Hg1 & Hg & _). rewrite Evis in Hv, Hnd'.
  destruct (vlink_split _ _ _ _ _ Hv) as [Hv1 [c' Hgu]]. destruct (nodup_ne _ _ _ Hnd') as [Hgz _].
  unfold InsertStringValue, InsertKeyValue. change (b_hash (set_unit b us)) with (b_hash b). pose proof (hash_ne _ _ _ _ _ _ H) as Hh. destruct (b_hash b) as [|h0 hh] eqn:Eh; [done|]. cbn [mbind res_bind].
  rewrite (reach (set_unit b us) (rev g1) (f_u g) p key (l' :: r) Hv1).
  - cbn [length insert_find set_unit b_unit]. rewrite (get_N _ _ _ (vlink_hd _ _ _ Hv1)). cbn [mbind res_bind].
    assert (u_child (lastmk (rev g1) (f_u g)) = f_u g) as -> by (by destruct (rev g1)). destruct (N.eqb_spec (f_u g) 0); [done|].
    rewrite (lab_of key (length p) l') by (rewrite Hk, lookup_app_r, Nat.sub_diag by lia; done). cbn [mbind res_bind].
    rewrite (get_N _ _ _ Hgu). cbn [mbind res_bind fmk u_label]. rewrite Hg. destruct (N.ltb_spec l' l); [done|lia].
  - change (g :: rev g1) with ([g] ++ rev g1) in Hnd'. rewrite app_assoc in Hnd'. by eapply nodup_tail.
  - by rewrite <- map_rev, rev_involutive.
  - done.
Qed.
Lemma loose_in I us us0 i u v : loose I us us0 -> i ∈ I -> us !! N.to_nat i = Some u -> loose I (<[N.to_nat i := du_set_child u v]> us) us0.
Proof.
  intros (Hlen & Hup & Heq) Hi Hu. split; [by rewrite insert_length|]. split.
  - intros j z Hj. destruct (Hup j z Hj) as [ch Hc]. destruct (decide (j = i)) as [->|Hne].
    + rewrite list_lookup_insert by (by apply lookup_lt_Some in Hu). rewrite Hu in Hc. injection Hc as ->. exists v. by rewrite set_child_twice.
    + rewrite list_lookup_insert_ne by lia. eauto.
  - intros j Hj. rewrite list_lookup_insert_ne; [by apply Heq|]. intros E. apply N2Nat.inj in E. by subst.
Qed.
Lemma vis_split (iv : list frame) p q : rev (map f_l iv) = p ++ q -> exists iv2 iv1, iv = iv2 ++ iv1 /\ rev (map f_l iv1) = p /\ rev (map f_l iv2) = q.
Proof.
  intros H. rewrite <- map_rev in H. apply map_eq_app in H as (l1 & l2 & Hr & <- & <-). exists (rev l2), (rev l1).
  split; [|by rewrite !map_rev, !rev_involutive]. by rewrite <- rev_app_distr, <- Hr, rev_involutive.
Qed.
(** The key is a beginning of the last one, or the same. *)
Lemma lst_prefix a x afs w1 w2 cv A key val : lst a x afs (w1 ++ w2) cv A -> key ++ [0] = pathof afs ++ w1 ->
  exists a', InsertStringValue a key val = Ok (true, a') /\ lst a' x afs w1 (u32_of_i32 val) A.
Proof.
  intros (b & us & ir & fs & c & iv & -> & H & Hctx & Hok & H0 & Hfs & Hne & <- & Hlo & Hiv & Hv & Hw) Hk. rewrite pathof_alpha in Hk.
  destruct (vis_split _ _ _ Hw) as (iv2 & iv1 & -> & <- & <-). rewrite <- app_assoc in Hv. destruct (vlink_app _ _ _ _ Hv) as [c' Hv1].
  assert (Hiv1 : iv1 `sublist_of` ir) by (etrans; [by apply sublist_inserts_l|exact Hiv]).
  destruct (dyn_ids0 _ _ _ _ _ _ H) as (Hnd & _). pose proof (sub_nodup _ _ _ Hiv1 Hnd) as Hnd'.
  unfold InsertStringValue, InsertKeyValue. change (b_hash (set_unit b us)) with (b_hash b). pose proof (hash_ne _ _ _ _ _ _ H) as Hh. destruct (b_hash b) as [|h0 hh] eqn:Eh; [done|]. cbn [mbind res_bind].
  rewrite (reach (set_unit b us) (iv1 ++ fs) c' (key ++ [0]) key []); [|done|done| |by rewrite app_nil_r].
  2:{ by rewrite map_app, rev_app_distr. }
  cbn [length insert_find mbind res_bind]. rewrite app_length. cbn [length].
  replace (Z.to_nat (Z.of_nat (length key) + 1 - Z.of_nat (length key + 1))) with 0%nat by lia. cbn [insert_add mbind res_bind set_unit b_unit].
  pose proof (vlink_hd _ _ _ Hv1) as Hu.
  destruct ir as [|t ir']; [done|]. cbn [app tail] in *.
  assert (Hvl : forall us', us' !! N.to_nat (lastu (iv1 ++ fs)) = Some (lastmk (iv1 ++ fs) (u32_of_i32 val)) -> (forall j, j <> lastu (iv1 ++ fs) -> us' !! N.to_nat j = us !! N.to_nat j) -> vlink us' (iv1 ++ fs) (u32_of_i32 val)).
  { intros us' H1 H2. eapply vlink_child; [exact Hv1|done| |done]. intros i _ Hi. by apply H2. }
  destruct (decide (lastu (iv1 ++ fs) = f_u t)) as [Et|Et].
  - destruct (set_value _ _ _ _ _ _ (u32_of_i32 val) H Hctx) as (us0' & Hus0 & H1 & Hctx1).
    assert (HtI : f_u t ∉ map f_u (ir' ++ take 1 fs)).
    { cbn [map] in Hnd. apply NoDup_cons in Hnd as [_ Hnd]. apply NoDup_cons in Hnd as [Hnd _]. intros Hin. apply Hnd. rewrite !map_app in *. apply elem_of_app in Hin as [Hin|Hin]; apply elem_of_app; [by left|right].
      destruct fs; [done|]. cbn [take map] in *. rewrite take_0 in Hin. apply elem_of_list_singleton in Hin as ->. left. }
    destruct (upd_loose _ _ _ (f_u t) _ _ Hlo HtI Hus0) as (us' & Hus' & Hlo' & Hsame).
    rewrite Et, Hus'. cbn [mbind res_bind]. eexists. split; [done|]. exists (set_unit b us0'), us', (t :: ir'), fs, (u32_of_i32 val), iv1. split; [by rewrite !set_unit_twice|].
    split; [done|]. split; [done|]. split; [done|]. split; [done|]. split; [done|]. split; [done|]. split; [done|]. split; [done|]. split; [done|]. split; [|done].
    apply Hvl; [|by rewrite Et]. rewrite <- (lastmk_set (iv1 ++ fs) c'). rewrite Et in Hu |- *. unfold upd, get in Hus'. rewrite Hu in Hus'. cbn [mbind res_bind] in Hus'. rewrite (set_N _ _ _ _ Hu) in Hus'. injection Hus' as <-.
    apply list_lookup_insert. by apply lookup_lt_Some in Hu.
  - rewrite (upd_N _ _ _ _ Hu). cbn [mbind res_bind]. eexists. split; [done|]. exists b, (<[N.to_nat (lastu (iv1 ++ fs)) := du_set_child (lastmk (iv1 ++ fs) c') (u32_of_i32 val)]> us), (t :: ir'), fs, c, iv1.
    split; [by rewrite set_unit_twice|]. split; [done|]. split; [done|]. split; [done|]. split; [done|]. split; [done|]. split; [done|]. split; [done|]. split; [|split; [done|split; [|done]]].
    + cbn [app tail]. apply loose_in; [done| |done]. rewrite map_app. apply elem_of_app. destruct iv1 as [|f iv1].
      * right. destruct fs; [done|]. cbn. left.
      * left. cbn [app lastu] in *. assert (Hf : f_u f ∈ map f_u (t :: ir')) by (eapply sub_in; [exact Hiv1|left]). cbn [map] in Hf. by apply elem_of_cons in Hf as [Hf|Hf].
    + apply Hvl; [|intros j Hj; apply list_lookup_insert_ne; lia]. rewrite lastmk_set. apply list_lookup_insert. by apply lookup_lt_Some in Hu.
Qed.
(** The last key is a beginning of this one, and its value a number above the pool. *)
Lemma lst_panic a x afs w cv A key val l r : lst a x afs w cv A -> key ++ [0] = (pathof afs ++ w) ++ l :: r -> N.of_nat (S A) <= cv -> InsertStringValue a key val = Panic.
Proof.
  intros (b & us & ir & fs & c & iv & -> & H & Hctx & Hok & H0 & Hfs & Hne & <- & Hlo & Hiv & Hv & <-) Hk Hc. rewrite pathof_alpha, <- rev_app_distr, <- map_app in Hk.
  destruct (dyn_ids0 _ _ _ _ _ _ H) as (Hnd & _ & _ & Hl). pose proof (sub_nodup _ _ _ Hiv Hnd) as Hnd'.
  unfold InsertStringValue, InsertKeyValue. change (b_hash (set_unit b us)) with (b_hash b). pose proof (hash_ne _ _ _ _ _ _ H) as Hh. destruct (b_hash b) as [|h0 hh] eqn:Eh; [done|]. cbn [mbind res_bind].
  rewrite (reach (set_unit b us) (iv ++ fs) cv _ key (l :: r) Hv Hnd' eq_refl Hk). cbn [length insert_find set_unit b_unit].
  rewrite (get_N _ _ _ (vlink_hd _ _ _ Hv)). cbn [mbind res_bind]. assert (u_child (lastmk (iv ++ fs) cv) = cv) as -> by (by destruct (iv ++ fs)). destruct (N.eqb_spec cv 0); [lia|].
  rewrite (lab_of key _ l) by (rewrite Hk, lookup_app_r, Nat.sub_diag by lia; done). cbn [mbind res_bind].
  unfold get. destruct Hlo as (Hlen & _). rewrite lookup_ge_None_2 by lia. done.
Qed.
Lemma upd_hs_loose I us us0 i us0' : loose I us us0 -> upd us0 i (fun u => du_set_hasSibling u true) = Ok us0' ->
  exists u us', us !! N.to_nat i = Some u /\ us' = <[N.to_nat i := du_set_hasSibling u true]> us /\ upd us i (fun u => du_set_hasSibling u true) = Ok us' /\ loose I us' us0'.
Proof.
  intros (Hlen & Hup & Heq). unfold upd, get. destruct (us0 !! N.to_nat i) as [u|] eqn:Eu; [|done]. cbn [mbind res_bind]. destruct (Hup i u Eu) as [ch Ec]. rewrite Ec.
  rewrite (set_N _ _ _ _ Eu). intros [= <-]. cbn [mbind res_bind]. rewrite (set_N _ _ _ _ Ec). eexists _, _. split; [done|]. split; [done|]. split; [done|].
  split; [by rewrite !insert_length|]. split.
  - intros j v Hj. destruct (decide (j = i)) as [->|Hne].
    + rewrite list_lookup_insert in Hj |- * by (first [by apply lookup_lt_Some in Eu|by apply lookup_lt_Some in Ec]). injection Hj as <-. exists ch. by destruct u.
    + rewrite list_lookup_insert_ne in Hj |- * by lia. by apply Hup.
  - intros j Hj. destruct (decide (j = i)) as [->|Hne].
    + rewrite !list_lookup_insert by (first [by apply lookup_lt_Some in Eu|by apply lookup_lt_Some in Ec]). rewrite (Heq i Hj), Eu in Ec. by injection Ec as <-.
    + rewrite !list_lookup_insert_ne by lia. by apply Heq.
Qed.
(** The key leaves the path before the zero byte. *)
Lemma lst_out a x afs w cv A key val p l q l' r : lst a x afs w cv A -> pathof afs = p ++ l :: q -> key ++ [0] = p ++ l' :: r -> l < l' ->
  exists b, pend b x afs A /\ InsertStringValue a key val = InsertStringValue b key val.
Proof.
  intros (b & us & ir & fs & c & iv & -> & H & Hctx & Hok & H0 & Hfs & Hne & <- & Hlo & Hiv & Hv & _) Hp Hk Hl. rewrite pathof_alpha in Hp.
  exists b. split; [exists (rev (map f_l ir)), c, ir, fs; done|]. pose proof Hctx as [Huf Hhs].
  destruct (dyn_ids0 _ _ _ _ _ _ H) as (Hnd & _). pose proof (sub_nodup _ _ _ Hiv Hnd) as Hnd'.
  destruct (frames_split _ _ _ _ Hp) as (inner & g & g1 & -> & Hg1 & Hg & _).
  pose proof (dyn_vlink _ _ _ _ _ H) as Hvb. rewrite (app_assoc iv) in Hv. rewrite (app_assoc ir) in Hvb.
  destruct (vlink_split _ _ _ _ _ Hv) as [Hv1 [c' Hgu]]. destruct (vlink_split _ _ _ _ _ Hvb) as [Hv2 [c2 Hgu2]].
  rewrite (app_assoc ir) in Hnd. destruct (nodup_ne _ _ _ Hnd) as [Hgz _].
  assert (Hnd1 : NoDup (0 :: map f_u (rev g1))). { change (g :: rev g1) with ([g] ++ rev g1) in Hnd. rewrite app_assoc in Hnd. by eapply nodup_tail. }
  unfold InsertStringValue, InsertKeyValue. change (b_hash (set_unit b us)) with (b_hash b). pose proof (hash_ne _ _ _ _ _ _ H) as Hh. destruct (b_hash b) as [|h0 hh] eqn:Eh; [done|]. cbn [mbind res_bind].
  assert (Hgg : rev (map f_l (rev g1)) = p) by (by rewrite <- map_rev, rev_involutive).
  rewrite (reach (set_unit b us) (rev g1) (f_u g) p key (l' :: r) Hv1 Hnd1 Hgg Hk), (reach b (rev g1) (f_u g) p key (l' :: r) Hv2 Hnd1 Hgg Hk).
  cbn [length insert_find]. change (b_unit (set_unit b us)) with us. rewrite (get_N _ _ _ (vlink_hd _ _ _ Hv1)), (get_N _ _ _ (vlink_hd _ _ _ Hv2)). cbn [mbind res_bind].
  assert (u_child (lastmk (rev g1) (f_u g)) = f_u g) as -> by (by destruct (rev g1)). destruct (N.eqb_spec (f_u g) 0); [done|].
  rewrite (lab_of key (length p) l') by (rewrite Hk, lookup_app_r, Nat.sub_diag by lia; done). cbn [mbind res_bind].
  rewrite (get_N _ _ _ Hgu), (get_N _ _ _ Hgu2). cbn [mbind res_bind fmk u_label]. rewrite Hg. destruct (N.ltb_spec l' l); [lia|]. destruct (N.ltb_spec l l'); [|lia].
  rewrite (app_assoc ir) in H. destruct (dyn_seths _ _ _ _ _ _ _ _ H) as (us0' & Hus0 & H'). rewrite Hus0.
  destruct (upd_hs_loose _ _ _ _ _ Hlo Hus0) as (ug & us' & _ & _ & -> & Hlo'). cbn [mbind res_bind]. rewrite set_unit_twice, <- (set_unit_twice b us0' us').
  rewrite (fix_same (set_unit b us0') us' x ir (inner ++ seths g true :: rev g1) c A (f_u g)); [by destruct (fixUnits (set_unit b us0') (f_u g))| | | |done|done| |].
  - by rewrite app_assoc.
  - cbn [set_unit b_unfixed]. rewrite Huf, !map_app. done.
  - rewrite !Forall_app in Hhs. apply Hhs.
  - replace (map f_u (tail (ir ++ take 1 (inner ++ seths g true :: rev g1)))) with (map f_u (tail (ir ++ take 1 (inner ++ g :: rev g1)))); [done|].
    clear. destruct ir as [|t ir]; destruct inner as [|f inner]; cbn [app tail take map]; try done. rewrite !map_app. done.
  - intros Hin. rewrite <- app_assoc in Hnd. apply NoDup_cons in Hnd as [_ Hnd]. rewrite map_app in Hnd. apply NoDup_app in Hnd as (_ & Hnd & _). apply (Hnd (f_u g)); [done|].
    rewrite map_app. apply elem_of_app. right. left.
Qed.
Lemma lst_finish a x afs w cv A d : lst a x afs w cv A -> exists b, pend b x afs A /\ Finish a d = Finish b d.
Proof.
  intros (b & us & ir & fs & c & iv & -> & H & Hctx & Hok & H0 & Hfs & Hne & <- & Hlo & Hiv & Hv & _).
  exists b. split; [exists (rev (map f_l ir)), c, ir, fs; done|]. destruct Hctx as [Huf Hhs]. destruct (dyn_ids0 _ _ _ _ _ _ H) as (Hnd & _).
  unfold Finish. change (b_hash (set_unit b us)) with (b_hash b). pose proof (hash_ne _ _ _ _ _ _ H) as Hh. destruct (b_hash b) as [|h0 hh] eqn:Eh; [done|]. cbn [mbind res_bind].
  rewrite (fix_same b us x ir fs c A 0); [done|done|done| |done|done|done|].
  - apply Forall_app in Hhs. apply Hhs.
  - apply NoDup_cons in Hnd as [Hnd _]. intros Hin. apply Hnd. rewrite map_app. apply elem_of_app. by left.
Qed.

(** The rest of the key is added. *)
Lemma add_from b x F ss A key len pos l r : dyn b x F (sid ss) (lay_sibs ss) A -> N.of_nat (S (A + S (length r))) <= 1073741824 -> ctx b x F ->
  chainok (x_ts x) ss -> Forall (fun s => s_l s < l) ss -> Forall (fun l => l < 256) (l :: r) -> (forall j z, (l :: r) !! j = Some z -> key_label key len (pos + Z.of_nat j) = Ok z) ->
  exists b' new, map f_l new = rev (l :: r) /\ insert_add (S (length r)) b key len (lastu F) pos = Ok (lastu (new ++ F), b') /\
    dyn b' x (new ++ F) 0 [] (A + S (length r)) /\ ctx b' x (new ++ F) /\ Forall (fok (x_ts x)) new.
Proof.
  intros H Hsz Hctx Hch Hlt Hb Hkey. pose proof (dyn_ids _ _ _ _ _ H) as Hss0. apply Forall_cons in Hb as [Hl Hb].
  destruct (add_step b x F ss A key len l pos (length r) H ltac:(lia) Hss0) as (b' & u & H' & Hctx' & Hi & Hr); [|done|].
  { specialize (Hkey 0%nat l eq_refl). by rewrite Z.add_0_r in Hkey. }
  destruct (add_any r b' x (mkFr u l false ss :: F) (S A) key len (pos + 1)%Z H') as (b'' & new & Hn & Hr' & H'' & Hctx'' & Hok & _); [lia|done|done| |].
  - intros j z Hj. specialize (Hkey (S j) z Hj). rewrite <- Hkey. f_equal. lia.
  - exists b'', (new ++ [mkFr u l false ss]). rewrite <- app_assoc. cbn [app]. split; [rewrite map_app, Hn; done|]. rewrite Hr. cbn [lastu f_u] in Hr'. rewrite Hr'.
    split; [done|]. replace (A + S (length r))%nat with (S A + length r)%nat by lia. split; [done|]. split; [done|].
    apply Forall_app. split; [done|]. apply Forall_cons. split; [|constructor]. done.
Qed.
Lemma vlink_new us us0 new : forall vis F c cv, vlink us0 (new ++ F) c -> (forall i, i ∈ map f_u new -> us !! N.to_nat i = us0 !! N.to_nat i) ->
  vlink us vis cv -> match new with [] => False | _ => u_child (lastmk vis cv) = f_u (List.last new (mkFr 0 0 false [])) end -> vlink us (new ++ vis) c.
Proof.
  induction new as [|f new IH]; intros vis F c cv H0 He Hv Hc; [done|]. cbn [app vlink lastu lastmk map] in *. destruct H0 as [H1 H0]. split; [rewrite He by left; done|].
  destruct new as [|f' new].
  - cbn [app List.last] in *. assert (cv = f_u f) as <-; [|done]. rewrite <- Hc. by destruct vis.
  - apply (IH vis F (f_u f) cv); [done| |done|done]. intros i Hi. apply He. by right.
Qed.
Lemma vlink_under us new F c : vlink us (new ++ F) c -> new <> [] -> us !! N.to_nat (lastu F) = Some (lastmk F (f_u (List.last new (mkFr 0 0 false [])))).
Proof.
  revert c. induction new as [|f new IH]; intros c H Hne; [done|]. cbn [app] in H. apply vlink_tl in H. destruct new as [|f' new].
  - cbn [app List.last] in *. by apply vlink_hd.
  - by apply (IH _ H).
Qed.
Lemma add_lst b us x ir fs ss iv A key val pos l r : dyn b x (ir ++ fs) (sid ss) (lay_sibs ss) A -> N.of_nat (S (A + S (length r))) <= 1073741824 -> ctx b x (ir ++ fs) ->
  Forall (fok (x_ts x)) ir -> fsok (x_ts x) fs true -> fs <> [] -> chainok (x_ts x) ss -> Forall (fun s => s_l s < l) ss ->
  loose (map f_u (ir ++ take 1 fs)) us (b_unit b) -> iv `sublist_of` ir -> vlink us (iv ++ fs) (sid ss) ->
  Forall (fun l => l < 256) (l :: r) -> last (l :: r) = Some 0 ->
  (forall j z, (l :: r) !! j = Some z -> key_label key (Z.of_nat (length key)) (pos + Z.of_nat j) = Ok z) ->
  exists a', ('(index, b) ← insert_add (S (length r)) (set_unit b us) key (Z.of_nat (length key)) (lastu (iv ++ fs)) pos;
      us ← upd (b_unit b) index (fun u => du_set_child u (u32_of_i32 val)); Ok (true, set_unit b us)) = Ok (true, a') /\
    lst a' x (map alpha fs) (rev (map f_l iv) ++ l :: r) (u32_of_i32 val) (A + S (length r)).
Proof.
  intros H Hsz Hctx Hok Hfs Hne Hch Hlt Hlo Hiv Hv Hb Hlast Hkey.
  destruct (add_from b x (ir ++ fs) ss A key (Z.of_nat (length key)) pos l r H Hsz Hctx Hch Hlt Hb Hkey) as (b' & new & Hnew & Hr & H' & Hctx' & Hokn).
  destruct (dyn_ids0 _ _ _ _ _ _ H) as (Hnd & Hndu & Hg & Hl). destruct (dyn_ids0 _ _ _ _ _ _ H') as (Hnd' & _).
  pose proof (mem_agrees _ _ _ _ (dy_agrees _ _ _ _ _ _ H) (layout_hd _ _ _)) as Hu0. pose proof (vlink_hd _ _ _ Hv) as Hu1.
  assert (HI : forall k, k ∈ map f_u (ir ++ take 1 fs) -> k ∈ 0 :: map f_u (ir ++ fs)).
  { intros k Hk. right. rewrite map_app in *. apply elem_of_app in Hk as [Hk|Hk]; apply elem_of_app; [by left|right]. destruct fs; [done|]. cbn [take map] in *. rewrite take_0 in Hk. apply elem_of_list_singleton in Hk as ->. left. }
  assert (Hi0 : lastu (ir ++ fs) ∈ map f_u (ir ++ take 1 fs)).
  { destruct ir; [|left]. destruct fs; [done|]. left. }
  assert (Hi1 : lastu (iv ++ fs) ∈ map f_u (ir ++ take 1 fs)).
  { rewrite map_app. apply elem_of_app. destruct iv as [|f iv]; [right; destruct fs; [done|left]|left]. eapply sub_in; [exact Hiv|left]. }
  destruct (add_other (length r) b us key (Z.of_nat (length key)) (lastu (ir ++ fs)) (lastu (iv ++ fs)) pos _ b' _ (0 :: map f_u (ir ++ fs)) _ _ Hr Hlo Hg HI (HI _ Hi0) (HI _ Hi1) Hndu ltac:(unfold two32; lia) Hu0 Hu1)
    as (us' & m & Hr' & Hlo' & Hm0 & Hm1 & Hsame).
  { destruct (iv ++ fs), (ir ++ fs); done. }
  rewrite Hr'. cbn [mbind res_bind set_unit b_unit].
  rewrite last_cons in Hlast. cbn [rev] in Hnew.
  assert (Hnz : exists z new', new = z :: new' /\ f_l z = 0).
  { destruct new as [|z new']; [destruct (rev r); done|]. exists z, new'. split; [done|]. destruct (rev r) as [|z0 r0] eqn:Er.
    - cbn [app map] in Hnew. apply (f_equal (@rev N)) in Er. rewrite rev_involutive in Er. subst r. cbn in Hlast. injection Hlast as <-. by injection Hnew as ->.
    - cbn [app map] in Hnew. apply (f_equal (@rev N)) in Er. rewrite rev_involutive in Er. cbn [rev] in Er. rewrite Er, last_snoc in Hlast. injection Hlast as ->. by injection Hnew as ->. }
  destruct Hnz as (z & new' & -> & Hz). set (new := z :: new') in *.
  assert (Hlo2 : loose (map f_u (tail (new ++ ir ++ take 1 fs))) us' (b_unit b')).
  { eapply loose_mono; [|exact Hlo']. cbn [app tail new]. intros i Hi. rewrite map_app. apply elem_of_app. right. apply elem_of_cons in Hi as [->|Hi]; [done|]. by apply elem_of_cons in Hi as [->|Hi]. }
  assert (Hnewout : forall i, i ∈ map f_u new -> i ∉ 0 :: map f_u (ir ++ fs)).
  { intros i Hi Hj. apply NoDup_cons in Hnd' as [Hnd0 Hnd']. rewrite map_app in Hnd0, Hnd'. apply elem_of_cons in Hj as [->|Hj]; [apply Hnd0, elem_of_app; by left|]. apply NoDup_app in Hnd' as (_ & Hnd' & _). by apply (Hnd' i). }
  assert (Hnews : forall i, i ∈ map f_u new -> us' !! N.to_nat i = b_unit b' !! N.to_nat i).
  { intros i Hi. apply Hnewout in Hi. destruct Hlo' as (_ & _ & Heq). apply Heq. intros Hj. apply Hi. apply elem_of_cons in Hj as [->|Hj]; [by apply HI|]. apply elem_of_cons in Hj as [->|Hj]; by apply HI. }
  pose proof (dyn_vlink _ _ _ _ _ H') as Hvb. pose proof (vlink_under _ _ _ _ Hvb ltac:(done)) as Hund. rewrite Hm0, lastmk_set in Hund.
  assert (m = f_u (List.last new (mkFr 0 0 false []))) as Hm by (destruct (ir ++ fs); by injection Hund).
  assert (Hsub : forall i, i ∈ 0 :: map f_u (iv ++ fs) -> i ∈ 0 :: map f_u (ir ++ fs)).
  { intros i Hi. apply elem_of_cons in Hi as [->|Hi]; [left|right]. rewrite map_app in *. apply elem_of_app in Hi as [Hi|Hi]; apply elem_of_app; [left; by eapply sub_in|by right]. }
  assert (Hvis : vlink us' (iv ++ fs) m).
  { eapply vlink_child; [exact Hv|by rewrite Hm1, lastmk_set| |by eapply sub_nodup]. intros i Hi Hne'. apply Hsame; [by apply Hsub|done]. }
  assert (Hvis2 : vlink us' (new ++ iv ++ fs) 0).
  { eapply vlink_new; [exact Hvb|exact Hnews|exact Hvis|]. cbn [new]. rewrite <- Hm. by destruct (iv ++ fs). }
  cbn [app lastu new] in *. destruct (set_value _ _ _ _ _ _ (u32_of_i32 val) H' Hctx') as (us0' & Hus0 & H3 & Hctx3).
  assert (HzI : f_u z ∉ map f_u (tail (new ++ ir ++ take 1 fs))).
  { cbn [new app tail]. intros Hin. apply NoDup_cons in Hnd' as [_ Hnd']. cbn [map] in Hnd'. apply NoDup_cons in Hnd' as [Hnd' _]. apply Hnd'. rewrite map_app in Hin. rewrite map_app. apply elem_of_app in Hin as [Hin|Hin]; apply elem_of_app; [by left|right].
    apply HI in Hin. apply elem_of_cons in Hin as [E|Hin]; [|done]. exfalso. apply (Hnewout (f_u z)); [left|]. rewrite E. left. }
  destruct (upd_loose _ _ _ (f_u z) _ _ Hlo2 HzI Hus0) as (us2 & Hus2 & Hlo3 & Hsame2). rewrite Hus2. cbn [mbind res_bind].
  eexists. split; [done|]. exists (set_unit b' us0'), us2, (new ++ ir), fs, (u32_of_i32 val), (new ++ iv). split; [by rewrite !set_unit_twice|].
  rewrite <- !app_assoc. split; [exact H3|]. split; [exact Hctx3|]. split; [by apply Forall_app|]. split; [exact Hz|]. split; [done|]. split; [done|]. split; [done|]. split; [exact Hlo3|].
  split; [by apply sublist_app|]. split.
  - eapply vlink_child; [exact Hvis2| | |].
    + cbn [app new lastu lastmk]. pose proof (vlink_hd _ _ _ Hvis2) as Hz2. cbn [app new lastu lastmk] in Hz2. unfold upd, get in Hus2. rewrite Hz2 in Hus2. cbn [mbind res_bind] in Hus2. rewrite (set_N _ _ _ _ Hz2) in Hus2. injection Hus2 as <-.
      rewrite list_lookup_insert by (by apply lookup_lt_Some in Hz2). done.
    + cbn [app new lastu]. intros i _ Hi. by apply Hsame2.
    + rewrite app_assoc. eapply (sub_nodup (new ++ iv) (new ++ ir) fs); [by apply sublist_app|]. by rewrite <- app_assoc.
  - rewrite map_app, rev_app_distr. f_equal. transitivity (rev (rev r ++ [l])); [by f_equal|]. rewrite rev_app_distr, rev_involutive. done.
Qed.
Lemma loose_swap I us us0 t u v : loose I us us0 -> us0 !! N.to_nat t = Some u -> loose (t :: I) us (<[N.to_nat t := du_set_child u v]> us0).
Proof.
  intros (Hlen & Hup & Heq) Hu. split; [by rewrite insert_length|]. split.
  - intros j z Hj. destruct (decide (j = t)) as [->|Hne].
    + rewrite list_lookup_insert in Hj by (by apply lookup_lt_Some in Hu). injection Hj as <-. destruct (Hup _ _ Hu) as [ch Hc]. exists ch. by rewrite set_child_twice.
    + rewrite list_lookup_insert_ne in Hj by lia. by apply Hup.
  - intros j Hj. rewrite not_elem_of_cons in Hj. destruct Hj as [Hj1 Hj2]. rewrite list_lookup_insert_ne by lia. by apply Heq.
Qed.
(** The last key, of value 0, is a beginning of this one. *)
Lemma lst_longer a x afs w A key val l r : lst a x afs w 0 A -> key ++ [0] = (pathof afs ++ w) ++ l :: r -> N.of_nat (S (A + S (length r))) <= 1073741824 -> Forall (fun c => c < 256) key ->
  exists a', InsertStringValue a key val = Ok (true, a') /\ lst a' x afs (w ++ l :: r) (u32_of_i32 val) (A + S (length r)).
Proof.
  intros (b & us & ir & fs & c & iv & -> & H & Hctx & Hok & H0 & Hfs & Hne & <- & Hlo & Hiv & Hv & <-) Hk Hsz Hb. rewrite pathof_alpha, <- rev_app_distr, <- map_app in Hk.
  destruct (dyn_ids0 _ _ _ _ _ _ H) as (Hnd & _ & _ & _). pose proof (sub_nodup _ _ _ Hiv Hnd) as Hnd'.
  unfold InsertStringValue, InsertKeyValue. change (b_hash (set_unit b us)) with (b_hash b). pose proof (hash_ne _ _ _ _ _ _ H) as Hh. destruct (b_hash b) as [|h0 hh] eqn:Eh; [done|]. cbn [mbind res_bind].
  rewrite (reach (set_unit b us) (iv ++ fs) 0 _ key (l :: r) Hv Hnd' eq_refl Hk). cbn [length insert_find]. change (b_unit (set_unit b us)) with us.
  rewrite (get_N _ _ _ (vlink_hd _ _ _ Hv)). cbn [mbind res_bind]. assert (u_child (lastmk (iv ++ fs) 0) = 0) as -> by (by destruct (iv ++ fs)). cbn [N.eqb mbind res_bind].
  set (p := rev (map f_l (iv ++ fs))) in *.
  replace (Z.to_nat (Z.of_nat (length key) + 1 - Z.of_nat (length p))) with (S (length r)) by (apply (f_equal length) in Hk; rewrite !app_length in Hk; cbn [length] in Hk; lia).
  destruct ir as [|t ir']; [done|]. cbn [app tail] in *.
  destruct (set_value _ _ _ _ _ _ 0 H Hctx) as (us0' & Hus0 & H1 & Hctx1).
  pose proof (mem_agrees _ _ _ _ (dy_agrees _ _ _ _ _ _ H) (layout_hd _ _ _)) as Hu. cbn [lastu lastmk] in Hu.
  assert (Hall : Forall (fun c => c < 256) (l :: r)).
  { assert (Hb' : Forall (fun c => c < 256) (key ++ [0])) by (apply Forall_app; split; [done|by repeat constructor]). rewrite Hk in Hb'. by apply Forall_app in Hb' as [_ ?]. }
  assert (Hlast : last (l :: r) = Some 0).
  { apply (f_equal last) in Hk. rewrite last_snoc, last_app in Hk. rewrite last_cons in *. by destruct (last r). }
  destruct (add_lst (set_unit b us0') us x (t :: ir') fs [] iv A key val (Z.of_nat (length p)) l r) as (a' & Ha & Hl); [exact H1|done|exact Hctx1|done|done|done| | | |done|exact Hv|exact Hall|exact Hlast| |].
  - split; constructor.
  - constructor.
  - cbn [set_unit b_unit app map]. rewrite (upd_N _ _ _ _ Hu) in Hus0. injection Hus0 as <-. by apply loose_swap.
  - intros j z Hj. rewrite <- Nat2Z.inj_add. apply lab_of. rewrite Hk, lookup_app_r by lia. by replace (length p + j - length p)%nat with j by lia.
  - rewrite set_unit_twice in Ha. exists a'. done.
Qed.
(** The key leaves the path after the zero byte. *)
Lemma lst_in a x afs cv A key val p l q l' r : lst a x afs (p ++ l :: q) cv A -> key ++ [0] = (pathof afs ++ p) ++ l' :: r -> l < l' -> N.of_nat (S (A + S (length r))) <= 1073741824 -> Forall (fun c => c < 256) key ->
  exists a' x', InsertStringValue a key val = Ok (true, a') /\ lst a' x' afs (p ++ l' :: r) (u32_of_i32 val) (A + S (length r)).
Proof.
  intros (b & us & ir & fs & c & iv & -> & H & Hctx & Hok & H0 & Hfs & Hne & <- & Hlo & Hiv & Hv & Hw) Hk Hl Hsz Hb. rewrite pathof_alpha in Hk.
  destruct (dyn_ids0 _ _ _ _ _ _ H) as (Hnd & _ & _ & _).
  destruct (frames_split _ _ _ _ Hw) as (inner & g & g1 & -> & Hg1 & Hg & _). set (iv1 := rev g1) in *.
  assert (Hp : rev (map f_l iv1) = p) by (unfold iv1; by rewrite <- map_rev, rev_involutive).
  rewrite <- app_assoc in Hv. cbn [app] in Hv. destruct (vlink_split _ _ _ _ _ Hv) as [Hv1 [c' Hgu]].
  apply sublist_app_l in Hiv as (k1 & k2 & -> & _ & Hiv). apply sublist_cons_l in Hiv as (k3 & irB & -> & Hiv). rewrite app_assoc in *. set (irA := k1 ++ k3) in *. clearbody irA. clear k1 k3.
  rewrite <- app_assoc in Hnd, H, Hctx. cbn [app] in Hnd, H, Hctx. destruct (nodup_ne _ _ _ Hnd) as [Hgz HgF]. destruct Hctx as [Huf Hhs].
  assert (Hnd1 : NoDup (0 :: map f_u (iv1 ++ fs))).
  { eapply sub_nodup; [exact Hiv|]. change (g :: irB ++ fs) with ([g] ++ irB ++ fs) in Hnd. rewrite app_assoc in Hnd. by eapply nodup_tail. }
  unfold InsertStringValue, InsertKeyValue. change (b_hash (set_unit b us)) with (b_hash b). pose proof (hash_ne _ _ _ _ _ _ H) as Hh. destruct (b_hash b) as [|h0 hh] eqn:Eh; [done|]. cbn [mbind res_bind].
  rewrite (reach (set_unit b us) (iv1 ++ fs) (f_u g) (rev (map f_l fs) ++ p) key (l' :: r) Hv1 Hnd1); [|by rewrite map_app, rev_app_distr, Hp|exact Hk].
  set (P := rev (map f_l fs) ++ p) in *. cbn [length insert_find]. change (b_unit (set_unit b us)) with us. rewrite (get_N _ _ _ (vlink_hd _ _ _ Hv1)). cbn [mbind res_bind].
  assert (u_child (lastmk (iv1 ++ fs) (f_u g)) = f_u g) as -> by (by destruct (iv1 ++ fs)). destruct (N.eqb_spec (f_u g) 0); [done|].
  rewrite (lab_of key (length P) l') by (rewrite Hk, lookup_app_r, Nat.sub_diag by lia; done). cbn [mbind res_bind].
  rewrite (get_N _ _ _ Hgu). cbn [mbind res_bind fmk u_label]. rewrite Hg. destruct (N.ltb_spec l' l) as [Hx|_]; [lia|]. destruct (N.ltb_spec l l') as [_|Hx]; [|lia].
  destruct (dyn_seths _ _ _ _ _ _ _ _ H) as (us0' & Hus0 & H').
  destruct (upd_hs_loose _ _ _ _ _ Hlo Hus0) as (ug & us' & Hug & Hus' & -> & Hlo'). cbn [mbind res_bind]. rewrite set_unit_twice, <- (set_unit_twice b us0' us').
  assert (HEq : (irA ++ (seths g true :: irB ++ take 1 fs) ++ drop 1 fs) = irA ++ seths g true :: irB ++ fs).
  { cbn [app]. by rewrite <- app_assoc, take_drop1. }
  apply Forall_app in Hhs as [HhsA Hhs]. apply Forall_cons in Hhs as [_ HhsF]. apply Forall_app in Hok as [HokA Hok]. apply Forall_cons in Hok as [Hokg HokB].
  destruct (close_loose irA (set_unit b us0') us' x c (Leaf (c mod 2147483648)) (seths g true :: irB ++ take 1 fs) (drop 1 fs) A) as
    (b1 & us1 & c1 & x1 & s1 & Hfix & H1 & Hlo1 & Hsame1 & Hfe1 & Hwf1 & [e1 He1] & Hl1 & Huf1 & Hi1).
  { by rewrite HEq. }
  { replace (map f_u (tail (irA ++ seths g true :: irB ++ take 1 fs))) with (map f_u (tail ((irA ++ g :: irB) ++ take 1 fs))); [done|].
    clear. destruct irA; cbn [app tail map]; [done|]. rewrite <- app_assoc, !map_app. cbn [app map seths f_u]. by rewrite !map_app. }
  { done. } { done. } { done. } { constructor. apply N.mod_lt. lia. } { destruct irA; [done|]. intros _. exact H0. }
  { rewrite HEq. cbn [set_unit b_unfixed]. rewrite Huf, !map_app. done. }
  assert (HgA : f_u g ∉ map f_u irA).
  { intros Hin. apply NoDup_cons in Hnd as [_ Hnd]. rewrite map_app in Hnd. apply NoDup_app in Hnd as (_ & Hnd & _). apply (Hnd (f_u g)); [done|left]. }
  destruct (Hfix (f_u g) HgA) as [_ ->]. clear Hfix. rewrite <- app_comm_cons, <- app_assoc, take_drop1 in Huf1, H1, Hsame1. cbn [tail map seths f_u app] in Huf1, Hlo1. cbn [lastu seths f_u] in Hsame1.
  unfold fixUnits. cbn [set_unit b_unfixed]. rewrite Huf1. cbn [fixUnits_loop]. rewrite N.eqb_refl. cbn [mbind res_bind].
  set (b2 := set_unfixed b1 (map f_u (irB ++ fs) ++ [0])).
  change (set_unfixed (set_unit b1 us1) (map f_u (irB ++ fs) ++ [0])) with (set_unit b2 us1).
  set (s' := if f_l g =? 0 then Leaf (c1 mod 2147483648) else s1). set (ss := mkSib (f_u g) c1 (f_l g) s' :: f_sibs g).
  assert (H2 : dyn b2 x1 (irB ++ fs) (sid ss) (lay_sibs ss) A).
  { destruct H1 as [F Hag'' Hperm Hpool Hcnt Hs]. rewrite layout_cons, app_nil_r in *. cbn [seths f_u f_sibs] in *.
    assert (Hpm : (f_u g, fmk (seths g true) c1) :: layout (irB ++ fs) (f_u g) (lay_sibs (f_sibs g)) ≡ₚ layout (irB ++ fs) (sid ss) (lay_sibs ss)).
    { unfold layout, ss. cbn [sid lay_sibs s_id s_c s_l]. rewrite <- !Permutation_middle. apply Permutation_swap. }
    split; try done.
    - destruct F. by split.
    - unfold agrees in *. by rewrite <- Hpm.
    - by rewrite <- Hpm.
    - rewrite <- Hcnt. f_equal. apply Permutation_length. by symmetry. }
  assert (Hs' : fenc (x_ts x1) s' c1 /\ wf s' /\ (f_l g = 0 <-> is_leaf s' = true)).
  { unfold s'. destruct (N.eqb_spec (f_l g) 0) as [E0|E0].
    - split; [done|]. split; [constructor; apply N.mod_lt; lia|done].
    - split; [done|]. split; [done|]. split; [done|]. rewrite Hl1. destruct irA; [|done]. intros _. exact H0. }
  destruct Hs' as (Hfe & Hwf & Hlf).
  assert (Hall : Forall (fun c => c < 256) (l' :: r)).
  { assert (Hb' : Forall (fun c => c < 256) (key ++ [0])) by (apply Forall_app; split; [done|by repeat constructor]). rewrite Hk in Hb'. by apply Forall_app in Hb' as [_ ?]. }
  assert (Hlast : last (l' :: r) = Some 0).
  { apply (f_equal last) in Hk. rewrite last_snoc, last_app in Hk. rewrite last_cons in *. by destruct (last r). }
  replace (Z.to_nat (Z.of_nat (length key) + 1 - Z.of_nat (length P))) with (S (length r)) by (apply (f_equal length) in Hk; rewrite !app_length in Hk; cbn [length] in Hk; lia).
  destruct (add_lst b2 us1 x1 irB fs ss iv1 A key val (Z.of_nat (length P)) l' r H2 Hsz) as (a' & Ha & Hlst).
  - split; [done|done].
  - rewrite He1. eapply Forall_impl; [exact HokB|]. intros f Hf. by apply fok_mono.
  - rewrite He1. by apply fsok_mono.
  - done.
  - rewrite He1 in *. destruct Hokg as ((B1 & B2) & B3 & B4). split.
    + apply Forall_cons. split; [done|]. eapply Forall_impl; [exact B1|]. intros z (Z1 & Z2). split; [by apply fenc_mono|done].
    + constructor; [done|]. done.
  - destruct Hokg as (_ & B3 & _). apply Forall_cons. split; [cbn; lia|]. eapply Forall_impl; [exact B3|]. intros z Hz. cbn in *. lia.
  - exact Hlo1.
  - exact Hiv.
  - cbn [ss sid s_id]. eapply vlink_ext; [exact Hv1|]. intros i Hi.
    assert (Hi' : i ∈ 0 :: map f_u (irB ++ fs)).
    { apply elem_of_cons in Hi as [->|Hi]; [left|right]. rewrite map_app in *. apply elem_of_app in Hi as [Hi|Hi]; apply elem_of_app; [left; by eapply sub_in|by right]. }
    assert (Hig : i <> f_u g) by (by apply HgF).
    rewrite Hsame1; [rewrite Hus'; apply list_lookup_insert_ne; lia| |done].
    intros Hin. rewrite map_app in Hnd. apply elem_of_cons in Hi' as [->|Hi'].
    + apply NoDup_cons in Hnd as [Hnd _]. apply Hnd, elem_of_app. by left.
    + apply NoDup_cons in Hnd as [_ Hnd]. apply NoDup_app in Hnd as (_ & Hnd & _). apply (Hnd i); [done|]. by right.
  - exact Hall.
  - exact Hlast.
  - intros j z Hj. rewrite <- Nat2Z.inj_add. apply lab_of. rewrite Hk, lookup_app_r by lia. by replace (length P + j - length P)%nat with j by lia.
  - exists a', x1. rewrite Hp in Hlst. split; [exact Ha|exact Hlst].
Qed.
