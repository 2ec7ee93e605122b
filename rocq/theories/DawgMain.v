(** The abstract builder, and the refinement theorem for InsertKeyValue and Finish. *)
From Verif Require Import Go BitPool BitPoolProofs LinkTable LinkTableProofs Probe Dawg Tree DawgRep DawgFrozen DawgFix DawgTrie DawgInsert.
Local Open Scope N_scope.
Local Ltac Zify.zify_post_hook ::= Z.div_mod_to_equations.
Local Arguments N.mul : simpl never.
Local Arguments N.add : simpl never.
Local Arguments N.of_nat : simpl never.

(** Abstract path: label and closed older siblings of each level, innermost first. *)
Notation apath := (list (N * list (N * sub))).
Definition aopen (p : N * edges) (s : sub) : edges := p.2 ++ [(p.1, s)].
Fixpoint aaclose (x : fixedst) (fs : apath) (s : sub) : fixedst * sub :=
  match fs with
  | [] => (x, s)
  | f :: fs' => aaclose (afix x (aopen f s)) fs' (Node (aopen f s))
  end.
Definition alpha (f : frame) : N * edges := (f_l f, fes f).
Lemma aclose_alpha fs : forall x s, aclose x fs s = aaclose x (map alpha fs) s.
Proof. induction fs as [|f fs IH]; intros x s; cbn [aclose map aaclose]; [done|]. apply IH. Qed.

(** Well-formed abstract paths. *)
Record brep_st (b : builder) (x : fixedst) (afs : apath) (v : N) (A : nat) : Prop := mkRep {
  br_ex : exists fs c, dyn b x fs c [] A /\ ctx b x fs /\ fsok (x_ts x) fs true /\ fs <> [] /\
     c mod 2147483648 = v /\ map alpha fs = afs }.

Definition pathof (afs : apath) : list N := rev afs.*1.
Lemma pathof_alpha fs : pathof (map alpha fs) = rev (map f_l fs).
Proof. unfold pathof. f_equal. induction fs as [|f fs IH]; cbn; [done|]. by rewrite IH. Qed.

Lemma set_value b x f fs c A v : dyn b x (f :: fs) c [] A -> ctx b x (f :: fs) ->
  exists us, upd (b_unit b) (f_u f) (fun u => du_set_child u v) = Ok us /\
    dyn (set_unit b us) x (f :: fs) v [] A /\ ctx (set_unit b us) x (f :: fs).
Proof.
  intros H Hctx. pose proof (dyn_nodup _ _ _ _ _ _ H) as Hnd. destruct H as [F Hag Hperm Hpool Hcnt Hs].
  pose proof (mem_agrees _ _ _ _ Hag (layout_hd (f :: fs) c [])) as Hu. cbn [lastu lastmk] in Hu.
  eexists. split; [by apply upd_N|]. split; [|done]. split; cbn [set_unit b_unit b_unused].
  - destruct F. by split.
  - rewrite layout_cons in *. apply Forall_cons in Hag as [_ Hag]. apply Forall_cons. cbn [fst snd]. split.
    + by rewrite list_lookup_insert by (by apply lookup_lt_Some in Hu).
    + apply agrees_insert; [done|]. cbn [fmap list_fmap fst app] in Hnd. apply NoDup_cons in Hnd as [Hnd _].
      intros Hin. apply Hnd. apply elem_of_app. by left.
  - rewrite insert_length, <- Hperm. rewrite !layout_cons. done.
  - by rewrite insert_length.
  - rewrite layout_cons in *. done.
  - done.
Qed.

(** The bytes seen by InsertKeyValue(key, length, ·). *)
Definition keyof (key : list N) (len : nat) : list N := take len key.
Lemma key_labels key len j l : (len <= length key)%nat -> (keyof key len ++ [0]) !! j = Some l ->
  key_label key (Z.of_nat len) (Z.of_nat j) = Ok l.
Proof.
  intros Hlen Hj. unfold key_label, keyof in *. destruct (Z.ltb_spec (Z.of_nat j) (Z.of_nat len)).
  - rewrite lookup_app_l in Hj by (rewrite take_length; lia). rewrite lookup_take in Hj by lia.
    by rewrite Nat2Z.id, Hj.
  - apply lookup_app_Some in Hj as [Hj|[Hge Hj]].
    + apply lookup_lt_Some in Hj. rewrite take_length in Hj. lia.
    + by apply list_lookup_singleton_Some in Hj as [_ ->].
Qed.

Definition zfree (k : list N) : Prop := Forall (fun l => 0 < l < 256) k.

(** Frames pushed for a remaining key, abstractly. *)
Definition apush (l : N) (es : edges) (r : list N) (afs : apath) : apath :=
  rev (map (fun l' => (l', [])) r) ++ (l, es) :: afs.
Lemma push_alpha ls : forall fs us, length us = length ls ->
  map alpha (push fs [] ls us) = rev (map (fun l' => (l', [])) ls) ++ map alpha fs.
Proof.
  induction ls as [|l ls IH]; intros fs [|u us] Hl; try done.
  cbn [push]. cbn [length] in Hl. rewrite IH by lia. cbn [map rev]. rewrite <- app_assoc. done.
Qed.
Lemma push_alpha1 l ls fs ss us : length us = S (length ls) ->
  map alpha (push fs ss (l :: ls) us) = apush l (rev (map sedge ss)) ls (map alpha fs).
Proof.
  destruct us as [|u us]; [done|]. cbn [length push]. intros Hl. rewrite push_alpha by lia. done.
Qed.

Definition val31 (v : Z) : N := u32_of_i32 v mod 2147483648.

(** The child of the innermost open unit, where the value is. *)
Definition rawc (b : builder) (c : N) : Prop := exists j rest u, b_unfixed b = j :: rest /\ b_unit b !! N.to_nat j = Some u /\ u_child u = c.
Lemma dyn_rawc b x f fs c A : dyn b x (f :: fs) c [] A -> ctx b x (f :: fs) -> rawc b c.
Proof.
  intros H [Hst _]. exists (f_u f), (map f_u fs ++ [0]), (lastmk (f :: fs) c). split; [exact Hst|]. split; [|done].
  exact (mem_agrees _ _ _ _ (dy_agrees _ _ _ _ _ _ H) (layout_hd (f :: fs) c [])).
Qed.
Lemma rawc_dyn b x f fs c c' A : dyn b x (f :: fs) c [] A -> ctx b x (f :: fs) -> rawc b c' -> c' = c.
Proof.
  intros H Hctx (j & rest & u & Hj & Hu & <-). destruct (dyn_rawc _ _ _ _ _ _ H Hctx) as (j' & rest' & u' & Hj' & Hu' & <-).
  rewrite Hj in Hj'. injection Hj' as <- _. rewrite Hu in Hu'. by injection Hu' as <-.
Qed.
Lemma insert_same_raw b x afs v A key len val :
  brep_st b x afs v A -> (len <= length key)%nat -> pathof afs = keyof key len ++ [0] ->
  exists b', InsertKeyValue b key (Z.of_nat len) val = Ok (true, b') /\ brep_st b' x afs (val31 val) A /\ b_init b' = b_init b /\ rawc b' (u32_of_i32 val).
Proof.
  intros [(fs & c & H & Hctx & Hok & Hne & Hc & <-)] Hlen Hp. rewrite pathof_alpha in Hp.
  pose proof (dyn_nodup _ _ _ _ _ _ H) as Hnd. apply NoDup_app in Hnd as [Hnd _]. pose proof (dy_agrees _ _ _ _ _ _ H) as Hag.
  assert (Hlk : length (keyof key len) = len) by (unfold keyof; rewrite take_length; lia).
  unfold InsertKeyValue. assert (b_hash b <> []) as Hh.
  { intros He. pose proof (ht_len _ _ _ _ (fr_hash _ _ (dy_fixed _ _ _ _ _ _ H))) as Hl. rewrite He in Hl. cbn in Hl. lia. }
  destruct (b_hash b) as [|h0 hh] eqn:Eh; [done|]. cbn [mbind res_bind].
  pose proof (find_skip (keyof key len ++ [0]) (rev fs) b [] [] c [] 0 key (Z.of_nat len) 0%Z) as Hskip.
  cbn [app] in Hskip. rewrite app_nil_r, rev_involutive in Hskip.
  rewrite app_length, Hlk in Hskip. cbn [length] in Hskip.
  replace (Z.to_nat (Z.of_nat len + 1)) with (len + 1 + 0)%nat by lia. cbn [lastu] in Hskip.
  rewrite Hskip; [|done|done| |].
  - cbn [insert_find mbind res_bind]. replace (Z.to_nat _) with 0%nat by lia. cbn [insert_add mbind res_bind].
    destruct fs as [|f fs]; [done|]. cbn [lastu].
    destruct (set_value _ _ _ _ _ _ (u32_of_i32 val) H Hctx) as (us & Hus & H' & Hctx'). rewrite Hus. cbn [mbind res_bind].
    eexists. split; [done|]. split; [|split; [done|by eapply dyn_rawc]]. split. exists (f :: fs), (u32_of_i32 val). done.
  - by rewrite map_rev.
  - intros j l Hj. rewrite Z.add_0_l. by apply key_labels.
Qed.
Lemma insert_same b x afs v A key len val :
  brep_st b x afs v A -> (len <= length key)%nat -> pathof afs = keyof key len ++ [0] ->
  exists b', InsertKeyValue b key (Z.of_nat len) val = Ok (true, b') /\ brep_st b' x afs (val31 val) A /\ b_init b' = b_init b.
Proof. intros H1 H2 H3. destruct (insert_same_raw b x afs v A key len val H1 H2 H3) as (b' & A1 & A2 & A3 & _). by exists b'. Qed.

(** Splitting a frame list at a position of its path. *)
Lemma frames_split fs p l q : rev (map f_l fs) = p ++ l :: q ->
  exists inner g g1, fs = inner ++ g :: rev g1 /\ map f_l g1 = p /\ f_l g = l /\ rev (map f_l inner) = q.
Proof.
  intros H. rewrite <- map_rev in H. apply map_eq_app in H as (g1 & r & Hr & Hg1 & Hr2).
  apply map_eq_cons in Hr2 as (g & r2 & -> & Hl & Hq).
  exists (rev r2), g, g1. split; [|split; [done|split; [done|]]].
  - rewrite <- (rev_involutive fs), Hr, rev_app_distr. cbn [rev]. by rewrite <- app_assoc.
  - rewrite map_rev, rev_involutive. done.
Qed.

Lemma hash_ne b x fs c L A : dyn b x fs c L A -> b_hash b <> [].
Proof.
  intros H He. pose proof (ht_len _ _ _ _ (fr_hash _ _ (dy_fixed _ _ _ _ _ _ H))) as Hl. rewrite He in Hl. cbn in Hl. lia.
Qed.

Lemma insert_lower b x afs v A key len val p l q l' r :
  brep_st b x afs v A -> (len <= length key)%nat -> pathof afs = p ++ l :: q ->
  keyof key len ++ [0] = p ++ l' :: r -> l' < l ->
  InsertKeyValue b key (Z.of_nat len) val = Ok (false, b).
Proof.
  intros [(fs & c & H & Hctx & Hok & Hne & Hc & <-)] Hlen Hp Hk Hl. rewrite pathof_alpha in Hp.
  pose proof (dyn_nodup _ _ _ _ _ _ H) as Hnd. apply NoDup_app in Hnd as [Hnd _]. pose proof (dy_agrees _ _ _ _ _ _ H) as Hag.
  assert (Hlk : length (keyof key len) = len) by (unfold keyof; rewrite take_length; lia).
  destruct (frames_split _ _ _ _ Hp) as (inner & g & g1 & -> & Hg1 & Hg & Hq).
  unfold InsertKeyValue. pose proof (hash_ne _ _ _ _ _ _ H) as Hh.
  destruct (b_hash b) as [|h0 hh] eqn:Eh; [done|]. cbn [mbind res_bind].
  assert (Hn : (len + 1 = length p + S (length r))%nat).
  { apply (f_equal length) in Hk. rewrite !app_length, Hlk in Hk. cbn [length] in Hk. lia. }
  replace (Z.to_nat (Z.of_nat len + 1)) with (length p + S (length r))%nat by lia.
  pose proof (find_skip p g1 b (inner ++ [g]) [] c [] (S (length r)) key (Z.of_nat len) 0%Z) as Hskip.
  rewrite app_nil_r, <- app_assoc in Hskip. cbn [app lastu] in Hskip. rewrite Hskip; [|done|done|done|].
  - rewrite (find_reject _ inner g (rev g1) c [] _ _ _ _ l'); [done|done|done| |lia].
    rewrite Z.add_0_l. apply key_labels; [done|]. rewrite Hk, lookup_app_r, Nat.sub_diag by lia. done.
  - intros j z Hj. rewrite Z.add_0_l. apply key_labels; [done|]. rewrite Hk. by apply lookup_app_l_Some.
Qed.

Lemma insert_higher_raw b x afs v A key len val p l q l' r :
  brep_st b x afs v A -> (len <= length key)%nat -> zfree (keyof key len) ->
  N.of_nat (S (A + S len)) <= 1073741824 ->
  pathof afs = p ++ l :: q -> keyof key len ++ [0] = p ++ l' :: r -> l < l' ->
  exists inner es outer, afs = inner ++ (l, es) :: outer /\ pathof outer = p /\ pathof inner = q /\
    let '(x', s') := aaclose x inner (Leaf v) in
    exists b', InsertKeyValue b key (Z.of_nat len) val = Ok (true, b') /\
      brep_st b' x' (apush l' (es ++ [(l, s')]) r outer) (val31 val) (A + S (length r)) /\ b_init b' = b_init b /\ rawc b' (u32_of_i32 val).
Proof.
  intros [(fs & c & H & Hctx & Hok & Hne & Hc & <-)] Hlen Hz Hsz Hp Hk Hl. rewrite pathof_alpha in Hp.
  pose proof (dyn_nodup _ _ _ _ _ _ H) as Hnd. apply NoDup_app in Hnd as [Hnd _]. pose proof (dy_agrees _ _ _ _ _ _ H) as Hag.
  assert (Hlk : length (keyof key len) = len) by (unfold keyof; rewrite take_length; lia).
  destruct (frames_split _ _ _ _ Hp) as (inner & g & g1 & -> & Hg1 & Hg & Hq).
  exists (map alpha inner), (fes g), (map alpha (rev g1)). split; [rewrite map_app; cbn [map alpha]; by rewrite <- Hg|].
  split; [by rewrite pathof_alpha, map_rev, rev_involutive|]. split; [by rewrite pathof_alpha|].
  rewrite <- aclose_alpha. destruct (aclose x inner (Leaf v)) as [x' s'] eqn:Ecl.
  unfold InsertKeyValue. pose proof (hash_ne _ _ _ _ _ _ H) as Hh.
  destruct (b_hash b) as [|h0 hh] eqn:Eh; [done|]. cbn [mbind res_bind].
  assert (Hn : (len + 1 = length p + S (length r))%nat).
  { apply (f_equal length) in Hk. rewrite !app_length, Hlk in Hk. cbn [length] in Hk. lia. }
  replace (Z.to_nat (Z.of_nat len + 1)) with (length p + S (length r))%nat by lia.
  pose proof (find_skip p g1 b (inner ++ [g]) [] c [] (S (length r)) key (Z.of_nat len) 0%Z) as Hskip.
  rewrite app_nil_r, <- app_assoc in Hskip. cbn [app lastu] in Hskip. rewrite Hskip; [|done|done|done|].
  2:{ intros j z Hj. rewrite Z.add_0_l. apply key_labels; [done|]. rewrite Hk. by apply lookup_app_l_Some. }
  destruct (find_close b x inner g (rev g1) c A (length r) key (Z.of_nat len) (0 + Z.of_nat (length p))%Z l' (Leaf v)) as
     (b' & c' & Hr & H' & Hctx' & Hch & Hok' & Hlt & Hi); try done.
  { cbn. constructor. subst v. apply N.mod_lt. lia. }
  { rewrite Z.add_0_l. apply key_labels; [done|]. rewrite Hk, lookup_app_r, Nat.sub_diag by lia. done. }
  { lia. }
  rewrite Ecl in *. cbn [fst snd] in *. rewrite Hr. cbn [mbind res_bind].
  replace (Z.to_nat (Z.of_nat len + 1 - (0 + Z.of_nat (length p)))) with (S (length r)) by lia.
  set (ss := mkSib (f_u g) c' (f_l g) s' :: f_sibs g) in *.
  (* the remaining labels *)
  assert (Hkr : exists ks, l' :: r = ks ++ [0] /\ Forall (fun l => 0 < l < 256) ks /\ ks <> []).
  { destruct (exists_last (l := l' :: r)) as (ks & z & Hks); [done|]. exists ks.
    rewrite Hks in Hk. rewrite app_assoc in Hk. apply app_inj_tail in Hk as [Hk <-]. split; [done|]. split.
    - unfold zfree in Hz. rewrite Hk in Hz. by apply Forall_app in Hz as [_ ?].
    - intros ->. injection Hks as -> ->. lia. }
  destruct Hkr as (ks & Hks & Hksz & Hksne).
  assert (Hlr : length r = length ks).
  { apply (f_equal length) in Hks. rewrite app_length in Hks. cbn [length] in Hks. lia. }
  destruct (add_loop ks b' x' (rev g1) ss A key (Z.of_nat len) (0 + Z.of_nat (length p))%Z) as
    (b'' & us & Hus & Hr' & H'' & Hctx'' & Hok'' & Hne'' & Hi'');
    [exact H'|lia|exact Hctx'|exact Hch|exact Hok'|exact Hksz| | |].
  { destruct ks as [|k0 ks]; [done|]. injection Hks as <- _. done. }
  { intros j z Hj. rewrite <- Hks in Hj. rewrite Z.add_0_l, <- Nat2Z.inj_add. apply key_labels; [done|].
    rewrite Hk, lookup_app_r by lia. by replace (length p + j - length p)%nat with j by lia. }
  rewrite Hlr. rewrite Hr'. cbn [mbind res_bind].
  rewrite <- Hks in *. assert (Halpha := push_alpha1 l' r (rev g1) ss us ltac:(lia)).
  destruct (push (rev g1) ss (l' :: r) us) as [|f fs'] eqn:Epush; [done|]. cbn [lastu].
  destruct (set_value _ _ _ _ _ _ (u32_of_i32 val) H'' Hctx'') as (us' & Hus' & H3 & Hctx3). rewrite Hus'. cbn [mbind res_bind].
  eexists. split; [done|]. split; [|split; [cbn; congruence|by eapply dyn_rawc]]. split. exists (f :: fs'), (u32_of_i32 val).
  split; [done|]. split; [done|]. split; [done|]. split; [done|]. split; [done|].
  rewrite Halpha. unfold ss. cbn [map rev sedge s_l s_s]. unfold fes. by rewrite Hg.
Qed.
Lemma insert_higher b x afs v A key len val p l q l' r :
  brep_st b x afs v A -> (len <= length key)%nat -> zfree (keyof key len) ->
  N.of_nat (S (A + S len)) <= 1073741824 ->
  pathof afs = p ++ l :: q -> keyof key len ++ [0] = p ++ l' :: r -> l < l' ->
  exists inner es outer, afs = inner ++ (l, es) :: outer /\ pathof outer = p /\ pathof inner = q /\
    let '(x', s') := aaclose x inner (Leaf v) in
    exists b', InsertKeyValue b key (Z.of_nat len) val = Ok (true, b') /\
      brep_st b' x' (apush l' (es ++ [(l, s')]) r outer) (val31 val) (A + S (length r)) /\ b_init b' = b_init b.
Proof.
  intros H1 H2 H3 H4 H5 H6 H7. destruct (insert_higher_raw b x afs v A key len val p l q l' r H1 H2 H3 H4 H5 H6 H7) as (inner & es & outer & E1 & E2 & E3 & E).
  exists inner, es, outer. split; [exact E1|]. split; [exact E2|]. split; [exact E3|]. destruct (aaclose x inner (Leaf v)) as [x' s'].
  destruct E as (b' & A1 & A2 & A3 & _). by exists b'.
Qed.

(** ** The first key *)
Definition fx0 : fixedst := mkFx [] [] 0.
Lemma init_ok size : (1 <= size < 4294967296)%Z ->
  exists b, db_init (NewDawgBuilderWithSize size) = Ok b /\ dyn b fx0 [] 0 [] 0 /\ ctx b fx0 [] /\ b_init b = size.
Proof.
  intros Hs. unfold db_init. cbn [b_init NewDawgBuilderWithSize].
  destruct (Z.ltb_spec size 0); [lia|]. cbn. eexists. split; [done|]. split; [|done].
  split.
  - split; cbn [b_base b_label b_hash b_states b_flag b_merging b_mergedTrans x_ts x_fl x_mg fx0]; try done.
    + split; cbn; try done; apply NoDup_nil_2.
    + apply htab_empty; unfold two32; lia.
    + change (1 <= length (replicate (Z.to_nat size) 0%N) - length (replicate (Z.to_nat size) 0%N) / 4)%nat.
      rewrite replicate_length. lia.
    + exists (fun _ => false). split; [|split; [done|]].
      * apply brep_allocate. apply brep_new.
      * intros p. split; [done|]. by intros (k & es & ? & _).
    + apply NoDup_nil_2.
    + apply bwords_allocate, bwords_new.
  - apply Forall_cons. split; [done|]. constructor.
  - done.
  - done.
  - done.
  - cbn. lia.
Qed.

Lemma insert_first_raw size key len val : (1 <= size < 4294967296)%Z ->
  (len <= length key)%nat -> zfree (keyof key len) -> N.of_nat (S (S len)) <= 1073741824 ->
  exists b l r, keyof key len ++ [0] = l :: r /\
    InsertKeyValue (NewDawgBuilderWithSize size) key (Z.of_nat len) val = Ok (true, b) /\
    brep_st b fx0 (apush l [] r []) (val31 val) (S len) /\ b_init b = size /\ rawc b (u32_of_i32 val).
Proof.
  intros Hs Hlen Hz Hsz. unfold InsertKeyValue. cbn [b_hash NewDawgBuilderWithSize].
  destruct (init_ok size Hs) as (b & Hb & H & Hctx & Hi). fold (NewDawgBuilderWithSize size) in *. rewrite Hb. cbn [mbind res_bind].
  assert (Hlk : length (keyof key len) = len) by (unfold keyof; rewrite take_length; lia).
  replace (Z.to_nat (Z.of_nat len + 1)) with (S len) by lia. cbn [insert_find].
  pose proof (mem_agrees _ _ _ _ (dy_agrees _ _ _ _ _ _ H) (layout_hd [] 0 [])) as Hu. cbn [lastu lastmk] in Hu.
  rewrite (get_N _ _ _ Hu). cbn [mbind res_bind u_child N.eqb].
  rewrite Z.sub_0_r. replace (Z.to_nat (Z.of_nat len + 1)) with (S len) by lia.
  destruct (add_loop (keyof key len) b fx0 [] [] 0 key (Z.of_nat len) 0%Z) as
    (b'' & us & Hus & Hr' & H'' & Hctx'' & Hok'' & Hne'' & Hi'');
    [exact H|lia|exact Hctx|split; constructor|exact I|exact Hz|constructor| |].
  { intros j z Hj. rewrite Z.add_0_l. by apply key_labels. }
  cbv zeta in *. rewrite Hlk in *. cbn [lastu] in Hr'. rewrite Hr'. cbn [mbind res_bind].
  destruct (keyof key len ++ [0]) as [|l r] eqn:Ek.
  { apply (f_equal length) in Ek. rewrite app_length in Ek. cbn in Ek. lia. }
  assert (length r = len) as Hlr.
  { apply (f_equal length) in Ek. rewrite app_length in Ek. cbn in Ek. lia. }
  assert (Halpha := push_alpha1 l r [] [] us ltac:(lia)).
  destruct (push [] [] (l :: r) us) as [|f fs'] eqn:Epush; [done|]. cbn [lastu].
  destruct (set_value _ _ _ _ _ _ (u32_of_i32 val) H'' Hctx'') as (us' & Hus' & H3 & Hctx3). rewrite Hus'. cbn [mbind res_bind].
  exists (set_unit b'' us'), l, r. split; [done|]. split; [done|]. split; [|split; [cbn; congruence|by eapply dyn_rawc]].
  split. exists (f :: fs'), (u32_of_i32 val).
  split; [by rewrite Nat.add_0_l in H3|]. done.
Qed.
Lemma insert_first size key len val : (1 <= size < 4294967296)%Z ->
  (len <= length key)%nat -> zfree (keyof key len) -> N.of_nat (S (S len)) <= 1073741824 ->
  exists b l r, keyof key len ++ [0] = l :: r /\
    InsertKeyValue (NewDawgBuilderWithSize size) key (Z.of_nat len) val = Ok (true, b) /\
    brep_st b fx0 (apush l [] r []) (val31 val) (S len) /\ b_init b = size.
Proof. intros H1 H2 H3 H4. destruct (insert_first_raw size key len val H1 H2 H3 H4) as (b & l & r & A1 & A2 & A3 & A4 & _). by exists b, l, r. Qed.

(** ** Finish *)
Record dawgrep (d : dawg) (x : fixedst) (root : N) : Prop := mkDR {
  dr_frozen : frozen (d_base d) (d_label d) (x_ts x);
  dr_root : d_base d !! 0%nat = Some (4 * root);
  dr_rootl : d_label d !! 0%nat = Some 0xff;
  dr_states : d_states d = N.of_nat (S (length (x_ts x)));
  dr_flag : exists f, brep (d_flag d) f /\ bp_size (d_flag d) = N.of_nat (S (psum (x_ts x))) /\
    forall p, f p = true <-> exists k es, x_ts x !! k = Some es /\ es ∈ x_fl x /\ p = N.of_nat (start (x_ts x) k);
  dr_flnd : NoDup (x_fl x);
  dr_flin : forall es, es ∈ x_fl x -> es ∈ x_ts x;
  dr_merging : d_merging d = N.of_nat (length (x_fl x));
  dr_merged : d_mergedTrans d = N.of_nat (x_mg x);
  dr_mstates : d_mergedStates d = (Z.of_nat (psum (x_ts x)) + Z.of_nat (x_mg x) - Z.of_nat (length (x_ts x)))%Z;
  dr_words : bwords (d_flag d) }.

Lemma frozen_set0 bs ls ts u v : frozen bs ls ts -> frozen (<[0%nat := u]> bs) (<[0%nat := v]> ls) ts.
Proof.
  intros [H1 H2 H3 H4 H5 H6]. split; rewrite ?insert_length; try done.
  intros k es Hk. destruct (H5 k es Hk) as (bl & Hg & Hp). exists bl. split; [done|].
  eapply pat_ext; [exact Hp|]. intros i Hi _. unfold start in Hi. by rewrite !list_lookup_insert_ne by lia.
Qed.

Definition dawg0 : dawg := mkDawg [] [] NewBitPool 0 0 0 0.

Lemma finish_core b x c A d : dyn b x [] c [] A -> c < 1073741824 ->
  exists bs ls, set (b_base b) 0 (4 * c) = Ok bs /\ set (b_label b) 0 0xff = Ok ls /\
  dawgrep (mkDawg bs ls (b_flag b) (b_states b) (b_mergedTrans b)
     (b_numOfMergedStates (set_pools b bs ls (b_flag b))) (b_merging b)) x c /\ (d : nat) = d /\
  (psum (x_ts x) + x_mg x = A)%nat.
Proof.
  intros [F Hag Hperm Hpool Hcnt Hs] Hc. destruct F as [A1 A2 A3 A4 A5 A6 A7 A8 A9 A10].
  pose proof (fz_base _ _ _ A1) as HB. pose proof (fz_label _ _ _ A1) as HL.
  change 0 with (N.of_nat 0) at 1 2. rewrite !set_nat by lia. eexists _, _. split; [done|]. split; [done|]. split; [|split; [done|]].
  - split; cbn [d_base d_label d_flag d_states d_mergedTrans d_mergedStates d_merging]; try done.
    + by apply frozen_set0.
    + apply list_lookup_insert. lia.
    + apply list_lookup_insert. lia.
    + unfold b_numOfMergedStates, b_numOfTransitions. cbn [set_pools b_base b_mergedTrans b_states].
      rewrite insert_length, HB, A3, A9. lia.
  - unfold layout in Hcnt. cbn in Hcnt. lia.
Qed.

Lemma finish_ok b x afs v A d : brep_st b x afs v A ->
  let '(x', s') := aaclose x afs (Leaf v) in
  exists d' b' k es, Finish b d = Ok (d', b') /\ s' = Node es /\ x_ts x' !! k = Some es /\ wf s' /\
    dawgrep d' x' (N.of_nat (start (x_ts x') k)) /\ (psum (x_ts x') + x_mg x' = A)%nat.
Proof.
  intros [(fs & c & H & [Hst Hhs] & Hok & Hne & Hc & <-)]. rewrite <- aclose_alpha.
  pose proof (hash_ne _ _ _ _ _ _ H) as Hh.
  destruct (close_loop fs b x c (Leaf v) [] A) as (b' & c' & Hr & H' & Hfe & Hwf & [e He] & Hlf & Huf & Hi); rewrite ?app_nil_r; try done.
  { constructor. subst v. apply N.mod_lt. lia. }
  destruct (aclose x fs (Leaf v)) as [x' s'] eqn:Ecl. cbn [fst snd] in *.
  specialize (Hlf Hne). destruct s' as [|es]; [done|]. destruct Hfe as (k & Hk & ->).
  unfold Finish. destruct (b_hash b) as [|h0 hh] eqn:Eh; [done|]. cbn [mbind res_bind].
  cbn [lastu] in Hr. rewrite Hr. cbn [mbind res_bind].
  pose proof (mem_agrees _ _ _ _ (dy_agrees _ _ _ _ _ _ H') (layout_hd [] _ [])) as Hu. cbn [lastu lastmk] in Hu.
  rewrite (get_N _ _ _ Hu). cbn [mbind res_bind u_label].
  pose proof (start_bound _ _ _ Hk) as Hb. pose proof (fz_size _ _ _ (fr_frozen _ _ (dy_fixed _ _ _ _ _ _ H'))) as Hsz.
  assert (length es <> 0)%nat as Hesl.
  { apply wf_node_inv in Hwf as (Hn & _). by destruct es. }
  rewrite du_base_node by (done || lia). cbn [N.b2n]. rewrite N.mul_0_r, !N.add_0_r.
  destruct (finish_core b' x' (N.of_nat (start (x_ts x') k)) A 0%nat H' ltac:(lia)) as (bs & ls & Hbs & Hls & Hdr & _ & HA).
  rewrite Hbs, Hls. cbn [mbind res_bind].
  eexists _, _, k, es. split; [done|]. split; [done|]. split; [done|]. split; [done|]. split; [|done].
  exact Hdr.
Qed.

Lemma finish_empty size d : (1 <= size < 4294967296)%Z ->
  exists d' b', Finish (NewDawgBuilderWithSize size) d = Ok (d', b') /\ dawgrep d' fx0 0.
Proof.
  intros Hs. unfold Finish. cbn [b_hash NewDawgBuilderWithSize].
  destruct (init_ok size Hs) as (b & Hb & H & [Hst _] & Hi). fold (NewDawgBuilderWithSize size) in *. rewrite Hb. cbn [mbind res_bind].
  unfold fixUnits. rewrite Hst. cbn [map app fixUnits_loop]. cbn [N.eqb mbind res_bind].
  set (b1 := set_unfixed b []).
  assert (H1 : dyn b1 fx0 [] 0 [] 0) by (destruct H as [F ? ? ? ? ?]; split; try done; destruct F; by split).
  pose proof (mem_agrees _ _ _ _ (dy_agrees _ _ _ _ _ _ H1) (layout_hd [] _ [])) as Hu. cbn [lastu lastmk] in Hu.
  rewrite (get_N _ _ _ Hu). cbn [mbind res_bind u_label].
  destruct (finish_core b1 fx0 0 0 0%nat H1 ltac:(lia)) as (bs & ls & Hbs & Hls & Hdr & _ & HA).
  rewrite du_base_node by (done || lia). cbn [N.b2n]. rewrite !N.mul_0_r, !N.add_0_r. rewrite N.mul_0_r in Hbs.
  rewrite Hbs, Hls. cbn [mbind res_bind]. eexists _, _. split; [done|]. exact Hdr.
Qed.
