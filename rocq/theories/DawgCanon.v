(** The builder depends on the accepted entries only. *)
From Verif Require Import Go BitPool BitPoolProofs Dawg Tree DawgRep DawgFrozen DawgFix DawgTrie DawgInsert DawgMain DawgSpec TreeFacts DawgAbs DawgNav DawgThms.
Local Open Scope N_scope.
Local Ltac Zify.zify_post_hook ::= Z.div_mod_to_equations.
Local Arguments N.mul : simpl never.
Local Arguments N.add : simpl never.
Local Arguments N.of_nat : simpl never.

(** The last step of InsertKeyValue, with the unit on top of the stack. *)
Definition put_last (b : builder) (val : Z) : res (bool * builder) :=
  us ← upd (b_unit b) (hd 0 (b_unfixed b)) (fun u => du_set_child u (u32_of_i32 val)); Ok (true, set_unit b us).
Lemma put_put b v0 r b' v : put_last b v0 = Ok (r, b') -> put_last b' v = put_last b v.
Proof.
  unfold put_last, upd, get, set. destruct (b_unit b !! N.to_nat (hd 0 (b_unfixed b))) as [u|] eqn:E; cbn [mbind res_bind]; [|done].
  rewrite ?E. cbn [mbind res_bind]. intros [= <- <-]. cbn [set_unit b_unit b_unfixed].
  rewrite list_lookup_insert by (by apply lookup_lt_Some in E). cbn [mbind res_bind]. rewrite ?list_lookup_insert by (by apply lookup_lt_Some in E). cbn [mbind res_bind].
  rewrite list_insert_insert. by destruct u, b.
Qed.
Lemma ctx_top b x f fs : ctx b x (f :: fs) -> hd 0 (b_unfixed b) = f_u f.
Proof. intros [-> _]. done. Qed.
Lemma same_put b x afs v A key len val :
  brep_st b x afs v A -> (len <= length key)%nat -> pathof afs = keyof key len ++ [0] ->
  InsertKeyValue b key (Z.of_nat len) val = put_last b val.
Proof.
  intros [(fs & c & H & Hctx & Hok & Hne & Hc & <-)] Hlen Hp. rewrite pathof_alpha in Hp.
  pose proof (dyn_nodup _ _ _ _ _ _ H) as Hnd. apply NoDup_app in Hnd as [Hnd _]. pose proof (dy_agrees _ _ _ _ _ _ H) as Hag.
  assert (Hlk : length (keyof key len) = len) by (unfold keyof; rewrite take_length; lia).
  unfold InsertKeyValue. assert (b_hash b <> []) as Hh.
  { intros He. pose proof (ht_len _ _ _ _ (fr_hash _ _ (dy_fixed _ _ _ _ _ _ H))) as Hl. rewrite He in Hl. cbn in Hl. lia. }
  destruct (b_hash b) as [|h0 hh] eqn:Eh; [done|]. cbn [mbind res_bind].
  pose proof (find_skip (keyof key len ++ [0]) (rev fs) b [] [] c [] 0 key (Z.of_nat len) 0%Z) as Hskip.
  cbn [app] in Hskip. rewrite app_nil_r, rev_involutive in Hskip.
  rewrite app_length, Hlk in Hskip. cbn [length] in Hskip.
  replace (Z.to_nat (Z.of_nat len + 1)) with (len + 1 + 0)%nat by lia. cbn [lastu] in Hskip.
  rewrite Hskip; [|done|done| |].
  - cbn [insert_find mbind res_bind]. replace (Z.to_nat _) with 0%nat by lia. cbn [insert_add mbind res_bind].
    destruct fs as [|f fs]; [done|]. cbn [lastu]. unfold put_last. by rewrite (ctx_top _ _ _ _ Hctx).
  - by rewrite map_rev.
  - intros j l Hj. rewrite Z.add_0_l. by apply key_labels.
Qed.

Lemma higher_put b x afs v A key len p l q l' r :
  brep_st b x afs v A -> (len <= length key)%nat -> zfree (keyof key len) ->
  N.of_nat (S (A + S len)) <= 1073741824 ->
  pathof afs = p ++ l :: q -> keyof key len ++ [0] = p ++ l' :: r -> l < l' ->
  exists b', forall val, InsertKeyValue b key (Z.of_nat len) val = put_last b' val.
Proof.
  intros [(fs & c & H & Hctx & Hok & Hne & Hc & <-)] Hlen Hz Hsz Hp Hk Hl. rewrite pathof_alpha in Hp.
  pose proof (dyn_nodup _ _ _ _ _ _ H) as Hnd. apply NoDup_app in Hnd as [Hnd _]. pose proof (dy_agrees _ _ _ _ _ _ H) as Hag.
  assert (Hlk : length (keyof key len) = len) by (unfold keyof; rewrite take_length; lia).
  destruct (frames_split _ _ _ _ Hp) as (inner & g & g1 & -> & Hg1 & Hg & Hq).
  destruct (aclose x inner (Leaf v)) as [x' s'] eqn:Ecl.
  unfold InsertKeyValue. pose proof (hash_ne _ _ _ _ _ _ H) as Hh.
  destruct (b_hash b) as [|h0 hh] eqn:Eh; [done|]. cbn [mbind res_bind].
  assert (Hn : (len + 1 = length p + S (length r))%nat).
  { apply (f_equal length) in Hk. rewrite !app_length, Hlk in Hk. cbn [length] in Hk. lia. }
  replace (Z.to_nat (Z.of_nat len + 1)) with (length p + S (length r))%nat by lia.
  pose proof (find_skip p g1 b (inner ++ [g]) [] c [] (S (length r)) key (Z.of_nat len) 0%Z) as Hskip.
  rewrite app_nil_r, <- app_assoc in Hskip. cbn [app lastu] in Hskip. rewrite Hskip; [|done|done|done|].
  2:{ intros j z Hj. rewrite Z.add_0_l. apply key_labels; [done|]. rewrite Hk. by apply lookup_app_l_Some. }
  destruct (find_close b x inner g (rev g1) c A (length r) key (Z.of_nat len) (0 + Z.of_nat (length p))%Z l' (Leaf v)) as
     (b' & c' & Hr & H' & Hctx' & Hch & Hok' & Hlt & Hi); try done.
  { cbn. constructor. subst v. apply N.mod_lt. lia. }
  { rewrite Z.add_0_l. apply key_labels; [done|]. rewrite Hk, lookup_app_r, Nat.sub_diag by lia. done. }
  { lia. }
  rewrite Ecl in *. cbn [fst snd] in *. rewrite Hr. cbn [mbind res_bind].
  replace (Z.to_nat (Z.of_nat len + 1 - (0 + Z.of_nat (length p)))) with (S (length r)) by lia.
  set (ss := mkSib (f_u g) c' (f_l g) s' :: f_sibs g) in *.
  (* the remaining labels *)
  assert (Hkr : exists ks, l' :: r = ks ++ [0] /\ Forall (fun l => 0 < l < 256) ks /\ ks <> []).
  { destruct (exists_last (l := l' :: r)) as (ks & z & Hks); [done|]. exists ks.
    rewrite Hks in Hk. rewrite app_assoc in Hk. apply app_inj_tail in Hk as [Hk <-]. split; [done|]. split.
    - unfold zfree in Hz. rewrite Hk in Hz. by apply Forall_app in Hz as [_ ?].
    - intros ->. injection Hks as -> ->. lia. }
  destruct Hkr as (ks & Hks & Hksz & Hksne).
  assert (Hlr : length r = length ks).
  { apply (f_equal length) in Hks. rewrite app_length in Hks. cbn [length] in Hks. lia. }
  destruct (add_loop ks b' x' (rev g1) ss A key (Z.of_nat len) (0 + Z.of_nat (length p))%Z) as
    (b'' & us & Hus & Hr' & H'' & Hctx'' & Hok'' & Hne'' & Hi'');
    [exact H'|lia|exact Hctx'|exact Hch|exact Hok'|exact Hksz| | |].
  { destruct ks as [|k0 ks]; [done|]. injection Hks as <- _. done. }
  { intros j z Hj. rewrite <- Hks in Hj. rewrite Z.add_0_l, <- Nat2Z.inj_add. apply key_labels; [done|].
    rewrite Hk, lookup_app_r by lia. by replace (length p + j - length p)%nat with j by lia. }
  exists b''. intros val. rewrite Hlr, Hr'. cbn [mbind res_bind].
  rewrite <- Hks in *. destruct (push (rev g1) ss (l' :: r) us) as [|f fs'] eqn:Epush; [done|]. cbn [lastu]. unfold put_last. by rewrite (ctx_top _ _ _ _ Hctx'').
Qed.
Lemma first_put size key len : (1 <= size < 4294967296)%Z ->
  (len <= length key)%nat -> zfree (keyof key len) -> N.of_nat (S (S len)) <= 1073741824 ->
  exists b', forall val, InsertKeyValue (NewDawgBuilderWithSize size) key (Z.of_nat len) val = put_last b' val.
Proof.
  intros Hs Hlen Hz Hsz. unfold InsertKeyValue. cbn [b_hash NewDawgBuilderWithSize].
  destruct (init_ok size Hs) as (b & Hb & H & Hctx & Hi). fold (NewDawgBuilderWithSize size) in *. rewrite Hb. cbn [mbind res_bind].
  assert (Hlk : length (keyof key len) = len) by (unfold keyof; rewrite take_length; lia).
  replace (Z.to_nat (Z.of_nat len + 1)) with (S len) by lia. cbn [insert_find].
  pose proof (mem_agrees _ _ _ _ (dy_agrees _ _ _ _ _ _ H) (layout_hd [] 0 [])) as Hu. cbn [lastu lastmk] in Hu.
  rewrite (get_N _ _ _ Hu). cbn [mbind res_bind u_child N.eqb].
  rewrite Z.sub_0_r. replace (Z.to_nat (Z.of_nat len + 1)) with (S len) by lia.
  destruct (add_loop (keyof key len) b fx0 [] [] 0 key (Z.of_nat len) 0%Z) as
    (b'' & us & Hus & Hr' & H'' & Hctx'' & Hok'' & Hne'' & Hi'');
    [exact H|lia|exact Hctx|split; constructor|exact I|exact Hz|constructor| |].
  { intros j z Hj. rewrite Z.add_0_l. by apply key_labels. }
  cbv zeta in *. rewrite Hlk in *. cbn [lastu] in Hr'. exists b''. intros val. rewrite Hr'. cbn [mbind res_bind].
  destruct (push [] [] (keyof key len ++ [0]) us) as [|f fs'] eqn:Epush; [done|]. cbn [lastu]. unfold put_last. by rewrite (ctx_top _ _ _ _ Hctx'').
Qed.

Lemma put_brep b x afs v A val : brep_st b x afs v A -> exists b', put_last b val = Ok (true, b') /\ brep_st b' x afs (nval val) A.
Proof.
  intros [(fs & c & H & Hctx & Hok & Hne & Hc & <-)]. destruct fs as [|f fs]; [done|].
  destruct (set_value _ _ _ _ _ _ (u32_of_i32 val) H Hctx) as (us & Hus & H' & Hctx'). unfold put_last. rewrite (ctx_top _ _ _ _ Hctx), Hus. cbn [mbind res_bind].
  eexists. split; [done|]. split. exists (f :: fs), (u32_of_i32 val). rewrite <- val31_nval. done.
Qed.

(** ** Accepted entries *)
Lemma accepted_le h : (length (accepted h) <= length h)%nat.
Proof.
  induction h as [|kv h IH] using rev_ind; [done|]. rewrite accepted_snoc, app_length. unfold spec_insert. cbn [length].
  destruct (last (accepted h)) as [[k0 v0]|]; cbn; [|lia]. destruct (kcmp k0 kv.1); cbn [snd]; rewrite ?app_length; cbn [length]; [|lia|lia].
  destruct (accepted h) as [|e l _] using rev_ind; [cbn; lia|]. rewrite removelast_last. rewrite app_length in IH. cbn in *. lia.
Qed.
Lemma accepted_two es k v : accepted (es ++ [(k, v)]) = es ++ [(k, v)] -> accepted es = es /\ match last es with None => True | Some (k0, _) => kcmp k0 k = Lt end.
Proof.
  rewrite accepted_snoc. unfold spec_insert. intros H. pose proof (accepted_le es) as Hl. destruct (last (accepted es)) as [[k0 v0]|] eqn:E; cbn [fst snd] in H.
  - destruct (kcmp k0 k) eqn:Ec; cbn [snd] in H.
    + apply app_inj_tail in H as [H _]. destruct (accepted es) as [|e l _] using rev_ind; [done|]. rewrite removelast_last in H. subst l. rewrite app_length in Hl. cbn in Hl. lia.
    + apply app_inj_tail in H as [H _]. rewrite H in E. by rewrite E.
    + rewrite H, app_length in Hl. cbn in Hl. lia.
  - destruct es as [|e es]; [done|]. apply (f_equal length) in H. rewrite app_length in H. cbn in H. lia.
Qed.
Lemma accepted_idem h : accepted (accepted h) = accepted h.
Proof.
  induction h as [|[k v] h IH] using rev_ind; [done|]. rewrite accepted_snoc. unfold spec_insert. destruct (last (accepted h)) as [[k0 v0]|] eqn:E; cbn [fst snd].
  - destruct (kcmp k0 k) eqn:Ec; cbn [snd]; [| |done].
    + apply last_Some in E as [es E]. rewrite E in *. rewrite removelast_last. apply accepted_two in IH as [IH Hlt]. apply kcmp_eq in Ec as ->.
      rewrite accepted_snoc, IH. unfold spec_insert. destruct (last es) as [[k1 v1]|] eqn:El; cbn [fst snd]; [by rewrite Hlt|]. by rewrite (proj1 (last_None _) El).
    + rewrite accepted_snoc, IH. unfold spec_insert. rewrite E. cbn [fst]. by rewrite Ec.
  - done.
Qed.
Lemma size_app (a b : list entry) : sum_list_with (fun kv : entry => S (length kv.1)) (a ++ b) = (sum_list_with (fun kv : entry => S (length kv.1)) a + sum_list_with (fun kv : entry => S (length kv.1)) b)%nat.
Proof. induction a as [|? a IH]; cbn; [done|]. rewrite IH. lia. Qed.
Lemma accepted_ok h : hist_ok h -> hist_ok (accepted h).
Proof.
  intros [Hk Hs]. unfold hist_ok, hist_size in *. assert (H : Forall (fun kv : entry => key_ok kv.1) (accepted h) /\ (sum_list_with (fun kv : entry => S (length kv.1)) (accepted h) <= sum_list_with (fun kv : entry => S (length kv.1)) h)%nat).
  { clear Hs. induction h as [|kv h IH] using rev_ind; [by split|]. apply Forall_app in Hk as [Hk H1]. destruct (IH Hk) as [IH1 IH2]. rewrite accepted_snoc, size_app. unfold spec_insert.
    destruct (last (accepted h)) as [[k0 v0]|]; cbn [snd]; [|split; [done|cbn; lia]]. destruct (kcmp k0 kv.1); cbn [snd].
    - destruct (accepted h) as [|e l _] using rev_ind; [split; [done|cbn; lia]|]. rewrite removelast_last. rewrite size_app in *. apply Forall_app in IH1 as [IH1 _]. split; [by apply Forall_app|cbn in *; lia].
    - rewrite size_app. split; [by apply Forall_app|lia].
    - split; [done|cbn; lia]. }
  destruct H as [H1 H2]. split; [done|]. lia.
Qed.

(** ** The builder after a history is that after its accepted entries *)
Lemma fresh_put size es k : size_ok size -> hist_ok (es ++ [(k, 0%Z)]) -> accepted es = es -> match last es with None => True | Some (k0, _) => kcmp k0 k = Lt end ->
  forall rs b, insert_all (NewDawgBuilderWithSize size) es = Ok (rs, b) -> exists b', forall val, InsertStringValue b k val = put_last b' val.
Proof.
  intros Hs Hh Ha Hlt rs b Hb. pose proof Hh as [Hk Hsz]. apply Forall_app in Hk as [_ Hk]. apply Forall_cons in Hk as [Hk _]. cbn [fst] in Hk.
  assert (Hko : keyof k (length k) = k) by (unfold keyof; by rewrite take_ge). unfold hist_size in Hsz. rewrite size_app in Hsz. cbn [sum_list_with fst] in Hsz.
  destruct es as [|kv h].
  - cbn in Hb. injection Hb as <- <-. destruct (first_put size k (length k) Hs) as (b' & Hb'); [done|by rewrite Hko|cbn in Hsz; lia|]. by exists b'.
  - destruct (history_abs kv h (hist_ok_app _ _ Hh)) as (x & afs & w & A & Hab & HA & Hrun). destruct (Hrun size Hs) as (b0 & Hr & Hb0). rewrite Hb in Hr. injection Hr as -> <-.
    destruct Hab as [_ _ _ (es1 & k0 & v0 & He & Hp & Hk0 & _) _]. rewrite Ha in He. rewrite He, last_snoc in Hlt.
    destruct (term_split k0 k Hk0 Hk) as [<-|(p & l & q & l' & r & H1 & H2 & Hne)]; [by rewrite kcmp_refl in Hlt|].
    assert (Hcmp : kcmp k0 k = (l ?= l')) by (rewrite <- kcmp_term by done; rewrite H1, H2, kcmp_app; cbn; destruct (N.compare_spec l l'); done).
    rewrite Hlt in Hcmp. symmetry in Hcmp. apply N.compare_lt_iff in Hcmp. rewrite <- Hp in H1. rewrite <- Hko in H2.
    destruct (higher_put b x afs w A k (length k) p l q l' r Hb0) as (b' & Hb'); [done|by rewrite Hko| |done|done|done|by exists b'].
    unfold hist_size in HA. lia.
Qed.
Lemma same_again size h k v v0 es rs b : size_ok size -> hist_ok (h ++ [(k, v)]) -> accepted h = es ++ [(k, v0)] ->
  insert_all (NewDawgBuilderWithSize size) h = Ok (rs, b) -> InsertStringValue b k v = put_last b v.
Proof.
  intros Hs Hh He Hb. destruct h as [|kv h]; [by destruct es|]. destruct (history_abs kv h (hist_ok_app _ _ Hh)) as (x & afs & w & A & Hab & HA & Hrun). destruct (Hrun size Hs) as (b0 & Hr & Hb0). rewrite Hb in Hr. injection Hr as -> <-.
  destruct Hab as [_ _ _ (es1 & k0 & v1 & He1 & Hp & Hk0 & _) _]. rewrite He in He1. apply app_inj_tail in He1 as [_ [= <- <-]].
  apply (same_put b x afs w A k (length k) v Hb0); [done|]. rewrite Hp. unfold keyof. by rewrite take_ge.
Qed.
Lemma insert_all_snoc b h kv rs b' : insert_all b (h ++ [kv]) = Ok (rs, b') <->
  exists rs1 b1 r, insert_all b h = Ok (rs1, b1) /\ InsertStringValue b1 kv.1 kv.2 = Ok (r, b') /\ rs = rs1 ++ [r].
Proof.
  rewrite insert_all_app. destruct kv as [k v]. cbn [insert_all fst snd]. destruct (insert_all b h) as [[rs1 b1]| |]; cbn [mbind res_bind]; [|by split; [|naive_solver]|by split; [|naive_solver]].
  destruct (InsertStringValue b1 k v) as [[r b2]| |] eqn:E; cbn [mbind res_bind]; [|split; [done|]; intros (? & ? & ? & [= <- <-] & H & _); congruence|split; [done|]; intros (? & ? & ? & [= <- <-] & H & _); congruence].
  split; [intros [= <- <-]; by exists rs1, b1, r|]. intros (? & ? & ? & [= <- <-] & H & ->). rewrite E in H. by injection H as -> ->.
Qed.
Lemma canon size h : size_ok size -> hist_ok h -> exists b, insert_all (NewDawgBuilderWithSize size) h = Ok (results h, b) /\ insert_all (NewDawgBuilderWithSize size) (accepted h) = Ok (results (accepted h), b).
Proof.
  intros Hs. induction h as [|[k v] h IH] using rev_ind; intros Hh; [by eexists|]. pose proof (hist_ok_app _ _ Hh) as Hh1. destruct (IH Hh1) as (b & Hb & Hb').
  destruct (insert_next size h k v Hs Hh) as (b0 & b1 & E & Hi & Hrej). rewrite Hb in E. injection E as <-. exists b1.
  assert (Hall : insert_all (NewDawgBuilderWithSize size) (h ++ [(k, v)]) = Ok (results (h ++ [(k, v)]), b1)).
  { apply insert_all_snoc. eexists _, _, _. split; [exact Hb|]. split; [exact Hi|]. by rewrite results_snoc. }
  split; [exact Hall|]. pose proof (accepted_ok _ Hh) as Hha. destruct (insert_all_ok size _ Hs Hha) as (b2 & Hb2). rewrite Hb2. do 2 f_equal.
  rewrite accepted_snoc in Hb2, Hha. unfold spec_insert in *. pose proof (accepted_idem h) as Hid. destruct (last (accepted h)) as [[k0 v0]|] eqn:El; cbn [fst snd] in *.
  - destruct (kcmp k0 k) eqn:Ec; cbn [fst snd] in *.
    + apply last_Some in El as [es El]. rewrite El in *. apply kcmp_eq in Ec as ->. rewrite removelast_last in *. apply accepted_two in Hid as [He Hlt].
      apply insert_all_snoc in Hb' as (rs1 & c & r & Hc & Hc1 & _). apply insert_all_snoc in Hb2 as (rs2 & c' & r' & Hc' & Hc2 & _). rewrite Hc in Hc'. injection Hc' as <- <-. cbn [fst snd] in *.
      destruct (fresh_put size es k Hs) with (rs := rs1) (b := c) as (b' & Hput); [|done|done|done|].
      { split; [destruct Hha as [H _]; apply Forall_app in H as [H1 H2]; apply Forall_app; split; [done|]; by apply Forall_cons in H2 as [H2 _]; constructor|]. destruct Hha as [_ H]. unfold hist_size in *. rewrite size_app in *. exact H. }
      rewrite Hput in Hc1, Hc2. rewrite (same_again size h k v v0 es _ b Hs Hh El Hb) in Hi. rewrite (put_put _ _ _ _ v Hc1), Hc2 in Hi. by injection Hi.
    + apply insert_all_snoc in Hb2 as (rs2 & c' & r' & Hc' & Hc2 & _). rewrite Hb' in Hc'. injection Hc' as <- <-. cbn [fst snd] in Hc2. rewrite Hi in Hc2. by injection Hc2.
    + rewrite (Hrej eq_refl). rewrite Hb' in Hb2. by injection Hb2.
  - apply last_None in El. rewrite El in Hb'. cbn in Hb'. injection Hb' as <-. cbn [insert_all] in Hb2. rewrite Hi in Hb2. cbn in Hb2. by injection Hb2.
Qed.

(** ** Values that are stored alike *)
Lemma brep_put b x afs v A es k : brep_st b x afs v A -> absinv x afs v A es -> key_ok k -> N.of_nat (S (A + S (length k))) <= 1073741824 ->
  match last es with None => True | Some (k0, _) => kcmp k0 k = Lt end -> exists b', forall val, InsertStringValue b k val = put_last b' val.
Proof.
  intros Hb [_ _ _ (es1 & k0 & v0 & -> & Hp & Hk0 & _) _] Hk Hsz Hlt. rewrite last_snoc in Hlt. assert (Hko : keyof k (length k) = k) by (unfold keyof; by rewrite take_ge).
  destruct (term_split k0 k Hk0 Hk) as [<-|(p & l & q & l' & r & H1 & H2 & Hne)]; [by rewrite kcmp_refl in Hlt|].
  assert (Hcmp : kcmp k0 k = (l ?= l')) by (rewrite <- kcmp_term by done; rewrite H1, H2, kcmp_app; cbn; destruct (N.compare_spec l l'); done).
  rewrite Hlt in Hcmp. symmetry in Hcmp. apply N.compare_lt_iff in Hcmp. rewrite <- Hp in H1. rewrite <- Hko in H2.
  destruct (higher_put b x afs v A k (length k) p l q l' r Hb) as (b' & Hb'); [done|by rewrite Hko|done|done|done|done|by exists b'].
Qed.
Lemma put_other b1 c k val val' x afs v A b' : (forall val, InsertStringValue b1 k val = put_last c val) -> InsertStringValue b1 k val = Ok (true, b') -> brep_st b' x afs v A -> nval val = nval val' -> v = nval val ->
  exists b'', InsertStringValue b1 k val' = Ok (true, b'') /\ brep_st b'' x afs v A.
Proof.
  intros Hput Hi Hb Hv Hv0. rewrite Hput in Hi. destruct (put_brep b' x afs v A val' Hb) as (b'' & Hp & Hb''). exists b''. rewrite Hput, <- (put_put _ _ _ _ val' Hi). split; [done|]. by rewrite Hv0, Hv.
Qed.
Definition alike (a b : entry) : Prop := a.1 = b.1 /\ nval a.2 = nval b.2.
Lemma two size size' l : size_ok size -> size_ok size' -> hist_ok l -> accepted l = l -> forall l', Forall2 alike l l' -> l = [] \/
  exists x afs v A rs b rs' b', insert_all (NewDawgBuilderWithSize size) l = Ok (rs, b) /\ insert_all (NewDawgBuilderWithSize size') l' = Ok (rs', b') /\
    brep_st b x afs v A /\ brep_st b' x afs v A /\ absinv x afs v A l /\ N.of_nat A <= hist_size l.
Proof.
  intros Hs Hs'. induction l as [|[k val] l IH] using rev_ind; intros Hh Ha l' Hal; [by left|]. right. apply Forall2_app_inv_l in Hal as (l1' & l2 & Hal & H2 & ->).
  apply Forall2_cons_inv_l in H2 as ([k' val'] & l3 & [Hk Hv] & H3 & ->). apply Forall2_nil_inv_l in H3 as ->. cbn in Hk, Hv. subst k'.
  pose proof Hh as [Hk Hsz]. apply Forall_app in Hk as [_ Hk]. apply Forall_cons in Hk as [Hk _]. cbn [fst] in Hk. unfold hist_size in Hsz. rewrite size_app in Hsz. cbn [sum_list_with fst] in Hsz.
  pose proof (accepted_two _ _ _ Ha) as [Ha1 Hlt]. destruct (IH (hist_ok_app _ _ Hh) Ha1 l1' Hal) as [->|(x & afs & v & A & rs & b & rs' & b' & Hb & Hb' & Hr & Hr' & Hab & HA)].
  - apply Forall2_nil_inv_l in Hal as ->. cbn in Hsz. destruct (first_abs k val Hk ltac:(lia)) as (afs & Hab & Hf). destruct (Hf size Hs) as (b & Hi & Hb). destruct (Hf size' Hs') as (b' & Hi' & Hb').
    destruct (first_put size' k (length k) Hs') as (c & Hc); [done|unfold keyof; by rewrite take_ge|lia|]. destruct (put_other _ c k val val' _ _ _ _ b' Hc Hi' Hb' Hv eq_refl) as (b'' & Hi'' & Hb'').
    exists fx0, afs, (nval val), (S (length k)), [true], b, [true], b''. cbn [app insert_all]. rewrite Hi, Hi''. cbn [mbind res_bind]. do 5 (split; [done|]). unfold hist_size. cbn. lia.
  - unfold hist_size in HA. destruct (insert_abs b x afs v A l k val Hr Hab Hk ltac:(lia)) as (x' & afs' & v' & A' & HA1 & HA2 & Hab' & Hins).
    destruct (Hins b Hr) as (b1 & Hi & Hb1). destruct (Hins b' Hr') as (b2 & Hi' & Hb2).
    assert (Es : spec_insert l (k, val) = (true, l ++ [(k, val)])).
    { unfold spec_insert. destruct (last l) as [[k0 v0]|] eqn:El; [by cbn; rewrite Hlt|]. by rewrite (proj1 (last_None _) El). }
    rewrite Es in Hab', Hi, Hi'. cbn [fst snd] in *. destruct (brep_put b' x afs v A l k Hr' Hab Hk ltac:(lia) Hlt) as (c & Hc).
    destruct (put_other b' c k val val' _ _ _ _ b2 Hc Hi' Hb2 Hv) as (b3 & Hi3 & Hb3).
    { destruct Hab' as [_ _ _ (es1 & k0 & v0 & He & _ & _ & Hv0) _]. apply app_inj_tail in He as [_ [= <- <-]]. done. }
    exists x', afs', v', A', (rs ++ [true]), b1, (rs' ++ [true]), b3. split; [apply insert_all_snoc; by exists rs, b, true|]. split; [apply insert_all_snoc; by exists rs', b', true|].
    do 3 (split; [done|]). unfold hist_size. rewrite size_app. cbn [sum_list_with fst]. lia.
Qed.
Lemma finish_same b b' x afs v A d0 d0' : brep_st b x afs v A -> brep_st b' x afs v A ->
  exists d c c', Finish b d0 = Ok (d, c) /\ Finish b' d0' = Ok (d, c').
Proof.
  intros Hb Hb'. pose proof (finish_ok b x afs v A d0 Hb) as H. pose proof (finish_ok b' x afs v A d0' Hb') as H'. destruct (aaclose x afs (Leaf v)) as [x' s'].
  destruct H as (d & c & k & es & Hf & Hes & Hk & Hw & Hr & _). destruct H' as (d' & c' & k' & es' & Hf' & Hes' & Hk' & _ & Hr' & _). exists d, c, c'. split; [done|]. rewrite Hf'. do 2 f_equal.
  subst s'. injection Hes' as <-. assert (k = k') as <-; [|symmetry; by eapply dawgrep_fun]. eapply NoDup_lookup; [|done|done]. apply Hr.
Qed.
Lemma entries_alike h h' : map kept_entry (accepted h) = map kept_entry (accepted h') -> Forall2 alike (accepted h) (accepted h').
Proof.
  generalize (accepted h) (accepted h'). induction l as [|[k v] l IH]; intros [|[k' v'] l'] H; cbn in H; [constructor|done|done|]. injection H as -> Hv H. constructor; [|by apply IH].
  split; [done|]. unfold nval. by cbn; rewrite Hv.
Qed.
Lemma build_canon size size' h h' d0 d0' : size_ok size -> size_ok size' -> hist_ok h -> hist_ok h' -> map kept_entry (accepted h) = map kept_entry (accepted h') ->
  exists d, build size h d0 = Ok (results h, d) /\ build size' h' d0' = Ok (results h', d).
Proof.
  intros Hs Hs' Hh Hh' He. destruct (canon size h Hs Hh) as (b & Hb & Hc). destruct (canon size' h' Hs' Hh') as (b' & Hb' & Hc'). apply entries_alike in He.
  destruct (two size size' (accepted h) Hs Hs' (accepted_ok h Hh) (accepted_idem h) _ He) as [E|(x & afs & v & A & rs & c & rs' & c' & H1 & H2 & Hr & Hr' & _)].
  - rewrite E in *. apply Forall2_nil_inv_l in He. rewrite He in *. cbn in Hc, Hc'. injection Hc as <-. injection Hc' as <-.
    destruct (finish_empty size d0 Hs) as (d & c & Hf & Hr). destruct (finish_empty size' d0' Hs') as (d' & c' & Hf' & Hr'). exists d. unfold build. rewrite Hb, Hb'. cbn [mbind res_bind]. rewrite Hf, Hf'. cbn [mbind res_bind]. split; [done|].
    do 2 f_equal. symmetry. by eapply dawgrep_fun.
  - rewrite Hc in H1. injection H1 as _ <-. rewrite Hc' in H2. injection H2 as _ <-. destruct (finish_same b b' x afs v A d0 d0' Hr Hr') as (d & e & e' & Hf & Hf'). exists d. unfold build. rewrite Hb, Hb'. cbn [mbind res_bind]. rewrite Hf, Hf'. done.
Qed.
