(** Proofs about the shared buffer of UtfcEncode. *)
From Verif Require Import Go Utfc UtfcArith UtfcProofs UtfcHeap.

Section Heap.
  Context (grow : nat -> nat).
  Notation fol := (buf_append grow).

  Definition hinv (h : uheap) : Prop :=
    exists a, arrays h !! s_arr (shared h) = Some a /\ s_len (shared h) <= length a.

  Lemma hinv_init : hinv uheap_init.
  Proof. exists (replicate (Z.to_nat 1024) 0%N). split; [done|cbn; lia]. Qed.

  (** One append. *)
  Lemma append_spec h b : hinv h ->
    let h' := fst (fol h b) in
    snd (fol h b) = true /\ hinv h' /\ gstate h' = gstate h /\
    read h' (shared h') = read h (shared h) ++ [b] /\
    length (arrays h) <= length (arrays h') /\
    (forall i, i <> s_arr (shared h) -> i < length (arrays h) -> arrays h' !! i = arrays h !! i) /\
    (forall a, arrays h !! s_arr (shared h) = Some a ->
       if Nat.ltb (s_len (shared h)) (length a)
       then s_arr (shared h') = s_arr (shared h) /\ s_len (shared h') = S (s_len (shared h)) /\
            arrays h' !! s_arr (shared h) = Some (<[s_len (shared h) := b]> a)
       else s_arr (shared h') = length (arrays h) /\ arrays h' !! s_arr (shared h) = Some a).
  Proof.
    intros (a & Ha & Hl). cbv zeta. unfold buf_append. rewrite Ha.
    pose proof (lookup_lt_Some _ _ _ Ha) as Hlt.
    destruct (Nat.ltb_spec (s_len (shared h)) (length a)) as [H|H]; cbn [fst snd].
    - split; [done|]. split.
      { exists (<[s_len (shared h) := b]> a). cbn. rewrite list_lookup_insert by done.
        split; [done|]. rewrite insert_length. lia. }
      split; [done|]. split.
      { unfold read. cbn. rewrite list_lookup_insert by done. rewrite Ha.
        rewrite (take_S_r _ _ b) by (by apply list_lookup_insert).
        by rewrite take_insert by lia. }
      cbn [arrays shared s_arr s_len]. rewrite insert_length. split; [lia|]. split.
      { intros i Hi _. by rewrite list_lookup_insert_ne by done. }
      intros a' Ha'. simplify_eq. destruct (Nat.ltb_spec (s_len (shared h)) (length a')); [|lia].
      split; [done|]. split; [done|]. by apply list_lookup_insert.
    - assert (Hll : s_len (shared h) = length a) by lia.
      split; [done|]. split.
      { eexists. cbn. rewrite lookup_app_r, Nat.sub_diag by lia. split; [done|].
        rewrite app_length, take_length. cbn. rewrite replicate_length. lia. }
      split; [done|]. split.
      { unfold read. cbn [arrays shared s_arr s_len].
        rewrite lookup_app_r, Nat.sub_diag by lia. cbn [list_lookup].
        rewrite Ha. cbn [lookup]. rewrite Hll, firstn_all.
        change (b :: replicate ?k 0%N) with ([b] ++ replicate k 0%N).
        cbn [list_lookup]. rewrite app_assoc. rewrite take_app_le by (rewrite app_length; cbn; lia).
        apply take_ge. rewrite app_length. cbn. lia. }
      cbn [arrays shared s_arr s_len]. rewrite app_length. split; [lia|]. split.
      { intros i Hi Hi'. by rewrite lookup_app_l by done. }
      intros a' Ha'. simplify_eq. destruct (Nat.ltb_spec (s_len (shared h)) (length a')); [lia|].
      split; [done|]. by rewrite lookup_app_l by done.
  Qed.

  Lemma feed_other h bs i a : hinv h -> i <> s_arr (shared h) -> arrays h !! i = Some a ->
    arrays (fst (feed fol h bs)) !! i = Some a.
  Proof.
    revert h. induction bs as [|b bs IH]; intros h Hh Hi Ha; cbn [feed]; [done|].
    pose proof (append_spec h b Hh) as (Hok & Hh' & _ & _ & Hle & Ho & Hs).
    destruct (fol h b) as [h' ok]. cbn [fst snd] in *. rewrite Hok.
    pose proof (lookup_lt_Some _ _ _ Ha) as Hlt.
    apply IH; [done| |by rewrite Ho by done].
    destruct Hh as (a0 & Ha0 & Hl0). specialize (Hs _ Ha0).
    destruct (Nat.ltb _ _); destruct Hs as [-> _]; [done|lia].
  Qed.

  Lemma feed_spec h bs : hinv h ->
    let h' := fst (feed fol h bs) in
    snd (feed fol h bs) = true /\ hinv h' /\ gstate h' = gstate h /\
    read h' (shared h') = read h (shared h) ++ bs /\
    (forall a, arrays h !! s_arr (shared h) = Some a ->
      arrays h' !! s_arr (shared h) =
      Some (take (length a) (take (s_len (shared h)) a ++ bs ++ drop (s_len (shared h) + length bs) a))).
  Proof.
    revert h. induction bs as [|b bs IH]; intros h Hh; cbn [feed].
    - split; [done|]. split; [done|]. split; [done|]. split; [by rewrite app_nil_r|].
      intros a Ha. cbn [fst]. rewrite Ha. cbn [app length]. rewrite Nat.add_0_r, take_drop.
      by rewrite firstn_all.
    - pose proof (append_spec h b Hh) as (Hok & Hh' & Hg & Hr & Hle & Ho & Hs).
      destruct (fol h b) as [h1 ok] eqn:Ef. cbn [fst snd] in *. rewrite Hok.
      specialize (IH h1 Hh') as (I1 & I2 & I3 & I4 & I5). cbv zeta in *.
      split; [done|]. split; [done|]. split; [congruence|]. split.
      { rewrite I4, Hr, <- app_assoc. done. }
      intros a Ha. specialize (Hs _ Ha). destruct Hh as (a0 & Ha0 & Hl0). simplify_eq.
      destruct (Nat.ltb_spec (s_len (shared h)) (length a0)) as [Hlt|Hge].
      + destruct Hs as (Hs1 & Hs2 & Hs3). rewrite Hs1, Hs2 in I5. specialize (I5 _ Hs3).
        rewrite I5, insert_length. do 2 f_equal.
        rewrite (take_S_r _ _ b) by (by apply list_lookup_insert).
        rewrite take_insert by lia. rewrite drop_insert_gt by lia. cbn [length].
        rewrite <- app_assoc. cbn [app]. do 4 f_equal. lia.
      + destruct Hs as (Hs1 & Hs2).
        pose proof (lookup_lt_Some _ _ _ Ha0) as Hlt.
        rewrite (feed_other h1 bs _ a0); [|done| |done].
        * f_equal. replace (s_len (shared h)) with (length a0) by lia.
          rewrite firstn_all. rewrite take_app_le by lia. by rewrite firstn_all.
        * lia.
  Qed.

  Lemma follow_heap h str : hinv h ->
    let '(h', st, ok) := utfc_follow fol str h in
    (h', ok) = feed fol h (utfc_encode str).
  Proof.
    intros Hh. pose proof (follow_from_feed fol ustate0 str h) as H.
    unfold utfc_follow. rewrite encode_encs. exact H.
  Qed.

  Lemma encode_heap_spec h str : hinv h ->
    let '(s, h') := UtfcEncode grow h str in
    hinv h' /\ shared h' = s /\ read h' s = utfc_encode str /\ s_len s = length (utfc_encode str) /\
    (forall a, arrays h !! s_arr (shared h) = Some a ->
      arrays h' !! s_arr (shared h) =
      Some (take (length a) (utfc_encode str ++ drop (length (utfc_encode str)) a))).
  Proof.
    intros (a & Ha & Hl). unfold UtfcEncode.
    set (h0 := mkH (arrays h) (mkSl (s_arr (shared h)) 0) (gstate h)).
    assert (Hh0 : hinv h0) by (exists a; split; [done|cbn; lia]).
    pose proof (follow_heap h0 str Hh0) as Hf.
    destruct (utfc_follow fol str h0) as [[h1 st] ok].
    pose proof (feed_spec h0 (utfc_encode str) Hh0) as (F1 & F2 & F3 & F4 & F5).
    rewrite <- Hf in *. cbn [fst snd] in *.
    assert (Hr : read h1 (shared h1) = utfc_encode str).
    { rewrite F4. unfold read, h0. cbn. rewrite Ha. by rewrite take_0. }
    split; [destruct F2 as (a1 & ? & ?); by exists a1|]. split; [done|]. split; [exact Hr|]. split.
    - rewrite <- Hr. unfold read. cbn. destruct F2 as (a1 & -> & ?). rewrite take_length. lia.
    - intros a' Ha'. apply F5 in Ha'. exact Ha'.
  Qed.

  Lemma run_encodes_hinv h strs : hinv h -> hinv (run_encodes grow h strs).
  Proof.
    revert h. unfold run_encodes. induction strs as [|s strs IH]; intros h Hh; cbn [fold_left]; [done|].
    apply IH. pose proof (encode_heap_spec h s Hh) as H. destruct (UtfcEncode grow h s). apply H.
  Qed.

  (** The first result seen after a second call. *)
  Lemma encode_twice h s1 s2 : hinv h ->
    let '(sl1, h1) := UtfcEncode grow h s1 in
    let '(sl2, h2) := UtfcEncode grow h1 s2 in
    read h2 sl1 = take (length (utfc_encode s1))
                    (utfc_encode s2 ++ drop (length (utfc_encode s2)) (utfc_encode s1)).
  Proof.
    intros Hh. pose proof (encode_heap_spec h s1 Hh) as H1.
    destruct (UtfcEncode grow h s1) as [sl1 h1]. destruct H1 as (Hh1 & Hs1 & Hr1 & Hl1 & _).
    pose proof (encode_heap_spec h1 s2 Hh1) as H2.
    destruct (UtfcEncode grow h1 s2) as [sl2 h2]. destruct H2 as (Hh2 & _ & _ & _ & Ho).
    rewrite Hs1 in Ho. unfold read. unfold read in Hr1.
    destruct Hh1 as (a & Ha & Hla). rewrite Hs1 in Ha, Hla. rewrite (Ho _ Ha). rewrite Ha in Hr1.
    rewrite Hl1 in *. rewrite take_take, Nat.min_l by lia.
    rewrite <- Hr1 at 2 3.
    set (e2 := utfc_encode s2). set (n := length (utfc_encode s1)) in *.
    rewrite take_length, (Nat.min_l n (length a)) by lia.
    rewrite skipn_firstn_comm.
    destruct (decide (n <= length e2)).
    - rewrite !take_app_le by lia. done.
    - rewrite !firstn_app. f_equal. rewrite take_take. f_equal. rewrite Nat.min_id. done.
  Qed.

  Lemma bytes_less_same n l1 l2 : n <= length l1 -> n <= length l2 -> take n l1 = take n l2 ->
    bytes_less n l1 l2 = None.
  Proof.
    revert l1 l2. induction n as [|n IH]; intros l1 l2 H1 H2 He; [by destruct l1|].
    destruct l1 as [|x l1], l2 as [|y l2]; cbn in *; try done.
    injection He as -> He. rewrite N.ltb_irrefl. apply IH; [lia|lia|done].
  Qed.

  Lemma sort_less_length h a b : hinv h ->
    fst (utfc_sort_less grow h a b) = Nat.ltb (length (utfc_encode a)) (length (utfc_encode b)).
  Proof.
    intros Hh. unfold utfc_sort_less. pose proof (encode_twice h a b Hh) as Ht.
    pose proof (encode_heap_spec h a Hh) as H1.
    destruct (UtfcEncode grow h a) as [sl1 h1]. destruct H1 as (Hh1 & Hs1 & Hr1 & Hl1 & _).
    pose proof (encode_heap_spec h1 b Hh1) as H2.
    destruct (UtfcEncode grow h1 b) as [sl2 h2]. destruct H2 as (Hh2 & _ & Hr2 & _ & _).
    rewrite Ht, Hr2. set (e1 := utfc_encode a). set (e2 := utfc_encode b).
    assert (Hlen : length (take (length e1) (e2 ++ drop (length e2) e1)) = length e1).
    { rewrite take_length, app_length, drop_length. lia. }
    rewrite Hlen. rewrite bytes_less_same.
    - done.
    - rewrite Hlen. lia.
    - lia.
    - rewrite take_take. rewrite (Nat.min_l _ (length e1)) by lia. rewrite take_app_le by lia. done.
  Qed.
End Heap.
