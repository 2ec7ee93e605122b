(** InsertKeyValue with a length outside 0..len(key) (dawg_builder.go:264-320). *)
From Verif Require Import Go BitPool Dawg DawgSpec DawgFix DawgRep DawgTrie DawgInsert DawgMain DawgAbs DawgThms.
Local Open Scope N_scope.

(** ** A length greater than the key *)
Lemma label_in key len pos : (0 <= pos < Z.of_nat (length key))%Z -> (Z.of_nat (length key) <= len)%Z ->
  exists l, key !! Z.to_nat pos = Some l /\ key_label key len pos = Ok l.
Proof.
  intros Hp Hl. destruct (lookup_lt_is_Some_2 key (Z.to_nat pos)) as [l Hk]; [lia|]. exists l. split; [done|].
  unfold key_label. rewrite Hk. destruct (Z.ltb_spec pos len); [done|lia].
Qed.
Lemma label_out key len : (Z.of_nat (length key) < len)%Z -> key_label key len (Z.of_nat (length key)) = Panic.
Proof.
  intros Hl. unfold key_label. destruct (Z.ltb_spec (Z.of_nat (length key)) len); [|lia]. rewrite lookup_ge_None_2; [done|lia].
Qed.

Lemma get_nohang {A} (l : list A) i : get l i <> Hang.
Proof. unfold get. by destruct (l !! _). Qed.
Lemma set_nohang {A} (l : list A) i x : set l i x <> Hang.
Proof. unfold set. by destruct (l !! _). Qed.
Lemma upd_nohang {A} (l : list A) i f : upd l i f <> Hang.
Proof. unfold upd. pose proof (get_nohang l i). destruct (get l i); cbn [mbind res_bind]; [|done|done]. apply set_nohang. Qed.
Lemma allocate_nohang b : allocateUnit b <> Hang.
Proof.
  unfold allocateUnit. destruct (b_unused b) as [|i r]; [done|]. pose proof (set_nohang (b_unit b) i du_zero).
  by destruct (set _ _ _).
Qed.

Lemma add_long key len : (Z.of_nat (length key) < len)%Z -> forall n b index pos,
  (0 <= pos <= Z.of_nat (length key))%Z -> (Z.of_nat (length key) < pos + Z.of_nat n)%Z ->
  insert_add n b key len index pos = Panic.
Proof.
  intros Hl. induction n as [|n IH]; intros b index pos Hp Hn; [lia|]. cbn [insert_add].
  destruct (decide (pos = Z.of_nat (length key))) as [->|Hne]; [by rewrite label_out|].
  destruct (label_in key len pos ltac:(lia) ltac:(lia)) as (l & _ & ->). cbn [mbind res_bind].
  pose proof (allocate_nohang b) as H1. destruct (allocateUnit b) as [[ci b1]| |]; cbn [mbind res_bind]; [|done|done].
  pose proof (get_nohang (b_unit b1) index) as H2. destruct (get (b_unit b1) index) as [u| |]; cbn [mbind res_bind]; [|done|done].
  match goal with |- context [if ?c then ?a else ?b] => assert (H3 : (if c then a else b) <> Hang) by (destruct c; [apply upd_nohang|done]);
    destruct (if c then a else b) as [us| |]; cbn [mbind res_bind]; [|done|done] end.
  match goal with |- context [upd us ci ?f] => pose proof (upd_nohang us ci f) as H4; destruct (upd us ci f) as [us1| |]; cbn [mbind res_bind]; [|done|done] end.
  match goal with |- context [upd us1 index ?f] => pose proof (upd_nohang us1 index f) as H5; destruct (upd us1 index f) as [us2| |]; cbn [mbind res_bind]; [|done|done] end.
  apply IH; lia.
Qed.

(** With the length of the key, or with a greater one, the search is the same up
    to the end of the key; there the greater one stops or panics. *)
Lemma find_end key len n b index : (Z.of_nat (length key) < len)%Z ->
  let r := insert_find (S n) b key len index (Z.of_nat (length key)) in
  r = Panic \/ r = Ok (Some (index, Z.of_nat (length key), b)).
Proof.
  intros Hl. cbn [insert_find]. pose proof (get_nohang (b_unit b) index) as H1.
  destruct (get (b_unit b) index) as [u| |]; cbn [mbind res_bind]; [|by left|done].
  destruct (u_child u =? 0); [by right|]. rewrite label_out by done. by left.
Qed.
Lemma find_long key len : (Z.of_nat (length key) < len)%Z -> forall n m b index pos,
  (0 <= pos)%Z -> (Z.of_nat (length key) = pos + Z.of_nat n)%Z ->
  let r := insert_find (S n + m) b key len index pos in
  let r0 := insert_find (S n) b key (Z.of_nat (length key)) index pos in
  r = Panic \/ (exists i, r = Ok (Some (i, Z.of_nat (length key), b))) \/ r = r0 /\ (forall i p b', r = Ok (Some (i, p, b')) -> (0 <= p <= Z.of_nat (length key))%Z).
Proof.
  intros Hl. induction n as [|n IH]; intros m b index pos Hp Hn.
  - assert (pos = Z.of_nat (length key)) as -> by lia. destruct (find_end key len m b index Hl) as [H|H]; [by left|right; left; by exists index].
  - change (S (S n) + m)%nat with (S (S n + m)). set (n1 := (S n + m)%nat) in *. set (n2 := S n) in *. cbn [insert_find].
    destruct (get (b_unit b) index) as [u| |]; cbn [mbind res_bind]; [|by left|right; right; split; done].
    destruct (u_child u =? 0). { right. right. split; [done|]. intros i p b' [= _ <- _]. lia. }
    destruct (label_in key len pos ltac:(lia) ltac:(lia)) as (l & Hk & ->).
    destruct (label_in key (Z.of_nat (length key)) pos ltac:(lia) ltac:(lia)) as (l' & Hk' & ->).
    rewrite Hk in Hk'. injection Hk' as <-. cbn [mbind res_bind].
    destruct (get (b_unit b) (u_child u)) as [cu| |]; cbn [mbind res_bind]; [|by left|right; right; split; done].
    destruct (l <? u_label cu); [right; right; split; done|]. destruct (u_label cu <? l).
    { right. right. split; [done|]. intros i p b'. destruct (upd _ _ _) as [us| |]; cbn [mbind res_bind]; [|done|done].
      destruct (fixUnits _ _) as [b1| |]; cbn [mbind res_bind]; [|done|done]. intros [= _ <- _]. lia. }
    apply IH; lia.
Qed.

Lemma long_find (key : list N) len : (Z.of_nat (length key) < len)%Z ->
  Z.to_nat (len + 1) = (S (length key) + (Z.to_nat len - length key))%nat.
Proof. lia. Qed.

Lemma insert_long b key len v r b' : (Z.of_nat (length key) < len)%Z ->
  InsertStringValue b key v = Ok (r, b') ->
  InsertKeyValue b key len v = Panic \/ r = false.
Proof.
  intros Hl H. unfold InsertStringValue, InsertKeyValue in *.
  destruct (match b_hash b with [] => db_init b | _ => Ok b end) as [b0| |]; cbn [mbind res_bind] in *; [|by left|done].
  rewrite (long_find key) by done.
  replace (Z.to_nat (Z.of_nat (length key) + 1)) with (S (length key)) in H by lia.
  destruct (find_long key len Hl (length key) (Z.to_nat len - length key) b0 0 0%Z ltac:(lia) ltac:(lia)) as [E|[(i & E)|[E Hp]]].
  - rewrite E. by left.
  - rewrite E. cbn [mbind res_bind]. rewrite add_long by lia. by left.
  - rewrite E in Hp |- *. destruct (insert_find (S (length key)) b0 key (Z.of_nat (length key)) 0 0) as [[[[i p] b1]|]| |]; cbn [mbind res_bind] in *.
    + specialize (Hp i p b1 eq_refl). rewrite add_long by lia. by left.
    + right. congruence.
    + by left.
    + done.
Qed.

Lemma insert_long_lower b x afs w A key len v p l q l' r :
  brep_st b x afs w A -> (Z.of_nat (length key) < len)%Z -> pathof afs = p ++ l :: q ->
  key = p ++ l' :: r -> l' < l -> InsertKeyValue b key len v = Ok (false, b).
Proof.
  intros [(fs & c & H & Hctx & Hok & Hne & Hc & <-)] Hlen Hp Hk Hl. rewrite pathof_alpha in Hp.
  pose proof (dyn_nodup _ _ _ _ _ _ H) as Hnd. apply NoDup_app in Hnd as [Hnd _]. pose proof (dy_agrees _ _ _ _ _ _ H) as Hag.
  destruct (frames_split _ _ _ _ Hp) as (inner & g & g1 & -> & Hg1 & Hg & Hq).
  unfold InsertKeyValue. pose proof (hash_ne _ _ _ _ _ _ H) as Hh.
  destruct (b_hash b) as [|h0 hh] eqn:Eh; [done|]. cbn [mbind res_bind].
  assert (Hlk : (length key = length p + S (length r))%nat) by (subst key; rewrite app_length; done).
  replace (Z.to_nat (len + 1)) with (length p + S (Z.to_nat len - length p))%nat by lia.
  assert (Hlab : forall j z, key !! j = Some z -> key_label key len (Z.of_nat j) = Ok z).
  { intros j z Hj. pose proof (lookup_lt_Some _ _ _ Hj). destruct (label_in key len (Z.of_nat j) ltac:(lia) ltac:(lia)) as (z' & Hz & ->).
    rewrite Nat2Z.id in Hz. congruence. }
  pose proof (find_skip p g1 b (inner ++ [g]) [] c [] (S (Z.to_nat len - length p)) key len 0%Z) as Hskip.
  rewrite app_nil_r, <- app_assoc in Hskip. cbn [app lastu] in Hskip. rewrite Hskip; [|done|done|done|].
  - rewrite (find_reject _ inner g (rev g1) c [] _ _ _ _ l'); [done|done|done| |lia].
    rewrite Z.add_0_l. apply Hlab. rewrite Hk, lookup_app_r, Nat.sub_diag by lia. done.
  - intros j z Hj. rewrite Z.add_0_l. apply Hlab. rewrite Hk. by apply lookup_app_l_Some.
Qed.

Lemma insert_long_prefix b x afs w A key len v l q :
  brep_st b x afs w A -> (Z.of_nat (length key) < len)%Z -> pathof afs = key ++ l :: q ->
  InsertKeyValue b key len v = Panic.
Proof.
  intros [(fs & c & H & Hctx & Hok & Hne & Hc & <-)] Hlen Hp. rewrite pathof_alpha in Hp.
  pose proof (dyn_nodup _ _ _ _ _ _ H) as Hnd. apply NoDup_app in Hnd as [Hnd _]. pose proof (dy_agrees _ _ _ _ _ _ H) as Hag.
  destruct (frames_split _ _ _ _ Hp) as (inner & g & g1 & -> & Hg1 & Hg & Hq).
  unfold InsertKeyValue. pose proof (hash_ne _ _ _ _ _ _ H) as Hh.
  destruct (b_hash b) as [|h0 hh] eqn:Eh; [done|]. cbn [mbind res_bind].
  replace (Z.to_nat (len + 1)) with (length key + S (Z.to_nat len - length key))%nat by lia.
  pose proof (find_skip key g1 b (inner ++ [g]) [] c [] (S (Z.to_nat len - length key)) key len 0%Z) as Hskip.
  rewrite app_nil_r, <- app_assoc in Hskip. cbn [app lastu] in Hskip. rewrite Hskip; [|done|done|done|].
  - rewrite Z.add_0_l. destruct (find_end key len (Z.to_nat len - length key) b (lastu (rev g1)) Hlen) as [E|E]; rewrite E; cbn [mbind res_bind]; [done|].
    rewrite add_long by lia. done.
  - intros j z Hj. rewrite Z.add_0_l. pose proof (lookup_lt_Some _ _ _ Hj).
    destruct (label_in key len (Z.of_nat j) ltac:(lia) ltac:(lia)) as (z' & Hz & ->). rewrite Nat2Z.id in Hz. congruence.
Qed.

(** The two cases after a history. *)
Lemma kcmp_gt a b : kcmp a b = Gt -> (exists p l q l' r, a = p ++ l :: q /\ b = p ++ l' :: r /\ l' < l) \/ exists l q, a = b ++ l :: q.
Proof.
  revert b. induction a as [|x a IH]; intros [|y b]; cbn; [done|done|by right; exists x, a|].
  destruct (N.compare_spec x y) as [->|?|Hlt]; [|done|].
  - intros H. destruct (IH b H) as [(p & l & q & l' & r & -> & -> & Hl)|(l & q & ->)]; [left|right].
    + by exists (y :: p), l, q, l', r.
    + by exists l, q.
  - intros _. left. by exists [], x, a, y, b.
Qed.
Lemma length_long size h k v b len : size_ok size -> hist_ok (h ++ [(k, v)]) ->
  insert_all (NewDawgBuilderWithSize size) h = Ok (results h, b) -> (Z.of_nat (length k) < len)%Z ->
  let before := exists k0 v0 p l q l' r, last (accepted h) = Some (k0, v0) /\ k0 = p ++ l :: q /\ k = p ++ l' :: r /\ l' < l in
  (before -> InsertKeyValue b k len v = Ok (false, b)) /\ (~ before -> InsertKeyValue b k len v = Panic).
Proof.
  intros Hs Hh Hb Hl before. destruct (insert_next size h k v Hs Hh) as (b0 & b' & H1 & H2 & _).
  rewrite Hb in H1. injection H1 as <-. destruct (insert_long b k len v _ b' Hl H2) as [E|E].
  - split; [|done]. destruct h as [|kv h]; [by intros (k0 & v0 & p & l & q & l' & r & H & _)|].
    intros (k0 & v0 & p & l & q & l' & r & H & Hk0 & Hk & Hlt).
    destruct (history_abs kv h (hist_ok_app _ _ Hh)) as (x & afs & w & A & Hab & HA & Hrun). destruct (Hrun size Hs) as (b1 & Hr & Hb1).
    rewrite Hb in Hr. injection Hr as <-. destruct Hab as [_ _ _ (es1 & k1 & v1 & He & Hp & _) _]. rewrite He, last_snoc in H. injection H as -> ->.
    rewrite (insert_long_lower b x afs w A k len v p l (q ++ [0]) l' r Hb1 Hl) in E; [done| |done|done]. rewrite Hp, Hk0, <- app_assoc. done.
  - destruct h as [|kv h]; [done|].
    destruct (history_abs kv h (hist_ok_app _ _ Hh)) as (x & afs & w & A & Hab & HA & Hrun). destruct (Hrun size Hs) as (b1 & Hr & Hb1).
    rewrite Hb in Hr. injection Hr as <-. destruct Hab as [_ _ _ (es1 & k0 & v0 & He & Hp & _) _]. unfold before. rewrite He in E |- *. unfold spec_insert in E.
    rewrite last_snoc in E |- *. cbn [fst] in E.
    assert (Hc : kcmp k0 k = Gt) by (by destruct (kcmp k0 k)). destruct (kcmp_gt _ _ Hc) as [(p & l & q & l' & r & -> & -> & Hlt)|(l & q & ->)]; split.
    + intros _. apply (insert_long_lower b x afs w A _ len v p l (q ++ [0]) l' r Hb1 Hl); [|done|done]. rewrite Hp, <- app_assoc. done.
    + intros []. by exists (p ++ l :: q), v0, p, l, q, l', r.
    + intros (k0 & v1 & p & l1 & q1 & l' & r & [= <- <-] & H3 & -> & Hlt). exfalso. rewrite <- app_assoc in H3. apply app_inv_head in H3.
      cbn in H3. injection H3 as -> _. lia.
    + intros _. apply (insert_long_prefix b x afs w A k len v l (q ++ [0]) Hb1 Hl). rewrite Hp, <- app_assoc. done.
Qed.

(** ** A negative length *)
Lemma length_negative b u us key len v : (len < 0)%Z -> b_hash b <> [] -> b_unit b = u :: us ->
  InsertKeyValue b key len v = Ok (true, set_unit b (du_set_child u (u32_of_i32 v) :: us)).
Proof.
  intros Hl Hh Hu. unfold InsertKeyValue. destruct (b_hash b) as [|h0 hh] eqn:E; [done|]. cbn [mbind res_bind].
  replace (Z.to_nat (len + 1)) with 0%nat by lia. cbn [insert_find mbind res_bind].
  replace (Z.to_nat (len + 1 - 0)) with 0%nat by lia. cbn [insert_add mbind res_bind]. rewrite Hu. done.
Qed.

(** The root's child, which a negative length overwrites, is not read when the
    units are fixed, and it is written again when the last of them is. *)
Definition swap (c : N) (us : list dunit) : list dunit := match us with [] => [] | u :: t => du_set_child u c :: t end.
Definition swap0 (c : N) (b : builder) : builder := set_unit b (swap c (b_unit b)).
Lemma swap_length c us : length (swap c us) = length us.
Proof. by destruct us. Qed.
Lemma swap_get c us i : i <> 0 -> get (swap c us) i = get us i.
Proof. intros Hi. unfold get. destruct us as [|u t]; [done|]. cbn [swap]. destruct (N.to_nat i) eqn:E; [lia|done]. Qed.
Lemma swap_upd c us i f : i <> 0 -> upd (swap c us) i f = (us1 ← upd us i f; Ok (swap c us1)).
Proof.
  intros Hi. unfold upd. rewrite swap_get by done. destruct (get us i) as [u| |]; cbn [mbind res_bind]; [|done|done].
  unfold set. destruct us as [|u0 t]; [done|]. cbn [swap]. destruct (N.to_nat i) as [|j] eqn:E; [lia|]. cbn. by destruct (t !! j).
Qed.
Lemma swap_upd0 c us m : upd (swap c us) 0 (fun u => du_set_child u m) = upd us 0 (fun u => du_set_child u m).
Proof. by destruct us as [|[] t]. Qed.
Lemma swap_hashUnit c us n : forall i h, hashUnit_loop n (swap c us) i h = hashUnit_loop n us i h.
Proof.
  induction n as [|n IH]; intros i h; [done|]. cbn [hashUnit_loop]. destruct (N.eqb_spec i 0); [done|].
  rewrite swap_get by done. destruct (get us i); cbn [mbind res_bind]; [apply IH|done|done].
Qed.
Lemma swap_count c us base n : forall i t, areEqual_count n (swap c us) base i t = areEqual_count n us base i t.
Proof.
  induction n as [|n IH]; intros i t; [done|]. cbn [areEqual_count]. destruct (N.eqb_spec i 0); [done|].
  destruct (get base t) as [bs| |]; cbn [mbind res_bind]; [|done|done]. destruct (bu_hasSibling bs); [|done].
  rewrite swap_get by done. destruct (get us i); cbn [mbind res_bind]; [apply IH|done|done].
Qed.
Lemma swap_cmp c us base label n : forall i t, areEqual_cmp n (swap c us) base label i t = areEqual_cmp n us base label i t.
Proof.
  induction n as [|n IH]; intros i t; [done|]. cbn [areEqual_cmp]. destruct (N.eqb_spec i 0); [done|].
  rewrite swap_get by done. destruct (get us i) as [u| |]; cbn [mbind res_bind]; [|done|done].
  destruct (get base t) as [bs| |]; cbn [mbind res_bind]; [|done|done]. destruct (negb _); [done|].
  destruct (get label t) as [l| |]; cbn [mbind res_bind]; [|done|done]. destruct (negb _); [done|]. apply IH.
Qed.
Lemma swap_areEqual c b i t : i <> 0 -> areEqual (swap0 c b) i t = areEqual b i t.
Proof.
  intros Hi. unfold areEqual. cbn [swap0 set_unit b_unit b_base b_label]. rewrite swap_get, swap_length by done.
  destruct (get (b_unit b) i) as [u| |]; cbn [mbind res_bind]; [|done|done]. rewrite swap_count.
  destruct (areEqual_count _ _ _ _ _) as [[t'|]| |]; cbn [mbind res_bind]; [|done|done|done].
  destruct (get (b_base b) t') as [bs| |]; cbn [mbind res_bind]; [|done|done]. destruct (bu_hasSibling bs); [done|]. apply swap_cmp.
Qed.
Lemma swap_findUnit c b i : i <> 0 -> findUnit (swap0 c b) i = findUnit b i.
Proof.
  intros Hi. unfold findUnit, hashUnit. cbn [swap0 set_unit b_unit b_hash]. rewrite swap_length, swap_hashUnit.
  destruct (hashUnit_loop _ _ _ _) as [hv| |]; cbn [mbind res_bind]; [|done|done].
  destruct (rem32 _ _) as [h| |]; cbn [mbind res_bind]; [|done|done].
  generalize (S (length (b_hash b))) as n. intros n. revert h. induction n as [|n IH]; intros h; [done|]. cbn [findUnit_loop].
  change (b_hash (swap0 c b)) with (b_hash b). destruct (get (b_hash b) h) as [t| |]; cbn [mbind res_bind]; [|done|done]. destruct (t =? 0); [done|].
  rewrite swap_areEqual by done.
  destruct (areEqual b i t) as [[]| |]; cbn [mbind res_bind]; [done| |done|done].
  destruct (rem32 _ _) as [h'| |]; cbn [mbind res_bind]; [apply IH|done|done].
Qed.
Lemma swap_countSiblings c us n : forall i, countSiblings n (swap c us) i = countSiblings n us i.
Proof.
  induction n as [|n IH]; intros i; [done|]. cbn [countSiblings]. destruct (N.eqb_spec i 0); [done|].
  rewrite swap_get by done. destruct (get us i); cbn [mbind res_bind]; [by rewrite IH|done|done].
Qed.
Lemma swap_write c us n : forall base label i t, writeTransitions n (swap c us) base label i t = writeTransitions n us base label i t.
Proof.
  induction n as [|n IH]; intros base label i t; [done|]. cbn [writeTransitions]. destruct (N.eqb_spec i 0); [done|].
  rewrite swap_get by done. destruct (get us i) as [u| |]; cbn [mbind res_bind]; [|done|done].
  destruct (set base t _) as [bs| |]; cbn [mbind res_bind]; [|done|done]. destruct (set label t _) as [ls| |]; cbn [mbind res_bind]; [apply IH|done|done].
Qed.
Lemma swap_free c n : forall b i, freeUnits n (swap0 c b) i = (b1 ← freeUnits n b i; Ok (swap0 c b1)).
Proof.
  induction n as [|n IH]; intros b i; [done|]. cbn [freeUnits]. destruct (N.eqb_spec i 0); [done|].
  cbn [swap0 set_unit b_unit]. rewrite swap_get by done. destruct (get (b_unit b) i) as [u| |]; cbn [mbind res_bind]; [|done|done].
  exact (IH (freeUnit b i) (u_sibling u)).
Qed.
Lemma free_unfixed n : forall b i b', freeUnits n b i = Ok b' -> b_unfixed b' = b_unfixed b.
Proof.
  induction n as [|n IH]; intros b i b'; [done|]. cbn [freeUnits]. destruct (i =? 0); [congruence|].
  destruct (get (b_unit b) i) as [u| |]; cbn [mbind res_bind]; [|done|done]. intros H. by apply IH in H.
Qed.
Lemma swap_expand_loop c n : forall b i, expand_loop n (swap0 c b) i = (b1 ← expand_loop n b i; Ok (swap0 c b1)).
Proof.
  induction n as [|n IH]; intros b i; [done|]. cbn [expand_loop].
  change (b_label (swap0 c b)) with (b_label b). change (b_base (swap0 c b)) with (b_base b). change (b_hash (swap0 c b)) with (b_hash b).
  destruct (get (b_label b) _) as [l| |]; cbn [mbind res_bind]; [|done|done]. destruct (get (b_base b) _) as [bs| |]; cbn [mbind res_bind]; [|done|done].
  destruct (_ || _); [|exact (IH b _)].
  change (findTransition (swap0 c b) (u32 i)) with (findTransition b (u32 i)).
  destruct (findTransition b _) as [h'| |]; cbn [mbind res_bind]; [|done|done]. destruct (set (b_hash b) _ _) as [tbl| |]; cbn [mbind res_bind]; [|done|done].
  exact (IH (set_hash b tbl) (i + 1)).
Qed.
Lemma swap_expand c b : expandHashTable (swap0 c b) = (b1 ← expandHashTable b; Ok (swap0 c b1)).
Proof. unfold expandHashTable. exact (swap_expand_loop c (length (b_base b) - 1) (set_hash b (replicate (N.to_nat (N.shiftl (N.of_nat (length (b_hash b))) 1)) 0)) 1). Qed.
Lemma expand_unfixed n : forall b i b', expand_loop n b i = Ok b' -> b_unfixed b' = b_unfixed b.
Proof.
  induction n as [|n IH]; intros b i b'; cbn [expand_loop]; [congruence|].
  destruct (get (b_label b) _) as [l| |]; cbn [mbind res_bind]; [|done|done]. destruct (get (b_base b) _) as [bs| |]; cbn [mbind res_bind]; [|done|done].
  destruct (_ || _); [|apply IH]. destruct (findTransition _ _) as [h'| |]; cbn [mbind res_bind]; [|done|done].
  destruct (set (b_hash b) _ _) as [tbl| |]; cbn [mbind res_bind]; [|done|done]. intros H. by apply IH in H.
Qed.
Lemma swap_allocate c n : forall b t, allocateTransitions n (swap0 c b) t = let '(t', b') := allocateTransitions n b t in (t', swap0 c b').
Proof. induction n as [|n IH]; intros b t; [done|]. cbn [allocateTransitions]. exact (IH (set_pools b (b_base b ++ [0]) (b_label b ++ [0]) (bp_allocate (b_flag b))) _). Qed.
Lemma allocate_unfixed n : forall b t t' b', allocateTransitions n b t = (t', b') -> b_unfixed b' = b_unfixed b.
Proof. induction n as [|n IH]; intros b t t' b'; cbn; [congruence|]. intros H. by apply IH in H. Qed.

(** fixUnit up to its last statement, which writes the child of the new top. *)
Definition fixed_of (b : builder) (i : N) : res (N * builder) :=
  let len := N.of_nat (length (b_hash b)) in
  b ← (if len - N.shiftr len 2 <=? b_states b then expandHashTable b else Ok b);
  n ← countSiblings (S (length (b_unit b))) (b_unit b) i;
  '(matched, hashId) ← findUnit b i;
  '(matchedIndex, b) ←
    (if negb (matched =? 0) then
       let b := set_mergedTrans b (b_mergedTrans b + N.of_nat n) in
       fl ← bp_get (b_flag b) matched;
       if (fl : bool) then Ok (matched, b) else
       let b := set_merging b (b_merging b + 1) in
       fp ← bp_set (b_flag b) matched true;
       Ok (matched, set_flag b fp)
     else
       let '(t, b) := allocateTransitions n b 0 in
       '(bs, ls, t) ← writeTransitions (S (length (b_unit b))) (b_unit b) (b_base b) (b_label b) i t;
       let b := set_pools b bs ls (b_flag b) in
       let matchedIndex := u32 (t + 1) in
       tbl ← set (b_hash b) hashId matchedIndex;
       Ok (matchedIndex, set_states (set_hash b tbl) (b_states b + 1)));
  b ← freeUnits (S (length (b_unit b))) b i; Ok (matchedIndex, b).
Lemma fixUnit_eq b i : fixUnit b i = ('(m, b) ← fixed_of b i;
  match b_unfixed b with
  | [] => Panic
  | top :: _ => us ← upd (b_unit b) top (fun u => du_set_child u m); Ok (set_unit b us)
  end).
Proof.
  unfold fixUnit, fixed_of. destruct (if _ <=? _ then _ else _) as [b1| |]; cbn [mbind res_bind]; [|done|done].
  destruct (countSiblings _ _ _) as [n| |]; cbn [mbind res_bind]; [|done|done].
  destruct (findUnit b1 i) as [[m h]| |]; cbn [mbind res_bind]; [|done|done].
  match goal with |- context [if ?c then ?a else ?b] => destruct (if c then a else b) as [[m' b2]| |]; cbn [mbind res_bind]; [|done|done] end.
  by destruct (freeUnits _ b2 i).
Qed.
Lemma swap_tail c m b i : (b' ← freeUnits (S (length (b_unit (swap0 c b)))) (swap0 c b) i; Ok (m, b')) =
  ('(m, b1) ← (b' ← freeUnits (S (length (b_unit b))) b i; Ok (m, b')); Ok (m : N, swap0 c b1)).
Proof.
  change (b_unit (swap0 c b)) with (swap c (b_unit b)). rewrite swap_length, swap_free. by destruct (freeUnits _ b i).
Qed.
Lemma swap_fixed c b i : i <> 0 -> fixed_of (swap0 c b) i = ('(m, b1) ← fixed_of b i; Ok (m, swap0 c b1)).
Proof.
  intros Hi. unfold fixed_of. change (b_hash (swap0 c b)) with (b_hash b). change (b_states (swap0 c b)) with (b_states b).
  assert (E : (if N.of_nat (length (b_hash b)) - N.shiftr (N.of_nat (length (b_hash b))) 2 <=? b_states b then expandHashTable (swap0 c b) else Ok (swap0 c b)) =
    (b1 ← (if N.of_nat (length (b_hash b)) - N.shiftr (N.of_nat (length (b_hash b))) 2 <=? b_states b then expandHashTable b else Ok b); Ok (swap0 c b1))).
  { destruct (_ <=? _); [apply swap_expand|done]. }
  cbv zeta. rewrite E. clear E.
  destruct (if N.of_nat (length (b_hash b)) - N.shiftr (N.of_nat (length (b_hash b))) 2 <=? b_states b then expandHashTable b else Ok b) as [b1| |]; cbn [mbind res_bind]; [|done|done].
  rewrite swap_findUnit by done. change (b_unit (swap0 c b1)) with (swap c (b_unit b1)). rewrite swap_length, swap_countSiblings.
  destruct (countSiblings (S (length (b_unit b1))) (b_unit b1) i) as [n| |]; cbn [mbind res_bind]; [|done|done].
  destruct (findUnit b1 i) as [[m h]| |]; cbn [mbind res_bind]; [|done|done].
  destruct (negb (m =? 0)).
  - change (b_flag (set_mergedTrans (swap0 c b1) (b_mergedTrans (swap0 c b1) + N.of_nat n))) with (b_flag b1).
    change (b_flag (set_mergedTrans b1 (b_mergedTrans b1 + N.of_nat n))) with (b_flag b1).
    destruct (bp_get (b_flag b1) m) as [[]| |]; cbn [mbind res_bind]; [| |done|done].
    + exact (swap_tail c m (set_mergedTrans b1 (b_mergedTrans b1 + N.of_nat n)) i).
    + change (b_flag (set_merging _ _)) with (b_flag b1).
      change (b_flag (set_merging (set_mergedTrans b1 (b_mergedTrans b1 + N.of_nat n)) (b_merging (set_mergedTrans b1 (b_mergedTrans b1 + N.of_nat n)) + 1))) with (b_flag b1).
      destruct (bp_set (b_flag b1) m true) as [fp| |]; cbn [mbind res_bind]; [|done|done].
      exact (swap_tail c m (set_flag (set_merging (set_mergedTrans b1 (b_mergedTrans b1 + N.of_nat n)) (b_merging b1 + 1)) fp) i).
  - rewrite (swap_allocate c n b1 0). destruct (allocateTransitions n b1 0) as [t b2].
    change (b_unit (swap0 c b2)) with (swap c (b_unit b2)). rewrite swap_length, swap_write.
    change (b_base (swap0 c b2)) with (b_base b2). change (b_label (swap0 c b2)) with (b_label b2).
    destruct (writeTransitions _ (b_unit b2) (b_base b2) (b_label b2) i t) as [[[bs ls] t']| |]; cbn [mbind res_bind]; [|done|done].
    change (b_hash (set_pools (swap0 c b2) bs ls (b_flag (swap0 c b2)))) with (b_hash b2). change (b_hash (set_pools b2 bs ls (b_flag b2))) with (b_hash b2).
    destruct (set (b_hash b2) h _) as [tbl| |]; cbn [mbind res_bind]; [|done|done].
    exact (swap_tail c (u32 (t' + 1)) (set_states (set_hash (set_pools b2 bs ls (b_flag b2)) tbl) (b_states b2 + 1)) i).
Qed.
Lemma fixed_unfixed b i m b' : fixed_of b i = Ok (m, b') -> b_unfixed b' = b_unfixed b.
Proof.
  unfold fixed_of. destruct (if _ <=? _ then _ else _) as [b1| |] eqn:E1; cbn [mbind res_bind]; [|done|done].
  assert (H1 : b_unfixed b1 = b_unfixed b).
  { destruct (_ <=? _) in E1; [|congruence]. unfold expandHashTable in E1. by apply expand_unfixed in E1. }
  destruct (countSiblings _ _ _) as [n| |]; cbn [mbind res_bind]; [|done|done].
  destruct (findUnit b1 i) as [[mm h]| |]; cbn [mbind res_bind]; [|done|done].
  match goal with |- context [if ?c then ?a else ?b] => destruct (if c then a else b) as [[m' b2]| |] eqn:E2; cbn [mbind res_bind]; [|done|done] end.
  assert (H2 : b_unfixed b2 = b_unfixed b1).
  { clear -E2. destruct (negb _).
    - destruct (bp_get _ _) as [[]| |]; cbn [mbind res_bind] in E2; [| |done|done]; [by injection E2 as _ <-|].
      destruct (bp_set _ _ _) as [fp| |]; cbn [mbind res_bind] in E2; [|done|done]. by injection E2 as _ <-.
    - destruct (allocateTransitions n b1 0) as [t b3] eqn:E3. apply allocate_unfixed in E3.
      destruct (writeTransitions _ _ _ _ _ _) as [[[bs ls] t']| |]; cbn [mbind res_bind] in E2; [|done|done].
      destruct (set _ _ _) as [tbl| |]; cbn [mbind res_bind] in E2; [|done|done]. by injection E2 as _ <-. }
  destruct (freeUnits _ b2 i) as [b3| |] eqn:E3; cbn [mbind res_bind]; [|done|done]. intros [= _ <-]. apply free_unfixed in E3. congruence.
Qed.
Lemma swap_fixUnits c top rest : forall b, top <> 0 ->
  fixUnits_loop (top :: rest) (swap0 c b) 0 = fixUnits_loop (top :: rest) b 0.
Proof.
  revert top. induction rest as [|top' rest IH]; intros top b Ht; cbn [fixUnits_loop]; destruct (N.eqb_spec top 0) as [|_]; try done.
  - change (set_unfixed (swap0 c b) []) with (swap0 c (set_unfixed b [])). rewrite !fixUnit_eq, swap_fixed by done.
    destruct (fixed_of _ top) as [[m b1]| |] eqn:E; cbn [mbind res_bind]; [|done|done]. apply fixed_unfixed in E. cbn [swap0 set_unit b_unfixed]. rewrite E. done.
  - change (set_unfixed (swap0 c b) (top' :: rest)) with (swap0 c (set_unfixed b (top' :: rest))). rewrite !fixUnit_eq, swap_fixed by done.
    destruct (fixed_of _ top) as [[m b1]| |] eqn:E; cbn [mbind res_bind]; [|done|done]. apply fixed_unfixed in E. cbn [swap0 set_unit b_unfixed b_unit]. rewrite E. cbn [set_unfixed b_unfixed].
    destruct (N.eqb_spec top' 0) as [->|Ht'].
    + rewrite swap_upd0. destruct (upd (b_unit b1) 0 _) as [us| |]; cbn [mbind res_bind]; done.
    + rewrite swap_upd by done. destruct (upd (b_unit b1) top' _) as [us| |]; cbn [mbind res_bind]; [|done|done].
      specialize (IH top' (set_unit b1 us) Ht'). cbn [fixUnits_loop] in IH. destruct (N.eqb_spec top' 0); [done|]. exact IH.
Qed.

Lemma negative_finish size kv h rs b key len v b' d : size_ok size -> hist_ok (kv :: h) ->
  insert_all (NewDawgBuilderWithSize size) (kv :: h) = Ok (rs, b) -> (len < 0)%Z ->
  InsertKeyValue b key len v = Ok (true, b') -> Finish b' d = Finish b d.
Proof.
  intros Hs Hh Hb Hl Hi. destruct (history_abs kv h Hh) as (x & afs & w & A & _ & _ & Hrun). destruct (Hrun size Hs) as (b1 & Hr & Hb1).
  rewrite Hb in Hr. injection Hr as -> <-. destruct Hb1 as [(fs & c & H & [Hst Hhs] & Hok & Hne & Hc & _)].
  pose proof (hash_ne _ _ _ _ _ _ H) as Hh0. destruct fs as [|f fs]; [done|].
  pose proof (dyn_nodup _ _ _ _ _ _ H) as Hnd. apply NoDup_app in Hnd as [Hnd _].
  pose proof (open_ne (b_unit b) [] f fs c [] (dy_agrees _ _ _ _ _ _ H) Hnd) as Hf.
  destruct (b_unit b) as [|u us] eqn:Eu.
  { unfold InsertKeyValue in Hi. destruct (b_hash b) as [|h0 hh]; [done|]. cbn [mbind res_bind] in Hi.
    replace (Z.to_nat (len + 1)) with 0%nat in Hi by lia. cbn [insert_find mbind res_bind] in Hi.
    replace (Z.to_nat (len + 1 - 0)) with 0%nat in Hi by lia. cbn [insert_add mbind res_bind] in Hi. rewrite Eu in Hi. done. }
  rewrite (length_negative b u us key len v Hl Hh0 Eu) in Hi. injection Hi as <-.
  assert (E : set_unit b (du_set_child u (u32_of_i32 v) :: us) = swap0 (u32_of_i32 v) b) by (unfold swap0; rewrite Eu; done).
  rewrite E. unfold Finish. change (b_hash (swap0 (u32_of_i32 v) b)) with (b_hash b).
  destruct (b_hash b) as [|h0 hh]; [done|]. cbn [mbind res_bind]. unfold fixUnits.
  change (b_unfixed (swap0 (u32_of_i32 v) b)) with (b_unfixed b). rewrite Hst. cbn [map app].
  rewrite swap_fixUnits by done. done.
Qed.
