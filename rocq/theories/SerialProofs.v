(** Reading and writing slices of units. *)
From Verif Require Import Go LinkTableProofs Serial.
Local Open Scope N_scope.
Local Arguments N.mul : simpl never.
Local Arguments N.add : simpl never.
Local Arguments N.of_nat : simpl never.
Local Arguments N.shiftl : simpl never.
Local Arguments N.shiftr : simpl never.
Local Arguments N.lor : simpl never.
Local Ltac Zify.zify_post_hook ::= Z.div_mod_to_equations.

Notation bytes_ok := (Forall (fun b => b < 256)).

Lemma ReadFull_ok r : forall n, (n <= length (concat r))%nat -> exists r', io_ReadFull n r = (Some (take n (concat r)), r') /\ concat r' = drop n (concat r).
Proof.
  induction r as [|ch r IH]; intros n Hn.
  - cbn [concat length] in Hn. assert (n = 0%nat) as -> by lia. exists []. done.
  - destruct n as [|n]; [exists (ch :: r); done|]. cbn [io_ReadFull concat]. cbn [concat] in Hn. rewrite app_length in Hn. destruct (Nat.leb_spec (length ch) (S n)) as [H|H].
    + destruct (IH (S n - length ch)%nat) as (r' & E & Hc); [lia|]. rewrite E. exists r'. split; [|by rewrite Hc, drop_app_ge].
      f_equal. f_equal. rewrite (take_app_ge ch) by lia. done.
    + exists (drop (S n) ch :: r). split; [by rewrite take_app_le by lia|]. cbn [concat]. by rewrite drop_app_le by lia.
Qed.
Lemma ReadFull_short r : forall n, (length (concat r) < n)%nat -> io_ReadFull n r = (None, []).
Proof.
  induction r as [|ch r IH]; intros [|n] Hn; [lia|done|lia|]. cbn [io_ReadFull concat] in *. rewrite app_length in Hn.
  rewrite (proj2 (Nat.leb_le _ _)) by lia. by rewrite IH by lia.
Qed.

Lemma mod_shift x k : u8 (N.shiftr x k) = (x / 2 ^ k) mod 256.
Proof. unfold u8. by rewrite N.shiftr_div_pow2. Qed.
Lemma lor_add a b k : a < 2 ^ k -> N.lor a (b * 2 ^ k) = a + b * 2 ^ k.
Proof.
  intros Ha. rewrite <- N.shiftl_mul_pow2. apply N.bits_inj_iff. intros i. rewrite N.lor_spec. rewrite N.shiftl_mul_pow2.
  destruct (N.lt_ge_cases i k) as [Hi|Hi].
  - rewrite N.mul_pow2_bits_low by done. rewrite orb_false_r. rewrite <- (N.mod_pow2_bits_low (a + b * 2 ^ k) k i) by done.
    rewrite N.mod_add by (apply N.pow_nonzero; done). by rewrite N.mod_small by done.
  - rewrite N.mul_pow2_bits_high by done. replace (N.testbit a i) with false.
    + rewrite orb_false_l. replace i with ((i - k) + k) at 2 by lia. rewrite <- N.div_pow2_bits. rewrite N.div_add by (apply N.pow_nonzero; done). by rewrite N.div_small, N.add_0_l by done.
    + symmetry. destruct (N.eq_dec a 0) as [->|]; [apply N.bits_0|]. apply N.bits_above_log2. apply N.log2_lt_pow2; [lia|]. eapply N.lt_le_trans; [exact Ha|]. apply N.pow_le_mono_r; [done|exact Hi].
Qed.
Lemma join32 a b c d : a < 256 -> b < 256 -> c < 256 -> d < 256 ->
  N.lor (N.lor (N.lor a (shl32 b 8)) (shl32 c 16)) (shl32 d 24) = a + b * 2 ^ 8 + c * 2 ^ 16 + d * 2 ^ 24.
Proof.
  intros Ha Hb Hc Hd. unfold shl32. rewrite !N.shiftl_mul_pow2. rewrite !u32_id by (unfold two32; lia).
  rewrite (lor_add a b 8) by lia. rewrite (lor_add _ c 16) by lia. rewrite (lor_add _ d 24) by lia. done.
Qed.
Lemma get32_join a b c d rest : a < 256 -> b < 256 -> c < 256 -> d < 256 -> get32 (a :: b :: c :: d :: rest) = Ok (a + b * 2 ^ 8 + c * 2 ^ 16 + d * 2 ^ 24).
Proof. intros. unfold get32. cbn [get mbind res_bind]. change (get (a :: b :: c :: d :: rest) 3) with (Ok d). cbn [mbind res_bind]. change (get (a :: b :: c :: d :: rest) 0) with (Ok a). cbn [mbind res_bind].
  change (get (a :: b :: c :: d :: rest) 1) with (Ok b). cbn [mbind res_bind]. change (get (a :: b :: c :: d :: rest) 2) with (Ok c). cbn [mbind res_bind]. by rewrite join32. Qed.

(** What is needed of a kind of units. *)
Record codec {A} (k : nat) (put : A -> list N) (geta : list N -> res A) (ok : A -> Prop) : Prop := {
  cd_pos : (0 < k)%nat;
  cd_len x : length (put x) = k;
  cd_byte x : bytes_ok (put x);
  cd_get x rest : ok x -> geta (put x ++ rest) = Ok x;
  cd_any bs : bytes_ok bs -> (k <= length bs)%nat -> exists x, geta bs = Ok x /\ ok x /\ put x = take k bs
}.
Lemma codec32 : codec 4 put32 get32 (fun x => x < two32).
Proof.
  split.
  - lia.
  - done.
  - intros x. unfold put32. repeat (apply Forall_cons; split; [unfold u8; apply N.mod_lt; done|]). constructor.
  - intros x rest Hx. unfold put32. cbn [app]. rewrite get32_join by (unfold u8; apply N.mod_lt; done). f_equal. rewrite !mod_shift. unfold u8. unfold two32 in Hx. lia.
  - intros bs Hb Hl. destruct bs as [|a [|b [|c [|d rest]]]]; cbn [length] in Hl; [lia|lia|lia|lia|].
    apply Forall_cons in Hb as [Ha Hb]. apply Forall_cons in Hb as [Hb Hc]. apply Forall_cons in Hc as [Hc Hd]. apply Forall_cons in Hd as [Hd _].
    eexists. split; [by apply get32_join|]. split; [unfold two32; lia|]. unfold put32. rewrite !mod_shift. unfold u8. cbn [take]. f_equal; [lia|]. f_equal; [lia|]. f_equal; [lia|]. f_equal; lia.
Qed.
Lemma codecgu : codec 2 putgu getgu (fun x => x.1 < 256 /\ x.2 < 256).
Proof.
  split.
  - lia.
  - done.
  - intros x. unfold putgu. repeat (apply Forall_cons; split; [unfold u8; apply N.mod_lt; done|]). constructor.
  - intros [c s] rest [Hc Hs]. cbn [fst snd] in *. unfold putgu, getgu. cbn [app fst snd]. unfold u8. rewrite !N.mod_small by done. done.
  - intros bs Hb Hl. destruct bs as [|c [|s rest]]; cbn [length] in Hl; [lia|lia|]. apply Forall_cons in Hb as [Hc Hb]. apply Forall_cons in Hb as [Hs _].
    exists (c, s). split; [done|]. split; [done|]. unfold putgu, u8. cbn [fst snd take]. by rewrite !N.mod_small.
Qed.

Section units.
  Context {A : Type} (k : nat) (put : A -> list N) (geta : list N -> res A) (zero : A) (ok : A -> Prop) (HC : codec k put geta ok).
  Notation image l := (put32 (len32 l) ++ flat_map put l).
  Lemma flat_len l : length (flat_map put l) = (length l * k)%nat.
  Proof using HC. induction l as [|x l IH]; [done|]. cbn [flat_map length]. rewrite app_length, (cd_len _ _ _ _ HC), IH. lia. Qed.
  Lemma image_len l : length (image l) = (4 + length l * k)%nat.
  Proof using HC. rewrite app_length, flat_len. done. Qed.
  Lemma image_bytes l : bytes_ok (image l).
  Proof using HC.
    apply Forall_app. split; [apply (cd_byte _ _ _ _ codec32)|]. induction l as [|x l IH]; [constructor|]. cbn [flat_map]. apply Forall_app. split; [apply (cd_byte _ _ _ _ HC)|done].
  Qed.
  Lemma decode_put l : forall rest, Forall ok l -> decode k geta (length l) (flat_map put l ++ rest) = Ok l.
  Proof using HC.
    induction l as [|x l IH]; intros rest Hl; [done|]. apply Forall_cons in Hl as [Hx Hl]. cbn [length decode flat_map]. rewrite <- app_assoc, (cd_get _ _ _ _ HC) by done. cbn [mbind res_bind].
    rewrite drop_app_alt by (by rewrite (cd_len _ _ _ _ HC)). by rewrite IH.
  Qed.
  Lemma decode_any n : forall bs, bytes_ok bs -> (n * k <= length bs)%nat -> exists l, decode k geta n bs = Ok l /\ length l = n /\ Forall ok l /\ flat_map put l = take (n * k) bs.
  Proof using HC.
    induction n as [|n IH]; intros bs Hb Hl; [by exists []|]. cbn [Nat.mul] in Hl. destruct (cd_any _ _ _ _ HC bs Hb) as (x & Hx & Hok & Hp); [lia|].
    destruct (IH (drop k bs)) as (l & Hd & Hll & Hlo & Hf); [by apply Forall_drop|rewrite drop_length; lia|].
    exists (x :: l). cbn [decode]. rewrite Hx. cbn [mbind res_bind]. rewrite Hd. cbn [mbind res_bind length flat_map]. split; [done|]. split; [by rewrite Hll|]. split; [by apply Forall_cons|].
    rewrite Hp, Hf. cbn [Nat.mul]. rewrite take_take_drop. done.
  Qed.
  Lemma decode_len n : forall bs l, decode k geta n bs = Ok l -> length l = n.
  Proof using Type.
    induction n as [|n IH]; intros bs l H; cbn [decode] in H; [by injection H as <-|]. destruct (geta bs) as [x| |]; cbn [mbind res_bind] in H; [|done|done].
    destruct (decode k geta n (drop k bs)) as [l'| |] eqn:E; cbn [mbind res_bind] in H; [|done|done]. injection H as <-. cbn [length]. by rewrite (IH _ _ E).
  Qed.

  (** The outcome of Read, by what the reader holds. *)
  Inductive fate (r : reader) : Prop :=
  | ft_head : (length (concat r) < 4)%nat -> fate r
  | ft_body a : get32 (take 4 (concat r)) = Ok a -> a < two32 -> (4 <= length (concat r))%nat -> (length (concat r) - 4 < N.to_nat a * k)%nat -> fate r
  | ft_full l rest : Forall ok l -> N.of_nat (length l) < two32 -> concat r = image l ++ rest -> fate r.
  Lemma fates r : bytes_ok (concat r) -> fate r.
  Proof using HC.
    intros Hb. destruct (Nat.lt_ge_cases (length (concat r)) 4) as [H|H]; [by apply ft_head|].
    destruct (cd_any _ _ _ _ codec32 (concat r) Hb H) as (a & _ & Ha & Hp). assert (Hg : get32 (take 4 (concat r)) = Ok a).
    { rewrite <- Hp. pose proof (cd_get _ _ _ _ codec32 a [] Ha) as E. by rewrite app_nil_r in E. }
    destruct (Nat.lt_ge_cases (length (concat r) - 4) (N.to_nat a * k)) as [H2|H2]; [by apply (ft_body r a)|].
    destruct (decode_any (N.to_nat a) (drop 4 (concat r))) as (l & _ & Hl & Ho & Hf); [by apply Forall_drop|by rewrite drop_length|].
    apply (ft_full r l (drop (N.to_nat a * k) (drop 4 (concat r)))); [done|rewrite Hl, N2Nat.id; exact Ha|].
    unfold len32. rewrite Hl, N2Nat.id, u32_id by exact Ha. rewrite Hp, Hf, <- app_assoc, take_drop, take_drop. done.
  Qed.
  Lemma ReadBase_image l rest r : N.of_nat (length l) < two32 -> concat r = image l ++ rest -> exists r1, binary_ReadBase r = Ok (Some (N.of_nat (length l)), r1) /\ concat r1 = flat_map put l ++ rest.
  Proof using HC.
    intros Hn Hr. unfold binary_ReadBase. destruct (ReadFull_ok r 4) as (r1 & E & Hc).
    { rewrite Hr, app_length, image_len. lia. }
    rewrite E. rewrite Hr, <- app_assoc in Hc |- *. exists r1. rewrite drop_app_alt in Hc by done. split; [|exact Hc]. rewrite take_app_alt by done.
    pose proof (cd_get _ _ _ _ codec32 (len32 l) []) as E2. rewrite app_nil_r in E2. unfold len32 in *. rewrite u32_id in * by exact Hn. rewrite E2 by exact Hn. done.
  Qed.
  Lemma Read_image l rest r : Forall ok l -> concat r = flat_map put l ++ rest -> exists r1, binary_Read k geta (length l) r = Ok (Some l, r1) /\ concat r1 = rest.
  Proof using HC.
    intros Hl Hr. unfold binary_Read. destruct (ReadFull_ok r (length l * k)) as (r1 & E & Hc); [rewrite Hr, app_length, flat_len; lia|].
    rewrite E, Hr. rewrite take_app_alt by (by rewrite flat_len). pose proof (decode_put l [] Hl) as E2. rewrite app_nil_r in E2. rewrite E2. cbn [mbind res_bind].
    exists r1. split; [done|]. rewrite Hc, Hr. by rewrite drop_app_alt by (by rewrite flat_len).
  Qed.
  Lemma units_Read_image self l rest r : N.of_nat (length l) < two32 -> Forall ok l -> concat r = image l ++ rest -> exists r1, units_Read k geta self r = Ok (true, l, r1) /\ concat r1 = rest.
  Proof using HC.
    intros Hn Hl Hr. destruct (ReadBase_image l rest r Hn Hr) as (r1 & E1 & H1). destruct (Read_image l rest r1 Hl H1) as (r2 & E2 & H2).
    exists r2. split; [|exact H2]. unfold units_Read. rewrite E1. cbn [mbind res_bind]. rewrite Nat2N.id, E2. done.
  Qed.
  Lemma units_ReadInPlace_image self l rest r : N.of_nat (length l) < two32 -> Forall ok l -> concat r = image l ++ rest -> exists r1, units_ReadInPlace k geta zero self r = Ok (true, l, r1) /\ concat r1 = rest.
  Proof using HC.
    intros Hn Hl Hr. destruct (ReadBase_image l rest r Hn Hr) as (r1 & E1 & H1). destruct (Read_image l rest r1 Hl H1) as (r2 & E2 & H2).
    exists r2. split; [|exact H2]. unfold units_ReadInPlace. rewrite E1. cbn [mbind res_bind]. rewrite Nat2N.id, E2. done.
  Qed.
  Lemma ReadBase_head r : (length (concat r) < 4)%nat -> binary_ReadBase r = Ok (None, []).
  Proof using Type. intros H. unfold binary_ReadBase. by rewrite ReadFull_short. Qed.
  Lemma ReadBase_body r a : get32 (take 4 (concat r)) = Ok a -> (4 <= length (concat r))%nat -> exists r1, binary_ReadBase r = Ok (Some a, r1) /\ length (concat r1) = (length (concat r) - 4)%nat.
  Proof using Type.
    intros Hg H. unfold binary_ReadBase. destruct (ReadFull_ok r 4 H) as (r1 & E & Hc). rewrite E, Hg. exists r1. split; [done|]. by rewrite Hc, drop_length.
  Qed.
  Lemma Read_short r n : (length (concat r) < n * k)%nat -> binary_Read k geta n r = Ok (None, []).
  Proof using Type. intros H. unfold binary_Read. by rewrite ReadFull_short. Qed.
  Lemma units_Read_short self r : (length (concat r) < 4)%nat \/ (exists a, get32 (take 4 (concat r)) = Ok a /\ (4 <= length (concat r))%nat /\ (length (concat r) - 4 < N.to_nat a * k)%nat) ->
    units_Read k geta self r = Ok (false, self, []).
  Proof using Type.
    intros [H|(a & Hg & H & H2)]; unfold units_Read; [by rewrite ReadBase_head|]. destruct (ReadBase_body r a Hg H) as (r1 & E & Hl). rewrite E. cbn [mbind res_bind].
    rewrite Read_short by (by rewrite Hl). done.
  Qed.
  Lemma units_ReadInPlace_head self r : (length (concat r) < 4)%nat -> units_ReadInPlace k geta zero self r = Ok (false, self, []).
  Proof using Type. intros H. unfold units_ReadInPlace. by rewrite ReadBase_head. Qed.
  Lemma units_ReadInPlace_body self r a : get32 (take 4 (concat r)) = Ok a -> (4 <= length (concat r))%nat -> (length (concat r) - 4 < N.to_nat a * k)%nat ->
    units_ReadInPlace k geta zero self r = Ok (false, replicate (N.to_nat a) zero, []).
  Proof using Type.
    intros Hg H H2. unfold units_ReadInPlace. destruct (ReadBase_body r a Hg H) as (r1 & E & Hl). rewrite E. cbn [mbind res_bind].
    rewrite Read_short by (by rewrite Hl). done.
  Qed.
  (** A strict prefix of an image is short. *)
  Lemma prefix_short l n r : N.of_nat (length l) < two32 -> (n < length (image l))%nat -> concat r = take n (image l) ->
    (length (concat r) < 4)%nat \/ (get32 (take 4 (concat r)) = Ok (N.of_nat (length l)) /\ (4 <= length (concat r))%nat /\ (length (concat r) - 4 < N.to_nat (N.of_nat (length l)) * k)%nat).
  Proof using HC.
    intros Hl Hn Hr. rewrite image_len in Hn. assert (Hlen : length (concat r) = n) by (rewrite Hr, take_length, image_len; lia). rewrite Hlen.
    destruct (Nat.lt_ge_cases n 4) as [H|H]; [by left|]. right. split; [|split; [lia|rewrite Nat2N.id; lia]].
    rewrite Hr, take_take, (Nat.min_l 4 n) by lia. rewrite take_app_alt by done. pose proof (cd_get _ _ _ _ codec32 (len32 l) []) as E2. rewrite app_nil_r in E2. unfold len32 in *.
    rewrite u32_id in * by exact Hl. by apply E2.
  Qed.

  Lemma units_new_of self r l r' : units_Read k geta self r = Ok (true, l, r') -> units_new (units_Read k geta) r = Ok (Some l, r').
  Proof using Type.
    unfold units_new, units_Read. destruct (binary_ReadBase r) as [[[a|] r0]| |]; cbn [mbind res_bind]; [|done|done|done].
    destruct (binary_Read k geta (N.to_nat a) r0) as [[[b|] r1]| |]; cbn [mbind res_bind]; [|done|done|done]. by intros [= -> ->].
  Qed.
  Lemma units_newInPlace_of self r l r' : units_ReadInPlace k geta zero self r = Ok (true, l, r') -> units_new (units_ReadInPlace k geta zero) r = Ok (Some l, r').
  Proof using Type.
    unfold units_new, units_ReadInPlace. destruct (binary_ReadBase r) as [[[a|] r0]| |]; cbn [mbind res_bind]; [|done|done|done].
    destruct (binary_Read k geta (N.to_nat a) r0) as [[[b|] r1]| |]; cbn [mbind res_bind]; [|done|done|done]. by intros [= -> ->].
  Qed.
  (** Read on any bytes. *)
  Lemma units_Read_any self r : bytes_ok (concat r) ->
    (exists l r1, units_Read k geta self r = Ok (true, l, r1) /\ N.of_nat (length l) < two32 /\ Forall ok l /\ concat r = image l ++ concat r1) \/
    units_Read k geta self r = Ok (false, self, []).
  Proof using HC.
    intros Hb. destruct (fates r Hb) as [H|a Hg _ H H2|l rest Hf Hl Hr].
    - right. apply units_Read_short. by left.
    - right. apply units_Read_short. right. by exists a.
    - left. destruct (units_Read_image self l rest r Hl Hf Hr) as (r1 & E & H1). exists l, r1. split; [done|]. split; [done|]. split; [done|]. by rewrite H1.
  Qed.
  Lemma units_ReadInPlace_any self r : bytes_ok (concat r) ->
    (exists l r1, units_ReadInPlace k geta zero self r = Ok (true, l, r1) /\ N.of_nat (length l) < two32 /\ Forall ok l /\ concat r = image l ++ concat r1) \/
    ((length (concat r) < 4)%nat /\ units_ReadInPlace k geta zero self r = Ok (false, self, [])) \/
    exists a rest, a < two32 /\ concat r = put32 a ++ rest /\ units_ReadInPlace k geta zero self r = Ok (false, replicate (N.to_nat a) zero, []).
  Proof using HC.
    intros Hb. destruct (fates r Hb) as [H|a Hg Ha H H2|l rest Hf Hl Hr].
    - right. left. split; [done|]. by apply units_ReadInPlace_head.
    - right. right. destruct (cd_any _ _ _ _ codec32 (take 4 (concat r))) as (a' & Hg' & _ & Hp); [by apply Forall_take|rewrite take_length; lia|].
      rewrite Hg in Hg'. injection Hg' as <-. exists a, (drop 4 (concat r)). split; [done|]. split; [|by apply units_ReadInPlace_body].
      rewrite Hp, take_take. by rewrite take_drop.
    - left. destruct (units_ReadInPlace_image self l rest r Hl Hf Hr) as (r1 & E & H1). exists l, r1. split; [done|]. split; [done|]. split; [done|]. by rewrite H1.
  Qed.

  (** Writing. *)
  Lemma io_Write_full w p w' : io_Write w p = (false, w') -> w'.1 = w.1 ++ p.
  Proof using Type.
    unfold io_Write. destruct w as [o ws]. cbn [fst snd]. destruct ws as [|[n e] ws]; intros H; injection H.
    - by intros <-.
    - intros <- He. cbn [fst]. apply orb_false_iff in He as [_ He]. apply Nat.ltb_ge in He. by rewrite take_ge.
  Qed.
  Lemma io_Write_any w p b w' : io_Write w p = (b, w') -> exists n, w'.1 = w.1 ++ take n p.
  Proof using Type.
    unfold io_Write. destruct w as [o ws]. cbn [fst snd]. destruct ws as [|[n e] ws]; intros H; injection H.
    - intros <- _. exists (length p). by rewrite take_ge.
    - intros <- _. by exists n.
  Qed.
  Lemma units_Write_prefix l w b w' : units_Write put l w = (b, w') -> exists n, w'.1 = w.1 ++ take n (image l).
  Proof using Type.
    unfold units_Write. destruct (io_Write w _) as [e1 w1] eqn:E1. destruct e1.
    - intros [= <- <-]. destruct (io_Write_any _ _ _ _ E1) as [n ->]. exists (n `min` 4)%nat. f_equal. rewrite take_app_le by (unfold put32; cbn [length]; lia).
      destruct (Nat.le_ge_cases n 4); [by rewrite Nat.min_l|]. rewrite Nat.min_r by done. rewrite !take_ge; [done|done|]. unfold put32. cbn [length]. lia.
    - apply io_Write_full in E1. destruct (io_Write w1 _) as [e2 w2] eqn:E2. intros H. assert (w' = w2) as -> by (destruct e2; by injection H).
      destruct (io_Write_any _ _ _ _ E2) as [n ->]. exists (4 + n)%nat. rewrite E1, <- app_assoc. by f_equal.
  Qed.
  Lemma units_Write_true l w w' : units_Write put l w = (true, w') -> w'.1 = w.1 ++ image l.
  Proof using Type.
    unfold units_Write. destruct (io_Write w _) as [e1 w1] eqn:E1. destruct e1; [done|]. apply io_Write_full in E1. destruct (io_Write w1 _) as [e2 w2] eqn:E2. destruct e2; [done|].
    apply io_Write_full in E2. intros [= <-]. by rewrite E2, E1, <- app_assoc.
  Qed.
  Lemma io_Write_exact w p w' : Forall (fun a => a.2 = false) w.2 -> io_Write w p = (true, w') -> (length w'.1 < length w.1 + length p)%nat.
  Proof using Type.
    unfold io_Write. destruct w as [o ws]. cbn [fst snd]. destruct ws as [|[n e] ws]; intros Hw H; [done|]. apply Forall_cons in Hw as [He _]. cbn [snd] in He. subst e. injection H as H <-.
    cbn [orb] in H. apply Nat.ltb_lt in H. cbn [fst]. rewrite app_length, take_length. lia.
  Qed.
  Lemma io_Write_rest w p b w' : Forall (fun a => a.2 = false) w.2 -> io_Write w p = (b, w') -> Forall (fun a => a.2 = false) w'.2.
  Proof using Type.
    unfold io_Write. destruct w as [o ws]. cbn [fst snd]. destruct ws as [|[n e] ws]; intros Hw H; injection H; intros <- _; [done|]. by apply Forall_cons in Hw as [_ Hw].
  Qed.
  Lemma units_Write_false l w w' : Forall (fun a => a.2 = false) w.2 -> units_Write put l w = (false, w') -> (length w'.1 < length w.1 + length (image l))%nat.
  Proof using Type.
    intros Hw. unfold units_Write. rewrite app_length. destruct (io_Write w _) as [e1 w1] eqn:E1. destruct e1.
    - intros [= <-]. apply io_Write_exact in E1; [|done]. lia.
    - pose proof (io_Write_rest _ _ _ _ Hw E1) as Hw1. apply io_Write_full in E1. destruct (io_Write w1 _) as [e2 w2] eqn:E2. destruct e2; [|done].
      intros [= <-]. apply io_Write_exact in E2; [|done]. rewrite E1, app_length in E2. lia.
  Qed.
End units.
