(** bufio.Scanner gives the lines of what the reads deliver, however they are cut. *)
From Verif Require Import Go Serial Cli CliSpec CliProofs Scanner ScannerSpec.
Local Open Scope N_scope.

(** What is delivered before the end or before 101 reads in a row that give nothing, [n] of them being left; and whether it is the end. *)
Fixpoint del (r : reader) (n : nat) : list N :=
  match r, n with
  | [], _ | _, O => []
  | [] :: r', S n' => del r' n'
  | c :: r', _ => c ++ del r' 101
  end.
Fixpoint ends (r : reader) (n : nat) : bool :=
  match n, r with
  | O, _ => false
  | _, [] => true
  | S n', [] :: r' => ends r' n'
  | _, _ :: r' => ends r' 101
  end.
Definition end_err (r : reader) (n : nat) (failed : bool) : scan_err := if ends r n then if failed then ReadError else EOF else NoProgress.

Lemma fill_spec n failed room r : (0 < room)%nat ->
  match fill n failed room r with
  | (bs, None, r') => bs <> [] /\ (length bs <= room)%nat /\ del r n = bs ++ del r' 101 /\ concat r = bs ++ concat r' /\ ends r n = ends r' 101
  | (bs, Some e, r') => bs = [] /\ del r n = [] /\ e = end_err r n failed /\ (length (concat r') <= length (concat r))%nat
  end.
Proof.
  intros Hr. revert r. induction n as [|n IH]; intros r; cbn [fill]; [by destruct r as [|[]]|]. destruct r as [|ch r]; cbn [read_some]; [done|].
  destruct (Nat.leb_spec (length ch) room) as [Hle|Hlt].
  - destruct ch as [|b ch]; [exact (IH r)|]. done.
  - destruct room as [|room]; [lia|]. destruct ch as [|b ch]; [cbn in Hlt; lia|]. cbn [take drop]. split; [done|]. split; [cbn; rewrite take_length; lia|]. cbn in Hlt.
    destruct (drop room ch) as [|x y] eqn:E; [apply (f_equal length) in E; rewrite drop_length in E; cbn in E; lia|]. assert (exists t, take room ch = t /\ ch = t ++ x :: y) as (t & Ht & Hc) by (exists (take room ch); by rewrite <- E, take_drop). rewrite Ht.
    assert (Hd : forall k, ch ++ k = t ++ (x :: y) ++ k) by (intros k; rewrite Hc; by rewrite <- app_assoc). split; [cbn; f_equal; apply Hd|]. split; [cbn; f_equal; apply Hd|done].
Qed.
Lemma index_newline_some bs i : index_newline bs = Some i -> bs = take i bs ++ 10 :: drop (S i) bs /\ 10 ∉ take i bs.
Proof.
  revert i. induction bs as [|b bs IH]; intros i; cbn [index_newline]; [done|]. destruct (N.eqb_spec b 10) as [->|Hb]; [intros [= <-]; split; [done|]; by apply not_elem_of_nil|].
  destruct (index_newline bs) as [j|] eqn:E; [|done]. intros [= <-]. destruct (IH j eq_refl) as [H1 H2]. split; [cbn [take drop app]; f_equal; exact H1|]. cbn [take]. apply not_elem_of_cons. by split.
Qed.
Lemma index_newline_none bs : index_newline bs = None -> 10 ∉ bs.
Proof.
  induction bs as [|b bs IH]; cbn [index_newline]; [intros _; by apply not_elem_of_nil|]. destruct (N.eqb_spec b 10) as [|Hb]; [done|]. destruct (index_newline bs); [done|]. intros _. apply not_elem_of_cons. split; [done|by apply IH].
Qed.

Definition swf (s : scanner) : Prop := s_start s + N.of_nat (length (s_data s)) <= s_size s /\ s_size s <= 65536 /\ (s_err s <> None -> N.of_nat (length (s_data s)) < 65536).
Definition pending (s : scanner) : list N := s_data s ++ match s_err s with Some _ => [] | None => del (s_in s) 101 end.
Definition final (s : scanner) : scan_err := match s_err s with Some e => e | None => end_err (s_in s) 101 (s_failed s) end.
Definition weight (s : scanner) : nat := length (s_data s) + length (concat (s_in s)).
Definition next (p : list N) (f : scan_err) (w : nat) (r : res (option (list N) * scanner)) : Prop :=
  (p = [] /\ exists s', r = Ok (None, s') /\ s_err s' = Some f) \/
  (exists l s', r = Ok (Some (drop_cr l), s') /\ 10 ∉ l /\ N.of_nat (length l) < 65536 /\ (p = l ++ 10 :: pending s' \/ (p = l /\ l <> [] /\ pending s' = [])) /\ swf s' /\ final s' = f /\ (weight s' < w)%nat) \/
  (exists l q s', r = Ok (None, s') /\ p = l ++ q /\ 10 ∉ l /\ 65536 <= N.of_nat (length l) /\ s_err s' = Some TooLong).
Lemma next_le p f w w' r : (w <= w')%nat -> next p f w r -> next p f w' r.
Proof. intros Hw [H|[(l & s' & H1 & H2 & H3 & H4 & H5 & H6 & H7)|H]]; [by left| |by right; right]. right; left. exists l, s'. repeat (split; [done|]). lia. Qed.
Lemma Scan_loop_next fuel s : swf s -> (match s_err s with Some _ => 1 | None => length (concat (s_in s)) + 2 end <= fuel)%nat -> next (pending s) (final s) (weight s) (Scan_loop fuel s).
Proof.
  revert s. induction fuel as [|fuel IH]; intros s Hs Hf; [destruct (s_err s); lia|]. destruct s as [size start data err r failed]. destruct Hs as (Hs1 & Hs2 & Hs3). cbn [s_size s_start s_data s_err s_in s_failed] in *. cbn [Scan_loop].
  unfold pending, final, weight. cbn [s_size s_start s_data s_err s_in s_failed].
  assert (Hline : forall i, index_newline data = Some i -> next (data ++ match err with Some _ => [] | None => del r 101 end) (match err with Some e => e | None => end_err r 101 failed end) (length data + length (concat r))
      (Ok (Some (drop_cr (take i data)), mkSc size (start + N.of_nat (S i)) (drop (S i) data) err r failed))).
  { intros i Hi. apply index_newline_some in Hi as [H1 H2]. right; left. eexists _, _. split; [done|]. assert (Hl : length data = (length (take i data) + S (length (drop (S i) data)))%nat) by (rewrite H1 at 1; by rewrite app_length).
    assert (Hi : i = length (take i data)) by (apply (f_equal length) in H1; rewrite app_length in H1; cbn [length] in H1; rewrite take_length in *; rewrite drop_length in *; lia).
    split; [done|]. split; [lia|]. split; [left; unfold pending; cbn; by rewrite H1 at 1; rewrite <- app_assoc|]. unfold swf, final, weight. cbn [s_size s_start s_data s_err s_in s_failed].
    split; [split; [lia|]; split; [done|]; intros He%Hs3; lia|]. split; [done|]. lia. }
  destruct (ScanLines data (match err with Some _ => true | None => false end)) as [[adv tok]|] eqn:ES.
  { unfold ScanLines in ES. destruct data as [|b0 d0] eqn:Ed; [done|]. rewrite <- Ed in *. destruct (index_newline data) as [i|] eqn:Ei; [destruct (Hline i eq_refl) as [H|H]; simplify_eq; [by left|by right]|].
    apply index_newline_none in Ei. destruct err as [e|]; [|done]. injection ES as <- <-. right; left. eexists data, _. split; [done|]. split; [done|]. split; [by apply Hs3|].
    unfold pending, swf, final, weight. cbn [s_size s_start s_data s_err s_in s_failed]. rewrite drop_ge, app_nil_r by lia. cbn [length].
    split; [right; by subst|]. split; [split; [lia|]; split; [done|]; intros _; lia|]. split; [done|]. rewrite Ed. cbn [length]. lia. }
  assert (Hn : 10 ∉ data). { unfold ScanLines in ES. destruct data as [|b0 d0]; [by apply not_elem_of_nil|]. destruct (index_newline (b0 :: d0)) eqn:Ei; [done|]. by apply index_newline_none. }
  destruct err as [e|].
  { left. unfold ScanLines in ES. destruct data as [|b0 d0]; [|by destruct (index_newline _)]. split; [done|]. by eexists. }
  clear Hline ES Hs3. set (start1 := if (0 <? start) && _ then 0 else start). set (len := N.of_nat (length data)) in *.
  assert (H1 : start1 + len <= size /\ (start1 + len = size -> start1 = 0)).
  { subst start1. destruct (N.ltb_spec 0 start), (N.eqb_spec (start + len) size), (N.ltb_spec (size / 2) start); cbn [andb orb]; lia. }
  destruct H1 as [H1 H2]. clearbody start1.
  assert (Hgo : forall size2 start2, start2 + len < size2 -> size2 <= 65536 -> next (data ++ del r 101) (end_err r 101 failed) (length data + length (concat r))
      (let '(bs, e, r) := fill 101 failed (N.to_nat (size2 - (start2 + len))) r in Scan_loop fuel (mkSc size2 start2 (data ++ bs) e r failed))).
  { intros size2 start2 Hr Hmax. pose proof (fill_spec 101 failed (N.to_nat (size2 - (start2 + len))) r ltac:(lia)) as F. destruct (fill 101 failed _ r) as [[bs [e|]] r'].
    - destruct F as (-> & Hd & -> & Hc). rewrite Hd, !app_nil_r. set (s2 := mkSc size2 start2 data (Some (end_err r 101 failed)) r' failed).
      assert (Hw : swf s2) by (split; [cbn; fold len; lia|]; split; [done|]; intros _; cbn; fold len; lia).
      specialize (IH s2 Hw ltac:(cbn; destruct fuel; lia)). unfold pending in IH. cbn in IH. rewrite app_nil_r in IH. eapply next_le; [|exact IH]. unfold weight. cbn. lia.
    - destruct F as (Hb & Hl & Hd & Hc & He). set (s2 := mkSc size2 start2 (data ++ bs) None r' failed). assert (Hbl : (0 < length bs)%nat) by (destruct bs; [done|cbn; lia]).
      assert (Hw : swf s2) by (split; [cbn; rewrite app_length; lia|]; split; [done|]; by intros []).
      specialize (IH s2 Hw ltac:(cbn; rewrite Hc, app_length in Hf; lia)). unfold pending, final, weight, end_err in IH. cbn [s2 s_data s_err s_in s_failed] in IH. rewrite Hd. unfold end_err. rewrite He, Hc. rewrite <- app_assoc in IH. eapply next_le; [|exact IH]. rewrite !app_length. lia. }
  destruct (N.eqb_spec (start1 + len) size) as [E|E]; cbn [andb].
  - specialize (H2 E). subst start1. destruct (N.leb_spec 65536 size) as [Hbig|Hsmall].
    + right; right. eexists data, _, _. split; [done|]. split; [done|]. split; [done|]. split; [unfold len in E; lia|done].
    + cbn [andb]. apply Hgo; [|lia]. rewrite N.add_0_l in *. destruct (N.eqb_spec (2 * size) 0); lia.
  - apply Hgo; lia.
Qed.

(** All lines, and the error: that of a long line if there is one. *)
Definition long (l : list N) : Prop := 65536 <= N.of_nat (length l).
Definition has_long (p : list N) : bool := existsb (fun l => 65536 <=? N.of_nat (length l)) (raw_lines [] p).
Lemma raw_long l q : 10 ∉ l -> 65536 <= N.of_nat (length l) -> exists l' ls, raw_lines [] (l ++ q) = l' :: ls /\ 65536 <= N.of_nat (length l').
Proof.
  intros Hl Hlen. assert (G : forall q cur, 65536 <= N.of_nat (length cur) -> exists l' ls, raw_lines cur q = l' :: ls /\ 65536 <= N.of_nat (length l')).
  { clear. intros q. induction q as [|b q IH]; intros cur Hc; cbn [raw_lines].
    - destruct cur; [cbn in Hc; lia|]. eexists _, _. split; [done|]. by rewrite rev_length.
    - destruct (b =? 10); [eexists _, _; split; [done|]; by rewrite rev_length|]. apply IH. cbn [length]. lia. }
  assert (R : forall cur, raw_lines cur (l ++ q) = raw_lines (rev l ++ cur) q).
  { clear - Hl. induction l as [|b l IH]; intros cur; [done|]. apply not_elem_of_cons in Hl as [Hb Hl]. cbn [app raw_lines rev]. destruct (N.eqb_spec b 10); [done|]. rewrite IH by done. by rewrite <- app_assoc. }
  rewrite R, app_nil_r. apply G. by rewrite rev_length.
Qed.
Lemma scan_all_from_spec n s : swf s -> (weight s < n)%nat -> exists s', scan_all_from n s = Ok (scan_lines (pending s), s') /\ s_err s' = Some (if has_long (pending s) then TooLong else final s).
Proof.
  revert s. induction n as [|n IH]; intros s Hs Hn; [lia|]. cbn [scan_all_from].
  assert (H : next (pending s) (final s) (weight s) (Scan s)) by (apply Scan_loop_next; [done|]; destruct (s_err s); lia).
  destruct H as [(Hp & s' & -> & He)|[(l & s' & -> & Hl & Hlen & Hp & Hs' & Hf & Hw)|(l & q & s' & -> & Hp & Hl & Hlen & He)]]; cbn [mbind res_bind].
  - exists s'. rewrite Hp. split; [reflexivity|exact He].
  - destruct (IH s' Hs' ltac:(lia)) as (s2 & E & He). rewrite E. cbn [mbind res_bind]. exists s2. rewrite He, Hf. apply N.ltb_lt in Hlen as Hlen2. unfold has_long, scan_lines.
    destruct Hp as [Hp|(Hp & Hne & Hp')].
    + rewrite Hp, raw_line by done. cbn [rev app scan_from existsb]. rewrite Hlen2, (proj2 (N.leb_gt _ _) Hlen). split; reflexivity.
    + rewrite Hp', Hp, (raw_last [] l) by done. cbn [rev app]. rewrite decide_False by done. cbn [scan_from existsb raw_lines]. rewrite Hlen2, (proj2 (N.leb_gt _ _) Hlen). split; reflexivity.
  - exists s'. rewrite He, Hp. unfold has_long, scan_lines. pose proof (raw_long l q Hl Hlen) as H.
    destruct H as (l' & ls & -> & H). cbn [scan_from existsb]. rewrite (proj2 (N.ltb_ge _ _) H), (proj2 (N.leb_le _ _) H). split; reflexivity.
Qed.
Lemma scan_all_spec r failed : exists s', scan_all (NewScanner r failed) = Ok (scan_lines (del r 101), s') /\ s_err s' = Some (if has_long (del r 101) then TooLong else end_err r 101 failed).
Proof. apply (scan_all_from_spec _ (NewScanner r failed)); [|unfold weight, scan_all; cbn; lia]. split; [cbn; lia|]. split; [cbn; lia|done]. Qed.
Lemma scanned_del r failed : scanned r failed = Ok (scan_lines (del r 101)).
Proof. unfold scanned. destruct (scan_all_spec r failed) as (s' & -> & _). reflexivity. Qed.

(** ** What is delivered, without the scanner *)
Lemma stall_cons c r i : stalls (c :: r) (S i) <-> stalls r i.
Proof. split; intros H j Hj; [specialize (H (S j) ltac:(lia)); done|]. destruct j as [|j]; [lia|]. apply (H j). lia. Qed.
Lemma stall_not r i j : (i <= j <= i + 100)%nat -> r !! j <> Some [] -> ~ stalls r i.
Proof. intros Hj Hn H. by apply Hn, H. Qed.
Lemma del_cases r n : (n <= 101)%nat ->
  if ends r n then del r n = concat r /\ (exists j, (j < n)%nat /\ r !! j <> Some []) /\ steady r
  else ((forall j, (j < n)%nat -> r !! j = Some []) /\ del r n = []) \/
    ((exists j, (j < n)%nat /\ r !! j <> Some []) /\ exists i, stalls r i /\ (forall k, (k < i)%nat -> ~ stalls r k) /\ del r n = concat (take i r)).
Proof.
  revert n. induction r as [|c r IH]; intros n Hn; destruct n as [|n]; cbn [ends del].
  - left. split; [lia|done].
  - split; [done|]. split; [exists 0%nat; split; [lia|done]|]. intros i H. specialize (H i ltac:(lia)). done.
  - left. split; [lia|by destruct c].
  - destruct c as [|b c].
    + specialize (IH n ltac:(lia)). destruct (ends r n).
      * destruct IH as (-> & (j & Hj & Hr) & Hs). split; [done|]. split; [exists (S j); split; [lia|done]|]. intros [|i]; [apply (stall_not _ _ (S j)); [lia|done]|]. rewrite stall_cons. apply Hs.
      * destruct IH as [[H ->]|[(j & Hj & Hr) (i & H1 & H2 & ->)]]; [left; split; [|done]; intros [|j] Hj; [done|apply (H j); lia]|]. right. split; [exists (S j); split; [lia|done]|]. exists (S i). rewrite stall_cons. split; [done|]. split; [|done].
        intros [|k] Hk; [apply (stall_not _ _ (S j)); [lia|done]|]. rewrite stall_cons. apply H2. lia.
    + specialize (IH 101%nat ltac:(lia)). destruct (ends r 101).
      * destruct IH as (-> & _ & Hs). split; [done|]. split; [exists 0%nat; split; [lia|done]|]. intros [|i]; [apply (stall_not _ _ 0); [lia|done]|]. rewrite stall_cons. apply Hs.
      * right. split; [exists 0%nat; split; [lia|done]|]. destruct IH as [[H ->]|[_ (i & H1 & H2 & ->)]].
        -- exists 1%nat. rewrite stall_cons. split; [intros j Hj; apply H; lia|]. split; [|cbn; by rewrite take_0]. intros k Hk. assert (k = 0%nat) as -> by lia. apply (stall_not _ _ 0); [lia|done].
        -- exists (S i). rewrite stall_cons. split; [done|]. split; [|done]. intros [|k] Hk; [apply (stall_not _ _ 0); [lia|done]|]. rewrite stall_cons. apply H2. lia.
Qed.
Lemma ends_steady r : ends r 101 = true <-> steady r.
Proof.
  pose proof (del_cases r 101 ltac:(lia)) as H. destruct (ends r 101); [by split; [intros _; apply H|]|]. split; [done|]. intros Hs. exfalso. destruct H as [[H _]|[_ (i & H & _)]]; [apply (Hs 0%nat)|by apply (Hs i)]. intros j Hj. apply H. lia.
Qed.
Lemma delivers_del r bs : delivers r bs <-> bs = del r 101.
Proof.
  assert (Hd : delivers r (del r 101)).
  { pose proof (del_cases r 101 ltac:(lia)) as H. destruct (ends r 101); [left; split; apply H|]. right. destruct H as [[H ->]|[_ H]]; [|done]. exists 0%nat. split; [intros j Hj; apply H; lia|]. split; [lia|by rewrite take_0]. }
  split; [|by intros ->]. intros H. destruct H as [[H1 ->]|(i & H1 & H2 & ->)], Hd as [[G1 G]|(k & G1 & G2 & G)]; rewrite G; [done|by apply H1 in G1|by apply G1 in H1|].
  do 2 f_equal. destruct (Nat.lt_trichotomy i k) as [Hlt|[->|Hlt]]; [by apply G2 in Hlt|done|by apply H2 in Hlt].
Qed.
Lemma delivers_scanned r failed bs : delivers r bs -> scanned r failed = Ok (scan_lines bs).
Proof. intros ->%delivers_del. apply scanned_del. Qed.
Lemma delivers_any r : exists bs, delivers r bs.
Proof. exists (del r 101). by apply delivers_del. Qed.
