(** Proofs about Cli.v: lines, fields, values, sorting and insertion. *)
From Verif Require Import Go Utfc UtfcProofs UtfcHeap UtfcMain Utf8 Utf8Proofs Dawg DawgSpec DawgAbs Dict DictSpec GuideThms Ranked RankedProofs Cli CliSpec Properties_Utfc Properties_Dawg Properties_Index.
Local Open Scope N_scope.
Local Arguments N.mul : simpl never.
Local Arguments N.add : simpl never.
Local Arguments N.of_nat : simpl never.
Local Arguments Z.mul : simpl never.
Local Arguments Z.add : simpl never.
Local Arguments Z.pow : simpl never.

(** ** Lines *)
Lemma raw_line cur l r : 10 ∉ l -> raw_lines cur (l ++ 10 :: r) = (rev cur ++ l) :: raw_lines [] r.
Proof.
  revert cur. induction l as [|b l IH]; intros cur Hl; cbn [raw_lines app].
  - by rewrite app_nil_r.
  - apply not_elem_of_cons in Hl as [Hb Hl]. destruct (N.eqb_spec b 10); [done|]. rewrite IH by done. cbn [rev]. by rewrite <- app_assoc.
Qed.
Lemma raw_last cur l : 10 ∉ l -> raw_lines cur l = if decide (rev cur ++ l = []) then [] else [rev cur ++ l].
Proof.
  revert cur. induction l as [|b l IH]; intros cur Hl; cbn [raw_lines].
  - rewrite app_nil_r. destruct cur as [|x cur]; [done|]. rewrite decide_False; [done|]. cbn. by intros [_ ?]%app_eq_nil.
  - apply not_elem_of_cons in Hl as [Hb Hl]. destruct (N.eqb_spec b 10); [done|]. rewrite IH by done. cbn [rev]. by rewrite <- app_assoc.
Qed.
Lemma drop_cr_id l : last l <> Some 13 -> drop_cr l = l.
Proof.
  intros H. unfold drop_cr. destruct (rev l) as [|b r] eqn:E; [done|]. destruct (N.eqb_spec b 13) as [->|]; [|done].
  exfalso. apply H. rewrite <- (rev_involutive l), E. cbn. apply last_snoc.
Qed.
Lemma drop_cr_crlf l : drop_cr (l ++ [13]) = l.
Proof. unfold drop_cr. rewrite rev_app_distr. cbn. apply rev_involutive. Qed.
Lemma raw_text ls r : Forall (fun l => 10 ∉ l) ls -> raw_lines [] (text ls ++ r) = ls ++ raw_lines [] r.
Proof.
  induction 1 as [|l ls Hl _ IH]; [done|]. cbn [flat_map]. rewrite <- !app_assoc. cbn [app]. rewrite raw_line by done. by rewrite IH.
Qed.
Lemma scan_from_app ls r : Forall (fun l => N.of_nat (length l) < 65536) ls -> scan_from (ls ++ r) = map drop_cr ls ++ scan_from r.
Proof. induction 1 as [|l ls Hl _ IH]; [done|]. cbn [scan_from app map]. rewrite (proj2 (N.ltb_lt _ _) Hl). by rewrite IH. Qed.
Lemma drop_ok ls : Forall line_ok ls -> map drop_cr ls = ls.
Proof. induction 1 as [|l ls (_ & Hl & _) _ IH]; [done|]. cbn [map]. by rewrite IH, drop_cr_id. Qed.
Lemma scan_text_app ls r : Forall line_ok ls -> scan_lines (text ls ++ r) = ls ++ scan_lines r.
Proof.
  intros H. unfold scan_lines. rewrite raw_text by (eapply Forall_impl; [exact H|]; by intros l []).
  rewrite scan_from_app by (eapply Forall_impl; [exact H|]; by intros l (_ & _ & ?)). by rewrite drop_ok.
Qed.
Lemma scan_text ls : Forall line_ok ls -> scan_lines (text ls) = ls.
Proof. intros H. rewrite <- (app_nil_r (text ls)), scan_text_app by done. apply app_nil_r. Qed.
Lemma scan_last l : line_ok l -> l <> [] -> scan_lines l = [l].
Proof.
  intros (H1 & H2 & H3) Hl. unfold scan_lines. rewrite raw_last by done. rewrite decide_False by done. cbn [scan_from rev app].
  rewrite (proj2 (N.ltb_lt _ _) H3). by rewrite drop_cr_id.
Qed.
Lemma scan_long l r : 10 ∉ l -> 65536 <= N.of_nat (length l) -> scan_lines (l ++ 10 :: r) = [] /\ scan_lines l = [].
Proof.
  intros H1 H2. unfold scan_lines. rewrite raw_line, (raw_last [] l) by done. cbn [rev app].
  assert (E : (N.of_nat (length l) <? 65536) = false) by (by apply N.ltb_ge). split; [cbn [scan_from]; by rewrite E|].
  destruct (decide _); [done|]. cbn [scan_from]. by rewrite E.
Qed.

(** ** Fields *)
Lemma split_field cur k r : 9 ∉ k -> split_on 9 cur (k ++ 9 :: r) = (rev cur ++ k) :: split_on 9 [] r.
Proof.
  revert cur. induction k as [|b k IH]; intros cur Hl; cbn [split_on app].
  - by rewrite app_nil_r.
  - apply not_elem_of_cons in Hl as [Hb Hl]. destruct (N.eqb_spec b 9); [done|]. rewrite IH by done. cbn [rev]. by rewrite <- app_assoc.
Qed.
Lemma split_last cur k : 9 ∉ k -> split_on 9 cur k = [rev cur ++ k].
Proof.
  revert cur. induction k as [|b k IH]; intros cur Hl; cbn [split_on].
  - by rewrite app_nil_r.
  - apply not_elem_of_cons in Hl as [Hb Hl]. destruct (N.eqb_spec b 9); [done|]. rewrite IH by done. cbn [rev]. by rewrite <- app_assoc.
Qed.
(** Cutting at the first separator. *)
Lemma cut (c : N) l : c ∉ l \/ exists k r, l = k ++ c :: r /\ c ∉ k.
Proof.
  induction l as [|b l IH]; [left; by apply not_elem_of_nil|]. destruct (decide (b = c)) as [->|Hb].
  - right. exists [], l. split; [done|]. apply not_elem_of_nil.
  - destruct IH as [IH|(k & r & -> & IH)]; [left|right].
    + by apply not_elem_of_cons.
    + exists (b :: k), r. split; [done|]. by apply not_elem_of_cons.
Qed.
Lemma fields_split line k s : fields line k s -> exists rest, split_on 9 [] line = k :: s :: rest.
Proof.
  intros (Hk & Hs & [->|[rest ->]]).
  - rewrite split_field, split_last by done. by eexists.
  - rewrite split_field, split_field by done. by eexists.
Qed.
Lemma fields_cases line : (9 ∉ line /\ split_on 9 [] line = [line]) \/ exists k s rest, fields line k s /\ split_on 9 [] line = k :: s :: rest.
Proof.
  destruct (cut 9 line) as [H|(k & r & -> & Hk)]; [left; by rewrite split_last|right].
  destruct (cut 9 r) as [Hr|(s & rest & -> & Hs)].
  - assert (F : fields (k ++ 9 :: r) k r) by (split; [done|]; split; [done|]; by left). destruct (fields_split _ _ _ F) as [rest E]. by exists k, r, rest.
  - assert (F : fields (k ++ 9 :: s ++ 9 :: rest) k s) by (split; [done|]; split; [done|]; right; by eexists). destruct (fields_split _ _ _ F) as [rest' E]. by exists k, s, rest'.
Qed.
Lemma fields_in line k s : fields line k s -> 9 ∈ line.
Proof. intros (_ & _ & [->|[rest ->]]); apply elem_of_app; right; by left. Qed.

(** ** Values *)
Lemma digits_spec ds : forall acc, digits acc ds = if decide (Forall digit ds) then Some (acc * 10 ^ Z.of_nat (length ds) + decimal ds)%Z else None.
Proof.
  induction ds as [|d ds IH]; intros acc; cbn [digits decimal length].
  - rewrite decide_True by constructor. f_equal. change (Z.of_nat 0) with 0%Z. rewrite Z.pow_0_r. lia.
  - destruct ((48 <=? d) && (d <=? 57)) eqn:E.
    + apply andb_true_iff in E as [E1%N.leb_le E2%N.leb_le]. rewrite IH. destruct (decide (Forall digit ds)) as [H|H].
      * rewrite decide_True by (by constructor). f_equal. rewrite Nat2Z.inj_succ, Z.pow_succ_r by lia. rewrite N2Z.inj_sub by done. lia.
      * rewrite decide_False; [done|]. by intros [_ ?]%Forall_cons.
    + rewrite decide_False; [done|]. intros [[H1 H2] _]%Forall_cons. apply andb_false_iff in E as [E%N.leb_gt|E%N.leb_gt]; lia.
Qed.
Lemma range64 v : ((-9223372036854775808 <=? v) && (v <=? 9223372036854775807))%Z = true <-> int64 v.
Proof. unfold int64. change (2 ^ 63)%Z with 9223372036854775808%Z. rewrite andb_true_iff, !Z.leb_le. lia. Qed.
Lemma Atoi_numeral s z : Atoi s = Some z <-> numeral s z /\ int64 z.
Proof.
  assert (D : forall ds neg z, ds <> [] -> (match digits 0 ds with None => None | Some n => let v := if (neg : bool) then (- n)%Z else n in
     if ((-9223372036854775808 <=? v) && (v <=? 9223372036854775807))%Z then Some v else None end) = Some z <->
     Forall digit ds /\ z = (if neg then - decimal ds else decimal ds)%Z /\ int64 z).
  { intros ds neg z' Hne. rewrite digits_spec. destruct (decide (Forall digit ds)) as [H|H]; [|split; [done|by intros [? _]]].
    rewrite Z.mul_0_l, Z.add_0_l. cbv zeta. destruct ((_ <=? _)%Z && _) eqn:E.
    - apply range64 in E. split; [intros [= <-]; done|]. intros (_ & -> & _). done.
    - split; [done|]. intros (_ & -> & R). apply range64 in R. by rewrite R in E. }
  assert (F : forall s ds neg z, (match s with b :: r => if b =? 45 then (true, r) else if b =? 43 then (false, r) else (false, s) | [] => (false, s) end) = (neg, ds) ->
     Atoi s = Some z <-> ds <> [] /\ Forall digit ds /\ z = (if (neg : bool) then - decimal ds else decimal ds)%Z /\ int64 z).
  { intros s' ds neg z' E. unfold Atoi. rewrite E. destruct ds as [|d ds]; [split; [done|]; by intros [? _]|]. rewrite D by done. split; [intros H; by split|by intros [_ H]]. }
  split.
  - intros H. destruct s as [|b r]; [done|]. destruct (N.eqb_spec b 45) as [->|H45]; [|destruct (N.eqb_spec b 43) as [->|H43]].
    + apply (F (45 :: r) r true) in H as (? & ? & -> & ?); [|done]. split; [by constructor|done].
    + apply (F (43 :: r) r false) in H as (? & ? & -> & ?); [|done]. split; [by constructor|done].
    + apply (F (b :: r) (b :: r) false) in H as (? & ? & -> & ?).
      * split; [by constructor|done].
      * by rewrite (proj2 (N.eqb_neq _ _) H45), (proj2 (N.eqb_neq _ _) H43).
  - intros [[ds Hne Hd|ds Hne Hd|ds Hne Hd] R].
    + apply (F ds ds false); [|done]. destruct ds as [|d ds]; [done|]. apply Forall_cons in Hd as [[H1 H2] _].
      destruct (N.eqb_spec d 45); [lia|]. destruct (N.eqb_spec d 43); [lia|]. done.
    + by apply (F (43 :: ds) ds false).
    + by apply (F (45 :: ds) ds true).
Qed.
Lemma clamp_spec v : (if (v <? 0)%Z then 0%Z else if (MaxValue <? v)%Z then MaxValue else v) = clamped v.
Proof. unfold clamped, MaxValue. change (2 ^ 31 - 1)%Z with 2147483647%Z. destruct (Z.ltb_spec v 0); [lia|]. destruct (Z.ltb_spec 2147483647 v); lia. Qed.
Lemma numeral_unique s z z' : numeral s z -> numeral s z' -> z = z'.
Proof.
  assert (E : forall s z, numeral s z -> match s with 45 :: r => z = (- decimal r)%Z | 43 :: r => z = decimal r | _ => z = decimal s end).
  { intros ? ? [ds Hne Hd|ds Hne Hd|ds Hne Hd]; [|done|done]. destruct ds as [|d ds]; [done|]. apply Forall_cons in Hd as [[H1 H2] _].
    destruct d as [|p]; [lia|]. do 6 (destruct p as [p|p|]; try done); lia. }
  intros H%E H'%E. destruct s as [|d s]; [congruence|]. destruct d as [|p]; [congruence|]. do 6 (destruct p as [p|p|]; try congruence).
Qed.

(** ** The entry of a line *)
Lemma entry_plain o line : o_tab o = false -> line_entry o line = Ok (Some (key_bytes o line, 0%Z)).
Proof. intros E. unfold line_entry. by rewrite E. Qed.
Lemma entry_no_tab o line : o_tab o = true -> 9 ∉ line -> line_entry o line = Panic.
Proof. intros E H. unfold line_entry. rewrite E, split_last by done. done. Qed.
Lemma entry_tab o line k s : o_tab o = true -> fields line k s ->
  line_entry o line = Ok (match Atoi s with Some z => Some (key_bytes o k, clamped z) | None => None end).
Proof.
  intros E H. destruct (fields_split _ _ _ H) as [rest Hs]. unfold line_entry. rewrite E, Hs. unfold get. change (N.to_nat 0) with 0%nat. change (N.to_nat 1) with 1%nat. cbn [lookup list_lookup mbind res_bind]. destruct (Atoi s) as [z|]; cbn [mbind res_bind]; [|done]. by rewrite clamp_spec.
Qed.
Lemma entry_is o line e : line_entry o line = Ok (Some e) <-> line_entry_is o line e.
Proof.
  unfold line_entry_is, line_kv. destruct e as [b v]. cbn [fst snd]. destruct (o_tab o) eqn:E.
  - split.
    + intros H. destruct (fields_cases line) as [[Hn _]|(k & s & rest & Hf & _)].
      * by rewrite entry_no_tab in H.
      * rewrite (entry_tab o line k s E Hf) in H. destruct (Atoi s) as [z|] eqn:Ez; [|done]. injection H as <- <-. apply Atoi_numeral in Ez as [H1 H2].
        exists k. split; [|done]. by exists s, z.
    + intros (k & (s & z & Hf & H1 & H2 & ->) & ->). rewrite (entry_tab o line k s E Hf). by rewrite (proj2 (Atoi_numeral s z) (conj H1 H2)).
  - rewrite (entry_plain o line E). split; [intros [= <- <-]; by exists line|]. by intros (k & [-> ->] & ->).
Qed.

(** ** Insertion *)
Lemma spec_run_app es h h' : (spec_run es (h ++ h')).1 = (spec_run es h).1 ++ (spec_run (spec_run es h).2 h').1 /\
  (spec_run es (h ++ h')).2 = (spec_run (spec_run es h).2 h').2.
Proof.
  revert es. induction h as [|kv h IH]; intros es; cbn [spec_run app]; [done|]. destruct (spec_insert es kv) as [r es1]. specialize (IH es1).
  destruct (spec_run es1 (h ++ h')) as [a b], (spec_run es1 h) as [a' b']. cbn [fst snd] in *. destruct IH as [-> ->]. done.
Qed.
Lemma kcmp_flip a b : kcmp b a = CompOpp (kcmp a b).
Proof. revert b. induction a as [|x a IH]; intros [|y b]; cbn; try done. rewrite N.compare_antisym. destruct (x ?= y); cbn; [apply IH|done|done]. Qed.
Lemma kcmp_le_trans a b c : kcmp a b <> Gt -> kcmp b c <> Gt -> kcmp a c <> Gt.
Proof.
  intros H1 H2. destruct (kcmp a b) eqn:E1; [|destruct (kcmp b c) eqn:E2|done]; try done.
  - apply kcmp_eq in E1. by subst.
  - apply kcmp_eq in E2. subst. by rewrite E1.
  - by rewrite (kcmp_trans _ _ _ E1 E2).
Qed.
Lemma last_key es k v : (exists r es', spec_insert es (k, v) = (r, es')) -> forall r es', spec_insert es (k, v) = (r, es') -> r = true -> exists v', last es' = Some (k, v') .
Proof.
  intros _ r es'. unfold spec_insert. destruct (last es) as [[k0 v0]|] eqn:E; cbn [fst]; [|intros [= <- <-] _; by eexists].
  destruct (kcmp k0 k); intros [= <- <-]; try done; intros _; eexists; by rewrite last_snoc.
Qed.
(** Every insertion is accepted exactly when the keys never decrease. *)
Lemma all_from es h : (forall b, b ∈ (spec_run es h).1 -> b = true) <->
  (forall k0 v0 a, last es = Some (k0, v0) -> head h = Some a -> kcmp k0 a.1 <> Gt) /\ (forall i a b, h !! i = Some a -> h !! S i = Some b -> kcmp a.1 b.1 <> Gt).
Proof.
  revert es. induction h as [|[k v] h IH]; intros es; cbn [spec_run].
  - split; [|intros _ b []%elem_of_nil]. intros _. by split.
  - destruct (spec_insert es (k, v)) as [r es1] eqn:Ei. specialize (IH es1). destruct (spec_run es1 h) as [rs es2]. cbn [fst snd] in *.
    assert (Hr : r = true <-> (forall k0 v0, last es = Some (k0, v0) -> kcmp k0 k <> Gt)).
    { unfold spec_insert in Ei. destruct (last es) as [[k0 v0]|] eqn:El; [|injection Ei as <- <-; by split]. cbn [fst] in Ei.
      destruct (kcmp k0 k) eqn:Ek; injection Ei as <- <-; (split; [|done] || split); try (intros _ ? ? [= <- <-]; by rewrite Ek).
      - done.
      - intros H. exfalso. by apply (H k0 v0). }
    split.
    + intros H. assert (r = true) as Ht by (apply H; by left). destruct (last_key es k v) with (r := r) (es' := es1) as [v' Hl]; [by exists r, es1|done|done|].
      assert (Hrs : forall b, b ∈ rs -> b = true) by (intros b Hb; apply H; by right). apply IH in Hrs as [H1 H2]. split.
      * intros k0 v0 a Hk0 [= <-]. by eapply Hr.
      * intros [|i] a b Ha Hb; [|by apply (H2 i)]. cbn in Ha, Hb. injection Ha as <-. apply (H1 k v'); [done|]. by destruct h.
    + intros [H1 H2] b. rewrite elem_of_cons. assert (r = true) as Ht by (apply Hr; intros k0 v0 Hk0; by apply (H1 k0 v0 (k, v))).
      intros [->|Hb]; [done|]. revert b Hb. apply IH. destruct (last_key es k v) with (r := r) (es' := es1) as [v' Hl]; [by exists r, es1|done|done|]. split.
      * intros k0 v0 a Hk0 Ha. rewrite Hl in Hk0. injection Hk0 as <- <-. apply (H2 0%nat (k, v) a); [done|]. cbn. by destruct h.
      * intros i a b Ha Hb. by apply (H2 (S i)).
Qed.
Lemma all_accepted es : (forall b, b ∈ results es -> b = true) <-> nondecreasing es.
Proof.
  unfold results. rewrite all_from. split.
  - intros [_ H] i j a b Hij. revert b. induction Hij as [|j Hij IH]; intros b Ha Hb; [by apply (H i)|].
    destruct (es !! j) as [c|] eqn:Ec; [|apply lookup_lt_Some in Hb; apply lookup_ge_None in Ec; lia].
    eapply kcmp_le_trans; [by apply (IH c)|]. by apply (H j).
  - intros H. split; [done|]. intros i a b. apply H. lia.
Qed.
Lemma accepted_true_insert b h rs b' : insert_all b h = Ok (rs, b') -> length rs = length h.
Proof.
  revert b rs b'. induction h as [|[k v] h IH]; intros b rs b'; cbn [insert_all]; [by intros [= <- <-]|].
  destruct (InsertStringValue b k v) as [[r b1]| |]; cbn [mbind res_bind]; try done. destruct (insert_all b1 h) as [[rs1 b2]| |] eqn:E; cbn [mbind res_bind]; try done.
  intros [= <- <-]. cbn. f_equal. by eapply IH.
Qed.
Lemma insert_lines_spec o lines es : lines_entries o lines es -> forall b n rs b', insert_all b es = Ok (rs, b') ->
  insert_lines o b n lines = Ok (if decide (Forall (eq true) rs) then Some ((n + Z.of_nat (length es))%Z, b') else None).
Proof.
  unfold lines_entries. revert es. induction lines as [|line lines IH]; intros es H b n rs b'.
  - inversion H; subst. cbn. intros [= <- <-]. rewrite decide_True by constructor. by rewrite Z.add_0_r.
  - destruct (decide (line = [])) as [->|Hne].
    + rewrite filter_cons_False in H by (intros X; by apply X). intros Hi. cbn [insert_lines processLine mbind res_bind]. by apply IH.
    + rewrite filter_cons_True in H by done. inversion H as [|? [k v] ? es' Hl Hes]; subst. cbn [insert_all]. unfold InsertStringValue.
      destruct (InsertKeyValue b k (Z.of_nat (length k)) v) as [[r b1]| |] eqn:E; cbn [mbind res_bind]; try done.
      destruct (insert_all b1 es') as [[rs1 b2]| |] eqn:E1; cbn [mbind res_bind]; try done. intros [= <- <-].
      cbn [insert_lines]. unfold processLine. destruct line as [|c line]; [done|]. rewrite (proj2 (entry_is o (c :: line) (k, v)) Hl). cbn [mbind res_bind]. rewrite E. cbn [mbind res_bind].
      destruct r.
      * rewrite (IH es' Hes b1 (n + 1)%Z rs1 b2 E1). destruct (decide (Forall (eq true) rs1)) as [Hf|Hf].
        -- rewrite decide_True by (by constructor). cbn [length]. do 3 f_equal. lia.
        -- rewrite decide_False; [done|]. by intros [_ ?]%Forall_cons.
      * rewrite decide_False; [done|]. by intros [? _]%Forall_cons.
Qed.

(** ** Sorting *)
Lemma str_less_kcmp a b : str_less a b = true <-> kcmp a b = Lt.
Proof.
  revert b. induction a as [|x a IH]; intros [|y b]; cbn [str_less kcmp]; try done. destruct (N.ltb_spec x y) as [H|H].
  - by rewrite (proj2 (N.compare_lt_iff _ _) H).
  - destruct (N.ltb_spec y x) as [H'|H']; [by rewrite (proj2 (N.compare_gt_iff _ _) H')|]. assert (x = y) as -> by lia. rewrite N.compare_refl. apply IH.
Qed.
Lemma str_less_false a b : str_less b a = false <-> kcmp a b <> Gt.
Proof.
  rewrite <- not_true_iff_false, str_less_kcmp. rewrite (kcmp_flip a b). by destruct (kcmp a b).
Qed.
Lemma str_weak : weak_order str_less.
Proof.
  unfold weak_order, equiv. split; [|split].
  - intros a. apply str_less_false. by rewrite kcmp_refl.
  - intros a b c. rewrite !str_less_kcmp. apply kcmp_trans.
  - intros a b c [H1%str_less_false H2%str_less_false] [H3%str_less_false H4%str_less_false]. split; apply str_less_false; by apply kcmp_le_trans with b.
Qed.

(** Lines sorted as a whole: their keys are in order when no byte of theirs is below
    the tab. *)
Lemma lines_keys_le k s r k' s' r' : 9 ∉ k -> 9 ∉ k' -> Forall (fun c => 9 <= c) k -> Forall (fun c => 9 <= c) k' ->
  kcmp (k ++ 9 :: s ++ r) (k' ++ 9 :: s' ++ r') <> Gt -> kcmp k k' <> Gt.
Proof.
  intros H1 H2 H3 H4. revert k' H2 H4. induction H3 as [|x k Hx H3 IH]; intros k' H2 H4; [by destruct k'|].
  apply not_elem_of_cons in H1 as [Hx9 H1]. destruct H4 as [|y k' Hy H4].
  - cbn [app kcmp]. rewrite (proj2 (N.compare_gt_iff x 9)); [done|]. lia.
  - apply not_elem_of_cons in H2 as [Hy9 H2]. cbn [app kcmp]. destruct (x ?= y); [|done|done]. by apply IH.
Qed.

Section sorting.
  Context (lsort : (list N -> list N -> bool) -> list (list N) -> list (list N)) (grow : nat -> nat) (calls : list N -> list N -> list (list Z)).
  Hypothesis (Hs : stable_sorter lsort).
  Lemma less_plain o a b : o_utfc o = false -> line_less grow calls o a b = str_less a b.
  Proof. intros E. unfold line_less. by rewrite E. Qed.
  Lemma less_utfc o a b : o_utfc o = true -> line_less grow calls o a b = Nat.ltb (length (utfc_encode (runes a))) (length (utfc_encode (runes b))).
  Proof. intros E. unfold line_less. rewrite E. apply comparator. Qed.
  Lemma plain_sorted o lexicon : o_utfc o = false -> o_sort o = true ->
    cli_lines lsort grow calls o lexicon ≡ₚ scan_lines lexicon /\
    forall i j a b, (i < j)%nat -> cli_lines lsort grow calls o lexicon !! i = Some a -> cli_lines lsort grow calls o lexicon !! j = Some b -> kcmp a b <> Gt.
  Proof.
    intros E1 E2. unfold cli_lines. rewrite E2. destruct Hs as [H1 H2]. split; [apply H1|].
    assert (W : weak_order (line_less grow calls o)).
    { destruct str_weak as (W1 & W2 & W3). unfold weak_order, equiv in *. split; [|split].
      - intros a. rewrite less_plain by done. apply W1.
      - intros a b c. rewrite !less_plain by done. apply W2.
      - intros a b c. rewrite !less_plain by done. apply W3. }
    intros i j a b Hij Ha Hb. destruct (H2 (line_less grow calls o) (scan_lines lexicon) W) as [H3 _]. specialize (H3 i j a b Hij Ha Hb).
    rewrite less_plain in H3 by done. by apply str_less_false.
  Qed.
  Definition enc_len (l : list N) : nat := length (utfc_encode (runes l)).
  Lemma utfc_sorted o lexicon : o_utfc o = true -> o_sort o = true ->
    cli_lines lsort grow calls o lexicon ≡ₚ scan_lines lexicon /\
    (forall i j a b, (i < j)%nat -> cli_lines lsort grow calls o lexicon !! i = Some a -> cli_lines lsort grow calls o lexicon !! j = Some b -> (enc_len a <= enc_len b)%nat) /\
    forall n, filter (fun l => enc_len l = n) (cli_lines lsort grow calls o lexicon) = filter (fun l => enc_len l = n) (scan_lines lexicon).
  Proof.
    intros E1 E2. unfold cli_lines. rewrite E2. destruct Hs as [H1 H2]. split; [apply H1|].
    assert (W : weak_order (line_less grow calls o)).
    { unfold weak_order, equiv. split; [|split].
      - intros a. rewrite less_utfc by done. apply Nat.ltb_irrefl.
      - intros a b c. rewrite !less_utfc, !Nat.ltb_lt by done. lia.
      - intros a b c. rewrite !less_utfc, !Nat.ltb_ge by done. lia. }
    destruct (H2 (line_less grow calls o) (scan_lines lexicon) W) as [H3 H4]. split.
    - intros i j a b Hij Ha Hb. specialize (H3 i j a b Hij Ha Hb). rewrite less_utfc in H3 by done. apply Nat.ltb_ge in H3. exact H3.
    - intros n. set (L := lsort _ _) in *. destruct (decide (Exists (fun l => enc_len l = n) L)) as [Hx|Hx].
      + apply Exists_exists in Hx as (x & Hx & <-). specialize (H4 x).
        assert (Heq : forall l : list N, equiv (line_less grow calls o) x l <-> enc_len l = enc_len x).
        { intros l. unfold equiv. rewrite !less_utfc, !Nat.ltb_ge by done. unfold enc_len. lia. }
        rewrite (list_filter_iff _ (fun l => enc_len l = enc_len x)) in H4 by done. rewrite H4. by apply list_filter_iff.
      + assert (Hn : forall l', L ≡ₚ l' -> filter (fun l => enc_len l = n) l' = []).
        { intros l' Hp. apply elem_of_nil_inv. intros y [Hy Hy']%elem_of_list_filter. apply Hx, Exists_exists. exists y. by rewrite Hp. }
        rewrite (Hn L), (Hn (scan_lines lexicon)); [done| |done]. apply H1.
  Qed.
End sorting.
