(** Proofs about Main.v: whole runs. *)
From Coq Require Import String Sorted.
From Verif Require Import Go Utf8 Utfc Dawg DawgSpec Dict DictSpec Guide GuideSpec Completer Index Ranked RankedSpec RankedProofs RankedCompleter Serial Cli CliSpec CliProofs Scanner ScannerSpec ScannerProofs CliThms CliFile CliSort CliRanked
  RankedIndexSpec Properties_Dict Properties_Completer Properties_Index Properties_Serial Properties_Ranked Properties_RankedIndex Properties_Dawg Properties_Cli DawgCanon Main MainSpec MainParse MainText MainBuild.
Local Open Scope N_scope.
Local Arguments N.mul : simpl never.
Local Arguments N.add : simpl never.
Local Arguments N.of_nat : simpl never.

Lemma lex_is s ops : match ops with a :: _ => if decide (s_lexicon s = str "-") then a else s_lexicon s | _ => s_lexicon s end = lexicon_path s ops.
Proof. unfold lexicon_path. destruct ops as [|a ops]; cbn [lookup list_lookup default]; [|done]. destruct (decide (s_lexicon s = str "-")) as [->|]; done. Qed.
Lemma dic_is s ops : match ops with _ :: a :: _ => if decide (s_dictionary s = str "-") then a else s_dictionary s | _ => s_dictionary s end = dictionary_path s ops.
Proof. unfold dictionary_path. destruct ops as [|a [|a2 ops]]; cbn [lookup list_lookup default]; [| |done]; destruct (decide (s_dictionary s = str "-")) as [->|]; done. Qed.
Definition run_at (m : machine) (fuel : nat) (s : settings) (lex dic : list N) : prog unit :=
  let t := m_texts m in
  do f := read_file lex;
  match f with
  | None => fatal t (open_error lex (t_open t lex))
  | Some _ =>
      if s_build s then do ok := create m dic; if (ok : bool) then handleBuild m s lex dic else fatal t (open_error dic (t_create t dic))
      else do f := read_file dic; match f with None => fatal t (open_error dic (t_open t dic)) | Some _ => handleLoad m fuel s lex dic end
  end.
Lemma main_line m fuel args sets ops w : command_line args sets ops -> main m fuel args w = run_at m fuel (chosen sets) (lexicon_path (chosen sets) ops) (dictionary_path (chosen sets) ops) w.
Proof. intros Hl. unfold main. rewrite (proj2 (parse_iff (m_texts m) args (chosen sets) ops)) by (by exists sets). by rewrite lex_is, dic_is. Qed.
Lemma main_cases m fuel args w : (exists sets ops, command_line args sets ops /\ main m fuel args w = run_at m fuel (chosen sets) (lexicon_path (chosen sets) ops) (dictionary_path (chosen sets) ops) w) \/
  (help_line args /\ main m fuel args w = (w, Exit 0 (usage (m_texts m)))) \/
  (~ help_line args /\ (forall sets ops, ~ command_line args sets ops) /\ exists msg, fault_line (m_texts m) args msg /\ main m fuel args w = (w, Exit 2 (msg ++ [10] ++ usage (m_texts m)))).
Proof.
  destruct (parse (m_texts m) settings0 args) as [s ops|msg|] eqn:E.
  - left. apply parse_iff in E as (sets & Hl & ->). exists sets, ops. split; [done|]. by apply main_line.
  - right. right. split; [intros H%(help_iff (m_texts m)); congruence|]. split; [|exists msg; split; [by apply fault_iff|unfold main; by rewrite E]].
    intros sets ops Hl. assert (parse (m_texts m) settings0 args = PDone (chosen sets) ops) by (apply parse_iff; by exists sets). congruence.
  - right. left. split; [by apply (help_iff (m_texts m))|]. unfold main. by rewrite E.
Qed.

(** ** Building *)
Lemma create_run m fuel s lex dic w : s_build s = true -> w_fs w lex <> None -> m_create m dic = true ->
  exists w1, run_at m fuel s lex dic w = handleBuild m s lex dic w1 /\ w_out w1 = w_out w /\ w_fs w1 dic = Some [] /\ forall q, q <> dic -> w_fs w1 q = w_fs w q.
Proof.
  intros Hb Hl Hc. exists (mkW (w_out w) (put_file dic (Some []) (w_fs w))). split; [|split; [done|]].
  - unfold run_at, bind, read_file. destruct (w_fs w lex); [|done]. rewrite Hb. unfold create. by rewrite Hc.
  - cbn [w_fs]. unfold put_file. split; [by rewrite decide_True|]. intros q Hq. by rewrite decide_False.
Qed.
(** Any build leaves other files alone. *)
Lemma build_any m s lex dic w : w_fs w dic = Some [] -> exists t c e, outcome dic (handleBuild m s lex dic) w (t, c, e).
Proof.
  intros Hw. destruct (delivers_any (m_chunks m lex (default [] (w_fs w lex)))) as [lexicon Hlex]. pose proof (build_outcome m s lex dic w _ Hw Hlex) as H. destruct (insert_lines _ _ _ _) as [[[n b]|]| |].
  - destruct H as (tn & _ & _ & H). destruct (Finish b NewDawg) as [[d b']| |]; [|by eexists _, _, _..]. destruct (dict_run m (s_opts s) d (dict_BuildWithUnused d) ([], m_answers m)) as [[t c] e] eqn:E. specialize (H _ _ _ _ eq_refl E). by eexists _, _, _.
  - destruct H as (t & err & H). by eexists _, _, _.
  - destruct H as (t & H). by eexists _, _, _.
  - destruct H as (t & H). by eexists _, _, _.
Qed.
Lemma load_any m fuel s lex dic w : exists t e, handleLoad m fuel s lex dic w = (mkW (w_out w ++ t) (w_fs w), e).
Proof. destruct (delivers_any (m_chunks m lex (default [] (w_fs w lex)))) as [queries Hq]. destruct (load_sim m fuel s lex dic w queries Hq) as (t & e & H & _). by eexists _, _. Qed.
Lemma run_any m fuel s lex dic w w' e : run_at m fuel s lex dic w = (w', e) -> (exists t, w_out w' = w_out w ++ t) /\ forall q, w_fs w' q <> w_fs w q -> s_build s = true /\ q = dic.
Proof.
  intros H. assert (Hsame : (w, e) = (w', e) -> (exists t, w_out w' = w_out w ++ t) /\ forall q, w_fs w' q <> w_fs w q -> s_build s = true /\ q = dic).
  { intros [= <-]. split; [exists []; by rewrite app_nil_r|done]. }
  destruct (w_fs w lex) eqn:El.
  2: { unfold run_at, bind, read_file in H. rewrite El in H. unfold fatal, exit in H. injection H as H1 H2. apply Hsame. by rewrite H1. }
  destruct (s_build s) eqn:Eb.
  - destruct (m_create m dic) eqn:Ec.
    + destruct (create_run m fuel s lex dic w Eb ltac:(by rewrite El) Ec) as (w1 & E & H1 & H2 & H3). destruct (build_any m s lex dic w1 H2) as (t & c & e' & w2 & Hr & Ho & Hd & Hq).
      rewrite E, Hr in H. injection H as <- _. cbn [fst snd] in *. split; [exists t; by rewrite Ho, H1|]. intros q Hne. split; [done|]. destruct (decide (q = dic)) as [|Hn]; [done|]. by rewrite Hq, H3 in Hne.
    + unfold run_at, bind, read_file in H. rewrite El, Eb in H. unfold create in H. rewrite Ec in H. unfold fatal, exit in H. injection H as H1 H2. apply Hsame. by rewrite H1.
  - unfold run_at, bind, read_file in H. rewrite El, Eb in H. destruct (w_fs w dic).
    + destruct (load_any m fuel s lex dic w) as (t & e' & E). rewrite E in H. injection H as <- _. cbn [w_out w_fs]. split; [by exists t|done].
    + unfold fatal, exit in H. injection H as H1 H2. apply Hsame. by rewrite H1.
Qed.

Definition index_part (m : machine) (o : opts) (us : dict) (g : guide) : list N * list N * ending unit :=
  if o_index o then
    match BuildIndex us g with
    | Ok (Some ix) => (index_text (Z.of_nat (length ix)), words_bytes ix, Ret tt)
    | Ok None => ([], [], Exit 1 (log_line m (str "error: failed to build Index")))
    | Panic => ([], [], Crash)
    | Hang => ([], [], Loops)
    end
  else ([], [], Ret tt).
Lemma guide_ok m o es d us : sorter (m_sort m) -> hist_ok es -> made_dawg es d us ->
  exists g, (if o_ranked o then BuildRankedGuide (m_sort m) d us else BuildGuide d us) = Ok (Some g) /\ guide_made_by o es us g.
Proof.
  intros Hso Hh Hd. unfold guide_made_by. destruct (o_ranked o).
  - destruct (C68_ranked_built (m_sort m) Z.ltb es d us Hso Hh Hd) as (g & Hg & _). change (BuildRankedGuideCmp (m_sort m) Z.ltb d us) with (BuildRankedGuide (m_sort m) d us) in Hg. exists g. split; [exact Hg|]. exists d, (m_sort m). exact (conj Hso (conj Hd Hg)).
  - destruct (C40_guide_built es d us Hh Hd) as (g & Hg & _). exists g. split; [exact Hg|]. exists d. exact (conj Hd Hg).
Qed.
Lemma run_ok m o es d us unused : sorter (m_sort m) -> hist_ok es -> made_dawg es d us ->
  let T := dict_text (Z.of_nat (length us)) unused (ratio unused (Z.of_nat (length us))) in
  if has_guide o then exists g, guide_made_by o es us g /\ dict_run m o d (Ok (Some (us, unused))) ([], []) =
    let '(t, c, e) := index_part m o us g in (T ++ guide_text (Z.of_nat (length g)) ++ t, words_bytes us ++ pairs_bytes g ++ c, e)
  else dict_run m o d (Ok (Some (us, unused))) ([], []) = (T, words_bytes us, Ret tt).
Proof.
  intros Hso Hh Hd T. pose proof (made_dawg_made es d us Hd) as Hm.
  pose proof (C31_built es us Hh Hm) as Hw. destruct (C31_dictionary us Hw) as (_ & W1 & _). cbn [dict_run]. rewrite W1. cbn [app fst]. fold T. clearbody T. unfold guide_run, has_guide. destruct (o_ranked o || o_guide o) eqn:Eg; cbn [negb]; [|by rewrite app_nil_r].
  destruct (guide_ok m o es d us Hso Hh Hd) as (g & Hg & Hmg).
  exists g. split; [exact Hmg|]. rewrite Hg.
  assert (Hb3 : forall ix, words us /\ pairs g /\ (BuildIndex us g = Ok (Some ix) -> words ix)).
  { intros ix. apply (C32_built es us g ix Hh). unfold guide_made_by in Hmg. destruct (o_ranked o); [right; exists Z.ltb; exact (proj1 (made_default_ranked es us g) Hmg)|by left]. }
  destruct (Hb3 []) as (_ & Hpg & _).
  assert (W2 : (if o_ranked o then rguide_Write else guide_Write) g (words_bytes us, []) = (true, (words_bytes us ++ pairs_bytes g, []))).
  { destruct (o_ranked o); [apply (C32_ranked_guide g Hpg)|apply (C32_guide g Hpg)]. }
  rewrite W2. unfold idx_run, index_part. cbn [fst]. destruct (o_index o); cbn [negb]; [|by rewrite !app_nil_r].
  destruct (BuildIndex us g) as [[ix|]| |] eqn:EI; try (by rewrite !app_nil_r).
  destruct (C32_index ix) as (_ & W3 & _); [exact (proj2 (proj2 (Hb3 ix)) eq_refl)|]. rewrite W3. cbn [fst]. by rewrite <- app_assoc.
Qed.
(** The index of a guide: made unless there are no keys. *)
Lemma index_made o es us g : hist_ok es -> guide_made_by o es us g -> if decide (accepted es = []) then BuildIndex us g = Panic else exists ix, BuildIndex us g = Ok (Some ix).
Proof.
  intros Hh Hg. unfold guide_made_by in Hg. destruct (decide (accepted es = [])) as [Ha|Ha]; destruct (o_ranked o).
  - by apply (C77_ranked_empty Z.ltb es us g Hh (proj1 (made_default_ranked es us g) Hg)).
  - by apply (C46_empty_index_panics es us g Hh Hg).
  - destruct (C77_ranked_index Z.ltb es us g ltb_total Hh (proj1 (made_default_ranked es us g) Hg) Ha) as (ix & ks & H & _). by exists ix.
  - destruct (C41_index_counts es us g Hh Hg Ha) as (ix & H & _). by exists ix.
Qed.

Lemma after_create dic w w1 t c w' : w_out w1 = w_out w -> (forall q, q <> dic -> w_fs w1 q = w_fs w q) -> after dic w1 t c w' -> after dic w t c w'.
Proof. intros H1 H2 (Ho & Hd & Hq). split; [by rewrite Ho, H1|]. split; [done|]. intros q Hne. by rewrite Hq, H2. Qed.
Section built.
  Context (m : machine) (s : settings) (lex dic : list N) (w : world) (lexicon : list N) (es : list entry).
  Context (Hw : w_fs w dic = Some []) (Hlex : delivers (m_chunks m lex (default [] (w_fs w lex))) lexicon) (Hso : sorter (m_sort m)) (Hma : m_answers m = []).
  Context (Hes : lines_entries (s_opts s) (the_lines m (s_opts s) lexicon) es) (Hh : hist_ok es).
  Lemma built_rejected : ~ nondecreasing es -> exists t err, outcome dic (handleBuild m s lex dic) w (t, [], Exit 1 err).
  Proof using Hw Hlex Hes Hh.
    intros Hn. pose proof (build_outcome m s lex dic w lexicon Hw Hlex) as H. destruct (inserted (m_lsort m) (m_grow m) (m_calls m) (s_opts s) lexicon es Hes Hh) as (b & d & b' & _ & _ & E).
    rewrite decide_False in E by (intros X; by apply Hn, all_accepted, all_true). unfold the_lines in H. rewrite E in H. exact H.
  Qed.
  Lemma built_any : nondecreasing es -> exists d r tn, build 256 es NewDawg = Ok (results es, d) /\ dict_BuildWithUnused d = Ok r /\ notes (s_opts s) (the_lines m (s_opts s) lexicon) tn /\
    let '(t, c, e) := dict_run m (s_opts s) d (Ok r) ([], m_answers m) in outcome dic (handleBuild m s lex dic) w (tn ++ dawg_text (Z.of_nat (length es)) d ++ t, c, e).
  Proof using Hw Hlex Hes Hh.
    intros Hn. pose proof (build_outcome m s lex dic w lexicon Hw Hlex) as H. destruct (inserted (m_lsort m) (m_grow m) (m_calls m) (s_opts s) lexicon es Hes Hh) as (b & d & b' & Hf & Hb & E).
    rewrite decide_True in E by (by apply all_true, all_accepted). unfold the_lines in H. rewrite E in H. clear E. destruct H as (tn & Ht & _ & H). rewrite Hf in H. clear Hf.
    assert (exists r, dict_BuildWithUnused d = Ok r) as [r Hr].
    { assert (Hsz : size_ok 256) by (split; reflexivity || discriminate). destruct (C27_build_succeeds 256 es NewDawg Hsz Hh) as (r' & Hr' & _). exists r'. exact (dict_shape _ _ _ _ _ Hb Hr'). }
    exists d, r, tn. split; [exact Hb|]. split; [exact Hr|]. split; [exact Ht|]. clear Hb. destruct (dict_run m (s_opts s) d (Ok r) ([], m_answers m)) as [[t c] e] eqn:E. exact (H (Ok r) t c e Hr E).
  Qed.
  Lemma built_accepted : nondecreasing es -> exists d r tn, build 256 es NewDawg = Ok (results es, d) /\ dict_BuildWithUnused d = Ok r /\ notes (s_opts s) (the_lines m (s_opts s) lexicon) tn /\
    let '(t, c, e) := dict_run m (s_opts s) d (Ok r) ([], []) in outcome dic (handleBuild m s lex dic) w (tn ++ dawg_text (Z.of_nat (length es)) d ++ t, c, e).
  Proof using Hw Hlex Hes Hh Hma. rewrite <- Hma. exact built_any. Qed.
End built.

(** ** Lexicons with lines that stop the run *)
Lemma bind_assoc {A B C} (p : prog A) (f : A -> prog B) (g : B -> prog C) w : bind (bind p f) g w = bind p (fun a => bind (f a) g) w.
Proof. unfold bind. by destruct (p w) as [w1 [a| | |]]. Qed.
Lemma bind_ext {A B} (p : prog A) (f g : A -> prog B) : (forall a w, f a w = g a w) -> forall w, bind p f w = bind p g w.
Proof. intros H w. unfold bind. by destruct (p w) as [w1 [a| | |]]. Qed.
Lemma process_all_app m s l1 l2 : forall b n w, process_all m s b n (l1 ++ l2) w = bind (process_all m s b n l1) (fun r => process_all m s r.2 r.1 l2) w.
Proof.
  induction l1 as [|l l1 IH]; intros b n w; [done|]. cbn [app process_all]. rewrite bind_assoc. apply bind_ext. intros r w1. rewrite bind_assoc. apply bind_ext. intros [] w2. apply IH.
Qed.
Lemma insert_es o lines es : lines_entries o lines es -> hist_ok es -> nondecreasing es ->
  exists b, insert_all NewDawgBuilder es = Ok (results es, b) /\ insert_lines o NewDawgBuilder 0 lines = Ok (Some (Z.of_nat (length es), b)).
Proof.
  intros Hes Hh Hn. destruct (C15_no_panic 256 es NewDawg) as [d Hd]; [done|done|]. unfold build in Hd. change (NewDawgBuilderWithSize 256) with NewDawgBuilder in Hd.
  destruct (insert_all NewDawgBuilder es) as [[rs b]| |] eqn:E; cbn [mbind res_bind] in Hd; try discriminate Hd.
  destruct (Finish b NewDawg) as [[d1 b1]| |] eqn:E2; cbn [mbind res_bind] in Hd; try discriminate Hd. injection Hd as -> ->.
  exists b. split; [done|]. rewrite (insert_lines_spec o _ es Hes NewDawgBuilder 0 _ _ E). by rewrite decide_True by (by apply all_true, all_accepted).
Qed.
Lemma atoi_logged m s : logged (m_texts m) (Atoi_error (m_texts m) s) = log_line m (Atoi_error (m_texts m) s).
Proof.
  assert (exists x b, Atoi_error (m_texts m) s = x ++ [b] /\ (b = 120 \/ b = 101)) as (x & b & -> & Hb).
  { unfold Atoi_error. set (q := quote _ _). cbv zeta. fold (unsigned s). set (y := match unsigned s with [] => str "invalid syntax" | _ => if too_large 0 (unsigned s) then str "value out of range" else str "invalid syntax" end). assert (exists x b, y = x ++ [b] /\ (b = 120 \/ b = 101)) as (x & b & E & Hb).
    { unfold y. destruct (unsigned s); [|destruct (too_large _ _)]; [exists (str "invalid synta"), 120|exists (str "value out of rang"), 101|exists (str "invalid synta"), 120]; (split; [done|auto]). }
    exists (str "strconv.Atoi: parsing " ++ q ++ str ": " ++ x), b. split; [|done]. rewrite <- !app_assoc. rewrite <- E. reflexivity. }
  unfold logged, log_line. rewrite last_snoc. destruct Hb as [->| ->]; by rewrite <- app_assoc.
Qed.
Lemma key_of o l kv : line_entry_is o l kv -> exists k, key_on o l k.
Proof. intros (k & H & _). exists k. unfold key_on, line_kv in *. destruct (o_tab o); [|by destruct H]. destruct H as (x & z & H & _). by exists x. Qed.
Lemma key_same o l k v key : kv_res o l = Ok (Some (k, v)) -> key_on o l key -> key = k.
Proof.
  unfold kv_res, key_on. destruct (o_tab o); [|intros [= <- _] ->; done]. intros H (x & Hf). destruct (fields_split _ _ _ Hf) as [rest E]. rewrite E in H. cbv zeta in H.
  change (get (key :: x :: rest) 0) with (Ok key) in H. change (get (key :: x :: rest) 1) with (Ok x) in H. cbn [mbind res_bind] in H. destruct (Atoi x); [|done]. by injection H as <- _.
Qed.
Lemma stops_says m s es l b t e : hist_ok es -> nondecreasing es -> insert_all NewDawgBuilder es = Ok (results es, b) -> l <> [] -> stops m (s_opts s) es l t e -> (forall kv, line_entry_is (s_opts s) l kv -> hist_ok (es ++ [kv])) ->
  exists e', says (process m s b l) t e' /\ match e' with Ret _ => False | Exit c err => e = Exit c err | Crash => e = Crash | Loops => e = Loops end.
Proof.
  intros Hh Hn Hb Hl Hs Hall. destruct l as [|c l]; [done|]. rewrite process_kv. destruct Hs as [Ho H9|k x msg Ho Hf Hx Hmsg%value_error_is|kv t key Hkv Hw Hd Hkey].
  - exists Crash. split; [|done]. intros w. rewrite same. unfold kv_prog. rewrite Ho. destruct (fields_cases (c :: l)) as [[_ ->]|(k & x & rest & Hf & _)]; [done|]. by apply fields_in in Hf.
  - exists (Exit 1 (log_line m msg)). split; [|done]. intros w. rewrite same. unfold kv_prog. rewrite Ho. destruct (fields_split _ _ _ Hf) as [rest ->]. cbv zeta. change (get (k :: x :: rest) 0) with (Ok k). change (get (k :: x :: rest) 1) with (Ok x).
    unfold bind, call. destruct (Atoi x) as [z|] eqn:Ez; [|rewrite Hmsg; unfold fatal, exit; by rewrite atoi_logged]. exfalso. apply Hx. exists z. by apply Atoi_numeral.
  - exists (Exit 1 (log_line m (str "error: failed to insert key: " ++ key))). split; [|done]. specialize (Hall kv Hkv). pose proof (proj2 (entry_is _ _ _) Hkv) as E. unfold line_entry in E. fold (kv_res (s_opts s) (c :: l)) in E. pose proof (kv_sim m (s_opts s) (c :: l)) as K.
    pose proof (fun k v H => key_same (s_opts s) (c :: l) k v key H Hkey) as Hsame. destruct (kv_res (s_opts s) (c :: l)) as [[[k v]|]| |]; cbn [mbind res_bind] in E; try discriminate E. rewrite (Hsame k v eq_refl). clear Hsame. injection E as <-. destruct K as (t' & kv' & Hsay & -> & Hw').
    assert (t' = t) as ->.
    { unfold warned in *. destruct (o_tab (s_opts s)); [|by subst]. destruct Hw as (k1 & s1 & z1 & Hf1 & Hz1 & ->), Hw' as (k2 & s2 & z2 & Hf2 & Hz2 & ->). destruct (fields_split _ _ _ Hf1) as [r1 E1]. destruct (fields_split _ _ _ Hf2) as [r2 E2].
      rewrite E1 in E2. injection E2 as <- <- _. by rewrite (numeral_unique _ _ _ Hz1 Hz2). }
    set (kb := if o_utfc (s_opts s) then utfc_encode (runes k) else k) in *. destruct (C15_no_panic 256 (es ++ [(kb, v)]) NewDawg) as [d Hd']; [done|exact Hall|]. unfold build in Hd'. change (NewDawgBuilderWithSize 256) with NewDawgBuilder in Hd'.
    set (rs := results (es ++ [(kb, v)])) in *. assert (Hrs : ~ Forall (eq true) rs) by (intros X; by apply Hd, all_accepted, all_true). clearbody rs.
    destruct (insert_all NewDawgBuilder (es ++ [(kb, v)])) as [[rs' b']| |] eqn:E; cbn [mbind res_bind] in Hd'; try discriminate Hd'.
    assert (rs' = rs) as ->. { destruct (Finish b' NewDawg) as [[d1 b1]| |]; cbn [mbind res_bind] in Hd'; try discriminate Hd'. by injection Hd'. } clear Hd'.
    apply insert_all_snoc in E as (rs1 & b1 & r & E1 & E2 & ->). rewrite Hb in E1. injection E1 as <- <-. cbn [fst snd] in E2. unfold InsertStringValue in E2.
    assert (r = false) as ->. { destruct r; [|done]. exfalso. apply Hrs, Forall_app. split; [by apply all_true, all_accepted|by repeat constructor]. }
    intros w. unfold bind. rewrite Hsay. cbn [fst snd]. fold kb. rewrite E2. unfold call, fatal, exit. cbn [fst snd]. by rewrite app_assoc, logged_line.
Qed.
Lemma stopped m s lex dic w lexicon good es l rest t e : w_fs w dic = Some [] -> delivers (m_chunks m lex (default [] (w_fs w lex))) lexicon -> the_lines m (s_opts s) lexicon = good ++ l :: rest -> lines_entries (s_opts s) good es -> hist_ok es -> nondecreasing es ->
  l <> [] -> stops m (s_opts s) es l t e -> (forall kv, line_entry_is (s_opts s) l kv -> hist_ok (es ++ [kv])) ->
  exists tn, notes (s_opts s) good tn /\ outcome dic (handleBuild m s lex dic) w (tn ++ t, [], e).
Proof.
  intros Hw Hlex HL Hes Hh Hn Hl Hs Hk. destruct (insert_es _ _ _ Hes Hh Hn) as (b & Hb & Hi). destruct (stops_says m s es l b t e Hh Hn Hb Hl Hs Hk) as (e' & Hsay & He).
  pose proof (process_all_sim m s good NewDawgBuilder 0) as S. change (Z.of_nat 0) with 0%Z in S. rewrite Hi in S. destruct S as (tn & r & Hg & -> & (ws & Hf & Ht) & _). exists tn. split; [by exists ws|].
  unfold outcome. exists (mkW (w_out w ++ tn ++ t) (w_fs w)). split; [|done]. cbn [fst snd]. unfold handleBuild. unfold bind at 1. unfold read_file. unfold bind at 1. unfold scan_file. rewrite (delivers_scanned _ _ _ Hlex). unfold call at 1. fold (cli_lines (m_lsort m) (m_grow m) (m_calls m) (s_opts s) lexicon). fold (the_lines m (s_opts s) lexicon). rewrite HL.
  unfold bind at 1. rewrite process_all_app. unfold bind at 1. rewrite Hg. cbn [process_all fst snd]. unfold bind at 1. rewrite Hsay. cbn [w_out w_fs]. rewrite <- app_assoc. by destruct e'; subst.
Qed.
(** All lexicons. *)
Lemma lines_cases m o lines : (exists es, lines_entries o lines es /\ nondecreasing es) \/
  exists good l rest es t e, lines = good ++ l :: rest /\ lines_entries o good es /\ nondecreasing es /\ l <> [] /\ stops m o es l t e.
Proof.
  induction lines as [|l lines IH] using rev_ind; [left; exists []; split; [constructor|by intros i j a b _ H]|]. destruct IH as [(es & Hes & Hn)|(good & x & rest & es & t & e & -> & H)].
  2: { right. exists good, x, (rest ++ [l]), es, t, e. split; [|done]. by rewrite <- app_assoc. }
  destruct (decide (l = [])) as [->|Hl]. { left. exists es. split; [|done]. unfold lines_entries. rewrite filter_app, filter_cons_False by (intros X; by apply X). by rewrite filter_nil, app_nil_r. }
  destruct (C72_line_exact o l) as (H1 & H2 & H3 & H4). destruct (line_entry o l) as [[kv|]| |] eqn:E; [| | |done].
  - pose proof (proj1 (H1 kv) eq_refl) as Hkv. destruct (decide (Forall (eq true) (results (es ++ [kv])))) as [Hd|Hd].
    + left. exists (es ++ [kv]). split; [|by apply all_accepted, all_true]. unfold lines_entries. rewrite filter_app, filter_cons_True by done. rewrite filter_nil. apply Forall2_app; [done|by repeat constructor].
    + right. assert (exists t, warned o l t) as [t Ht].
      { pose proof (kv_sim m o l) as K. unfold line_entry in E. fold (kv_res o l) in E. destruct (kv_res o l) as [[[k v]|]| |]; cbn [mbind res_bind] in E; try discriminate E. destruct K as (t & _ & _ & _ & K). by exists t. }
      destruct (key_of o l kv Hkv) as [k Hk]. exists lines, l, [], es, t, (Exit 1 (log_line m (str "error: failed to insert key: " ++ k))). split; [done|]. do 3 (split; [done|]). apply (stop_order m o es l kv t); [done|done| |done]. intros X. by apply Hd, all_true, all_accepted.
  - right. destruct (proj1 H3 eq_refl) as (Ho & k & s & Hf & Hz). exists lines, l, [], es, [], (Exit 1 (log_line m (Atoi_error (m_texts m) s))). split; [done|]. do 3 (split; [done|]). apply (stop_value m o es l k s); [done|done|done|by apply value_error_is].
  - right. destruct (proj1 H2 eq_refl) as [Ho H9]. exists lines, l, [], es, [], Crash. split; [done|]. do 3 (split; [done|]). by apply stop_tab.
Qed.

(** ** Loading *)
Lemma load_run m fuel s lex dic w : s_build s = false -> w_fs w lex <> None -> w_fs w dic <> None -> run_at m fuel s lex dic w = handleLoad m fuel s lex dic w.
Proof. intros Hb Hl Hd. unfold run_at, bind, read_file. destruct (w_fs w lex); [|done]. rewrite Hb. by destruct (w_fs w dic). Qed.
Lemma load_no_guide m fuel s lex dic w queries us r l : ReadDictionary (m_chunks m dic (default [] (w_fs w dic))) = Ok (Some us, r) -> o_ranked (s_opts s) = false -> o_guide (s_opts s) = false -> o_index (s_opts s) = true ->
  delivers (m_chunks m lex (default [] (w_fs w lex))) queries -> answers_plain us (scan_lines queries) = Ok l -> handleLoad m fuel s lex dic w = (mkW (w_out w ++ answers_text l) (w_fs w), Crash).
Proof.
  intros Hr H1 H2 H3 Hq Hl. unfold handleLoad, bind, read_file, scan_file. rewrite Hr. unfold call. cbn [fst snd]. rewrite H1, H2, H3. cbn [fst snd orb negb]. rewrite (delivers_scanned _ _ _ Hq).
  pose proof (plain_queries us (scan_lines queries)) as Q. rewrite Hl in Q. destruct Q as (t & [] & Hs & ->). unfold bind. rewrite Hs. reflexivity.
Qed.
Lemma load_expected es fuel o queries r file rest : hist_ok es -> file_is o es file -> concat r = file ++ rest -> Forall (query_ok es) (scan_lines queries) -> (o_index o = true -> has_guide o = true) ->
  (has_guide o = true -> (length (accepted es) < fuel)%nat) -> (o_ranked o = false -> o_guide o = true -> [] ∈ scan_lines queries -> ~ is_key es []) ->
  exists l ws, cli_load fuel o r queries = Ok (Some (l, ws)) /\ expected o es (scan_lines queries) l ws.
Proof.
  intros Hh (us & Hm & H) Hr Hq Hi Hfu Hnil. unfold expected, has_guide, guide_made_by in *. destruct (o_ranked o) eqn:Ek; cbn [orb] in *; [|destruct (o_guide o) eqn:Eg].
  - destruct H as (g & Hg & H). destruct (o_index o) eqn:Ei.
    + destruct H as (ix & Hix & H). destruct (load_ranked_index es Hh fuel o queries Hq r rest us g ix Hg Ek Ei Hix) as (l & ks & E & H1 & H2 & H3); [by rewrite Hr, H, <- ?app_assoc|by apply Hfu|]. exists l, (Some (N.of_nat (length ks), ks)). split; [done|]. by exists ks.
    + destruct (load_ranked es Hh fuel o queries Hq r rest us g Hg Ek Ei) as (l & E & H1); [by rewrite Hr, H, <- ?app_assoc|by apply Hfu|]. by exists l, None.
  - destruct H as (g & Hg & H). destruct (load_guide es Hh fuel o queries Hq r rest us g Hg Ek Eg) as [E _].
    + intros Ei. rewrite Ei in H. by rewrite Hr, H, <- ?app_assoc.
    + intros Ei. rewrite Ei in H. destruct H as (ix & Hix & H). exists ix. split; [done|]. by rewrite Hr, H, <- ?app_assoc.
    + eexists _, _. split; [apply E; [by apply Hfu|by apply Hnil]|]. done.
  - eexists _, _. split; [rewrite (load_plain es Hh fuel o queries Hq r rest us Hm); [|unfold has_guide; by rewrite Ek, Eg|by rewrite Hr, H, <- ?app_assoc]|done]. destruct (o_index o); [by specialize (Hi eq_refl)|done].
Qed.
(** A file has what is needed to load it with fewer parts. *)
Definition enough (o o' : opts) : Prop := has_guide o' = true -> has_guide o = true /\ o_ranked o = o_ranked o' /\ (o_index o' = true -> o_index o = true).
Lemma file_part o o' es file : file_is o es file -> enough o o' -> exists f rest, file_is o' es f /\ file = f ++ rest.
Proof.
  unfold file_is, guide_made_by, enough. intros (us & Hm & H) He. destruct (has_guide o') eqn:E'.
  - destruct (He eq_refl) as (E & <- & Hi). rewrite E in H. destruct H as (g & Hg & H). destruct (o_index o') eqn:Ei.
    + rewrite (Hi eq_refl) in H. destruct H as (ix & Hix & ->). eexists _, []. split; [|by rewrite app_nil_r]. exists us. split; [done|]. exists g. split; [done|]. by exists ix.
    + assert (exists rest, file = (words_bytes us ++ pairs_bytes g) ++ rest) as [rest Hr]. { destruct (o_index o); [destruct H as (ix & _ & ->); exists (words_bytes ix); by rewrite <- app_assoc|exists []; by rewrite app_nil_r]. }
      eexists _, rest. split; [|exact Hr]. exists us. split; [done|]. by exists g.
  - assert (exists rest, file = words_bytes us ++ rest) as [rest Hr].
    { destruct (has_guide o); [|exists []; by rewrite app_nil_r]. destruct H as (g & _ & H). destruct (o_index o); [destruct H as (ix & _ & ->)|subst file]; by eexists. }
    exists (words_bytes us), rest. split; [|done]. by exists us.
Qed.
Lemma load_plain_index es m fuel s lex dic w queries file rest : hist_ok es -> file_is (s_opts s) es file -> has_guide (s_opts s) = false -> o_index (s_opts s) = true -> concat (m_chunks m dic (default [] (w_fs w dic))) = file ++ rest ->
  delivers (m_chunks m lex (default [] (w_fs w lex))) queries -> Forall (query_ok es) (scan_lines queries) ->
  handleLoad m fuel s lex dic w = (mkW (w_out w ++ answers_text (map (plain_answer (entries es)) (scan_lines queries))) (w_fs w), Crash).
Proof.
  intros Hh (us & Hm & H) Hg Hi Hr Hl Hq. rewrite Hg in H. subst file. destruct (C31_dictionary us (C31_built es us Hh Hm)) as (_ & _ & R1). destruct (R1 [] _ rest Hr) as (r1 & _ & E1 & _).
  unfold has_guide in Hg. apply orb_false_iff in Hg as [Hg1 Hg2]. apply (load_no_guide m fuel s lex dic w queries us r1); try done. exact (answers_plain_ok es us _ Hh Hm Hq).
Qed.
Lemma load_empty es m fuel s lex dic w queries file rest : hist_ok es -> file_is (s_opts s) es file -> o_ranked (s_opts s) = false -> o_guide (s_opts s) = true -> concat (m_chunks m dic (default [] (w_fs w dic))) = file ++ rest ->
  delivers (m_chunks m lex (default [] (w_fs w lex))) queries -> Forall (query_ok es) (scan_lines queries) -> [] ∈ scan_lines queries -> is_key es [] ->
  exists t, handleLoad m fuel s lex dic w = (mkW (w_out w ++ t) (w_fs w), Loops).
Proof.
  intros Hh (us & Hm & H) Hk Hg Hr Hl Hq Hin Hkey. destruct (load_sim m fuel s lex dic w queries Hl) as (t & e & E & He & _). exists t. rewrite E. f_equal. clear E. unfold has_guide, guide_made_by in H. rewrite Hk, Hg in H. cbn [orb] in H. destruct H as (g & Hmg & H).
  destruct (load_guide es Hh fuel (s_opts s) queries Hq (m_chunks m dic (default [] (w_fs w dic))) rest us g Hmg Hk Hg) as [_ X].
  - intros Ei. rewrite Ei in H. by rewrite Hr, H, <- app_assoc.
  - intros Ei. rewrite Ei in H. destruct H as (ix & Hix & H). exists ix. split; [done|]. by rewrite Hr, H, <- !app_assoc.
  - by rewrite X in He.
Qed.
