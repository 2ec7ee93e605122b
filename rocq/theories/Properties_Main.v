(** Properties C83-C89 of cmd/dawgtool/main.go: whole runs. *)
From Coq Require Import String Sorted.
From Coq Require SpecFloat.
From Verif Require Import Go Dawg DawgSpec DawgAbs Dict DictSpec Guide GuideSpec Index Ranked RankedSpec RankedProofs RankedIndexSpec Serial Cli CliSpec CliProofs Scanner ScannerSpec ScannerProofs CliFile CliSort
  DawgCanon Properties_Dict Properties_Serial Properties_Cli Main MainSpec MainParse MainText MainRatio MainBuild MainRun.
Local Open Scope N_scope.
Local Arguments N.mul : simpl never.
Local Arguments N.add : simpl never.
Local Arguments N.of_nat : simpl never.

Definition t0 : texts := mkT (str "2009/11/10 23:00:00 ") (str "dawgtool") (fun _ => str "no such file or directory") (fun _ => str "permission denied") (fun _ => true).
(** ** C83 *)
(** A command line can be read in one way. *)
Theorem C83_reading args sets ops sets' ops' : command_line args sets ops -> command_line args sets' ops' -> chosen sets = chosen sets' /\ ops = ops'.
Proof.
  intros H H'. assert (E : parse t0 settings0 args = PDone (chosen sets) ops) by (apply parse_iff; by exists sets). assert (E' : parse t0 settings0 args = PDone (chosen sets') ops') by (apply parse_iff; by exists sets').
  split; congruence.
Qed.
Print Assumptions C83_reading.
(** One that cannot be read ends the run: nothing is printed to standard output, no file
    is touched. *)
Theorem C83_refused m fuel args w : (forall sets ops, ~ command_line args sets ops) ->
  (help_line args -> exists err, main m fuel args w = (w, Exit 0 err)) /\ (~ help_line args -> exists err, main m fuel args w = (w, Exit 2 err)).
Proof.
  intros Hn. destruct (main_cases m fuel args w) as [(sets & ops & Hl & _)|[[Hh E]|(Hh & _ & msg & _ & E)]]; [by destruct (Hn sets ops)|split; [by eexists|done]..|].
  split; [done|by eexists].
Qed.
Print Assumptions C83_refused.
Theorem C83_help args sets ops : help_line args -> ~ command_line args sets ops.
Proof. intros H%(help_iff t0) Hl. assert (parse t0 settings0 args = PDone (chosen sets) ops) by (apply parse_iff; by exists sets). congruence. Qed.
Print Assumptions C83_help.
(** So do files that cannot be opened.  98 is b; without a path files are called "-",
    which is not standard input. *)
Theorem C83_no_file m fuel args sets ops w : command_line args sets ops ->
  let lex := lexicon_path (chosen sets) ops in let dic := dictionary_path (chosen sets) ops in
  (w_fs w lex = None -> exists err, main m fuel args w = (w, Exit 1 err)) /\
  (switch 98 sets = true -> m_create m dic = false -> exists err, main m fuel args w = (w, Exit 1 err)) /\
  (switch 98 sets = false -> w_fs w dic = None -> exists err, main m fuel args w = (w, Exit 1 err)).
Proof.
  intros Hl lex dic. rewrite (main_line m fuel args sets ops w Hl). fold lex dic. unfold run_at, bind, read_file. change (s_build (chosen sets)) with (switch 98 sets). split; [|split].
  - intros ->. by eexists.
  - intros -> H. destruct (w_fs w lex); [|by eexists]. unfold create. rewrite H. by eexists.
  - intros -> H. destruct (w_fs w lex); [|by eexists]. rewrite H. by eexists.
Qed.
Print Assumptions C83_no_file.
Example C83_case : command_line (map str ["-b"; "--t=F"; "-l"; "a"; "-t"; "-d=x"; "b"; "-c"]%string) [Switch 98 true; Switch 116 false; Path 108 (str "a"); Switch 116 true; Path 100 (str "x")] (map str ["b"; "-c"]%string).
Proof.
  exists [[str "-b"]; [str "--t=F"]; [str "-l"; str "a"]; [str "-t"]; [str "-d=x"]], (map str ["b"; "-c"]%string).
  assert (D1 : dashes (str "-")) by (by left). assert (D2 : dashes (str "--")) by (by right).
  assert (S1 : 98 ∈ switches) by (by vm_compute; left). assert (S2 : 116 ∈ switches) by (vm_compute; right; left). assert (P1 : 108 ∈ paths) by (vm_compute; left). assert (P2 : 100 ∈ paths) by (vm_compute; right; left).
  split; [|split; [|reflexivity]].
  - constructor; [exact (sp_on (str "-") 98 D1 S1)|]. constructor; [apply (sp_switch (str "--") 116 (str "F") false D2 S2), t_false; vm_compute; right; right; left|].
    constructor; [exact (sp_path (str "-") 108 (str "a") D1 P1)|]. constructor; [exact (sp_on (str "-") 116 D1 S2)|]. constructor; [exact (sp_path_eq (str "-") 100 (str "x") D1 P2)|constructor].
  - right. split; [done|]. left. vm_compute. lia.
Qed.
Example C83_bad_case : parse t0 settings0 (map str ["-bt"]%string) = PBad (str "flag provided but not defined: -bt") /\ parse t0 settings0 (map str ["-b"; "-h"]%string) = PHelp /\ help_line (map str ["-b"; "-h"]%string).
Proof. split; [reflexivity|]. split; [reflexivity|]. by apply (help_iff t0). Qed.

(** ** C84 *)
(** Output is only added to, and the only file a run can change is the dictionary, when
    building. *)
Theorem C84_changes m fuel args w w' e : main m fuel args w = (w', e) -> (exists t, w_out w' = w_out w ++ t) /\
  forall q, w_fs w' q <> w_fs w q -> exists sets ops, command_line args sets ops /\ switch 98 sets = true /\ q = dictionary_path (chosen sets) ops.
Proof.
  intros H. destruct (main_cases m fuel args w) as [(sets & ops & Hl & E)|[[_ E]|(_ & _ & msg & _ & E)]].
  - rewrite E in H. destruct (run_any _ _ _ _ _ _ _ _ H) as [H1 H2]. split; [done|]. intros q Hq. destruct (H2 q Hq) as [H3 H4]. by exists sets, ops.
  - rewrite E in H. injection H as <- _. split; [exists []; by rewrite app_nil_r|done].
  - rewrite E in H. injection H as <- _. split; [exists []; by rewrite app_nil_r|done].
Qed.
Print Assumptions C84_changes.

Lemma accepted_nil es : accepted es = [] -> es = [].
Proof.
  assert (K : forall h es0, es0 <> [] -> (spec_run es0 h).2 <> []).
  { induction h as [|kv h IH]; intros es0 H0; cbn [spec_run]; [done|]. destruct (spec_insert es0 kv) as [r es1] eqn:E. assert (es1 <> []) as H1.
    { unfold spec_insert in E. destruct (last es0) as [[k0 v0]|]; [destruct (kcmp k0 kv.1)|]; injection E as _ <-; try done; intros X; by apply app_eq_nil in X as [_ ?]. }
    specialize (IH es1 H1). by destruct (spec_run es1 h). }
  destruct es as [|kv es]; [done|]. unfold accepted. cbn [spec_run]. change (spec_insert [] kv) with (true, [kv]). cbv iota beta. specialize (K es [kv] ltac:(done)). destruct (spec_run [kv] es) as [rs es1]. cbn [snd] in *. by intros ?%K.
Qed.
(** ** C85 *)
(** Numbers are printed in decimal. *)
Theorem C85_numbers z : shows (dec z) z.
Proof. apply dec_shows. Qed.
Print Assumptions C85_numbers.
(** C100. The percentage of unused elements is rounded to the nearest hundredth, although it
    was rounded to a float64 before. *)
Theorem C100_ratio unused size : unused < 4294967296 -> (0 < size)%Z -> percentage (ratio unused size) (Z.of_N unused) size.
Proof. apply ratio_percentage. Qed.
Print Assumptions C100_ratio.
Example C100_case : ratio 249 256 = str "97.27" /\ ratio 0 256 = str "0.00" /\ ratio 1 4294967295 = str "0.00" /\ ratio 4294967295 7 = str "61356675642.86" /\
  (** ties: 0.125 is a float64; 0.055 and 1.005 are not *)
  ratio 1 800 = str "0.12" /\ ratio 3 800 = str "0.38" /\ ratio 11 20000 = str "0.06" /\ ratio 201 20000 = str "1.00".
Proof. vm_compute. repeat split. Qed.
(** [div64] on some quotients, and the division of binary64 numbers of the standard library. *)
Example C100_division : Forall (fun ab => let '(m, s) := div64 ab.1 ab.2 in
    let f z := SpecFloat.binary_normalize 53 1024 z 0 false in SpecFloat.SFdiv 53 1024 (f ab.1) (f ab.2) = SpecFloat.binary_normalize 53 1024 m (- s) false)
  [(24900, 256); (100, 800); (1100, 20000); (20100, 20000); (1, 3); (429496729500, 7); (100, 4294967295); (9007199254740993, 2); (18014398509481983, 1)]%Z.
Proof. repeat constructor; vm_compute; auto. Qed.
Section build.
  Context (m : machine) (fuel : nat) (args : list (list N)) (sets : list setting) (ops : list (list N)) (w : world).
  Context (Hl : command_line args sets ops) (Hb : switch 98 sets = true) (Hm : builds_ok m).
  Notation o := (s_opts (chosen sets)).
  Notation lex := (lexicon_path (chosen sets) ops).
  Notation dic := (dictionary_path (chosen sets) ops).
  Context (Hc : m_create m dic = true) (lexicon : list N) (Hlex : read_as m w lex dic lexicon).
  Context (es : list entry) (Hes : lines_entries o (the_lines m o lexicon) es) (Hh : hist_ok es).
  Lemma run_from : exists w1, main m fuel args w = handleBuild m (chosen sets) lex dic w1 /\ w_out w1 = w_out w /\ w_fs w1 dic = Some [] /\ (forall q, q <> dic -> w_fs w1 q = w_fs w q) /\ delivers (m_chunks m lex (default [] (w_fs w1 lex))) lexicon.
  Proof using Hl Hb Hc Hlex.
    destruct Hlex as (old & Ho & Hx). destruct (create_run m fuel (chosen sets) lex dic w Hb) as (w1 & E & H1 & H2 & H3); [by rewrite Ho|done|]. exists w1. split; [by rewrite (main_line m fuel args sets ops w Hl)|].
    split; [done|]. split; [done|]. split; [done|]. revert Hx. destruct (decide (lex = dic)) as [->|Hne]; [by rewrite H2|]. by rewrite H3, Ho.
  Qed.
  (** What is printed, written and left behind when the keys, in the order of insertion,
      never decrease. *)
  Theorem C85_build : nondecreasing es -> exists d r tn, build 256 es NewDawg = Ok (results es, d) /\ dict_BuildWithUnused d = Ok r /\ notes o (the_lines m o lexicon) tn /\
    exists w' t c e, main m fuel args w = (w', e) /\ after dic w (tn ++ dawg_text (Z.of_nat (length es)) d ++ t) c w' /\
    match r with
    | None => t = [] /\ c = [] /\ e = Exit 1 (log_line m (str "error: failed to build dictionary"))
    | Some (us, unused) => exists t', t = dict_text (Z.of_nat (length us)) unused (ratio unused (Z.of_nat (length us))) ++ t' /\
        if has_guide o then exists g t'' c', guide_made_by o es us g /\ t' = guide_text (Z.of_nat (length g)) ++ t'' /\ c = words_bytes us ++ pairs_bytes g ++ c' /\
          if o_index o then
            if decide (accepted es = []) then t'' = [] /\ c' = [] /\ e = Crash
            else exists ix, BuildIndex us g = Ok (Some ix) /\ t'' = index_text (Z.of_nat (length ix)) /\ c' = words_bytes ix /\ e = Ret tt
          else t'' = [] /\ c' = [] /\ e = Ret tt
        else t' = [] /\ c = words_bytes us /\ e = Ret tt
    end.
  Proof using Hl Hb Hc Hlex Hes Hh Hm.
    intros Hn. destruct run_from as (w1 & E & H1 & H2 & H3 & H4). destruct Hm as (_ & Hso & Hma). destruct (built_accepted m (chosen sets) lex dic w1 lexicon es H2 H4 Hma Hes Hh Hn) as (d & r & tn & Hd & Hr & Ht & Ho).
    exists d, r, tn. split; [exact Hd|]. split; [exact Hr|]. split; [exact Ht|]. destruct r as [[us unused]|].
    2: { clear Hd Hr. cbn [dict_run] in Ho. destruct Ho as (w' & Er & Ha). eexists w', [], [], _. split; [by rewrite E|]. split; [by apply (after_create dic w w1)|done]. }
    assert (Hmd : made_dawg es d us) by (exists 256%Z, NewDawg, (results es), unused; split; [split; reflexivity || discriminate|exact (conj Hd Hr)]). clear Hd Hr.
    pose proof (run_ok m o es d us unused Hso Hh Hmd) as R. cbv zeta in R. revert R Ho. generalize (dict_text (Z.of_nat (length us)) unused (ratio unused (Z.of_nat (length us)))) as T. intros T R Ho.
    destruct (has_guide o) eqn:Eg.
    - destruct R as (g & Hg & R). rewrite R in Ho. clear R. destruct (index_part m o us g) as [[t c] e] eqn:EI. destruct Ho as (w' & Er & Ha). exists w', (T ++ guide_text (Z.of_nat (length g)) ++ t), (words_bytes us ++ pairs_bytes g ++ c), e.
      split; [by rewrite E|]. split; [by apply (after_create dic w w1)|]. eexists. split; [reflexivity|]. exists g, t, c. split; [exact Hg|]. split; [done|]. split; [done|]. unfold index_part in EI. destruct (o_index o) eqn:Ei; [|by injection EI as <- <- <-].
      pose proof (index_made o es us g Hh Hg) as HI. destruct (decide (accepted es = [])); [rewrite HI in EI; by injection EI as <- <- <-|]. destruct HI as [ix HI]. rewrite HI in EI. injection EI as <- <- <-. by exists ix.
    - rewrite R in Ho. destruct Ho as (w' & Er & Ha). exists w', T, (words_bytes us), (Ret tt). split; [by rewrite E|]. split; [by apply (after_create dic w w1)|]. exists []. by rewrite app_nil_r.
  Qed.
  (** It succeeds unless there are too many prefixes of keys, or no keys for an index. *)
  Theorem C85_built : nondecreasing es -> (exists L, enumerates L (key_prefix es) /\ N.of_nat (length L) < 2097152) -> (has_guide o = true -> o_index o = true -> accepted es <> []) ->
    exists w' t file, main m fuel args w = (w', Ret tt) /\ after dic w t file w' /\ file_is o es file.
  Proof using Hl Hb Hc Hlex Hes Hh Hm.
    intros Hn (L & HL & Hlen) Hi. destruct (C85_build Hn) as (d & r & tn & Hd & Hr & _ & w' & t & c & e & E & Ha & H). exists w', (tn ++ dawg_text (Z.of_nat (length es)) d ++ t), c.
    assert (Hsz : size_ok 256) by (split; reflexivity || discriminate). destruct (C27_build_succeeds 256 es NewDawg Hsz Hh) as (r' & Hr' & Hne & _). specialize (Hne L HL Hlen). unfold build_dict in Hr'. pose proof (dict_shape _ _ _ _ _ Hd Hr') as Hr2. fold (build_dict 256 es NewDawg) in Hr'. rewrite Hr in Hr2. injection Hr2 as <-.
    destruct r as [[us unused]|]; [|contradiction Hne; reflexivity]. clear Hne Hr. assert (Hmd : made es us) by (exists 256%Z, NewDawg, unused; exact (conj Hsz Hr')). clear Hr' Hd Hsz.
    destruct H as (t' & _ & H). unfold file_is. destruct (has_guide o).
    - destruct H as (g & t'' & c' & Hg & _ & -> & H). destruct (o_index o).
      + rewrite decide_False in H by (by apply Hi). destruct H as (ix & Hix & _ & -> & ->). split; [exact E|]. split; [exact Ha|]. exists us. split; [exact Hmd|]. exists g. split; [exact Hg|]. by exists ix.
      + destruct H as (_ & -> & ->). rewrite app_nil_r in *. split; [exact E|]. split; [exact Ha|]. exists us. split; [exact Hmd|]. by exists g.
    - destruct H as (_ & -> & ->). split; [exact E|]. split; [exact Ha|]. by exists us.
  Qed.
End build.
Print Assumptions C85_build.
Print Assumptions C85_built.
(** A run: lex1 (Properties_Cli.v), with -t -s -g -i. *)
Definition m0 : machine := mkM isort isort (fun n => n + n)%nat (fun _ _ => []) (fun _ => true) (fun _ bs => [bs]) (fun _ => false) [] t0.
Definition w0 : world := mkW [] (fun p => if decide (p = str "lex") then Some lex1 else if decide (p = str "qs") then Some [97; 10; 98; 10; 99; 10] else None).
Lemma m0_ok : machine_ok m0.
Proof.
  split; [split; [apply isort_stable|]; split; [apply isort_sorter|done]|]. intros p bs. split; [cbn; by rewrite app_nil_r|]. intros i H. specialize (H (i + 1)%nat ltac:(lia)). by rewrite lookup_ge_None_2 in H by (cbn; lia).
Qed.
Lemma reads_all m p bs : reads_ok m -> delivers (m_chunks m p bs) bs.
Proof. intros H. destruct (H p bs) as [H1 H2]. left. by rewrite H1. Qed.
Definition lines_of (l : list string) : list N := flat_map (fun s => str s ++ [10]) l.
Example C85_case : let '(w', e) := main m0 0 (map str ["-b"; "-t"; "-s"; "-g"; "-i"; "lex"; "dic"]%string) w0 in e = Ret tt /\
  w_out w' = lines_of ["warning: negative value is replaced by 0: -3"; "no. keys: 3"; "no. states: 5"; "no. transitions: 6"; "no. merged states: 2"; "no. merging states: 0"; "no. merged transitions: 0";
    "no. elements: 256"; "no. unused elements: 249 (97.27%)"; "dictionary size: 1024"; "no. units: 256"; "guide size: 512"; "no. index units: 256"; "index size: 1024"]%string /\
  exists file, w_fs w' (str "dic") = Some file /\ length file = 2572%nat.
Proof. vm_compute. split; [reflexivity|]. split; [reflexivity|]. eexists. split; reflexivity. Qed.
Definition sets1 : list setting := map (fun c => Switch c true) (str "btsgi").
Example C85_hyps : command_line (map str ["-b"; "-t"; "-s"; "-g"; "-i"; "lex"; "dic"]%string) sets1 (map str ["lex"; "dic"]%string) /\ machine_ok m0 /\ read_as m0 w0 (str "lex") (str "dic") lex1 /\
  lines_entries (s_opts (chosen sets1)) (the_lines m0 (s_opts (chosen sets1)) lex1) es1 /\ hist_ok es1 /\ nondecreasing es1 /\ (exists L, enumerates L (key_prefix es1) /\ N.of_nat (length L) < 2097152) /\ accepted es1 <> [].
Proof.
  destruct (C76_hyps env0 env0_ok) as (H1 & H2 & H3 & _). split; [|split; [apply m0_ok|split; [|split; [exact H1|split; [exact H2|split; [exact H3|split; [|by vm_compute]]]]]]].
  - exists (map (fun a => [str a]) ["-b"; "-t"; "-s"; "-g"; "-i"]%string), (map str ["lex"; "dic"]%string). split; [|split; [|reflexivity]].
    + assert (D : dashes (str "-")) by by left. assert (K : forall c, c ∈ switches -> spelled (Switch c true) [str "-" ++ [c]]) by (intros c; by apply sp_on).
      unfold sets1. change (str "btsgi") with [98; 116; 115; 103; 105]. cbn [map]. repeat constructor; apply K; apply elem_of_list_In; vm_compute; tauto.
    + right. split; [done|]. right. done.
  - exists lex1. split; [done|]. apply reads_all, m0_ok.
  - exists [[]; [97]; [97; 98]; [98]]. split; [|done]. split.
    + repeat constructor; rewrite ?not_elem_of_cons; repeat split; try done; apply not_elem_of_nil.
    + intros p. unfold key_prefix. change (entries es1) with es1. rewrite !elem_of_cons, elem_of_nil. split.
      * intros [->|[->|[->|[->|[]]]]]; [exists [97], 0%Z|exists [97], 0%Z|exists [97; 98], 7%Z|exists [98], 5%Z]; (split; [unfold es1; apply elem_of_list_In; cbn; tauto|]); [exists [97]|exists []|exists []|exists []]; reflexivity.
      * intros (k & v & Hk & t & E). unfold es1 in Hk. rewrite !elem_of_cons, elem_of_nil in Hk. destruct Hk as [[= -> ->]|[[= -> ->]|[[= -> ->]|[]]]]; destruct p as [|a [|b [|]]]; cbn [app] in E; inversion E; subst; tauto.
Qed.

(** ** C86 *)
(** Not so: a build that fails does not leave the dictionary as it was. *)
Theorem C86_kept_refuted : exists m args sets ops w w' e, machine_ok m /\ command_line args sets ops /\ main m 0 args w = (w', e) /\ e <> Ret tt /\ w_fs w (dictionary_path (chosen sets) ops) = Some [1] /\ w_fs w' (dictionary_path (chosen sets) ops) = Some [].
Proof.
  exists m0, (map str ["-b"; "lex"; "dic"]%string), [Switch 98 true], (map str ["lex"; "dic"]%string), (mkW [] (fun p => if decide (p = str "lex") then Some [98; 10; 97; 10] else Some [1])).
  eexists _, _. split; [apply m0_ok|]. split; [|split; [vm_compute; reflexivity|by vm_compute]].
  exists [[str "-b"]], (map str ["lex"; "dic"]%string). split; [|split; [|reflexivity]].
  - constructor; [|constructor]. apply (sp_on (str "-") 98); [by left|]. apply elem_of_list_In. vm_compute. tauto.
  - right. split; [done|]. by right.
Qed.
Print Assumptions C86_kept_refuted.
(** It does when it fails before it gets there: the command line, the lexicon, or creating
    the file. *)
Theorem C86_kept_partial m fuel args w : (forall sets ops, command_line args sets ops -> switch 98 sets = true -> w_fs w (lexicon_path (chosen sets) ops) = None \/ m_create m (dictionary_path (chosen sets) ops) = false) ->
  forall w' e, main m fuel args w = (w', e) -> forall q, w_fs w' q = w_fs w q.
Proof.
  intros H w' e E q. destruct (decide (w_fs w' q = w_fs w q)) as [|Hne]; [done|]. exfalso. destruct (C84_changes m fuel args w w' e E) as [_ Hc]. destruct (Hc q Hne) as (sets & ops & Hl & Hb & ->).
  destruct (C83_no_file m fuel args sets ops w Hl) as (H1 & H2 & _). destruct (H sets ops Hl Hb) as [H0|H0]; [destruct (H1 H0) as [err H3]|destruct (H2 Hb H0) as [err H3]]; rewrite H3 in E; by injection E as <- _.
Qed.
Print Assumptions C86_kept_partial.

(** ** C87 *)
Section fail.
  Context (m : machine) (fuel : nat) (args : list (list N)) (sets : list setting) (ops : list (list N)) (w : world).
  Context (Hl : command_line args sets ops) (Hb : switch 98 sets = true).
  Notation o := (s_opts (chosen sets)).
  Notation lex := (lexicon_path (chosen sets) ops).
  Notation dic := (dictionary_path (chosen sets) ops).
  Context (Hc : m_create m dic = true) (lexicon : list N) (Hlex : read_as m w lex dic lexicon).
  (** After the first line that stops it ([stops]) nothing is left in the dictionary. *)
  Theorem C87_stopped good l rest es t e : the_lines m o lexicon = good ++ l :: rest -> lines_entries o good es -> nondecreasing es -> hist_ok es -> l <> [] -> stops m o es l t e -> (forall kv, line_entry_is o l kv -> hist_ok (es ++ [kv])) ->
    exists tn w', notes o good tn /\ main m fuel args w = (w', e) /\ after dic w (tn ++ t) [] w'.
  Proof using Hl Hb Hc Hlex.
    intros HL Hes Hn Hh Hne Hs Hk. destruct (run_from m fuel args sets ops w Hl Hb Hc lexicon Hlex) as (w1 & E & H1 & H2 & H3 & H4).
    destruct (stopped m (chosen sets) lex dic w1 lexicon good es l rest t e H2 H4 HL Hes Hh Hn Hne Hs Hk) as (tn & Ht & w' & Er & Ha). exists tn, w'. split; [done|]. split; [by rewrite E|]. by apply (after_create dic w w1).
  Qed.
  (** There is such a line unless all lines have entries, in order. *)
  Theorem C87_cases lines : (exists es, lines_entries o lines es /\ nondecreasing es) \/
    exists good l rest es t e, lines = good ++ l :: rest /\ lines_entries o good es /\ nondecreasing es /\ l <> [] /\ stops m o es l t e.
  Proof using. apply lines_cases. Qed.
End fail.
Print Assumptions C87_stopped.
Print Assumptions C87_cases.
Example C87_case : let run lexicon := let '(w', e) := main m0 0 (map str ["-b"; "-t"; "lex"; "dic"]%string) (mkW [] (fun p => if decide (p = str "lex") then Some lexicon else Some [1])) in (w_out w', w_fs w' (str "dic"), e) in
  run [97; 9; 49; 10; 98; 10] = ([], Some [], Crash) /\ run [97; 9; 120; 10] = ([], Some [], Exit 1 (line "2009/11/10 23:00:00 strconv.Atoi: parsing ""x"": invalid syntax")) /\
  run [98; 9; 45; 49; 10; 97; 9; 45; 50; 10] = (lines_of ["warning: negative value is replaced by 0: -1"; "warning: negative value is replaced by 0: -2"]%string, Some [], Exit 1 (line "2009/11/10 23:00:00 error: failed to insert key: a")).
Proof. vm_compute. repeat split. Qed.
(** Given one path for both, the lexicon is lost: it is replaced by a dictionary of no
    keys. *)
Theorem C87_same_path m fuel args sets ops w old : command_line args sets ops -> switch 98 sets = true -> machine_ok m -> let lex := lexicon_path (chosen sets) ops in let o := s_opts (chosen sets) in
  lex = dictionary_path (chosen sets) ops -> m_create m lex = true -> w_fs w lex = Some old -> has_guide o && o_index o = false ->
  exists w' t file, main m fuel args w = (w', Ret tt) /\ after lex w t file w' /\ file_is o [] file.
Proof.
  intros Hl Hb Hm lex o Hp Hc Hf Hi. unfold lex in *. rewrite Hp in *.
  assert (Hlines : the_lines m o [] = []).
  { assert (Hp2 : forall less, m_lsort m less [] = []) by (intros less; destruct Hm as (((H & _) & _) & _); specialize (H less []); by apply Permutation_nil_r in H). unfold the_lines, cli_lines. change (scan_lines []) with (@nil (list N)). destruct (o_sort o); [|done]. destruct (o_utfc o); apply Hp2. }
  apply (C85_built m fuel args sets ops w Hl Hb (proj1 Hm) Hc []).
  - rewrite Hp. exists old. split; [done|]. rewrite decide_True by done. apply reads_all, Hm.
  - fold o. rewrite Hlines. constructor.
  - split; [constructor|by vm_compute].
  - by intros i j a b _ H.
  - exists []. split; [|done]. split; [constructor|]. intros p. split; [by intros ?%elem_of_nil|]. by intros (k & v & H%elem_of_nil & _).
  - fold o. intros E1 E2. by rewrite E1, E2 in Hi.
Qed.
Print Assumptions C87_same_path.

(** ** C88 *)
Section load.
  Context (m : machine) (fuel : nat) (args : list (list N)) (sets : list setting) (ops : list (list N)) (w : world).
  Context (Hl : command_line args sets ops) (Hb : switch 98 sets = false).
  Notation o := (s_opts (chosen sets)).
  Notation lex := (lexicon_path (chosen sets) ops).
  Notation dic := (dictionary_path (chosen sets) ops).
  Context (old queries file rest : list N) (Hlex : w_fs w lex = Some old) (Hold : delivers (m_chunks m lex old) queries).
  Context (Hdic : w_fs w dic = Some (file ++ rest)) (Hm : concat (m_chunks m dic (file ++ rest)) = file ++ rest).
  Context (es : list entry) (Hh : hist_ok es) (Hf : file_is o es file) (Hq : Forall (query_ok es) (scan_lines queries)).
  Lemma load_main : main m fuel args w = handleLoad m fuel (chosen sets) lex dic w.
  Proof using Hl Hb Hlex Hdic. rewrite (main_line m fuel args sets ops w Hl). apply load_run; [done|by rewrite Hlex|by rewrite Hdic]. Qed.
  Lemma chunks_are : concat (m_chunks m dic (default [] (w_fs w dic))) = file ++ rest.
  Proof using Hm Hdic. by rewrite Hdic. Qed.
  Lemma queries_are : delivers (m_chunks m lex (default [] (w_fs w lex))) queries.
  Proof using Hlex Hold. by rewrite Hlex. Qed.
  (** The answers to the lines of the queries are printed, and with an index the words. *)
  Theorem C88_answers : (o_index o = true -> has_guide o = true) -> (has_guide o = true -> (length (accepted es) < fuel)%nat) -> (o_ranked o = false -> o_guide o = true -> [] ∈ scan_lines queries -> ~ is_key es []) ->
    exists l ws, expected o es (scan_lines queries) l ws /\ main m fuel args w = (mkW (w_out w ++ answers_text l ++ words_text ws) (w_fs w), Ret tt).
  Proof using Hl Hb Hm Hlex Hold Hdic Hh Hf Hq.
    intros Hi Hfu Hnil. rewrite load_main. destruct (load_expected es fuel o queries _ file rest Hh Hf chunks_are Hq Hi Hfu Hnil) as (l & ws & E & He). exists l, ws. split; [exact He|].
    destruct (load_sim m fuel (chosen sets) lex dic w queries queries_are) as (t & e & Hr & He2 & Ht). rewrite E in He2. subst e. rewrite Hr. by rewrite (Ht l ws E).
  Qed.
  (** -i without -g and -r: a panic after the answers. *)
  Theorem C88_index_alone : o_index o = true -> has_guide o = false -> main m fuel args w = (mkW (w_out w ++ answers_text (map (plain_answer (entries es)) (scan_lines queries))) (w_fs w), Crash).
  Proof using Hl Hb Hm Hlex Hold Hdic Hh Hf Hq. intros Hi Hg. rewrite load_main. by apply (load_plain_index es m fuel (chosen sets) _ _ w queries file rest Hh Hf Hg Hi chunks_are queries_are). Qed.
  (** -g, an empty line and an empty key: no end. *)
  Theorem C88_no_end : o_ranked o = false -> o_guide o = true -> [] ∈ scan_lines queries -> is_key es [] -> exists t, main m fuel args w = (mkW (w_out w ++ t) (w_fs w), Loops).
  Proof using Hl Hb Hm Hlex Hold Hdic Hh Hf Hq. intros Hk Hg Hin Hkey. rewrite load_main. by apply (load_empty es m fuel (chosen sets) _ _ w queries file rest Hh Hf Hk Hg chunks_are queries_are). Qed.
End load.
Print Assumptions C88_answers.
Print Assumptions C88_index_alone.
Print Assumptions C88_no_end.

(** ** C89 *)
(** Building and then loading, with the same parts of the file or fewer. *)
Theorem C89_round_trip m fuel args1 sets1 ops1 args2 sets2 ops2 w lexicon queries es :
  let o1 := s_opts (chosen sets1) in let o2 := s_opts (chosen sets2) in let dic := dictionary_path (chosen sets1) ops1 in
  machine_ok m -> command_line args1 sets1 ops1 -> switch 98 sets1 = true -> command_line args2 sets2 ops2 -> switch 98 sets2 = false ->
  m_create m dic = true -> read_as m w (lexicon_path (chosen sets1) ops1) dic lexicon -> dictionary_path (chosen sets2) ops2 = dic ->
  lexicon_path (chosen sets2) ops2 <> dic -> w_fs w (lexicon_path (chosen sets2) ops2) = Some queries ->
  lines_entries o1 (the_lines m o1 lexicon) es -> hist_ok es -> nondecreasing es -> (exists L, enumerates L (key_prefix es) /\ N.of_nat (length L) < 2097152) -> (has_guide o1 = true -> o_index o1 = true -> es <> []) ->
  (has_guide o2 = true -> has_guide o1 = true /\ o_ranked o1 = o_ranked o2 /\ (o_index o2 = true -> o_index o1 = true)) -> (o_index o2 = true -> has_guide o2 = true) ->
  Forall (query_ok es) (scan_lines queries) -> (has_guide o2 = true -> (length es < fuel)%nat) -> (o_ranked o2 = false -> o_guide o2 = true -> [] ∈ scan_lines queries -> ~ is_key es []) ->
  exists w1 t l ws, main m fuel args1 w = (w1, Ret tt) /\ w_out w1 = w_out w ++ t /\
    expected o2 es (scan_lines queries) l ws /\ main m fuel args2 w1 = (mkW (w_out w1 ++ answers_text l ++ words_text ws) (w_fs w1), Ret tt).
Proof.
  intros o1 o2 dic Hm Hl1 Hb1 Hl2 Hb2 Hc Hr Hd Hne Hq0 Hes Hh Hn HL Hix Hen Hi Hq Hfu Hnil.
  destruct (C85_built m fuel args1 sets1 ops1 w Hl1 Hb1 (proj1 Hm) Hc lexicon Hr es Hes Hh Hn HL) as (w1 & t & file & E & (Ho & Hfile & Hfs) & Hf).
  { intros H1 H2 Ha. apply (Hix H1 H2). by apply accepted_nil. }
  destruct (file_part _ o2 es file Hf Hen) as (f & rest & Hf2 & ->). exists w1, t.
  destruct (C88_answers m fuel args2 sets2 ops2 w1 Hl2 Hb2 queries queries f rest) with (es := es) as (l & ws & He & E2); [by rewrite Hfs|apply reads_all, Hm|by rewrite Hd|by apply Hm|done|done|done|done| |done|].
  - intros Hg. pose proof (accepted_le es). specialize (Hfu Hg). lia.
  - by exists l, ws.
Qed.
Print Assumptions C89_round_trip.
Example C89_case : let '(w1, _) := main m0 4 (map str ["-b"; "-t"; "-s"; "-g"; "-i"; "lex"; "dic"]%string) w0 in let load args := let '(w', e) := main m0 4 (map str args) (mkW [] (w_fs w1)) in (w_out w', e) in
  load ["-g"; "-i"; "qs"; "dic"]%string = (str "a: (#0) a" ++ [0] ++ str " = 0; ab" ++ [0] ++ str " = 7;" ++ [10] ++ str "b: (#2) b" ++ [0] ++ str " = 5;" ++ [10] ++ lines_of ["c: (not found)"; "Total words: 3"; "0: a"; "1: ab"; "2: b"]%string, Ret tt) /\
  load ["qs"; "dic"]%string = (lines_of ["a: a = 0;"; "b: b = 5;"; "c:"]%string, Ret tt) /\ load ["-i"; "qs"; "dic"]%string = (lines_of ["a: a = 0;"; "b: b = 5;"; "c:"]%string, Crash) /\ load ["-i"; "qs"]%string = ([], Exit 1 (line "2009/11/10 23:00:00 open -: no such file or directory")).
Proof. vm_compute. repeat split. Qed.
