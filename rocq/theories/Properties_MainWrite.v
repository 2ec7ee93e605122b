(** Properties C97 and C98 of cmd/dawgtool/main.go: runs with writes that fail. *)
From Coq Require Import String Sorted.
From Verif Require Import Go Dawg DawgSpec DawgAbs Dict DictSpec Guide GuideSpec Index Ranked RankedSpec RankedProofs RankedIndexSpec Serial Cli CliSpec CliProofs Scanner ScannerSpec ScannerProofs CliFile CliSort
  DawgCanon Properties_Dict Properties_Serial Properties_Ranked Properties_Cli Main MainSpec MainParse MainText MainBuild MainRun MainWrite Properties_Main.
Local Open Scope N_scope.

(** ** C97 *)
(** A run with any answers of the writes, and the run of the same machine with writes that
    take all bytes ([reliable]): the same, or the first ends with status 1, has printed a
    part of the same output and left a part of the same file; no other file differs.  If
    errors are reported for writes that took less only, the file is shorter. *)
Theorem C97_writes m fuel args w : let '(w2, e2) := main (reliable m) fuel args w in
  main m fuel args w = (w2, e2) \/
  exists sets ops w1 err c1 c2, command_line args sets ops /\ switch 98 sets = true /\ let dic := dictionary_path (chosen sets) ops in
    main m fuel args w = (w1, Exit 1 err) /\ w_out w1 `prefix_of` w_out w2 /\ w_fs w1 dic = Some c1 /\ w_fs w2 dic = Some c2 /\ c1 `prefix_of` c2 /\
    (forall q, q <> dic -> w_fs w1 q = w_fs w2 q) /\ (Forall (fun a => a.2 = false) (m_answers m) -> (length c1 < length c2)%nat).
Proof.
  destruct (main (reliable m) fuel args w) as [w2 e2] eqn:E2. destruct (main_reliable m fuel args w) as [H|(sets & ops & Hl & Hb & w1 & err & H & ((t & Ht) & Hq & c & x & Hc & Hx) & Hs)]; [left; congruence|].
  rewrite E2 in *. cbn [fst] in *. right. exists sets, ops, w1, err, c, (c ++ x). split; [done|]. split; [done|]. split; [done|]. split; [by exists t|]. split; [done|]. split; [done|]. split; [by exists x|].
  split; [intros q Hne; by rewrite Hq|]. intros Ha. exact (Hs Ha _ _ Hc Hx).
Qed.
Print Assumptions C97_writes.
(** A run that succeeds has written everything. *)
Theorem C97_success m fuel args w w' : main m fuel args w = (w', Ret tt) -> main (reliable m) fuel args w = (w', Ret tt).
Proof.
  intros H. pose proof (C97_writes m fuel args w) as C. destruct (main (reliable m) fuel args w) as [w2 e2]. destruct C as [C|(sets & ops & w1 & err & c1 & c2 & _ & _ & C & _)]; congruence.
Qed.
Print Assumptions C97_success.
(** Building: as C85, all of the file or status 1 and a part of it. *)
Section build.
  Context (m : machine) (fuel : nat) (args : list (list N)) (sets : list setting) (ops : list (list N)) (w : world).
  Context (Hl : command_line args sets ops) (Hb : switch 98 sets = true) (Hm : builds_ok (reliable m)).
  Notation o := (s_opts (chosen sets)).
  Notation lex := (lexicon_path (chosen sets) ops).
  Notation dic := (dictionary_path (chosen sets) ops).
  Context (Hc : m_create m dic = true) (lexicon : list N) (Hlex : read_as m w lex dic lexicon).
  Context (es : list entry) (Hes : lines_entries o (the_lines m o lexicon) es) (Hh : hist_ok es).
  Theorem C97_built : nondecreasing es -> (exists L, enumerates L (key_prefix es) /\ N.of_nat (length L) < 2097152) -> (has_guide o = true -> o_index o = true -> accepted es <> []) ->
    exists w' t file e, main m fuel args w = (w', e) /\ after dic w t file w' /\
      (e = Ret tt /\ file_is o es file \/
       (exists err, e = Exit 1 err) /\ exists more, file_is o es (file ++ more) /\ (Forall (fun a => a.2 = false) (m_answers m) -> more <> [])).
  Proof using Hl Hb Hm Hc Hlex Hes Hh.
    intros Hn HL Hi. destruct (C85_built (reliable m) fuel args sets ops w Hl Hb Hm Hc lexicon Hlex es Hes Hh Hn HL Hi) as (w2 & t & file & E & (Ha1 & Ha2 & Ha3) & Hf).
    destruct (main_reliable m fuel args w) as [H|(sets' & ops' & Hl' & _ & w1 & err & H & ((t' & Ht) & Hq & c & x & Hcc & Hx) & Hs)]; [exists w2, t, file, (Ret tt); split; [rewrite H; exact E|]; split; [exact (conj Ha1 (conj Ha2 Ha3))|left; exact (conj eq_refl Hf)]|].
    destruct (C83_reading args sets ops sets' ops' Hl Hl') as [Es Eo]. rewrite <- Es, <- Eo in *. rewrite E in *. cbn [fst] in *. rewrite Ha2 in Hx. injection Hx as ->.
    assert (Hout : exists t1, w_out w1 = w_out w ++ t1).
    { destruct (build_out m fuel args sets ops w Hl Hb) as [t1 H1]. rewrite H in H1. by exists t1. }
    destruct Hout as [t1 Ht1]. exists w1, t1, c, (Exit 1 err). split; [done|]. split; [split; [done|]; split; [done|]; intros q Hne; by rewrite <- Ha3, Hq|]. right. split; [by exists err|]. exists x. split; [done|].
    intros Hw ->. specialize (Hs Hw c (c ++ []) Hcc Ha2). rewrite app_nil_r in Hs. lia.
  Qed.
End build.
Print Assumptions C97_built.
(** The run of C85_case with writes of all bytes but the last of the guide; with an error
    although all was taken. *)
Example C97_case : let run a := let m := mkM (m_lsort m0) (m_sort m0) (m_grow m0) (m_calls m0) (m_create m0) (m_chunks m0) (m_fails m0) a t0 in
    let '(w', e) := main m 0 (map str ["-b"; "-t"; "-s"; "-g"; "-i"; "lex"; "dic"]%string) w0 in (match w_fs w' (str "dic") with Some file => length file | None => O end, drop 8 (split_on 10 [] (w_out w')), e) in
  run [] = (2572%nat, map str ["no. unused elements: 249 (97.27%)"; "dictionary size: 1024"; "no. units: 256"; "guide size: 512"; "no. index units: 256"; "index size: 1024"; ""]%string, Ret tt) /\
  run [(4, false); (1024, false); (4, false); (511, false)]%nat = (1543%nat, map str ["no. unused elements: 249 (97.27%)"; "dictionary size: 1024"; "no. units: 256"; "guide size: 512"; ""]%string, Exit 1 (line "2009/11/10 23:00:00 error: failed to write Guide")) /\
  run [(4, false); (1024, false); (4, false); (512, false); (4, false); (1024, true)]%nat = (2572%nat, map str ["no. unused elements: 249 (97.27%)"; "dictionary size: 1024"; "no. units: 256"; "guide size: 512"; "no. index units: 256"; "index size: 1024"; ""]%string, Exit 1 (line "2009/11/10 23:00:00 error: failed to write Index")).
Proof. vm_compute. repeat split. Qed.

(** ** C98.  A dictionary file that was cut short is refused, before any answer; C114. The
    message names the part that was cut. *)
Theorem C114_cut m fuel args sets ops w queries file es n : command_line args sets ops -> switch 98 sets = false -> machine_ok (reliable m) ->
  w_fs w (lexicon_path (chosen sets) ops) = Some queries -> hist_ok es -> file_is (s_opts (chosen sets)) es file -> (n < length file)%nat ->
  w_fs w (dictionary_path (chosen sets) ops) = Some (take n file) ->
  exists us part, made es us /\ main m fuel args w = (w, Exit 1 (log_line m (str "error: failed to read " ++ str part))) /\
    if decide (n < length (words_bytes us))%nat then part = "Dictionary"%string else
    exists g, guide_made_by (s_opts (chosen sets)) es us g /\
      part = if decide (n < length (words_bytes us ++ pairs_bytes g))%nat then if o_ranked (s_opts (chosen sets)) then "RankedGuide"%string else "Guide"%string else "Index"%string.
Proof.
  intros Hl Hb Hm Hlex Hh (us & Hmade & H) Hn Hdic. pose proof (C31_built es us Hh Hmade) as Hw. destruct (C31_dictionary us Hw) as (_ & _ & Hread).
  rewrite (main_line m fuel args sets ops w Hl), load_run; [|exact Hb|by rewrite Hlex|by rewrite Hdic].
  set (dic := dictionary_path (chosen sets) ops) in *. assert (Hr : concat (m_chunks m dic (take n file)) = take n file) by apply (proj2 Hm dic (take n file)). clear Hm.
  unfold handleLoad, bind, read_file. rewrite Hdic. change (default [] (Some (take n file))) with (take n file). generalize dependent (m_chunks m dic (take n file)). intros r Hr. exists us.
  destruct (decide (n < length (words_bytes us))%nat) as [Hlt|Hge].
  { assert (take n file = take n (words_bytes us)) as E.
    { assert (exists x, file = words_bytes us ++ x) as [x ->]; [|by rewrite take_app_le by lia].
      destruct (has_guide _); [|exists []; by rewrite app_nil_r]. destruct H as (g & _ & H). destruct (o_index _); [destruct H as (ix & _ & ->)|subst file]; by eexists. }
    rewrite E in Hr. destruct (C33_dictionary us n [] r Hw Hlt Hr) as [_ ->]. eexists. split; [done|]. split; [|done]. reflexivity. }
  unfold has_guide in H. destruct (o_ranked _ || o_guide _) eqn:Eg; [|subst file; lia]. destruct H as (g & Hg & H).
  assert (Hp : words us /\ pairs g /\ forall ix, BuildIndex us g = Ok (Some ix) -> words ix).
  { assert (Hor : made_guide es us g \/ exists cmp, made_ranked cmp es us g).
    { unfold guide_made_by in Hg. destruct (o_ranked _); [right; exists Z.ltb; exact (proj1 (made_default_ranked es us g) Hg)|by left]. }
    split; [done|]. split; [exact (proj1 (proj2 (C32_built es us g [] Hh Hor)))|]. intros ix. exact (proj2 (proj2 (C32_built es us g ix Hh Hor))). }
  destruct Hp as (_ & Hp & Hpi). destruct (C32_guide g Hp) as (_ & _ & Hread2). destruct (C32_ranked_guide g Hp) as (_ & _ & Hread3).
  assert (exists x, file = words_bytes us ++ pairs_bytes g ++ x) as [x Ex]. { destruct (o_index _); [destruct H as (ix & _ & ->)|subst file; exists []; by rewrite app_nil_r]. by eexists. }
  rewrite Ex, take_app_ge in Hr by lia. destruct (Hread [] r _ Hr) as (r1 & _ & -> & Hr1). cbn [call fst snd]. clear Hr. set (k := (n - length (words_bytes us))%nat) in *.
  destruct (decide (k < length (pairs_bytes g))%nat) as [Hlt|Hge2].
  { rewrite take_app_le in Hr1 by lia. destruct (C33_guide g k [] r1 Hp Hlt Hr1) as (_ & E1 & _ & E2). eexists. split; [done|]. split; [|exists g; split; [done|rewrite decide_True by (rewrite app_length; lia); reflexivity]].
    destruct (o_ranked _); [by rewrite E2|]. cbn [orb] in Eg. rewrite Eg. by rewrite E1. }
  rewrite take_app_ge in Hr1 by lia. destruct (Hread2 [] r1 _ Hr1) as (r2 & _ & E1 & Hr2). destruct (Hread3 [] r1 _ Hr1) as (r2' & _ & E2 & Hr2').
  destruct (o_index _) eqn:Ei; [|subst file; rewrite app_length in Hn; lia]. destruct H as (ix & Hix & Hfile). assert (x = words_bytes ix) as -> by (rewrite Ex in Hfile; by apply app_inv_head, app_inv_head in Hfile).
  rewrite Ex, !app_length in Hn. assert (Hlt : (k - length (pairs_bytes g) < length (words_bytes ix))%nat) by lia.
  destruct (C33_index ix _ [] r2 (Hpi ix Hix) Hlt Hr2) as [_ E3]. destruct (C33_index ix _ [] r2' (Hpi ix Hix) Hlt Hr2') as [_ E4].
  exists "Index"%string. split; [done|]. split; [|exists g; split; [done|by rewrite decide_False by (rewrite app_length; lia)]].
  destruct (delivers_any (m_chunks m (lexicon_path (chosen sets) ops) queries)) as [qs Hqs]. pose proof (delivers_scanned _ (m_fails m (lexicon_path (chosen sets) ops)) _ Hqs) as E5.
  unfold scan_file. destruct (o_ranked _).
  - rewrite E2. cbn [fst snd orb negb]. rewrite Hlex. change (default [] (Some queries)) with queries. rewrite E5, E4. reflexivity.
  - cbn [orb] in Eg. rewrite Eg, E1. cbn [fst snd orb negb]. rewrite Hlex. change (default [] (Some queries)) with queries. rewrite E5, E3. reflexivity.
Qed.
Print Assumptions C114_cut.
Theorem C98_refused m fuel args sets ops w queries file es n : command_line args sets ops -> switch 98 sets = false -> machine_ok (reliable m) ->
  w_fs w (lexicon_path (chosen sets) ops) = Some queries -> hist_ok es -> file_is (s_opts (chosen sets)) es file -> (n < length file)%nat ->
  w_fs w (dictionary_path (chosen sets) ops) = Some (take n file) -> exists err, main m fuel args w = (w, Exit 1 err).
Proof. intros H1 H2 H3 H4 H5 H6 H7 H8. destruct (C114_cut m fuel args sets ops w queries file es n H1 H2 H3 H4 H5 H6 H7 H8) as (us & part & _ & H & _). by eexists. Qed.
Print Assumptions C98_refused.
Example C98_case : let '(w1, _) := main m0 4 (map str ["-b"; "-t"; "-s"; "-g"; "-i"; "lex"; "dic"]%string) w0 in
  let load n args := let '(w', e) := main m0 4 (map str args) (mkW [] (put_file (str "dic") (option_map (take n) (w_fs w1 (str "dic"))) (w_fs w1))) in (w_out w', e) in
  load 2571%nat ["-g"; "-i"; "qs"; "dic"]%string = ([], Exit 1 (line "2009/11/10 23:00:00 error: failed to read Index")) /\ load 1543%nat ["-g"; "qs"; "dic"]%string = ([], Exit 1 (line "2009/11/10 23:00:00 error: failed to read Guide")) /\ load 1027%nat ["qs"; "dic"]%string = ([], Exit 1 (line "2009/11/10 23:00:00 error: failed to read Dictionary")) /\
  load 1028%nat ["qs"; "dic"]%string = (lines_of ["a: a = 0;"; "b: b = 5;"; "c:"]%string, Ret tt).
Proof. vm_compute. repeat split. Qed.
