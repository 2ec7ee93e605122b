(** Properties C116 and C117: lines of files that are read piece by piece, and reads that
    fail (cmd/dawgtool/main.go:78, 115, 231, 307; bufio.Scanner). *)
From Coq Require Import String Sorted.
From Verif Require Import Go Dawg DawgSpec Dict DictSpec Guide GuideSpec Index Ranked RankedSpec Serial Cli CliSpec CliProofs Scanner ScannerSpec ScannerProofs SerialProofs CliFile CliSort
  Properties_Dict Properties_Serial Properties_Cli Main MainSpec MainParse MainText MainBuild MainRun MainWrite Properties_Main.
Local Open Scope N_scope.

(** ** C116 *)
Lemma drop_cr_trimmed l t : trimmed l t <-> t = drop_cr l.
Proof.
  assert (H : trimmed l (drop_cr l)).
  { unfold drop_cr. destruct (rev l) as [|b r] eqn:E; apply (f_equal (@rev N)) in E; rewrite rev_involutive in E; cbn [rev] in E; subst l; [by apply trim_none|]. destruct (N.eqb_spec b 13) as [->|Hb]; [apply trim_cr|]. apply trim_none. rewrite last_snoc. congruence. }
  split; [|by intros ->]. intros Ht. destruct H as [l'|l' Hl']; inversion Ht as [l2 E|l2 Hn E]; subst; try done.
  - by apply app_inj_tail in E as [-> _].
  - by rewrite last_snoc in Hn.
  - by rewrite last_snoc in Hl'.
Qed.
Lemma text_lines_are bs ls b : text_lines bs ls b -> ls = scan_lines bs /\ b = has_long bs.
Proof.
  unfold scan_lines, has_long. induction 1 as [|l t bs ls b [H1 H2] Ht H [-> ->]|l t Hne [H1 H2] Ht|l bs H1 H2]; [done| | |].
  - apply drop_cr_trimmed in Ht as ->. rewrite raw_line by done. cbn [rev app scan_from existsb]. rewrite (proj2 (N.ltb_lt _ _) H2), (proj2 (N.leb_gt _ _) H2). done.
  - apply drop_cr_trimmed in Ht as ->. rewrite (raw_last [] l) by done. cbn [rev app]. rewrite decide_False by done. cbn [scan_from existsb]. rewrite (proj2 (N.ltb_lt _ _) H2), (proj2 (N.leb_gt _ _) H2). done.
  - destruct (raw_long l bs H1 H2) as (l' & ls & -> & H). cbn [scan_from existsb]. by rewrite (proj2 (N.ltb_ge _ _) H), (proj2 (N.leb_le _ _) H).
Qed.
Lemma text_lines_some bs : exists ls b, text_lines bs ls b.
Proof.
  assert (K : forall n bs, (length bs < n)%nat -> exists ls b, text_lines bs ls b); [|apply (K (S (length bs))); lia]. clear bs. induction n as [|n IH]; intros bs Hn; [lia|]. destruct (decide (bs = [])) as [->|Hne]; [exists [], false; constructor|].
  destruct (index_newline bs) as [i|] eqn:Ei.
  - apply index_newline_some in Ei as [E Hi]. destruct (decide (N.of_nat (length (take i bs)) < 65536)) as [Hs|Hs].
    + destruct (IH (drop (S i) bs)) as (ls & b & H). { apply (f_equal length) in E. rewrite app_length in E. cbn [length] in E. lia. }
      exists (drop_cr (take i bs) :: ls), b. rewrite E at 1. apply tl_line; [by split|by apply drop_cr_trimmed|done].
    + exists [], true. rewrite E. apply tl_long; [done|lia].
  - apply index_newline_none in Ei. destruct (decide (N.of_nat (length bs) < 65536)) as [Hs|Hs].
    + exists [drop_cr bs], false. apply tl_last; [done|by split|by apply drop_cr_trimmed].
    + exists [], true. rewrite <- (app_nil_r bs). apply tl_long; [done|lia].
Qed.
Lemma text_lines_scan bs : text_lines bs (scan_lines bs) (has_long bs).
Proof. destruct (text_lines_some bs) as (ls & b & H). by destruct (text_lines_are bs ls b H) as [<- <-]. Qed.
(** However the file is cut into reads, and whether or not they fail at the end: Scan and
    Text give the lines of what is delivered, and Err says why there are no more. *)
Theorem C116_lines r failed : exists bs ls s' long, delivers r bs /\ scan_all (NewScanner r failed) = Ok (ls, s') /\ text_lines bs ls long /\
  (scan_Err s' = Some TooLong <-> long = true) /\
  (scan_Err s' = Some NoProgress <-> long = false /\ ~ steady r) /\
  (scan_Err s' = Some ReadError <-> long = false /\ steady r /\ failed = true) /\
  (scan_Err s' = None <-> long = false /\ steady r /\ failed = false).
Proof.
  destruct (scan_all_spec r failed) as (s' & E & He). exists (del r 101), (scan_lines (del r 101)), s', (has_long (del r 101)). split; [by apply delivers_del|]. split; [done|]. split; [apply text_lines_scan|].
  unfold scan_Err. rewrite He, <- ends_steady. unfold end_err. destruct (has_long _), (ScannerProofs.ends r 101), failed; naive_solver.
Qed.
Print Assumptions C116_lines.
(** What is delivered, and its lines, are unique. *)
Theorem C116_unique r bs bs' ls ls' long long' : delivers r bs -> delivers r bs' -> text_lines bs ls long -> text_lines bs' ls' long' -> bs = bs' /\ ls = ls' /\ long = long'.
Proof. intros ->%delivers_del ->%delivers_del [-> ->]%text_lines_are [-> ->]%text_lines_are. done. Qed.
Print Assumptions C116_unique.
(** In particular: all lines of the file if no 101 reads in a row give nothing and no line
    is too long, the same for any two ways to cut the file. *)
Theorem C116_cuts r r' failed failed' : steady r -> steady r' -> concat r = concat r' -> scanned r failed = scanned r' failed'.
Proof.
  intros H H' E. rewrite (delivers_scanned r failed (concat r)) by (by left). rewrite (delivers_scanned r' failed' (concat r)); [done|]. left. by rewrite E.
Qed.
Print Assumptions C116_cuts.
Example C116_case : let run r failed := match scan_all (NewScanner r failed) with Ok (ls, s) => Some (ls, scan_Err s) | _ => None end in
  run [str "a"; str "b"; [13]; [10; 10; 99]] false = Some ([str "ab"; []; str "c"], None) /\
  run [[97; 10; 98]] true = Some ([str "a"; str "b"], Some ReadError) /\
  run ([[97; 10; 98]] ++ repeat [] 100 ++ [[99]]) false = Some ([str "a"; str "bc"], None) /\
  run ([[97; 10; 98]] ++ repeat [] 101 ++ [[99]]) false = Some ([str "a"; str "b"], Some NoProgress).
Proof. vm_compute. repeat split. Qed.
(** Lines of 65535 and 65536 bytes, in reads of 5000. *)
Example C116_long : let run n := match scan_all (NewScanner (repeat (repeat 98 5000) 13 ++ [repeat 98 n; [10; 99; 10]]) false) with Ok (ls, s) => Some (map (fun l => N.of_nat (length l)) ls, scan_Err s) | _ => None end in
  run 535%nat = Some ([65535; 1], None) /\ run 536%nat = Some ([], Some TooLong).
Proof. vm_compute. repeat split. Qed.
Example C116_hyps : steady [[97; 10]; []; [98]] /\ steady [[97]; [10; 98]] /\ text_lines [97; 13; 10; 98] [[97]; [98]] false.
Proof.
  split; [|split].
  - intros i H. specialize (H (i + 3)%nat ltac:(lia)). by rewrite lookup_ge_None_2 in H by (cbn; lia).
  - intros i H. specialize (H (i + 2)%nat ltac:(lia)). by rewrite lookup_ge_None_2 in H by (cbn; lia).
  - apply (tl_line [97; 13] [97] [98]); [split; [|done]; by rewrite !not_elem_of_cons, elem_of_nil; auto|apply (trim_cr [97])|]. apply tl_last; [done|split; [|done]; by rewrite !not_elem_of_cons, elem_of_nil; auto|by apply trim_none].
Qed.

(** ** C117 *)
(** Not so: reads that fail are not reported.  Of the lexicon ab, cd the reads give "ab\nc"
    and then fail; the run succeeds, and the dictionary has the keys ab and c. *)
Definition m_cut : machine := mkM (m_lsort m0) (m_sort m0) (m_grow m0) (m_calls m0) (m_create m0) (fun p bs => if decide (p = str "lex") then [take 4 bs] else [bs]) (fun p => bool_decide (p = str "lex")) [] t0.
Theorem C117_reported_refuted : exists m args sets ops w lexicon w' file, builds_ok m /\ command_line args sets ops /\ switch 98 sets = true /\ let lex := lexicon_path (chosen sets) ops in let dic := dictionary_path (chosen sets) ops in
  lex <> dic /\ w_fs w lex = Some lexicon /\ text_lines lexicon [str "ab"; str "cd"] false /\ m_fails m lex = true /\ main m 0 args w = (w', Ret tt) /\ w_fs w' dic = Some file /\
  file_is (s_opts (chosen sets)) [(str "ab", 0%Z); (str "c", 0%Z)] file.
Proof.
  set (args := map str ["-b"; "lex"; "dic"]%string). set (w := mkW [] (fun p => if decide (p = str "lex") then Some (str "ab" ++ [10] ++ str "cd" ++ [10]) else None)). set (sets := [Switch 98 true]). set (ops := map str ["lex"; "dic"]%string).
  assert (Hl : command_line args sets ops).
  { exists [[str "-b"]], ops. split; [|split; [|reflexivity]]; [|right; split; [done|]; by right]. constructor; [|constructor]. apply (sp_on (str "-") 98); [by left|]. apply elem_of_list_In. vm_compute. tauto. }
  assert (Hm : builds_ok m_cut) by apply m0_ok.
  destruct (C85_built m_cut 0 args sets ops w Hl eq_refl Hm eq_refl (str "ab" ++ [10] ++ str "c")) with (es := [(str "ab", 0%Z); (str "c", 0%Z)]) as (w' & t & file & H1 & H2 & H3).
  - eexists. split; [reflexivity|]. match goal with |- delivers ?r _ => replace r with [str "ab" ++ [10] ++ str "c"] by reflexivity end. left. split; [|reflexivity]. intros i H. specialize (H (i + 1)%nat ltac:(lia)). by rewrite lookup_ge_None_2 in H by (cbn; lia).
  - change (the_lines _ _ _) with [str "ab"; str "c"]. unfold lines_entries. repeat constructor; eexists; done.
  - split; [|done]. repeat constructor; vm_compute; try done; try tauto.
  - intros [|[|i]] [|[|j]] a b Hij Ha Hb; cbn in Ha, Hb; try lia; try discriminate; by simplify_eq.
  - exists [[]; [97]; [97; 98]; [99]]. split; [|done]. split.
    + repeat constructor; rewrite ?not_elem_of_cons; repeat split; try done; apply not_elem_of_nil.
    + intros p. unfold key_prefix. change (entries _) with [([97; 98], 0%Z); ([99], 0%Z)]. rewrite !elem_of_cons, elem_of_nil. split.
      * intros [->|[->|[->|[->|[]]]]]; [exists [97; 98], 0%Z|exists [97; 98], 0%Z|exists [97; 98], 0%Z|exists [99], 0%Z]; (split; [apply elem_of_list_In; cbn; tauto|]); [exists [97; 98]|exists [98]|exists []|exists []]; reflexivity.
      * intros (k & v & Hk & t & E). rewrite !elem_of_cons, elem_of_nil in Hk. destruct Hk as [[= -> ->]|[[= -> ->]|[]]]; destruct p as [|a [|b [|]]]; cbn [app] in E; inversion E; subst; tauto.
  - done.
  - exists m_cut, args, sets, ops, w, (str "ab" ++ [10] ++ str "cd" ++ [10]), w', file. split; [done|]. split; [done|]. split; [done|]. cbv zeta. split; [done|]. split; [reflexivity|].
    split; [|split; [reflexivity|]; split; [done|]; split; [by apply H2|done]].
    apply (tl_line (str "ab") (str "ab") (str "cd" ++ [10])); [|by apply trim_none|apply (tl_line (str "cd") (str "cd") []); [|by apply trim_none|constructor]]; (split; [by rewrite elem_of_list_In; vm_compute; intuition congruence|done]).
Qed.
Print Assumptions C117_reported_refuted.
(** Exactly: a run is that of a lexicon of the bytes delivered (C85 and C87 with [read_as]; C88
    with [delivers]).  Reads that give nothing, as those of a directory, make a dictionary
    of no keys. *)
Theorem C117_nothing m fuel args sets ops w : command_line args sets ops -> switch 98 sets = true -> builds_ok m -> let lex := lexicon_path (chosen sets) ops in let dic := dictionary_path (chosen sets) ops in let o := s_opts (chosen sets) in
  m_create m dic = true -> read_as m w lex dic [] -> has_guide o && o_index o = false ->
  exists w' t file, main m fuel args w = (w', Ret tt) /\ after dic w t file w' /\ file_is o [] file.
Proof.
  intros Hl Hb Hm lex dic o Hc Hf Hi.
  assert (Hlines : the_lines m o [] = []).
  { assert (Hp2 : forall less, m_lsort m less [] = []) by (intros less; destruct Hm as ((H & _) & _); specialize (H less []); by apply Permutation_nil_r in H). unfold the_lines, cli_lines. change (scan_lines []) with (@nil (list N)). destruct (o_sort o); [|done]. destruct (o_utfc o); apply Hp2. }
  apply (C85_built m fuel args sets ops w Hl Hb Hm Hc [] Hf).
  - fold o. rewrite Hlines. constructor.
  - split; [constructor|by vm_compute].
  - by intros i j a b _ H.
  - exists []. split; [|done]. split; [constructor|]. intros p. split; [by intros ?%elem_of_nil|]. by intros (k & v & H%elem_of_nil & _).
  - fold o. intros E1 E2. by rewrite E1, E2 in Hi.
Qed.
Print Assumptions C117_nothing.
(** What is not delivered has no effect, and neither has the failure: runs with reads of the
    lexicon that deliver the same, and reads of the dictionary with the same bytes before
    they fail, are the same. *)
Lemma ReadFull_cut n r r' : concat r = concat r' -> (io_ReadFull n r).1 = (io_ReadFull n r').1 /\ concat (io_ReadFull n r).2 = concat (io_ReadFull n r').2.
Proof.
  intros E. destruct (decide (n <= length (concat r))%nat) as [H|H].
  - destruct (ReadFull_ok r n H) as (r1 & -> & H1). destruct (ReadFull_ok r' n) as (r2 & -> & H2); [by rewrite <- E|]. cbn. by rewrite H1, H2, E.
  - rewrite !ReadFull_short by (rewrite <- ?E; lia). done.
Qed.
Definition alike {A} (x y : res (A * reader)) : Prop := match x, y with Ok (a, r), Ok (b, r') => a = b /\ concat r = concat r' | Panic, Panic | Hang, Hang => True | _, _ => False end.
Lemma alike_bind {A B} (x y : res (A * reader)) (f g : A * reader -> res (B * reader)) : alike x y -> (forall a r r', concat r = concat r' -> alike (f (a, r)) (g (a, r'))) -> alike (x ≫= f) (y ≫= g).
Proof. destruct x as [[a r]| |], y as [[b r']| |]; cbn; try done. intros [-> E] H. by apply H. Qed.
Lemma Read_cut {A} k (geta : list N -> res A) n r r' : concat r = concat r' -> alike (binary_Read k geta n r) (binary_Read k geta n r') /\ alike (binary_ReadBase r) (binary_ReadBase r').
Proof.
  intros E. unfold binary_Read, binary_ReadBase. pose proof (ReadFull_cut (n * k) r r' E) as H1. pose proof (ReadFull_cut 4 r r' E) as H2. split.
  - destruct (io_ReadFull (n * k) r) as [o r1], (io_ReadFull (n * k) r') as [o' r1']. cbn [fst snd] in H1. destruct H1 as [-> H1]. destruct o' as [bs|]; [|done]. by destruct (decode k geta n bs).
  - destruct (io_ReadFull 4 r) as [o r1], (io_ReadFull 4 r') as [o' r1']. cbn [fst snd] in H2. destruct H2 as [-> H2]. destruct o' as [bs|]; [|done]. by destruct (get32 bs).
Qed.
Lemma units_cut {A} k (geta : list N -> res A) r r' : concat r = concat r' -> alike (units_new (units_Read k geta) r) (units_new (units_Read k geta) r').
Proof.
  intros E. unfold units_new, units_Read.
  assert (H : alike (units_Read k geta [] r) (units_Read k geta [] r')).
  { unfold units_Read. apply alike_bind; [by apply (Read_cut k geta 0)|]. intros o r1 r1' E1. destruct o as [n|]; [|done]. apply alike_bind; [by apply Read_cut|]. intros o r2 r2' E2. by destruct o. }
  unfold units_Read in H. apply (alike_bind _ _ _ _ H). intros [ok l] r1 r1' E1. done.
Qed.
Lemma index_cut r r' : concat r = concat r' -> alike (ReadIndex r) (ReadIndex r').
Proof.
  intros E. unfold ReadIndex, units_new, index_Read.
  assert (H : alike (units_ReadInPlace 4 get32 0 [] r) (units_ReadInPlace 4 get32 0 [] r')).
  { unfold units_ReadInPlace. apply alike_bind; [by apply (Read_cut 4 get32 0)|]. intros o r1 r1' E1. destruct o as [n|]; [|done]. apply alike_bind; [by apply Read_cut|]. intros o r2 r2' E2. by destruct o. }
  apply (alike_bind _ _ _ _ H). intros [ok l] r1 r1' E1. done.
Qed.
Theorem C117_same m chunks fails fuel args w : let m' := mkM (m_lsort m) (m_sort m) (m_grow m) (m_calls m) (m_create m) chunks fails (m_answers m) (m_texts m) in
  (forall sets ops bs, command_line args sets ops -> (forall t, delivers (chunks (lexicon_path (chosen sets) ops) bs) t <-> delivers (m_chunks m (lexicon_path (chosen sets) ops) bs) t) /\
    concat (chunks (dictionary_path (chosen sets) ops) bs) = concat (m_chunks m (dictionary_path (chosen sets) ops) bs)) ->
  main m' fuel args w = main m fuel args w.
Proof.
  intros m' H. destruct (parse (m_texts m) settings0 args) as [s ops|msg|] eqn:E; [|unfold main; change (m_texts m') with (m_texts m); by rewrite E|unfold main; change (m_texts m') with (m_texts m); by rewrite E].
  apply parse_iff in E as (sets & Hl & _). clear s. rewrite (main_line m fuel args sets ops w Hl), (main_line m' fuel args sets ops w Hl). specialize (fun bs => H sets ops bs Hl). clear Hl. revert H. generalize (lexicon_path (chosen sets) ops) as lex, (dictionary_path (chosen sets) ops) as dic. generalize (chosen sets) as s. intros s lex dic H.
  assert (Hs : forall bs, scanned (chunks lex bs) (fails lex) = scanned (m_chunks m lex bs) (m_fails m lex)).
  { intros bs. destruct (delivers_any (m_chunks m lex bs)) as [t Ht]. rewrite (delivers_scanned _ _ _ Ht). apply delivers_scanned. by apply H. }
  assert (Hb : forall w, handleBuild m' s lex dic w = handleBuild m s lex dic w).
  { intros w1. unfold handleBuild. unfold bind at 1, read_file at 1, bind at 1, scan_file. symmetry. unfold bind at 1, read_file at 1, bind at 1, scan_file. symmetry. cbn [m_chunks m_fails m']. rewrite Hs. reflexivity. }
  assert (Hd : forall w, handleLoad m' fuel s lex dic w = handleLoad m fuel s lex dic w).
  { intros w1. unfold handleLoad. unfold bind at 1, read_file at 1. symmetry. unfold bind at 1, read_file at 1. symmetry. cbn [m_chunks m']. set (f := default [] (w_fs w1 dic)).
    pose proof (units_cut 4 get32 _ _ (proj2 (H f))) as H1. fold dict_Read ReadDictionary in H1. destruct (ReadDictionary (chunks dic f)) as [[o1 r1]| |], (ReadDictionary (m_chunks m dic f)) as [[o2 r2]| |]; cbn in H1; try done. destruct H1 as [-> H1].
    unfold call at 1. symmetry. unfold call at 1. symmetry. unfold bind at 1. symmetry. unfold bind at 1. symmetry. cbn [fst snd]. destruct o2 as [us|]; [|done].
    assert (H2 : alike (if o_ranked (s_opts s) then ReadRankedGuide r1 else if o_guide (s_opts s) then ReadGuide r1 else Ok (Some [], r1)) (if o_ranked (s_opts s) then ReadRankedGuide r2 else if o_guide (s_opts s) then ReadGuide r2 else Ok (Some [], r2))).
    { destruct (o_ranked _); [by apply (units_cut 2 getgu)|]. destruct (o_guide _); [by apply (units_cut 2 getgu)|]. done. }
    destruct (if o_ranked (s_opts s) then ReadRankedGuide r1 else if o_guide (s_opts s) then ReadGuide r1 else Ok (Some [], r1)) as [[o3 r3]| |], (if o_ranked (s_opts s) then ReadRankedGuide r2 else if o_guide (s_opts s) then ReadGuide r2 else Ok (Some [], r2)) as [[o4 r4]| |]; try done. destruct H2 as [-> H2].
    unfold call at 1. symmetry. unfold call at 1. symmetry. unfold bind at 1. symmetry. unfold bind at 1. symmetry. cbn [fst snd]. destruct o4 as [g|]; [|done].
    unfold bind at 1, read_file at 1, bind at 1, scan_file. symmetry. unfold bind at 1, read_file at 1, bind at 1, scan_file. symmetry. cbn [m_chunks m_fails m']. rewrite Hs. destruct (scanned _ _) as [keys| |]; [|done|done]. unfold call at 1. symmetry. unfold call at 1. symmetry.
    destruct (negb _); [done|]. unfold bind at 1. symmetry. unfold bind at 1. symmetry.
    assert (H3 : (if o_index (s_opts s) then '(oi, _) ← ReadIndex r3; Ok (match oi with Some ix => Some (Some ix) | None => None end) else Ok (Some None)) = (if o_index (s_opts s) then '(oi, _) ← ReadIndex r4; Ok (match oi with Some ix => Some (Some ix) | None => None end) else Ok (Some None))); [|by rewrite H3].
    destruct (o_index _); [|done]. pose proof (index_cut r3 r4 H2) as H4. destruct (ReadIndex r3) as [[o5 r5]| |], (ReadIndex r4) as [[o6 r6]| |]; cbn in H4; try done. cbn. by destruct H4 as [-> _]. }
  unfold run_at. unfold bind at 1, read_file at 1. symmetry. unfold bind at 1, read_file at 1. destruct (w_fs w lex); [|done]. destruct (s_build s).
  - unfold bind. change (create m' dic w) with (create m dic w). destruct (create m dic w) as [w1 [[]|c err| |]]; done.
  - unfold bind, read_file. destruct (w_fs w dic); done.
Qed.
Print Assumptions C117_same.
(** The runs of the witness; of a directory; of reads that stall; a query file that fails. *)
Example C117_case : let run args chunks fails := let m := mkM (m_lsort m0) (m_sort m0) (m_grow m0) (m_calls m0) (m_create m0) chunks fails [] t0 in
    let '(w', e) := main m 4 (map str args) (mkW [] (fun p => if decide (p = str "lex") then Some (str "ab" ++ [10] ++ str "cd" ++ [10]) else None)) in (take 12 (w_out w'), w_fs w' (str "dic"), e) in
  let build := ["-b"; "lex"; "dic"]%string in let at_lex (r : list N -> reader) p bs := if decide (p = str "lex") then r bs else [bs] in
  let cut := run build (m_chunks m_cut) (m_fails m_cut) in
  cut = run build (at_lex (fun _ => [str "ab"; [10; 99]])) (fun _ => false) /\ cut = run build (at_lex (fun bs => [take 4 bs] ++ repeat [] 101 ++ [drop 4 bs])) (fun _ => false) /\
  cut <> run build (at_lex (fun bs => [take 4 bs] ++ repeat [] 100 ++ [drop 4 bs])) (fun _ => false) /\ cut.1.1 = line "no. keys: 2" /\ cut.2 = Ret tt /\
  (run build (at_lex (fun _ => [])) (fun _ => true)).1.1 = line "no. keys: 0" /\ (run build (at_lex (fun _ => [])) (fun _ => true)).2 = Ret tt.
Proof. vm_compute. repeat split; congruence. Qed.
Example C117_hyps : read_as m_cut w0 (str "lex") (str "dic") (take 4 lex1) /\ read_as (mkM (m_lsort m0) (m_sort m0) (m_grow m0) (m_calls m0) (m_create m0) (fun _ _ => []) (fun _ => true) [] t0) w0 (str "lex") (str "dic") [] /\
  forall bs, delivers (m_chunks m_cut (str "lex") bs) (take 4 bs) /\ concat (m_chunks m_cut (str "dic") bs) = bs.
Proof.
  assert (K : forall c : list N, steady [c]) by (intros c i H; specialize (H (i + 1)%nat ltac:(lia)); by rewrite lookup_ge_None_2 in H by (cbn; lia)).
  split; [|split].
  - exists lex1. split; [done|]. left. split; [apply K|done].
  - exists lex1. split; [done|]. left. split; [|done]. intros i H. by specialize (H i ltac:(lia)).
  - intros bs. split; [left; split; [apply K|]; exact (eq_sym (app_nil_r _))|exact (app_nil_r bs)].
Qed.
