(** Property theorem C103: the tests and test files of the repository
    (RepoTests.v), run on the model. *)
From Coq Require Import String.
From Verif Require Import Go BitPool Dawg DawgSpec DawgThms Dict Utfc Serial Guide GuideSpec Cli CliSpec CliProofs CliFile Main MainSpec Properties_Serial Properties_Cli Properties_Main RepoTests.
Local Open Scope N_scope.

(** The entries of test/lexicon.txt. *)
Definition test_entries : list entry := map (fun kv => (str kv.1, kv.2))
  [("a", 1); ("an", 0); ("and", 2); ("appear", 1); ("apple", 1); ("bin", 2); ("binary", 1); ("bind", 0); ("binder", 2); ("binding", 1);
   ("blind", 0); ("can", 0); ("cancer", 1); ("cat", 2)]%string%Z.
Definition out {A} (r : res A) (a : A) : A := match r with Ok x => x | _ => a end.
Definition test_dawg : dawg := Eval vm_compute in (out (build 256 test_entries NewDawg) ([], NewDawg)).2.
Definition test_dict : dict * N := Eval vm_compute in default ([], 0) (out (dict_BuildWithUnused test_dawg) None).
Definition test_guide : guide := Eval vm_compute in default [] (out (BuildGuide test_dawg test_dict.1) None).
Lemma test_dawg_eq : build 256 test_entries NewDawg = Ok (results test_entries, test_dawg).
Proof. vm_compute. reflexivity. Qed.
Lemma test_dict_eq : dict_BuildWithUnused test_dawg = Ok (Some test_dict).
Proof. vm_compute. reflexivity. Qed.
Lemma test_guide_eq : BuildGuide test_dawg test_dict.1 = Ok (Some test_guide).
Proof. vm_compute. reflexivity. Qed.
Lemma test_file_eq : words_bytes test_dict.1 ++ pairs_bytes test_guide = dictionary_dawg.
Proof. vm_compute. reflexivity. Qed.
Lemma test_hist : hist_ok test_entries.
Proof. split; [|by vm_compute]. unfold test_entries, key_ok. cbn. repeat constructor. Qed.
Lemma sz256 : size_ok 256.
Proof. split; reflexivity || discriminate. Qed.
Lemma test_nondecreasing : nondecreasing test_entries.
Proof.
  assert (H : forallb (fun ij : nat * nat => match test_entries !! ij.1, test_entries !! ij.2 with
      | Some a, Some b => (ij.2 <=? ij.1)%nat || match kcmp a.1 b.1 with Gt => false | _ => true end
      | _, _ => true
      end) (list_prod (seq 0 14) (seq 0 14)) = true) by (vm_compute; reflexivity).
  rewrite forallb_forall in H. intros i j a b Hij Ha Hb. specialize (H (i, j)). cbn [fst snd] in H. rewrite Ha, Hb in H.
  apply lookup_lt_Some in Ha. apply lookup_lt_Some in Hb. change (length test_entries) with 14%nat in *.
  assert (Hin : In (i, j) (list_prod (seq 0 14) (seq 0 14))) by (apply List.in_prod_iff; rewrite !List.in_seq; lia).
  apply H in Hin. destruct (Nat.leb_spec j i); [lia|]. cbn [orb] in Hin. by destruct (kcmp a.1 b.1).
Qed.
Lemma test_lines m : let o := mkOpts true true false false false false in lines_entries o (the_lines m o lexicon_txt) test_entries.
Proof.
  cbv zeta. unfold the_lines, cli_lines. cbn [o_sort]. unfold lines_entries.
  match goal with |- Forall2 _ ?l _ => let l' := eval vm_compute in l in change l with l' end.
  unfold test_entries. cbn [map fst snd]. repeat (apply List.Forall2_cons; [apply entry_is; by vm_compute|]). apply List.Forall2_nil.
Qed.

(** C103. dawgtool -b -t -g, in every environment that behaves, makes
    test/dictionary.dawg out of test/lexicon.txt, byte by byte. *)
Theorem C103_file m fuel args sets ops w : command_line args sets ops -> switch 98 sets = true ->
  s_opts (chosen sets) = mkOpts true true false false false false -> machine_ok m ->
  let lex := lexicon_path (chosen sets) ops in let dic := dictionary_path (chosen sets) ops in
  m_create m dic = true -> lex <> dic -> w_fs w lex = Some lexicon_txt ->
  exists w', main m fuel args w = (w', Ret tt) /\ w_fs w' dic = Some dictionary_dawg.
Proof.
  intros Hl Hb Ho Hm lex dic Hc Hne Hw. pose proof (test_lines m) as Hes. cbv zeta in Hes. rewrite <- Ho in Hes.
  assert (Hr : read_as m w lex dic lexicon_txt) by (exists lexicon_txt; split; [exact Hw|]; rewrite decide_False by done; apply reads_all, Hm).
  destruct (C85_build m fuel args sets ops w Hl Hb (proj1 Hm) Hc lexicon_txt Hr test_entries Hes test_hist test_nondecreasing)
    as (d & r & tn & Hd & Hdi & _ & w' & t & c & e & E & (_ & Ha & _) & H).
  rewrite test_dawg_eq in Hd. injection Hd as <-. rewrite test_dict_eq in Hdi. injection Hdi as <-.
  destruct test_dict as [us unused] eqn:Et. destruct H as (t' & _ & H). rewrite Ho in H. cbn [has_guide o_ranked o_guide orb o_index] in H.
  destruct H as (g & t'' & c' & Hg & _ & Hcc & _ & Hc' & He). unfold guide_made_by in Hg. cbn [o_ranked] in Hg. destruct Hg as (d' & (size & d0 & rs & un & Hs & Hbd & _) & Hgd).
  pose proof (eq_trans (eq_sym Hbd) (eq_trans (build_same size 256 test_entries d0 NewDawg Hs sz256 test_hist) test_dawg_eq)) as Hx. injection Hx as _ ->.
  pose proof test_guide_eq as Hge. rewrite Et in Hge. cbn [fst] in Hge. rewrite Hgd in Hge. injection Hge as ->.
  exists w'. split; [rewrite E, He; exact eq_refl|]. transitivity (Some c); [exact Ha|]. rewrite Hcc, Hc', app_nil_r. f_equal. pose proof test_file_eq as Hf. rewrite Et in Hf. exact Hf.
Qed.
Print Assumptions C103_file.
Example C103_hyps : machine_ok m0 /\ exists sets ops, command_line (map str ["-b"; "-t"; "-g"; "lex"; "dic"]%string) sets ops /\ switch 98 sets = true /\
  s_opts (chosen sets) = mkOpts true true false false false false /\ lexicon_path (chosen sets) ops = str "lex" /\ dictionary_path (chosen sets) ops = str "dic".
Proof.
  split; [apply m0_ok|]. exists (map (fun c => Switch c true) (str "btg")), (map str ["lex"; "dic"]%string). split; [|done].
  exists (map (fun a => [str a]) ["-b"; "-t"; "-g"]%string), (map str ["lex"; "dic"]%string). split; [|split; [|reflexivity]].
  - assert (D : dashes (str "-")) by by left. assert (K : forall c, c ∈ switches -> spelled (Switch c true) [str "-" ++ [c]]) by (intros c; by apply sp_on).
    change (str "btg") with [98; 116; 103]. cbn [map]. repeat constructor; apply K; apply elem_of_list_In; vm_compute; tauto.
  - right. split; [done|]. right. done.
Qed.
(** The answers to test/query.txt from that file, with -g and without. *)
Definition answer_line (q : string) (ks : list (string * string)) : list N :=
  str q ++ [58] ++ flat_map (fun kv => [32] ++ str kv.1 ++ [0] ++ str " = " ++ str kv.2 ++ [59]) ks ++ [10].
Theorem C103_answers : let load args := let '(w', e) := main m0 40 (map str args) (mkW [] (fun p => if decide (p = str "q") then Some query_txt else if decide (p = str "dic") then Some dictionary_dawg else None)) in (w_out w', e) in
  load ["-g"; "q"; "dic"]%string = (flat_map (fun qa => answer_line qa.1 qa.2)
    [("a", [("a", "1"); ("an", "0"); ("and", "2"); ("appear", "1"); ("apple", "1")]); ("an", [("an", "0"); ("and", "2")]); ("and", [("and", "2")]);
     ("appear", [("appear", "1")]); ("apple", [("apple", "1")]); ("bin", [("bin", "2"); ("binary", "1"); ("bind", "0"); ("binder", "2"); ("binding", "1")]);
     ("binary", [("binary", "1")]); ("bind", [("bind", "0"); ("binder", "2"); ("binding", "1")]); ("binder", [("binder", "2")]); ("binding", [("binding", "1")]);
     ("blind", [("blind", "0")]); ("can", [("can", "0"); ("cancer", "1")]); ("cancer", [("cancer", "1")]); ("cat", [("cat", "2")]);
     ("b", [("bin", "2"); ("binary", "1"); ("bind", "0"); ("binder", "2"); ("binding", "1"); ("blind", "0")])]%string, Ret tt) /\
  load ["q"; "dic"]%string = (lines_of ["a: a = 1;"; "an: a = 1; an = 0;"; "and: a = 1; an = 0; and = 2;"; "appear: a = 1; appear = 1;"; "apple: a = 1; apple = 1;"; "bin: bin = 2;";
    "binary: bin = 2; binary = 1;"; "bind: bin = 2; bind = 0;"; "binder: bin = 2; bind = 0; binder = 2;"; "binding: bin = 2; bind = 0; binding = 1;"; "blind: blind = 0;";
    "can: can = 0;"; "cancer: can = 0; cancer = 1;"; "cat: cat = 2;"; "b:"]%string, Ret tt).
Proof. vm_compute. split; reflexivity. Qed.
Print Assumptions C103_answers.

(** utfc_test.go:88-133 TestUtfc and TestUtfcZeros pass: every string is decoded
    back, and those of the second test give no zero byte. *)
Definition passes (s : list Z) : bool := match utfc_decode (utfc_encode s) with Ok s' => forallb (fun cc => (cc.1 =? cc.2)%Z) (zip s s') && (length s =? length s')%nat | _ => false end.
Lemma passes_ok s : passes s = true -> utfc_decode (utfc_encode s) = Ok s.
Proof.
  unfold passes. destruct (utfc_decode _) as [s'| |]; [|done|done]. intros [H1 H2]%andb_prop. f_equal. apply Nat.eqb_eq in H2.
  revert s' H1 H2. induction s as [|c s IH]; intros [|c' s'] H1 H2; cbn in *; try done. apply andb_prop in H1 as [H1 H3]. apply Z.eqb_eq in H1 as ->. f_equal. apply IH; [done|congruence].
Qed.
Theorem C103_utfc : Forall (fun s => utfc_decode (utfc_encode s) = Ok s) (testStrings ++ testZeroStrings) /\
  Forall (fun s => 0 ∉ utfc_encode s) testZeroStrings.
Proof.
  split.
  - assert (H : forallb passes (testStrings ++ testZeroStrings) = true) by (vm_compute; reflexivity).
    rewrite forallb_forall in H. apply List.Forall_forall. intros s Hs. by apply passes_ok, H.
  - assert (H : forallb (fun s => forallb (fun b => negb (b =? 0)) (utfc_encode s)) testZeroStrings = true) by (vm_compute; reflexivity).
    rewrite forallb_forall in H. apply List.Forall_forall. intros s Hs H0. apply H in Hs. rewrite forallb_forall in Hs. apply elem_of_list_In, Hs in H0. done.
Qed.
Print Assumptions C103_utfc.

(** dawg_test.go:8-36 TestSimple: what it prints. *)
Definition TestSimple : res (list bool * list (res bool)) :=
  '(rs, b) ← insert_all NewDawgBuilder (map (fun k => (str k, 0%Z)) ["apple"; "appliance"; "applied"; "apply"; "banana"; "changed"; "cherry"; "durian"; "mandarin"; "murdered"; "office"]%string);
  '(d, _) ← Finish b NewDawg;
  r ← dict_Build d;
  match r with
  | None => Panic
  | Some dic => Ok (rs, map (fun k => dc_ContainsString dic (str k)) ["apple"; "cherry"; "durian"; "green"; "mandarin"; "applied"; "murdered"; "changed"; "appliance"; "change"]%string)
  end.
(** dawg_test.go:38-52 TestZeros: both insertions return true, and no key is found. *)
Definition TestZeros : res (bool * bool * list (res bool)) :=
  '(r1, b) ← InsertKeyValue NewDawgBuilder [0; 0] 2 0;
  '(r2, b) ← InsertKeyValue b [0; 0; 0; 0; 0] 2 0;
  '(d, _) ← Finish b NewDawg;
  r ← dict_Build d;
  match r with
  | None => Panic
  | Some dic => Ok (r1, r2, map (fun n => dc_ContainsString dic (replicate n 0)) [1; 2; 3; 5; 6]%nat)
  end.
Theorem C103_dawg : TestSimple = Ok (replicate 11 true, map Ok [true; true; true; false; true; true; true; true; true; false]) /\
  TestZeros = Ok (true, true, replicate 5 (Ok false)).
Proof. vm_compute. split; reflexivity. Qed.
Print Assumptions C103_dawg.
