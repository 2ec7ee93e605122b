(** Properties C51-C53, C72-C76 and C80 of cmd/dawgtool/main.go. *)
From Coq Require Import Sorted.
From Verif Require Import Go Utfc UtfcHeap Utf8 Utf8Proofs Dawg DawgSpec DawgAbs Dict DictSpec Guide GuideSpec Index Ranked RankedSpec RankedProofs Serial Cli CliSpec CliProofs CliThms CliFile CliSort CliRanked
  RankedIndexSpec Properties_Utfc Properties_Dict Properties_Index Properties_Serial Properties_Ranked Properties_RankedIndex.
Local Open Scope N_scope.
Local Arguments N.mul : simpl never.
Local Arguments N.add : simpl never.
Local Arguments N.of_nat : simpl never.
Local Ltac by_vm := lazymatch goal with |- _ /\ _ => split; [vm_compute; reflexivity|by_vm] | _ => vm_compute; reflexivity end.

(** The parts of the program that are any function with the stated behaviour: the two
    uses of sort.SliceStable, and how append grows the buffer of UtfcEncode. *)
Record env := mkEnv { e_lsort : (list N -> list N -> bool) -> list (list N) -> list (list N); e_sort : (link -> link -> bool) -> list link -> list link;
  e_grow : nat -> nat; e_calls : list N -> list N -> list (list Z) }.
Definition env_ok (e : env) : Prop := stable_sorter (e_lsort e) /\ sorter (e_sort e).
(** dawgtool -b, and the lines in the order of insertion. *)
Definition tool (e : env) (o : opts) (lexicon : list N) : res (option (list N)) := cli_build (e_lsort e) (e_sort e) (e_grow e) (e_calls e) o lexicon [].
Definition tool_lines (e : env) (o : opts) (lexicon : list N) : list (list N) := cli_lines (e_lsort e) (e_grow e) (e_calls e) o lexicon.
Definition env0 : env := mkEnv isort isort (fun n => n + n)%nat (fun _ _ => []).
Lemma env0_ok : env_ok env0.
Proof. split; [apply isort_stable|apply isort_sorter]. Qed.
(** The flags -t -g -r -s -u -i. *)
Notation flags := mkOpts.

(** ** C51 *)
(** Values outside int64 are not clamped: dawgtool stops. *)
Theorem C51_clamped_refuted : exists o line k s z, o_tab o = true /\ fields line k s /\ numeral s z /\ line_entry o line = Ok None /\ forall e, tool e o (line ++ [10]) = Ok None.
Proof.
  exists (flags true false false false false false), [97; 9; 57; 50; 50; 51; 51; 55; 50; 48; 51; 54; 56; 53; 52; 55; 55; 53; 56; 48; 56], [97],
    [57; 50; 50; 51; 51; 55; 50; 48; 51; 54; 56; 53; 52; 55; 55; 53; 56; 48; 56]. eexists.
  split; [done|]. split; [|split; [|split]].
  - split; [|split; [|by left]]; rewrite !not_elem_of_cons; repeat split; try done; apply not_elem_of_nil.
  - apply nu_plain; [done|]. repeat constructor; done.
  - by vm_compute.
  - intros [ls st gr ca]. by vm_compute.
Qed.
Print Assumptions C51_clamped_refuted.
(** Those in int64 are, and fit in what the dictionary keeps. *)
Theorem C51_clamped_partial o line k s z : o_tab o = true -> fields line k s -> numeral s z -> int64 z ->
  line_entry o line = Ok (Some (key_bytes o k, clamped z)) /\ (0 <= clamped z <= 2147483647)%Z /\ kept (clamped z) = clamped z.
Proof.
  intros Ho Hf Hn Hz. split; [|split].
  - rewrite (entry_tab o line k s Ho Hf). by rewrite (proj2 (Atoi_numeral s z) (conj Hn Hz)).
  - unfold clamped. change (2 ^ 31 - 1)%Z with 2147483647%Z. lia.
  - unfold kept. apply Z.mod_small. unfold clamped. change (2 ^ 31 - 1)%Z with 2147483647%Z. lia.
Qed.
Print Assumptions C51_clamped_partial.
Example C51_case : fields [97; 9; 45; 53; 9; 120] [97] [45; 53] /\ numeral [45; 53] (-5) /\ int64 (-5) /\ clamped (-5) = 0%Z /\ clamped 2147483648 = 2147483647%Z /\
  line_entry (flags true false false false false false) [97; 9; 45; 53; 9; 120] = Ok (Some ([97], 0%Z)).
Proof.
  split; [|split; [|split; [|by_vm]]].
  - split; [|split; [|right; by exists [120]]]; rewrite !not_elem_of_cons; repeat split; try done; apply not_elem_of_nil.
  - apply (nu_minus [53]); [done|]. repeat constructor; done.
  - by vm_compute.
Qed.

(** C72. What each line stands for, for all lines: an entry exactly when [line_entry_is]
    says so; with -t, a panic exactly when there is no tab, and an exit otherwise. *)
Theorem C72_line_exact o line :
  (forall e, line_entry o line = Ok (Some e) <-> line_entry_is o line e) /\
  (line_entry o line = Panic <-> o_tab o = true /\ 9 ∉ line) /\
  (line_entry o line = Ok None <-> o_tab o = true /\ exists k s, fields line k s /\ ~ exists z, numeral s z /\ int64 z) /\ line_entry o line <> Hang.
Proof.
  split; [intros e; apply entry_is|]. destruct (o_tab o) eqn:Eo.
  - destruct (fields_cases line) as [[Hn Hs]|(k & s & rest & Hf & _)].
    + rewrite (entry_no_tab o line Eo Hn). split; [done|]. split; [|done]. split; [done|]. intros (_ & k & s & Hf & _). by apply fields_in in Hf.
    + pose proof (fields_in _ _ _ Hf) as Hin. rewrite (entry_tab o line k s Eo Hf). split; [split; [done|by intros [_ ?]]|]. split; [|done]. destruct (Atoi s) as [z|] eqn:Ez.
      * split; [done|]. intros (_ & k' & s' & Hf' & Hno). destruct (fields_split _ _ _ Hf) as [r1 E1]. destruct (fields_split _ _ _ Hf') as [r2 E2]. rewrite E1 in E2. injection E2 as <- <- _.
        exfalso. apply Hno. exists z. by apply Atoi_numeral.
      * split; [|done]. intros _. split; [done|]. exists k, s. split; [done|]. intros [z Hz]. apply Atoi_numeral in Hz. by rewrite Ez in Hz.
  - rewrite (entry_plain o line Eo). split; [split; [done|by intros [? _]]|]. split; [split; [done|by intros [? _]]|done].
Qed.
Print Assumptions C72_line_exact.
(** So a line without a tab makes dawgtool -t panic. *)
Example C72_case e : tool e (flags true false false false false false) [97; 10] = Panic.
Proof. destruct e. by vm_compute. Qed.

(** C73. The lines read: those of the file, also without a last \n or with \r\n, but
    from the first of 65536 bytes or more on nothing is read, silently. *)
Theorem C73_lines ls : Forall line_ok ls ->
  scan_lines (text ls) = ls /\ scan_lines (flat_map (fun l => l ++ [13; 10]) (filter (fun l : list N => N.of_nat (length l) < 65535) ls)) = filter (fun l : list N => N.of_nat (length l) < 65535) ls /\
  (forall l, line_ok l -> l <> [] -> scan_lines (text ls ++ l) = ls ++ [l]) /\
  forall long rest, 10 ∉ long -> 65536 <= N.of_nat (length long) -> scan_lines (text ls ++ long) = ls /\ scan_lines (text ls ++ long ++ 10 :: rest) = ls.
Proof.
  intros H. split; [by apply scan_text|]. split; [|split].
  - assert (H' : Forall (fun l => 10 ∉ l /\ N.of_nat (length l) < 65535) (filter (fun l : list N => N.of_nat (length l) < 65535) ls)).
    { rewrite Forall_forall in *. intros l [H1 H2]%elem_of_list_filter. split; [|done]. by apply (H l). }
    revert H'. generalize (filter (fun l : list N => N.of_nat (length l) < 65535) ls) as ks. intros ks Hk. unfold scan_lines.
    assert (E : flat_map (fun l : list N => l ++ [13; 10]) ks = text (map (fun l => l ++ [13]) ks)).
    { clear. induction ks as [|k ks IH]; [done|]. cbn [flat_map map]. by rewrite IH, <- !app_assoc. }
    rewrite E, <- (app_nil_r (text _)), raw_text; cbn [raw_lines].
    + rewrite scan_from_app; cbn [scan_from].
      * rewrite app_nil_r, map_map. rewrite <- (map_id ks) at 2. apply map_ext. apply drop_cr_crlf.
      * apply Forall_forall. intros l Hl. apply elem_of_list_fmap in Hl as (l' & -> & Hl'). rewrite Forall_forall in Hk. specialize (Hk l' Hl'). rewrite app_length. cbn. lia.
    + apply Forall_forall. intros l Hl. apply elem_of_list_fmap in Hl as (l' & -> & Hl'). rewrite Forall_forall in Hk. specialize (Hk l' Hl'). rewrite not_elem_of_app. split; [apply Hk|]. rewrite elem_of_list_singleton. done.
  - intros l Hl Hne. by rewrite scan_text_app, scan_last.
  - intros long rest H1 H2. destruct (scan_long long rest H1 H2) as [E1 E2]. rewrite !scan_text_app by done. rewrite E1, E2. by rewrite app_nil_r.
Qed.
Print Assumptions C73_lines.
Example C73_case : Forall line_ok [[97]; []; [98; 13; 99]] /\ scan_lines [97; 10; 10; 98; 13; 99; 10] = [[97]; []; [98; 13; 99]] /\ scan_lines [97; 13; 10; 98; 13] = [[97]; [98]].
Proof.
  split; [|by_vm]. repeat constructor; try done; rewrite ?not_elem_of_cons, ?not_elem_of_nil; repeat split; try done; apply not_elem_of_nil.
Qed.
Example C73_long : scan_lines (text [[97]] ++ repeat 98 (N.to_nat 65536) ++ 10 :: [99; 10]) = [[97]].
Proof.
  apply C73_lines.
  - repeat constructor; try done. rewrite elem_of_list_singleton. done.
  - intros H%elem_of_list_In%repeat_spec. done.
  - rewrite repeat_length, N2Nat.id. done.
Qed.

(** ** C52 *)
(** With -u the lines are sorted by the length of their encodings only. *)
Lemma su_lines e : env_ok e -> tool_lines e (flags false false false true true false) [98; 10; 97; 10] = [[98]; [97]].
Proof.
  intros [Hs _]. destruct (utfc_sorted (e_lsort e) (e_grow e) (e_calls e) Hs (flags false false false true true false) [98; 10; 97; 10] eq_refl eq_refl) as (Hp & _ & Hst).
  unfold tool_lines. specialize (Hst 1%nat). change (scan_lines [98; 10; 97; 10]) with [[98]; [97]] in *. revert Hp Hst. generalize (cli_lines (e_lsort e) (e_grow e) (e_calls e) (flags false false false true true false) [98; 10; 97; 10]) as L. intros L Hp Hst.
  change (filter (fun l : list N => enc_len l = 1%nat) [[98]; [97]]) with [[98]; [97]] in Hst. rewrite <- Hst. symmetry. assert (Hall : Forall (fun l => enc_len l = 1%nat) L) by (rewrite Hp; by repeat constructor).
  clear -Hall. induction Hall as [|l L Hl _ IH]; [done|]. by rewrite filter_cons_True, IH.
Qed.
Theorem C52_utfc_refuted : exists o lexicon, o_sort o = true /\ o_utfc o = true /\ o_tab o = false /\ scan_lines lexicon = [[98]; [97]] /\ forall e, env_ok e -> tool e o lexicon = Ok None.
Proof.
  exists (flags false false false true true false), [98; 10; 97; 10]. do 3 (split; [done|]). split; [by vm_compute|]. intros e He. pose proof (su_lines e He) as E.
  unfold tool, cli_build. unfold tool_lines in E. rewrite E. by vm_compute.
Qed.
Print Assumptions C52_utfc_refuted.
(** With -t the tabs and the values are sorted too. *)
Theorem C52_tab_refuted : exists o lexicon, o_sort o = true /\ o_utfc o = false /\ o_tab o = true /\ scan_lines lexicon = [[97; 8; 9; 49]; [97; 9; 49]] /\
  forall e, env_ok e -> tool e o lexicon = Ok None.
Proof.
  exists (flags true false false true false false), [97; 8; 9; 49; 10; 97; 9; 49; 10]. do 3 (split; [done|]). split; [by vm_compute|]. intros e [Hs _].
  destruct (plain_sorted (e_lsort e) (e_grow e) (e_calls e) Hs (flags true false false true false false) [97; 8; 9; 49; 10; 97; 9; 49; 10] eq_refl eq_refl) as [Hp Hst].
  assert (E : cli_lines (e_lsort e) (e_grow e) (e_calls e) (flags true false false true false false) [97; 8; 9; 49; 10; 97; 9; 49; 10] = [[97; 8; 9; 49]; [97; 9; 49]]).
  { revert Hp Hst. change (scan_lines [97; 8; 9; 49; 10; 97; 9; 49; 10]) with [[97; 8; 9; 49]; [97; 9; 49]].
    generalize (cli_lines (e_lsort e) (e_grow e) (e_calls e) (flags true false false true false false) [97; 8; 9; 49; 10; 97; 9; 49; 10]) as L. intros L Hp Hst.
    symmetry in Hp. apply Permutation_length_2_inv in Hp as [->| ->]; [done|]. exfalso. by apply (Hst 0%nat 1%nat [97; 9; 49] [97; 8; 9; 49]); [lia|..]. }
  unfold tool, cli_build. rewrite E. by vm_compute.
Qed.
Print Assumptions C52_tab_refuted.
(** Without -u, and with -t when no key has a byte below the tab, every insertion is
    accepted: of the entries of the lexicon, equal keys in the order of the lines. *)
Theorem C52_sorted_partial e o lexicon es0 : env_ok e -> o_sort o = true -> o_utfc o = false -> lines_entries o (scan_lines lexicon) es0 -> hist_ok es0 ->
  (o_tab o = true -> Forall (fun kv => Forall (fun c => 9 <= c) kv.1) es0) ->
  exists es b, es ≡ₚ es0 /\ lines_entries o (tool_lines e o lexicon) es /\ nondecreasing es /\ insert_lines o NewDawgBuilder 0 (tool_lines e o lexicon) = Ok (Some (Z.of_nat (length es), b)).
Proof.
  intros [Hs _] Ho Hu He Hh Hk. destruct (plain_order (e_lsort e) (e_grow e) (e_calls e) o lexicon es0 Hs Ho Hu He Hk) as (es & Hp & Hes & Hn).
  assert (Hh' : hist_ok es) by (apply (hist_ok_perm es0); [by symmetry|done]). destruct (inserted (e_lsort e) (e_grow e) (e_calls e) o lexicon es Hes Hh') as (b & d & b' & _ & _ & Hi).
  rewrite decide_True in Hi by (by apply all_true, all_accepted). exists es, b. done.
Qed.
Print Assumptions C52_sorted_partial.
Example C52_case : lines_entries (flags false false false true false false) (scan_lines [98; 10; 10; 97; 10]) [([98], 0%Z); ([97], 0%Z)] /\
  tool_lines env0 (flags false false false true false false) [98; 10; 10; 97; 10] = [[]; [97]; [98]].
Proof. split; [|by vm_compute]. change (scan_lines [98; 10; 10; 97; 10]) with [[98]; []; [97]]. unfold lines_entries. repeat constructor; eexists; done. Qed.
(** C74. Exactly, with -s -u: the lines are those of the file, sorted by the length of
    their encodings and otherwise in the order of the file; the insertions are all
    accepted when the keys of these happen to be in order, and dawgtool stops if not. *)
Theorem C74_utfc_sort e o lexicon es : env_ok e -> o_sort o = true -> o_utfc o = true -> lines_entries o (tool_lines e o lexicon) es -> hist_ok es ->
  tool_lines e o lexicon ≡ₚ scan_lines lexicon /\
  (forall i j a b, (i < j)%nat -> tool_lines e o lexicon !! i = Some a -> tool_lines e o lexicon !! j = Some b -> (length (utfc_encode (runes a)) <= length (utfc_encode (runes b)))%nat) /\
  (forall n, filter (fun l => length (utfc_encode (runes l)) = n) (tool_lines e o lexicon) = filter (fun l => length (utfc_encode (runes l)) = n) (scan_lines lexicon)) /\
  (nondecreasing es -> exists b, insert_lines o NewDawgBuilder 0 (tool_lines e o lexicon) = Ok (Some (Z.of_nat (length es), b))) /\
  (~ nondecreasing es -> tool e o lexicon = Ok None).
Proof.
  intros [Hs Hso] Ho Hu He Hh. destruct (utfc_sorted (e_lsort e) (e_grow e) (e_calls e) Hs o lexicon Hu Ho) as (H1 & H2 & H3). split; [exact H1|]. split; [exact H2|]. split; [exact H3|]. split.
  - intros Hn. destruct (inserted (e_lsort e) (e_grow e) (e_calls e) o lexicon es He Hh) as (b & d & b' & _ & _ & Hi). rewrite decide_True in Hi by (by apply all_true, all_accepted). exists b. exact Hi.
  - intros Hn. exact (build_rejected (e_lsort e) (e_sort e) (e_grow e) (e_calls e) o lexicon es He Hh Hn).
Qed.
Print Assumptions C74_utfc_sort.
(** Encoded keys never have the zero byte. *)
Theorem C74_utfc_keys o lines es : o_utfc o = true -> lines_entries o lines es -> Forall (fun kv => key_ok kv.1) es.
Proof.
  intros Hu. unfold lines_entries. generalize (filter (fun l : list N => l <> []) lines) as M. induction 1 as [|l [k v] M es (k' & _ & E) _ IH]; constructor; [|done]. cbn [fst] in *. unfold key_bytes in E. rewrite Hu in E. subst k.
  unfold key_ok. eapply Forall_impl; [apply C02_no_zero_byte, runes_text|]. cbn. intros x Hx. lia.
Qed.
Print Assumptions C74_utfc_keys.
Example C74_case : tool_lines env0 (flags false false false true true false) [228; 184; 173; 10; 98; 10; 97; 10] = [[98]; [97]; [228; 184; 173]] /\
  tool env0 (flags false false false true true false) [228; 184; 173; 10; 98; 10; 97; 10] = Ok None /\ exists file, tool env0 (flags false false false true true false) [228; 184; 173; 10; 97; 10; 98; 10] = Ok (Some file).
Proof. split; [by vm_compute|]. split; [by vm_compute|]. eexists. vm_compute. reflexivity. Qed.

(** ** C53 *)
(** With -u the queries are not encoded: the only key of the lexicon is not found. *)
Theorem C53_utfc_refuted : exists o lexicon k file, o_utfc o = true /\ scan_lines lexicon = [k] /\ (forall e, tool e o lexicon = Ok (Some file)) /\
  forall fuel, cli_load fuel o [file] lexicon = Ok (Some ([mkAns k None []], None)).
Proof.
  exists (flags false false false false true false), [209; 143; 10], [209; 143]. eexists. split; [done|]. split; [by vm_compute|]. split.
  - intros [ls st gr ca]. vm_compute. reflexivity.
  - intros fuel. vm_compute. reflexivity.
Qed.
Print Assumptions C53_utfc_refuted.
(** With -t -g, an empty key and an empty query: no end. *)
Theorem C53_empty_refuted : exists o lexicon file, o_utfc o = false /\ (forall e, tool e o lexicon = Ok (Some file)) /\
  forall fuel, cli_load fuel o [file] [10] = Hang.
Proof.
  exists (flags true true false false false false), [9; 53; 10].
  assert (He : forall e, lines_entries (flags true true false false false false) (cli_lines (e_lsort e) (e_grow e) (e_calls e) (flags true true false false false false) [9; 53; 10]) [([], 5%Z)]).
  { intros e. change (cli_lines _ _ _ _ _) with [[9; 53]]. unfold lines_entries. constructor; [|constructor]. exists []. split; [|done]. exists [53], 5%Z. split; [|split; [|split; [|done]]].
    - split; [apply not_elem_of_nil|]. split; [|by left]. rewrite elem_of_list_singleton. done.
    - apply (nu_plain [53]); [done|]. repeat constructor; done.
    - by vm_compute. }
  assert (Hh : hist_ok [([], 5%Z)]) by (split; [repeat constructor|by vm_compute]).
  assert (Hb : exists file, forall e, tool e (flags true true false false false false) [9; 53; 10] = Ok (Some file)).
  { eexists. intros [ls st gr ca]. vm_compute. reflexivity. }
  destruct Hb as [file Hb]. exists file. split; [reflexivity|]. split; [exact Hb|]. intros fuel.
  destruct (build_file isort isort (fun n => n) (fun _ _ => []) isort_sorter _ [9; 53; 10] _ (He (mkEnv isort isort (fun n => n) (fun _ _ => []))) Hh file (Hb (mkEnv isort isort (fun n => n) (fun _ _ => [])))) as (_ & us & _ & g & Hg & Hf).
  cbn [o_index] in Hf. apply (load_guide [([], 5%Z)] Hh fuel (flags true true false false false false) [10]) with (rest := []) (us := us) (g := g); try done.
  - change (scan_lines [10]) with [@nil N]. constructor; [|constructor]. split; [constructor|]. intros p c t E. by destruct p.
  - intros _. cbn [concat]. by rewrite !app_nil_r.
  - change (scan_lines [10]) with [@nil N]. by left.
  - exists 5%Z. by left.
Qed.
Print Assumptions C53_empty_refuted.

Section round_trip.
  Context (e : env) (o : opts) (lexicon : list N) (es : list entry) (He : env_ok e) (Hes : lines_entries o (tool_lines e o lexicon) es) (Hh : hist_ok es).
  (** C75. The file is written when the keys, in the order of insertion, never
      decrease, there are not too many of their prefixes and, with an index, there
      is a key. *)
  Theorem C75_written : nondecreasing es -> (exists L, enumerates L (key_prefix es) /\ N.of_nat (length L) < 2097152) ->
    (has_guide o = true -> o_index o = true -> accepted es <> []) -> exists file, tool e o lexicon = Ok (Some file).
  Proof using He Hes Hh.
    intros Hn (L & HL & Hl) Hi. assert (Hsz : size_ok 256) by (split; reflexivity || discriminate). destruct (C27_build_succeeds 256 es NewDawg Hsz Hh) as (r' & Hr' & Hne & _). clear Hsz.
    specialize (Hne L HL Hl). clear HL Hl. destruct (build_accepted (e_lsort e) (e_sort e) (e_grow e) (e_calls e) o lexicon es Hes Hh Hn) as (d & r & Hb & Hr & H).
    pose proof (dict_shape _ _ _ _ _ Hb Hr') as Hr2. clear Hr' Hb. rewrite Hr in Hr2. injection Hr2 as <-. clear Hr.
    destruct r as [[us un]|]; [|contradiction Hne; reflexivity]. destruct H as [Hd H]. pose proof (write_ok (e_sort e) o es d us (proj2 He) Hh Hd) as Hw. unfold tool. rewrite H.
    destruct (has_guide o); [|rewrite Hw; by eexists]. destruct Hw as (g & Hg & ->). destruct (o_index o); [|by eexists]. pose proof (Hi eq_refl eq_refl) as Ha.
    unfold guide_made_by in Hg. destruct (o_ranked o).
    - destruct (C77_ranked_index Z.ltb es us g ltb_total Hh (proj1 (made_default_ranked es us g) Hg) Ha) as (ix & ks & -> & _). by eexists.
    - destruct (C41_index_counts es us g Hh Hg Ha) as (ix & -> & _). by eexists.
  Qed.
  (** Nothing is written when they do decrease, nor with an index and no keys. *)
  Theorem C75_not_written : (~ nondecreasing es -> tool e o lexicon = Ok None) /\
    (es = [] -> has_guide o = true -> o_index o = true -> forall file, tool e o lexicon <> Ok (Some file)).
  Proof using He Hes Hh.
    split; [intros Hn; exact (build_rejected (e_lsort e) (e_sort e) (e_grow e) (e_calls e) o lexicon es Hes Hh Hn)|]. intros E H1 H3 file Hf.
    destruct (build_file (e_lsort e) (e_sort e) (e_grow e) (e_calls e) (proj2 He) o lexicon es Hes Hh file Hf) as (_ & us & _ & H). unfold guide_made_by in H. rewrite H1, H3 in H.
    destruct H as (g & Hg & ix & Hix & _). assert (BuildIndex us g = Panic) as Hp; [|congruence]. destruct (o_ranked o).
    - apply (C77_ranked_empty Z.ltb es us g Hh (proj1 (made_default_ranked es us g) Hg)). by rewrite E.
    - apply (C46_empty_index_panics es us g Hh Hg). by rewrite E.
  Qed.
  (** C76. The answers of dawgtool run on that file with the same flags (other than
      -u), for queries as in C60: without a guide, ... *)
  Context (file : list N) (Hf : tool e o lexicon = Ok (Some file)) (r : reader) (Hr : concat r = file) (queries : list N) (Hq : Forall (query_ok es) (scan_lines queries)) (fuel : nat).
  Theorem C76_plain : has_guide o = false ->
    cli_load fuel o r queries = if o_index o then Panic else Ok (Some (map (plain_answer (entries es)) (scan_lines queries), None)).
  Proof using He Hes Hh Hf Hr Hq.
    intros Hg. destruct (build_file (e_lsort e) (e_sort e) (e_grow e) (e_calls e) (proj2 He) o lexicon es Hes Hh file Hf) as (_ & us & Hm & H). rewrite Hg in H.
    apply (load_plain es Hh fuel o queries Hq r [] us Hm Hg). by rewrite Hr, H, app_nil_r.
  Qed.
  (** ...with -g, and with the index; a query for the empty string while it is a key
      never ends, ... *)
  Theorem C76_guide : o_ranked o = false -> o_guide o = true ->
    ((length (accepted es) < fuel)%nat -> ([] ∈ scan_lines queries -> ~ is_key es []) ->
      cli_load fuel o r queries = Ok (Some (map (guide_answer (o_index o) (entries es)) (scan_lines queries),
        if o_index o then Some (N.of_nat (length (accepted es)), map fst (entries es)) else None))) /\
    ([] ∈ scan_lines queries -> is_key es [] -> cli_load fuel o r queries = Hang).
  Proof using He Hes Hh Hf Hr Hq.
    intros Hk Hg. destruct (build_file (e_lsort e) (e_sort e) (e_grow e) (e_calls e) (proj2 He) o lexicon es Hes Hh file Hf) as (_ & us & Hm & H). unfold has_guide, guide_made_by in H. rewrite Hk, Hg in H. cbn [orb] in H.
    destruct H as (g & Hmg & H). apply (load_guide es Hh fuel o queries Hq r [] us g Hmg Hk Hg).
    - intros Hi. rewrite Hi in H. by rewrite Hr, H, app_nil_r.
    - intros Hi. rewrite Hi in H. destruct H as (ix & Hix & H). exists ix. split; [done|]. by rewrite Hr, H, app_nil_r.
  Qed.
  (** ...and with -r: the same entries by non-increasing value. *)
  Theorem C76_ranked : o_ranked o = true -> o_index o = false -> (length (accepted es) < fuel)%nat ->
    exists l, cli_load fuel o r queries = Ok (Some (l, None)) /\ Forall2 (ranked_answer (entries es)) (scan_lines queries) l.
  Proof using He Hes Hh Hf Hr Hq.
    intros Hk Hi Hfu. destruct (build_file (e_lsort e) (e_sort e) (e_grow e) (e_calls e) (proj2 He) o lexicon es Hes Hh file Hf) as (_ & us & Hm & H). unfold has_guide, guide_made_by in H. rewrite Hk in H. cbn [orb] in H.
    destruct H as (g & Hmg & H). rewrite Hi in H. apply (load_ranked es Hh fuel o queries Hq r [] us g Hmg Hk Hi); [|done]. by rewrite Hr, H, app_nil_r.
  Qed.
  (** C80. With -r and an index: the words are the keys the index holds (C77), in its
      order, and the answers are those of -r with an index as in C78. *)
  Theorem C80_ranked_index : o_ranked o = true -> o_index o = true -> (length (accepted es) < fuel)%nat ->
    exists l ks, cli_load fuel o r queries = Ok (Some (l, Some (N.of_nat (length ks), ks))) /\
      (forall k, k ∈ ks <-> held Z.ltb (entries es) k) /\ StronglySorted (ahead Z.ltb (entries es)) ks /\
      Forall2 (ranked_index_answer (entries es) ks) (scan_lines queries) l.
  Proof using He Hes Hh Hf Hr Hq.
    intros Hk Hi Hfu. destruct (build_file (e_lsort e) (e_sort e) (e_grow e) (e_calls e) (proj2 He) o lexicon es Hes Hh file Hf) as (_ & us & Hm & H). unfold has_guide, guide_made_by in H. rewrite Hk in H. cbn [orb] in H.
    destruct H as (g & Hmg & H). rewrite Hi in H. destruct H as (ix & Hix & H).
    destruct (load_ranked_index es Hh fuel o queries Hq r [] us g ix Hmg Hk Hi Hix) as (l & ks & HH); [|done|by exists l, ks]. by rewrite Hr, H, app_nil_r.
  Qed.
End round_trip.
Print Assumptions C75_written.
Print Assumptions C75_not_written.
Example C75_empty e : tool e (flags false true false false false true) [] = Panic.
Proof. destruct e. by vm_compute. Qed.
Print Assumptions C76_plain.
Print Assumptions C76_guide.
Print Assumptions C76_ranked.
Print Assumptions C80_ranked_index.
(** Values are kept as they are, and without -t every query without the zero byte is
    answered so. *)
Theorem C76_values o lines es : lines_entries o lines es -> entries es = accepted es.
Proof.
  intros He. assert (H : Forall (fun kv : entry => kept_entry kv = kv) es).
  { revert He. unfold lines_entries. generalize (filter (fun l : list N => l <> []) lines) as M. induction 1 as [|l [k v] M es (k' & H & _) _ IH]; constructor; [|done]. unfold kept_entry. cbn [fst snd] in *. f_equal.
    unfold line_kv in H. destruct (o_tab o).
    - destruct H as (s & z & _ & _ & _ & ->). unfold kept. apply Z.mod_small. unfold clamped. change (2 ^ 31 - 1)%Z with 2147483647%Z. lia.
    - by destruct H as [_ ->]. }
  assert (Hin : forall h es0, Forall (fun kv : entry => kept_entry kv = kv) es0 -> Forall (fun kv : entry => kept_entry kv = kv) h -> Forall (fun kv : entry => kept_entry kv = kv) (spec_run es0 h).2).
  { induction h as [|kv h IH]; intros es0 H0 Hf; cbn [spec_run]; [done|]. apply Forall_cons in Hf as [Hkv Hf]. unfold spec_insert. destruct (last es0) as [[k0 v0]|] eqn:El.
    - assert (Hr : Forall (fun kv : entry => kept_entry kv = kv) (removelast es0 ++ [kv]) /\ Forall (fun kv : entry => kept_entry kv = kv) (es0 ++ [kv])).
      { split; apply Forall_app; (split; [|by constructor]); [|done]. destruct es0 as [|x es0 _] using rev_ind; [done|]. rewrite removelast_last. by apply Forall_app in H0 as [? _]. }
      destruct (kcmp k0 kv.1).
      + specialize (IH _ (proj1 Hr) Hf). by destruct (spec_run _ h).
      + specialize (IH _ (proj2 Hr) Hf). by destruct (spec_run _ h).
      + specialize (IH _ H0 Hf). by destruct (spec_run _ h).
    - specialize (IH [kv]). destruct (spec_run _ h). cbn [snd] in *. apply IH; [by constructor|done]. }
  specialize (Hin es [] (Forall_nil_2 _) H). change (spec_run [] es).2 with (accepted es) in Hin. clear -Hin. induction Hin as [|x l Hx _ IH]; [done|]. cbn [map]. by rewrite Hx, IH.
Qed.
Print Assumptions C76_values.
Theorem C76_no_values o lines es q : o_tab o = false -> lines_entries o lines es -> bytes q -> 0 ∉ q -> query_ok es q.
Proof.
  intros Ho He Hq H0. split; [done|]. apply C60_safe_bytes. intros c k v Hc Hk.
  assert (Hv : forall kv, kv ∈ es -> kv.2 = 0%Z).
  { clear Hk. revert He. unfold lines_entries. generalize (filter (fun l : list N => l <> []) lines) as M. induction 1 as [|l [k1 v1] M es (k' & H & _) _ IH]; intros kv; [by intros ?%elem_of_nil|].
    rewrite elem_of_cons. intros [->|Hin]; [|by apply IH]. unfold line_kv in H. rewrite Ho in H. by destruct H. }
  assert (v = 0%Z) as ->.
  { apply elem_of_list_fmap in Hk as ([k1 v1] & [= -> ->] & Hk). assert (Hin : forall h es0 x, x ∈ (spec_run es0 h).2 -> x ∈ es0 \/ x ∈ h).
    { induction h as [|kv h IH]; intros es0 x; cbn [spec_run]; [by left|]. unfold spec_insert. destruct (last es0) as [[k0 v0]|] eqn:El.
      - destruct (kcmp k0 kv.1).
        + specialize (IH (removelast es0 ++ [kv]) x). destruct (spec_run _ h). cbn [snd] in *. intros [H|H]%IH; [|right; by right]. apply elem_of_app in H as [H|H%elem_of_list_singleton]; [left|right; subst; by left].
          destruct es0 as [|y es0 _] using rev_ind; [done|]. rewrite removelast_last in H. apply elem_of_app. by left.
        + specialize (IH (es0 ++ [kv]) x). destruct (spec_run _ h). cbn [snd] in *. intros [H|H]%IH; [|right; by right]. apply elem_of_app in H as [H|H%elem_of_list_singleton]; [by left|right; subst; by left].
        + specialize (IH es0 x). destruct (spec_run _ h). cbn [snd] in *. intros [H|H]%IH; [by left|right; by right].
      - specialize (IH [kv] x). destruct (spec_run _ h). cbn [snd] in *. intros [H%elem_of_list_singleton|H]%IH; right; [subst; by left|by right]. }
    destruct (Hin es [] _ Hk) as [H%elem_of_nil|H]; [done|]. pose proof (Hv _ H) as E0. cbn [snd] in E0. by rewrite E0. }
  intros E. assert (c = 0) by (cbn in E; lia). by subst.
Qed.
Print Assumptions C76_no_values.
(** The hypotheses hold for a lexicon with -t -s -g -i, here "b\t5\na\t-3\nab\t7\n",
    and the queries a, b and c. *)
Definition lex1 : list N := [98; 9; 53; 10; 97; 9; 45; 51; 10; 97; 98; 9; 55; 10].
Definition es1 : list entry := [([97], 0%Z); ([97; 98], 7%Z); ([98], 5%Z)].
Example C76_hyps e : env_ok e -> lines_entries (flags true true false true false true) (tool_lines e (flags true true false true false true) lex1) es1 /\ hist_ok es1 /\ nondecreasing es1 /\
  Forall (query_ok es1) [[97]; [98]; [99]].
Proof.
  intros [Hs _].
  split; [|split; [|split]].
  - destruct (plain_sorted (e_lsort e) (e_grow e) (e_calls e) Hs (flags true true false true false true) lex1 eq_refl eq_refl) as [Hp Hst].
    unfold tool_lines. revert Hp Hst. change (scan_lines lex1) with [[98; 9; 53]; [97; 9; 45; 51]; [97; 98; 9; 55]]. generalize (cli_lines (e_lsort e) (e_grow e) (e_calls e) (flags true true false true false true) lex1) as L. intros L Hp Hst.
    assert (L = [[97; 9; 45; 51]; [97; 98; 9; 55]; [98; 9; 53]]) as ->.
    { pose proof (Permutation_length Hp) as Hl. destruct L as [|x [|y [|z [|]]]]; try discriminate Hl. pose proof (Hst 0%nat 1%nat x y ltac:(lia) eq_refl eq_refl) as H1. pose proof (Hst 1%nat 2%nat y z ltac:(lia) eq_refl eq_refl) as H2. pose proof (Hst 0%nat 2%nat x z ltac:(lia) eq_refl eq_refl) as H3.
      assert (Hall : forall w, w ∈ [x; y; z] -> w ∈ [[98; 9; 53]; [97; 9; 45; 51]; [97; 98; 9; 55]]) by (intros w; by rewrite Hp). assert (Hnd : NoDup [x; y; z]).
      { rewrite Hp. repeat constructor; rewrite ?not_elem_of_cons; repeat split; try done; apply not_elem_of_nil. }
      pose proof (Hall x ltac:(by left)) as Hx. pose proof (Hall y ltac:(right; by left)) as Hy. pose proof (Hall z ltac:(right; right; by left)) as Hz.
      rewrite !NoDup_cons, !not_elem_of_cons in Hnd. rewrite !elem_of_cons in Hx, Hy, Hz. destruct Hnd as ((N1 & N2 & _) & (N3 & _) & _).
      destruct Hx as [->|[->|[->|[]%elem_of_nil]]], Hy as [->|[->|[->|[]%elem_of_nil]]]; try (by contradiction N1); destruct Hz as [->|[->|[->|[]%elem_of_nil]]]; try (by contradiction N2); try (by contradiction N3); try done;
        exfalso; revert H1 H2 H3; vm_compute; intros H1 H2 H3; (by apply H1) || (by apply H2) || (by apply H3). }
    unfold lines_entries. repeat constructor; apply entry_is; by vm_compute.
  - split; [repeat constructor|by vm_compute].
  - intros i j a b Hij Ha Hb. destruct i as [|[|[|]]]; cbn in Ha; try discriminate Ha; destruct j as [|[|[|]]]; cbn in Hb; try discriminate Hb; try lia; injection Ha as <-; injection Hb as <-; by vm_compute.
  - assert (Hq : forall c, c < 256 -> c <> 0 -> c <> 5 -> c <> 7 -> query_ok es1 [c]).
    { intros c H1 H2 H3 H4. split; [by repeat constructor|]. apply C60_safe_bytes. intros c' k v ->%elem_of_list_singleton Hk. revert Hk. change (entries es1) with es1. unfold es1. rewrite !elem_of_cons.
      intros [[= -> ->]|[[= -> ->]|[[= -> ->]|[]%elem_of_nil]]]; cbn; lia. }
    repeat constructor; apply Hq; lia.
Qed.
Example C76_case : match tool env0 (flags true true false true false true) lex1 with
  | Ok (Some file) => cli_load 4 (flags true true false true false true) [file] [97; 10; 98; 10; 99; 10] =
      Ok (Some ([mkAns [97] (Some 0) [([97; 0], 0%Z); ([97; 98; 0], 7%Z)]; mkAns [98] (Some 2) [([98; 0], 5%Z)]; mkAns [99] (Some 4294967295) []], Some (3, [[97]; [97; 98]; [98]])))
  | _ => False end.
Proof. vm_compute. reflexivity. Qed.
Example C76_ranked_case : match tool env0 (flags true false true true false false) lex1 with
  | Ok (Some file) => cli_load 4 (flags true false true true false false) [file] [97; 10; 98; 10; 99; 10] =
      Ok (Some ([mkAns [97] None [([97; 98; 0], 7%Z); ([97; 0], 0%Z)]; mkAns [98] None [([98; 0], 5%Z)]; mkAns [99] None []], None))
  | _ => False end.
Proof. vm_compute. reflexivity. Qed.
Example C80_case : match tool env0 (flags true false true true false true) lex1 with
  | Ok (Some file) => cli_load 4 (flags true false true true false true) [file] [97; 10; 98; 10; 99; 10] =
      Ok (Some ([mkAns [97] (Some 0) [([97; 98; 0], 7%Z); ([97; 0], 0%Z)]; mkAns [98] (Some 2) [([98; 0], 5%Z)]; mkAns [99] (Some 4294967295) []], Some (3, [[97]; [97; 98]; [98]])))
  | _ => False end.
Proof. vm_compute. reflexivity. Qed.
Example C76_plain_case : match tool env0 (flags true false false true false false) lex1 with
  | Ok (Some file) => cli_load 0 (flags true false false true false false) [file] [97; 98; 99; 10; 98; 10; 99; 10] =
      Ok (Some ([mkAns [97; 98; 99] None [([97], 0%Z); ([97; 98], 7%Z)]; mkAns [98] None [([98], 5%Z)]; mkAns [99] None []], None))
  | _ => False end.
Proof. vm_compute. reflexivity. Qed.
