(** Property C81: what is built depends on the accepted entries only. *)
From Verif Require Import Go Dawg DawgSpec DawgAbs DawgCanon Dict DictSpec Guide GuideSpec Index Ranked RankedSpec RankedProofs RankedThms Serial Cli CliSpec CliProofs CliThms CliFile CanonFile
  Properties_Dawg Properties_Dict Properties_Ranked Properties_Cli.
Local Open Scope N_scope.

(** Two histories that leave the same entries give the same Dawg, whatever was refused or
    replaced on the way and whatever the initial sizes of the tables. *)
Theorem C81_dawg size size' h h' d0 d0' : size_ok size -> size_ok size' -> hist_ok h -> hist_ok h' -> entries h = entries h' ->
  exists d, build size h d0 = Ok (results h, d) /\ build size' h' d0' = Ok (results h', d).
Proof. exact (build_canon size size' h h' d0 d0'). Qed.
Print Assumptions C81_dawg.
(** Keys refused and replaced, values that differ by 2^31, tables of 2^1 and of 2^8. *)
Example C81_case : let h := [([98], 1%Z); ([97], 7%Z); ([98; 99], 4%Z); ([98; 99], 5%Z); ([98], 3%Z)] in let h' := [([98], 2147483649%Z); ([98; 99], 5%Z)] in
  size_ok 2 /\ size_ok 256 /\ hist_ok h /\ hist_ok h' /\ entries h = entries h' /\ results h <> results h'.
Proof. do 2 (split; [by vm_compute|]). do 2 (split; [split; [repeat constructor; by vm_compute|by vm_compute]|]). by vm_compute. Qed.

(** With a total order on values, the ranked guide does not depend on how links are sorted. *)
Theorem C81_ranked_guide sort sort' cmp d us : sorter sort -> sorter sort' -> total_order cmp -> BuildRankedGuideCmp sort cmp d us = BuildRankedGuideCmp sort' cmp d us.
Proof. exact (total_same sort sort' cmp d us). Qed.
Print Assumptions C81_ranked_guide.
(** With other comparators it may: [link_less] is no order for sort.SliceStable to go by. *)
Definition unordered (less : link -> link -> bool) : bool := less (1, 0%Z) (2, 0%Z) && negb (less (1, 0%Z) (3, 1%Z) || less (3, 1%Z) (1, 0%Z) || less (3, 1%Z) (2, 0%Z) || less (2, 0%Z) (3, 1%Z)).
Definition other_sort (less : link -> link -> bool) (l : list link) : list link := if unordered less then reverse (isort less l) else isort less l.
Theorem C81_any_order_refuted : exists sort sort' cmp h d us, sorter sort /\ sorter sort' /\ hist_ok h /\ made_dawg h d us /\
  BuildRankedGuideCmp sort cmp d us <> BuildRankedGuideCmp sort' cmp d us.
Proof.
  set (h := [([97], 1%Z); ([98], 2%Z)]). assert (Hh : hist_ok h) by (split; [repeat constructor; by vm_compute|by vm_compute]).
  destruct (build 256 h NewDawg) as [[rs d]| |] eqn:Hb; [|by vm_compute in Hb|by vm_compute in Hb]. destruct (dict_BuildWithUnused d) as [[[us un]|]| |] eqn:Hd; [|vm_compute in Hb; injection Hb as _ <-; by vm_compute in Hd..].
  exists isort, other_sort, (fun _ _ => false), h, d, us. split; [apply isort_sorter|]. split; [|split; [exact Hh|split]].
  - split.
    + intros less l. unfold other_sort. destruct (unordered less); [rewrite reverse_Permutation|]; apply isort_sorter.
    + intros less l i j a b Hw. unfold other_sort. destruct (unordered less) eqn:Hu; [|by apply isort_sorter]. exfalso. unfold unordered in Hu. apply andb_prop in Hu as [H1 H2]. apply negb_true_iff in H2.
      apply orb_false_elim in H2 as [[[H2 H3]%orb_false_elim H4]%orb_false_elim H5]. destruct Hw as (_ & _ & Hw). destruct (Hw (1, 0%Z) (3, 1%Z) (2, 0%Z)) as [H6 _]; [by split|by split|]. congruence.
  - exists 256%Z, NewDawg, rs, un. split; [unfold size_ok; lia|]. exact (conj Hb Hd).
  - vm_compute in Hb. injection Hb as _ <-. vm_compute in Hd. injection Hd as <- _. vm_compute. discriminate.
Qed.
Print Assumptions C81_any_order_refuted.

(** dawgtool: lexicons with the same entries give the same file, whatever the flags that
    say how lines are read, and whatever sorting does within its contract. *)
Theorem C81_file e e' o o' lexicon lexicon' es es' : env_ok e -> env_ok e' ->
  lines_entries o (tool_lines e o lexicon) es -> hist_ok es -> nondecreasing es -> lines_entries o' (tool_lines e' o' lexicon') es' -> hist_ok es' -> nondecreasing es' ->
  o_ranked o = o_ranked o' -> o_guide o = o_guide o' -> o_index o = o_index o' -> entries es = entries es' ->
  tool e o lexicon = tool e' o' lexicon'.
Proof.
  intros He He' Hl Hh Hn Hl' Hh' Hn' Er Eg Ei E.
  destruct (build_accepted (e_lsort e) (e_sort e) (e_grow e) (e_calls e) o lexicon es Hl Hh Hn) as (d & r & Hb & Hr & H).
  destruct (build_accepted (e_lsort e') (e_sort e') (e_grow e') (e_calls e') o' lexicon' es' Hl' Hh' Hn') as (d' & r' & Hb' & Hr' & H').
  destruct (build_canon 256 256 es es' NewDawg NewDawg) as (d1 & H1 & H1'); [unfold size_ok; lia|unfold size_ok; lia|exact Hh|exact Hh'|exact E|].
  rewrite Hb in H1. injection H1 as <-. rewrite Hb' in H1'. injection H1' as ->. rewrite Hr in Hr'. injection Hr' as <-. clear Hr Hb Hb'. unfold tool.
  destruct r as [[us un]|]; [|rewrite H, H'; reflexivity]. destruct H as [_ ->]. destruct H' as [_ ->]. unfold cli_write. rewrite Er, Eg, Ei. unfold BuildRankedGuide.
  rewrite (total_same (e_sort e) (e_sort e') Z.ltb d us (proj2 He) (proj2 He')); [reflexivity|]. split; [|split]; intros; lia.
Qed.
Print Assumptions C81_file.
(** A lexicon to be sorted and one without values, with -t in a different order of flags. *)
Example C81_file_case e : env_ok e -> lines_entries (flags false false true false false true) (tool_lines e (flags false false true false false true) [97; 10; 98; 10; 98; 10]) [([97], 0%Z); ([98], 0%Z); ([98], 0%Z)] /\
  lines_entries (flags true false true false false true) (tool_lines e (flags true false true false false true) [97; 9; 45; 49; 10; 10; 98; 9; 48]) [([97], 0%Z); ([98], 0%Z)] /\
  nondecreasing [([97], 0%Z); ([98], 0%Z); ([98], 0%Z)] /\ entries [([97], 0%Z); ([98], 0%Z); ([98], 0%Z)] = entries [([97], 0%Z); ([98], 0%Z)].
Proof.
  intros _. destruct e as [ls so gr ca]. split; [|split; [|split; [|by vm_compute]]].
  - change (tool_lines _ _ _) with [[97]; [98]; [98]]. unfold lines_entries. repeat constructor; apply entry_is; by vm_compute.
  - change (tool_lines _ _ _) with [[97; 9; 45; 49]; []; [98; 9; 48]]. unfold lines_entries. repeat constructor; apply entry_is; by vm_compute.
  - intros [|[|[|i]]] [|[|[|j]]] a b Hij Ha Hb; try lia; try discriminate Ha; try discriminate Hb; injection Ha as <-; injection Hb as <-; by vm_compute.
Qed.
