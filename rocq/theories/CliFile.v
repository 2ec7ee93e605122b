(** Proofs about Cli.v: handleBuildDict and handleLoadDict as a whole. *)
From Verif Require Import Go Dawg DawgSpec DawgAbs Dict DictSpec DictThms Guide GuideSpec Completer Index Ranked RankedSpec RankedCompleter Serial SerialRange LinkTableProofs Cli CliSpec CliProofs CliThms
  Properties_Dawg Properties_Dict Properties_Completer Properties_Index Properties_Ranked Properties_Serial.
Local Open Scope N_scope.
Local Arguments N.mul : simpl never.
Local Arguments N.add : simpl never.
Local Arguments N.of_nat : simpl never.

(** The guide asked for, and the contents of the file. *)
Definition has_guide (o : opts) : bool := o_ranked o || o_guide o.
Definition guide_made_by (o : opts) (h : list entry) (us : dict) (g : guide) : Prop := if o_ranked o then made_default h us g else made_guide h us g.
Definition file_is (o : opts) (h : list entry) (file : list N) : Prop := exists us, made h us /\
  if has_guide o then exists g, guide_made_by o h us g /\
    if o_index o then exists ix, BuildIndex us g = Ok (Some ix) /\ file = words_bytes us ++ pairs_bytes g ++ words_bytes ix
    else file = words_bytes us ++ pairs_bytes g
  else file = words_bytes us.

Lemma all_true rs : Forall (eq true) rs <-> (forall b, b ∈ rs -> b = true).
Proof. rewrite Forall_forall. split; intros H b Hb; symmetry; by apply H. Qed.
Lemma write_ok sort o es d us : sorter sort -> hist_ok es -> made_dawg es d us ->
  if has_guide o then exists g, guide_made_by o es us g /\
    cli_write sort o d us [] = (if o_index o then oi ← BuildIndex us g; Ok (match oi with Some ix => Some (words_bytes us ++ pairs_bytes g ++ words_bytes ix) | None => None end)
      else Ok (Some (words_bytes us ++ pairs_bytes g)))
  else cli_write sort o d us [] = Ok (Some (words_bytes us)).
Proof.
  intros Hso Hh Hd. pose proof (made_dawg_made es d us Hd) as Hm.
  pose proof (C31_built es us Hh Hm) as Hw. destruct (C31_dictionary us Hw) as (_ & W1 & _). unfold cli_write. rewrite W1. cbn [written app fst]. unfold has_guide. destruct (o_ranked o || o_guide o) eqn:Eg; cbn [negb]; [|reflexivity].
  assert (exists g, (if o_ranked o then BuildRankedGuide sort d us else BuildGuide d us) = Ok (Some g) /\ guide_made_by o es us g) as (g & Hg & Hmg).
  { unfold guide_made_by. destruct (o_ranked o).
    - destruct (C68_ranked_built sort Z.ltb es d us Hso Hh Hd) as (g & Hg & _). change (BuildRankedGuideCmp sort Z.ltb d us) with (BuildRankedGuide sort d us) in Hg. exists g. split; [exact Hg|]. exists d, sort. exact (conj Hso (conj Hd Hg)).
    - destruct (C40_guide_built es d us Hh Hd) as (g & Hg & _). exists g. split; [exact Hg|]. exists d. exact (conj Hd Hg). }
  exists g. split; [exact Hmg|]. rewrite Hg. cbn [mbind res_bind].
  assert (Hb3 : forall ix, words us /\ pairs g /\ (BuildIndex us g = Ok (Some ix) -> words ix)).
  { intros ix. apply (C32_built es us g ix Hh). unfold guide_made_by in Hmg. destruct (o_ranked o); [right; exists Z.ltb; exact (proj1 (made_default_ranked es us g) Hmg)|by left]. }
  destruct (Hb3 []) as (_ & Hpg & _).
  assert (W2 : (if o_ranked o then rguide_Write else guide_Write) g (words_bytes us, []) = (true, (words_bytes us ++ pairs_bytes g, []))).
  { destruct (o_ranked o); [apply (C32_ranked_guide g Hpg)|apply (C32_guide g Hpg)]. }
  rewrite W2. cbn [written fst]. destruct (o_index o); cbn [negb]; [|reflexivity].
  destruct (BuildIndex us g) as [[ix|]| |]; cbn [mbind res_bind]; try reflexivity.
  destruct (C32_index ix) as (_ & W3 & _); [exact (proj2 (proj2 (Hb3 ix)) eq_refl)|]. rewrite W3. cbn [written fst]. rewrite <- app_assoc. reflexivity.
Qed.
Lemma build_shape {A} (x : res (option (Z * builder))) (fin : builder -> res (dawg * builder)) (bw : dawg -> res (option (dict * N))) (k : dawg -> dict -> res (option A)) n b d b' r :
  x = Ok (Some (n, b)) -> fin b = Ok (d, b') -> bw d = Ok r ->
  (x ← x; match x with None => Ok None | Some (_, b) => '(d, _) ← fin b; y ← bw d; match y with None => Ok None | Some (us, _) => k d us end end) =
  match r with None => Ok None | Some (us, _) => k d us end.
Proof. intros -> E2 E3. cbn [mbind res_bind]. rewrite E2. cbn [mbind res_bind]. rewrite E3. done. Qed.
Lemma dict_shape {A} (x : res (list bool * dawg)) (bw : dawg -> res A) rs d r : x = Ok (rs, d) -> ('(_, d) ← x; bw d) = Ok r -> bw d = Ok r.
Proof. by intros ->. Qed.
Section build.
  Context (lsort : (list N -> list N -> bool) -> list (list N) -> list (list N)) (sort : (link -> link -> bool) -> list link -> list link).
  Context (grow : nat -> nat) (calls : list N -> list N -> list (list Z)) (Hso : sorter sort).
  Context (o : opts) (lexicon : list N) (es : list entry) (Hes : lines_entries o (cli_lines lsort grow calls o lexicon) es) (Hh : hist_ok es).
  Notation tool := (cli_build lsort sort grow calls o lexicon []).
  Lemma inserted : exists b d b', Finish b NewDawg = Ok (d, b') /\ build 256 es NewDawg = Ok (results es, d) /\
    insert_lines o NewDawgBuilder 0 (cli_lines lsort grow calls o lexicon) = Ok (if decide (Forall (eq true) (results es)) then Some (Z.of_nat (length es), b) else None).
  Proof using Hes Hh.
    destruct (C15_no_panic 256 es NewDawg) as [d Hd]; [done|done|]. pose proof Hd as Hd'. unfold build in Hd. change (NewDawgBuilderWithSize 256) with NewDawgBuilder in Hd.
    destruct (insert_all NewDawgBuilder es) as [[rs b]| |] eqn:E; cbn [mbind res_bind] in Hd; try discriminate Hd.
    destruct (Finish b NewDawg) as [[d1 b1]| |] eqn:E2; cbn [mbind res_bind] in Hd; try discriminate Hd. injection Hd as -> ->.
    exists b, d, b1. split; [exact E2|]. split; [exact Hd'|]. exact (insert_lines_spec o _ es Hes NewDawgBuilder 0 _ _ E).
  Qed.
  Lemma build_rejected : ~ nondecreasing es -> tool = Ok None.
  Proof using Hes Hh.
    intros Hn. destruct inserted as (b & d & b' & _ & _ & E). unfold cli_build. rewrite E. rewrite decide_False; [reflexivity|]. intros H. apply Hn, all_accepted. by apply all_true.
  Qed.
  Lemma build_accepted : nondecreasing es -> exists d r, build 256 es NewDawg = Ok (results es, d) /\ dict_BuildWithUnused d = Ok r /\
    match r with
    | None => tool = Ok None
    | Some (us, _) => made_dawg es d us /\ tool = cli_write sort o d us []
    end.
  Proof using Hes Hh.
    intros Hn. destruct inserted as (b & d & b' & Hf & Hb & E). rewrite decide_True in E by (by apply all_true, all_accepted).
    destruct (C27_build_succeeds 256 es NewDawg) as (r & Hr & _); [done|done|]. apply (dict_shape _ _ _ _ _ Hb) in Hr.
    exists d, r. split; [exact Hb|]. split; [exact Hr|].
    assert (T : tool = match r with None => Ok None | Some (us, _) => cli_write sort o d us [] end).
    { exact (build_shape _ (fun b => Finish b NewDawg) dict_BuildWithUnused (fun d us => cli_write sort o d us []) _ b d b' r E Hf Hr). }
    destruct r as [[us un]|]; [|exact T]. split; [|exact T]. exists 256%Z, NewDawg, (results es), un. split; [unfold size_ok; lia|]. exact (conj Hb Hr).
  Qed.
  Lemma build_file file : tool = Ok (Some file) -> nondecreasing es /\ file_is o es file.
  Proof using Hes Hh Hso.
    intros Ht. destruct (decide (Forall (eq true) (results es))) as [Hf|Hf].
    - assert (Hn : nondecreasing es) by (by apply all_accepted, all_true). split; [done|]. destruct (build_accepted Hn) as (d & r & _ & _ & H). destruct r as [[us un]|]; [|rewrite Ht in H; discriminate H].
      destruct H as [Hd H]. rewrite Ht in H. exists us. split; [exact (made_dawg_made es d us Hd)|]. pose proof (write_ok sort o es d us Hso Hh Hd) as Hw.
      destruct (has_guide o); [|rewrite Hw in H; by injection H]. destruct Hw as (g & Hg & Hw). exists g. split; [exact Hg|]. rewrite Hw in H. clear Hw Ht.
      destruct (o_index o); [|by injection H]. destruct (BuildIndex us g) as [[ix|]| |]; cbn [mbind res_bind] in H; try discriminate H. injection H as ->. by exists ix.
    - exfalso. rewrite build_rejected in Ht; [done|]. intros Hn. by apply Hf, all_true, all_accepted.
  Qed.
End build.

Lemma hist_ok_count h : hist_ok h -> N.of_nat (length (accepted h)) < two32.
Proof.
  intros [_ H]. unfold hist_size in H. assert (length (accepted h) <= length h)%nat.
  { unfold accepted. assert (E : forall h es, (length (spec_run es h).2 <= length es + length h)%nat); [|apply (E h [])]. clear. induction h as [|[k v] h IH]; intros es; cbn [spec_run]; [cbn; lia|].
    unfold spec_insert. destruct (last es) as [[k0 v0]|] eqn:El; cbn [fst].
    - assert (length (removelast es ++ [(k, v)]) = length es).
      { destruct es as [|e es] using rev_ind; [done|]. rewrite removelast_last, !app_length. done. }
      destruct (kcmp k0 k).
      + specialize (IH (removelast es ++ [(k, v)])). destruct (spec_run _ h). cbn [snd length] in *. lia.
      + specialize (IH (es ++ [(k, v)])). destruct (spec_run _ h). rewrite app_length in IH. cbn [snd length] in *. lia.
      + specialize (IH es). destruct (spec_run _ h). cbn [snd length] in *. lia.
    - specialize (IH [(k, v)]). destruct (spec_run _ h). cbn [snd length] in *. lia. }
  assert (length h <= sum_list_with (fun kv => S (length kv.1)) h)%nat by (clear; induction h as [|[k v] h IH]; cbn; lia).
  unfold two32. lia.
Qed.
(** Loading. *)
Section load.
  Context (h : list entry) (Hh : hist_ok h) (fuel : nat) (o : opts) (queries : list N) (Hq : Forall (query_ok h) (scan_lines queries)).
  Context (r : reader) (rest : list N).
  Lemma load_plain us : made h us -> has_guide o = false -> concat r = words_bytes us ++ rest ->
    cli_load fuel o r queries = if o_index o then Panic else Ok (Some (map (plain_answer (entries h)) (scan_lines queries), None)).
  Proof using Hh Hq.
    intros Hm Hg Hr. unfold has_guide in Hg. apply orb_false_iff in Hg as [Hg1 Hg2]. destruct (C31_dictionary us (C31_built h us Hh Hm)) as (_ & _ & R1). destruct (R1 [] r rest Hr) as (r1 & _ & E1 & _).
    unfold cli_load. rewrite E1. cbn [mbind res_bind]. rewrite Hg1, Hg2. cbn [mbind res_bind]. by rewrite (answers_plain_ok h us _ Hh Hm Hq).
  Qed.
  Lemma load_guide us g : made_guide h us g -> o_ranked o = false -> o_guide o = true -> 
    (o_index o = false -> concat r = words_bytes us ++ pairs_bytes g ++ rest) ->
    (o_index o = true -> exists ix, BuildIndex us g = Ok (Some ix) /\ concat r = words_bytes us ++ pairs_bytes g ++ words_bytes ix ++ rest) ->
    ((length (accepted h) < fuel)%nat -> ([] ∈ scan_lines queries -> ~ is_key h []) ->
       cli_load fuel o r queries = Ok (Some (map (guide_answer (o_index o) (entries h)) (scan_lines queries),
         if o_index o then Some (N.of_nat (length (accepted h)), map fst (entries h)) else None))) /\
    ([] ∈ scan_lines queries -> is_key h [] -> cli_load fuel o r queries = Hang).
  Proof using Hh Hq.
    intros Hm Hg1 Hg2 H0 H1. destruct (C32_built h us g [] Hh (or_introl Hm)) as (Hw & Hp & _).
    assert (exists ix rest', concat r = words_bytes us ++ pairs_bytes g ++ rest' /\ (o_index o = true -> exists ix', ix = Some ix' /\ BuildIndex us g = Ok (Some ix') /\ rest' = words_bytes ix' ++ rest) /\ (o_index o = false -> ix = None)) as (ix & rest' & Hr & Hix & Hno).
    { destruct (o_index o) eqn:E.
      - destruct (H1 eq_refl) as (ix & Hi & Hr). exists (Some ix), (words_bytes ix ++ rest). split; [done|]. split; [by exists ix|done].
      - exists None, rest. split; [by apply H0|]. done. }
    destruct (C31_dictionary us Hw) as (_ & _ & R1). destruct (R1 [] r _ Hr) as (r1 & _ & E1 & Hr1).
    destruct (C32_guide g Hp) as (_ & _ & R2). destruct (R2 [] r1 _ Hr1) as (r2 & _ & E2 & Hr2).
    assert (Hixm : match ix with Some ix => BuildIndex us g = Ok (Some ix) | None => True end).
    { destruct ix as [ix|]; [|done]. destruct (o_index o); [|by specialize (Hno eq_refl)]. destruct (Hix eq_refl) as (ix' & [= ->] & Hi & _). done. }
    assert (E3 : exists r3, (if o_index o then '(oi, r) ← ReadIndex r2; Ok (match oi with Some ix => Some (Some ix) | None => None end, r) else Ok (Some None, r2)) = Ok (Some ix, r3)).
    { destruct (o_index o).
      - destruct (Hix eq_refl) as (ix' & -> & Hi & ->). destruct (C32_built h us g ix' Hh (or_introl Hm)) as (_ & _ & Hwi). destruct (C32_index ix' (Hwi Hi)) as (_ & _ & R3).
        destruct (R3 [] r2 _ Hr2) as (r3 & _ & -> & _). by exists r3.
      - rewrite (Hno eq_refl). by exists r2. }
    destruct E3 as [r3 E3]. unfold cli_load. rewrite E1. cbn [mbind res_bind]. rewrite Hg1, Hg2, E2. cbn [mbind res_bind]. rewrite E3. cbn [mbind res_bind]. split.
    - intros Hfu Hk. rewrite (answers_guide_ok h us g Hh Hm fuel ix _ Hfu Hixm Hq Hk). cbn [mbind res_bind]. destruct ix as [ix|].
      + destruct (o_index o); [|by specialize (Hno eq_refl)]. destruct (decide (accepted h = [])) as [Ha|Ha].
        { exfalso. apply (C46_empty_index_panics h us g Hh Hm) in Ha. congruence. }
        destruct (C41_index_counts h us g Hh Hm Ha) as (ix' & Hi' & _ & Ht & _). rewrite Hixm in Hi'. injection Hi' as <-. rewrite Ht. cbn [mbind res_bind]. rewrite Nat2N.id.
        change 0 with (N.of_nat 0). rewrite (all_words_ok h us g Hh Hm ix Hixm _ 0); [done|lia|]. by apply hist_ok_count.
      + destruct (o_index o); [|done]. by destruct (Hix eq_refl) as (? & ? & _).
    - intros Hin Hk. by rewrite (answers_guide_hang h us g Hh Hm fuel ix _ Hixm Hq Hin Hk).
  Qed.
  Lemma load_ranked us g : made_default h us g -> o_ranked o = true -> o_index o = false -> concat r = words_bytes us ++ pairs_bytes g ++ rest -> (length (accepted h) < fuel)%nat ->
    exists l, cli_load fuel o r queries = Ok (Some (l, None)) /\ Forall2 (ranked_answer (entries h)) (scan_lines queries) l.
  Proof using Hh Hq.
    intros Hm Hg Hix Hr Hfu. destruct (C32_built h us g [] Hh (or_intror (ex_intro _ Z.ltb (proj1 (made_default_ranked h us g) Hm)))) as (Hw & Hp & _).
    destruct (C31_dictionary us Hw) as (_ & _ & R1). destruct (R1 [] r _ Hr) as (r1 & _ & E1 & Hr1).
    destruct (C32_ranked_guide g Hp) as (_ & _ & R2). destruct (R2 [] r1 _ Hr1) as (r2 & _ & E2 & Hr2).
    unfold cli_load. rewrite E1. cbn [mbind res_bind]. rewrite Hg, E2. cbn [mbind res_bind]. rewrite Hix. cbn [mbind res_bind].
    destruct (answers_ranked_ok h us g Hh Hm fuel _ Hfu Hq NewRankedCompleter) as (l & -> & Hl). by exists l.
  Qed.
End load.
