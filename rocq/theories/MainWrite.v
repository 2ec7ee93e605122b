(** Runs of dawgtool -b when writes can fail, compared with runs where they do not. *)
From Verif Require Import Go Utf8 Utfc Dawg Dict Guide Completer Index Ranked RankedCompleter Serial SerialProofs Cli Main MainSpec MainParse MainRun.
Local Open Scope N_scope.

(** The same machine with writes that take all bytes. *)
Definition reliable (m : machine) : machine :=
  mkM (m_lsort m) (m_sort m) (m_grow m) (m_calls m) (m_create m) (m_chunks m) (m_fails m) [] (m_texts m).

(** [w'] has more output than [w] and more in the file [dic]; other files agree. *)
Definition ext (dic : list N) (w w' : world) : Prop :=
  (exists t, w_out w' = w_out w ++ t) /\ (forall q, q <> dic -> w_fs w' q = w_fs w q) /\
  exists c x, w_fs w dic = Some c /\ w_fs w' dic = Some (c ++ x).

(** Errors are reported for writes that took less only. *)
Definition true_errors (a : list (nat * bool)) : Prop := Forall (fun x => x.2 = false) a.
Definition shorter (dic : list N) (w w' : world) : Prop := forall c c', w_fs w dic = Some c -> w_fs w' dic = Some c' -> (length c < length c')%nat.

Section sim.
  Context (dic : list N) (honest : Prop).
  Lemma ext_refl w c : w_fs w dic = Some c -> ext dic w w.
  Proof. intros H. split; [exists []; by rewrite app_nil_r|]. split; [done|]. exists c, []. by rewrite app_nil_r. Qed.
  Lemma ext_trans w1 w2 w3 : ext dic w1 w2 -> ext dic w2 w3 -> ext dic w1 w3.
  Proof.
    intros ((t & H1) & H2 & c & x & H3 & H4) ((t' & K1) & K2 & c' & x' & K3 & K4). split; [exists (t ++ t'); by rewrite K1, H1, app_assoc|].
    split; [intros q Hq; by rewrite K2, H2|]. rewrite H4 in K3. injection K3 as <-. exists c, (x ++ x'). by rewrite app_assoc.
  Qed.
  Lemma ext_some w w' : ext dic w w' -> exists c, w_fs w' dic = Some c.
  Proof. intros (_ & _ & c & x & _ & H). by exists (c ++ x). Qed.

  Definition grow {A} (p : prog A) : Prop := forall w c, w_fs w dic = Some c -> ext dic w (p w).1.
  Definition sim {A} (p1 p2 : prog A) : Prop := forall w c, w_fs w dic = Some c ->
    p1 w = p2 w \/ exists w1 err, p1 w = (w1, Exit 1 err) /\ ext dic w1 (p2 w).1 /\ (honest -> shorter dic w1 (p2 w).1).

  Lemma grow_ret {A} (a : A) : grow (ret a).
  Proof. intros w c H. exact (ext_refl w c H). Qed.
  Lemma grow_call {A} (r : res A) : grow (call r).
  Proof. intros w c H. exact (ext_refl w c H). Qed.
  Lemma grow_exit {A} n err : grow (@exit A n err).
  Proof. intros w c H. exact (ext_refl w c H). Qed.
  Lemma grow_read p : grow (read_file p).
  Proof. intros w c H. exact (ext_refl w c H). Qed.
  Lemma grow_print bs : grow (print bs).
  Proof. intros w c H. split; [by exists bs|]. split; [done|]. exists c, []. by rewrite app_nil_r. Qed.
  Lemma grow_bind {A B} (p : prog A) (k : A -> prog B) : grow p -> (forall a, grow (k a)) -> grow (bind p k).
  Proof.
    intros Hp Hk w c H. specialize (Hp w c H). unfold bind. destruct (p w) as [w' [a| | |]]; cbn [fst] in *; try done.
    destruct (ext_some _ _ Hp) as [c' Hc']. exact (ext_trans _ _ _ Hp (Hk a w' c' Hc')).
  Qed.
  Lemma sim_refl {A} (p : prog A) : sim p p.
  Proof. intros w c H. by left. Qed.
  Lemma sim_bind {A B} (p : prog A) (k1 k2 : A -> prog B) : grow p -> (forall a, sim (k1 a) (k2 a)) -> sim (bind p k1) (bind p k2).
  Proof.
    intros Hp Hk w c H. specialize (Hp w c H). unfold bind. destruct (p w) as [w' [a| | |]]; cbn [fst] in *; [|by left|by left|by left].
    destruct (ext_some _ _ Hp) as [c' Hc']. exact (Hk a w' c' Hc').
  Qed.

  (** Methods that append an image, or a part of it. *)
  Definition appends (f : writer -> bool * writer) : Prop := exists img, forall wr,
    (exists n, (f wr).2.1 = wr.1 ++ take n img) /\ ((f wr).1 = true -> (f wr).2.1 = wr.1 ++ img) /\ (forall bs, f (bs, []) = (true, (bs ++ img, []))) /\
    (true_errors wr.2 -> true_errors (f wr).2.2 /\ ((f wr).1 = false -> (length (f wr).2.1 < length wr.1 + length img)%nat)).
  Lemma appends_units {A} (put : A -> list N) l : appends (units_Write put l).
  Proof.
    exists (put32 (len32 l) ++ flat_map put l). intros wr. destruct (units_Write put l wr) as [b w'] eqn:E. split; [by eapply units_Write_prefix|]. split.
    - cbn [fst snd]. intros ->. exact (units_Write_true _ _ _ _ E).
    - split; [intros bs; unfold units_Write, io_Write; cbn [fst snd]; by rewrite <- app_assoc|]. intros Hw. split; [|cbn [fst snd]; intros ->; exact (units_Write_false _ _ _ _ Hw E)].
      unfold units_Write in E. destruct (io_Write wr _) as [[] w1] eqn:E1; pose proof (io_Write_rest _ _ _ _ Hw E1) as H1; [by injection E as <- <-|].
      destruct (io_Write w1 _) as [[] w2] eqn:E2; pose proof (io_Write_rest _ _ _ _ H1 E2) as H2; by injection E as <- <-.
  Qed.
  Lemma grow_write f answers : appends f -> grow (write_file dic f answers).
  Proof.
    intros (img & Hf) w c H. unfold write_file. rewrite H. destruct (Hf (c, answers)) as ((n & Hn) & _). destruct (f (c, answers)) as [ok wr]. cbn [fst snd] in *.
    split; [exists []; by rewrite app_nil_r|]. split; [intros q Hq; cbn; unfold put_file; by rewrite decide_False|]. exists c, (take n img). split; [done|]. cbn. unfold put_file. rewrite decide_True by done. by rewrite Hn.
  Qed.
  Lemma sim_write x msg f answers (k1 k2 : list (nat * bool) -> prog unit) : appends f -> (honest -> true_errors answers) -> (forall a, (honest -> true_errors a) -> sim (k1 a) (k2 [])) -> grow (k2 []) ->
    sim (do r := write_file dic f answers; if (r.1 : bool) then k1 r.2 else fatal x msg) (do r := write_file dic f []; if (r.1 : bool) then k2 r.2 else fatal x msg).
  Proof.
    intros Ha Hq Hk Hg w c H. pose proof (grow_write f [] Ha w c H) as Hw2. destruct Ha as (img & Hf). unfold bind, write_file in *. rewrite H in *. destruct (Hf (c, answers)) as ((n & Hn) & Ht & Hr & Hs). rewrite Hr in *. cbn [fst snd] in *.
    destruct (f (c, answers)) as [ok wr]. cbn [fst snd] in *.
    set (w2 := mkW (w_out w) (put_file dic (Some (c ++ img)) (w_fs w))) in *. assert (H2 : w_fs w2 dic = Some (c ++ img)) by (cbn; unfold put_file; by rewrite decide_True).
    destruct ok.
    - rewrite (Ht eq_refl). apply (Hk wr.2 (fun h => proj1 (Hs (Hq h))) w2 _ H2).
    - pose proof (Hg w2 _ H2) as Hg2. right. eexists _, _. split; [reflexivity|]. split.
      2: { intros h u y. cbn. unfold put_file. rewrite decide_True by done. intros [= <-] Hy. destruct Hg2 as (_ & _ & c2 & x2 & Hc2 & Hx2). rewrite H2 in Hc2. injection Hc2 as <-. rewrite Hx2 in Hy. injection Hy as <-.
        pose proof (proj2 (Hs (Hq h)) eq_refl). rewrite !app_length in *. lia. }
      apply (ext_trans _ w2); [|exact Hg2].
      split; [exists []; by rewrite app_nil_r|]. split; [intros q Hne; cbn; unfold put_file; by rewrite !decide_False|].
      exists (c ++ take n img), (drop n img). split; [cbn; unfold put_file; by rewrite decide_True, Hn|]. rewrite H2, <- app_assoc, take_drop. done.
  Qed.

  Context (m : machine) (s : settings) (lex : list N).
  Lemma grow_process b l : grow (process m s b l).
  Proof.
    unfold process. destruct l; [apply grow_ret|]. apply grow_bind.
    - destruct (o_tab _); [|apply grow_ret]. apply grow_bind; [apply grow_call|]. intros key. apply grow_bind; [apply grow_call|]. intros val. destruct (Atoi val); [|apply grow_exit].
      destruct (_ <? _)%Z; [apply grow_bind; [apply grow_print|intros; apply grow_ret]|]. destruct (_ <? _)%Z; [apply grow_bind; [apply grow_print|intros; apply grow_ret]|apply grow_ret].
    - intros kv. apply grow_bind; [apply grow_call|]. intros r. destruct r.1; [apply grow_ret|apply grow_exit].
  Qed.
  Lemma grow_process_all b n ls : grow (process_all m s b n ls).
  Proof.
    revert b n. induction ls as [|l ls IH]; intros b n; cbn [process_all]; [apply grow_ret|]. apply grow_bind; [apply grow_process|]. intros r.
    apply grow_bind; [destruct (_ && _); [apply grow_print|apply grow_ret]|]. intros _. apply IH.
  Qed.
  Lemma grow_index us g a : grow (build_index m s dic us g a).
  Proof.
    unfold build_index. destruct (negb _); [apply grow_ret|]. apply grow_bind; [apply grow_call|]. intros [ix|]; [|apply grow_exit].
    apply grow_bind; [apply grow_print|intros _]. apply grow_bind; [apply grow_print|intros _]. apply grow_bind; [apply grow_write, appends_units|]. intros r. destruct r.1; [apply grow_ret|apply grow_exit].
  Qed.
  Lemma sim_index us g a : (honest -> true_errors a) -> sim (build_index m s dic us g a) (build_index m s dic us g []).
  Proof.
    intros Ha. unfold build_index. destruct (negb _); [apply sim_refl|]. apply sim_bind; [apply grow_call|]. intros [ix|]; [|apply sim_refl].
    apply sim_bind; [apply grow_print|intros _]. apply sim_bind; [apply grow_print|intros _].
    apply (sim_write _ _ (index_Write ix) a (fun _ => ret tt) (fun _ => ret tt)); [apply appends_units|done|intros; apply sim_refl|apply grow_ret].
  Qed.
  Lemma guide_appends g : appends ((if o_ranked (s_opts s) then rguide_Write else guide_Write) g).
  Proof. destruct (o_ranked _); apply appends_units. Qed.
  Lemma grow_guide d us a : grow (build_guide m s dic d us a).
  Proof.
    unfold build_guide. destruct (negb _); [apply grow_ret|]. apply grow_bind; [apply grow_call|]. intros [g|]; [|apply grow_call].
    apply grow_bind; [apply grow_print|intros _]. apply grow_bind; [apply grow_print|intros _]. apply grow_bind; [apply grow_write, guide_appends|]. intros r. destruct r.1; [apply grow_index|apply grow_exit].
  Qed.
  Lemma sim_guide d us a : (honest -> true_errors a) -> sim (build_guide m s dic d us a) (build_guide (reliable m) s dic d us []).
  Proof.
    intros Ha. unfold build_guide. change (m_sort (reliable m)) with (m_sort m). destruct (negb _); [apply sim_refl|]. apply sim_bind; [apply grow_call|]. intros [g|]; [|apply sim_refl].
    apply sim_bind; [apply grow_print|intros _]. apply sim_bind; [apply grow_print|intros _].
    apply (sim_write _ _ _ a (build_index m s dic us g) (build_index m s dic us g)); [apply guide_appends|done|intros; by apply sim_index|apply grow_index].
  Qed.
  Lemma sim_build : (honest -> true_errors (m_answers m)) -> sim (handleBuild m s lex dic) (handleBuild (reliable m) s lex dic).
  Proof.
    intros Ha. unfold handleBuild. cbv zeta. apply sim_bind; [apply grow_read|]. intros f. apply sim_bind; [apply grow_call|]. intros ls. apply sim_bind; [apply grow_process_all|]. intros r. apply sim_bind; [apply grow_call|]. intros d.
    do 6 (apply sim_bind; [apply grow_print|intros _]). apply sim_bind; [apply grow_call|]. intros [[us unused]|]; [|apply sim_refl].
    do 3 (apply sim_bind; [apply grow_print|intros _]).
    apply (sim_write _ _ _ (m_answers m) (build_guide m s dic d.1 us) (build_guide (reliable m) s dic d.1 us)); [apply appends_units|done|intros; by apply sim_guide|].
    pose proof (grow_guide d.1 us []) as H. unfold build_guide in *. exact H.
  Qed.
  Lemma grow_build : grow (handleBuild m s lex dic).
  Proof.
    unfold handleBuild. cbv zeta. apply grow_bind; [apply grow_read|]. intros f. apply grow_bind; [apply grow_call|]. intros ls. apply grow_bind; [apply grow_process_all|]. intros r. apply grow_bind; [apply grow_call|]. intros d.
    do 6 (apply grow_bind; [apply grow_print|intros _]). apply grow_bind; [apply grow_call|]. intros [[us unused]|]; [|apply grow_exit].
    do 3 (apply grow_bind; [apply grow_print|intros _]). apply grow_bind; [apply grow_write, appends_units|]. intros x. destruct x.1; [apply grow_guide|apply grow_exit].
  Qed.
End sim.

Lemma load_reliable m fuel s lex dic : handleLoad (reliable m) fuel s lex dic = handleLoad m fuel s lex dic.
Proof. reflexivity. Qed.

Lemma run_reliable m fuel s lex dic w : run_at m fuel s lex dic w = run_at (reliable m) fuel s lex dic w \/ s_build s = true /\
  exists w1 err, run_at m fuel s lex dic w = (w1, Exit 1 err) /\ ext dic w1 (run_at (reliable m) fuel s lex dic w).1 /\ (true_errors (m_answers m) -> shorter dic w1 (run_at (reliable m) fuel s lex dic w).1).
Proof.
  unfold run_at, bind, read_file. destruct (w_fs w lex); [|by left]. destruct (s_build s); [|left; by rewrite load_reliable].
  unfold create. change (m_create (reliable m)) with (m_create m). destruct (m_create m dic); [|by left].
  destruct (sim_build dic (true_errors (m_answers m)) m s lex (fun h => h) (mkW (w_out w) (put_file dic (Some []) (w_fs w))) []) as [H|(w1 & err & H & He)]; [cbn; unfold put_file; by rewrite decide_True|by left|].
  right. split; [done|]. by exists w1, err.
Qed.
Lemma main_reliable m fuel args w : main m fuel args w = main (reliable m) fuel args w \/ exists sets ops, command_line args sets ops /\ switch 98 sets = true /\
  let dic := dictionary_path (chosen sets) ops in
  exists w1 err, main m fuel args w = (w1, Exit 1 err) /\ ext dic w1 (main (reliable m) fuel args w).1 /\ (true_errors (m_answers m) -> shorter dic w1 (main (reliable m) fuel args w).1).
Proof.
  destruct (parse (m_texts m) settings0 args) as [s ops|msg|] eqn:E; [|left; unfold main; cbv zeta; change (m_texts (reliable m)) with (m_texts m); by rewrite E|left; unfold main; cbv zeta; change (m_texts (reliable m)) with (m_texts m); by rewrite E].
  apply parse_iff in E as (sets & Hl & ->). rewrite !(main_line _ fuel args sets ops w Hl).
  destruct (run_reliable m fuel (chosen sets) (lexicon_path (chosen sets) ops) (dictionary_path (chosen sets) ops) w) as [H|[Hb H]]; [by left|]. right. by exists sets, ops.
Qed.
Lemma build_out m fuel args sets ops w : command_line args sets ops -> switch 98 sets = true -> exists t, w_out (main m fuel args w).1 = w_out w ++ t.
Proof.
  intros Hl Hb. rewrite (main_line _ fuel args sets ops w Hl). unfold run_at, bind, read_file. destruct (w_fs w _); [|exists []; by rewrite app_nil_r].
  change (s_build (chosen sets)) with (switch 98 sets). rewrite Hb. unfold create. destruct (m_create m _); [|exists []; by rewrite app_nil_r].
  set (w1 := mkW _ _). destruct (grow_build (dictionary_path (chosen sets) ops) m (chosen sets) (lexicon_path (chosen sets) ops) w1 []) as ((t & Ht) & _); [cbn; unfold put_file; by rewrite decide_True|]. by exists t.
Qed.
