(** Proofs about Main.v: what is printed while building, and the dictionary file. *)
From Coq Require Import String.
From Verif Require Import Go Utf8 Utfc Dawg DawgSpec Dict Guide Completer Index Ranked RankedCompleter Serial Cli CliSpec CliProofs Scanner ScannerSpec ScannerProofs Main MainSpec MainText.
Local Open Scope N_scope.
Local Arguments N.mul : simpl never.
Local Arguments N.add : simpl never.
Local Arguments N.of_nat : simpl never.

(** ** Lines *)
Definition note (o : opts) (l t : list N) : Prop := match l with [] => t = [] | _ => warned o l t end.
Lemma insert_sim m s b k v (R : bool * builder -> list N -> bool * builder -> Prop) : (forall b', R (true, b') [] (true, b')) ->
  let bytes := if o_utfc (s_opts s) then utfc_encode (runes k) else k in
  simo (do r := call (InsertKeyValue b bytes (Z.of_nat (List.length bytes)) v); if (r.1 : bool) then ret (true, r.2) else fatal (m_texts m) (str "error: failed to insert key: " ++ k ++ [10]))
    ('(ok, b) ← InsertKeyValue b bytes (Z.of_nat (List.length bytes)) v; Ok (if (ok : bool) then Some (true, b) else None)) R.
Proof. intros H bytes. apply simo_do. intros [[] b']; cbn [fst snd]; [by apply simo_ret|apply simo_fatal]. Qed.
Definition kv_prog (m : machine) (o : opts) (l : list N) : prog (list N * Z) :=
  if o_tab o then
    let parts := split_on 9 [] l in
    do key := call (get parts 0);
    do val := call (get parts 1);
    match Atoi val with
    | None => fatal (m_texts m) (Atoi_error (m_texts m) val)
    | Some value =>
        if (value <? 0)%Z then print (str "warning: negative value is replaced by 0: " ++ dec value ++ [10]);; ret (key, 0%Z)
        else if (MaxValue <? value)%Z then print (str "warning: too large value is replaced by " ++ dec MaxValue ++ [10]);; ret (key, MaxValue)
        else ret (key, value)
    end
  else ret (l, 0%Z).
Definition kv_res (o : opts) (line : list N) : res (option (list N * Z)) :=
  if o_tab o then
    let parts := split_on 9 [] line in
    key ← get parts 0;
    val ← get parts 1;
    Ok (match Atoi val with
        | None => None
        | Some value => Some (key, if (value <? 0)%Z then 0%Z else if (MaxValue <? value)%Z then MaxValue else value)
        end)
  else Ok (Some (line, 0%Z)).
Lemma kv_sim m o l : simo (kv_prog m o l) (kv_res o l) (fun a t b => b = a /\ warned o l t).
Proof.
  unfold kv_prog, kv_res, warned. destruct (o_tab o) eqn:Eo; [|by apply simo_ret].
  destruct (fields_cases l) as [[H9 E]|(k & v & rest & Hf & E)]; rewrite E; cbv zeta.
  - apply (simo_do (Ok l) _ (fun _ => Panic)). intros a. exists []. intros w. by rewrite same.
  - change (get (k :: v :: rest) 0) with (Ok k). change (get (k :: v :: rest) 1) with (Ok v). cbn [mbind res_bind].
    assert (P : forall (f : list N -> list N -> prog (list N * Z)) w, (do key := call (Ok k); do val := call (Ok v); f key val) w = f k v w) by done.
    assert (Q : forall (f : list N -> list N -> prog (list N * Z)) r (R : list N * Z -> list N -> list N * Z -> Prop), simo (f k v) r R -> simo (do key := call (Ok k); do val := call (Ok v); f key val) r R).
    { intros f r R. destruct r as [[a|]| |]; cbn [simo].
      - intros (t & b & H & HR). exists t, b. split; [|done]. intros w. by rewrite P.
      - intros (t & err & H). exists t, err. intros w. by rewrite P.
      - intros (t & H). exists t. intros w. by rewrite P.
      - intros (t & H). exists t. intros w. by rewrite P. }
    apply (Q (fun key val => match Atoi val with None => fatal (m_texts m) (Atoi_error (m_texts m) val) | Some value =>
        if (value <? 0)%Z then print (str "warning: negative value is replaced by 0: " ++ dec value ++ [10]);; ret (key, 0%Z)
        else if (MaxValue <? value)%Z then print (str "warning: too large value is replaced by " ++ dec MaxValue ++ [10]);; ret (key, MaxValue)
        else ret (key, value) end)). clear P Q.
    destruct (Atoi v) as [z|] eqn:Ez; [|apply simo_fatal]. apply Atoi_numeral in Ez as [Hz _].
    destruct (Z.ltb_spec z 0) as [H|H]; [|destruct (Z.ltb_spec MaxValue z) as [H1|H1]].
    + apply simo_print, simo_ret. split; [done|]. exists k, v, z. split; [done|]. split; [done|]. unfold warning. rewrite decide_True by done. by rewrite app_nil_r.
    + apply simo_print, simo_ret. split; [done|]. exists k, v, z. split; [done|]. split; [done|]. unfold warning, MaxValue in *. rewrite decide_False by lia. rewrite decide_True by done. by rewrite app_nil_r.
    + apply simo_ret. split; [done|]. exists k, v, z. split; [done|]. split; [done|]. unfold warning, MaxValue in *. rewrite decide_False by lia. by rewrite decide_False by lia.
Qed.
Lemma processLine_kv o b c l : processLine o b (c :: l) = (kv ← kv_res o (c :: l); match kv with None => Ok None | Some (key, v) =>
  let bytes := if o_utfc o then utfc_encode (runes key) else key in '(ok, b) ← InsertKeyValue b bytes (Z.of_nat (List.length bytes)) v; Ok (if (ok : bool) then Some (true, b) else None) end).
Proof. unfold processLine, line_entry. fold (kv_res o (c :: l)). by destruct (kv_res o (c :: l)) as [[[key v]|]| |]. Qed.
Lemma process_kv m s b c l : process m s b (c :: l) = (do kv := kv_prog m (s_opts s) (c :: l); let bytes := if o_utfc (s_opts s) then utfc_encode (runes kv.1) else kv.1 in
  do r := call (InsertKeyValue b bytes (Z.of_nat (List.length bytes)) kv.2); if (r.1 : bool) then ret (true, r.2) else fatal (m_texts m) (str "error: failed to insert key: " ++ kv.1 ++ [10])).
Proof. reflexivity. Qed.
Lemma process_sim m s b l : simo (process m s b l) (processLine (s_opts s) b l) (fun a t b' => b' = a /\ note (s_opts s) l t /\ a.1 = bool_decide (l <> [])).
Proof.
  destruct l as [|c l]; [apply simo_ret; done|]. rewrite process_kv, processLine_kv. apply (simo_bindo _ _ _ _ _ _ (kv_sim m (s_opts s) (c :: l))); [done|]. intros [k v] t kv' [-> Hw]. cbn [fst snd].
  apply insert_sim. intros b'. split; [done|]. by rewrite app_nil_r.
Qed.
(** ** The lexicon *)
Definition notes_from (o : opts) (n : nat) (lines : list (list N)) (text : list N) : Prop :=
  exists ws, Forall2 (warned o) (filter (fun l => l <> []) lines) ws /\ text = concat (imap (fun i t => t ++ progress (n + S i)) ws).
Lemma process_all_sim m s lines : forall b n, simo (process_all m s b (Z.of_nat n) lines) (insert_lines (s_opts s) b (Z.of_nat n) lines)
  (fun a t b' => b' = a /\ notes_from (s_opts s) n lines t /\ a.1 = Z.of_nat (n + length (filter (fun l => l <> []) lines))).
Proof.
  induction lines as [|l lines IH]; intros b n; cbn [process_all insert_lines].
  - apply simo_ret. split; [done|]. split; [exists []; split; [constructor|done]|]. cbn. by rewrite Nat.add_0_r.
  - apply (simo_bindo _ _ _ _ _ _ (process_sim m s b l)); [done|]. intros [counted b1] t r (-> & Hn & Hc). cbn [fst snd] in *. destruct l as [|c l].
    + cbn [note] in Hn. subst t counted. cbn [bool_decide]. change (bool_decide (([] : list N) <> [])) with false. cbn [andb].
      apply (simo_bind (ret tt) (Ok tt) (fun _ t _ => t = []) _ (fun _ => insert_lines (s_opts s) b1 (Z.of_nat n) lines)); [by apply sim_ret|]. intros [] t [] ->.
      apply (simo_mono _ _ _ _ (IH b1 n)). intros a t b' (-> & Hx & Ha). split; [done|]. unfold notes_from. rewrite filter_cons_False by (intros X; by apply X). by split.
    + assert (Hd : bool_decide (c :: l <> []) = true) by by apply bool_decide_eq_true_2. rewrite Hd in Hc. subst counted. cbn [andb].
      replace (Z.of_nat n + 1)%Z with (Z.of_nat (S n)) by lia.
      apply (simo_bind _ (Ok tt) (fun _ t _ => t = progress (S n)) _ (fun _ => insert_lines (s_opts s) b1 (Z.of_nat (S n)) lines)).
      { unfold progress, count_line. destruct (Z.eqb_spec (Z.of_nat (S n) mod 10000) 0) as [H|H].
        - rewrite decide_True by done. eexists _, tt. split; [apply says_print|]. done.
        - rewrite decide_False by done. by apply sim_ret. }
      intros [] t' [] ->. apply (simo_mono _ _ _ _ (IH b1 (S n))). intros a t2 b' (-> & (ws & Hf & ->) & Ha). split; [done|].
      rewrite filter_cons_True by done. split.
      * exists (t :: ws). rewrite filter_cons_True by done. split; [by constructor|]. rewrite imap_cons. cbn [concat]. replace (n + 1)%nat with (S n) by lia. rewrite <- !app_assoc. do 3 f_equal. apply imap_ext. intros i x _. cbn. do 2 f_equal. lia.
      * rewrite Ha. cbn [length]. f_equal. lia.
Qed.

(** ** The dictionary file *)
Definition outcome (dic : list N) (p : prog unit) (w : world) (r : list N * list N * ending unit) : Prop :=
  exists w', p w = (w', r.2) /\ after dic w r.1.1 r.1.2 w'.
Definition idx_run (m : machine) (o : opts) (us : dict) (g : guide) (wr : writer) : list N * list N * ending unit :=
  if negb (o_index o) then ([], wr.1, Ret tt) else
  match BuildIndex us g with
  | Ok (Some ix) => let '(ok, wr) := index_Write ix wr in (index_text (Z.of_nat (length ix)), wr.1, if (ok : bool) then Ret tt else Exit 1 (log_line m (str "error: failed to write Index")))
  | Ok None => ([], wr.1, Exit 1 (log_line m (str "error: failed to build Index")))
  | Panic => ([], wr.1, Crash)
  | Hang => ([], wr.1, Loops)
  end.
Definition guide_trouble (o : opts) : list N := if o_ranked o then str "error: failed to write RankedGuide" else str "error: failed to write Guide".
Lemma logged_line m msg : logged (m_texts m) (msg ++ [10]) = log_line m msg.
Proof. unfold logged, log_line. by rewrite last_snoc, app_nil_r. Qed.
Definition guide_run (m : machine) (o : opts) (d : dawg) (us : dict) (wr : writer) : list N * list N * ending unit :=
  if negb (o_ranked o || o_guide o) then ([], wr.1, Ret tt) else
  match (if o_ranked o then BuildRankedGuide (m_sort m) d us else BuildGuide d us) with
  | Ok (Some g) =>
      let '(ok, wr) := (if o_ranked o then rguide_Write else guide_Write) g wr in
      let text := guide_text (Z.of_nat (length g)) in
      if (ok : bool) then let '(t, c, e) := idx_run m o us g wr in (text ++ t, c, e) else (text, wr.1, Exit 1 (log_line m (guide_trouble o)))
  | Ok None => ([], wr.1, Crash)
  | Panic => ([], wr.1, Crash)
  | Hang => ([], wr.1, Loops)
  end.
Definition dict_run (m : machine) (o : opts) (d : dawg) (r : res (option (dict * N))) (wr : writer) : list N * list N * ending unit :=
  match r with
  | Ok (Some (us, unused)) =>
      let '(ok, wr) := dict_Write us wr in
      let size := Z.of_nat (length us) in
      let text := dict_text size unused (ratio unused size) in
      if (ok : bool) then let '(t, c, e) := guide_run m o d us wr in (text ++ t, c, e) else (text, wr.1, Exit 1 (log_line m (str "error: failed to write Dictionary")))
  | Ok None => ([], wr.1, Exit 1 (log_line m (str "error: failed to build dictionary")))
  | Panic => ([], wr.1, Crash)
  | Hang => ([], wr.1, Loops)
  end.
Lemma outcome_stop dic (p : prog unit) w bs e : w_fs w dic = Some bs -> p w = (w, e) -> outcome dic p w ([], bs, e).
Proof. intros Hw E. exists w. split; [done|]. split; [by rewrite app_nil_r|]. done. Qed.
Lemma outcome_print dic x p w t c e : outcome dic p (mkW (w_out w ++ x) (w_fs w)) (t, c, e) -> outcome dic (print x;; p) w (x ++ t, c, e).
Proof. intros (w' & E & H1 & H2 & H3). exists w'. split; [exact E|]. cbn [fst snd w_out w_fs] in *. split; [by rewrite H1, <- app_assoc|]. done. Qed.
Lemma outcome_write dic F answers (f : bool * list (nat * bool) -> prog unit) w bs t c e : w_fs w dic = Some bs ->
  (forall w1, w_out w1 = w_out w -> w_fs w1 dic = Some (F (bs, answers)).2.1 -> outcome dic (f ((F (bs, answers)).1, (F (bs, answers)).2.2)) w1 (t, c, e)) ->
  outcome dic (bind (write_file dic F answers) f) w (t, c, e).
Proof.
  intros Hw H. unfold outcome, bind, write_file. rewrite Hw. destruct (F (bs, answers)) as [ok wr]. cbn [fst snd] in *.
  destruct (H (mkW (w_out w) (put_file dic (Some wr.1) (w_fs w)))) as (w' & E & H1 & H2 & H3); [done|unfold put_file; cbn [w_fs]; by rewrite decide_True|].
  exists w'. split; [exact E|]. cbn [fst snd w_out w_fs] in *. split; [done|]. split; [done|]. intros q Hq. rewrite H3 by done. unfold put_file. by rewrite decide_False.
Qed.
Lemma outcome_eq dic p w r r' : r = r' -> outcome dic p w r -> outcome dic p w r'.
Proof. by intros ->. Qed.
Lemma text_eq dic p w t t' c e : t = t' -> outcome dic p w (t, c, e) -> outcome dic p w (t', c, e).
Proof. by intros ->. Qed.
Lemma index_outcome m s dic us g bs answers w : w_fs w dic = Some bs -> outcome dic (build_index m s dic us g answers) w (idx_run m (s_opts s) us g (bs, answers)).
Proof.
  intros Hw. unfold build_index, idx_run. destruct (o_index (s_opts s)); cbn [negb]; [|by apply outcome_stop].
  destruct (BuildIndex us g) as [[ix|]| |] eqn:E; try (by apply outcome_stop).
  change (outcome dic (print (str "no. index units: " ++ dec (Z.of_nat (length ix)) ++ [10]);; print (str "index size: " ++ dec (index_TotalSize ix) ++ [10]);;
    do r := write_file dic (index_Write ix) answers; if (r.1 : bool) then ret tt else fatal (m_texts m) (line "error: failed to write Index")) w (let '(ok, wr) := index_Write ix (bs, answers) in (index_text (Z.of_nat (length ix)), wr.1, if (ok : bool) then Ret tt else Exit 1 (log_line m (str "error: failed to write Index"))))).
  destruct (index_Write ix (bs, answers)) as [ok wr] eqn:EW.
  apply (text_eq dic _ w ((str "no. index units: " ++ dec (Z.of_nat (length ix)) ++ [10]) ++ (str "index size: " ++ dec (index_TotalSize ix) ++ [10]) ++ [])).
  { unfold index_text, count_line, index_TotalSize. rewrite app_nil_r. done. }
  apply outcome_print, outcome_print. apply (outcome_write dic _ _ _ _ bs); [done|]. rewrite EW. intros w1 Ho Hf. cbn [fst snd] in *. destruct ok; by apply outcome_stop.
Qed.
Lemma guide_outcome m s dic d us bs answers w : w_fs w dic = Some bs -> outcome dic (build_guide m s dic d us answers) w (guide_run m (s_opts s) d us (bs, answers)).
Proof.
  intros Hw. unfold build_guide, guide_run. destruct (o_ranked (s_opts s) || o_guide (s_opts s)); cbn [negb]; [|by apply outcome_stop].
  destruct (if o_ranked (s_opts s) then BuildRankedGuide (m_sort m) d us else BuildGuide d us) as [[g|]| |]; try (by apply outcome_stop).
  change (outcome dic (print (str "no. units: " ++ dec (Z.of_nat (length g)) ++ [10]);; print (str "guide size: " ++ dec (guide_TotalSize g) ++ [10]);;
    do r := write_file dic ((if o_ranked (s_opts s) then rguide_Write else guide_Write) g) answers; if (r.1 : bool) then build_index m s dic us g r.2 else fatal (m_texts m) (if o_ranked (s_opts s) then line "error: failed to write RankedGuide" else line "error: failed to write Guide")) w
    (let '(ok, wr) := (if o_ranked (s_opts s) then rguide_Write else guide_Write) g (bs, answers) in let text := guide_text (Z.of_nat (length g)) in
      if (ok : bool) then let '(t, c, e) := idx_run m (s_opts s) us g wr in (text ++ t, c, e) else (text, wr.1, Exit 1 (log_line m (guide_trouble (s_opts s)))))).
  destruct ((if o_ranked (s_opts s) then rguide_Write else guide_Write) g (bs, answers)) as [ok [c1 a1]] eqn:EW.
  assert (Ht : forall t c e, outcome dic (do r := write_file dic ((if o_ranked (s_opts s) then rguide_Write else guide_Write) g) answers; if (r.1 : bool) then build_index m s dic us g r.2 else fatal (m_texts m) (if o_ranked (s_opts s) then line "error: failed to write RankedGuide" else line "error: failed to write Guide"))
      (mkW ((w_out w ++ str "no. units: " ++ dec (Z.of_nat (length g)) ++ [10]) ++ str "guide size: " ++ dec (guide_TotalSize g) ++ [10]) (w_fs w)) (t, c, e) ->
    outcome dic (print (str "no. units: " ++ dec (Z.of_nat (length g)) ++ [10]);; print (str "guide size: " ++ dec (guide_TotalSize g) ++ [10]);;
      do r := write_file dic ((if o_ranked (s_opts s) then rguide_Write else guide_Write) g) answers; if (r.1 : bool) then build_index m s dic us g r.2 else fatal (m_texts m) (if o_ranked (s_opts s) then line "error: failed to write RankedGuide" else line "error: failed to write Guide")) w (guide_text (Z.of_nat (length g)) ++ t, c, e)).
  { intros t c e H. apply (text_eq dic _ w ((str "no. units: " ++ dec (Z.of_nat (length g)) ++ [10]) ++ (str "guide size: " ++ dec (guide_TotalSize g) ++ [10]) ++ t)).
    - unfold guide_text, count_line, guide_TotalSize. rewrite <- !app_assoc. reflexivity.
    - by apply outcome_print, outcome_print. }
  cbv zeta. destruct ok.
  - pose proof (fun w1 => index_outcome m s dic us g c1 a1 w1) as HI. destruct (idx_run m (s_opts s) us g (c1, a1)) as [[t c] e]. apply Ht. apply (outcome_write dic _ _ _ _ bs); [done|]. rewrite EW. intros w1 Ho Hf. cbn [fst snd] in *. by apply HI.
  - apply (text_eq dic _ w (guide_text (Z.of_nat (length g)) ++ [])); [by rewrite app_nil_r|]. apply Ht. apply (outcome_write dic _ _ _ _ bs); [done|]. rewrite EW. intros w1 Ho Hf. cbn [fst snd] in *. apply outcome_stop; [done|]. unfold fatal, exit, guide_trouble. by destruct (o_ranked (s_opts s)); rewrite logged_line.
Qed.
Lemma outcome_says {A} dic (p : prog A) (f : A -> prog unit) w t1 a t c e : says p t1 (Ret a) -> (forall w1, w_fs w1 = w_fs w -> outcome dic (f a) w1 (t, c, e)) -> outcome dic (bind p f) w (t1 ++ t, c, e).
Proof.
  intros Hp H. unfold outcome, bind. rewrite Hp. destruct (H (mkW (w_out w ++ t1) (w_fs w))) as (w' & E & H1 & H2 & H3); [done|]. exists w'. split; [exact E|]. cbn [fst snd w_out w_fs] in *.
  split; [by rewrite H1, <- app_assoc|]. done.
Qed.
Lemma outcome_ends {A} dic (p : prog A) (f : A -> prog unit) w bs t e e' : w_fs w dic = Some bs -> says p t e -> match e with Ret _ => False | Exit c err => e' = Exit c err | Crash => e' = Crash | Loops => e' = Loops end -> outcome dic (bind p f) w (t, bs, e').
Proof. intros Hw Hp He. exists (mkW (w_out w ++ t) (w_fs w)). split; [unfold bind; rewrite Hp; by destruct e; [|subst..]|]. done. Qed.
Definition rest_of_build (m : machine) (s : settings) (dic : list N) (n : Z) (d : dawg) (r : res (option (dict * N))) : prog unit :=
    print (str "no. keys: " ++ dec n ++ [10]);;
    print (str "no. states: " ++ decN (d_states d) ++ [10]);;
    print (str "no. transitions: " ++ dec (dawg_transitions d) ++ [10]);;
    print (str "no. merged states: " ++ dec (d_mergedStates d) ++ [10]);;
    print (str "no. merging states: " ++ decN (d_merging d) ++ [10]);;
    print (str "no. merged transitions: " ++ decN (d_mergedTrans d) ++ [10]);;
    do od := call r;
    match od with
    | None => fatal (m_texts m) (line "error: failed to build dictionary")
    | Some (us, unused) =>
        print (str "no. elements: " ++ dec (Z.of_nat (List.length us)) ++ [10]);;
        print (str "no. unused elements: " ++ decN unused ++ str " (" ++ ratio unused (Z.of_nat (List.length us)) ++ str "%)" ++ [10]);;
        print (str "dictionary size: " ++ dec (dict_TotalSize us) ++ [10]);;
        do r := write_file dic (dict_Write us) (m_answers m);
        if (r.1 : bool) then build_guide m s dic d us r.2 else fatal (m_texts m) (str "error: failed to write Dictionary")
    end.
Lemma rest_outcome m s dic n d r w : w_fs w dic = Some [] -> forall t c e, dict_run m (s_opts s) d r ([], m_answers m) = (t, c, e) -> outcome dic (rest_of_build m s dic n d r) w (dawg_text n d ++ t, c, e).
Proof.
  intros Hw t c e HD. unfold rest_of_build.
  apply (text_eq dic _ w ((str "no. keys: " ++ dec n ++ [10]) ++ (str "no. states: " ++ decN (d_states d) ++ [10]) ++ (str "no. transitions: " ++ dec (dawg_transitions d) ++ [10]) ++
    (str "no. merged states: " ++ dec (d_mergedStates d) ++ [10]) ++ (str "no. merging states: " ++ decN (d_merging d) ++ [10]) ++ (str "no. merged transitions: " ++ decN (d_mergedTrans d) ++ [10]) ++ t)).
  { unfold dawg_text, count_line. rewrite <- !app_assoc. reflexivity. }
  do 6 apply outcome_print. set (W := mkW _ _). assert (HW : w_fs W dic = Some []) by exact Hw. clearbody W. clear Hw w.
  destruct r as [[[us unused]|]| |]; cbn [dict_run] in HD; try (injection HD as <- <- <-; by apply outcome_stop).
  apply (outcome_says dic (call (Ok (Some (us, unused)))) _ W [] (Some (us, unused))); [apply (says_call (Ok _))|]. intros w1 E1. assert (H1 : w_fs w1 dic = Some []) by (by rewrite E1). clear E1.
  assert (HT : forall t c e, (forall w2, w_fs w2 dic = Some (dict_Write us ([], m_answers m)).2.1 -> outcome dic (if (dict_Write us ([], m_answers m)).1 then build_guide m s dic d us (dict_Write us ([], m_answers m)).2.2 else fatal (m_texts m) (str "error: failed to write Dictionary")) w2 (t, c, e)) ->
    outcome dic (print (str "no. elements: " ++ dec (Z.of_nat (List.length us)) ++ [10]);; print (str "no. unused elements: " ++ decN unused ++ str " (" ++ ratio unused (Z.of_nat (List.length us)) ++ str "%)" ++ [10]);;
        print (str "dictionary size: " ++ dec (dict_TotalSize us) ++ [10]);; do r := write_file dic (dict_Write us) (m_answers m); if (r.1 : bool) then build_guide m s dic d us r.2 else fatal (m_texts m) (str "error: failed to write Dictionary")) w1
      (dict_text (Z.of_nat (length us)) unused (ratio unused (Z.of_nat (length us))) ++ t, c, e)).
  { intros t' c' e' H.
    apply (text_eq dic _ w1 ((str "no. elements: " ++ dec (Z.of_nat (List.length us)) ++ [10]) ++ (str "no. unused elements: " ++ decN unused ++ str " (" ++ ratio unused (Z.of_nat (List.length us)) ++ str "%)" ++ [10]) ++
      (str "dictionary size: " ++ dec (dict_TotalSize us) ++ [10]) ++ t')).
    { unfold dict_text, count_line, dict_TotalSize. rewrite <- !app_assoc. reflexivity. }
    do 3 apply outcome_print. apply (outcome_write dic _ _ _ _ []); [exact H1|]. intros w2 _ H2. by apply H. }
  destruct (dict_Write us ([], m_answers m)) as [ok [c1 a1]] eqn:EW. cbn [fst snd] in *. destruct ok.
  - pose proof (fun w2 => guide_outcome m s dic d us c1 a1 w2) as HG. destruct (guide_run m (s_opts s) d us (c1, a1)) as [[t1 c2] e1]. injection HD as <- <- <-. apply HT. intros w2 H2. by apply HG.
  - injection HD as <- <- <-. apply (text_eq dic _ w1 (dict_text (Z.of_nat (length us)) unused (ratio unused (Z.of_nat (length us))) ++ [])); [by rewrite app_nil_r|]. apply HT. intros w2 H2. by apply outcome_stop.
Qed.
Lemma build_outcome m s lex dic w lexicon : w_fs w dic = Some [] -> delivers (m_chunks m lex (default [] (w_fs w lex))) lexicon ->
  match insert_lines (s_opts s) NewDawgBuilder 0 (the_lines m (s_opts s) lexicon) with
  | Ok (Some (n, b)) => exists tn, notes (s_opts s) (the_lines m (s_opts s) lexicon) tn /\ n = Z.of_nat (length (filter (fun l => l <> []) (the_lines m (s_opts s) lexicon))) /\
      match Finish b NewDawg with
      | Ok (d, _) => forall r t c e, dict_BuildWithUnused d = r -> dict_run m (s_opts s) d r ([], m_answers m) = (t, c, e) -> outcome dic (handleBuild m s lex dic) w (tn ++ dawg_text n d ++ t, c, e)
      | Panic => outcome dic (handleBuild m s lex dic) w (tn, [], Crash)
      | Hang => outcome dic (handleBuild m s lex dic) w (tn, [], Loops)
      end
  | Ok None => exists t err, outcome dic (handleBuild m s lex dic) w (t, [], Exit 1 err)
  | Panic => exists t, outcome dic (handleBuild m s lex dic) w (t, [], Crash)
  | Hang => exists t, outcome dic (handleBuild m s lex dic) w (t, [], Loops)
  end.
Proof.
  intros Hw Hlex. unfold handleBuild. pose proof (process_all_sim m s (the_lines m (s_opts s) lexicon) NewDawgBuilder 0) as S. change (Z.of_nat 0) with 0%Z in S.
  assert (K : forall (f : Z * builder -> prog unit) r, outcome dic (bind (process_all m s NewDawgBuilder 0 (the_lines m (s_opts s) lexicon)) f) w r ->
    outcome dic (do f0 := read_file lex; do ls := scan_file m lex (default [] f0); do x := process_all m s NewDawgBuilder 0 (if o_sort (s_opts s) then m_lsort m (line_less (m_grow m) (m_calls m) (s_opts s)) ls else ls); f x) w r).
  { intros f r H. unfold outcome, bind at 1 2, read_file, scan_file. rewrite (delivers_scanned _ _ _ Hlex). exact H. }
  destruct (insert_lines (s_opts s) NewDawgBuilder 0 (the_lines m (s_opts s) lexicon)) as [[[n b]|]| |]; cbn [simo] in S.
  - destruct S as (tn & nb & Hs & -> & (ws & Hf & Ht) & Hn). exists tn. split; [exists ws; by split|]. split; [exact Hn|]. cbn [fst snd] in *.
    destruct (Finish b NewDawg) as [[d b']| |] eqn:EF.
    + intros r t c e Hr HD. apply K. apply (outcome_says dic _ _ w tn (n, b)); [exact Hs|]. intros w1 E1. cbn [fst snd]. rewrite EF.
      apply (outcome_says dic (call (Ok (d, b'))) _ w1 [] (d, b')); [apply (says_call (Ok _))|]. intros w2 E2. cbn [fst snd]. rewrite Hr. apply (rest_outcome m s dic n d r w2); [by rewrite E2, E1|exact HD].
    + apply K. apply (text_eq dic _ w (tn ++ [])); [by rewrite app_nil_r|]. apply (outcome_says dic _ _ w tn (n, b)); [exact Hs|]. intros w1 E1. cbn [fst snd]. rewrite EF. apply outcome_stop; [by rewrite E1|done].
    + apply K. apply (text_eq dic _ w (tn ++ [])); [by rewrite app_nil_r|]. apply (outcome_says dic _ _ w tn (n, b)); [exact Hs|]. intros w1 E1. cbn [fst snd]. rewrite EF. apply outcome_stop; [by rewrite E1|done].
  - destruct S as (t & err & Hs). exists t, err. apply K. by apply (outcome_ends dic _ _ w [] t (Exit 1 err)).
  - destruct S as (t & Hs). exists t. apply K. by apply (outcome_ends dic _ _ w [] t Crash).
  - destruct S as (t & Hs). exists t. apply K. by apply (outcome_ends dic _ _ w [] t Loops).
Qed.
