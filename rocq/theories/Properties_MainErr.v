(** Property C114 of cmd/dawgtool/main.go: what is written to standard error (also
    C114_cut in Properties_MainWrite.v and C87 in Properties_Main.v). *)
From Coq Require Import String.
From Verif Require Import Go Utf8 Utf8Proofs Utf8Range Dawg DawgSpec DawgAbs Dict DictSpec Guide GuideSpec Index Ranked RankedSpec RankedProofs RankedIndexSpec Serial SerialProofs Cli CliSpec CliProofs Scanner ScannerSpec ScannerProofs CliFile CliSort
  DawgCanon Properties_Dict Properties_Serial Properties_Ranked Properties_Cli Main MainSpec MainParse MainText MainBuild MainRun MainWrite Properties_Main.
Local Open Scope N_scope.
Local Arguments N.mul : simpl never.
Local Arguments N.add : simpl never.
Local Arguments N.of_nat : simpl never.

(** ** Command lines that cannot be read *)
(** Every line can be read, asks for help or has a fault; never two of them, and the fault
    has one message. *)
Theorem C114_lines t args : (exists sets ops, command_line args sets ops) \/ help_line args \/ exists msg, fault_line t args msg.
Proof.
  destruct (parse t settings0 args) as [s rest|msg|] eqn:E.
  - left. apply parse_iff in E as (sets & H & _). by exists sets, rest.
  - right. right. exists msg. by apply fault_iff.
  - right. left. by apply (help_iff t).
Qed.
Print Assumptions C114_lines.
Theorem C114_one_fault t args msg : fault_line t args msg -> ~ help_line args /\ (forall sets ops, ~ command_line args sets ops) /\ forall msg', fault_line t args msg' -> msg' = msg.
Proof.
  intros H%fault_iff. split; [intros K%(help_iff t); congruence|]. split.
  - intros sets ops Hl. assert (parse t settings0 args = PDone (chosen sets) ops) by (apply parse_iff; by exists sets). congruence.
  - intros msg' K%fault_iff. congruence.
Qed.
Print Assumptions C114_one_fault.
Theorem C114_refused m fuel args w :
  (help_line args -> main m fuel args w = (w, Exit 0 (usage (m_texts m)))) /\
  (forall msg, fault_line (m_texts m) args msg -> main m fuel args w = (w, Exit 2 (msg ++ [10] ++ usage (m_texts m)))).
Proof. unfold main. split; [intros H%(help_iff (m_texts m))|intros msg H%fault_iff]; by rewrite H. Qed.
Print Assumptions C114_refused.
Example C114_usage : usage t0 = str "Usage of dawgtool:" ++ [10] ++ concat (map (fun s => map (fun c => if c =? 126 then 9 else c) (str s) ++ [10])
  ["  -b~build dictionary"; "  -d string"; "    ~dictionary file (default ""-"")"; "  -g~build/load dictionary with guide"; "  -i~build/load dictionary with indices";
   "  -l string"; "    ~lexicon file (default ""-"")"; "  -r~build/load dictionary with ranked guide"; "  -s~sort lexicon before building dict"; "  -t~handle tab as separator";
   "  -u~use utf-c instead of utf-8 for encoding keys"]%string).
Proof. vm_compute. reflexivity. Qed.
Example C114_faults : let says (args : list string) (msg : string) := parse t0 settings0 (map str args) = PBad (str msg) in
  (says ["-b"; "---g"] "bad flag syntax: ---g" /\ says ["-=b"] "bad flag syntax: -=b" /\ says ["-bt"] "flag provided but not defined: -bt" /\ says ["-t=1"; "--x=y"] "flag provided but not defined: -x" /\
  says ["-g=yes"] "invalid boolean value ""yes"" for -g: parse error" /\ says ["-b"; "-l"] "flag needs an argument: -l")%string.
Proof. vm_compute. repeat split. Qed.

(** ** Files that cannot be opened or created *)
Theorem C114_no_file m fuel args sets ops w : command_line args sets ops ->
  let lex := lexicon_path (chosen sets) ops in let dic := dictionary_path (chosen sets) ops in
  (forall p, last (t_open (m_texts m) p) <> Some 10 /\ last (t_create (m_texts m) p) <> Some 10) ->
  (w_fs w lex = None -> main m fuel args w = (w, Exit 1 (log_line m (str "open " ++ lex ++ str ": " ++ t_open (m_texts m) lex)))) /\
  (w_fs w lex <> None -> switch 98 sets = true -> m_create m dic = false -> main m fuel args w = (w, Exit 1 (log_line m (str "open " ++ dic ++ str ": " ++ t_create (m_texts m) dic)))) /\
  (w_fs w lex <> None -> switch 98 sets = false -> w_fs w dic = None -> main m fuel args w = (w, Exit 1 (log_line m (str "open " ++ dic ++ str ": " ++ t_open (m_texts m) dic)))).
Proof.
  intros Hl lex dic Ht. assert (L : forall p r, last r <> Some 10 -> logged (m_texts m) (open_error p r) = log_line m (str "open " ++ p ++ str ": " ++ r)).
  { intros p r Hr. unfold logged, log_line, open_error. do 2 f_equal. change (str ": ") with [58; 32]. destruct r as [|x r _] using rev_ind; [by rewrite !app_assoc, (last_snoc (_ ++ _) 32) || (replace (str "open " ++ p ++ [58; 32] ++ []) with ((str "open " ++ p ++ [58]) ++ [32]) by (by rewrite <- !app_assoc); by rewrite last_snoc)|].
    rewrite last_snoc in Hr. replace (str "open " ++ p ++ [58; 32] ++ r ++ [x]) with ((str "open " ++ p ++ [58; 32] ++ r) ++ [x]) by (by rewrite <- !app_assoc). rewrite last_snoc. destruct (N.eq_dec x 10) as [->|Hx]; [done|]. clear -Hx. destruct x as [|x]; [done|]. repeat (destruct x as [x|x|]; try done). }
  rewrite (main_line m fuel args sets ops w Hl). fold lex dic. unfold run_at, bind, read_file. change (s_build (chosen sets)) with (switch 98 sets). split; [|split].
  - intros ->. unfold fatal, exit. by rewrite L by apply Ht.
  - intros H1 -> H2. destruct (w_fs w lex); [|done]. unfold create. rewrite H2. unfold fatal, exit. by rewrite L by apply Ht.
  - intros H1 -> H2. destruct (w_fs w lex); [|done]. rewrite H2. unfold fatal, exit. by rewrite L by apply Ht.
Qed.
Print Assumptions C114_no_file.
Example C114_no_file_case : let run args := (main m0 0 (map str args) w0).2 in
  run ["-b"; "nothing"; "dic"]%string = Exit 1 (line "2009/11/10 23:00:00 open nothing: no such file or directory") /\ run ["lex"]%string = Exit 1 (line "2009/11/10 23:00:00 open -: no such file or directory").
Proof. vm_compute. repeat split. Qed.

(** ** Writes that fail *)
Lemma part_written {A} (put : A -> list N) bytes (l : list A) wr : put32 (len32 l) ++ flat_map put l = bytes -> let '(ok, wr') := units_Write put l wr in
  if ok then wr'.1 = wr.1 ++ bytes else exists p, p `prefix_of` bytes /\ wr'.1 = wr.1 ++ p.
Proof.
  intros Hb. destruct (units_Write put l wr) as [ok wr'] eqn:E. destruct ok; [rewrite <- Hb; exact (units_Write_true put l wr wr' E)|].
  destruct (units_Write_prefix put l wr false wr' E) as [n Hn]. exists (take n bytes). split; [exists (drop n bytes); symmetry; apply take_drop|]. by rewrite Hn, <- Hb.
Qed.
(** The message names the part that could not be written; the parts before it are there. *)
Inductive cut_at (o : opts) (es : list entry) (file : list N) : string -> Prop :=
| cut_dictionary us : made es us -> file `prefix_of` words_bytes us -> cut_at o es file "Dictionary"
| cut_guide us g p : made es us -> has_guide o = true -> guide_made_by o es us g -> p `prefix_of` pairs_bytes g -> file = words_bytes us ++ p -> cut_at o es file (if o_ranked o then "RankedGuide" else "Guide")
| cut_index us g ix p : made es us -> has_guide o = true -> o_index o = true -> guide_made_by o es us g -> BuildIndex us g = Ok (Some ix) -> p `prefix_of` words_bytes ix -> file = words_bytes us ++ pairs_bytes g ++ p -> cut_at o es file "Index".
Section build.
  Context (m : machine) (fuel : nat) (args : list (list N)) (sets : list setting) (ops : list (list N)) (w : world).
  Context (Hl : command_line args sets ops) (Hb : switch 98 sets = true) (Hm : builds_ok (reliable m)).
  Notation o := (s_opts (chosen sets)).
  Notation lex := (lexicon_path (chosen sets) ops).
  Notation dic := (dictionary_path (chosen sets) ops).
  Context (Hc : m_create m dic = true) (lexicon : list N) (Hlex : read_as m w lex dic lexicon).
  Context (es : list entry) (Hes : lines_entries o (the_lines m o lexicon) es) (Hh : hist_ok es).
  Theorem C114_write : nondecreasing es -> (exists L, enumerates L (key_prefix es) /\ N.of_nat (length L) < 2097152) -> (has_guide o = true -> o_index o = true -> accepted es <> []) ->
    exists w' t file e, main m fuel args w = (w', e) /\ after dic w t file w' /\
      (e = Ret tt /\ file_is o es file \/ exists part, e = Exit 1 (log_line m (str "error: failed to write " ++ str part)) /\ cut_at o es file part).
  Proof using Hl Hb Hm Hc Hlex Hes Hh.
    intros Hn HL Hi. destruct (run_from m fuel args sets ops w Hl Hb Hc lexicon Hlex) as (w1 & E & H1 & H2 & H3 & H4). destruct Hm as (_ & Hso & _).
    destruct (built_any m (chosen sets) lex dic w1 lexicon es H2 H4 Hes Hh Hn) as (d & r & tn & Hd & Hr & Ht & Ho).
    assert (exists us unused, r = Some (us, unused)) as (us & unused & ->).
    { destruct HL as (L & HL & Hlen). assert (Hsz : size_ok 256) by (split; reflexivity || discriminate). destruct (C27_build_succeeds 256 es NewDawg Hsz Hh) as (r' & Hr' & Hne & _). specialize (Hne L HL Hlen). unfold build_dict in Hr'. pose proof (dict_shape _ _ _ _ _ Hd Hr') as Hr2. rewrite Hr in Hr2. injection Hr2 as <-.
      destruct r as [[us unused]|]; [by exists us, unused|contradiction Hne; reflexivity]. }
    assert (Hmd : made_dawg es d us) by (exists 256%Z, NewDawg, (results es), unused; split; [split; reflexivity || discriminate|exact (conj Hd Hr)]).
    destruct (guide_ok m o es d us Hso Hh Hmd) as (g & Hg & Hmg). pose proof (made_dawg_made es d us Hmd) as Hmade. clear Hd Hr Hmd.
    destruct (dict_run m o d (Ok (Some (us, unused))) ([], m_answers m)) as [[t c] e] eqn:ER. destruct Ho as (w' & Er & Ha). cbn [fst snd] in *.
    exists w', (tn ++ dawg_text (Z.of_nat (length es)) d ++ t), c, e. split; [by rewrite E|]. split; [by apply (after_create dic w w1)|]. clear Er Ha E H1 H2 H3 H4.
    assert (Hwp : words us /\ pairs g /\ forall ix, BuildIndex us g = Ok (Some ix) -> words ix).
    { assert (Hor : made_guide es us g \/ exists cmp, made_ranked cmp es us g).
      { unfold guide_made_by in Hmg. destruct (o_ranked _); [right; exists Z.ltb; exact (proj1 (made_default_ranked es us g) Hmg)|by left]. }
      destruct (C32_built es us g [] Hh Hor) as (A & B & _). split; [done|]. split; [done|]. intros ix. exact (proj2 (proj2 (C32_built es us g ix Hh Hor))). }
    destruct Hwp as (Hw1 & Hw2 & Hw3). cbn [dict_run] in ER. revert ER. generalize (dict_text (Z.of_nat (length us)) unused (ratio unused (Z.of_nat (length us)))) as T. intros T ER.
    pose proof (part_written put32 (words_bytes us) us ([], m_answers m) (words_image us Hw1)) as P1. fold dict_Write in P1. destruct (dict_Write us ([], m_answers m)) as [ok1 [c1 a1]]. cbn [fst app] in P1. destruct ok1.
    2: { injection ER as <- <- <-. right. exists "Dictionary"%string. split; [done|]. destruct P1 as (p & Hp & ->). by apply (cut_dictionary _ _ _ us). }
    subst c1. destruct (guide_run m o d us (words_bytes us, a1)) as [[t1 c1] e1] eqn:EG. injection ER as <- <- <-. unfold guide_run in EG. unfold file_is. change (o_ranked o || o_guide o) with (has_guide o) in EG. destruct (has_guide o) eqn:Eg; cbn [negb] in EG.
    2: { injection EG as <- <- <-. left. split; [done|]. by exists us. }
    rewrite Hg in EG.
    assert (P2 : let '(ok, wr') := (if o_ranked o then rguide_Write else guide_Write) g (words_bytes us, a1) in if (ok : bool) then wr'.1 = words_bytes us ++ pairs_bytes g else exists p, p `prefix_of` pairs_bytes g /\ wr'.1 = words_bytes us ++ p).
    { pose proof (part_written putgu (pairs_bytes g) g (words_bytes us, a1) (pairs_image g Hw2)) as P2. destruct (o_ranked o); exact P2. }
    destruct ((if o_ranked o then rguide_Write else guide_Write) g (words_bytes us, a1)) as [ok2 [c2 a2]]. cbn [fst] in P2. destruct ok2.
    2: { injection EG as <- <- <-. right. destruct P2 as (p & Hp & ->). exists (if o_ranked o then "RankedGuide" else "Guide")%string. split; [transitivity (@Exit unit 1 (log_line m (guide_trouble o))); [reflexivity|]; unfold guide_trouble; destruct (o_ranked o); reflexivity|]. by apply (cut_guide _ _ _ us g p). }
    subst c2. destruct (idx_run m o us g (words_bytes us ++ pairs_bytes g, a2)) as [[t2 c2] e2] eqn:EI. injection EG as <- <- <-. unfold idx_run in EI. destruct (o_index o) eqn:Ei; cbn [negb] in EI.
    2: { injection EI as <- <- <-. left. split; [done|]. exists us. split; [done|]. by exists g. }
    pose proof (index_made o es us g Hh Hmg) as Hix. rewrite decide_False in Hix by (by apply Hi). destruct Hix as [ix Hix]. rewrite Hix in EI.
    pose proof (part_written put32 (words_bytes ix) ix (words_bytes us ++ pairs_bytes g, a2) (words_image ix (Hw3 ix Hix))) as P3. fold index_Write in P3. destruct (index_Write ix (words_bytes us ++ pairs_bytes g, a2)) as [ok3 [c3 a3]]. cbn [fst] in P3. injection EI as <- <- <-. destruct ok3.
    - left. split; [done|]. exists us. split; [done|]. exists g. split; [done|]. exists ix. split; [done|]. by rewrite P3, <- app_assoc.
    - right. destruct P3 as (p & Hp & ->). exists "Index"%string. split; [done|]. apply (cut_index _ _ _ us g ix p); try done. by rewrite <- app_assoc.
  Qed.
End build.
Print Assumptions C114_write.
(** The run of C97_case: the second write of the dictionary, of the guide, of the index. *)
Example C114_write_case : let run a := let m := mkM (m_lsort m0) (m_sort m0) (m_grow m0) (m_calls m0) (m_create m0) (m_chunks m0) (m_fails m0) a t0 in
    let '(w', e) := main m 0 (map str ["-b"; "-t"; "-s"; "-g"; "-i"; "lex"; "dic"]%string) w0 in (match w_fs w' (str "dic") with Some file => length file | None => O end, e) in
  run [(4, false); (7, false)]%nat = (11%nat, Exit 1 (line "2009/11/10 23:00:00 error: failed to write Dictionary")) /\
  run [(4, false); (1024, false); (4, false); (0, false)]%nat = (1032%nat, Exit 1 (line "2009/11/10 23:00:00 error: failed to write Guide")) /\
  run [(4, false); (1024, false); (4, false); (512, false); (3, false)]%nat = (1547%nat, Exit 1 (line "2009/11/10 23:00:00 error: failed to write Index")).
Proof. vm_compute. repeat split. Qed.

(** ** Quotation (strconv.Quote).  [stands_for q s]: the text [q] between quotation marks
    stands for the bytes [s]. *)
Definition hex_digit (c v : N) : Prop := 48 <= c <= 57 /\ v = c - 48 \/ 97 <= c <= 102 /\ v = c - 87.
Inductive hex_number : list N -> N -> Prop :=
| hex_none : hex_number [] 0
| hex_more h c x v : hex_number h x -> hex_digit c v -> hex_number (h ++ [c]) (16 * x + v).
Definition visible (b : N) : Prop := 32 <= b /\ b <> 127.
Inductive stands_for : list N -> list N -> Prop :=
| sf_end : stands_for [] []
| sf_byte b q s : visible b -> b <> 34 -> b <> 92 -> stands_for q s -> stands_for (b :: q) (b :: s)
| sf_letter c b q s : (c, b) ∈ [(34, 34); (92, 92); (97, 7); (98, 8); (102, 12); (110, 10); (114, 13); (116, 9); (118, 11)] -> stands_for q s -> stands_for (92 :: c :: q) (b :: s)
| sf_byte_hex h b q s : length h = 2%nat -> hex_number h b -> stands_for q s -> stands_for (str "\x" ++ h ++ q) (b :: s)
| sf_char4 h c q s : length h = 4%nat -> hex_number h c -> stands_for q s -> stands_for (str "\u" ++ h ++ q) (utf8_rune (Z.of_N c) ++ s)
| sf_char8 h c q s : length h = 8%nat -> hex_number h c -> stands_for q s -> stands_for (str "\U" ++ h ++ q) (utf8_rune (Z.of_N c) ++ s).
Lemma hex_length n : forall x, length (hex n x) = n.
Proof. induction n as [|n IH]; intros x; cbn [hex]; [done|]. rewrite app_length, IH. cbn [length]. lia. Qed.
Lemma hex_is n : forall x, x < 16 ^ N.of_nat n -> hex_number (hex n x) x.
Proof.
  induction n as [|n IH]; intros x Hx; cbn [hex]; [assert (x = 0) as -> by (change (16 ^ N.of_nat 0) with 1 in Hx; lia); constructor|].
  rewrite Nat2N.inj_succ, N.pow_succ_r' in Hx. set (c := let d := x mod 16 in if d <? 10 then 48 + d else 87 + d). assert (K : hex_number (hex n (x / 16) ++ [c]) (16 * (x / 16) + x mod 16)); [|rewrite <- N.div_mod' in K; exact K]. constructor.
  - apply IH. apply N.div_lt_upper_bound; lia.
  - pose proof (N.mod_upper_bound x 16 ltac:(lia)). subst c. cbv zeta. unfold hex_digit. destruct (N.ltb_spec (x mod 16) 10); [left|right]; lia.
Qed.
Lemma hex_unique h x : hex_number h x -> forall y, hex_number h y -> x = y.
Proof.
  induction 1 as [|h c x v H IH Hc]; intros y Hy; inversion Hy as [E|h' c' x' v' H' Hc' E]; subst; [done|by apply app_eq_nil in E as [_ ?]|symmetry in E; by apply app_eq_nil in E as [_ ?]|].
  apply app_inj_tail in E as [-> ->]. rewrite (IH _ H'). unfold hex_digit in *. lia.
Qed.
Lemma hex_visible h x : hex_number h x -> Forall visible h.
Proof. induction 1 as [|h c x v H IH Hc]; [constructor|]. apply Forall_app. split; [done|]. repeat constructor; unfold hex_digit in Hc; lia. Qed.
(** Nothing in it can end a line or act on a terminal. *)
Theorem C114_quote_visible q s : stands_for q s -> Forall visible q.
Proof.
  induction 1 as [|b q s Hb _ _ _ IH|c b q s Hc _ IH|h b q s _ H _ IH|h b q s _ H _ IH|h b q s _ H _ IH]; [constructor|by constructor| | | |].
  - constructor; [unfold visible; lia|]. constructor; [|done]. repeat (apply elem_of_cons in Hc as [[= -> ->]|Hc]; [unfold visible; lia|]). by apply elem_of_nil in Hc.
  - do 2 (constructor; [unfold visible; cbn; lia|]). apply Forall_app. split; [by apply (hex_visible h b)|done].
  - do 2 (constructor; [unfold visible; cbn; lia|]). apply Forall_app. split; [by apply (hex_visible h b)|done].
  - do 2 (constructor; [unfold visible; cbn; lia|]). apply Forall_app. split; [by apply (hex_visible h b)|done].
Qed.
Print Assumptions C114_quote_visible.
(** It stands for one sequence of bytes only. *)
Lemma letter_b c b b' : (c, b) ∈ [(34, 34); (92, 92); (97, 7); (98, 8); (102, 12); (110, 10); (114, 13); (116, 9); (118, 11)] -> (c, b') ∈ [(34, 34); (92, 92); (97, 7); (98, 8); (102, 12); (110, 10); (114, 13); (116, 9); (118, 11)] -> b = b'.
Proof. rewrite !elem_of_cons, !elem_of_nil. intros H H'. repeat (destruct H as [H|H]; [injection H as -> ->; repeat (destruct H' as [H'|H']; [by injection H'|]); done|]). done. Qed.
Lemma letter_not c b : (c, b) ∈ [(34, 34); (92, 92); (97, 7); (98, 8); (102, 12); (110, 10); (114, 13); (116, 9); (118, 11)] -> c <> 120 /\ c <> 117 /\ c <> 85.
Proof. intros H. repeat (apply elem_of_cons in H as [[= -> ->]|H]; [repeat split; discriminate|]). by apply elem_of_nil in H. Qed.
Lemma same_length_app {A} (h h' q q' : list A) : length h = length h' -> h ++ q = h' ++ q' -> h = h' /\ q = q'.
Proof. intros H E. split; [by apply (app_inj_1 h h' q q')|by apply (app_inj_1 h h' q q')]. Qed.
Theorem C114_quote_one q s : stands_for q s -> forall s', stands_for q s' -> s = s'.
Proof.
  induction 1 as [|b q s Hb H34 H92 _ IH|c b q s Hc _ IH|h b q s Hh H _ IH|h b q s Hh H _ IH|h b q s Hh H _ IH]; intros s' Hs; inversion Hs as [|b' q' s1 ? ? ? K|c' b' q' s1 Hc' K|h' b' q' s1 Hh' H' K|h' b' q' s1 Hh' H' K|h' b' q' s1 Hh' H' K]; subst; try done;
    try (by match goal with Hc : (_, _) ∈ _ |- _ => destruct (letter_not _ _ Hc) as (? & ? & ?) end).
  - f_equal. by apply IH.
  - f_equal; [by apply (letter_b c)|by apply IH].
  - match goal with E : _ ++ _ = _ ++ _ |- _ => apply same_length_app in E as [-> ->]; [|congruence] end. f_equal; [by apply (hex_unique h)|by apply IH].
  - match goal with E : _ ++ _ = _ ++ _ |- _ => apply same_length_app in E as [-> ->]; [|congruence] end. f_equal; [do 2 f_equal; by apply (hex_unique h)|by apply IH].
  - match goal with E : _ ++ _ = _ ++ _ |- _ => apply same_length_app in E as [-> ->]; [|congruence] end. f_equal; [do 2 f_equal; by apply (hex_unique h)|by apply IH].
Qed.
Print Assumptions C114_quote_one.
Lemma sf_bytes bs q s : Forall (fun b => 128 <= b) bs -> stands_for q s -> stands_for (bs ++ q) (bs ++ s).
Proof. induction 1 as [|b bs Hb _ IH]; intros H; [done|]. cbn [app]. constructor; [unfold visible; lia|lia|lia|by apply IH]. Qed.
Lemma rune_high c : (128 <= c)%Z -> Forall (fun b => 128 <= b) (utf8_rune c).
Proof.
  intros Hc. unfold utf8_rune. rewrite (proj2 (Z.ltb_ge c 128)) by lia. destruct (Z.ltb_spec c 2048); [|destruct (Z.ltb_spec c 65536)]; repeat constructor; lia.
Qed.
Lemma rune_low c : (0 <= c < 128)%Z -> utf8_rune c = [Z.to_N c].
Proof. intros Hc. unfold utf8_rune. by rewrite (proj2 (Z.ltb_lt c 128)) by lia. Qed.
Lemma escape_stands t c q s : scalar c -> stands_for q s -> stands_for (escape t c ++ q) (utf8_rune c ++ s).
Proof.
  intros [Hc Hs] H. unfold escape.
  assert (L : forall x, (0 <= x < 128)%Z -> forall b, (Z.to_N x, b) ∈ [(34, 34); (92, 92); (97, 7); (98, 8); (102, 12); (110, 10); (114, 13); (116, 9); (118, 11)] -> (c = Z.of_N b)%Z -> (b < 128) -> stands_for ([92; Z.to_N x] ++ q) (utf8_rune c ++ s)).
  { intros x Hx b Hin -> Hb. rewrite rune_low by lia. rewrite N2Z.id. cbn [app]. by apply sf_letter. }
  destruct (Z.eqb_spec c 34) as [->|N1]; [apply (L 34%Z ltac:(lia) 34); [by left|done|lia]|]. destruct (Z.eqb_spec c 92) as [->|N2]; [apply (L 92%Z ltac:(lia) 92); [by right; left|done|lia]|]. cbn [orb].
  destruct (if (c <? 128)%Z then _ else _) eqn:E.
  { destruct (Z.ltb_spec c 128); [|by apply sf_bytes; [apply rune_high|]]. apply andb_true_iff in E as [E1%Z.leb_le E2%Z.ltb_lt]. rewrite rune_low by lia. cbn [app]. constructor; [unfold visible; lia|lia|lia|done]. }
  Local Ltac letter L x b := apply (L x ltac:(lia) b); [rewrite !elem_of_cons; vm_compute; tauto|reflexivity|lia].
  destruct (Z.eqb_spec c 7) as [->|N3]; [letter L 97%Z 7|]. destruct (Z.eqb_spec c 8) as [->|N4]; [letter L 98%Z 8|]. destruct (Z.eqb_spec c 12) as [->|N5]; [letter L 102%Z 12|]. destruct (Z.eqb_spec c 10) as [->|N6]; [letter L 110%Z 10|].
  destruct (Z.eqb_spec c 13) as [->|N7]; [letter L 114%Z 13|]. destruct (Z.eqb_spec c 9) as [->|N8]; [letter L 116%Z 9|]. destruct (Z.eqb_spec c 11) as [->|N9]; [letter L 118%Z 11|].
  destruct ((c <? 32)%Z || (c =? 127)%Z) eqn:E1.
  { assert (c < 128)%Z by (apply orb_true_iff in E1 as [?%Z.ltb_lt|?%Z.eqb_eq]; lia). rewrite rune_low by lia. rewrite <- app_assoc. cbn [app]. apply sf_byte_hex; [apply hex_length|apply hex_is; change (16 ^ N.of_nat 2) with 256; lia|done]. }
  destruct (Z.ltb_spec c 65536); rewrite <- app_assoc; rewrite <- (Z2N.id c) at 2 by lia.
  - apply sf_char4; [apply hex_length|apply hex_is; change (16 ^ N.of_nat 4) with 65536; lia|done].
  - apply sf_char8; [apply hex_length|apply hex_is; change (16 ^ N.of_nat 8) with 4294967296; lia|done].
Qed.
(** A quotation stands for what is quoted... *)
Theorem C114_quote t s : bytes_ok s -> exists q, quote t s = [34] ++ q ++ [34] /\ stands_for q s.
Proof.
  intros Hs. exists (quoted t (length s) s). split; [done|]. assert (K : forall n s, (length s <= n)%nat -> bytes_ok s -> stands_for (quoted t n s) s); [|by apply K].
  clear s Hs. induction n as [|n IH]; intros s Hn Hs; [destruct s; [constructor|cbn [length] in Hn; lia]|]. destruct s as [|b r]; [constructor|]. cbn [quoted].
  pose proof (Utf8Proofs.decode_len b r) as Hl. pose proof (decode_inv b r) as Hi. pose proof (decode_scalar b r) as Hsc. destruct (decode_rune b r) as [c r'] eqn:Ed. cbn [fst snd length] in *.
  apply Forall_cons in Hs as [Hb Hr]. destruct (N.leb_spec 128 b) as [H128|H128]; cbn [andb]; [destruct (Nat.eqb_spec (length r') (length r)) as [El|El]|].
  - assert (r' = r) as ->. { destruct Hi as [[= _ <-]|Hi]; [done|]. exfalso. assert (Hlen : (length (utf8_rune c) = 1)%nat) by (apply (f_equal length) in Hi; rewrite app_length in Hi; cbn [length] in Hi; lia).
      destruct (Z.ltb_spec c 128) as [Hc|Hc]; [rewrite rune_low in Hi by (destruct Hsc; lia); cbn [app] in Hi; injection Hi as -> _; lia|]. unfold utf8_rune in Hlen. rewrite (proj2 (Z.ltb_ge c 128)) in Hlen by lia. destruct (c <? 2048)%Z; [done|]. by destruct (c <? 65536)%Z. }
    rewrite <- app_assoc. apply sf_byte_hex; [apply hex_length|apply hex_is; exact Hb|]. apply IH; [lia|done].
  - destruct Hi as [[= _ <-]|Hi]; [done|]. rewrite Hi. apply escape_stands; [done|]. apply IH; [lia|]. assert (Hr2 : bytes_ok (b :: r)) by (by constructor). rewrite Hi in Hr2. by apply Forall_app in Hr2 as [_ ?].
  - destruct Hi as [Hi|Hi]. { unfold decode_rune in Ed. rewrite (proj2 (N.ltb_lt b 128)) in Ed by lia. injection Ed as <- <-. injection Hi as Hi. lia. }
    rewrite Hi. apply escape_stands; [done|]. apply IH; [lia|]. assert (Hr2 : bytes_ok (b :: r)) by (by constructor). rewrite Hi in Hr2. by apply Forall_app in Hr2 as [_ ?].
Qed.
Print Assumptions C114_quote.
(** ...and is that between quotation marks if it is plain. *)
Theorem C114_quote_plain t s : Forall (fun b => 32 <= b < 127 /\ b <> 34 /\ b <> 92) s -> quote t s = [34] ++ s ++ [34].
Proof.
  intros Hs. unfold quote. do 2 f_equal. induction Hs as [|b s Hb _ IH]; [done|]. cbn [length quoted]. unfold decode_rune. rewrite (proj2 (N.ltb_lt b 128)) by lia.
  rewrite (proj2 (N.leb_gt 128 b)) by lia. cbn [andb]. rewrite IH. unfold escape. rewrite (proj2 (Z.eqb_neq _ 34)), (proj2 (Z.eqb_neq _ 92)) by lia. cbn [orb]. rewrite (proj2 (Z.ltb_lt _ 128)) by lia. rewrite (proj2 (Z.leb_le 32 _)), (proj2 (Z.ltb_lt _ 127)) by lia. cbn [andb].
  rewrite rune_low by lia. cbn [app]. f_equal. lia.
Qed.
Print Assumptions C114_quote_plain.
Example C114_quote_case : quote t0 ([97; 9; 34; 92; 0; 127; 128] ++ utf8_rune 233 ++ [233]) = [34] ++ str "a\t\" ++ [34] ++ str "\\\x00\x7f\x80" ++ [195; 169] ++ str "\xe9" ++ [34] /\
  quote (mkT [] [] (fun _ => []) (fun _ => []) (fun _ => false)) (utf8_rune 233 ++ utf8_rune 66376) = [34] ++ str "\" ++ str "u00e9\U00010348" ++ [34].
Proof. vm_compute. repeat split. Qed.
(** Values: what is said of numbers that are too large. *)
Example C114_value_case : let says (s why : string) := Atoi_error t0 (str s) = str "strconv.Atoi: parsing " ++ [34] ++ str s ++ [34] ++ str ": " ++ str why in
  (says "9223372036854775808" "value out of range" /\ says "-9223372036854775809" "value out of range" /\ says "18446744073709551616x" "value out of range" /\
   says "18446744073709551615x" "invalid syntax" /\ says "" "invalid syntax" /\ says "+" "invalid syntax" /\ says "1_0" "invalid syntax" /\ says " 1" "invalid syntax")%string.
Proof. vm_compute. repeat split. Qed.

(** ** All runs that end with a status and a message *)
Inductive trouble (m : machine) (w : world) (s : settings) (lex dic : list N) : list N -> Prop :=
| tr_lexicon : w_fs w lex = None -> trouble m w s lex dic (open_error lex (t_open (m_texts m) lex))
| tr_create : w_fs w lex <> None -> s_build s = true -> m_create m dic = false -> trouble m w s lex dic (open_error dic (t_create (m_texts m) dic))
| tr_open : w_fs w lex <> None -> s_build s = false -> w_fs w dic = None -> trouble m w s lex dic (open_error dic (t_open (m_texts m) dic))
| tr_value lexicon l k v msg : s_build s = true -> m_create m dic = true -> read_as m w lex dic lexicon -> l ∈ the_lines m (s_opts s) lexicon -> o_tab (s_opts s) = true -> fields l k v -> (~ exists z, numeral v z /\ int64 z) -> value_error m v msg -> trouble m w s lex dic msg
| tr_key lexicon l k : s_build s = true -> m_create m dic = true -> read_as m w lex dic lexicon -> l ∈ the_lines m (s_opts s) lexicon -> l <> [] -> key_on (s_opts s) l k -> trouble m w s lex dic (str "error: failed to insert key: " ++ k ++ [10])
| tr_build part : s_build s = true -> m_create m dic = true -> part = "dictionary"%string \/ part = "Index"%string /\ has_guide (s_opts s) = true /\ o_index (s_opts s) = true -> trouble m w s lex dic (str "error: failed to build " ++ str part ++ [10])
| tr_part (verb part : string) nl : (w_fs w dic <> None \/ s_build s = true /\ m_create m dic = true) -> verb = (if s_build s then "write" else "read")%string -> (nl = [] \/ nl = [10]) ->
    part = "Dictionary"%string \/ part = "RankedGuide"%string /\ o_ranked (s_opts s) = true \/ part = "Guide"%string /\ o_ranked (s_opts s) = false /\ o_guide (s_opts s) = true \/ part = "Index"%string /\ has_guide (s_opts s) = true /\ o_index (s_opts s) = true ->
    trouble m w s lex dic (str "error: failed to " ++ str verb ++ str " " ++ str part ++ nl).
Section ends.
  Context (P : list N -> Prop).
  Definition ends {A} (p : prog A) : Prop := forall w w' c err, p w = (w', Exit c err) -> c = 1 /\ P err.
  Lemma ends_bind {A B} (p : prog A) (f : A -> prog B) : ends p -> (forall a, ends (f a)) -> ends (bind p f).
  Proof. intros Hp Hf w w' c err. unfold bind. destruct (p w) as [w1 [a|c1 e1| |]] eqn:E; intros H; try discriminate H; [exact (Hf a _ _ _ _ H)|]. injection H as -> -> ->. exact (Hp _ _ _ _ E). Qed.
  Lemma ends_ret {A} (a : A) : ends (ret a).
  Proof. by intros w w' c err [=]. Qed.
  Lemma ends_print bs : ends (print bs).
  Proof. by intros w w' c err [=]. Qed.
  Lemma ends_read p : ends (read_file p).
  Proof. by intros w w' c err [=]. Qed.
  Lemma ends_call {A} (r : res A) : ends (call r).
  Proof. intros w w' c err. unfold call. by destruct r. Qed.
  Lemma ends_write p f a : ends (write_file p f a).
  Proof. intros w w' c err. unfold write_file. destruct (w_fs w p) as [bs|]; [|done]. by destruct (f (bs, a)). Qed.
  Lemma ends_fatal {A} t msg : P (logged t msg) -> ends (@fatal A t msg).
  Proof. intros H w w' c err [= _ <- <-]. done. Qed.
End ends.
Local Hint Resolve ends_ret ends_print ends_read ends_call ends_write : core.
Lemma process_ends m s b l : ends (fun err => exists msg, err = logged (m_texts m) msg /\
  (o_tab (s_opts s) = true /\ (exists k v, fields l k v /\ (~ exists z, numeral v z /\ int64 z) /\ value_error m v msg) \/ l <> [] /\ exists k, key_on (s_opts s) l k /\ msg = str "error: failed to insert key: " ++ k ++ [10])) (process m s b l).
Proof.
  destruct l as [|x l]; [apply ends_ret|]. rewrite process_kv. set (L := x :: l). assert (HL : L <> []) by done. clearbody L. clear x l. intros w w' c err.
  assert (K : match (kv_prog m (s_opts s) L w).2 with
    | Ret kv => key_on (s_opts s) L kv.1
    | Exit c err => c = 1 /\ o_tab (s_opts s) = true /\ exists k v msg, fields L k v /\ (~ exists z, numeral v z /\ int64 z) /\ value_error m v msg /\ err = logged (m_texts m) msg
    | _ => True end).
  { unfold kv_prog, key_on. destruct (o_tab (s_opts s)); [|done]. destruct (fields_cases L) as [[_ ->]|(k & v & rest & Hf & ->)]; [done|]. cbv zeta. change (get (k :: v :: rest) 0) with (Ok k). change (get (k :: v :: rest) 1) with (Ok v). unfold bind, call.
    destruct (Atoi v) as [z|] eqn:Ez; [destruct (z <? 0)%Z; [by exists v|destruct (MaxValue <? z)%Z; by exists v]|]. cbn [fatal exit snd]. split; [done|]. split; [done|]. exists k, v, (Atoi_error (m_texts m) v). split; [done|]. split; [|split; [by apply value_error_is|done]].
    intros (z & Hz). apply Atoi_numeral in Hz. congruence. }
  unfold bind at 1. destruct (kv_prog m (s_opts s) L w) as [w1 [kv|c1 e1| |]]; cbn [snd] in K; try done.
  - unfold bind, call. destruct (InsertKeyValue _ _ _ _) as [[r b1]| |]; try done. cbn [fst snd]. destruct r; [done|]. intros [= _ <- <-]. split; [done|]. eexists. split; [done|]. right. split; [done|]. by exists kv.1.
  - intros [= _ <- <-]. destruct K as (-> & Ho & k & v & msg & Hf & Hz & Hmsg & ->). split; [done|]. exists msg. split; [done|]. left. split; [done|]. by exists k, v.
Qed.
Lemma ends_weaken {A} (P Q : list N -> Prop) (p : prog A) : (forall e, P e -> Q e) -> ends P p -> ends Q p.
Proof. intros H Hp w w' c err E. destruct (Hp w w' c err E) as [? ?]. split; [done|by apply H]. Qed.
Lemma process_all_ends m s (P : list N -> Prop) lines : (forall l b, l ∈ lines -> ends P (process m s b l)) -> forall b n, ends P (process_all m s b n lines).
Proof.
  induction lines as [|l lines IH]; intros H b n; cbn [process_all]; [apply ends_ret|]. apply ends_bind; [apply H; by left|]. intros r. apply ends_bind; [destruct (r.1 && _); [apply ends_print|apply ends_ret]|]. intros _. apply IH. intros l' b' Hl. apply H. by right.
Qed.
Lemma ends_call_bind {A B} P (r : res A) (f : A -> prog B) : (forall a, r = Ok a -> ends P (f a)) -> ends P (bind (call r) f).
Proof. intros H w w' c err. unfold bind, call. destruct r as [a| |]; try done. exact (H a eq_refl w w' c err). Qed.
Section queries.
  Context (P : list N -> Prop).
  Lemma print_plain_ends us : forall key pre i, ends P (print_plain us pre key i).
  Proof using Type.
    induction key as [|c key IH]; intros pre i; cbn [print_plain]; [apply ends_ret|]. apply ends_bind; [apply ends_call|]. intros r. destruct (negb r.1); [apply ends_ret|]. apply ends_bind; [apply ends_call|]. intros has.
    apply ends_bind; [destruct has; [apply ends_bind; [apply ends_call|intros v; apply ends_print]|apply ends_ret]|]. intros _. apply IH.
  Qed.
  Lemma queries_plain_ends us keys : ends P (queries_plain us keys).
  Proof using Type. induction keys as [|k keys IH]; cbn [queries_plain]; [apply ends_ret|]. apply ends_bind; [apply ends_print|]. intros _. apply ends_bind; [apply print_plain_ends|]. intros _. apply ends_bind; [apply ends_print|]. intros _. exact IH. Qed.
  Lemma print_index_ends us g ix k : ends P (print_index us g ix k).
  Proof using Type. unfold print_index. destruct ix as [ix|]; [|apply ends_ret]. apply ends_bind; [apply ends_call|]. intros n. apply ends_print. Qed.
  Lemma print_comp_ends us g k : forall n c, ends P (print_comp n us g k c).
  Proof using Type.
    induction n as [|n IH]; intros c; cbn [print_comp]; [apply ends_call|]. apply ends_bind; [apply ends_call|]. intros r. destruct (negb r.1); [apply ends_ret|]. apply ends_bind; [apply ends_call|]. intros v. apply ends_bind; [apply ends_print|]. intros _. apply IH.
  Qed.
  Lemma print_rcomp_ends us g k : forall n c, ends P (print_rcomp n us g k c).
  Proof using Type. induction n as [|n IH]; intros c; cbn [print_rcomp]; [apply ends_call|]. apply ends_bind; [apply ends_call|]. intros r. destruct (negb r.1); [apply ends_ret|]. apply ends_bind; [apply ends_print|]. intros _. apply IH. Qed.
  Lemma queries_guide_ends fuel us g ix keys : forall c, ends P (queries_guide fuel us g ix c keys).
  Proof using Type.
    induction keys as [|k keys IH]; intros c; cbn [queries_guide]; [apply ends_ret|]. apply ends_bind; [apply ends_print|]. intros _. apply ends_bind; [apply print_index_ends|]. intros _. apply ends_bind; [apply ends_call|]. intros r.
    apply ends_bind; [destruct r.1; [apply ends_bind; [apply ends_call|intros c1; apply print_comp_ends]|apply ends_ret]|]. intros c1. apply ends_bind; [apply ends_print|]. intros _. apply IH.
  Qed.
  Lemma queries_ranked_ends fuel us g ix keys : forall c, ends P (queries_ranked fuel us g ix c keys).
  Proof using Type.
    induction keys as [|k keys IH]; intros c; cbn [queries_ranked]; [apply ends_ret|]. apply ends_bind; [apply ends_print|]. intros _. apply ends_bind; [apply print_index_ends|]. intros _. apply ends_bind; [apply ends_call|]. intros r.
    apply ends_bind; [destruct r.1; [apply ends_bind; [apply ends_call|intros c1; apply print_rcomp_ends]|apply ends_ret]|]. intros c1. apply ends_bind; [apply ends_print|]. intros _. apply IH.
  Qed.
  Lemma print_words_ends us g ix n : forall i, ends P (print_words us g ix n i).
  Proof using Type. induction n as [|n IH]; intros i; cbn [print_words]; [apply ends_ret|]. apply ends_bind; [apply ends_call|]. intros w. apply ends_bind; [apply ends_print|]. intros _. apply IH. Qed.
End queries.
Section runs.
  Context (m : machine) (fuel : nat) (s : settings) (lex dic : list N) (w : world).
  Notation o := (s_opts s).
  Notation P := (fun err => exists msg, err = logged (m_texts m) msg /\ trouble m w s lex dic msg).
  Lemma fatal_ends {A} msg : trouble m w s lex dic msg -> ends P (@fatal A (m_texts m) msg).
  Proof. intros H. apply ends_fatal. by exists msg. Qed.
  Lemma build_ends w1 w' c err old : s_build s = true -> m_create m dic = true -> w_fs w lex = Some old -> default [] (w_fs w1 lex) = (if decide (lex = dic) then [] else old) ->
    handleBuild m s lex dic w1 = (w', Exit c err) -> c = 1 /\ P err.
  Proof using Type.
    intros Hb Hc Hl Hx. unfold handleBuild. unfold bind at 1. unfold read_file. unfold bind at 1, scan_file. revert w1 w' c err Hx.
    assert (K : forall lexicon, read_as m w lex dic lexicon -> ends P (do r := process_all m s NewDawgBuilder 0 (the_lines m o lexicon); do f := call (Finish r.2 NewDawg); let d := f.1 in
      print (str "no. keys: " ++ dec r.1 ++ [10]);; print (str "no. states: " ++ decN (d_states d) ++ [10]);; print (str "no. transitions: " ++ dec (dawg_transitions d) ++ [10]);; print (str "no. merged states: " ++ dec (d_mergedStates d) ++ [10]);;
      print (str "no. merging states: " ++ decN (d_merging d) ++ [10]);; print (str "no. merged transitions: " ++ decN (d_mergedTrans d) ++ [10]);;
      do od := call (dict_BuildWithUnused d);
      match od with
      | None => fatal (m_texts m) (line "error: failed to build dictionary")
      | Some (us, unused) =>
        print (str "no. elements: " ++ dec (Z.of_nat (List.length us)) ++ [10]);;
        print (str "no. unused elements: " ++ decN unused ++ str " (" ++ ratio unused (Z.of_nat (List.length us)) ++ str "%)" ++ [10]);;
        print (str "dictionary size: " ++ dec (dict_TotalSize us) ++ [10]);;
        do r := write_file dic (dict_Write us) (m_answers m);
        if (r.1 : bool) then build_guide m s dic d us r.2 else fatal (m_texts m) (str "error: failed to write Dictionary")
      end)).
    { intros lexicon Hr. apply ends_bind.
      { apply process_all_ends. intros l b Hin. apply (ends_weaken _ _ _ (fun e H => match H with ex_intro _ msg (conj E H) => ex_intro _ msg (conj E (match H with or_introl (conj Ho (ex_intro _ k (ex_intro _ v (conj Hf (conj Hz Hv))))) => tr_value _ _ _ _ _ lexicon l k v msg Hb Hc Hr Hin Ho Hf Hz Hv
          | or_intror (conj Hne (ex_intro _ k (conj Hk Hm))) => eq_rect_r (trouble m w s lex dic) (tr_key _ _ _ _ _ lexicon l k Hb Hc Hr Hin Hne Hk) Hm end)) end)). apply process_ends. }
      intros r. apply ends_bind; [apply ends_call|]. intros f. cbv zeta. do 6 (apply ends_bind; [apply ends_print|]; intros []). apply ends_bind; [apply ends_call|]. intros [[us unused]|].
      2: { apply fatal_ends. apply (tr_build _ _ _ _ _ "dictionary"); try done. by left. }
      do 3 (apply ends_bind; [apply ends_print|]; intros []). apply ends_bind; [apply ends_write|]. intros r2. assert (Hw : w_fs w dic <> None \/ s_build s = true /\ m_create m dic = true) by (by right).
      destruct r2.1. 2: { apply fatal_ends. apply (tr_part _ _ _ _ _ "write" "Dictionary" []); [done|by rewrite Hb|by left|by left]. }
      unfold build_guide. destruct (o_ranked o || o_guide o) eqn:Eg; cbn [negb]; [|apply ends_ret]. apply ends_bind; [apply ends_call|]. intros [g|]; [|apply ends_call]. do 2 (apply ends_bind; [apply ends_print|]; intros []). apply ends_bind; [apply ends_write|]. intros r3. destruct r3.1.
      2: { apply fatal_ends. destruct (o_ranked o) eqn:Ek; [apply (tr_part _ _ _ _ _ "write" "RankedGuide" [10])|apply (tr_part _ _ _ _ _ "write" "Guide" [10])]; try done; try (by rewrite Hb); try (by right); [right; by left|]. right. right. by left. }
      unfold build_index. destruct (o_index o) eqn:Ei; cbn [negb]; [|apply ends_ret]. apply ends_bind; [apply ends_call|]. intros [ix|].
      2: { apply fatal_ends. apply (tr_build _ _ _ _ _ "Index"); try done. by right. }
      do 2 (apply ends_bind; [apply ends_print|]; intros []). apply ends_bind; [apply ends_write|]. intros r4. destruct r4.1; [apply ends_ret|]. apply fatal_ends. apply (tr_part _ _ _ _ _ "write" "Index" [10]); [done|by rewrite Hb|by right|]. right. right. by right. }
    intros w1 w' c err Hx. rewrite Hx. destruct (delivers_any (m_chunks m lex (if decide (lex = dic) then [] else old))) as [lexicon Hd]. rewrite (delivers_scanned _ _ _ Hd). intros H. refine (K lexicon _ w1 w' c err H). by exists old.
  Qed.
  Lemma load_ends : s_build s = false -> w_fs w dic <> None -> ends P (handleLoad m fuel s lex dic).
  Proof using Type.
    intros Hb Hd. assert (Hw : w_fs w dic <> None \/ s_build s = true /\ m_create m dic = true) by (by left). unfold handleLoad. apply ends_bind; [apply ends_read|]. intros f. apply ends_bind; [apply ends_call|]. intros r.
    destruct r.1 as [us|]. 2: { apply fatal_ends. apply (tr_part _ _ _ _ _ "read" "Dictionary" [10]); [done|by rewrite Hb|by right|by left]. }
    apply ends_call_bind. intros l Hl. destruct l.1 as [g|] eqn:El.
    2: { apply fatal_ends. destruct (o_ranked o) eqn:Ek; [apply (tr_part _ _ _ _ _ "read" "RankedGuide" [10])|apply (tr_part _ _ _ _ _ "read" "Guide" [10])]; try done; try (by rewrite Hb); try (by right); [right; by left|]. right. right. left. split; [done|]. split; [done|].
      destruct (o_guide o); [done|]. injection Hl as <-. discriminate El. }
    apply ends_bind; [apply ends_read|]. intros q. apply ends_bind; [apply ends_call|]. intros keys. cbv zeta. destruct (o_ranked o || o_guide o) eqn:Eg; cbn [negb].
    2: { apply ends_bind; [apply queries_plain_ends|]. intros _. destruct (o_index o); [apply ends_call|apply ends_ret]. }
    apply ends_call_bind. intros i Hi. destruct i as [ix|].
    2: { apply fatal_ends. apply (tr_part _ _ _ _ _ "read" "Index" [10]); [done|by rewrite Hb|by right|]. right. right. right. split; [done|]. split; [done|]. by destruct (o_index o). }
    apply ends_bind; [destruct (o_ranked o); [apply queries_ranked_ends|apply queries_guide_ends]|]. intros _. destruct ix as [ix|]; [|apply ends_ret]. apply ends_bind; [apply ends_call|]. intros n. apply ends_bind; [apply ends_print|]. intros _. apply print_words_ends.
  Qed.
  Lemma run_ends w' c err : run_at m fuel s lex dic w = (w', Exit c err) -> c = 1 /\ P err.
  Proof using Type.
    destruct (w_fs w lex) as [old|] eqn:El.
    2: { unfold run_at, bind, read_file. rewrite El. apply fatal_ends. by apply tr_lexicon. }
    destruct (s_build s) eqn:Eb.
    - destruct (m_create m dic) eqn:Ec.
      + destruct (create_run m fuel s lex dic w Eb) as (w1 & E & H1 & H2 & H3); [by rewrite El|done|]. rewrite E. apply (build_ends w1 w' c err old); try done. destruct (decide (lex = dic)) as [->|Hne]; [by rewrite H2|]. by rewrite H3, El.
      + unfold run_at, bind, read_file. rewrite El, Eb. unfold create. rewrite Ec. apply fatal_ends. apply tr_create; try done. by rewrite El.
    - destruct (w_fs w dic) as [file|] eqn:Ed.
      + rewrite load_run; [|done|by rewrite El|by rewrite Ed]. apply load_ends; [done|by rewrite Ed].
      + unfold run_at, bind, read_file. rewrite El, Eb, Ed. apply fatal_ends. apply tr_open; try done. by rewrite El.
  Qed.
End runs.
(** Whatever the files, the libraries and the writes: a run that ends with a status ends
    with 0 and the usage, with 2, a fault and the usage, or with 1 and one line about a
    trouble ([trouble]). *)
Theorem C114_ends m fuel args w w' c err : main m fuel args w = (w', Exit c err) ->
  c = 0 /\ help_line args /\ err = usage (m_texts m) \/
  c = 2 /\ (exists msg, fault_line (m_texts m) args msg /\ err = msg ++ [10] ++ usage (m_texts m)) \/
  c = 1 /\ exists sets ops msg, command_line args sets ops /\ trouble m w (chosen sets) (lexicon_path (chosen sets) ops) (dictionary_path (chosen sets) ops) msg /\
    (err = t_stamp (m_texts m) ++ msg /\ last msg = Some 10 \/ err = t_stamp (m_texts m) ++ msg ++ [10] /\ last msg <> Some 10).
Proof.
  destruct (C114_lines (m_texts m) args) as [(sets & ops & Hl)|[H|[msg H]]].
  - rewrite (main_line m fuel args sets ops w Hl). intros (-> & msg & -> & Ht)%run_ends. right. right. split; [done|]. exists sets, ops, msg. split; [done|]. split; [done|]. unfold logged.
    destruct (last msg) as [x|]; [|by right]. destruct (N.eq_dec x 10) as [->|Hx]; [left; by rewrite app_nil_r|]. right. split; [|congruence]. clear -Hx. destruct x as [|x]; [done|]. repeat (destruct x as [x|x|]; try done).
  - rewrite (proj1 (C114_refused m fuel args w) H). intros [= _ <- <-]. by left.
  - rewrite (proj2 (C114_refused m fuel args w) msg H). intros [= _ <- <-]. right. left. split; [done|]. by exists msg.
Qed.
Print Assumptions C114_ends.
