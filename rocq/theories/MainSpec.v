(** What a run of dawgtool should do: command lines, what is printed, which files are
    touched.  Nothing here depends on how it works, except the names of the options
    ([settings]) and [answer]. *)
From Coq Require Import String Sorted.
From Verif Require Import Go Dawg DawgSpec Dict Guide GuideSpec Index Ranked RankedSpec RankedIndexSpec DictSpec Serial Cli CliSpec ScannerSpec Main.
Local Open Scope N_scope.

(** ** Command lines.  Switches are b t g r i s u; l and d give paths. *)
Inductive setting := Switch (c : N) (v : bool) | Path (c : N) (p : list N).
Definition switches : list N := str "btgrisu".
Definition paths : list N := str "ld".
Definition dashes (s : list N) : Prop := s = str "-" \/ s = str "--".
Inductive truth : list N -> bool -> Prop :=
| t_true s : s ∈ map str ["1"; "t"; "T"; "true"; "TRUE"; "True"]%string -> truth s true
| t_false s : s ∈ map str ["0"; "f"; "F"; "false"; "FALSE"; "False"]%string -> truth s false.
Inductive spelled : setting -> list (list N) -> Prop :=
| sp_on d c : dashes d -> c ∈ switches -> spelled (Switch c true) [d ++ [c]]
| sp_switch d c t v : dashes d -> c ∈ switches -> truth t v -> spelled (Switch c v) [d ++ c :: str "=" ++ t]
| sp_path d c p : dashes d -> c ∈ paths -> spelled (Path c p) [d ++ [c]; p]
| sp_path_eq d c p : dashes d -> c ∈ paths -> spelled (Path c p) [d ++ c :: str "=" ++ p].
(** Operands follow the settings, after -- or when the first cannot be a setting. *)
Definition no_flag (a : list N) : Prop := (length a < 2)%nat \/ head a <> Some 45.
Definition operands (tail ops : list (list N)) : Prop := tail = str "--" :: ops \/ tail = ops /\ match ops with [] => True | a :: _ => no_flag a end.
Definition command_line (args : list (list N)) (sets : list setting) (ops : list (list N)) : Prop :=
  exists l tail, Forall2 spelled sets l /\ operands tail ops /\ args = concat l ++ tail.
(** Requests for help: -h or -help where a setting could be, whatever follows. *)
Definition help (a : list N) : Prop := exists d n v, dashes d /\ (n = str "h" \/ n = str "help") /\ (v = [] \/ exists x, v = str "=" ++ x) /\ a = d ++ n ++ v.
Definition help_line (args : list (list N)) : Prop := exists sets l h rest, Forall2 spelled sets l /\ help h /\ args = concat l ++ h :: rest.
(** ** Command lines that cannot be read, and what is said about them.  [named]: an argument
    with a name and perhaps a value. *)
Definition named (a name : list N) (v : option (list N)) : Prop :=
  exists d, dashes d /\ name <> [] /\ head name <> Some 45 /\ 61 ∉ name /\ a = d ++ name ++ match v with Some v => str "=" ++ v | None => [] end.
Inductive fault (t : texts) : list (list N) -> list N -> Prop :=
| f_syntax p x rest : p ∈ map str ["---"; "--="; "-="]%string -> fault t ((p ++ x) :: rest) (str "bad flag syntax: " ++ p ++ x)
| f_unknown a name v rest : named a name v -> name <> str "h" -> name <> str "help" -> (forall c, name = [c] -> c ∉ switches /\ c ∉ paths) -> fault t (a :: rest) (str "flag provided but not defined: -" ++ name)
| f_switch a c v rest : named a [c] (Some v) -> c ∈ switches -> (forall b, ~ truth v b) -> fault t (a :: rest) (str "invalid boolean value " ++ quote t v ++ str " for -" ++ [c] ++ str ": parse error")
| f_path d c : dashes d -> c ∈ paths -> fault t [d ++ [c]] (str "flag needs an argument: -" ++ [c]).
Definition fault_line (t : texts) (args : list (list N)) (msg : list N) : Prop := exists sets l tail, Forall2 spelled sets l /\ fault t tail msg /\ args = concat l ++ tail.
(** The last setting counts. *)
Definition switch (c : N) (sets : list setting) : bool := fold_left (fun v x => match x with Switch c' v' => if decide (c' = c) then v' else v | _ => v end) sets false.
Definition path (c : N) (sets : list setting) : list N := fold_left (fun p x => match x with Path c' p' => if decide (c' = c) then p' else p | _ => p end) sets (str "-").
Definition chosen (sets : list setting) : settings :=
  mkS (switch 98 sets) (mkOpts (switch 116 sets) (switch 103 sets) (switch 114 sets) (switch 115 sets) (switch 117 sets) (switch 105 sets)) (path 108 sets) (path 100 sets).
(** The first operand is the lexicon unless -l is given, the second the dictionary
    unless -d is given. *)
Definition lexicon_path (s : settings) (ops : list (list N)) : list N := if decide (s_lexicon s = str "-") then default (str "-") (ops !! 0%nat) else s_lexicon s.
Definition dictionary_path (s : settings) (ops : list (list N)) : list N := if decide (s_dictionary s = str "-") then default (str "-") (ops !! 1%nat) else s_dictionary s.

(** ** Numbers: decimal, without needless signs and zeros *)
Definition shows (s : list N) (z : Z) : Prop := numeral s z /\ (exists d r, digit d /\ (s = d :: r \/ s = 45 :: d :: r) /\ (d = 48 -> s = [48])).

(** A number of hundredths with two decimals; a percentage, rounded to the nearest of
    those (either, if there are two). *)
Definition two_decimals (s : list N) (h : Z) : Prop := exists a d e, shows a (h / 100)%Z /\ digit d /\ digit e /\ s = a ++ str "." ++ [d; e] /\ (h mod 100 = 10 * Z.of_N (d - 48) + Z.of_N (e - 48))%Z.
Definition percentage (s : list N) (part whole : Z) : Prop := exists h, two_decimals s h /\ (2 * Z.abs (h * whole - 10000 * part) <= whole)%Z.

(** ** What is printed while building *)
Definition count_line (what : string) (z : Z) : list N := str what ++ str ": " ++ dec z ++ [10].
Definition warning (z : Z) : list N :=
  if decide (z < 0)%Z then str "warning: negative value is replaced by 0: " ++ dec z ++ [10]
  else if decide (2147483647 < z)%Z then str "warning: too large value is replaced by 2147483647" ++ [10] else [].
Definition warned (o : opts) (l text : list N) : Prop := if o_tab o then exists k s z, fields l k s /\ numeral s z /\ text = warning z else text = [].
Definition progress (n : nat) : list N := if decide (Z.of_nat n mod 10000 = 0)%Z then count_line "no. keys" (Z.of_nat n) else [].
(** One key per line that is not empty. *)
Definition notes (o : opts) (lines : list (list N)) (text : list N) : Prop :=
  exists ws, Forall2 (warned o) (filter (fun l => l <> []) lines) ws /\ text = concat (imap (fun i t => t ++ progress (S i)) ws).
Definition dawg_text (keys : Z) (d : dawg) : list N :=
  count_line "no. keys" keys ++ count_line "no. states" (Z.of_N (d_states d)) ++ count_line "no. transitions" (dawg_transitions d) ++
  count_line "no. merged states" (d_mergedStates d) ++ count_line "no. merging states" (Z.of_N (d_merging d)) ++ count_line "no. merged transitions" (Z.of_N (d_mergedTrans d)).
Definition dict_text (size : Z) (unused : N) (ratio : list N) : list N :=
  count_line "no. elements" size ++ str "no. unused elements: " ++ dec (Z.of_N unused) ++ str " (" ++ ratio ++ str "%)" ++ [10] ++ count_line "dictionary size" (4 * size).
Definition guide_text (size : Z) : list N := count_line "no. units" size ++ count_line "guide size" (2 * size).
Definition index_text (size : Z) : list N := count_line "no. index units" size ++ count_line "index size" (4 * size).

(** ** What is printed while loading *)
Definition hit_text (kv : list N * Z) : list N := str " " ++ kv.1 ++ str " = " ++ dec kv.2 ++ str ";".
Definition position_text (i : option N) : list N :=
  match i with
  | None => []
  | Some n => if decide (n = 4294967295) then str " (not found)" else if decide (n = 4294967294) then str " (failed)" else str " (#" ++ dec (Z.of_N n) ++ str ")"
  end.
Definition answer_text (a : answer) : list N := a_query a ++ str ":" ++ position_text (a_index a) ++ concat (map hit_text (a_hits a)) ++ [10].
Definition words_text (ws : option (N * list (list N))) : list N :=
  match ws with
  | None => []
  | Some (n, ks) => count_line "Total words" (Z.of_N n) ++ concat (imap (fun i k => dec (Z.of_nat i) ++ str ": " ++ k ++ [10]) ks)
  end.

(** The answers, for a dictionary file with the entries [es]. *)
Definition expected (o : opts) (es : list entry) (qs : list (list N)) (l : list answer) (ws : option (N * list (list N))) : Prop :=
  if o_ranked o then
    if o_index o then exists ks, ws = Some (N.of_nat (length ks), ks) /\ (forall k, k ∈ ks <-> held Z.ltb (entries es) k) /\ StronglySorted (ahead Z.ltb (entries es)) ks /\ Forall2 (ranked_index_answer (entries es) ks) qs l
    else ws = None /\ Forall2 (ranked_answer (entries es)) qs l
  else if o_guide o then l = map (guide_answer (o_index o) (entries es)) qs /\ ws = if o_index o then Some (N.of_nat (length (accepted es)), map fst (entries es)) else None
  else l = map (plain_answer (entries es)) qs /\ ws = None.
Definition answers_text (l : list answer) : list N := concat (map answer_text l).

(** ** Files.  [after dic w t c w']: [t] was printed, [c] is in the dictionary file, other
    files are as they were. *)
Definition after (dic : list N) (w : world) (t c : list N) (w' : world) : Prop :=
  w_out w' = w_out w ++ t /\ w_fs w' dic = Some c /\ forall q, q <> dic -> w_fs w' q = w_fs w q.
(** What is read as the lexicon while building: what the reads of its contents deliver,
    or, when it is the dictionary file, those of an empty file, since it has been emptied by
    then. *)
Definition read_as (m : machine) (w : world) (lex dic lexicon : list N) : Prop :=
  exists old, w_fs w lex = Some old /\ delivers (m_chunks m lex (if decide (lex = dic) then [] else old)) lexicon.
(** The libraries do their work, and writes take all bytes. *)
Definition builds_ok (m : machine) : Prop := stable_sorter (m_lsort m) /\ sorter (m_sort m) /\ m_answers m = [].
(** Reads deliver all bytes. *)
Definition reads_ok (m : machine) : Prop := forall p bs, concat (m_chunks m p bs) = bs /\ steady (m_chunks m p bs).
Definition machine_ok (m : machine) : Prop := builds_ok m /\ reads_ok m.
(** The lines in the order of insertion. *)
Definition the_lines (m : machine) (o : opts) (lexicon : list N) : list (list N) := cli_lines (m_lsort m) (m_grow m) (m_calls m) o lexicon.
(** What a line of the log is: date and time, message, newline. *)
Definition log_line (m : machine) (msg : list N) : list N := t_stamp (m_texts m) ++ msg ++ [10].
(** What is said about a value that is no number of 64 bits.  It is said to be out of range
    if it is a number, or begins with one of 2^64 or more. *)
Definition large (s : list N) : Prop := exists sign ds rest, s = sign ++ ds ++ rest /\ (sign = [] \/ sign = str "-" \/ sign = str "+") /\ ds <> [] /\ Forall digit ds /\ (rest = [] \/ 18446744073709551616 <= decimal ds)%Z.
Definition value_error (m : machine) (s msg : list N) : Prop :=
  exists why, msg = str "strconv.Atoi: parsing " ++ quote (m_texts m) s ++ str ": " ++ why /\ (large s -> why = str "value out of range") /\ (~ large s -> why = str "invalid syntax").
(** The key on a line. *)
Definition key_on (o : opts) (l k : list N) : Prop := if o_tab o then exists s, fields l k s else k = l.
(** Lines that end a run, after lines with the entries [es]: what is printed for them, and
    the end. *)
Inductive stops (m : machine) (o : opts) (es : list entry) (l : list N) : list N -> ending unit -> Prop :=
| stop_tab : o_tab o = true -> 9 ∉ l -> stops m o es l [] Crash
| stop_value k s msg : o_tab o = true -> fields l k s -> (~ exists z, numeral s z /\ int64 z) -> value_error m s msg -> stops m o es l [] (Exit 1 (log_line m msg))
| stop_order kv t k : line_entry_is o l kv -> warned o l t -> ~ nondecreasing (es ++ [kv]) -> key_on o l k -> stops m o es l t (Exit 1 (log_line m (str "error: failed to insert key: " ++ k))).
