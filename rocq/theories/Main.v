(** Model of cmd/dawgtool/main.go as a process: command line, files, standard output,
    standard error and exit status (Cli.v has the same functions without output and
    without what is left behind on failure).  The packages flag, fmt, log, os and strconv
    are modelled as far as main.go uses them.
    Simplified: a path is a name of its own file (no links or devices; of a directory the
    first read fails), files are not changed by others, writes to standard output succeed, and what the run
    time writes to standard error on a panic is left out. *)
From Coq Require Import String Ascii.
From Verif Require Import Go Utfc UtfcHeap Utf8 Dawg Dict Guide Completer Index Ranked RankedCompleter Serial Cli Scanner.
Local Open Scope N_scope.

(** Bytes of a string constant. *)
Fixpoint str (s : string) : list N := match s with EmptyString => [] | String c r => N_of_ascii c :: str r end.
Notation line s := (str s ++ [10]).

(** ** Processes *)
Record world := mkW { w_out : list N; w_fs : list N -> option (list N) }.
(** Returned; os.Exit (also by log.Fatal), [err] being all that was written to standard
    error, which is only written to then; run-time panic; no end. *)
Inductive ending (A : Type) := Ret (a : A) | Exit (code : N) (err : list N) | Crash | Loops.
Global Arguments Ret {_} _.
Global Arguments Exit {_} _ _.
Global Arguments Crash {_}.
Global Arguments Loops {_}.
Definition prog (A : Type) : Type := world -> world * ending A.
Definition ret {A} (a : A) : prog A := fun w => (w, Ret a).
Definition bind {A B} (m : prog A) (f : A -> prog B) : prog B := fun w =>
  match m w with (w, Ret a) => f a w | (w, Exit c err) => (w, Exit c err) | (w, Crash) => (w, Crash) | (w, Loops) => (w, Loops) end.
Notation "'do' x := m ; f" := (bind m (fun x => f)) (at level 20, x pattern, m at level 100, f at level 200, right associativity).
Notation "m ;; f" := (bind m (fun _ : unit => f)) (at level 100, f at level 200, right associativity).
(** A call without output. *)
Definition call {A} (r : res A) : prog A := fun w => (w, match r with Ok a => Ret a | Panic => Crash | Hang => Loops end).
Definition exit {A} (code : N) (err : list N) : prog A := fun w => (w, Exit code err).
(** fmt.Printf to standard output *)
Definition print (bs : list N) : prog unit := fun w => (mkW (w_out w ++ bs) (w_fs w), Ret tt).

(** %d *)
Fixpoint dec_digits (fuel : nat) (n : N) (acc : list N) : list N :=
  match fuel with
  | O => acc
  | S f => if n <? 10 then 48 + n :: acc else dec_digits f (n / 10) (48 + n mod 10 :: acc)
  end.
Definition dec (z : Z) : list N :=
  let n := Z.to_N (Z.abs z) in (if (z <? 0)%Z then [45] else []) ++ dec_digits (S (N.size_nat n)) n [].
Notation decN n := (dec (Z.of_N n)).
(** The nearest integer to a / b, the even one of two. *)
Definition round_even (a b : Z) : Z :=
  (let q := a / b in let r := 2 * (a mod b) in if (r <? b) || ((r =? b) && Z.even q) then q else q + 1)%Z.
(** The float64 nearest to a / b as a mantissa and the power of two to divide it by.  For
    integers whose quotient is neither too large nor too small. *)
Definition div64 (a b : Z) : Z * Z :=
  (if a =? 0 then (0, 0) else
   let s := 52 - (Z.log2 a - Z.log2 b) in
   let s := if a * 2 ^ s <? b * 2 ^ 52 then s + 1 else s in
   (round_even (a * 2 ^ s) b, s))%Z.
(** %.2f (strconv rounds to the nearest, the even one of two) *)
Definition fixed2 (x : Z * Z) : list N :=
  let h := round_even (100 * x.1) (2 ^ x.2) in
  dec (h / 100) ++ [46; 48 + Z.to_N (h / 10 mod 10); 48 + Z.to_N (h mod 10)].
(** main.go:141, 144: the conversions and the product are exact for numbers below 2^32. *)
Definition ratio (unused : N) (size : Z) : list N := fixed2 (div64 (100 * Z.of_N unused) size).

(** ** Standard error.  Left open: date and time; the name of the program (os.Args[0]);
    why a file cannot be opened or created; strconv.IsPrint from U+0080 on. *)
Record texts := mkT { t_stamp : list N; t_name : list N; t_open : list N -> list N; t_create : list N -> list N; t_print : Z -> bool }.
(** log.Fatal, log.Fatalf: a newline is added unless there is one *)
Definition logged (t : texts) (msg : list N) : list N := t_stamp t ++ msg ++ match last msg with Some 10 => [] | _ => [10] end.
Definition fatal {A} (t : texts) (msg : list N) : prog A := exit 1 (logged t msg).
(** fs.PathError *)
Definition open_error (p reason : list N) : list N := str "open " ++ p ++ str ": " ++ reason.
(** strconv.Quote *)
Fixpoint hex (n : nat) (x : N) : list N :=
  match n with O => [] | S n' => hex n' (x / 16) ++ [let d := x mod 16 in if d <? 10 then 48 + d else 87 + d] end.
Definition escape (t : texts) (c : Z) : list N :=
  (if (c =? 34) || (c =? 92) then [92%N; Z.to_N c]
   else if if c <? 128 then (32 <=? c) && (c <? 127) else t_print t c then utf8_rune c
   else if c =? 7 then str "\a" else if c =? 8 then str "\b" else if c =? 12 then str "\f" else if c =? 10 then str "\n"
   else if c =? 13 then str "\r" else if c =? 9 then str "\t" else if c =? 11 then str "\v"
   else if (c <? 32) || (c =? 127) then str "\x" ++ hex 2 (Z.to_N c)
   else if c <? 65536 then str "\u" ++ hex 4 (Z.to_N c)
   else str "\U" ++ hex 8 (Z.to_N c))%Z.
Fixpoint quoted (t : texts) (fuel : nat) (bs : list N) : list N :=
  match fuel, bs with
  | S n, b :: r =>
      let '(c, r') := decode_rune b r in
      (if (128 <=? b) && (List.length r' =? List.length r)%nat then str "\x" ++ hex 2 b else escape t c) ++ quoted t n r'
  | _, _ => []
  end.
Definition quote (t : texts) (bs : list N) : list N := [34] ++ quoted t (List.length bs) bs ++ [34].
(** strconv.Atoi, when [Atoi] (Cli.v) is None.  Digits are looked at one by one
    (ParseUint): it is the range if they pass 2^64 - 1 before there is a byte that is no
    digit. *)
Fixpoint too_large (acc : Z) (bs : list N) : bool :=
  match bs with
  | [] => true
  | b :: r => if (48 <=? b) && (b <=? 57) then let n := (acc * 10 + Z.of_N (b - 48))%Z in if (18446744073709551615 <? n)%Z then true else too_large n r else false
  end.
Definition Atoi_error (t : texts) (s : list N) : list N :=
  let ds := match s with b :: r => if (b =? 45) || (b =? 43) then r else s | [] => s end in
  str "strconv.Atoi: parsing " ++ quote t s ++ str ": " ++ match ds with [] => str "invalid syntax" | _ => if too_large 0 ds then str "value out of range" else str "invalid syntax" end.

(** ** flag.Parse for the flags of main.go:279-287 *)
Record settings := mkS { s_build : bool; s_opts : opts; s_lexicon : list N; s_dictionary : list N }.
Definition settings0 : settings := mkS false (mkOpts false false false false false false) (str "-") (str "-").
(** flag.boolValue.Set, strconv.ParseBool *)
Definition parse_bool (s : list N) : option bool :=
  if existsb (fun t => bool_decide (s = str t)) ["1"; "t"; "T"; "true"; "TRUE"; "True"]%string then Some true
  else if existsb (fun t => bool_decide (s = str t)) ["0"; "f"; "F"; "false"; "FALSE"; "False"]%string then Some false else None.
(** main.go:279-285 *)
Definition set_bool (s : settings) (name : N) (v : bool) : option settings :=
  let '(mkS b (mkOpts t g r so u i) l d) := s in
  if name =? 98 then Some (mkS v (mkOpts t g r so u i) l d)
  else if name =? 116 then Some (mkS b (mkOpts v g r so u i) l d)
  else if name =? 103 then Some (mkS b (mkOpts t v r so u i) l d)
  else if name =? 114 then Some (mkS b (mkOpts t g v so u i) l d)
  else if name =? 105 then Some (mkS b (mkOpts t g r so u v) l d)
  else if name =? 115 then Some (mkS b (mkOpts t g r v u i) l d)
  else if name =? 117 then Some (mkS b (mkOpts t g r so v i) l d)
  else None.
(** main.go:286-287 *)
Definition set_path (s : settings) (name : N) (p : list N) : option settings :=
  if name =? 108 then Some (mkS (s_build s) (s_opts s) p (s_dictionary s))
  else if name =? 100 then Some (mkS (s_build s) (s_opts s) (s_lexicon s) p)
  else None.
(** name=value, the = not being the first byte *)
Fixpoint split_eq (pre bs : list N) : list N * option (list N) :=
  match bs with
  | [] => (rev pre, None)
  | b :: r => if (b =? 61) && negb (bool_decide (pre = [])) then (rev pre, Some r) else split_eq (b :: pre) r
  end.
(** FlagSet.PrintDefaults for main.go:279-287, in the order of the names *)
Definition usage (t : texts) : list N :=
  str "Usage of " ++ t_name t ++ line ":" ++
  concat (map (fun f => str "  -" ++ str f.1.1 ++ (if (f.1.2 : bool) then [9] else str " string" ++ [10] ++ str "    " ++ [9]) ++ str f.2 ++ (if (f.1.2 : bool) then [] else str " (default " ++ [34] ++ str "-" ++ [34] ++ str ")") ++ [10])
    [("b", true, "build dictionary"); ("d", false, "dictionary file"); ("g", true, "build/load dictionary with guide"); ("i", true, "build/load dictionary with indices");
     ("l", false, "lexicon file"); ("r", true, "build/load dictionary with ranked guide"); ("s", true, "sort lexicon before building dict"); ("t", true, "handle tab as separator");
     ("u", true, "use utf-c instead of utf-8 for encoding keys")]%string).
Inductive parsed := PDone (s : settings) (rest : list (list N)) | PBad (msg : list N) | PHelp.
(** FlagSet.parseOne, repeated *)
Fixpoint parse (t : texts) (s : settings) (args : list (list N)) : parsed :=
  match args with
  | [] => PDone s []
  | a :: rest =>
      match a with
      | c :: ((c2 :: more) as tl) =>
          if negb (c =? 45) then PDone s args else
          if (c2 =? 45) && bool_decide (more = []) then PDone s rest else
          let name := if c2 =? 45 then more else tl in
          match name with
          | [] => PBad (str "bad flag syntax: " ++ a)
          | n0 :: _ =>
              if (n0 =? 45) || (n0 =? 61) then PBad (str "bad flag syntax: " ++ a) else
              let '(name, value) := split_eq [] name in
              match name with
              | [n] =>
                  match set_bool s n true with
                  | Some s' =>
                      match value with
                      | None => parse t s' rest
                      | Some v => match parse_bool v with Some v => match set_bool s n v with Some s' => parse t s' rest | None => PBad [] end
                                  | None => PBad (str "invalid boolean value " ++ quote t v ++ str " for -" ++ name ++ str ": parse error") end
                      end
                  | None =>
                      match set_path s n [] with
                      | Some _ =>
                          match value, rest with
                          | Some v, _ => match set_path s n v with Some s' => parse t s' rest | None => PBad [] end
                          | None, v :: rest' => match set_path s n v with Some s' => parse t s' rest' | None => PBad [] end
                          | None, [] => PBad (str "flag needs an argument: -" ++ name)
                          end
                      | None => if n =? 104 then PHelp else PBad (str "flag provided but not defined: -" ++ name)
                      end
                  end
              | _ => if bool_decide (name = str "help") then PHelp else PBad (str "flag provided but not defined: -" ++ name)
              end
          end
      | _ => PDone s args
      end
  end.

(** ** The rest of main.go.  What the model leaves open: the two sorts, how append grows
    a slice and the calls of UtfcEncode before a comparison (Cli.v); which files can be
    created; what reads of a file (its path and contents) deliver, how it is cut into chunks
    and whether they end with an error (before the end of the file, for instance) or at the
    end of file; how much each write takes; [texts]. *)
Record machine := mkM { m_lsort : (list N -> list N -> bool) -> list (list N) -> list (list N); m_sort : (link -> link -> bool) -> list link -> list link;
  m_grow : nat -> nat; m_calls : list N -> list N -> list (list Z);
  m_create : list N -> bool; m_chunks : list N -> list N -> reader; m_fails : list N -> bool; m_answers : list (nat * bool); m_texts : texts }.

Definition put_file (p : list N) (o : option (list N)) (fs : list N -> option (list N)) : list N -> option (list N) := fun q => if decide (q = p) then o else fs q.
(** Opening and reading *)
Definition read_file (p : list N) : prog (option (list N)) := fun w => (w, Ret (w_fs w p)).
(** os.Create *)
Definition create (m : machine) (p : list N) : prog bool := fun w => if m_create m p then (mkW (w_out w) (put_file p (Some []) (w_fs w)), Ret true) else (w, Ret false).
(** A Write method, [answers] being what is left of [m_answers]. *)
Definition write_file (p : list N) (f : writer -> bool * writer) (answers : list (nat * bool)) : prog (bool * list (nat * bool)) := fun w =>
  match w_fs w p with
  | None => (w, Ret (false, answers))
  | Some bs => let '(ok, wr) := f (bs, answers) in (mkW (w_out w) (put_file p (Some wr.1) (w_fs w)), Ret (ok, wr.2))
  end.

Section main.
  Context (m : machine) (fuel : nat) (s : settings) (lex dic : list N).
  Notation o := (s_opts s).
  Notation die := (fatal (m_texts m)).

  (** main.go:33-71 processLine *)
  Definition process (b : builder) (l : list N) : prog (bool * builder) :=
    match l with
    | [] => ret (false, b)
    | _ =>
        do kv := (if o_tab o then
            let parts := split_on 9 [] l in
            do key := call (get parts 0);
            do val := call (get parts 1);
            match Atoi val with
            | None => die (Atoi_error (m_texts m) val)
            | Some value =>
                if (value <? 0)%Z then print (str "warning: negative value is replaced by 0: " ++ dec value ++ [10]);; ret (key, 0%Z)
                else if (MaxValue <? value)%Z then print (str "warning: too large value is replaced by " ++ dec MaxValue ++ [10]);; ret (key, MaxValue)
                else ret (key, value)
            end
          else ret (l, 0%Z));
        let bytes := if o_utfc o then utfc_encode (runes kv.1) else kv.1 in
        do r := call (InsertKeyValue b bytes (Z.of_nat (List.length bytes)) kv.2);
        if (r.1 : bool) then ret (true, r.2) else die (str "error: failed to insert key: " ++ kv.1 ++ [10])
    end.
  (** main.go:105-112, 114-122 *)
  Fixpoint process_all (b : builder) (keyCount : Z) (lines : list (list N)) : prog (Z * builder) :=
    match lines with
    | [] => ret (keyCount, b)
    | l :: rest =>
        do r := process b l;
        let keyCount' := if (r.1 : bool) then (keyCount + 1)%Z else keyCount in
        (if r.1 && (keyCount' mod 10000 =? 0)%Z then print (str "no. keys: " ++ dec keyCount' ++ [10]) else ret tt);;
        process_all r.2 keyCount' rest
    end.
  (** main.go:183-195 *)
  Definition build_index (us : dict) (g : guide) (answers : list (nat * bool)) : prog unit :=
    if negb (o_index o) then ret tt else
    do oi := call (BuildIndex us g);
    match oi with
    | None => die (line "error: failed to build Index")
    | Some ix =>
        print (str "no. index units: " ++ dec (Z.of_nat (List.length ix)) ++ [10]);;
        print (str "index size: " ++ dec (index_TotalSize ix) ++ [10]);;
        do r := write_file dic (index_Write ix) answers;
        if (r.1 : bool) then ret tt else die (line "error: failed to write Index")
    end.
  (** main.go:155-195 *)
  Definition build_guide (d : dawg) (us : dict) (answers : list (nat * bool)) : prog unit :=
    if negb (o_ranked o || o_guide o) then ret tt else
    do og := call (if o_ranked o then BuildRankedGuide (m_sort m) d us else BuildGuide d us);
    match og with
    | None => call Panic
    | Some g =>
        print (str "no. units: " ++ dec (Z.of_nat (List.length g)) ++ [10]);;
        print (str "guide size: " ++ dec (guide_TotalSize g) ++ [10]);;
        do r := write_file dic ((if o_ranked o then rguide_Write else guide_Write) g) answers;
        if (r.1 : bool) then build_index us g r.2 else die (if o_ranked o then line "error: failed to write RankedGuide" else line "error: failed to write Guide")
    end.
  (** main.go:78-80, 114-115, 231-232: all lines; without -s they are processed one by one,
      which the reads do not depend on. *)
  Definition scan_file (p contents : list N) : prog (list (list N)) := call (scanned (m_chunks m p contents) (m_fails m p)).
  (** main.go:73-196 handleBuildDict *)
  Definition handleBuild : prog unit :=
    do f := read_file lex;
    do ls := scan_file lex (default [] f);
    do r := process_all NewDawgBuilder 0 (if o_sort o then m_lsort m (line_less (m_grow m) (m_calls m) o) ls else ls);
    do f := call (Finish r.2 NewDawg);
    let d := f.1 in
    print (str "no. keys: " ++ dec r.1 ++ [10]);;
    print (str "no. states: " ++ decN (d_states d) ++ [10]);;
    print (str "no. transitions: " ++ dec (dawg_transitions d) ++ [10]);;
    print (str "no. merged states: " ++ dec (d_mergedStates d) ++ [10]);;
    print (str "no. merging states: " ++ decN (d_merging d) ++ [10]);;
    print (str "no. merged transitions: " ++ decN (d_mergedTrans d) ++ [10]);;
    do od := call (dict_BuildWithUnused d);
    match od with
    | None => die (line "error: failed to build dictionary")
    | Some (us, unused) =>
        print (str "no. elements: " ++ dec (Z.of_nat (List.length us)) ++ [10]);;
        print (str "no. unused elements: " ++ decN unused ++ str " (" ++ ratio unused (Z.of_nat (List.length us)) ++ str "%)" ++ [10]);;
        print (str "dictionary size: " ++ dec (dict_TotalSize us) ++ [10]);;
        do r := write_file dic (dict_Write us) (m_answers m);
        if (r.1 : bool) then build_guide d us r.2 else die (str "error: failed to write Dictionary")
    end.

  (** main.go:250-252 *)
  Definition hit (key : list N) (v : Z) : list N := [32] ++ key ++ str " = " ++ dec v ++ [59].
  Fixpoint print_comp (n : nat) (us : dict) (g : guide) (key : list N) (c : comp) : prog comp :=
    match n with
    | O => call Hang
    | S n' =>
        do r := call (cp_Next us g c);
        if negb r.1 then ret r.2 else
        do v := call (cp_Value us r.2);
        print (hit (key ++ cp_Key r.2) v);;
        print_comp n' us g key r.2
    end.
  Fixpoint print_rcomp (n : nat) (us : dict) (g : guide) (key : list N) (c : rcomp) : prog rcomp :=
    match n with
    | O => call Hang
    | S n' =>
        do r := call (rc_Next us g c);
        if negb r.1 then ret r.2 else
        print (hit (key ++ rc_Key r.2) (rc_Value r.2));;
        print_rcomp n' us g key r.2
    end.
  (** main.go:255-264 *)
  Fixpoint print_plain (us : dict) (pre key : list N) (index : N) : prog unit :=
    match key with
    | [] => ret tt
    | c :: rest =>
        do r := call (dc_Follow us c index);
        if negb r.1 then ret tt else
        do has := call (dc_HasValue us r.2);
        (if (has : bool) then do v := call (dc_Value us r.2); print (hit (rev (c :: pre)) v) else ret tt);;
        print_plain us (c :: pre) rest r.2
    end.
  (** main.go:238-247 *)
  Definition print_index (us : dict) (g : guide) (ix : option (list N)) (key : list N) : prog unit :=
    match ix with
    | None => ret tt
    | Some ix =>
        do n := call (ir_StringToIndex us g ix key);
        print (if n =? NotFound then str " (not found)" else if n =? Failed then str " (failed)" else str " (#" ++ decN n ++ str ")")
    end.
  (** main.go:231-267 *)
  Fixpoint queries_plain (us : dict) (keys : list (list N)) : prog unit :=
    match keys with
    | [] => ret tt
    | key :: rest => print (key ++ str ":");; print_plain us [] key 0;; print [10];; queries_plain us rest
    end.
  Fixpoint queries_guide (us : dict) (g : guide) (ix : option (list N)) (c : comp) (keys : list (list N)) : prog unit :=
    match keys with
    | [] => ret tt
    | key :: rest =>
        print (key ++ str ":");;
        print_index us g ix key;;
        do r := call (dc_FollowString us key 0);
        do c := (if (r.1 : bool) then do c := call (cp_Start g c r.2); print_comp fuel us g key c else ret c);
        print [10];;
        queries_guide us g ix c rest
    end.
  Fixpoint queries_ranked (us : dict) (g : guide) (ix : option (list N)) (c : rcomp) (keys : list (list N)) : prog unit :=
    match keys with
    | [] => ret tt
    | key :: rest =>
        print (key ++ str ":");;
        print_index us g ix key;;
        do r := call (dc_FollowString us key 0);
        do c := (if (r.1 : bool) then do c := call (rc_Start us g c r.2); print_rcomp fuel us g key c else ret c);
        print [10];;
        queries_ranked us g ix c rest
    end.
  (** main.go:272-274 *)
  Fixpoint print_words (us : dict) (g : guide) (ix : list N) (n : nat) (i : N) : prog unit :=
    match n with
    | O => ret tt
    | S n' =>
        do w := call (ir_IndexToString us g ix (u32 i));
        print (decN i ++ str ": " ++ w ++ [10]);;
        print_words us g ix n' (i + 1)
    end.
  (** main.go:198-276 handleLoadDict *)
  Definition handleLoad : prog unit :=
    do f := read_file dic;
    do r := call (ReadDictionary (m_chunks m dic (default [] f)));
    match r.1 with
    | None => die (line "error: failed to read Dictionary")
    | Some us =>
        do l := call (if o_ranked o then ReadRankedGuide r.2 else if o_guide o then ReadGuide r.2 else Ok (Some [], r.2));
        match l.1 with
        | None => die (if o_ranked o then line "error: failed to read RankedGuide" else line "error: failed to read Guide")
        | Some g =>
            do q := read_file lex;
            do keys := scan_file lex (default [] q);
            if negb (o_ranked o || o_guide o) then
              queries_plain us keys;;
              (if o_index o then call Panic else ret tt)
            else
              do i := call (if o_index o then '(oi, r) ← ReadIndex l.2; Ok (match oi with Some ix => Some (Some ix) | None => None end) else Ok (Some None));
              match i with
              | None => die (line "error: failed to read Index")
              | Some ix =>
                  (if o_ranked o then queries_ranked us g ix NewRankedCompleter keys else queries_guide us g ix NewCompleter keys);;
                  match ix with
                  | None => ret tt
                  | Some ix =>
                      do n := call (ix_TotalCount ix);
                      print (str "Total words: " ++ decN n ++ [10]);;
                      print_words us g ix (N.to_nat n) 0
                  end
              end
        end
    end.
End main.

(** main.go:278-322 main *)
Definition main (m : machine) (fuel : nat) (args : list (list N)) : prog unit :=
  let t := m_texts m in
  match parse t settings0 args with
  | PBad msg => exit 2 (msg ++ [10] ++ usage t)
  | PHelp => exit 0 (usage t)
  | PDone s rest =>
      let lex := match rest with a :: _ => if decide (s_lexicon s = str "-") then a else s_lexicon s | _ => s_lexicon s end in
      let dic := match rest with _ :: a :: _ => if decide (s_dictionary s = str "-") then a else s_dictionary s | _ => s_dictionary s end in
      do f := read_file lex;
      match f with
      | None => fatal t (open_error lex (t_open t lex))
      | Some _ =>
          if s_build s then
            do ok := create m dic;
            if (ok : bool) then handleBuild m s lex dic else fatal t (open_error dic (t_create t dic))
          else
            do f := read_file dic;
            match f with None => fatal t (open_error dic (t_open t dic)) | Some _ => handleLoad m fuel s lex dic end
      end
  end.
