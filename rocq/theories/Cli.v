(** Model of cmd/dawgtool/main.go:33-276 (processLine, handleBuildDict,
    handleLoadDict) with what it uses of bufio, strings, strconv and sort (standard
    library, not in /repo).
    [Ok None] is an exit by log.Fatal.  Files are byte strings (the dictionary is read
    and written as in Serial.v).  Main.v adds flag parsing and opening of files (main,
    :278-322), the lines printed while building, and the layout of what is printed while
    loading, which is given here as [answer]s. *)
From Verif Require Import Go Utfc UtfcHeap Utf8 Dawg Dict Guide Completer Index Ranked RankedCompleter Serial.
Local Open Scope N_scope.

(** main.go:16-22; -b chooses between [cli_build] and [cli_load]. *)
Record opts := mkOpts { o_tab : bool; o_guide : bool; o_ranked : bool; o_sort : bool; o_utfc : bool; o_index : bool }.

(** bufio.Scanner with ScanLines: lines end with \n or at the end of the file, one \r
    before that is dropped.  Scan stops, with an error that main.go does not look at,
    before a line that has 65536 bytes or more. *)
Fixpoint raw_lines (cur bs : list N) : list (list N) :=
  match bs with
  | [] => match cur with [] => [] | _ => [rev cur] end
  | b :: r => if b =? 10 then rev cur :: raw_lines [] r else raw_lines (b :: cur) r
  end.
Definition drop_cr (l : list N) : list N :=
  match rev l with b :: r => if b =? 13 then rev r else l | [] => l end.
Fixpoint scan_from (ls : list (list N)) : list (list N) :=
  match ls with
  | [] => []
  | l :: r => if N.of_nat (length l) <? 65536 then drop_cr l :: scan_from r else []
  end.
Definition scan_lines (bs : list N) : list (list N) := scan_from (raw_lines [] bs).

(** strings.Split for a separator of one byte *)
Fixpoint split_on (sep : N) (cur bs : list N) : list (list N) :=
  match bs with
  | [] => [rev cur]
  | b :: r => if b =? sep then rev cur :: split_on sep [] r else split_on sep (b :: cur) r
  end.
(** strconv.Atoi on a 64-bit int: None for an error, of syntax or of range. *)
Fixpoint digits (acc : Z) (bs : list N) : option Z :=
  match bs with
  | [] => Some acc
  | b :: r => if (48 <=? b) && (b <=? 57) then digits (acc * 10 + Z.of_N (b - 48)) r else None
  end.
Definition Atoi (s : list N) : option Z :=
  let '(neg, ds) := match s with b :: r => if b =? 45 then (true, r) else if b =? 43 then (false, r) else (false, s) | [] => (false, s) end in
  match ds with
  | [] => None
  | _ =>
      match digits 0 ds with
      | None => None
      | Some n =>
          let v := if (neg : bool) then (- n)%Z else n in
          if ((-9223372036854775808 <=? v) && (v <=? 9223372036854775807))%Z then Some v else None
      end
  end.
(** base_types.go:12 *)
Definition MaxValue : Z := 2147483647.

(** main.go:40-64: the bytes and the value to be inserted.  UtfcEncode's result is
    read before the next call (see UtfcHeap.v), so it is [utfc_encode]. *)
Definition line_entry (o : opts) (line : list N) : res (option (list N * Z)) :=
  kv ← (if o_tab o then
          let parts := split_on 9 [] line in
          key ← get parts 0;
          val ← get parts 1;
          Ok (match Atoi val with
              | None => None
              | Some value => Some (key, if (value <? 0)%Z then 0%Z else if (MaxValue <? value)%Z then MaxValue else value)
              end)
        else Ok (Some (line, 0%Z)));
  Ok (match kv with
      | None => None
      | Some (key, val) => Some (if o_utfc o then utfc_encode (runes key) else key, val)
      end).
(** main.go:33-71 processLine *)
Definition processLine (o : opts) (b : builder) (line : list N) : res (option (bool * builder)) :=
  match line with
  | [] => Ok (Some (false, b))
  | _ =>
      kv ← line_entry o line;
      match kv with
      | None => Ok None
      | Some (bytes, val) =>
          '(ok, b) ← InsertKeyValue b bytes (Z.of_nat (length bytes)) val;
          Ok (if (ok : bool) then Some (true, b) else None)
      end
  end.
(** main.go:105-112, 114-122: keyCount and the builder *)
Fixpoint insert_lines (o : opts) (b : builder) (keyCount : Z) (lines : list (list N)) : res (option (Z * builder)) :=
  match lines with
  | [] => Ok (Some (keyCount, b))
  | line :: rest =>
      r ← processLine o b line;
      match r with
      | None => Ok None
      | Some (counted, b) => insert_lines o b (if (counted : bool) then (keyCount + 1)%Z else keyCount) rest
      end
  end.
(** s < t on Go strings *)
Fixpoint str_less (s t : list N) : bool :=
  match s, t with
  | _, [] => false
  | [], _ :: _ => true
  | x :: s', y :: t' => if x <? y then true else if y <? x then false else str_less s' t'
  end.

(** The contract of sort.SliceStable: the elements are permuted, whatever [less] is;
    when it is a strict weak order they come out in order, equivalent ones in the
    order they had. *)
Definition stable_sorter {A} (sort : (A -> A -> bool) -> list A -> list A) : Prop :=
  (forall less l, sort less l ≡ₚ l) /\
  (forall less l, weak_order less ->
    (forall i j a b, (i < j)%nat -> sort less l !! i = Some a -> sort less l !! j = Some b -> less b a = false) /\
    (forall x, filter (fun y => equiv less x y) (sort less l) = filter (fun y => equiv less x y) l)).

Section build.
  (** sort.SliceStable on lines and on links; how append grows a slice; and the calls
      of UtfcEncode made before two lines are compared. *)
  Context (lsort : (list N -> list N -> bool) -> list (list N) -> list (list N)) (sort : (link -> link -> bool) -> list link -> list link).
  Context (grow : nat -> nat) (calls : list N -> list N -> list (list Z)).
  (** main.go:82-103 *)
  Definition line_less (o : opts) (a b : list N) : bool :=
    if negb (o_utfc o) then str_less a b
    else (utfc_sort_less grow (run_encodes grow uheap_init (calls a b)) (runes a) (runes b)).1.
  Definition cli_lines (o : opts) (lexicon : list N) : list (list N) :=
    let lines := scan_lines lexicon in if o_sort o then lsort (line_less o) lines else lines.
  Definition written {A} (r : bool * writer) (k : writer -> res (option A)) : res (option A) :=
    let '(ok, w) := r in if (ok : bool) then k w else Ok None.
  (** main.go:151-195: the file.  A nil *Guide in the interface value is not nil
      (:159, :172), so that the call of Size() panics. *)
  Definition cli_write (o : opts) (d : dawg) (us : dict) (answers : list (nat * bool)) : res (option (list N)) :=
    written (dict_Write us ([], answers)) (fun w =>
      if negb (o_ranked o || o_guide o) then Ok (Some w.1) else
      og ← (if o_ranked o then BuildRankedGuide sort d us else BuildGuide d us);
      match og with
      | None => Panic
      | Some g =>
          written ((if o_ranked o then rguide_Write else guide_Write) g w) (fun w =>
            if negb (o_index o) then Ok (Some w.1) else
            oi ← BuildIndex us g;
            match oi with
            | None => Ok None
            | Some ix => written (index_Write ix w) (fun w => Ok (Some w.1))
            end)
      end).
  (** main.go:73-196 handleBuildDict *)
  Definition cli_build (o : opts) (lexicon : list N) (answers : list (nat * bool)) : res (option (list N)) :=
    r ← insert_lines o NewDawgBuilder 0 (cli_lines o lexicon);
    match r with
    | None => Ok None
    | Some (_, b) =>
        '(d, _) ← Finish b NewDawg;
        r ← dict_BuildWithUnused d;
        match r with
        | None => Ok None
        | Some (us, _) => cli_write o d us answers
        end
    end.
End build.

(** One query of handleLoadDict: what StringToIndex gave (with -i), and the keys
    printed with their values. *)
Record answer := mkAns { a_query : list N; a_index : option N; a_hits : list (list N * Z) }.

(** main.go:250-252; [fuel] calls of Next are allowed. *)
Fixpoint comp_hits (fuel : nat) (us : dict) (g : guide) (key : list N) (c : comp) : res (list (list N * Z) * comp) :=
  match fuel with
  | O => Hang
  | S n =>
      '(more, c) ← cp_Next us g c;
      if negb more then Ok ([], c) else
      v ← cp_Value us c;
      let hit := (key ++ cp_Key c, v) in
      '(l, c) ← comp_hits n us g key c;
      Ok (hit :: l, c)
  end.
Fixpoint rcomp_hits (fuel : nat) (us : dict) (g : guide) (key : list N) (c : rcomp) : res (list (list N * Z) * rcomp) :=
  match fuel with
  | O => Hang
  | S n =>
      '(more, c) ← rc_Next us g c;
      if negb more then Ok ([], c) else
      let hit := (key ++ rc_Key c, rc_Value c) in
      '(l, c) ← rcomp_hits n us g key c;
      Ok (hit :: l, c)
  end.
(** main.go:255-264; [pre] is the part of the key already followed, reversed. *)
Fixpoint plain_hits (us : dict) (pre key : list N) (index : N) : res (list (list N * Z)) :=
  match key with
  | [] => Ok []
  | c :: rest =>
      '(ok, index) ← dc_Follow us c index;
      if negb ok then Ok [] else
      has ← dc_HasValue us index;
      if (has : bool) then
        v ← dc_Value us index;
        l ← plain_hits us (c :: pre) rest index;
        Ok ((rev (c :: pre), v) :: l)
      else plain_hits us (c :: pre) rest index
  end.

(** The objects in a loaded file: no guide without -g and -r (which goes first). *)
Inductive loaded := LPlain | LGuide (g : guide) | LRanked (g : guide).
Section load.
  Context (fuel : nat) (us : dict) (ix : option (list N)).
  (** main.go:238-247 *)
  Definition query_index (g : guide) (key : list N) : res (option N) :=
    match ix with Some ix => n ← ir_StringToIndex us g ix key; Ok (Some n) | None => Ok None end.
  (** main.go:231-267, the completer being kept from one query to the next *)
  Fixpoint answers_plain (keys : list (list N)) : res (list answer) :=
    match keys with
    | [] => Ok []
    | key :: rest => l ← plain_hits us [] key 0; r ← answers_plain rest; Ok (mkAns key None l :: r)
    end.
  Fixpoint answers_guide (g : guide) (c : comp) (keys : list (list N)) : res (list answer) :=
    match keys with
    | [] => Ok []
    | key :: rest =>
        idx ← query_index g key;
        '(ok, i) ← dc_FollowString us key 0;
        '(l, c) ← (if (ok : bool) then c ← cp_Start g c i; comp_hits fuel us g key c else Ok ([], c));
        r ← answers_guide g c rest;
        Ok (mkAns key idx l :: r)
    end.
  Fixpoint answers_ranked (g : guide) (c : rcomp) (keys : list (list N)) : res (list answer) :=
    match keys with
    | [] => Ok []
    | key :: rest =>
        idx ← query_index g key;
        '(ok, i) ← dc_FollowString us key 0;
        '(l, c) ← (if (ok : bool) then c ← rc_Start us g c i; rcomp_hits fuel us g key c else Ok ([], c));
        r ← answers_ranked g c rest;
        Ok (mkAns key idx l :: r)
    end.
  (** main.go:272-274 *)
  Fixpoint all_words (g : guide) (ix : list N) (n : nat) (i : N) : res (list (list N)) :=
    match n with
    | O => Ok []
    | S n' => w ← ir_IndexToString us g ix i; l ← all_words g ix n' (u32 (i + 1)); Ok (w :: l)
    end.
End load.

(** main.go:198-276 handleLoadDict: the answers and, with -i, the number of words and
    the words.  With -i but neither -g nor -r the Indexer is the zero value, and
    TotalCount panics. *)
Definition cli_load (fuel : nat) (o : opts) (file : reader) (queries : list N) : res (option (list answer * option (N * list (list N)))) :=
  '(od, r) ← ReadDictionary file;
  match od with
  | None => Ok None
  | Some us =>
      '(ol, r) ← (if o_ranked o then '(og, r) ← ReadRankedGuide r; Ok (match og with Some g => Some (LRanked g) | None => None end, r)
                  else if o_guide o then '(og, r) ← ReadGuide r; Ok (match og with Some g => Some (LGuide g) | None => None end, r)
                  else Ok (Some LPlain, r));
      match ol with
      | None => Ok None
      | Some LPlain =>
          l ← answers_plain us (scan_lines queries);
          if o_index o then Panic else Ok (Some (l, None))
      | Some ((LGuide g | LRanked g) as lg) =>
          '(oi, r) ← (if o_index o then '(oi, r) ← ReadIndex r; Ok (match oi with Some ix => Some (Some ix) | None => None end, r) else Ok (Some None, r));
          match oi with
          | None => Ok None
          | Some ix =>
              l ← (match lg with
                   | LRanked _ => answers_ranked fuel us ix g NewRankedCompleter (scan_lines queries)
                   | _ => answers_guide fuel us ix g NewCompleter (scan_lines queries)
                   end);
              match ix with
              | None => Ok (Some (l, None))
              | Some ix =>
                  n ← ix_TotalCount ix;
                  ws ← all_words us g ix (N.to_nat n) 0;
                  Ok (Some (l, Some (n, ws)))
              end
          end
      end
  end.
