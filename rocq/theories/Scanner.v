(** Model of bufio.Scanner with ScanLines (standard library, not in /repo) over a reader of
    any chunks (Serial.v), as main.go:78, 115, 231 and 307 use it: NewScanner, Scan, Text and
    Err.  A Read gives at most one chunk, and no error with bytes; so it is for files.
    Left out: the count of empty tokens, since ScanLines gives no token without advancing. *)
From Verif Require Import Go Serial Cli.
Local Open Scope N_scope.

(** io.EOF; an error of Read; bufio.ErrTooLong; io.ErrNoProgress *)
Inductive scan_err := EOF | ReadError | TooLong | NoProgress.
(** [s_size]: length of buf; [s_data]: buf[start:end]; [s_failed]: what Read says after the
    chunks, an error or the end of file. *)
Record scanner := mkSc { s_size : N; s_start : N; s_data : list N; s_err : option scan_err; s_in : reader; s_failed : bool }.
Definition NewScanner (r : reader) (failed : bool) : scanner := mkSc 0 0 [] None r failed.
(** Err *)
Definition scan_Err (s : scanner) : option scan_err := match s_err s with Some EOF => None | e => e end.

(** Read into [room] bytes: the bytes, whether there is an error, the rest *)
Definition read_some (room : nat) (r : reader) : list N * bool * reader :=
  match r with
  | [] => ([], true, [])
  | ch :: r' => if Nat.leb (length ch) room then (ch, false, r') else (take room ch, false, drop room ch :: r')
  end.
(** for loop := 0; ; { ... }: [n] is what is left of maxConsecutiveEmptyReads + 1 *)
Fixpoint fill (n : nat) (failed : bool) (room : nat) (r : reader) : list N * option scan_err * reader :=
  match n with
  | O => ([], Some NoProgress, r)
  | S n' =>
      let '(bs, e, r') := read_some room r in
      if (e : bool) then (bs, Some (if failed then ReadError else EOF), r')
      else match bs with [] => fill n' failed room r' | _ => (bs, None, r') end
  end.
(** bytes.IndexByte(data, '\n') *)
Fixpoint index_newline (bs : list N) : option nat :=
  match bs with [] => None | b :: r => if b =? 10 then Some O else match index_newline r with Some i => Some (S i) | None => None end end.
(** ScanLines: advance and token; None: 0, nil *)
Definition ScanLines (data : list N) (atEOF : bool) : option (nat * list N) :=
  match data with
  | [] => None
  | _ =>
      match index_newline data with
      | Some i => Some (S i, drop_cr (take i data))
      | None => if atEOF then Some (length data, drop_cr data) else None
      end
  end.
(** Scan, from the top of its loop on; the token, or None for false *)
Fixpoint Scan_loop (fuel : nat) (s : scanner) : res (option (list N) * scanner) :=
  match fuel with
  | O => Hang
  | S fuel' =>
      let '(mkSc size start data err r failed) := s in
      match ScanLines data (match err with Some _ => true | None => false end) with
      | Some (advance, token) => Ok (Some token, mkSc size (start + N.of_nat advance) (drop advance data) err r failed)
      | None =>
          match err with
          | Some _ => Ok (None, mkSc size 0 [] err r failed)
          | None =>
              let len := N.of_nat (length data) in
              let start := if (0 <? start) && ((start + len =? size) || (size / 2 <? start)) then 0 else start in
              if (start + len =? size) && (65536 <=? size) then Ok (None, mkSc size start data (Some TooLong) r failed)
              else
                let '(size, start) := if start + len =? size then (N.min (if 2 * size =? 0 then 4096 else 2 * size) 65536, 0) else (size, start) in
                let '(bs, e, r) := fill 101 failed (N.to_nat (size - (start + len))) r in
                Scan_loop fuel' (mkSc size start (data ++ bs) e r failed)
          end
      end
  end.
(** A turn of the loop reads a byte at least, or meets the end. *)
Definition Scan (s : scanner) : res (option (list N) * scanner) := Scan_loop (length (concat (s_in s)) + 2) s.
(** for scanner.Scan() { ... scanner.Text() ... }: every line takes a byte at least *)
Fixpoint scan_all_from (n : nat) (s : scanner) : res (list (list N) * scanner) :=
  match n with
  | O => Hang
  | S n' =>
      '(t, s) ← Scan s;
      match t with
      | None => Ok ([], s)
      | Some l => '(ls, s) ← scan_all_from n' s; Ok (l :: ls, s)
      end
  end.
Definition scan_all (s : scanner) : res (list (list N) * scanner) := scan_all_from (S (length (s_data s) + length (concat (s_in s)))) s.
(** The lines alone *)
Definition scanned (r : reader) (failed : bool) : res (list (list N)) := '(ls, _) ← scan_all (NewScanner r failed); Ok ls.
