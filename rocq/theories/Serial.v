(** Model of the Read, Write, TotalSize, FileSize and Clear methods of dictionary.go,
    guide.go, ranked_guide.go and index.go, with the parts of io and encoding/binary
    they use (standard library, not in /repo).
    A reader delivers chunks of bytes (one per Read call at most, of any length) and
    then an error or end of file.  A writer answers each Write call with the number of
    bytes it takes and an error; as io.Writer demands, a short write is an error; after
    the listed answers it takes everything.  The size field of the Go structs is the
    length of units (setUnits keeps it so).  Running out of memory in make is not
    modelled. *)
From Verif Require Import Go.
Local Open Scope N_scope.
Notation reader := (list (list N)).
Notation writer := (list N * list (nat * bool))%type.

(** io.ReadFull: [None] for an error (io.EOF or io.ErrUnexpectedEOF). *)
Fixpoint io_ReadFull (n : nat) (r : reader) : option (list N) * reader :=
  match n, r with
  | O, _ => (Some [], r)
  | _, [] => (None, [])
  | _, ch :: r' =>
      if Nat.leb (length ch) n
      then let '(o, r'') := io_ReadFull (n - length ch) r' in (match o with Some bs => Some (ch ++ bs) | None => None end, r'')
      else (Some (take n ch), drop n ch :: r')
  end.
(** Write: true for an error. *)
Definition io_Write (w : writer) (p : list N) : bool * writer :=
  match w.2 with
  | [] => (false, (w.1 ++ p, []))
  | (n, e) :: ws => (e || Nat.ltb n (length p), (w.1 ++ take n p, ws))
  end.

(** encoding/binary LittleEndian.PutUint32 and Uint32 *)
Definition put32 (x : N) : list N := [u8 x; u8 (N.shiftr x 8); u8 (N.shiftr x 16); u8 (N.shiftr x 24)].
Definition get32 (b : list N) : res N :=
  b3 ← get b 3; b0 ← get b 0; b1 ← get b 1; b2 ← get b 2;
  Ok (N.lor (N.lor (N.lor b0 (shl32 b1 8)) (shl32 b2 16)) (shl32 b3 24)).
(** guide_unit.go:3-6, by reflection: Child, then Sibling. *)
Definition putgu (x : N * N) : list N := [u8 x.1; u8 x.2].
Definition getgu (b : list N) : res (N * N) := c ← get b 0; s ← get b 1; Ok (c, s).

Section units.
  Context {A : Type} (k : nat) (put : A -> list N) (geta : list N -> res A) (zero : A).
  (** binary.Read into a slice of n units that take k bytes each *)
  Fixpoint decode (n : nat) (bs : list N) : res (list A) :=
    match n with O => Ok [] | S n' => x ← geta bs; l ← decode n' (drop k bs); Ok (x :: l) end.
  Definition binary_Read (n : nat) (r : reader) : res (option (list A) * reader) :=
    match io_ReadFull (n * k) r with
    | (Some bs, r') => l ← decode n bs; Ok (Some l, r')
    | (None, r') => Ok (None, r')
    end.
  Definition binary_ReadBase (r : reader) : res (option N * reader) :=
    match io_ReadFull 4 r with
    | (Some bs, r') => x ← get32 bs; Ok (Some x, r')
    | (None, r') => Ok (None, r')
    end.
  (** dictionary.go:58-74 / guide.go:69-86 / ranked_guide.go:55-72 Read *)
  Definition units_Read (self : list A) (r : reader) : res (bool * list A * reader) :=
    '(o, r) ← binary_ReadBase r;
    match o with
    | None => Ok (false, self, r)
    | Some baseSize =>
        '(o, r) ← binary_Read (N.to_nat baseSize) r;
        match o with
        | None => Ok (false, self, r)
        | Some l => Ok (true, l, r)
        end
    end.
  (** index.go:54-68 Read: the receiver gets zero units before the second read. *)
  Definition units_ReadInPlace (self : list A) (r : reader) : res (bool * list A * reader) :=
    '(o, r) ← binary_ReadBase r;
    match o with
    | None => Ok (false, self, r)
    | Some baseSize =>
        let self := replicate (N.to_nat baseSize) zero in
        '(o, r) ← binary_Read (N.to_nat baseSize) r;
        match o with
        | None => Ok (false, self, r)
        | Some l => Ok (true, l, r)
        end
    end.
  (** dictionary.go:77-90 / guide.go:89-102 / ranked_guide.go:75-88 / index.go:71-84 Write *)
  Definition units_Write (self : list A) (w : writer) : bool * writer :=
    let '(err, w) := io_Write w (put32 (len32 self)) in
    if err then (false, w) else
    let '(err, w) := io_Write w (flat_map put self) in
    if err then (false, w) else (true, w).
  (** dictionary.go:49-55 ReadDictionary / guide.go:60-66 ReadGuide /
      ranked_guide.go:46-52 ReadRankedGuide / index.go:45-51 ReadIndex: [None] is nil. *)
  Definition units_new (rd : list A -> reader -> res (bool * list A * reader)) (r : reader) : res (option (list A) * reader) :=
    '(ok, l, r) ← rd [] r; Ok (if (ok : bool) then Some l else None, r).
End units.

(** dictionary.go:26-32 TotalSize, FileSize; 49-90 *)
Definition dict_TotalSize (d : list N) : Z := (4 * Z.of_nat (length d))%Z.
Definition dict_FileSize (d : list N) : Z := (4 + dict_TotalSize d)%Z.
Definition dict_Read := units_Read 4 get32.
Definition dict_Write := units_Write put32.
Definition ReadDictionary := units_new dict_Read.
(** guide.go:39-45, 60-106 *)
Definition guide_TotalSize (g : list (N * N)) : Z := (2 * Z.of_nat (length g))%Z.
Definition guide_FileSize (g : list (N * N)) : Z := (4 + guide_TotalSize g)%Z.
Definition guide_Read := units_Read 2 getgu.
Definition guide_Write := units_Write putgu.
Definition ReadGuide := units_new guide_Read.
Definition guide_Clear (g : list (N * N)) : list (N * N) := take 0 g.
(** ranked_guide.go:26-32, 46-92 *)
Definition rguide_TotalSize (g : list (N * N)) : Z := (2 * Z.of_nat (length g))%Z.
Definition rguide_FileSize (g : list (N * N)) : Z := (4 + rguide_TotalSize g)%Z.
Definition rguide_Read := units_Read 2 getgu.
Definition rguide_Write := units_Write putgu.
Definition ReadRankedGuide := units_new rguide_Read.
Definition rguide_Clear (g : list (N * N)) : list (N * N) := take 0 g.
(** index.go:24-30, 45-84 *)
Definition index_TotalSize (ix : list N) : Z := (4 * Z.of_nat (length ix))%Z.
Definition index_FileSize (ix : list N) : Z := (4 + index_TotalSize ix)%Z.
Definition index_Read := units_ReadInPlace 4 get32 0.
Definition index_Write := units_Write put32.
Definition ReadIndex := units_new index_Read.
