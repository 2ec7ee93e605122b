(** Property theorems for utfc.go (C01-C08). *)
From Verif Require Import Go Utfc UtfcHeap UtfcSpec UtfcMain.
Local Open Scope Z_scope.

(** C01. Full statement: forall s, is_text s -> utfc_decode (utfc_encode s) = Ok s.
    It is false; the decoder reads one byte too many after marker0 (0xBB) in
    21-bit mode (utfc.go:374-381). *)
Theorem C01_round_trip_refuted :
  exists s, is_text s /\ utfc_decode (utfc_encode s) <> Ok s.
Proof. exists [0x4E00; 0x2600]. split; [repeat constructor; lia|vm_compute; discriminate]. Qed.
Print Assumptions C01_round_trip_refuted.
(** Two more shapes of the failure: a panic, and silently wrong text. *)
Example C01_panics : utfc_decode (utfc_encode [0x4E00; 0x2600]) = Panic.
Proof. vm_compute. reflexivity. Qed.
Example C01_wrong_text : utfc_decode (utfc_encode [0x4E00; 0x2600; 0x61]) = Ok [0x4E00; 0x26DA].
Proof. vm_compute. reflexivity. Qed.

(** Proved part: texts without the characters U+2600, U+A600, U+12600, ...
    (one in 32768).  Missing: texts with such a character, for which the exact
    condition is the next theorem. *)
Theorem C01_round_trip_partial s : is_text s ->
  Forall (fun c => c < 0x2600 \/ (c - 0x2600) mod 0x8000 <> 0) s ->
  utfc_decode (utfc_encode s) = Ok s.
Proof. exact (round_trip_partial s). Qed.
Print Assumptions C01_round_trip_partial.
Example C01_partial_nonvacuous :
  let s := [0x48; 0x416; 0x3042; 0x4E2D; 0x6587; 0x1F600; 0x1F300; 0] in
  is_text s /\ Forall (fun c => c < 0x2600 \/ (c - 0x2600) mod 0x8000 <> 0) s /\
  utfc_encode s = [72; 198; 183; 66; 160; 40; 45; 63; 135; 189; 161; 208; 184; 16; 190; 128]%N.
Proof.
  cbv zeta. split; [repeat constructor; lia|]. split; [|vm_compute; reflexivity].
  repeat first [apply List.Forall_nil | apply List.Forall_cons; [first [left; lia | right; vm_compute; discriminate]|]].
Qed.

(** Exact failure set (C56): the round trip fails iff at some point a character
    is coded as the single byte 0xBB while the codec is in 21-bit mode. *)
Theorem C56_round_trip_exact s : is_text s ->
  utfc_decode (utfc_encode s) = Ok s <->
  ~ (exists p c q, s = p ++ c :: q /\ is21Bit (state_after p) = true /\
       utfc_encode (p ++ [c]) = utfc_encode p ++ [0xBB%N]).
Proof. exact (round_trip_iff s). Qed.
Print Assumptions C56_round_trip_exact.

(** C02 *)
Theorem C02_no_zero_byte s : is_text s -> Forall (fun b => 1 <= b <= 255)%N (utfc_encode s).
Proof. exact (no_zero s). Qed.
Print Assumptions C02_no_zero_byte.

(** C03 *)
Theorem C03_injective s t : is_text s -> is_text t -> utfc_encode s = utfc_encode t -> s = t.
Proof. exact (injective s t). Qed.
Print Assumptions C03_injective.

(** C04 *)
Theorem C04_length_bounds s : (length s <= length (utfc_encode s) <= 3 * length s)%nat.
Proof. exact (length_bounds s). Qed.
Print Assumptions C04_length_bounds.

(** C05 *)
Theorem C05_follow_early_abort {F} (fol : F -> N -> F * bool) s f :
  let '(f', st, ok) := utfc_follow fol s f in
  if ok then accepts fol f (utfc_encode s) f' /\ st = state_after s
  else exists s1 c s2 p b q f1,
    s = s1 ++ c :: s2 /\
    utfc_encode (s1 ++ [c]) = utfc_encode s1 ++ p ++ b :: q /\
    accepts fol f (utfc_encode s1 ++ p) f1 /\ fol f1 b = (f', false) /\
    st = state_after s1.
Proof. exact (follow_spec fol s f). Qed.
Print Assumptions C05_follow_early_abort.

(** C06 *)
Theorem C06_streaming s t :
  utfc_encode (s ++ t) =
    utfc_encode s ++ (utfc_follow_from buf_follow (state_after s) t []).1.1 /\
  utfc_encode s `prefix_of` utfc_encode (s ++ t).
Proof. exact (conj (streaming s t) (streaming_prefix s t)). Qed.
Print Assumptions C06_streaming.

(** C07. Full statement: the content read through the slice of a first call is
    unchanged by a second call.  False: *)
Theorem C07_results_survive_refuted :
  exists s1 s2, is_text s1 /\ is_text s2 /\ forall grow,
    let '(sl1, h1) := UtfcEncode grow uheap_init s1 in
    let '(sl2, h2) := UtfcEncode grow h1 s2 in
    read h1 sl1 <> read h2 sl1.
Proof.
  exists [0x61], [0x62]. split; [repeat constructor; lia|]. split; [repeat constructor; lia|].
  intros grow. vm_compute. discriminate.
Qed.
Print Assumptions C07_results_survive_refuted.
(** Exactly what is read through the older slice after a later call, for every
    history, both texts, and every growth policy (C57). *)
Theorem C57_overlay grow calls s1 s2 :
  let h := run_encodes grow uheap_init calls in
  let '(sl1, h1) := UtfcEncode grow h s1 in
  let '(sl2, h2) := UtfcEncode grow h1 s2 in
  read h2 sl1 = take (length (utfc_encode s1))
                  (utfc_encode s2 ++ drop (length (utfc_encode s2)) (utfc_encode s1)).
Proof. exact (overlay grow calls s1 s2). Qed.
Print Assumptions C57_overlay.

(** C08 *)
Theorem C08_history_independent grow calls s :
  let h := run_encodes grow uheap_init calls in
  let '(sl, h') := UtfcEncode grow h s in read h' sl = utfc_encode s.
Proof. exact (history_independent grow calls s). Qed.
Print Assumptions C08_history_independent.
