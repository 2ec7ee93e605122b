(** Proofs about Main.v: the text of numbers, and runs that only print. *)
From Coq Require Import String.
From Verif Require Import Go Utf8 Dawg DawgSpec Dict Guide Completer Index Ranked RankedCompleter Serial Cli CliSpec CliProofs Scanner ScannerSpec ScannerProofs Main MainSpec.
Local Open Scope N_scope.
Local Arguments N.mul : simpl never.
Local Arguments N.add : simpl never.
Local Arguments N.of_nat : simpl never.

(** ** Numbers *)
Lemma dec_digits_ok fuel : forall n acc, n < 2 ^ N.of_nat fuel -> (0 < fuel)%nat -> Forall digit acc ->
  exists d r, dec_digits fuel n acc = d :: r ++ acc /\ Forall digit (d :: r) /\ decimal (d :: r) = Z.of_N n /\ (d = 48 -> r = [] /\ n = 0).
Proof.
  induction fuel as [|fuel IH]; intros n acc Hn Hf Ha; [lia|]. cbn [dec_digits]. destruct (N.ltb_spec n 10) as [Hl|Hl].
  - exists (48 + n), []. split; [done|]. split; [|split].
    + constructor; [|constructor]. unfold digit. lia.
    + cbn [decimal length]. change (10 ^ Z.of_nat 0)%Z with 1%Z. lia.
    + intros. split; [done|lia].
  - destruct fuel as [|fuel]; [change (2 ^ N.of_nat 1) with 2 in Hn; lia|]. assert (Hm : n mod 10 < 10) by (apply N.mod_lt; lia). pose proof (N.div_mod n 10 ltac:(lia)) as Hdm.
    destruct (IH (n / 10) (48 + n mod 10 :: acc)) as (d & r & E & Hd & Hv & H0).
    { replace (N.of_nat (S (S fuel))) with (N.succ (N.of_nat (S fuel))) in Hn by lia. rewrite N.pow_succ_r' in Hn. apply N.div_lt_upper_bound; [lia|]. lia. }
    { lia. }
    { constructor; [|done]. unfold digit. lia. }
    exists d, (r ++ [48 + n mod 10]). split; [by rewrite E, <- app_assoc|]. split; [|split].
    + rewrite app_comm_cons. apply Forall_app. split; [done|]. constructor; [|constructor]. unfold digit. lia.
    + assert (Hs : forall l x, decimal (l ++ [x]) = (10 * decimal l + (Z.of_N x - 48))%Z).
      { clear. induction l as [|y l IH]; intros x; [cbn; lia|]. cbn [app decimal]. rewrite IH, app_length. cbn [length]. rewrite Nat2Z.inj_add, Z.pow_add_r by lia. change (10 ^ Z.of_nat 1)%Z with 10%Z. lia. }
      rewrite app_comm_cons, Hs, Hv. lia.
    + intros Hd0. destruct (H0 Hd0) as [_ Hq]. apply N.div_small_iff in Hq; lia.
Qed.
Lemma pos_size p : N.pos p < 2 ^ N.of_nat (Pos.size_nat p).
Proof. induction p as [p IH|p IH|]; cbn [Pos.size_nat]; rewrite ?Nat2N.inj_succ, ?N.pow_succ_r'; [|lia|done]. assert (N.pos p~1 = 2 * N.pos p + 1) by done. lia. Qed.
Lemma decimal_nonneg ds : Forall digit ds -> (0 <= decimal ds)%Z.
Proof. induction 1 as [|d ds Hd _ IH]; cbn [decimal]; [done|]. unfold digit in Hd. assert (0 <= 10 ^ Z.of_nat (length ds))%Z by (apply Z.pow_nonneg; lia). nia. Qed.
Lemma dec_shows z : shows (dec z) z.
Proof.
  unfold dec. set (n := Z.to_N (Z.abs z)). destruct (dec_digits_ok (S (N.size_nat n)) n []) as (d & r & E & Hd & Hv & H0); [|lia|constructor|].
  { rewrite Nat2N.inj_succ, N.pow_succ_r'. destruct n as [|p]; [done|]. pose proof (pos_size p). change (N.size_nat (N.pos p)) with (Pos.size_nat p). lia. }
  rewrite E, app_nil_r. pose proof (Forall_inv Hd) as Hd1. destruct (Z.ltb_spec z 0) as [Hz|Hz]; cbn [app]; (split; [|exists d, r; split; [done|split]]).
  - replace z with (- decimal (d :: r))%Z by lia. by constructor.
  - by right.
  - intros H. destruct (H0 H). lia.
  - replace z with (decimal (d :: r)) by lia. by constructor.
  - by left.
  - intros H. destruct (H0 H) as [-> _]. by rewrite H.
Qed.

(** ** Values that are no numbers *)
Lemma digitb b : (48 <=? b) && (b <=? 57) = true <-> digit b.
Proof. unfold digit. by rewrite andb_true_iff, !N.leb_le. Qed.
Lemma too_large_spec bs : forall acc, (0 <= acc <= 18446744073709551615)%Z ->
  too_large acc bs = true <-> exists ds rest, bs = ds ++ rest /\ Forall digit ds /\ (rest = [] \/ 18446744073709551616 <= acc * 10 ^ Z.of_nat (length ds) + decimal ds)%Z.
Proof.
  induction bs as [|b r IH]; intros acc Ha; cbn [too_large]; [split; [|done]; intros _; exists [], []; split; [done|]; split; [constructor|by left]|].
  assert (Hs : forall ds, (acc * 10 ^ Z.of_nat (length (b :: ds)) + decimal (b :: ds) = (acc * 10 + (Z.of_N b - 48)) * 10 ^ Z.of_nat (length ds) + decimal ds)%Z).
  { intros ds. cbn [length decimal]. rewrite Nat2Z.inj_succ, Z.pow_succ_r by lia. lia. }
  destruct ((48 <=? b) && (b <=? 57)) eqn:Eb.
  - apply digitb in Eb as Hb. unfold digit in Hb. set (n := (acc * 10 + Z.of_N (b - 48))%Z). assert (En : n = (acc * 10 + (Z.of_N b - 48))%Z) by lia. destruct (Z.ltb_spec 18446744073709551615 n) as [Hn|Hn].
    + split; [|done]. intros _. exists [b], r. split; [done|]. split; [by repeat constructor; apply digitb|]. right. rewrite Hs. cbn. lia.
    + rewrite IH by lia. split.
      * intros (ds & rest & -> & Hd & H). exists (b :: ds), rest. split; [done|]. split; [constructor; [by apply digitb|done]|]. destruct H as [H|H]; [by left|right]. rewrite Hs. by rewrite <- En.
      * intros (ds & rest & E & Hd & H). destruct ds as [|b' ds].
        { destruct H as [->|H]; [done|]. cbn in H. lia. }
        injection E as <- ->. exists ds, rest. split; [done|]. split; [by inversion Hd|]. destruct H as [H|H]; [by left|right]. rewrite Hs in H. by rewrite En.
  - split; [done|]. intros (ds & rest & E & Hd & H). destruct ds as [|b' ds].
    { destruct H as [->|H]; [done|]. cbn in H. lia. }
    injection E as <- _. apply Forall_inv in Hd. apply digitb in Hd. congruence.
Qed.
Definition unsigned (s : list N) : list N := match s with b :: r => if (b =? 45) || (b =? 43) then r else s | [] => s end.
Lemma large_iff s : large s <-> unsigned s <> [] /\ too_large 0 (unsigned s) = true.
Proof.
  rewrite too_large_spec by lia. split.
  - intros (sg & ds & rest & -> & Hg & Hn & Hd & H). assert (E : unsigned (sg ++ ds ++ rest) = ds ++ rest).
    { destruct Hg as [->|[->| ->]]; [|done|done]. destruct ds as [|d ds]; [done|]. apply Forall_inv in Hd. unfold digit in Hd. cbn. destruct (N.eqb_spec d 45); [lia|]. by destruct (N.eqb_spec d 43); [lia|]. }
    rewrite E. split; [intros [? _]%app_eq_nil; done|]. exists ds, rest. split; [done|]. split; [done|]. destruct H as [H|H]; [by left|right; lia].
  - intros (Hn & ds & rest & E & Hd & H). assert (exists sg, s = sg ++ unsigned s /\ (sg = [] \/ sg = str "-" \/ sg = str "+")) as (sg & Es & Hg).
    { destruct s as [|b r]; [exists []; split; [done|by left]|]. cbn. destruct (N.eqb_spec b 45) as [->|_]; [exists [45]; split; [done|by right; left]|]. destruct (N.eqb_spec b 43) as [->|_]; [exists [43]; split; [done|by right; right]|]. exists []. split; [done|by left]. }
    exists sg, ds, rest. split; [by rewrite <- E|]. split; [done|]. split; [|split; [done|]].
    + intros ->. destruct H as [->|H]; [done|]. cbn in H. lia.
    + destruct H as [H|H]; [by left|right; lia].
Qed.
Lemma value_error_is m s msg : value_error m s msg <-> msg = Atoi_error (m_texts m) s.
Proof.
  unfold value_error, Atoi_error. fold (unsigned s). pose proof (large_iff s) as Hl. destruct (unsigned s) as [|b r] eqn:E.
  - assert (~ large s) by (intros [? _]%Hl; done). split; [intros (why & -> & _ & H2); by rewrite H2|]. intros ->. eexists. split; [done|]. by split.
  - destruct (too_large 0 (b :: r)) eqn:Et.
    + assert (large s) by (by apply Hl). split; [intros (why & -> & H2 & _); by rewrite H2|]. intros ->. eexists. split; [done|]. by split.
    + assert (~ large s) by (intros [_ ?]%Hl; done). split; [intros (why & -> & _ & H2); by rewrite H2|]. intros ->. eexists. split; [done|]. by split.
Qed.

(** ** Runs that print [t], leave files alone and end with [e] *)
Definition says {A} (p : prog A) (t : list N) (e : ending A) : Prop := forall w, p w = (mkW (w_out w ++ t) (w_fs w), e).
Definition ends {A} (r : res A) : ending A := match r with Ok a => Ret a | Panic => Crash | Hang => Loops end.
Lemma same w : mkW (w_out w ++ []) (w_fs w) = w.
Proof. rewrite app_nil_r. by destruct w. Qed.
Lemma says_ret {A} (a : A) : says (ret a) [] (Ret a).
Proof. intros w. by rewrite same. Qed.
Lemma says_call {A} (r : res A) : says (call r) [] (ends r).
Proof. intros w. rewrite same. by destruct r. Qed.
Lemma says_fatal {A} t msg : says (@fatal A t msg) [] (Exit 1 (logged t msg)).
Proof. intros w. by rewrite same. Qed.
Lemma says_print t : says (print t) t (Ret tt).
Proof. intros w. done. Qed.
Lemma says_bind {A B} (p : prog A) (f : A -> prog B) t1 a t2 e : says p t1 (Ret a) -> says (f a) t2 e -> says (bind p f) (t1 ++ t2) e.
Proof. intros H1 H2 w. unfold bind. rewrite H1, H2. cbn [w_out w_fs]. by rewrite <- app_assoc. Qed.
Lemma says_ok {A B} (r : res A) a (f : A -> prog B) t e : r = Ok a -> says (f a) t e -> says (bind (call r) f) t e.
Proof. intros -> H. apply (says_bind _ _ [] a); [|done]. apply (says_call (Ok a)). Qed.
Lemma says_panic {A B} (r : res A) (f : A -> prog B) : r = Panic -> says (bind (call r) f) [] Crash.
Proof. intros -> w. by rewrite same. Qed.
Lemma says_hang {A B} (r : res A) (f : A -> prog B) : r = Hang -> says (bind (call r) f) [] Loops.
Proof. intros -> w. by rewrite same. Qed.
Lemma says_then {B} (p : prog unit) (f : prog B) t1 t2 e : says p t1 (Ret tt) -> says f t2 e -> says (bind p (fun _ => f)) (t1 ++ t2) e.
Proof. apply (says_bind p (fun _ => f) t1 tt). Qed.
Lemma says_stop {A B} (p : prog A) (f : A -> prog B) t e : says p t e -> match e with Ret _ => False | _ => True end ->
  says (bind p f) t (match e with Ret _ => Crash | Exit c err => Exit c err | Crash => Crash | Loops => Loops end).
Proof. intros H He w. unfold bind. rewrite H. by destruct e. Qed.

(** [p] follows [r]; [R] relates the result of [r], the text and the result of [p]. *)
Definition sim {A B} (p : prog B) (r : res A) (R : A -> list N -> B -> Prop) : Prop :=
  match r with Ok a => exists t b, says p t (Ret b) /\ R a t b | Panic => exists t, says p t Crash | Hang => exists t, says p t Loops end.
Definition simo {A B} (p : prog B) (r : res (option A)) (R : A -> list N -> B -> Prop) : Prop :=
  match r with
  | Ok (Some a) => exists t b, says p t (Ret b) /\ R a t b
  | Ok None => exists t err, says p t (Exit 1 err)
  | Panic => exists t, says p t Crash
  | Hang => exists t, says p t Loops
  end.
Lemma sim_ret {A B} (a : A) (b : B) (R : A -> list N -> B -> Prop) : R a [] b -> sim (ret b) (Ok a) R.
Proof. intros H. exists [], b. split; [apply says_ret|done]. Qed.
Lemma simo_ret {A B} (a : A) (b : B) (R : A -> list N -> B -> Prop) : R a [] b -> simo (ret b) (Ok (Some a)) R.
Proof. intros H. exists [], b. split; [apply says_ret|done]. Qed.
Lemma simo_fatal {A B} x msg (R : A -> list N -> B -> Prop) : simo (fatal x msg) (Ok None) R.
Proof. exists [], (logged x msg). apply says_fatal. Qed.
Lemma sim_call {A} (r : res A) : sim (call r) r (fun a t b => t = [] /\ b = a).
Proof. destruct r as [a| |]; cbn [sim]; [exists [], a; split; [apply (says_call (Ok a))|done]|exists []; apply (says_call Panic)|exists []; apply (says_call Hang)]. Qed.
Lemma sim_mono {A B} (p : prog B) (r : res A) (R R' : A -> list N -> B -> Prop) : sim p r R -> (forall a t b, R a t b -> R' a t b) -> sim p r R'.
Proof. destruct r as [a| |]; cbn [sim]; [|done|done]. intros (t & b & H & HR) HH. exists t, b. split; [done|]. by apply HH. Qed.
Lemma simo_mono {A B} (p : prog B) (r : res (option A)) (R R' : A -> list N -> B -> Prop) : simo p r R -> (forall a t b, R a t b -> R' a t b) -> simo p r R'.
Proof. destruct r as [[a|]| |]; cbn [simo]; [|done|done|done]. intros (t & b & H & HR) HH. exists t, b. split; [done|]. by apply HH. Qed.
Lemma sim_bind {A B A' B'} (p : prog B) (r : res A) (R : A -> list N -> B -> Prop) (f : B -> prog B') (g : A -> res A') (R' : A' -> list N -> B' -> Prop) :
  sim p r R -> (forall a t b, R a t b -> sim (f b) (g a) (fun a' t' b' => R' a' (t ++ t') b')) -> sim (bind p f) (a ← r; g a) R'.
Proof.
  intros H HH. destruct r as [a| |]; cbn [mbind res_bind sim] in *.
  - destruct H as (t & b & H & HR). specialize (HH a t b HR). destruct (g a) as [a'| |]; cbn [sim] in *.
    + destruct HH as (t' & b' & HH & HR'). exists (t ++ t'), b'. split; [|done]. by apply (says_bind _ _ _ b).
    + destruct HH as (t' & HH). exists (t ++ t'). by apply (says_bind _ _ _ b).
    + destruct HH as (t' & HH). exists (t ++ t'). by apply (says_bind _ _ _ b).
  - destruct H as (t & H). exists t. exact (says_stop p f t Crash H I).
  - destruct H as (t & H). exists t. exact (says_stop p f t Loops H I).
Qed.
Lemma simo_bind {A B A' B'} (p : prog B) (r : res A) (R : A -> list N -> B -> Prop) (f : B -> prog B') (g : A -> res (option A')) (R' : A' -> list N -> B' -> Prop) :
  sim p r R -> (forall a t b, R a t b -> simo (f b) (g a) (fun a' t' b' => R' a' (t ++ t') b')) -> simo (bind p f) (a ← r; g a) R'.
Proof.
  intros H HH. destruct r as [a| |]; cbn [mbind res_bind sim] in *.
  - destruct H as (t & b & H & HR). specialize (HH a t b HR). destruct (g a) as [[a'|]| |]; cbn [simo] in *.
    + destruct HH as (t' & b' & HH & HR'). exists (t ++ t'), b'. split; [|done]. by apply (says_bind _ _ _ b).
    + destruct HH as (t' & err & HH). exists (t ++ t'), err. by apply (says_bind _ _ _ b).
    + destruct HH as (t' & HH). exists (t ++ t'). by apply (says_bind _ _ _ b).
    + destruct HH as (t' & HH). exists (t ++ t'). by apply (says_bind _ _ _ b).
  - destruct H as (t & H). exists t. exact (says_stop p f t Crash H I).
  - destruct H as (t & H). exists t. exact (says_stop p f t Loops H I).
Qed.
Lemma simo_bindo {A B A' B'} (p : prog B) (r : res (option A)) (R : A -> list N -> B -> Prop) (f : B -> prog B') (g : option A -> res (option A')) (R' : A' -> list N -> B' -> Prop) :
  simo p r R -> g None = Ok None -> (forall a t b, R a t b -> simo (f b) (g (Some a)) (fun a' t' b' => R' a' (t ++ t') b')) -> simo (bind p f) (a ← r; g a) R'.
Proof.
  intros H HN HH. destruct r as [[a|]| |]; cbn [mbind res_bind simo] in *.
  - destruct H as (t & b & H & HR). specialize (HH a t b HR). destruct (g (Some a)) as [[a'|]| |]; cbn [simo] in *.
    + destruct HH as (t' & b' & HH & HR'). exists (t ++ t'), b'. split; [|done]. by apply (says_bind _ _ _ b).
    + destruct HH as (t' & err & HH). exists (t ++ t'), err. by apply (says_bind _ _ _ b).
    + destruct HH as (t' & HH). exists (t ++ t'). by apply (says_bind _ _ _ b).
    + destruct HH as (t' & HH). exists (t ++ t'). by apply (says_bind _ _ _ b).
  - rewrite HN. destruct H as (t & err & H). exists t, err. exact (says_stop p f t (Exit 1 err) H I).
  - destruct H as (t & H). exists t. exact (says_stop p f t Crash H I).
  - destruct H as (t & H). exists t. exact (says_stop p f t Loops H I).
Qed.
Lemma sim_do {A A' B'} (r : res A) (f : A -> prog B') (g : A -> res A') (R' : A' -> list N -> B' -> Prop) :
  (forall a, sim (f a) (g a) R') -> sim (bind (call r) f) (a ← r; g a) R'.
Proof. intros H. apply (sim_bind _ _ _ _ _ _ (sim_call r)). intros a t b [-> ->]. apply H. Qed.
Lemma simo_do {A A' B'} (r : res A) (f : A -> prog B') (g : A -> res (option A')) (R' : A' -> list N -> B' -> Prop) :
  (forall a, simo (f a) (g a) R') -> simo (bind (call r) f) (a ← r; g a) R'.
Proof. intros H. apply (simo_bind _ _ _ _ _ _ (sim_call r)). intros a t b [-> ->]. apply H. Qed.
Lemma sim_print {A B} x (f : prog B) (r : res A) (R : A -> list N -> B -> Prop) : sim f r (fun a t b => R a (x ++ t) b) -> sim (print x;; f) r R.
Proof. intros H. apply (sim_bind (print x) (Ok tt) (fun _ t _ => t = x) (fun _ => f) (fun _ => r)); [exists x, tt; split; [apply says_print|done]|]. by intros [] t [] ->. Qed.
Lemma simo_print {A B} x (f : prog B) (r : res (option A)) (R : A -> list N -> B -> Prop) : simo f r (fun a t b => R a (x ++ t) b) -> simo (print x;; f) r R.
Proof. intros H. apply (simo_bind (print x) (Ok tt) (fun _ t _ => t = x) (fun _ => f) (fun _ => r)); [exists x, tt; split; [apply says_print|done]|]. by intros [] t [] ->. Qed.

(** ** Queries *)
Definition hits_text (l : list (list N * Z)) : list N := concat (map hit_text l).
Lemma plain_sim us key : forall pre i, sim (print_plain us pre key i) (plain_hits us pre key i) (fun l t _ => t = hits_text l).
Proof.
  induction key as [|c rest IH]; intros pre i; cbn [print_plain plain_hits]; [by apply sim_ret|].
  apply sim_do. intros [ok j]. cbn [fst snd]. destruct ok; cbn [negb]; [|by apply sim_ret]. apply sim_do. intros [].
  - change (sim (bind (do v := call (dc_Value us j); print (hit (rev (c :: pre)) v)) (fun _ => print_plain us (c :: pre) rest j))
      (v ← dc_Value us j; (fun v => l ← plain_hits us (c :: pre) rest j; Ok ((rev (c :: pre), v) :: l)) v) (fun l t _ => t = hits_text l)).
    apply (sim_bind _ _ (fun v t _ => t = hit (rev (c :: pre)) v)).
    + assert (E : forall r : res Z, r = (v ← r; Ok v)) by (by intros []). rewrite (E (dc_Value us j)) at 2. apply sim_do. intros v. exists (hit (rev (c :: pre)) v), tt. split; [apply says_print|done].
    + intros v t [] ->. specialize (IH (c :: pre) j). destruct (plain_hits us (c :: pre) rest j) as [l| |]; cbn [mbind res_bind sim] in *; [|done|done].
      destruct IH as (t & b & H & ->). by exists (hits_text l), b.
  - specialize (IH (c :: pre) j). apply (sim_bind (ret tt) (Ok tt) (fun _ t _ => t = []) _ (fun _ => plain_hits us (c :: pre) rest j)); [by apply sim_ret|]. by intros [] t [] ->.
Qed.
Lemma sim_map {A A' B} (p : prog B) (r : res A) (h : A -> A') (R : A' -> list N -> B -> Prop) : sim p r (fun a t b => R (h a) t b) -> sim p (a ← r; Ok (h a)) R.
Proof. by destruct r. Qed.
Lemma comp_sim us g key n : forall c, sim (print_comp n us g key c) (comp_hits n us g key c) (fun a t c' => t = hits_text a.1 /\ c' = a.2).
Proof.
  induction n as [|n IH]; intros c; cbn [print_comp comp_hits]; [exists []; apply (says_call Hang)|].
  apply sim_do. intros [more c1]. cbn [fst snd]. destruct more; cbn [negb]; [|by apply sim_ret]. apply sim_do. intros v. apply sim_print.
  specialize (IH c1). destruct (comp_hits n us g key c1) as [[l c2]| |]; cbn [mbind res_bind sim] in *; [|done|done]. destruct IH as (t & b & H & -> & ->). by exists (hits_text l), c2.
Qed.
Lemma rcomp_sim us g key n : forall c, sim (print_rcomp n us g key c) (rcomp_hits n us g key c) (fun a t c' => t = hits_text a.1 /\ c' = a.2).
Proof.
  induction n as [|n IH]; intros c; cbn [print_rcomp rcomp_hits]; [exists []; apply (says_call Hang)|].
  apply sim_do. intros [more c1]. cbn [fst snd]. destruct more; cbn [negb]; [|by apply sim_ret]. apply sim_print.
  specialize (IH c1). destruct (rcomp_hits n us g key c1) as [[l c2]| |]; cbn [mbind res_bind sim] in *; [|done|done]. destruct IH as (t & b & H & -> & ->). by exists (hits_text l), c2.
Qed.
Lemma index_sim us ix g key : sim (print_index us g ix key) (query_index us ix g key) (fun a t _ => t = position_text a).
Proof.
  destruct ix as [ix|]; cbn [print_index query_index]; [|by apply sim_ret]. apply sim_do. intros n. eexists _, tt. split; [apply says_print|]. unfold position_text, NotFound, Failed.
  destruct (N.eqb_spec n 4294967295) as [->|H]; [done|]. rewrite (decide_False (P := n = 4294967295)) by done. destruct (N.eqb_spec n 4294967294) as [->|H1]; [done|]. by rewrite decide_False by done.
Qed.
Lemma plain_queries us keys : sim (queries_plain us keys) (answers_plain us keys) (fun l t _ => t = answers_text l).
Proof.
  induction keys as [|key rest IH]; cbn [queries_plain answers_plain]; [by apply sim_ret|]. apply sim_print. apply (sim_bind _ _ _ _ _ _ (plain_sim us key [] 0)). intros l t [] ->. apply sim_print.
  destruct (answers_plain us rest) as [r| |]; cbn [mbind res_bind sim] in *; [|done|done]. destruct IH as (t & b & H & ->). exists (answers_text r), b. split; [done|].
  unfold answers_text. cbn [map concat]. unfold answer_text at 2. cbn [a_query a_index a_hits position_text app]. rewrite <- !app_assoc. done.
Qed.
Lemma guide_queries fuel us ix g keys : forall c, sim (queries_guide fuel us g ix c keys) (answers_guide fuel us ix g c keys) (fun l t _ => t = answers_text l).
Proof.
  induction keys as [|key rest IH]; intros c; cbn [queries_guide answers_guide]; [by apply sim_ret|]. apply sim_print. apply (sim_bind _ _ _ _ _ _ (index_sim us ix g key)). intros i t [] ->.
  apply sim_do. intros [ok j]. cbn [fst snd].
  apply (sim_bind _ _ (fun a t c' => t = hits_text a.1 /\ c' = a.2)).
  - destruct ok; [|by apply sim_ret]. apply sim_do. intros c1. apply comp_sim.
  - intros [l c1] t c2 [-> ->]. cbn [fst snd]. apply sim_print. specialize (IH c1). destruct (answers_guide fuel us ix g c1 rest) as [r| |]; cbn [mbind res_bind sim] in *; [|done|done].
    destruct IH as (t & b & H & ->). exists (answers_text r), b. split; [done|]. unfold answers_text. cbn [map concat]. unfold answer_text at 2. cbn [a_query a_index a_hits]. rewrite <- !app_assoc. done.
Qed.
Lemma ranked_queries fuel us ix g keys : forall c, sim (queries_ranked fuel us g ix c keys) (answers_ranked fuel us ix g c keys) (fun l t _ => t = answers_text l).
Proof.
  induction keys as [|key rest IH]; intros c; cbn [queries_ranked answers_ranked]; [by apply sim_ret|]. apply sim_print. apply (sim_bind _ _ _ _ _ _ (index_sim us ix g key)). intros i t [] ->.
  apply sim_do. intros [ok j]. cbn [fst snd].
  apply (sim_bind _ _ (fun a t c' => t = hits_text a.1 /\ c' = a.2)).
  - destruct ok; [|by apply sim_ret]. apply sim_do. intros c1. apply rcomp_sim.
  - intros [l c1] t c2 [-> ->]. cbn [fst snd]. apply sim_print. specialize (IH c1). destruct (answers_ranked fuel us ix g c1 rest) as [r| |]; cbn [mbind res_bind sim] in *; [|done|done].
    destruct IH as (t & b & H & ->). exists (answers_text r), b. split; [done|]. unfold answers_text. cbn [map concat]. unfold answer_text at 2. cbn [a_query a_index a_hits]. rewrite <- !app_assoc. done.
Qed.
Lemma words_sim us g ix n : forall i, sim (print_words us g ix n i) (all_words us g ix n (u32 i)) (fun l t _ => t = concat (imap (fun j k => dec (Z.of_N i + Z.of_nat j) ++ str ": " ++ k ++ [10]) l)).
Proof.
  induction n as [|n IH]; intros i; cbn [print_words all_words]; [by apply sim_ret|]. apply sim_do. intros k. apply sim_print.
  assert (E : u32 (u32 i + 1) = u32 (i + 1)) by (unfold u32; by rewrite N.add_mod_idemp_l by done). rewrite E. specialize (IH (i + 1)).
  destruct (all_words us g ix n (u32 (i + 1))) as [l| |]; cbn [mbind res_bind sim] in *; [|done|done]. destruct IH as (t & b & H & ->). eexists _, b. split; [done|].
  rewrite imap_cons. cbn [concat]. rewrite Z.add_0_r, <- !app_assoc. do 4 f_equal. f_equal. apply imap_ext. intros j x _. cbn. do 2 f_equal. lia.
Qed.
(** ** Loading *)
Definition load_prog (m : machine) (fuel : nat) (s : settings) (lexicon : option (list N)) (dic file : list N) : prog unit :=
    do r := call (ReadDictionary (m_chunks m dic file));
    match r.1 with
    | None => fatal (m_texts m) (line "error: failed to read Dictionary")
    | Some us =>
        do l := call (if o_ranked (s_opts s) then ReadRankedGuide r.2 else if o_guide (s_opts s) then ReadGuide r.2 else Ok (Some [], r.2));
        match l.1 with
        | None => fatal (m_texts m) (if o_ranked (s_opts s) then line "error: failed to read RankedGuide" else line "error: failed to read Guide")
        | Some g =>
            do q := ret lexicon;
            let keys := scan_lines (default [] q) in
            if negb (o_ranked (s_opts s) || o_guide (s_opts s)) then
              queries_plain us keys;;
              (if o_index (s_opts s) then call Panic else ret tt)
            else
              do i := call (if o_index (s_opts s) then '(oi, r) ← ReadIndex l.2; Ok (match oi with Some ix => Some (Some ix) | None => None end) else Ok (Some None));
              match i with
              | None => fatal (m_texts m) (line "error: failed to read Index")
              | Some ix =>
                  (if o_ranked (s_opts s) then queries_ranked fuel us g ix NewRankedCompleter keys else queries_guide fuel us g ix NewCompleter keys);;
                  match ix with
                  | None => ret tt
                  | Some ix =>
                      do n := call (ix_TotalCount ix);
                      print (str "Total words: " ++ decN n ++ [10]);;
                      print_words us g ix (N.to_nat n) 0
                  end
              end
        end
    end.
Lemma load_sim m fuel s lex dic w queries : delivers (m_chunks m lex (default [] (w_fs w lex))) queries ->
  let r := cli_load fuel (s_opts s) (m_chunks m dic (default [] (w_fs w dic))) queries in
  exists t e, handleLoad m fuel s lex dic w = (mkW (w_out w ++ t) (w_fs w), e) /\ match r with Ok (Some _) => e = Ret tt | Ok None => exists err, e = Exit 1 err | Panic => e = Crash | Hang => e = Loops end /\
    forall l ws, r = Ok (Some (l, ws)) -> t = answers_text l ++ words_text ws.
Proof.
  intros Hq. assert (S : simo (load_prog m fuel s (Some queries) dic (default [] (w_fs w dic))) (cli_load fuel (s_opts s) (m_chunks m dic (default [] (w_fs w dic))) queries) (fun a t _ => t = answers_text a.1 ++ words_text a.2)).
  { unfold load_prog, cli_load. apply simo_do. intros [[us|] r]; cbn [fst snd]; [|apply simo_fatal].
    apply (simo_bind _ _ (fun a t b => t = [] /\ b = (match a.1 with Some LPlain => Some [] | Some (LGuide g | LRanked g) => Some g | None => None end, a.2) /\
      match a.1 with Some LPlain => o_ranked (s_opts s) || o_guide (s_opts s) = false | Some (LGuide _) => o_ranked (s_opts s) = false /\ o_guide (s_opts s) = true | Some (LRanked _) => o_ranked (s_opts s) = true | None => True end)).
    { destruct (o_ranked (s_opts s)); [|destruct (o_guide (s_opts s))].
      - apply (sim_mono _ _ (fun a t b => t = [] /\ b = (match a.1 with Some (LGuide g | LRanked g) => Some g | _ => None end, a.2) /\ match a.1 with Some (LRanked _) | None => True | _ => False end)).
        + destruct (ReadRankedGuide r) as [[og r']| |]; cbn [mbind res_bind sim]; [|exists []; by apply (says_call Panic)|exists []; by apply (says_call Hang)]. exists [], (og, r'). split; [by apply (says_call (Ok (og, r')))|]. by destruct og.
        + intros [[[|g|g]|] r1] t b (-> & -> & H); done.
      - apply (sim_mono _ _ (fun a t b => t = [] /\ b = (match a.1 with Some (LGuide g | LRanked g) => Some g | _ => None end, a.2) /\ match a.1 with Some (LGuide _) | None => True | _ => False end)).
        + destruct (ReadGuide r) as [[og r']| |]; cbn [mbind res_bind sim]; [|exists []; by apply (says_call Panic)|exists []; by apply (says_call Hang)]. exists [], (og, r'). split; [by apply (says_call (Ok (og, r')))|]. by destruct og.
        + intros [[[|g|g]|] r1] t b (-> & -> & H); done.
      - exists [], (Some [], r). split; [apply (says_call (Ok (Some [], r)))|done]. }
    intros [ol r1] t b (-> & -> & H). cbn [fst snd] in *. destruct ol as [lg|]; [|apply simo_fatal].
    assert (K : forall g, (lg = LGuide g /\ o_ranked (s_opts s) = false /\ o_guide (s_opts s) = true) \/ (lg = LRanked g /\ o_ranked (s_opts s) = true) ->
      simo (do i := call (if o_index (s_opts s) then '(oi, r) ← ReadIndex r1; Ok (match oi with Some ix => Some (Some ix) | None => None end) else Ok (Some None));
              match i with
              | None => fatal (m_texts m) (line "error: failed to read Index")
              | Some ix =>
                  (if o_ranked (s_opts s) then queries_ranked fuel us g ix NewRankedCompleter (scan_lines queries) else queries_guide fuel us g ix NewCompleter (scan_lines queries));;
                  match ix with
                  | None => ret tt
                  | Some ix =>
                      do n := call (ix_TotalCount ix);
                      print (str "Total words: " ++ decN n ++ [10]);;
                      print_words us g ix (N.to_nat n) 0
                  end
              end)
        ('(oi, r) ← (if o_index (s_opts s) then '(oi, r) ← ReadIndex r1; Ok (match oi with Some ix => Some (Some ix) | None => None end, r) else Ok (Some None, r1));
          match oi with
          | None => Ok None
          | Some ix =>
              l ← (match lg with
                   | LRanked _ => answers_ranked fuel us ix g NewRankedCompleter (scan_lines queries)
                   | _ => answers_guide fuel us ix g NewCompleter (scan_lines queries)
                   end);
              match ix with
              | None => Ok (Some (l, None))
              | Some ix =>
                  n ← ix_TotalCount ix;
                  ws ← all_words us g ix (N.to_nat n) 0;
                  Ok (Some (l, Some (n, ws)))
              end
          end) (fun a t _ => t = answers_text a.1 ++ words_text a.2)).
    { intros g Hlg. apply (simo_bind _ _ (fun a t b => t = [] /\ b = a.1)).
      { destruct (o_index (s_opts s)).
        - destruct (ReadIndex r1) as [[oi r']| |]; cbn [mbind res_bind sim]; [|exists []; by apply (says_call Panic)|exists []; by apply (says_call Hang)]. eexists [], _. split; [apply (says_call (Ok _))|]. by destruct oi.
        - exists [], (Some None). split; [apply (says_call (Ok (Some None)))|done]. }
      intros [oi r2] t b [-> ->]. cbn [fst]. destruct oi as [ix|]; [|apply simo_fatal].
      apply (simo_bind _ _ (fun l t _ => t = answers_text l)).
      - destruct Hlg as [(-> & -> & _)|(-> & ->)]; [apply guide_queries|apply ranked_queries].
      - intros l t [] ->. destruct ix as [ix|]; [|apply simo_ret; done]. apply simo_do. intros n. apply simo_print.
        pose proof (words_sim us g ix (N.to_nat n) 0) as W. change (u32 0) with 0 in W. destruct (all_words us g ix (N.to_nat n) 0) as [ws| |]; cbn [mbind res_bind sim simo] in *; [|done|done].
        destruct W as (t & b & Hw & ->). eexists _, b. split; [exact Hw|]. cbn [fst snd words_text app]. unfold count_line. rewrite <- !app_assoc. f_equal. }
    destruct lg as [|g|g].
    - rewrite H. cbn [negb]. apply (simo_bind (ret (Some queries)) (Ok (Some queries)) (fun a t b => t = [] /\ b = a) _ (fun q => l ← answers_plain us (scan_lines (default [] q)); if o_index (s_opts s) then Panic else Ok (Some (l, None)))); [by apply sim_ret|].
      intros q t b [-> ->]. apply (simo_bind _ _ _ _ _ _ (plain_queries us _)). intros l t [] ->. destruct (o_index (s_opts s)); [exists []; apply (says_call Panic)|]. apply simo_ret. done.
    - destruct H as [H1 H2]. specialize (K g (or_introl (conj eq_refl (conj H1 H2)))).
      apply (simo_bind (ret (Some queries)) (Ok (Some queries)) (fun a t b => t = [] /\ b = Some queries) _ (fun _ => _)); [by apply sim_ret|]. intros q t b [-> ->]. rewrite H1, H2 in *. cbn [orb negb]. exact K.
    - specialize (K g (or_intror (conj eq_refl H))).
      apply (simo_bind (ret (Some queries)) (Ok (Some queries)) (fun a t b => t = [] /\ b = Some queries) _ (fun _ => _)); [by apply sim_ret|]. intros q t b [-> ->]. rewrite H in *. cbn [orb negb]. exact K. }
  assert (E : handleLoad m fuel s lex dic w = load_prog m fuel s (Some queries) dic (default [] (w_fs w dic)) w).
  { assert (B : forall {A B} (r : res A) (f g : A -> prog B), (forall a, f a w = g a w) -> bind (call r) f w = bind (call r) g w) by (intros A B [a| |] f g H; [apply (H a)|done|done]).
    unfold handleLoad, load_prog.
    apply (B _ _ (ReadDictionary _)). intros [[us|] r]; [|reflexivity]. apply B. intros [[g|] r1]; [|reflexivity]. cbn [fst]. unfold bind at 1 2, read_file, ret at 1. unfold scan_file. rewrite (delivers_scanned _ _ _ Hq). reflexivity. }
  intros r. fold r in S. rewrite E. destruct r as [[[l ws]|]| |]; cbn [simo] in S.
  - destruct S as (t & [] & H & Ht). exists t, (Ret tt). split; [apply H|]. split; [done|]. intros l' ws' [= <- <-]. exact Ht.
  - destruct S as (t & err & H). exists t, (Exit 1 err). split; [apply H|]. split; [by exists err|done].
  - destruct S as (t & H). exists t, Crash. split; [apply H|done].
  - destruct S as (t & H). exists t, Loops. split; [apply H|done].
Qed.
