(** Properties C111 and C112: a Dictionary and a Guide with any contents whatever, as
    Read takes them from a file (dictionary.go, completer.go, ranked_completer.go).
    Nothing here says that a builder made them. *)
From Verif Require Import Go Dawg Dict DictUnit DictThms Guide Completer Ranked Heap HeapProofs RankedCompleter Serial LinkTableProofs Properties_Serial.
Local Open Scope N_scope.
Local Arguments N.mul : simpl never.
Local Arguments N.div : simpl never.
Local Arguments N.of_nat : simpl never.
Local Arguments N.to_nat : simpl never.

(** ** What a unit says.  Bits 0-7: its label.  Bit 8: a key ends here.  Bits 10-31: the
    offset, times 256 if bit 9 is set.  The unit reached from index [i] by [c]. *)
Definition jump (u : N) : N := if N.testbit u 9 then u / 1024 * 256 else u / 1024.
Definition target (i u c : N) : N := N.lxor (N.lxor i (jump u)) c.
Definition at_ {A} (l : list A) (i : N) (x : A) : Prop := l !! N.to_nat i = Some x.
Definition beyond {A} (l : list A) (i : N) : Prop := N.of_nat (length l) <= i.
Inductive leads (us : list N) : N -> list N -> N -> Prop :=
| leads_nil i : leads us i [] i
| leads_cons i u c v q k : at_ us i u -> at_ us (target i u c) v -> v mod 256 = c -> leads us (target i u c) q k -> leads us i (c :: q) k.
(** A step that needs a unit which is not there. *)
Definition falls (us : list N) (i c : N) : Prop := beyond us i \/ exists u, at_ us i u /\ beyond us (target i u c).

Lemma at_None {A} (l : list A) i : l !! N.to_nat i = None <-> beyond l i.
Proof. rewrite lookup_ge_None. unfold beyond. lia. Qed.
Lemma at_beyond {A} (l : list A) i x : at_ l i x -> ~ beyond l i.
Proof. unfold at_. intros H Hb%at_None. congruence. Qed.
Lemma offset_jump us i u : words us -> at_ us i u -> dictOffset u = jump u.
Proof.
  intros [_ Hw] Hu. rewrite Forall_lookup in Hw. specialize (Hw _ _ Hu). cbn in Hw. rewrite dictOffset_eq. unfold jump, shl32.
  rewrite N.shiftr_div_pow2, N.shiftl_mul_pow2. change (2 ^ 10) with 1024. change (2 ^ 8) with 256. assert (u / 1024 < 4194304) by (apply N.div_lt_upper_bound; lia).
  destruct (N.testbit u 9); apply u32_id; unfold two32; lia.
Qed.
(** One Follow. *)
Lemma Follow_at us i c : words us ->
  (falls us i c /\ dc_Follow us c i = Panic) \/
  (exists u v, at_ us i u /\ at_ us (target i u c) v /\ ((v mod 256 = c /\ dc_Follow us c i = Ok (true, target i u c)) \/ (v mod 256 <> c /\ dc_Follow us c i = Ok (false, i)))).
Proof.
  intros Hw. unfold dc_Follow, get. destruct (us !! N.to_nat i) as [u|] eqn:Eu; cbn [mbind res_bind]; [|left; split; [left; by apply at_None|done]].
  rewrite (offset_jump us i u Hw Eu). fold (target i u c). cbv zeta. destruct (us !! N.to_nat (target i u c)) as [v|] eqn:Ev; cbn [mbind res_bind].
  - right. exists u, v. split; [exact Eu|]. split; [exact Ev|]. rewrite dictLabel_mod. destruct (N.eqb_spec (v mod 256) c); cbn [negb]; [by left|by right].
  - left. split; [|done]. right. exists u. split; [exact Eu|]. by apply at_None.
Qed.
Lemma not_falls us i c u v : at_ us i u -> at_ us (target i u c) v -> ~ falls us i c.
Proof.
  intros Hu Hv [H|(u' & Hu' & H)]; [exact (at_beyond _ _ _ Hu H)|]. assert (u' = u) as -> by (unfold at_ in *; congruence). exact (at_beyond _ _ _ Hv H).
Qed.
Lemma leads_fun us i q k k' : leads us i q k -> leads us i q k' -> k = k'.
Proof.
  intros H. revert k'. induction H as [|i u c v q k Hu Hv Hc Hl IH]; intros k' H'; inversion H'; subst; [done|]. apply IH. unfold at_ in *. simplify_eq. congruence.
Qed.

(** ** C111.  Looking a string up in any units: it ends; it succeeds exactly along units
    whose labels agree; it panics exactly when a step leaves the units. *)
Theorem C111_follow us i q : words us ->
  dc_FollowString us q i <> Hang /\
  (forall k, dc_FollowString us q i = Ok (true, k) <-> leads us i q k) /\
  (dc_FollowString us q i = Panic <-> exists q1 c q2 j, q = q1 ++ c :: q2 /\ leads us i q1 j /\ falls us j c).
Proof.
  intros Hw. split; [apply FollowString_nohang|]. revert i. induction q as [|c q IH]; intros i.
  { cbn [dc_FollowString]. split; [|split; [done|by intros ([]&?&?&?&?&_)]]. intros k. split; [intros [= <-]; constructor|]. intros H. inversion H. done. }
  cbn [dc_FollowString]. destruct (Follow_at us i c Hw) as [[Hf ->]|(u & v & Hu & Hv & [[Hc ->]|[Hc ->]])]; cbn [mbind res_bind].
  - split; [|split; [|done]].
    + intros k. split; [done|]. intros H. exfalso. inversion H; subst. eapply (not_falls us i); [eassumption|eassumption|exact Hf].
    + intros _. exists [], c, q, i. split; [done|]. split; [constructor|done].
  - destruct (IH (target i u c)) as [I1 I2]. split.
    + intros k. rewrite I1. split; [intros H; exact (leads_cons us i u c v q k Hu Hv Hc H)|]. intros H. inversion H; subst. unfold at_ in *. simplify_eq. done.
    + rewrite I2. split.
      * intros (q1 & d & q2 & j & -> & Hl & Hf). exists (c :: q1), d, q2, j. split; [done|]. split; [exact (leads_cons us i u c v q1 j Hu Hv Hc Hl)|done].
      * intros ([|c' q1] & d & q2 & j & E & Hl & Hf).
        -- injection E as -> ->. inversion Hl; subst. exfalso. exact (not_falls _ _ _ _ _ Hu Hv Hf).
        -- injection E as -> ->. inversion Hl; subst. unfold at_ in *. simplify_eq. exists q1, d, q2, j. done.
  - split.
    + intros k. split; [done|]. intros H. inversion H; subst. unfold at_ in *. by simplify_eq.
    + split; [done|]. intros ([|c' q1] & d & q2 & j & E & Hl & Hf); exfalso.
      * injection E as -> ->. inversion Hl; subst. exact (not_falls _ _ _ _ _ Hu Hv Hf).
      * injection E as -> ->. inversion Hl; subst. unfold at_ in *. by simplify_eq.
Qed.
Print Assumptions C111_follow.
(** The value at a unit with bit 8 is in the unit at the offset, without its bit 31. *)
Definition holds (us : list N) (q : list N) (v : Z) : Prop :=
  exists k u x, leads us 0 q k /\ at_ us k u /\ N.testbit u 8 = true /\ at_ us (target k u 0) x /\ v = Z.of_N (x mod 2147483648).
Definition breaks (us : list N) (q : list N) : Prop :=
  (exists q1 c q2 j, q = q1 ++ c :: q2 /\ leads us 0 q1 j /\ falls us j c) \/
  (exists k, leads us 0 q k /\ (beyond us k \/ exists u, at_ us k u /\ N.testbit u 8 = true /\ beyond us (target k u 0))).
Theorem C111_find us q : words us ->
  match dc_FindString us q with
  | Ok v => ((0 <= v)%Z /\ holds us q v) \/ (v = (-1)%Z /\ ~ breaks us q /\ forall w, ~ holds us q w)
  | Panic => breaks us q
  | Hang => False
  end.
Proof.
  intros Hw. destruct (C111_follow us 0 q Hw) as (Hh & Ht & Hp). unfold dc_FindString.
  destruct (dc_FollowString us q 0) as [[[] k]| |] eqn:E; cbn [mbind res_bind negb]; [| |left; by apply Hp|done].
  - assert (Hk : leads us 0 q k) by by apply Ht. unfold dc_HasValue, get. destruct (us !! N.to_nat k) as [u|] eqn:Eu; cbn [mbind res_bind].
    2: { right. exists k. split; [done|]. left. by apply at_None. }
    assert (Hnb : ~ (exists q1 c q2 j, q = q1 ++ c :: q2 /\ leads us 0 q1 j /\ falls us j c)) by (intros H%Hp; done).
    rewrite dictHasLeaf_bit. destruct (N.testbit u 8) eqn:E8; cycle 1.
    + right. split; [done|]. split.
      * intros [H|(k' & Hk' & H)]; [done|]. assert (k' = k) as -> by by eapply leads_fun. destruct H as [H|(u' & Hu' & H & _)]; [by eapply at_beyond|]. unfold at_ in Hu'. simplify_eq. congruence.
      * intros w (k' & u' & x & Hk' & Hu' & H & _). assert (k' = k) as -> by by eapply leads_fun. unfold at_ in Hu'. simplify_eq. congruence.
    + unfold dc_Value, get. rewrite Eu. cbn [mbind res_bind]. rewrite (offset_jump us k u Hw Eu). assert (E0 : N.lxor k (jump u) = target k u 0) by (unfold target; by rewrite N.lxor_0_r).
      rewrite E0. destruct (us !! N.to_nat (target k u 0)) as [x|] eqn:Ex; cbn [mbind res_bind].
      * left. assert (x < 4294967296) as Hx by (destruct Hw as [_ Hw]; rewrite Forall_lookup in Hw; exact (Hw _ _ Ex)). rewrite dictValue_mod by exact Hx. split; [lia|]. by exists k, u, x.
      * right. exists k. split; [done|]. right. exists u. split; [exact Eu|]. split; [done|]. by apply at_None.
  - assert (Hn : forall k', ~ leads us 0 q k') by (intros k' H%Ht; congruence). right. split; [done|]. split.
    + intros [H%Hp|(k' & Hk' & _)]; [congruence|by eapply Hn].
    + intros w (k' & u' & x & Hk' & _). by eapply Hn.
Qed.
Print Assumptions C111_find.
(** The other lookups end too. *)
Lemma follow_len_nohang n us q : forall i j ct, follow_len n us q i j ct <> Hang.
Proof.
  induction n as [|n IH]; intros i j ct; [done|]. cbn [follow_len]. unfold get. destruct (q !! _); cbn [mbind res_bind]; [|done].
  pose proof (Follow_nohang us n0 j) as Hn. destruct (dc_Follow us n0 j) as [[[] k]| |]; cbn [mbind res_bind]; [apply IH|done..].
Qed.
Theorem C111_ends us : words us -> forall q l i ct w,
  dc_FollowStringCount us q i ct <> Hang /\ dc_FollowStringLen us q l i <> Hang /\ dc_FollowStringLenCount us q l i ct <> Hang /\
  dc_ContainsString us q <> Hang /\ dc_ContainsStringLen us q l <> Hang /\ dc_FindStringLen us q l <> Hang /\
  dc_FindStringValue us q w <> Hang /\ dc_FindStringLenValue us q l w <> Hang.
Proof.
  intros _ q l i ct w. pose proof (FollowString_nohang us q 0) as Hs.
  assert (Hc : forall c i, dc_FollowStringCount us q i c <> Hang).
  { clear. induction q as [|x q IH]; intros c i; [done|]. cbn [dc_FollowStringCount]. pose proof (Follow_nohang us x i) as Hn. destruct (dc_Follow us x i) as [[[] j]| |]; cbn [mbind res_bind]; [apply IH|done..]. }
  assert (Hl : forall i, dc_FollowStringLen us q l i <> Hang).
  { intros j. unfold dc_FollowStringLen. pose proof (follow_len_nohang (Z.to_nat l) us q 0 j 0%Z) as Hn. destruct (follow_len _ us q 0 j 0%Z) as [[[a b] c]| |]; done. }
  assert (Hh : forall j, dc_HasValue us j <> Hang) by (intros j; unfold dc_HasValue, get; by destruct (us !! _)).
  assert (Hv : forall j, dc_Value us j <> Hang) by (intros j; unfold dc_Value, get; destruct (us !! _); [cbn [mbind res_bind]; by destruct (us !! _)|done]).
  split; [apply Hc|]. split; [apply Hl|]. split; [apply follow_len_nohang|].
  unfold dc_ContainsString, dc_ContainsStringLen, dc_FindStringLen, dc_FindStringValue, dc_FindStringLenValue. specialize (Hl 0).
  destruct (dc_FollowString us q 0) as [[[] j]| |]; [..|done]; destruct (dc_FollowStringLen us q l 0) as [[[] k]| |]; try done; cbn [mbind res_bind negb];
    repeat match goal with |- context [dc_HasValue us ?x] => pose proof (Hh x); destruct (dc_HasValue us x) as [[]| |]; try done; cbn [mbind res_bind negb] end;
    repeat match goal with |- context [dc_Value us ?x] => pose proof (Hv x); destruct (dc_Value us x) as [?| |]; try done; cbn [mbind res_bind negb] end; done.
Qed.
Print Assumptions C111_ends.
(** Units for all the outcomes: found, not found, and both panics. *)
Example C111_case : words [0; 1281; 258] /\ dc_FindString [0; 1281; 258] [1] = Ok 0%Z /\ dc_FindString [0; 1281; 258] [1; 1] = Ok 0%Z /\
  dc_FindString [0; 1281; 258] [1; 2] = Ok 258%Z /\ dc_FindString [0; 1281; 258] [2; 2] = Ok (-1)%Z /\ dc_FindString [0; 1281; 258] [3] = Panic /\ dc_FindString [256 + 1024 * 3] [] = Panic.
Proof. split; [split; [done|repeat constructor]|]. by vm_compute. Qed.

(** ** C112.  One step of the search for a key: from a unit without bit 8 to its first
    child.  For the RankedCompleter: to the first child, unless that is 0 (the end of a key). *)
Definition dives (us : list N) (g : list (N * N)) (i j : N) : Prop :=
  exists u c s v, at_ us i u /\ N.testbit u 8 = false /\ at_ g i (c, s) /\ j = target i u c /\ at_ us j v /\ v mod 256 = c.
Definition rdives (us : list N) (g : list (N * N)) (i j : N) : Prop :=
  exists u c s v, at_ us i u /\ at_ g i (c, s) /\ c <> 0 /\ j = target i u c /\ at_ us j v.
Definition endless (step : N -> N -> Prop) (i : N) : Prop := exists f : nat -> N, f O = i /\ forall n, step (f n) (f (S n)).

(** Iterating a partial function defined below [L] only: more than [L] steps are
    endlessly many. *)
Section iterate.
  Context (f : N -> option N) (L : nat) (Hf : forall i j, f i = Some j -> (N.to_nat i < L)%nat).
  Fixpoint times (n : nat) (i : N) : option N := match n with O => Some i | S n' => j ← f i; times n' j end.
  Lemma times_S n : forall i, times (S n) i = (times n i ≫= f).
  Proof. induction n as [|n IH]; intros i; [cbn; by destruct (f i)|]. cbn [times] in *. destruct (f i) as [j|]; [|done]. cbn [mbind option_bind]. apply IH. Qed.
  Lemma times_le n m i : (m <= n)%nat -> is_Some (times n i) -> is_Some (times m i).
  Proof.
    induction 1 as [|n _ IH]; [done|]. intros H. apply IH. rewrite times_S in H. destruct (times n i); [done|]. by destruct H.
  Qed.
  Lemma times_add n m i : times (n + m) i = (times n i ≫= times m).
  Proof. revert i. induction n as [|n IH]; intros i; [done|]. cbn. destruct (f i); cbn; [apply IH|done]. Qed.
  Lemma repeats (l : list N) : NoDup l \/ exists a b x, (a < b)%nat /\ l !! a = Some x /\ l !! b = Some x.
  Proof.
    induction l as [|y l [IH|(a & b & x & H1 & H2 & H3)]]; [left; constructor| |right; exists (S a), (S b), x; repeat split; [lia|done..]].
    destruct (decide (y ∈ l)) as [Hy|Hy]; [|left; by constructor]. apply elem_of_list_lookup in Hy as [b Hb]. right. exists O, (S b), y. repeat split; [lia|done].
  Qed.
  Lemma below_length (l : list N) : NoDup l -> Forall (fun x => (N.to_nat x < L)%nat) l -> (length l <= L)%nat.
  Proof.
    intros Hd Hl. assert (Hs : N.to_nat <$> l ⊆+ seq 0 L).
    { apply NoDup_submseteq; [apply NoDup_fmap_2; [intros x y; lia|done]|]. intros x (y & -> & Hy)%elem_of_list_fmap. rewrite Forall_forall in Hl. specialize (Hl y Hy). apply elem_of_seq. lia. }
    apply submseteq_length in Hs. by rewrite fmap_length, seq_length in Hs.
  Qed.
  Lemma times_forever i : is_Some (times (S L) i) -> forall n, is_Some (times n i).
  Proof.
    intros H. assert (Hm : forall n, (n <= L)%nat -> exists x, times n i = Some x /\ (N.to_nat x < L)%nat).
    { intros n Hn. destruct (times_le (S L) (S n) i) as [y Hy]; [lia|done|]. rewrite times_S in Hy. destruct (times n i) as [x|]; [|done]. exists x. split; [done|]. by eapply Hf. }
    set (l := map (fun n => default 0 (times n i)) (seq 0 (S L))). destruct (repeats l) as [Hd|(a & b & x & Hab & Ha & Hb)].
    { exfalso. assert (Hl : (length l <= L)%nat).
      { apply below_length; [done|]. apply Forall_fmap, Forall_forall. intros n [_ Hn]%elem_of_seq. destruct (Hm n) as (y & Hy & ?); [lia|]. cbn. by rewrite Hy. }
      unfold l in Hl. rewrite map_length, seq_length in Hl. lia. }
    assert (E : forall k, l !! k = Some x -> times k i = Some x).
    { intros k Hk. unfold l in Hk. apply list_lookup_fmap_inv in Hk as (n & Hn & Hk). apply lookup_seq in Hk as [-> Hk]. destruct (Hm (0 + k)%nat) as (y & Hy & _); [lia|]. rewrite Hy in Hn. cbn in Hn, Hy. by rewrite Hn. }
    apply E in Ha, Hb. clear E. intros n. induction (lt_wf n) as [n _ IH]. destruct (decide (n <= b)%nat) as [Hn|Hn].
    - eapply times_le; [exact Hn|]. by eexists.
    - replace n with (b + (n - b))%nat by lia. rewrite times_add, Hb. assert (H2 := times_add a (n - b) i). rewrite Ha in H2. cbn [mbind option_bind] in H2 |- *. rewrite <- H2. apply IH. lia.
  Qed.
  Lemma times_endless i (step : N -> N -> Prop) : (forall i j, step i j <-> f i = Some j) -> endless step i <-> is_Some (times (S L) i).
  Proof.
    intros Hs. split.
    - intros (s & <- & H). assert (E : forall n, times n (s O) = Some (s n)) by (induction n as [|n IH]; [done|]; rewrite times_S, IH; by apply Hs). rewrite E. by eexists.
    - intros H. pose proof (times_forever i H) as Hn. exists (fun n => default 0 (times n i)). split; [done|]. intros n. apply Hs. destruct (Hn (S n)) as [y Hy]. rewrite Hy.
      rewrite times_S in Hy. destruct (times n i); done.
  Qed.
End iterate.
(** The steps as functions. *)
Definition dive (us : list N) (g : list (N * N)) (i : N) : option N :=
  u ← us !! N.to_nat i; if N.testbit u 8 then None else
  '(c, _) ← g !! N.to_nat i;
  v ← us !! N.to_nat (target i u c); if v mod 256 =? c then Some (target i u c) else None.
Definition rdive (us : list N) (g : list (N * N)) (i : N) : option N :=
  u ← us !! N.to_nat i;
  '(c, _) ← g !! N.to_nat i; if c =? 0 then None else
  _ ← us !! N.to_nat (target i u c); Some (target i u c).
Lemma dive_iff us g i j : dives us g i j <-> dive us g i = Some j.
Proof.
  unfold dives, dive, at_. split.
  - intros (u & c & s & v & -> & E8 & Hg & -> & Hv & E). cbn [mbind option_bind]. rewrite E8, Hg. cbn [mbind option_bind]. rewrite Hv. cbn [mbind option_bind]. by rewrite (proj2 (N.eqb_eq _ _) E).
  - destruct (us !! N.to_nat i) as [u|]; cbn [mbind option_bind]; [|done]. destruct (N.testbit u 8) eqn:E8; [done|]. destruct (g !! N.to_nat i) as [[c s]|]; cbn [mbind option_bind]; [|done].
    destruct (us !! N.to_nat (target i u c)) as [v|] eqn:Ev; cbn [mbind option_bind]; [|done]. destruct (N.eqb_spec (v mod 256) c); [|done]. intros [= <-]. by exists u, c, s, v.
Qed.
Lemma rdive_iff us g i j : rdives us g i j <-> rdive us g i = Some j.
Proof.
  unfold rdives, rdive, at_. split.
  - intros (u & c & s & v & -> & Hg & Hc & -> & Hv). cbn [mbind option_bind]. rewrite Hg. cbn [mbind option_bind]. rewrite (proj2 (N.eqb_neq _ _) Hc), Hv. done.
  - destruct (us !! N.to_nat i) as [u|]; cbn [mbind option_bind]; [|done]. destruct (g !! N.to_nat i) as [[c s]|]; cbn [mbind option_bind]; [|done]. destruct (N.eqb_spec c 0); [done|].
    destruct (us !! N.to_nat (target i u c)) as [v|] eqn:Ev; cbn [mbind option_bind]; [|done]. intros [= <-]. by exists u, c, s, v.
Qed.
Lemma dive_low us g i j : dive us g i = Some j -> (N.to_nat i < length us)%nat.
Proof. unfold dive. destruct (us !! N.to_nat i) eqn:E; [|done]. intros _. by eapply lookup_lt_Some. Qed.
Lemma rdive_low us g i j : rdive us g i = Some j -> (N.to_nat i < length us)%nat.
Proof. unfold rdive. destruct (us !! N.to_nat i) eqn:E; [|done]. intros _. by eapply lookup_lt_Some. Qed.

(** Searching with any number of steps. *)
Local Ltac nope := split; [intros H; discriminate H|intros [? H]; discriminate H].
Lemma FindTerminal_times us g fuel : words us -> forall c i, cp_path c <> [] -> cp_FindTerminal fuel us g c i = Hang <-> is_Some (times (dive us g) fuel i).
Proof.
  intros Hw. induction fuel as [|n IH]; intros c i Hp; [cbn; split; [by eexists|done]|]. cbn [cp_FindTerminal times]. set (F := times (dive us g) n) in *. unfold dc_HasValue, gd_Child, get, dive.
  destruct (us !! N.to_nat i) as [u|] eqn:Eu; cbn [mbind res_bind option_bind]; [|nope]. rewrite dictHasLeaf_bit. destruct (N.testbit u 8) eqn:E8; [nope|].
  destruct (g !! N.to_nat i) as [[l s]|] eqn:Eg; cbn [mbind res_bind option_bind fst]; [|nope]. unfold cp_Follow, dc_Follow, get. rewrite Eu. cbn [mbind res_bind option_bind].
  rewrite (offset_jump us i u Hw Eu). fold (target i u l). cbv zeta. destruct (us !! N.to_nat (target i u l)) as [v|] eqn:Ev; cbn [mbind res_bind option_bind]; [|nope].
  rewrite dictLabel_mod. destruct (v mod 256 =? l) eqn:El; cbn [mbind res_bind option_bind negb]; [|nope].
  unfold path_push. destruct (cp_path c) as [|p0 p] eqn:Epp; [done|]. cbn [mbind res_bind negb]. apply IH. cbn [cp_path]. by destruct (removelast (p0 :: p)).
Qed.
(** The search of Completer.Next runs for ever exactly along an endless chain of first
    children without values: whatever the number of steps, it is not at its end. *)
Theorem C112_search us g c i : words us -> cp_path c <> [] ->
  (cp_FindTerminal (S (length us)) us g c i = Hang <-> endless (dives us g) i) /\
  (endless (dives us g) i -> forall n, cp_FindTerminal n us g c i = Hang).
Proof.
  intros Hw Hp. assert (E : endless (dives us g) i <-> is_Some (times (dive us g) (S (length us)) i)) by (apply times_endless; [apply dive_low|apply dive_iff]).
  split; [by rewrite E, FindTerminal_times|]. intros He n. apply FindTerminal_times; [done..|]. apply (times_forever _ (length us)); [apply dive_low|by apply E].
Qed.
Print Assumptions C112_search.
Lemma cp_Follow_nohang us c l i : cp_Follow us c l i <> Hang.
Proof.
  unfold cp_Follow. pose proof (Follow_nohang us l i) as Hn. destruct (dc_Follow us l i) as [[[] j]| |]; cbn [mbind res_bind negb]; [|done..]. unfold path_push. by destruct (cp_path c).
Qed.
Lemma path_push_ne p l p' : path_push p l = Ok p' -> p' <> [].
Proof. unfold path_push. destruct p as [|a p]; [done|]. intros H. assert (E : p' = removelast (a :: p) ++ [l; 0]) by congruence. rewrite E. by destruct (removelast (a :: p)). Qed.
Lemma cp_Follow_path us c l i j c' : cp_Follow us c l i = Ok (true, j, c') -> cp_path c' <> [].
Proof.
  unfold cp_Follow. destruct (dc_Follow us l i) as [[[] k]| |]; cbn [mbind res_bind negb]; [|done..]. destruct (path_push _ _) as [p| |] eqn:E; cbn [mbind res_bind]; [|done..]. intros [= _ <-]. cbn [cp_path]. exact (path_push_ne _ _ _ E).
Qed.
Lemma cp_back_nohang us g last stack : forall path i, cp_back us g path last i stack <> Hang.
Proof.
  induction stack as [|a stack IH]; intros path i; cbn [cp_back]; unfold gd_Sibling, get; (destruct (g !! _); cbn [mbind res_bind]; [|done]); [done|].
  destruct stack as [|b stack]; [done|]. destruct (negb _); [|apply IH].
  match goal with |- context [cp_Follow us ?c ?l ?k] => pose proof (cp_Follow_nohang us c l k) as Hn; destruct (cp_Follow us c l k) as [[[ok j] c']| |] end; done.
Qed.
Lemma cp_back_path us g last stack : forall path i j c', cp_back us g path last i stack = Ok (Some j, c') -> cp_path c' <> [].
Proof.
  induction stack as [|a stack IH]; intros path i j c'; cbn [cp_back]; unfold gd_Sibling, get; (destruct (g !! _); cbn [mbind res_bind]; [|done]); [done|].
  destruct stack as [|b stack]; [done|]. destruct (negb _); [|apply IH].
  match goal with |- context [cp_Follow us ?c ?l ?k] => destruct (cp_Follow us c l k) as [[[[] k'] c'']| |] eqn:E end; cbn [mbind res_bind]; intros H; try done.
  injection H as <- <-. by eapply cp_Follow_path.
Qed.
(** Where no endless chain starts, Next returns or panics; and the first Next from a
    unit never returns exactly when one starts there. *)
Theorem C112_next us g c : words us -> cp_path c <> [] -> cp_Next us g c = Hang -> exists i, endless (dives us g) i.
Proof.
  intros Hw Hp. unfold cp_Next. destruct (cp_stack c) as [|i st]; [done|].
  assert (Hgo : forall j c', cp_path c' <> [] -> cp_FindTerminal (S (length us)) us g c' j = Hang -> exists i, endless (dives us g) i) by (intros j c' Hp' H; exists j; by apply (C112_search us g c' j)).
  destruct (negb (cp_last c =? 0)); cbn [mbind res_bind]; [|by apply Hgo]. unfold gd_Child, get. destruct (g !! N.to_nat i) as [[l s]|]; cbn [mbind res_bind fst]; [|done]. destruct (negb (l =? 0)).
  - pose proof (cp_Follow_nohang us c l i) as Hn. destruct (cp_Follow us c l i) as [[[[] j] c']| |] eqn:E; cbn [mbind res_bind]; [|done..]. apply Hgo. by eapply cp_Follow_path.
  - pose proof (cp_back_nohang us g (cp_last c) (i :: st) (cp_path c) i) as Hn. destruct (cp_back us g (cp_path c) (cp_last c) i (i :: st)) as [[[j|] c']| |] eqn:E; cbn [mbind res_bind]; [|done..]. apply Hgo. by eapply cp_back_path.
Qed.
Print Assumptions C112_next.
Theorem C112_first us g c0 i p c : words us -> cp_StartString g c0 i p = Ok c -> (cp_Next us g c = Hang <-> g <> [] /\ endless (dives us g) i).
Proof.
  intros Hw. unfold cp_StartString, cp_StartStringLen. destruct (_ <? 0)%Z; [done|]. destruct (_ <? _)%Z; [done|]. intros [= <-]. destruct g as [|x g]; [split; [done|by intros [? _]]|].
  unfold cp_Next. cbn [cp_stack cp_last]. change (0 =? 0) with true. cbn [negb mbind res_bind].
  match goal with |- context [cp_FindTerminal _ us _ ?c i] => assert (Hp : cp_path c <> []) by (cbn [cp_path]; intros H%app_eq_nil; by destruct H); rewrite (proj1 (C112_search us (x :: g) c i Hw Hp)) end.
  split; [by split|by intros [_ ?]].
Qed.
Print Assumptions C112_first.

(** The RankedCompleter: likewise, along first children up to the end of a key.  Nodes are
    numbered below 2^32. *)
Lemma find_step us g n ns i x : words us -> ns !! N.to_nat i = Some x -> rn_label x <> 0 -> N.of_nat (length ns) < 4294967296 ->
  (exists u s, at_ us (rn_dict x) u /\ at_ g (rn_dict x) (0, s) /\ exists ns' j y, ns' !! N.to_nat j = Some y /\ rn_label y = 0 /\ rc_findTerminal us g (S n) ns i = rc_findTerminal us g n ns' j) \/
  (exists d, rdive us g (rn_dict x) = Some d /\ exists ns' j y, ns' !! N.to_nat j = Some y /\ rn_label y <> 0 /\ rn_dict y = d /\ length ns' = S (length ns) /\ rc_findTerminal us g (S n) ns i = rc_findTerminal us g n ns' j) \/
  (rdive us g (rn_dict x) = None /\ rc_findTerminal us g (S n) ns i = Panic).
Proof.
  intros Hw Hx Hl Hn. cbn [rc_findTerminal]. unfold gd_Child, fwc, rdive, get. rewrite Hx. cbn [mbind res_bind]. rewrite (proj2 (N.eqb_neq _ _) Hl).
  destruct (us !! N.to_nat (rn_dict x)) as [u|] eqn:Eu; cbn [mbind res_bind option_bind]; cycle 1.
  { right. right. split; [done|]. destruct (g !! _) as [[l s]|]; cbn [mbind res_bind fst]; [|done]. unfold upd, get, set. rewrite Hx. by destruct (l =? 0). }
  destruct (g !! N.to_nat (rn_dict x)) as [[l s]|] eqn:Eg; cbn [mbind res_bind option_bind fst]; [|by right; right]. rewrite (offset_jump us (rn_dict x) u Hw Eu). fold (target (rn_dict x) u l).
  destruct (N.eqb_spec l 0) as [->|Hc].
  - left. exists u, s. split; [exact Eu|]. split; [exact Eg|]. unfold upd, get, set. rewrite Hx. cbn [mbind res_bind]. unfold rc_createNode. change (0 =? 0) with true. cbn [negb mbind res_bind].
    eexists _, _, _. split; [|split; [|reflexivity]].
    + rewrite u32_id by (rewrite insert_length; unfold two32; lia). rewrite Nat2N.id. by rewrite lookup_app_r, Nat.sub_diag.
    + done.
  - right. cbn [mbind res_bind]. unfold rc_createNode. rewrite (proj2 (N.eqb_neq _ _) Hc). cbn [negb]. unfold dc_HasValue, get. destruct (us !! N.to_nat (target (rn_dict x) u l)) as [v|] eqn:Ev; cbn [mbind res_bind option_bind]; [|by right].
    left. eexists. split; [reflexivity|]. eexists _, _, _. split; [|split; [|split; [|split; [|reflexivity]]]].
    + rewrite u32_id by (unfold two32; lia). rewrite Nat2N.id. by rewrite lookup_app_r, Nat.sub_diag.
    + done.
    + done.
    + rewrite app_length. cbn. lia.
Qed.
Lemma find_hang us g : words us -> forall n ns i x, ns !! N.to_nat i = Some x -> rn_label x <> 0 -> N.of_nat (length ns + n) < 4294967296 ->
  (is_Some (times (rdive us g) n (rn_dict x)) -> rc_findTerminal us g n ns i = Hang) /\
  (rc_findTerminal us g n ns i = Hang -> is_Some (times (rdive us g) (pred n) (rn_dict x))).
Proof.
  intros Hw. induction n as [|n IH]; intros ns i x Hx Hl Hn; [done|].
  destruct (find_step us g n ns i x Hw Hx Hl ltac:(lia)) as [(u & s & Hu & Hg & ns' & j & y & Hy & Hly & E)|[(d & Hd & ns' & j & y & Hy & Hly & Hyd & Hlen & E)|[Hd E]]]; rewrite E.
  - split.
    + cbn [times]. assert (Hd : rdive us g (rn_dict x) = None) by (unfold rdive, at_ in *; rewrite Hu; cbn [mbind option_bind]; by rewrite Hg). rewrite Hd. intros [? H]; discriminate H.
    + destruct n as [|n]; [by intros; eexists|]. cbn [rc_findTerminal]. unfold get. rewrite Hy. cbn [mbind res_bind]. rewrite Hly. done.
  - destruct (IH ns' j y Hy Hly ltac:(lia)) as [I1 I2]. rewrite Hyd in I1, I2. split.
    + cbn [times]. rewrite Hd. exact I1.
    + intros H. specialize (I2 H). destruct n as [|n]; [by eexists|]. cbn [pred times] in *. by rewrite Hd.
  - split; [cbn [times]; rewrite Hd; intros [? H]; discriminate H|done].
Qed.
Theorem C112_ranked us g ns i x : words us -> ns !! N.to_nat i = Some x -> rn_label x <> 0 -> N.of_nat (length ns + length us + 2) < 4294967296 ->
  (rc_findTerminal us g (S (S (length us))) ns i = Hang <-> endless (rdives us g) (rn_dict x)) /\
  (endless (rdives us g) (rn_dict x) -> forall n, N.of_nat (length ns + n) < 4294967296 -> rc_findTerminal us g n ns i = Hang).
Proof.
  intros Hw Hx Hl Hn. assert (E : endless (rdives us g) (rn_dict x) <-> is_Some (times (rdive us g) (S (length us)) (rn_dict x))) by (apply times_endless; [apply rdive_low|apply rdive_iff]).
  assert (Hf : endless (rdives us g) (rn_dict x) -> forall n, is_Some (times (rdive us g) n (rn_dict x))) by (intros He; apply (times_forever _ (length us)); [apply rdive_low|by apply E]).
  split; [split|].
  - intros H. apply E. apply (find_hang us g Hw (S (S (length us))) ns i x Hx Hl ltac:(lia)). exact H.
  - intros He. apply (find_hang us g Hw (S (S (length us))) ns i x Hx Hl ltac:(lia)). by apply Hf.
  - intros He n Hnn. apply (find_hang us g Hw _ ns i x Hx Hl Hnn). by apply Hf.
Qed.
Print Assumptions C112_ranked.
(** The rest of Next ends. *)
Lemma hp_up_nohang {A} (less : A -> A -> bool) fuel : forall q j, (j < fuel)%nat -> hp_up less fuel q j <> Hang.
Proof.
  induction fuel as [|n IH]; intros q j Hj; [lia|]. cbn [hp_up]. cbv zeta. destruct (Nat.eqb_spec (Nat.div2 (j - 1)) j) as [|Hne]; [done|]. unfold hp_Less, hp_Swap.
  destruct (q !! j) as [a|]; [|done]. destruct (q !! Nat.div2 (j - 1)) as [b|]; [|done]. cbn [mbind res_bind]. destruct (negb _); [done|]. apply IH.
  destruct j as [|j]; [done|]. destruct (par_spec (S j)); lia.
Qed.
Lemma hp_down_nohang {A} (less : A -> A -> bool) n f : forall q i, (n <= f + i)%nat -> hp_down less (S f) q i n <> Hang.
Proof.
  induction f as [|f IH]; intros q i Hi; remember (S f) as sf eqn:Ef || idtac; cbn [hp_down]; cbv zeta; (destruct (Nat.leb_spec n (2 * i + 1)%nat) as [|Hn]; [done|]); [lia|].
  unfold hp_Less, hp_Swap. assert (Hgo : forall (b : bool), (b0 ← match q !! (if b then 2 * i + 1 + 1 else 2 * i + 1)%nat, q !! i with Some a, Some b => Ok (less a b) | _, _ => Panic end;
    if negb b0 then Ok q else q0 ← match q !! i, q !! (if b then 2 * i + 1 + 1 else 2 * i + 1)%nat with Some a, Some b0 => Ok (<[i := b0]> (<[(if b then 2 * i + 1 + 1 else 2 * i + 1)%nat := a]> q)) | _, _ => Panic end;
    hp_down less sf q0 (if b then 2 * i + 1 + 1 else 2 * i + 1)%nat n) <> Hang).
  { intros b. destruct (q !! (if b then _ else _)) as [x|]; [|done]. destruct (q !! i) as [y|]; [|done]. cbn [mbind res_bind]. destruct (negb _); [done|]. subst sf. apply IH. destruct b; lia. }
  destruct (_ <? _)%nat; cbn [mbind res_bind]; [|exact (Hgo false)]. destruct (q !! (2 * i + 1 + 1)%nat) as [x|]; [|done]. destruct (q !! (2 * i + 1)%nat) as [y|]; [|done]. cbn [mbind res_bind]. exact (Hgo _).
Qed.
Lemma hp_Push_nohang {A} (less : A -> A -> bool) q x : hp_Push less q x <> Hang.
Proof. apply hp_up_nohang. lia. Qed.
Lemma hp_Pop_nohang {A} (less : A -> A -> bool) q : hp_Pop less q <> Hang.
Proof.
  unfold hp_Pop. destruct q as [|x q]; [done|]. set (l := x :: q). unfold hp_Swap. destruct (l !! O); [|done]. destruct (l !! _); [|done]. cbn [mbind res_bind].
  match goal with |- context [hp_down less ?f ?q ?i ?n] => pose proof (hp_down_nohang less n n q i ltac:(lia)) as H; destruct (hp_down less f q i n) as [q'| |]; [|done..] end.
  cbn [mbind res_bind]. by destruct (q' !! _).
Qed.
(** Nodes come after their parents. *)
Definition after (ns : list rnode) : Prop := forall k x, ns !! k = Some x -> (k = O /\ rn_prev x = 0) \/ (N.to_nat (rn_prev x) < k)%nat.
Lemma after_upd ns i f ns' : (forall x, rn_prev (f x) = rn_prev x) -> after ns -> upd ns i f = Ok ns' -> after ns' /\ length ns' = length ns.
Proof.
  intros Hf H. unfold upd, get, set. destruct (ns !! N.to_nat i) as [x|] eqn:E; cbn [mbind res_bind]; [|done]. intros [= <-]. split; [|by rewrite insert_length]. intros k y Hk.
  destruct (decide (k = N.to_nat i)) as [->|Hne]; [|rewrite list_lookup_insert_ne in Hk by done; by apply H]. rewrite list_lookup_insert in Hk by by eapply lookup_lt_Some. injection Hk as <-. rewrite Hf. by apply H.
Qed.
Lemma after_create us ns d p l ns' j : after ns -> (N.to_nat p < length ns)%nat -> rc_createNode us ns d p l = Ok (ns', j) -> after ns' /\ length ns' = S (length ns).
Proof.
  intros H Hp. unfold rc_createNode. destruct (if negb _ then _ else _) as [h| |]; cbn [mbind res_bind]; [|done..]. intros [= <- _]. split; [|rewrite app_length; cbn; lia]. intros k x Hk.
  apply lookup_app_Some in Hk as [Hk|[Hk Hx]]; [by apply H|]. right. destruct (k - length ns)%nat as [|n] eqn:E; [|by destruct n]. cbn in Hx. injection Hx as <-. cbn. lia.
Qed.
Lemma after_find us g fuel : forall ns i ns' j, after ns -> rc_findTerminal us g fuel ns i = Ok (ns', j) -> after ns' /\ (length ns' <= length ns + fuel)%nat.
Proof.
  induction fuel as [|n IH]; intros ns i ns' j H; [done|]. cbn [rc_findTerminal]. unfold get at 1. destruct (ns !! N.to_nat i) as [x|] eqn:Ex; cbn [mbind res_bind]; [|done].
  destruct (rn_label x =? 0); [intros [= <- _]; split; [done|lia]|]. destruct (gd_Child g (rn_dict x)) as [l| |]; cbn [mbind res_bind]; [|done..].
  destruct (if l =? 0 then upd ns i clear_term else Ok ns) as [ns1| |] eqn:E1; cbn [mbind res_bind]; [|done..]. destruct (fwc us (rn_dict x) l) as [d| |]; cbn [mbind res_bind]; [|done..].
  assert (H1 : after ns1 /\ length ns1 = length ns) by (destruct (l =? 0); [refine (after_upd _ _ _ _ _ H E1); by intros []|injection E1 as <-; done]). destruct H1 as [H1 L1].
  destruct (rc_createNode us ns1 d i l) as [[ns2 k]| |] eqn:E2; cbn [mbind res_bind]; [|done..]. apply after_create in E2 as [H2 L2]; [|done|rewrite L1; by eapply lookup_lt_Some].
  intros E3. apply IH in E3 as [H3 L3]; [|done]. split; [done|lia].
Qed.
Lemma after_sibling us g ns i ns' o : after ns -> rc_findSibling us g ns i = Ok (ns', o) -> after ns' /\ (length ns' <= length ns + 1)%nat.
Proof.
  intros H. unfold rc_findSibling, get. destruct (ns !! N.to_nat i) as [x|] eqn:Ex; cbn [mbind res_bind]; [|done]. destruct (gd_Sibling g (rn_dict x)) as [l| |]; cbn [mbind res_bind]; [|done..].
  destruct (ns !! N.to_nat (rn_prev x)) as [p|] eqn:Ep; cbn [mbind res_bind]; [|done]. destruct (_ && _); [intros [= <- _]; split; [done|lia]|].
  destruct (if l =? 0 then upd ns (rn_prev x) clear_term else Ok ns) as [ns1| |] eqn:E1; cbn [mbind res_bind]; [|done..]. destruct (fwc us (rn_dict p) l) as [d| |]; cbn [mbind res_bind]; [|done..].
  assert (H1 : after ns1 /\ length ns1 = length ns) by (destruct (l =? 0); [refine (after_upd _ _ _ _ _ H E1); by intros []|injection E1 as <-; done]). destruct H1 as [H1 L1].
  destruct (rc_createNode us ns1 d (rn_prev x) l) as [[ns2 k]| |] eqn:E2; cbn [mbind res_bind]; [|done..]. apply after_create in E2 as [H2 L2]; [|done|rewrite L1; by eapply lookup_lt_Some].
  intros [= <- _]. split; [done|lia].
Qed.
Lemma after_enqueue ns nq i ns' nq' : after ns -> rc_enqueueNode ns nq i = Ok (ns', nq') -> after ns' /\ length ns' = length ns.
Proof.
  intros H. unfold rc_enqueueNode. destruct (get ns i) as [x| |]; cbn [mbind res_bind]; [|done..]. destruct (rn_queued x); [intros [= <- _]; done|].
  destruct (upd _ _ _) as [ns1| |] eqn:E; cbn [mbind res_bind]; [|done..]. intros [= <- _]. refine (after_upd _ _ _ _ _ H E). by intros [].
Qed.
Lemma upd_nohang {A} (l : list A) i f : upd l i f <> Hang.
Proof. unfold upd, get, set. destruct (l !! N.to_nat i); done. Qed.
Lemma enqueue_nohang ns nq i : rc_enqueueNode ns nq i <> Hang.
Proof.
  unfold rc_enqueueNode, get. destruct (ns !! _) as [x|]; cbn [mbind res_bind]; [|done]. destruct (rn_queued x); [done|].
  match goal with |- context [upd ?l ?i ?f] => pose proof (upd_nohang l i f); destruct (upd l i f) end; done.
Qed.
Lemma create_nohang us ns d p l : rc_createNode us ns d p l <> Hang.
Proof. unfold rc_createNode, dc_HasValue, get. destruct (negb _); [|done]. by destruct (us !! _). Qed.
Lemma sibling_nohang us g ns i : rc_findSibling us g ns i <> Hang.
Proof.
  unfold rc_findSibling, gd_Sibling, fwc, get. destruct (ns !! _) as [x|]; cbn [mbind res_bind]; [|done]. destruct (g !! _) as [u|]; cbn [mbind res_bind]; [|done].
  destruct (ns !! _) as [p|]; cbn [mbind res_bind]; [|done]. destruct (_ && _); [done|]. destruct (us !! N.to_nat (rn_dict p)) as [v|].
  - destruct (u.2 =? 0).
    + pose proof (upd_nohang ns (rn_prev x) clear_term). destruct (upd _ _ _) as [ns1| |]; cbn [mbind res_bind]; [|done..].
      match goal with |- context [rc_createNode us ?a ?b ?c ?d] => pose proof (create_nohang us a b c d); destruct (rc_createNode us a b c d) as [[]| |] end; done.
    + cbn [mbind res_bind]. match goal with |- context [rc_createNode us ?a ?b ?c ?d] => pose proof (create_nohang us a b c d); destruct (rc_createNode us a b c d) as [[]| |] end; done.
  - destruct (u.2 =? 0); [|done]. pose proof (upd_nohang ns (rn_prev x) clear_term). by destruct (upd _ _ _).
Qed.
Lemma rc_up_nohang fuel : forall ns nq path i, after ns -> (N.to_nat i <= fuel)%nat -> rc_up fuel ns nq path i <> Hang.
Proof.
  induction fuel as [|n IH]; intros ns nq path i H Hi; cbn [rc_up]; destruct (N.eqb_spec i 0); try done; [lia|]. unfold get. destruct (ns !! N.to_nat i) as [x|] eqn:Ex; cbn [mbind res_bind]; [|done].
  pose proof (enqueue_nohang ns nq i) as Hn. destruct (rc_enqueueNode ns nq i) as [[ns1 nq1]| |] eqn:E; cbn [mbind res_bind]; [|done..]. apply after_enqueue in E as [H1 _]; [|done].
  apply IH; [done|]. destruct (H _ _ Ex); lia.
Qed.
Lemma after_up fuel : forall ns nq path i ns' nq' path', after ns -> rc_up fuel ns nq path i = Ok (ns', nq', path') -> after ns'.
Proof.
  induction fuel as [|n IH]; intros ns nq path i ns' nq' path' H; cbn [rc_up]; (destruct (N.eqb_spec i 0); [by intros [= <- _ _]|]); [done|]. destruct (get ns i) as [x| |]; cbn [mbind res_bind]; [|done..].
  destruct (rc_enqueueNode ns nq i) as [[ns1 nq1]| |] eqn:E; cbn [mbind res_bind]; [|done..]. apply after_enqueue in E as [H1 _]; [|done]. by apply IH.
Qed.
Lemma find_node us g n ns k : rc_findTerminal us g (S n) ns k = Hang -> exists x, ns !! N.to_nat k = Some x /\ rn_label x <> 0.
Proof.
  cbn [rc_findTerminal]. unfold get. destruct (ns !! N.to_nat k) as [x|]; cbn [mbind res_bind]; [|done]. destruct (N.eqb_spec (rn_label x) 0) as [|Hx]; [done|]. intros _. by exists x.
Qed.
Lemma expand_hang us g v : words us -> forall nq ns cq, after ns -> N.of_nat (length ns + length nq * (length us + 3) + length us + 3) < 4294967296 ->
  (rc_expand us g v nq ns cq = Hang -> exists i, endless (rdives us g) i) /\ (forall ns' cq', rc_expand us g v nq ns cq = Ok (ns', cq') -> after ns').
Proof.
  intros Hw. induction nq as [|i nq IH]; intros ns cq H Hb; [split; [done|by intros ns' cq' [= <- _]]|]. cbn [rc_expand length] in *.
  assert (Hs : (if negb (v =? -1)%Z then rc_findSibling us g ns i else Ok (ns, Some i)) <> Hang) by (destruct (negb _); [apply sibling_nohang|done]).
  destruct (if negb (v =? -1)%Z then rc_findSibling us g ns i else Ok (ns, Some i)) as [[ns1 o]| |] eqn:E1; cbn [mbind res_bind]; [|done..].
  assert (H1 : after ns1 /\ (length ns1 <= length ns + 1)%nat) by (destruct (negb _); [by eapply after_sibling|injection E1 as <- _; split; [done|lia]]). destruct H1 as [H1 L1].
  destruct o as [k|]; [|apply IH; [done|lia]]. destruct (rc_findTerminal us g _ ns1 k) as [[ns2 t]| |] eqn:E2; cbn [mbind res_bind]; cycle 1; [done| |].
  - split; [|done]. intros _. destruct (find_node _ _ _ _ _ E2) as (x & Ex & Hx). exists (rn_dict x). apply (C112_ranked us g ns1 k x Hw Ex Hx); [lia|exact E2].
  - apply after_find in E2 as [H2 L2]; [|done]. unfold rc_enqueueCandidate, get. destruct (ns2 !! _) as [y|]; cbn [mbind res_bind]; [|done]. destruct (us !! _) as [u|]; cbn [mbind res_bind]; [|done].
    match goal with |- context [hp_Push ?l ?q ?x] => pose proof (hp_Push_nohang l q x); destruct (hp_Push l q x) as [q'| |]; cbn [mbind res_bind]; [|done..] end. apply IH; [done|lia].
Qed.
(** A completer as it comes: started, then Next any number of times. *)
Inductive come (us : list N) (g : list (N * N)) : rcomp -> Prop :=
| come_start c i p n c' : rc_StartStringLen us g c i p n = Ok c' -> come us g c'
| come_next c c' b : come us g c -> rc_Next us g c = Ok (b, c') -> come us g c'.
Lemma next_hang us g c : words us -> after (rc_nodes c) -> N.of_nat (length (rc_nodes c) + length (rc_nq c) * (length us + 3) + length us + 3) < 4294967296 ->
  rc_Next us g c = Hang -> exists i, endless (rdives us g) i.
Proof.
  intros Hw H Hb. unfold rc_Next. destruct (expand_hang us g (rc_value c) Hw (rc_nq c) (rc_nodes c) (rc_cq c) H Hb) as [He Ha].
  destruct (rc_expand us g (rc_value c) (rc_nq c) (rc_nodes c) (rc_cq c)) as [[ns cq]| |]; cbn [mbind res_bind]; [|done|intros _; by apply He]. specialize (Ha _ _ eq_refl). destruct cq as [|k cq]; [done|].
  pose proof (enqueue_nohang ns [] k.1) as Hn. destruct (rc_enqueueNode ns [] k.1) as [[ns1 nq1]| |] eqn:E1; cbn [mbind res_bind]; [|done..]. apply after_enqueue in E1 as [H1 L1]; [|done].
  unfold get. destruct (ns1 !! N.to_nat k.1) as [x|] eqn:Ex; cbn [mbind res_bind]; [|done]. destruct (Nat.ltb _ _); [done|].
  assert (Hx : (N.to_nat (rn_prev x) <= length ns1)%nat) by (pose proof (lookup_lt_Some _ _ _ Ex); destruct (H1 _ _ Ex) as [[_ Hx]|Hx]; [rewrite Hx|]; lia).
  pose proof (rc_up_nohang (length ns1) ns1 nq1 [] (rn_prev x) H1 Hx) as Hu. destruct (rc_up (length ns1) ns1 nq1 [] (rn_prev x)) as [[[ns2 nq2] ls]| |]; cbn [mbind res_bind]; [|done..].
  match goal with |- context [hp_Pop ?l ?q] => pose proof (hp_Pop_nohang l q); destruct (hp_Pop l q) as [[]| |] end; done.
Qed.
Lemma after_next us g c b c' : after (rc_nodes c) -> rc_Next us g c = Ok (b, c') -> after (rc_nodes c').
Proof.
  intros H. unfold rc_Next.
  assert (He : forall nq v ns cq ns' cq', after ns -> rc_expand us g v nq ns cq = Ok (ns', cq') -> after ns').
  { induction nq as [|i nq IH]; intros v ns cq ns' cq' Hn; [by intros [= <- _]|]. cbn [rc_expand].
    destruct (if negb (v =? -1)%Z then rc_findSibling us g ns i else Ok (ns, Some i)) as [[ns1 o]| |] eqn:E1; cbn [mbind res_bind]; [|done..].
    assert (H1 : after ns1) by (destruct (negb _); [by eapply after_sibling|by injection E1 as <- _]). destruct o as [k|]; [|by apply IH].
    destruct (rc_findTerminal us g _ ns1 k) as [[ns2 t]| |] eqn:E2; cbn [mbind res_bind]; [|done..]. apply after_find in E2 as [H2 _]; [|done].
    destruct (rc_enqueueCandidate us ns2 cq t) as [q| |]; cbn [mbind res_bind]; [|done..]. by apply IH. }
  destruct (rc_expand us g (rc_value c) (rc_nq c) (rc_nodes c) (rc_cq c)) as [[ns cq]| |] eqn:E; cbn [mbind res_bind]; [|done..]. apply He in E; [|done]. clear He. destruct cq as [|k cq]; [by intros [= _ <-]|].
  destruct (rc_enqueueNode ns [] k.1) as [[ns1 nq1]| |] eqn:E1; cbn [mbind res_bind]; [|done..]. apply after_enqueue in E1 as [H1 _]; [|done]. destruct (get ns1 k.1) as [x| |]; cbn [mbind res_bind]; [|done..].
  destruct (Nat.ltb _ _); [done|]. destruct (rc_up _ ns1 nq1 [] (rn_prev x)) as [[[ns2 nq2] ls]| |] eqn:E2; cbn [mbind res_bind]; [|done..]. apply after_up in E2; [|done].
  destruct (hp_Pop _ _) as [[? q]| |]; cbn [mbind res_bind]; [|done..]. by intros [= _ <-].
Qed.
Lemma come_after us g c : come us g c -> after (rc_nodes c).
Proof.
  induction 1 as [c i p n c' H|c c' b _ IH H]; [|by eapply after_next]. revert H. unfold rc_StartStringLen. destruct (_ <? 0)%Z; [done|]. destruct (_ <? _)%Z; [done|].
  destruct g as [|x g]; [intros [= <-]; by intros k y Hk|]. unfold rc_createNode. destruct (if negb _ then _ else _) as [h| |]; cbn [mbind res_bind]; [|done..]. cbn. intros [= <-]. cbn [rc_nodes].
  intros k y Hk. destruct k as [|k]; [|by destruct k]. injection Hk as <-. by left.
Qed.
(** Where no endless chain starts, Next returns or panics, as long as the nodes can be
    numbered. *)
Theorem C112_ranked_next us g c : words us -> come us g c -> N.of_nat (length (rc_nodes c) + length (rc_nq c) * (length us + 3) + length us + 3) < 4294967296 ->
  rc_Next us g c = Hang -> exists i, endless (rdives us g) i.
Proof. intros Hw Hc Hb. apply next_hang; [done| |done]. by eapply come_after. Qed.
Print Assumptions C112_ranked_next.
Theorem C112_ranked_first us g c0 i p c : words us -> N.of_nat (length us + length us + 8) < 4294967296 -> rc_StartString us g c0 i p = Ok c ->
  (rc_Next us g c = Hang <-> g <> [] /\ endless (rdives us g) i).
Proof.
  intros Hw Hn Hs. assert (Hc := come_start us g c0 i p _ c Hs). revert Hs. unfold rc_StartString, rc_StartStringLen. destruct (_ <? 0)%Z; [done|]. destruct (_ <? _)%Z; [done|].
  destruct g as [|x g]; [intros [= <-]; split; [done|by intros [? _]]|].
  unfold rc_createNode. change (88 =? 0) with false. cbn [negb]. destruct (dc_HasValue us i) as [h| |]; cbn [mbind res_bind]; [|done..]. cbn. intros [= <-].
  destruct (C112_ranked us (x :: g) [mkRN i 0 88 true h] 0 _ Hw eq_refl ltac:(done) ltac:(cbn [length]; lia)) as [Hr _]. cbn [rn_dict] in Hr. split.
  - intros H. split; [done|]. apply Hr. revert H. unfold rc_Next. cbn [rc_value rc_nq rc_nodes rc_cq rc_expand]. change (negb (-1 =? -1)%Z) with false. cbn [mbind res_bind].
    destruct (rc_findTerminal us (x :: g) _ _ 0) as [[ns j]| |] eqn:E; [|done|done]. cbn [mbind res_bind]. intros H. exfalso.
    assert (Ha : after [mkRN i 0 88 true h]) by (intros k y Hk; destruct k as [|k]; [injection Hk as <-; by left|by destruct k]). apply after_find in E as [H1 _]; [|done]. clear Ha Hr Hc.
    revert H. unfold rc_enqueueCandidate, get. destruct (ns !! N.to_nat j) as [y|]; cbn [mbind res_bind]; [|done]. destruct (us !! N.to_nat (rn_dict y)) as [u|]; cbn [mbind res_bind]; [|done].
    unfold hp_Push. cbn [length app hp_up]. change (Nat.div2 (0 - 1)) with O. change (Nat.eqb 0 0) with true. cbn [mbind res_bind fst].
    pose proof (enqueue_nohang ns [] j) as Hh. destruct (rc_enqueueNode ns [] j) as [[ns1 nq1]| |] eqn:E1; cbn [mbind res_bind]; [|done..]. apply after_enqueue in E1 as [H2 L2]; [|done].
    destruct (ns1 !! N.to_nat j) as [z|] eqn:Ez; cbn [mbind res_bind]; [|done]. destruct (Nat.ltb _ _); [done|].
    assert (Hz : (N.to_nat (rn_prev z) <= length ns1)%nat) by (pose proof (lookup_lt_Some _ _ _ Ez); destruct (H2 _ _ Ez) as [[_ Hz]|Hz]; [rewrite Hz|]; lia).
    pose proof (rc_up_nohang (length ns1) ns1 nq1 [] (rn_prev z) H2 Hz) as Hu. destruct (rc_up (length ns1) ns1 nq1 [] (rn_prev z)) as [[[ns2 nq2] ls]| |]; cbn [mbind res_bind]; [|done..].
    match goal with |- context [hp_Pop ?l ?q] => pose proof (hp_Pop_nohang l q); destruct (hp_Pop l q) as [[]| |] end; done.
  - intros [_ H%Hr]. unfold rc_Next. cbn [rc_value rc_nq rc_nodes rc_cq rc_expand]. change (negb (-1 =? -1)%Z) with false. cbn [mbind res_bind]. by rewrite H.
Qed.
Print Assumptions C112_ranked_first.

(** Files that Read accepts and that no Next of either completer comes back from: one
    unit, its own child by the label 1. *)
Theorem C112_ends_refuted : exists file gfile us g,
  ReadDictionary [file] = Ok (Some us, []) /\ ReadGuide [gfile] = Ok (Some g, []) /\ ReadRankedGuide [gfile] = Ok (Some g, []) /\
  (exists c, cp_Start g NewCompleter 0 = Ok c /\ cp_Next us g c = Hang /\ forall n, cp_FindTerminal n us g c 0 = Hang) /\
  (exists c, rc_Start us g NewRankedCompleter 0 = Ok c /\ rc_Next us g c = Hang /\ forall n, N.of_nat n < 4294967295 -> rc_findTerminal us g n (rc_nodes c) 0 = Hang).
Proof.
  exists [1; 0; 0; 0; 1; 4; 0; 0], [1; 0; 0; 0; 1; 0], [1025], [(1, 0)]. split; [by vm_compute|]. split; [by vm_compute|]. split; [by vm_compute|].
  assert (Hw : words [1025]) by (split; [done|repeat constructor]). split; eexists; (split; [reflexivity|]); (split; [by vm_compute|]).
  - intros n. apply (C112_search [1025] [(1, 0)] _ 0 Hw); [done|]. exists (fun _ => 0). split; [done|]. intros _. exists 1025, 1, 0, 1025. repeat split.
  - intros n Hn. refine (proj2 (C112_ranked [1025] [(1, 0)] _ 0 (mkRN 0 0 88 true false) Hw _ _ _) _ n _); [reflexivity|done|done| |change (N.of_nat (1 + n) < 4294967296); lia]. exists (fun _ => 0). split; [done|]. intros _. exists 1025, 1, 0, 1025. repeat split; done.
Qed.
Print Assumptions C112_ends_refuted.
(** And where every Next returns true: [1], [1; 1], [1; 1; 1], ... without end. *)
Theorem C112_keys_refuted : exists us g c0, words us /\ cp_Start g NewCompleter 0 = Ok c0 /\
  forall n, exists c, Nat.iter n (fun r => '(b, c) ← r; if (b : bool) then cp_Next us g c else Panic) (Ok (true, c0)) = Ok (true, c) /\ cp_Key c = replicate n 1 ++ [0].
Proof.
  exists [0; 1281], [(1, 0); (1, 0)], (mkComp [0] [0] 0). split; [split; [done|repeat constructor]|]. split; [done|].
  assert (Hs : forall n, exists c, Nat.iter n (fun r => '(b, c) ← r; if (b : bool) then cp_Next [0; 1281] [(1, 0); (1, 0)] c else Panic) (Ok (true, mkComp [0] [0] 0)) = Ok (true, c) /\
    c = mkComp (replicate n 1 ++ [0]) (replicate n 1 ++ [0]) (if decide (n = O) then 0 else 1)).
  { induction n as [|n (c & E & ->)]; [by eexists|]. cbn [Nat.iter nat_rect]. change (nat_rect _ _ _ n) with (Nat.iter n (fun r => '(b, c) ← r; if (b : bool) then cp_Next [0; 1281] [(1, 0); (1, 0)] c else Panic) (Ok (true, mkComp [0] [0] 0))).
    rewrite E. cbn [mbind res_bind]. destruct n as [|n]; [by eexists|]. eexists. split; [|reflexivity]. destruct (decide (S n = O)); [done|]. destruct (decide (S (S n) = O)); [done|].
    unfold cp_Next. cbn [cp_stack cp_last replicate app]. change (negb (1 =? 0)) with true. cbn iota. change (gd_Child [(1, 0); (1, 0)] 1) with (Ok 1). cbn [mbind res_bind]. change (negb (1 =? 0)) with true. cbn iota.
    unfold cp_Follow. change (dc_Follow [0; 1281] 1 1) with (Ok (true, 1)). cbn [mbind res_bind negb cp_path cp_stack cp_last]. unfold path_push.
    change (1 :: replicate n 1 ++ [0]) with ((1 :: replicate n 1) ++ [0]). rewrite removelast_last. cbn [app mbind res_bind cp_FindTerminal length]. change (dc_HasValue [0; 1281] 1) with (Ok true). cbn [mbind res_bind cp_path cp_stack].
    assert (Er : 1 :: replicate n 1 ++ [1; 0] = 1 :: 1 :: replicate n 1 ++ [0]); [|by rewrite Er]. change [1; 0] with ([1] ++ [0]). rewrite app_assoc, <- (replicate_S_end n). done. }
  intros n. destruct (Hs n) as (c & E & ->). eexists. split; [exact E|]. done.
Qed.
Print Assumptions C112_keys_refuted.
(** Of what the builders make every Next comes back: C36 and C47.  Here units where the
    plain completer ends and the ranked one does not. *)
Example C112_case : words [0; 1281] /\ dives [0; 1281] [(1, 0); (1, 0)] 0 1 /\ ~ endless (dives [0; 1281] [(1, 0); (1, 0)]) 0 /\ endless (rdives [0; 1281] [(1, 0); (1, 0)]) 0.
Proof.
  assert (Hw : words [0; 1281]) by (split; [done|repeat constructor]). split; [done|]. split; [exists 0, 1, 0, 1281; repeat split|]. split.
  - intros (f & H0 & H). pose proof (H O) as H1. pose proof (H 1%nat) as H2. rewrite H0 in H1. destruct H1 as (u & c & s & v & Hu & _ & Hg & E & _). injection Hu as <-. injection Hg as <- <-. rewrite E in H2.
    destruct H2 as (u & c & s' & v' & Hu & H8 & _). injection Hu as <-. discriminate H8.
  - exists (fun n => if decide (n = O) then 0 else 1). split; [done|]. intros [|n].
    + exists 0, 1, 0, 1281. repeat split; done.
    + exists 1281, 1, 0, 1281. repeat split; done.
Qed.
