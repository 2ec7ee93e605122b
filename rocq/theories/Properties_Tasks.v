(** Property C113 of utfc.go: calls from several goroutines.  sharedState and sharedBuffer
    (utfc.go:126-130) belong to the package; the comment there reads "thread-unsafe". *)
From Verif Require Import Go Utfc UtfcSpec UtfcProofs UtfcMain UtfcShared Properties_Shared.
Local Open Scope Z_scope.

(** A call of UtfcFollow (utfc.go:291-299) in progress: before Clear, in the loop with the
    characters not yet read, returned.  Goroutines change places between two steps of the
    calls; a step is Clear, one character or the return.  Simplified: Go lets them change
    places within a step too, and reorder the writes. *)
Inductive call := Begun (s : list Z) | Within (s : list Z) | Returned (ok : bool).
Section Tasks.
  Context {F : Type} (fol : F -> N -> F * bool).
  Definition call_step (st : ustate) (t : F * call) : ustate * (F * call) :=
    match t.2 with
    | Begun s => (ustate0, (t.1, Within s))                                    (* 292 *)
    | Within [] => (st, (t.1, Returned true))                                  (* 298 *)
    | Within (c :: s) =>                                                       (* 294-296 *)
        let '(f, st', ok) := ustate_follow fol st c t.1 in (st', (f, if ok : bool then Within s else Returned false))
    | Returned _ => (st, t)
    end.
  Definition at_task {A} (i : nat) (a : A) (m : nat -> A) (k : nat) : A := if (k =? i)%nat then a else m k.
  (** Calls number 0, 1, ..., each with a follower of its own and all with sharedState. *)
  Fixpoint tasks (st : ustate) (m : nat -> F * call) (sched : list nat) : ustate * (nat -> F * call) :=
    match sched with
    | [] => (st, m)
    | i :: sched' => let '(st', t) := call_step st (m i) in tasks st' (at_task i t m) sched'
    end.
  (** The same loops, each with an UtfcState of its own: NewUtfcState (or Clear), then Follow for each
      character. *)
  Fixpoint own_tasks (sts : nat -> ustate) (m : nat -> F * call) (sched : list nat) : (nat -> ustate) * (nat -> F * call) :=
    match sched with
    | [] => (sts, m)
    | i :: sched' => let '(st', t) := call_step (sts i) (m i) in own_tasks (at_task i st' sts) (at_task i t m) sched'
    end.

  (** What a call has done so far is the beginning of what it does alone. *)
  Definition on_track (f0 : F) (s : list Z) (st : ustate) (t : F * call) : Prop :=
    match t.2 with
    | Begun s' => s' = s /\ t.1 = f0
    | Within r => let '(f, _, ok) := utfc_follow_from fol st r t.1 in (f, ok) = ((utfc_follow fol s f0).1.1, (utfc_follow fol s f0).2)
    | Returned ok => (t.1, ok) = ((utfc_follow fol s f0).1.1, (utfc_follow fol s f0).2)
    end.
  Lemma track_step f0 s st t : on_track f0 s st t -> let '(st', t') := call_step st t in on_track f0 s st' t'.
  Proof.
    destruct t as [f [s'|[|c r]|ok]]; unfold on_track, call_step; cbn [fst snd].
    - intros [-> ->]. unfold utfc_follow. by destruct (utfc_follow_from fol ustate0 s f0) as [[g st'] ok].
    - done.
    - cbn [utfc_follow_from]. destruct (ustate_follow fol st c f) as [[f' st'] []]; cbn [fst snd]; done.
    - done.
  Qed.
  Lemma own_track texts f0 sched : forall sts m, (forall i, on_track (f0 i) (texts i) (sts i) (m i)) ->
    forall i, on_track (f0 i) (texts i) ((own_tasks sts m sched).1 i) ((own_tasks sts m sched).2 i).
  Proof.
    induction sched as [|j sched IH]; intros sts m H i; cbn [own_tasks]; [apply H|].
    pose proof (track_step _ _ _ _ (H j)) as Hj. destruct (call_step (sts j) (m j)) as [st' t']. apply IH. intros k. unfold at_task. destruct (Nat.eqb_spec k j) as [->|]; [exact Hj|apply H].
  Qed.
  (** Texts that never change the state. *)
  Lemma plain_track texts f0 sched : (forall i, Forall plain (texts i)) -> forall st m,
    (forall i, match (m i).2 with Begun s => s = texts i /\ (m i).1 = f0 i | Within r => st = ustate0 /\ Forall plain r /\ on_track (f0 i) (texts i) ustate0 (m i) | Returned _ => on_track (f0 i) (texts i) ustate0 (m i) end) ->
    forall i f ok, (tasks st m sched).2 i = (f, Returned ok) -> f = (utfc_follow fol (texts i) (f0 i)).1.1 /\ ok = (utfc_follow fol (texts i) (f0 i)).2.
  Proof.
    intros Hp. induction sched as [|j sched IH]; intros st m H i f ok; cbn [tasks].
    - cbn [snd]. intros E. specialize (H i). rewrite E in H. unfold on_track in H. cbn [fst snd] in H. by injection H.
    - intros E. destruct (call_step st (m j)) as [st' t'] eqn:Es. refine (IH st' (at_task j t' m) _ i f ok E). clear E i f ok. intros k.
      assert (Hst : st = ustate0 -> st' = ustate0).
      { intros ->. unfold call_step in Es. pose proof (H j) as Hj. destruct (m j) as [g [s'|[|c r]|o]]; cbn [fst snd] in Es, Hj.
        - congruence.
        - congruence.
        - destruct Hj as (_ & Hr & _). apply Forall_cons in Hr as [Hc _]. destruct (plain_follow fol c g Hc) as (b & E & _). rewrite E in Es. unfold emit in Es. destruct (feed fol g [b]) as [g' []]; congruence.
        - congruence. }
      unfold at_task. destruct (Nat.eqb_spec k j) as [->|Hkj].
      + pose proof (H j) as Hj. unfold call_step in Es. destruct (m j) as [g [s'|[|c r]|o]] eqn:Em; cbn [fst snd] in Es, Hj.
        * injection Es as <- <-. cbn [fst snd]. destruct Hj as [-> ->]. split; [done|]. split; [apply Hp|]. unfold on_track. cbn [fst snd]. unfold utfc_follow. by destruct (utfc_follow_from fol ustate0 (texts j) (f0 j)) as [[h st'] o].
        * injection Es as <- <-. cbn [fst snd]. by destruct Hj as (-> & _ & Hj).
        * destruct Hj as (Hz & Hr & Hj). rewrite Hz in Es. pose proof (track_step _ _ _ _ Hj) as Ht. unfold call_step in Ht. cbn [fst snd] in Ht.
          apply Forall_cons in Hr as [Hc Hr]. destruct (plain_follow fol c g Hc) as (b & E & _). rewrite E in Es, Ht. unfold emit in Es, Ht.
          destruct (feed fol g [b]) as [g' []]; injection Es as <- <-; cbn [fst snd]; done.
        * injection Es as <- <-. cbn [fst snd]. done.
      + pose proof (H k) as Hk. destruct (m k) as [g [s'|r|o]] eqn:Em; cbn [fst snd] in Hk |- *; [done| |done].
        destruct Hk as (Hz & Hk). by split; [apply Hst|].
  Qed.
  (** A call that is not interrupted. *)
  Lemma alone st m i s f : m i = (f, Begun s) -> forall n, (length s + 2 <= n)%nat ->
    let r := tasks st m (repeat i n) in r.2 i = ((utfc_follow fol s f).1.1, Returned (utfc_follow fol s f).2) /\ forall k, k <> i -> r.2 k = m k.
  Proof.
    assert (Hend : forall n st m g ok, m i = (g, Returned ok) -> (tasks st m (repeat i n)).2 i = (g, Returned ok) /\ forall k, k <> i -> (tasks st m (repeat i n)).2 k = m k).
    { induction n as [|n IH]; intros st1 m1 g ok E; [done|]. cbn [repeat tasks]. rewrite E. cbn [call_step snd fst].
      destruct (IH st1 (at_task i (g, Returned ok) m1) g ok) as [H1 H2]; [unfold at_task; by rewrite Nat.eqb_refl|]. split; [exact H1|].
      intros k Hk. rewrite H2 by done. unfold at_task. by destruct (Nat.eqb_spec k i). }
    assert (Hin : forall r n st m g, m i = (g, Within r) -> (length r + 1 <= n)%nat ->
      (tasks st m (repeat i n)).2 i = ((utfc_follow_from fol st r g).1.1, Returned (utfc_follow_from fol st r g).2) /\ forall k, k <> i -> (tasks st m (repeat i n)).2 k = m k).
    { induction r as [|c r IH]; intros n st1 m1 g E Hn; (destruct n as [|n]; [cbn [length] in Hn; lia|]); cbn [repeat tasks]; rewrite E; unfold call_step; cbn [fst snd utfc_follow_from].
      - destruct (Hend n st1 (at_task i (g, Returned true) m1) g true) as [H1 H2]; [unfold at_task; by rewrite Nat.eqb_refl|]. split; [exact H1|].
        intros k Hk. rewrite H2 by done. unfold at_task. by destruct (Nat.eqb_spec k i).
      - destruct (ustate_follow fol st1 c g) as [[g' st'] []].
        + destruct (IH n st' (at_task i (g', Within r) m1) g') as [H1 H2]; [unfold at_task; by rewrite Nat.eqb_refl|cbn [length] in Hn; lia|]. split; [exact H1|].
          intros k Hk. rewrite H2 by done. unfold at_task. by destruct (Nat.eqb_spec k i).
        + destruct (Hend n st' (at_task i (g', Returned false) m1) g' false) as [H1 H2]; [unfold at_task; by rewrite Nat.eqb_refl|]. split; [exact H1|].
          intros k Hk. rewrite H2 by done. unfold at_task. by destruct (Nat.eqb_spec k i). }
    intros E n Hn. destruct n as [|n]; [lia|]. cbn [repeat tasks]. rewrite E. cbn [call_step fst snd].
    destruct (Hin s n ustate0 (at_task i (f, Within s) m) f) as [H1 H2]; [unfold at_task; by rewrite Nat.eqb_refl|lia|]. split; [exact H1|].
    intros k Hk. rewrite H2 by done. unfold at_task. by destruct (Nat.eqb_spec k i).
  Qed.
End Tasks.

(** UtfcEncode (utfc.go:302-306), which uses sharedBuffer too: before the buffer is emptied; in
    UtfcFollow; returned, the slice having been read by the caller at once. *)
Inductive ecall := EBegun (s : list Z) | EWithin (s : call) | EReturned (bs : list N).
Definition ecall_step (g : ustate * list N) (t : ecall) : ustate * list N * ecall :=
  match t with
  | EBegun s => (g.1, [], EWithin (Begun s))                                  (* 303 *)
  | EWithin (Returned _) => (g, EReturned g.2)                                (* 305 *)
  | EWithin c => let '(st, (buf, c')) := call_step buf_follow g.1 (g.2, c) in (st, buf, EWithin c')
  | EReturned _ => (g, t)
  end.
Fixpoint etasks (g : ustate * list N) (m : nat -> ecall) (sched : list nat) : ustate * list N * (nat -> ecall) :=
  match sched with
  | [] => (g, m)
  | i :: sched' => let '(g', t) := ecall_step g (m i) in etasks g' (at_task i t m) sched'
  end.

(** C113. Full statement: calls of UtfcFollow, each with a follower of its own, and of
    UtfcEncode do what they do alone, in whatever order goroutines make their steps.  False
    of both, of UtfcEncode even in ASCII; all calls below return. *)
Theorem C113_follow_refuted : exists sched texts, (forall i, is_text (texts i)) /\
  let r := tasks buf_follow ustate0 (fun i => ([], Begun (texts i))) sched in
  (forall i, (i < 2)%nat -> (r.2 i).2 = Returned true) /\ (r.2 0%nat).1 <> utfc_encode (texts 0%nat).
Proof.
  exists [0; 0; 1; 1; 0; 0; 1]%nat, (fun i => if (i =? 0)%nat then [0x61; 0x62] else [0x3B1]). split.
  { intros i. destruct (i =? 0)%nat; repeat constructor; lia. }
  split; [|vm_compute; discriminate]. intros [|[|i]] Hi; [vm_compute; reflexivity|vm_compute; reflexivity|lia].
Qed.
Print Assumptions C113_follow_refuted.
Theorem C113_encode_refuted : exists sched texts, (forall i c, c ∈ texts i -> 0x61 <= c <= 0x7A) /\
  exists bs0 bs1, (etasks (ustate0, []) (fun i => EBegun (texts i)) sched).2 0%nat = EReturned bs0 /\ (etasks (ustate0, []) (fun i => EBegun (texts i)) sched).2 1%nat = EReturned bs1 /\
  bs0 <> utfc_encode (texts 0%nat) /\ bs1 <> utfc_encode (texts 1%nat).
Proof.
  exists [0; 1; 0; 1; 0; 1; 0; 1; 0; 1]%nat, (fun i => if (i =? 0)%nat then [0x61] else [0x62]). split.
  { intros i c. destruct (i =? 0)%nat; rewrite elem_of_list_singleton; intros ->; lia. }
  exists [0x61; 0x62]%N, [0x61; 0x62]%N. split; [vm_compute; reflexivity|]. split; [vm_compute; reflexivity|]. split; vm_compute; discriminate.
Qed.
Print Assumptions C113_encode_refuted.

(** Proved instead: UtfcFollow with texts in ASCII and А-Я, а-я, any number of calls, any
    followers, in any order; *)
Theorem C113_plain_partial {F} (fol : F -> N -> F * bool) st texts f0 sched i f ok : (forall k, Forall plain (texts k)) ->
  (tasks fol st (fun k => (f0 k, Begun (texts k))) sched).2 i = (f, Returned ok) ->
  f = (utfc_follow fol (texts i) (f0 i)).1.1 /\ ok = (utfc_follow fol (texts i) (f0 i)).2.
Proof. intros Hp. apply plain_track; [exact Hp|]. intros k. cbn [fst snd]. done. Qed.
Print Assumptions C113_plain_partial.
(** any texts, when each goroutine has an UtfcState of its own; *)
Theorem C113_own {F} (fol : F -> N -> F * bool) sts texts f0 sched i f ok :
  (own_tasks fol sts (fun k => (f0 k, Begun (texts k))) sched).2 i = (f, Returned ok) ->
  f = (utfc_follow fol (texts i) (f0 i)).1.1 /\ ok = (utfc_follow fol (texts i) (f0 i)).2.
Proof.
  intros E. pose proof (own_track fol texts f0 sched sts (fun k => (f0 k, Begun (texts k)))) as H.
  specialize (H (fun k => conj eq_refl eq_refl) i). rewrite E in H. unfold on_track in H. cbn [fst snd] in H. by injection H.
Qed.
Print Assumptions C113_own.
(** and a call during which no other goroutine makes a step, whatever came before; the
    others are as they were. *)
Theorem C113_alone {F} (fol : F -> N -> F * bool) st m i s f n : m i = (f, Begun s) -> (length s + 2 <= n)%nat ->
  let r := tasks fol st m (repeat i n) in r.2 i = ((utfc_follow fol s f).1.1, Returned (utfc_follow fol s f).2) /\ forall k, k <> i -> r.2 k = m k.
Proof. intros E Hn. exact (alone fol st m i s f E n Hn). Qed.
Print Assumptions C113_alone.

(** "aП" and "Яb" in turns, one character each; and "ab" beside "α", with states of their own. *)
Definition two {A} (a b : A) (i : nat) : A := if (i =? 0)%nat then a else b.
Example C113_case : let r := tasks buf_follow (mkU 7 7 true) (fun i => ([], Begun (two [0x61; 0x41F] [0x42F; 0x62] i))) [0; 1; 0; 1; 0; 1; 0; 1]%nat in
  r.2 0%nat = ([0x61; 0xCF]%N, Returned true) /\ r.2 1%nat = ([0xDF; 0x62]%N, Returned true).
Proof. vm_compute. done. Qed.
Example C113_own_case : let r := own_tasks buf_follow (fun _ => ustate0) (fun i => ([], Begun (two [0x61; 0x62] [0x3B1] i))) [0; 0; 1; 1; 0; 0; 1]%nat in
  r.2 0%nat = ([0x61; 0x62]%N, Returned true) /\ r.2 1%nat = (utfc_encode [0x3B1], Returned true).
Proof. vm_compute. done. Qed.
(** The witness of C113_follow_refuted. *)
Example C113_mixed : let r := tasks buf_follow ustate0 (fun i => ([], Begun (two [0x61; 0x62] [0x3B1] i))) [0; 0; 1; 1; 0; 0; 1]%nat in
  r.2 0%nat = ([0x61; 0xDB]%N, Returned true).
Proof. vm_compute. done. Qed.
