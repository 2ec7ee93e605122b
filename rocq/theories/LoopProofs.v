(** Loops (Index.v): what they give is what the turns give one after the other. *)
From Verif Require Import Go Index.
Local Arguments Nat.pow : simpl never.

Section loop.
  Context {S A : Type} (step : S -> res (S + A)).
  Definition next (s : S) : option S := match step s with Ok (inl s') => Some s' | _ => None end.
  Fixpoint turned (n : nat) (s : S) : option S := match n with O => Some s | Datatypes.S n' => s' ← next s; turned n' s' end.
  Lemma turned_add n m s : turned (n + m) s = (turned n s ≫= turned m).
  Proof. revert s. induction n as [|n IH]; intros s; [done|]. cbn. destruct (next s); cbn; [apply IH|done]. Qed.
  Lemma turned_S n s : turned (Datatypes.S n) s = (turned n s ≫= next).
  Proof. replace (Datatypes.S n) with (n + 1)%nat by lia. rewrite turned_add. destruct (turned n s) as [s'|]; [|done]. cbn. by destruct (next s'). Qed.
  Lemma turned_le n m s : (m <= n)%nat -> is_Some (turned n s) -> is_Some (turned m s).
  Proof. intros H [s' Hs]. replace n with (m + (n - m))%nat in Hs by lia. rewrite turned_add in Hs. by destruct (turned m s). Qed.
  Lemma turns_cases k : forall s,
    (exists s', turned (2 ^ k) s = Some s' /\ turns k step s = Ok (inl s')) \/
    (exists n s', (n < 2 ^ k)%nat /\ turned n s = Some s' /\ next s' = None /\ turns k step s = step s').
  Proof.
    induction k as [|k IH]; intros s.
    - cbn [turns]. change (2 ^ 0)%nat with 1%nat. cbn [turned]. unfold next. destruct (step s) as [[s'|a]| |] eqn:E; [left; exists s'; done|right; exists O, s; rewrite E; repeat split; lia..].
    - cbn [turns]. replace (2 ^ Datatypes.S k)%nat with (2 ^ k + 2 ^ k)%nat by (rewrite Nat.pow_succ_r'; lia).
      destruct (IH s) as [(s1 & H1 & ->)|(n & s1 & Hn & H1 & Hx & E)].
      + cbn [mbind res_bind]. destruct (IH s1) as [(s2 & H2 & ->)|(n & s2 & Hn & H2 & Hx & ->)].
        * left. exists s2. rewrite turned_add, H1. done.
        * right. exists (2 ^ k + n)%nat, s2. rewrite turned_add, H1. repeat split; [lia|done..].
      + right. exists n, s1. split; [lia|]. split; [done|]. split; [done|]. rewrite E. unfold next in Hx. destruct (step s1) as [[s2|a]| |]; done.
  Qed.
  Lemma turned_stuck n m s s1 s2 : turned n s = Some s1 -> next s1 = None -> turned m s = Some s2 -> next s2 = None -> n = m /\ s1 = s2.
  Proof.
    intros H1 N1 H2 N2. assert (n = m) as ->; [|split; congruence]. destruct (Nat.lt_trichotomy n m) as [Hl|[?|Hl]]; [|done|]; exfalso.
    - replace m with (n + Datatypes.S (m - n - 1))%nat in H2 by lia. rewrite turned_add, H1 in H2. cbn in H2. by rewrite N1 in H2.
    - replace n with (m + Datatypes.S (n - m - 1))%nat in H1 by lia. rewrite turned_add, H2 in H1. cbn in H1. by rewrite N2 in H1.
  Qed.
  (** The turns reach a last one before 2^k of them are made. *)
  Lemma loop_last k n s s' : turned n s = Some s' -> next s' = None -> (n < 2 ^ k)%nat ->
    loop k step s = match step s' with Ok (inr a) => Ok a | Panic => Panic | _ => Hang end.
  Proof.
    intros H N Hn. unfold loop. destruct (turns_cases k s) as [(s2 & H2 & ->)|(m & s2 & Hm & H2 & N2 & ->)].
    - exfalso. replace (2 ^ k)%nat with (n + Datatypes.S (2 ^ k - n - 1))%nat in H2 by lia. rewrite turned_add, H in H2. cbn in H2. by rewrite N in H2.
    - destruct (turned_stuck n m s s' s2 H N H2 N2) as [_ <-]. unfold next in N. destruct (step s') as [[]| |]; done.
  Qed.
  Lemma loop_ok k n s s' a : turned n s = Some s' -> step s' = Ok (inr a) -> (n < 2 ^ k)%nat -> loop k step s = Ok a.
  Proof. intros H E Hn. rewrite (loop_last k n s s' H); [by rewrite E|unfold next; by rewrite E|done]. Qed.
  Lemma loop_ok_inv k s a : loop k step s = Ok a -> exists n s', (n < 2 ^ k)%nat /\ turned n s = Some s' /\ step s' = Ok (inr a).
  Proof.
    unfold loop. destruct (turns_cases k s) as [(s2 & H2 & ->)|(m & s2 & Hm & H2 & N2 & ->)]; [done|].
    intros H. exists m, s2. split; [done|]. split; [done|]. destruct (step s2) as [[]| |]; try done. cbn in H. by injection H as ->.
  Qed.
  Lemma loop_panic_inv k s : loop k step s = Panic -> exists n s', turned n s = Some s' /\ step s' = Panic.
  Proof.
    unfold loop. destruct (turns_cases k s) as [(s2 & H2 & ->)|(m & s2 & Hm & H2 & N2 & ->)]; [done|].
    intros H. exists m, s2. split; [done|]. destruct (step s2) as [[]| |]; done.
  Qed.
  Lemma loop_hang k s : loop k step s = Hang <-> is_Some (turned (2 ^ k) s) \/ exists n s', (n < 2 ^ k)%nat /\ turned n s = Some s' /\ step s' = Hang.
  Proof.
    destruct (turns_cases k s) as [(s2 & H2 & E)|(m & s2 & Hm & H2 & N2 & E)].
    - unfold loop. rewrite E. split; [intros _; left; by eexists|done].
    - rewrite (loop_last k m s s2 H2 N2 Hm). split.
      + intros H. right. exists m, s2. unfold next in N2. destruct (step s2) as [[]| |]; done.
      + intros [[s3 H3]|(n & s3 & Hn & H3 & E3)].
        * exfalso. replace (2 ^ k)%nat with (m + Datatypes.S (2 ^ k - m - 1))%nat in H3 by lia. rewrite turned_add, H2 in H3. cbn in H3. by rewrite N2 in H3.
        * assert (next s3 = None) as N3 by (unfold next; by rewrite E3). destruct (turned_stuck n m s s3 s2 H3 N3 H2 N2) as [_ <-]. by rewrite E3.
  Qed.
  (** With fewer states than turns, the turns go on for ever. *)
  Context (live : S -> Prop) (code : S -> N) (L : nat) (Hlow : forall s s', live s -> next s = Some s' -> live s' /\ (N.to_nat (code s) < L)%nat)
    (Hcode : forall s s', live s -> live s' -> is_Some (next s) -> is_Some (next s') -> code s = code s' -> forall n, is_Some (turned n s') -> is_Some (turned n s)).
  Lemma turned_live n : forall s s', live s -> turned n s = Some s' -> live s'.
  Proof. induction n as [|n IH]; intros s s' Hl; [by intros [= <-]|]. cbn. destruct (next s) as [t|] eqn:E; [|done]. cbn. apply IH. by eapply Hlow. Qed.
  Lemma repeated (l : list N) : NoDup l \/ exists a b x, (a < b)%nat /\ l !! a = Some x /\ l !! b = Some x.
  Proof.
    induction l as [|y l [IH|(a & b & x & H1 & H2 & H3)]]; [left; constructor| |right; exists (Datatypes.S a), (Datatypes.S b), x; repeat split; [lia|done..]].
    destruct (decide (y ∈ l)) as [Hy|Hy]; [|left; by constructor]. apply elem_of_list_lookup in Hy as [b Hb]. right. exists O, (Datatypes.S b), y. repeat split; [lia|done].
  Qed.
  Lemma low_length (l : list N) : NoDup l -> Forall (fun x => (N.to_nat x < L)%nat) l -> (length l <= L)%nat.
  Proof.
    intros Hd Hl. assert (Hs : N.to_nat <$> l ⊆+ seq 0 L).
    { apply NoDup_submseteq; [apply NoDup_fmap_2; [intros x y; lia|done]|]. intros x (y & -> & Hy)%elem_of_list_fmap. rewrite Forall_forall in Hl. specialize (Hl y Hy). apply elem_of_seq. lia. }
    apply submseteq_length in Hs. by rewrite fmap_length, seq_length in Hs.
  Qed.
  Lemma turned_forever s : live s -> is_Some (turned (Datatypes.S L) s) -> forall n, is_Some (turned n s).
  Proof.
    intros Hlv H. assert (Hm : forall n, (n <= L)%nat -> exists x, turned n s = Some x /\ live x /\ is_Some (next x) /\ (N.to_nat (code x) < L)%nat).
    { intros n Hn. destruct (turned_le (Datatypes.S L) (Datatypes.S n) s) as [y Hy]; [lia|done|]. rewrite turned_S in Hy. destruct (turned n s) as [x|] eqn:Ex; [|done]. exists x.
      assert (live x) by by eapply turned_live. split; [done|]. split; [done|]. split; [by exists y|]. by eapply Hlow. }
    set (l := map (fun n => default 0%N (code <$> turned n s)) (seq 0 (Datatypes.S L))). destruct (repeated l) as [Hd|(a & b & x & Hab & Ha & Hb)].
    { exfalso. assert (Hl : (length l <= L)%nat).
      { apply low_length; [done|]. apply Forall_fmap, Forall_forall. intros n [_ Hn]%elem_of_seq. destruct (Hm n) as (y & Hy & _ & _ & ?); [lia|]. cbn. by rewrite Hy. }
      unfold l in Hl. rewrite map_length, seq_length in Hl. lia. }
    assert (E : forall k, l !! k = Some x -> exists y, turned k s = Some y /\ live y /\ is_Some (next y) /\ code y = x).
    { intros k Hk. unfold l in Hk. apply list_lookup_fmap_inv in Hk as (n & Hn & Hk). apply lookup_seq in Hk as [-> Hk]. destruct (Hm (0 + k)%nat) as (y & Hy & Hv & Hl & _); [lia|]. rewrite Hy in Hn. cbn in Hn, Hy. by exists y. }
    apply E in Ha as (ya & Ha & Va & Ia & Ca). apply E in Hb as (yb & Hb & Vb & Ib & Cb). clear E. intros n. induction (lt_wf n) as [n _ IH]. destruct (decide (n <= b)%nat) as [Hn|Hn].
    - eapply turned_le; [exact Hn|]. by eexists.
    - replace n with (b + (n - b))%nat by lia. rewrite turned_add, Hb. cbn [mbind option_bind]. apply (Hcode yb ya Vb Va Ib Ia); [congruence|].
      assert (H2 := turned_add a (n - b) s). rewrite Ha in H2. cbn [mbind option_bind] in H2. rewrite <- H2. apply IH. lia.
  Qed.
  Context (k : nat) (Hk : (L < 2 ^ k)%nat).
  Lemma loop_stops n s s' : live s -> turned n s = Some s' -> next s' = None -> loop k step s = match step s' with Ok (inr a) => Ok a | Panic => Panic | _ => Hang end.
  Proof.
    intros Hlv H N. destruct (le_lt_dec (2 ^ k) n) as [Hn|Hn]; [|by eapply loop_last]. exfalso. destruct (turned_forever s Hlv) with (n := Datatypes.S n) as [x Hx].
    - apply (turned_le n); [lia|by eexists].
    - rewrite turned_S, H in Hx. cbn in Hx. congruence.
  Qed.
  Lemma loop_endless s : live s -> loop k step s = Hang <-> (forall n, is_Some (turned n s)) \/ exists n s', turned n s = Some s' /\ step s' = Hang.
  Proof.
    intros Hlv. rewrite loop_hang. split.
    - intros [H|(n & s' & _ & H)]; [left|right; by exists n, s']. apply turned_forever; [done|]. by apply (turned_le (2 ^ k)).
    - intros [H|(n & s' & H & E)]; [by left|]. apply (loop_hang k). rewrite (loop_stops n s s' Hlv H); [by rewrite E|unfold next; by rewrite E].
  Qed.
End loop.
