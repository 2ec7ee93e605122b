(** Property C115: an Indexer and BuildIndex over a Dictionary, a guide and an Index with
    any contents whatever, as Read takes them from a file (indexer.go, index_builder.go).
    Nothing here says that a builder made them. *)
From Verif Require Import Go Dawg Dict DictUnit DictThms Guide Ranked Serial LinkTableProofs Index LoopProofs IndexProofs Properties_Serial Properties_Loaded.
Local Open Scope N_scope.
Local Arguments N.mul : simpl never.
Local Arguments N.add : simpl never.
Local Arguments N.div : simpl never.
Local Arguments N.of_nat : simpl never.
Local Arguments N.to_nat : simpl never.
Local Arguments Nat.pow : simpl never.

(** ** The steps, without the model.  From unit [i] the label [c] leads to unit [j]; the
    guide gives the first label below a unit, and the label after that of a unit. *)
Definition meets (us : list N) (i c j : N) : Prop := exists u v, at_ us i u /\ j = target i u c /\ at_ us j v /\ v mod 256 = c.
Definition first_label (g : list (N * N)) (i c : N) : Prop := exists s, at_ g i (c, s).
Definition next_label (g : list (N * N)) (j c : N) : Prop := exists l, at_ g j (l, c).
Definition forever {T} (step : T -> T -> Prop) (s : T) : Prop := exists f : nat -> T, f O = s /\ forall n, step (f n) (f (S n)).
(** BytesToIndex at unit [i] passes the labels below [c]; then it goes on with [c]. *)
Definition skips (us : list N) (g : list (N * N)) (ix : list N) (i c : N) (l l' : N) : Prop :=
  l <> 0 /\ l < c /\ exists j n, meets us i l j /\ at_ ix j n /\ next_label g j l'.
Inductive arrives (us : list N) (g : list (N * N)) (ix : list N) : N -> list N -> N -> Prop :=
| arrives_nil i : arrives us g ix i [] i
| arrives_cons i c l l' j q k : first_label g i l -> rtc (skips us g ix i c) l l' -> l' <> 0 -> c <= l' -> meets us i c j -> arrives us g ix j q k -> arrives us g ix i (c :: q) k.
(** IndexToBytes for [w]: at unit [i] with [cur] keys before it.  It starts with a label
    and a count, passes children whose keys all come before [w], and enters the child
    where they do not. *)
Definition starts (us : list N) (g : list (N * N)) (w : N) (s t : N * N) : Prop :=
  exists u, s.2 <= w /\ at_ us s.1 u /\ (N.testbit u 8 = true -> s.2 <> w) /\ first_label g s.1 t.1 /\ t.2 = if N.testbit u 8 then (s.2 + 1) mod 4294967296 else s.2.
Definition passes (us : list N) (g : list (N * N)) (ix : list N) (w i : N) (t t' : N * N) : Prop :=
  t.1 <> 0 /\ exists j n, meets us i t.1 j /\ at_ ix j n /\ (t.2 + n) mod 4294967296 <= w /\ next_label g j t'.1 /\ t'.2 = (t.2 + n) mod 4294967296.
Definition enters (us : list N) (g : list (N * N)) (ix : list N) (w : N) (s s' : N * N) : Prop :=
  exists t t' n, starts us g w s t /\ rtc (passes us g ix w s.1) t t' /\ t'.1 <> 0 /\ meets us s.1 t'.1 s'.1 /\ at_ ix s'.1 n /\ w < (t'.2 + n) mod 4294967296 /\ s'.2 = t'.2.
(** A step that needs a unit, a count or a label which is not there. *)
Definition breaks_at (us : list N) (g : list (N * N)) (ix : list N) (i l : N) : Prop :=
  falls us i l \/ exists j, meets us i l j /\ (beyond ix j \/ beyond g j).
Inductive rank_lost (us : list N) (g : list (N * N)) (ix : list N) : N -> list N -> Prop :=
| lost_unit i q : beyond us i -> rank_lost us g ix i q
| lost_guide i c q : beyond g i -> rank_lost us g ix i (c :: q)
| lost_skip i c q l l' : first_label g i l -> rtc (skips us g ix i c) l l' -> l' <> 0 -> l' < c -> breaks_at us g ix i l' -> rank_lost us g ix i (c :: q)
| lost_step i c q l l' : first_label g i l -> rtc (skips us g ix i c) l l' -> l' <> 0 -> c <= l' -> falls us i c -> rank_lost us g ix i (c :: q)
| lost_later i c q l l' j : first_label g i l -> rtc (skips us g ix i c) l l' -> l' <> 0 -> c <= l' -> meets us i c j -> rank_lost us g ix j q -> rank_lost us g ix i (c :: q).
Definition look_lost (us : list N) (g : list (N * N)) (ix : list N) (w i : N) (t : N * N) : Prop :=
  t.1 <> 0 /\ (falls us i t.1 \/ exists j, meets us i t.1 j /\ (beyond ix j \/ exists n, at_ ix j n /\ (t.2 + n) mod 4294967296 <= w /\ beyond g j)).
Definition key_lost (us : list N) (g : list (N * N)) (ix : list N) (w : N) (s : N * N) : Prop :=
  (s.2 <= w /\ beyond us s.1) \/
  (exists u, s.2 <= w /\ at_ us s.1 u /\ (N.testbit u 8 = true -> s.2 <> w) /\ beyond g s.1) \/
  (exists t t', starts us g w s t /\ rtc (passes us g ix w s.1) t t' /\ look_lost us g ix w s.1 t').
(** What the calls give.  [skipped]: the labels passed, and the sum of their counts;
    [spells]: the labels of the children entered. *)
Inductive skipped (us : list N) (g : list (N * N)) (ix : list N) (i c : N) : N -> N -> N -> Prop :=
| skipped_none l : skipped us g ix i c l l 0
| skipped_one l j m l1 l' n : l <> 0 -> l < c -> meets us i l j -> at_ ix j m -> next_label g j l1 -> skipped us g ix i c l1 l' n -> skipped us g ix i c l l' (m + n).
Inductive rank_gives (us : list N) (g : list (N * N)) (ix : list N) : N -> list N -> N -> N -> Prop :=
| gives_end i r u : at_ us i u -> rank_gives us g ix i [] r (if N.testbit u 8 then r else 4294967295)
| gives_failed i c q r u v l l' n : at_ us i u -> first_label g i l -> skipped us g ix i c l l' n -> l' <> 0 -> l' < c -> at_ us (target i u l') v -> v mod 256 <> l' -> rank_gives us g ix i (c :: q) r 4294967294
| gives_past i c q r u l n : at_ us i u -> first_label g i l -> skipped us g ix i c l 0 n -> rank_gives us g ix i (c :: q) r 4294967295
| gives_none i c q r u v l l' n : at_ us i u -> first_label g i l -> skipped us g ix i c l l' n -> l' <> 0 -> c <= l' -> at_ us (target i u c) v -> v mod 256 <> c -> rank_gives us g ix i (c :: q) r 4294967295
| gives_step i c q r u l l' n j r' : at_ us i u -> first_label g i l -> skipped us g ix i c l l' n -> l' <> 0 -> c <= l' -> meets us i c j ->
    rank_gives us g ix j q ((r + (if N.testbit u 8 then 1 else 0) + n) mod 4294967296) r' -> rank_gives us g ix i (c :: q) r r'.
Definition enterl (us : list N) (g : list (N * N)) (ix : list N) (w : N) (s : N * N) (l : N) (s' : N * N) : Prop :=
  exists t n, starts us g w s t /\ rtc (passes us g ix w s.1) t (l, s'.2) /\ l <> 0 /\ meets us s.1 l s'.1 /\ at_ ix s'.1 n /\ w < (s'.2 + n) mod 4294967296.
Inductive spells (us : list N) (g : list (N * N)) (ix : list N) (w : N) : N * N -> list N -> N * N -> Prop :=
| spells_nil s : spells us g ix w s [] s
| spells_cons s l s1 b s' : enterl us g ix w s l s1 -> spells us g ix w s1 b s' -> spells us g ix w s (l :: b) s'.
(** A key ends at the end of [q]. *)
Definition ends_key (us : list N) (q : list N) : Prop := exists k u, leads us 0 q k /\ at_ us k u /\ N.testbit u 8 = true.

(** ** Steps that are functions. *)
Section fixed.
  Context {S : Type} (R : S -> S -> Prop) (Hf : forall a b c, R a b -> R a c -> b = c).
  Lemma stuck_same a b c : rtc R a b -> (forall x, ~ R b x) -> rtc R a c -> (forall x, ~ R c x) -> b = c.
  Proof.
    intros H. revert c. induction H as [a|a a' b H1 _ IH]; intros c Hb Hc Hn.
    - inversion Hc as [|? y ? H2 _]; [done|]. subst. by apply Hb in H2.
    - inversion Hc as [|? y ? H2 H3]; subst; [by apply Hn in H1|]. apply IH; [done| |done]. by rewrite (Hf _ _ _ H1 H2).
  Qed.
  Lemma forever_step a b : forever R a -> R a b -> forever R b.
  Proof. intros (f & <- & H) Hb. exists (fun n => f (Datatypes.S n)). split; [exact (Hf _ _ _ (H O) Hb)|]. intros n. apply H. Qed.
  Lemma forever_not a b : forever R a -> rtc R a b -> exists x, R b x.
  Proof. intros H Hr. revert H. induction Hr as [a|a a' b H1 _ IH]; intros H; [destruct H as (f & <- & H); eexists; apply H|]. apply IH. by eapply forever_step. Qed.
End fixed.
Lemma meets_fun us i c j j' : meets us i c j -> meets us i c j' -> j = j'.
Proof. intros (u & v & Hu & -> & _) (u' & v' & Hu' & -> & _). unfold at_ in *. congruence. Qed.
Lemma meets_Follow us i c j : words us -> dc_Follow us c i = Ok (true, j) <-> meets us i c j.
Proof.
  intros Hw. destruct (Follow_at us i c Hw) as [[Hf ->]|(u & v & Hu & Hv & [[Hc ->]|[Hc ->]])].
  - split; [done|]. intros (u & v & Hu & -> & Hv & _). exfalso. exact (not_falls _ _ _ _ _ Hu Hv Hf).
  - split; [intros [= <-]; by exists u, v|]. intros (u' & v' & Hu' & -> & _). unfold at_ in *. simplify_eq. done.
  - split; [done|]. intros (u' & v' & Hu' & -> & Hv' & E). unfold at_ in *. by simplify_eq.
Qed.
Lemma falls_Follow us i c : words us -> dc_Follow us c i = Panic <-> falls us i c.
Proof.
  intros Hw. destruct (Follow_at us i c Hw) as [[Hf ->]|(u & v & Hu & Hv & H)]; [done|]. pose proof (not_falls us i c u v Hu Hv). destruct H as [[_ ->]|[_ ->]]; done.
Qed.
Lemma get_beyond {A} (l : list A) i : get l i = Panic <-> beyond l i.
Proof. rewrite <- at_None. unfold get. by destruct (l !! N.to_nat i). Qed.
Lemma child_beyond g i : gd_Child g i = Panic <-> beyond g i.
Proof. rewrite <- get_beyond. unfold gd_Child. destruct (get g i) as [[]| |]; done. Qed.
Lemma sibling_beyond g i : gd_Sibling g i = Panic <-> beyond g i.
Proof. rewrite <- get_beyond. unfold gd_Sibling. destruct (get g i) as [[]| |]; done. Qed.
Lemma has_beyond us i : dc_HasValue us i = Panic <-> beyond us i.
Proof. rewrite <- get_beyond. unfold dc_HasValue. destruct (get us i); done. Qed.
Lemma Follow_ok us i c : dc_Follow us c i = Hang -> False.
Proof. apply Follow_nohang. Qed.
Lemma get_at {A} (l : list A) i x : get l i = Ok x <-> at_ l i x.
Proof. unfold get, at_. destruct (l !! N.to_nat i); split; congruence. Qed.
Lemma get_ok {A} (l : list A) i : get l i = Hang -> False.
Proof. unfold get. by destruct (l !! _). Qed.
Lemma sibling_at g j l : gd_Sibling g j = Ok l <-> next_label g j l.
Proof.
  unfold gd_Sibling, next_label. destruct (get g j) as [[c s]| |] eqn:E; cbn [mbind res_bind snd].
  - apply get_at in E. split; [intros [= <-]; by exists c|]. intros [c' H]. unfold at_ in *. congruence.
  - split; [done|]. intros [c' H%get_at]. congruence.
  - split; [done|]. intros [c' H%get_at]. congruence.
Qed.
Lemma child_at g j l : gd_Child g j = Ok l <-> first_label g j l.
Proof.
  unfold gd_Child, first_label. destruct (get g j) as [[c s]| |] eqn:E; cbn [mbind res_bind fst].
  - apply get_at in E. split; [intros [= <-]; by exists s|]. intros [c' H]. unfold at_ in *. congruence.
  - split; [done|]. intros [c' H%get_at]. congruence.
  - split; [done|]. intros [c' H%get_at]. congruence.
Qed.
Lemma sibling_ok g j : gd_Sibling g j = Hang -> False.
Proof. unfold gd_Sibling. destruct (get g j) eqn:E; [done|done|]. intros _. by eapply get_ok. Qed.
Lemma child_ok g j : gd_Child g j = Hang -> False.
Proof. unfold gd_Child. destruct (get g j) eqn:E; [done|done|]. intros _. by eapply get_ok. Qed.
Lemma has_at us i b : dc_HasValue us i = Ok b <-> exists u, at_ us i u /\ b = N.testbit u 8.
Proof.
  unfold dc_HasValue. destruct (get us i) as [u| |] eqn:E; cbn [mbind res_bind].
  - apply get_at in E. rewrite dictHasLeaf_bit. split; [intros [= <-]; by exists u|]. intros (u' & H & ->). unfold at_ in *. congruence.
  - split; [done|]. intros (u & H%get_at & _). congruence.
  - split; [done|]. intros (u & H%get_at & _). congruence.
Qed.
Lemma has_ok us i : dc_HasValue us i = Hang -> False.
Proof. unfold dc_HasValue. destruct (get us i) eqn:E; [done|done|]. intros _. by eapply get_ok. Qed.
Lemma meets_low us i c j : meets us i c j -> c < 256.
Proof. intros (u & v & _ & _ & _ & <-). apply N.mod_lt. done. Qed.

(** ** BytesToIndex. *)
Lemma skips_fun us g ix i c a b b' : skips us g ix i c a b -> skips us g ix i c a b' -> b = b'.
Proof.
  intros (_ & _ & j & n & Hm & _ & l & Hl) (_ & _ & j' & n' & Hm' & _ & l' & Hl'). rewrite (meets_fun _ _ _ _ _ Hm' Hm) in Hl'. unfold at_ in *. congruence.
Qed.
Definition skip1 (us : list N) (g : list (N * N)) (ix : list N) (i c : N) (l : N) : option N :=
  if (l <? c) && negb (l =? 0) then
    match dc_Follow us l i with
    | Ok (true, j) => match get ix j with Ok _ => match gd_Sibling g j with Ok s => Some s | _ => None end | _ => None end
    | _ => None
    end
  else None.
Lemma skip1_iff us g ix i c l l' : words us -> skips us g ix i c l l' <-> skip1 us g ix i c l = Some l'.
Proof.
  intros Hw. unfold skips, skip1. split.
  - intros (H0 & Hc & j & n & Hm & Hn & Hs). rewrite (proj2 (N.ltb_lt _ _) Hc), (proj2 (N.eqb_neq _ _) H0). cbn [andb negb].
    rewrite (proj2 (meets_Follow us i l j Hw) Hm), (proj2 (get_at ix j n) Hn), (proj2 (sibling_at g j l') Hs). done.
  - destruct (N.ltb_spec l c) as [Hc|]; [|done]. destruct (N.eqb_spec l 0) as [|H0]; [done|]. cbn [andb negb].
    destruct (dc_Follow us l i) as [[[] j]| |] eqn:Ef; try done. apply (meets_Follow us i l j Hw) in Ef. destruct (get ix j) as [n| |] eqn:En; try done. apply get_at in En.
    destruct (gd_Sibling g j) as [s| |] eqn:Es; try done. apply sibling_at in Es. intros [= <-]. split; [done|]. split; [done|]. by exists j, n.
Qed.
Lemma skip_cases us g ix i c n : words us -> forall l r,
  match ir_skip n us g ix i c l r with
  | Hang => is_Some (times (skip1 us g ix i c) n l)
  | Ok (Some (l', _)) => rtc (skips us g ix i c) l l' /\ (l' = 0 \/ c <= l')
  | Ok None => exists l', rtc (skips us g ix i c) l l' /\ l' <> 0 /\ l' < c /\ (forall x, ~ skips us g ix i c l' x) /\ ~ breaks_at us g ix i l'
  | Panic => exists l', rtc (skips us g ix i c) l l' /\ l' <> 0 /\ l' < c /\ (forall x, ~ skips us g ix i c l' x) /\ breaks_at us g ix i l'
  end.
Proof.
  intros Hw. induction n as [|n IH]; intros l r; cbn [ir_skip times].
  - destruct ((l <? c) && negb (l =? 0)) eqn:E; [by eexists|]. split; [constructor|]. destruct (N.ltb_spec l c); [|by right]. destruct (N.eqb_spec l 0); [by left|done].
  - destruct ((l <? c) && negb (l =? 0)) eqn:E; cycle 1.
    { split; [constructor|]. destruct (N.ltb_spec l c); [|by right]. destruct (N.eqb_spec l 0); [by left|done]. }
    assert (Hl : l <> 0 /\ l < c) by (apply andb_true_iff in E as [E1%N.ltb_lt E2%negb_true_iff]; apply N.eqb_neq in E2; done).
    assert (Hno : forall P : N -> Prop, skip1 us g ix i c l = None -> P l -> exists l', rtc (skips us g ix i c) l l' /\ l' <> 0 /\ l' < c /\ (forall x, ~ skips us g ix i c l' x) /\ P l').
    { intros P Hn HP. exists l. split; [constructor|]. split; [apply Hl|]. split; [apply Hl|]. split; [|done]. intros x Hx%skip1_iff; [congruence|done]. }
    pose proof (fun l' => skip1_iff us g ix i c l l' Hw) as Hi. unfold skip1 in Hno, Hi at 1 |- *. rewrite E in Hno, Hi |- *. pose proof (Follow_ok us i l) as Hh. pose proof (falls_Follow us i l Hw) as Hfa.
    pose proof (fun j => meets_Follow us i l j Hw) as Hme. destruct (dc_Follow us l i) as [[[] j]| |]; cbn [mbind res_bind negb option_bind]; [| | |by destruct Hh].
    2: { apply (Hno (fun l => ~ breaks_at us g ix i l)); [done|]. intros [H%Hfa|(j' & H%Hme & _)]; done. }
    2: { apply (Hno (breaks_at us g ix i)); [done|]. left. by apply Hfa. }
    assert (Hj : meets us i l j) by by apply Hme. unfold ix_ChildCount. pose proof (get_ok ix j) as Hh2. pose proof (get_beyond ix j) as Hb2. destruct (get ix j) as [k| |]; cbn [mbind res_bind option_bind]; [| |by destruct Hh2].
    2: { apply (Hno (breaks_at us g ix i)); [done|]. right. exists j. split; [done|]. left. by apply Hb2. }
    pose proof (sibling_ok g j) as Hh3. pose proof (sibling_beyond g j) as Hb3. destruct (gd_Sibling g j) as [s| |]; cbn [mbind res_bind option_bind]; [| |by destruct Hh3].
    2: { apply (Hno (breaks_at us g ix i)); [done|]. right. exists j. split; [done|]. right. by apply Hb3. }
    assert (H1 : skips us g ix i c l s) by by apply Hi. specialize (IH s (u32 (r + k))). destruct (ir_skip n us g ix i c s (u32 (r + k))) as [[[l' r']|]| |].
    + destruct IH as [H2 H3]. split; [by econstructor|done].
    + destruct IH as (l' & H2 & H3). exists l'. split; [by econstructor|done].
    + destruct IH as (l' & H2 & H3). exists l'. split; [by econstructor|done].
    + done.
Qed.
Lemma skip_hang us g ix i c l r : words us -> c < 256 -> ir_skip 256 us g ix i c l r = Hang <-> forever (skips us g ix i c) l.
Proof.
  intros Hw Hc. pose proof (skip_cases us g ix i c 256 Hw l r) as H.
  assert (Hlow : forall a b, skip1 us g ix i c a = Some b -> (N.to_nat a < 255)%nat) by (intros a b Hab%skip1_iff; [destruct Hab as (_ & Hlt & _); lia|done]).
  pose proof (times_endless (skip1 us g ix i c) 255 Hlow l (skips us g ix i c) (fun a b => skip1_iff us g ix i c a b Hw)) as He. change (endless (skips us g ix i c) l) with (forever (skips us g ix i c) l) in He.
  split.
  - intros E. rewrite E in H. by apply He.
  - intros Hf. pose proof (fun b => forever_not _ (skips_fun us g ix i c) l b Hf) as Hn. destruct (ir_skip 256 us g ix i c l r) as [[[l' r']|]| |]; [..|done]; exfalso.
    + destruct H as [H1 H2]. destruct (Hn l' H1) as (x & H0 & Hx & _). lia.
    + destruct H as (l' & H1 & _ & _ & H2 & _). destruct (Hn l' H1) as (x & Hx). by eapply H2.
    + destruct H as (l' & H1 & _ & _ & H2 & _). destruct (Hn l' H1) as (x & Hx). by eapply H2.
Qed.
(** C115. BytesToIndex and StringToIndex go on for ever exactly when they come to a unit
    where the labels below the next byte have no end. *)
Theorem C115_rank_ends us g ix q : words us -> Forall (fun c => c < 256) q ->
  (ir_StringToIndex us g ix q = Hang <-> exists q1 c q2 i l, q = q1 ++ c :: q2 /\ arrives us g ix 0 q1 i /\ first_label g i l /\ forever (skips us g ix i c) l).
Proof.
  intros Hw. unfold ir_StringToIndex, ir_BytesToIndex. generalize 0 at 2 as r. generalize 0 as i. induction q as [|c q IH]; intros i r Hq.
  { cbn [ir_walk]. split; [|by intros ([]&?&?&?&?&?&_)]. pose proof (has_ok us i). destruct (dc_HasValue us i); cbn [mbind res_bind]; [done|done|]. by intros _. }
  apply Forall_cons in Hq as [Hc Hq]. cbn [ir_walk].
  assert (Hstuck : (forall l, first_label g i l -> forever (skips us g ix i c) l -> False) -> (forall l l' j, first_label g i l -> rtc (skips us g ix i c) l l' -> l' <> 0 -> c <= l' -> meets us i c j -> False) ->
    ~ exists q1 c0 q2 i0 l, c :: q = q1 ++ c0 :: q2 /\ arrives us g ix i q1 i0 /\ first_label g i0 l /\ forever (skips us g ix i0 c0) l).
  { intros H1 H2 ([|c' q1] & c0 & q2 & i0 & l & E & Ha & Hl & Hf); injection E as -> ->; inversion Ha; subst; [by eapply H1|by eapply H2]. }
  pose proof (has_ok us i) as Hh. destruct (dc_HasValue us i) as [has| |] eqn:Ehas; cbn [mbind res_bind]; [| |by destruct Hh].
  2: { split; [done|]. intros H. exfalso. revert H. assert (Hu : forall u, ~ at_ us i u) by (intros u Hu; rewrite (proj2 (has_at us i _) (ex_intro _ u (conj Hu eq_refl))) in Ehas; done). apply Hstuck.
       - intros l _ (f & <- & H). destruct (H O) as (_ & _ & j & n & (u & v & Hu' & _) & _). by eapply Hu.
       - intros l l' j _ _ _ _ (u & v & Hu' & _). by eapply Hu. }
  pose proof (child_ok g i) as Hh2. pose proof (fun l => child_at g i l) as Hch. destruct (gd_Child g i) as [l| |]; cbn [mbind res_bind]; [| |by destruct Hh2].
  2: { split; [done|]. intros H. exfalso. revert H. apply Hstuck; intros l; intros; by assert (H' := proj2 (Hch l) ltac:(eassumption)). }
  assert (Hl : first_label g i l) by by apply Hch. assert (Hlu : forall l', first_label g i l' -> l' = l) by (intros l' H'%Hch; congruence). clear Hch.
  set (r1 := if has then _ else _). clearbody r1. pose proof (skip_hang us g ix i c l r1 Hw Hc) as Hs. pose proof (skip_cases us g ix i c 256 Hw l r1) as Hcs.
  destruct (ir_skip 256 us g ix i c l r1) as [[[l' r2]|]| |]; cbn [mbind res_bind].
  - destruct Hcs as [Hr Hl']. assert (Hnf : ~ forever (skips us g ix i c) l) by by intros H%Hs. assert (Hst : forall x, ~ skips us g ix i c l' x) by (intros x (H0 & Hx & _); lia).
    assert (Hlast : forall l1, rtc (skips us g ix i c) l l1 -> l1 <> 0 -> c <= l1 -> l1 = l') by (intros l1 H1 H2 H3; eapply (stuck_same _ (skips_fun us g ix i c) l); [done| |done|done]; intros x (_ & Hx & _); lia).
    destruct (N.eqb_spec l' 0) as [H0|H0].
    { split; [done|]. intros H. exfalso. revert H. apply Hstuck; [intros l1 ->%Hlu; done|]. intros l1 l2 j ->%Hlu H2 H3 H4 _. apply H3. by rewrite (Hlast l2). }
    assert (Hcl : c <= l') by (destruct Hl'; done). pose proof (Follow_ok us i c) as Hh3. pose proof (fun j => meets_Follow us i c j Hw) as Hm.
    destruct (dc_Follow us c i) as [[[] j]| |]; cbn [mbind res_bind negb]; [| | |by destruct Hh3].
    + assert (Hj : meets us i c j) by by apply Hm. rewrite (IH j r2 Hq). split.
      * intros (q1 & c0 & q2 & i0 & l0 & -> & Ha & Hrest). exists (c :: q1), c0, q2, i0, l0. split; [done|]. split; [by econstructor|done].
      * intros ([|c' q1] & c0 & q2 & i0 & l0 & E & Ha & Hl0 & Hf); injection E as -> ->; inversion Ha; subst; [rewrite (Hlu l0 Hl0) in Hf; done|].
        match goal with H : meets us i _ ?j' |- _ => rewrite (meets_fun _ _ _ _ _ H Hj) in * end. by exists q1, c0, q2, i0, l0.
    + split; [done|]. intros H. exfalso. revert H. apply Hstuck; [intros l1 ->%Hlu; done|]. intros l1 l2 j' _ _ _ _ H%Hm. done.
    + split; [done|]. intros H. exfalso. revert H. apply Hstuck; [intros l1 ->%Hlu; done|]. intros l1 l2 j' _ _ _ _ H%Hm. done.
  - split; [done|]. intros H. exfalso. revert H. destruct Hcs as (l' & Hr & _ & Hlt & Hst & _). apply Hstuck; [intros l1 ->%Hlu; by rewrite <- Hs|]. intros l1 l2 j ->%Hlu H2 H3 H4 _.
    assert (l' = l2); [|lia]. eapply (stuck_same _ (skips_fun us g ix i c) l); [done|done|done|]. intros x (_ & Hx & _). lia.
  - split; [done|]. intros H. exfalso. revert H. destruct Hcs as (l' & Hr & _ & Hlt & Hst & _). apply Hstuck; [intros l1 ->%Hlu; by rewrite <- Hs|]. intros l1 l2 j ->%Hlu H2 H3 H4 _.
    assert (l' = l2); [|lia]. eapply (stuck_same _ (skips_fun us g ix i c) l); [done|done|done|]. intros x (_ & Hx & _). lia.
  - split; [|done]. intros _. exists [], c, q, i, l. split; [done|]. split; [constructor|]. split; [done|]. by apply Hs.
Qed.
Print Assumptions C115_rank_ends.
Lemma lost_inv us g ix i c q : rank_lost us g ix i (c :: q) -> beyond us i \/ beyond g i \/ exists l l', first_label g i l /\ rtc (skips us g ix i c) l l' /\ l' <> 0 /\
  ((l' < c /\ breaks_at us g ix i l') \/ (c <= l' /\ falls us i c) \/ (c <= l' /\ exists j, meets us i c j /\ rank_lost us g ix j q)).
Proof. intros H. inversion H; subst; [by left|by right; left|right; right; eexists _, _; split; [eassumption|]; split; [eassumption|]; split; [done|]..]; eauto 6. Qed.
(** They panic exactly when a step needs something that is not there. *)
Theorem C115_rank_panics us g ix q : words us -> Forall (fun c => c < 256) q -> (ir_StringToIndex us g ix q = Panic <-> rank_lost us g ix 0 q).
Proof.
  intros Hw. unfold ir_StringToIndex, ir_BytesToIndex. generalize 0 at 2 as r. generalize 0 as i. induction q as [|c q IH]; intros i r Hq.
  { cbn [ir_walk]. pose proof (has_beyond us i) as Hb. split.
    - destruct (dc_HasValue us i); cbn [mbind res_bind]; [done| |done]. intros _. apply lost_unit. by apply Hb.
    - intros H. inversion H as [? ? Hi| | | |]; subst. apply Hb in Hi. by rewrite Hi. }
  apply Forall_cons in Hq as [Hc Hq]. cbn [ir_walk]. pose proof (has_ok us i) as Hh. pose proof (has_beyond us i) as Hb. destruct (dc_HasValue us i) as [has| |]; cbn [mbind res_bind]; [| |by destruct Hh].
  2: { split; [|done]. intros _. apply lost_unit. by apply Hb. }
  assert (Hnu : ~ beyond us i) by by intros H%Hb. clear Hh Hb.
  pose proof (child_ok g i) as Hh2. pose proof (fun l => child_at g i l) as Hch. pose proof (child_beyond g i) as Hb2. destruct (gd_Child g i) as [l| |]; cbn [mbind res_bind]; [| |by destruct Hh2].
  2: { split; [|done]. intros _. apply lost_guide. by apply Hb2. }
  assert (Hng : ~ beyond g i) by by intros H%Hb2. assert (Hl : first_label g i l) by by apply Hch. assert (Hlu : forall l', first_label g i l' -> l' = l) by (intros l' H'%Hch; congruence). clear Hch Hb2 Hh2.
  set (r1 := if has then _ else _). clearbody r1. pose proof (skip_hang us g ix i c l r1 Hw Hc) as Hs. pose proof (skip_cases us g ix i c 256 Hw l r1) as Hcs.
  assert (Hend : forall l1, rtc (skips us g ix i c) l l1 -> (forall x, ~ skips us g ix i c l1 x) -> forall l2, rtc (skips us g ix i c) l l2 -> l2 <> 0 -> c <= l2 \/ breaks_at us g ix i l2 -> l1 = l2).
  { intros l1 H1 Hn1 l2 H2 H0 H3. eapply (stuck_same _ (skips_fun us g ix i c) l); [done|done|done|]. intros x (_ & Hx & j & n & Hm & Hn & y & Hy). destruct H3 as [H3|[H3|(j' & Hm' & H3)]]; [lia| |].
    - apply (falls_Follow us i l2 Hw) in H3. apply (meets_Follow us i l2 j Hw) in Hm. congruence.
    - rewrite (meets_fun _ _ _ _ _ Hm' Hm) in H3. destruct H3 as [H3|H3]; [exact (at_beyond _ _ _ Hn H3)|exact (at_beyond _ _ _ Hy H3)]. }
  destruct (ir_skip 256 us g ix i c l r1) as [[[l' r2]|]| |]; cbn [mbind res_bind].
  - destruct Hcs as [Hr Hl']. assert (Hst : forall x, ~ skips us g ix i c l' x) by (intros x (H0 & Hx & _); lia). specialize (Hend l' Hr Hst).
    destruct (N.eqb_spec l' 0) as [H0|H0].
    { split; [done|]. intros H. exfalso. destruct (lost_inv _ _ _ _ _ _ H) as [?|[?|(l1 & l2 & ->%Hlu & H2 & H3 & [[H4 H5]|[[H4 H5]|(H4 & j & H5 & H6)]])]]; try done; apply H3; rewrite <- H0; symmetry; (apply Hend; [done|done|]); [by right|by left|by left]. }
    assert (Hcl : c <= l') by (destruct Hl'; done). pose proof (Follow_ok us i c) as Hh3. pose proof (fun j => meets_Follow us i c j Hw) as Hm. pose proof (falls_Follow us i c Hw) as Hfa.
    assert (Hcut : rank_lost us g ix i (c :: q) -> falls us i c \/ exists j, meets us i c j /\ rank_lost us g ix j q).
    { intros H. destruct (lost_inv _ _ _ _ _ _ H) as [?|[?|(l1 & l2 & ->%Hlu & H2 & H3 & [[H4 H5]|[[H4 H5]|(H4 & j & H5 & H6)]])]]; try done; [|by left|right; by exists j].
      exfalso. assert (l' = l2) by (apply Hend; [done|done|by right]). lia. }
    destruct (dc_Follow us c i) as [[[] j]| |]; cbn [mbind res_bind negb]; [| | |by destruct Hh3].
    + assert (Hj : meets us i c j) by by apply Hm. rewrite (IH j r2 Hq). split; [by eapply lost_later|]. intros [H%Hfa|(j' & H%Hm & H')]%Hcut; [done|]. by injection H as <-.
    + split; [done|]. intros [H%Hfa|(j' & H%Hm & H')]%Hcut; done.
    + split; [|done]. intros _. apply (lost_step us g ix i c q l l'); [done..|]. by apply Hfa.
  - destruct Hcs as (l' & Hr & H0 & Hlt & Hst & Hnb). specialize (Hend l' Hr Hst). split; [done|]. intros H. exfalso.
    destruct (lost_inv _ _ _ _ _ _ H) as [?|[?|(l1 & l2 & ->%Hlu & H2 & H3 & [[H4 H5]|[[H4 H5]|(H4 & j & H5 & H6)]])]]; try done.
    + apply Hnb. assert (l' = l2) as -> by (apply Hend; [done|done|by right]). done.
    + assert (l' = l2) by (apply Hend; [done|done|by left]). lia.
    + assert (l' = l2) by (apply Hend; [done|done|by left]). lia.
  - split; [|done]. intros _. destruct Hcs as (l' & Hr & H0 & Hlt & _ & Hb). by apply (lost_skip us g ix i c q l l').
  - split; [done|]. intros H. exfalso. assert (Hf : forever (skips us g ix i c) l) by by apply Hs. pose proof (fun b => forever_not _ (skips_fun us g ix i c) l b Hf) as Hn.
    assert (Hx : forall l2, rtc (skips us g ix i c) l l2 -> c <= l2 \/ breaks_at us g ix i l2 -> False).
    { intros l2 H2 H3. destruct (Hn l2 H2) as (x & _ & Hx & j & n & Hm & Hn' & y & Hy). destruct H3 as [H3|[H3|(j' & Hm' & H3)]]; [lia| |].
      - apply (falls_Follow us i l2 Hw) in H3. apply (meets_Follow us i l2 j Hw) in Hm. congruence.
      - rewrite (meets_fun _ _ _ _ _ Hm' Hm) in H3. destruct H3 as [H3|H3]; [exact (at_beyond _ _ _ Hn' H3)|exact (at_beyond _ _ _ Hy H3)]. }
    destruct (lost_inv _ _ _ _ _ _ H) as [?|[?|(l1 & l2 & ->%Hlu & H2 & H3 & [[H4 H5]|[[H4 H5]|(H4 & j & H5 & H6)]])]]; try done; (eapply Hx; [done|]); [by right|by left|by left].
Qed.
Print Assumptions C115_rank_panics.
Lemma skipped_rtc us g ix i c l l' n : skipped us g ix i c l l' n -> rtc (skips us g ix i c) l l'.
Proof. induction 1 as [|l j m l1 l' n H0 H1 H2 H3 H4 _ IH]; [constructor|]. econstructor; [|exact IH]. split; [done|]. split; [done|]. by exists j, m. Qed.
Lemma skipped_fun us g ix i c l l' n : skipped us g ix i c l l' n -> forall n', skipped us g ix i c l l' n' -> (forall x, ~ skips us g ix i c l' x) -> n = n'.
Proof.
  assert (Hs : forall l l1 j m, l <> 0 -> l < c -> meets us i l j -> at_ ix j m -> next_label g j l1 -> skips us g ix i c l l1) by (intros l0 l1 j m ? ? ? ? ?; split; [done|]; split; [done|]; by exists j, m).
  induction 1 as [l|l j m l1 l' n H0 H1 H2 H3 H4 _ IH]; intros n' H Hst; inversion H as [|? j' m' l1' ? n2 H0' H1' H2' H3' H4' H5']; subst.
  - done.
  - exfalso. eapply Hst. by eapply (Hs _ l1' j' m').
  - exfalso. eapply Hst. by eapply (Hs _ l1 j m).
  - rewrite (meets_fun _ _ _ _ _ H2' H2) in *. assert (m' = m) as -> by (unfold at_ in *; congruence). assert (l1' = l1) as -> by (destruct H4 as [x H4], H4' as [x' H4']; unfold at_ in *; congruence). f_equal. by apply IH.
Qed.
Lemma skip_sum us g ix i c fuel : words us -> forall l r, r < 4294967296 ->
  match ir_skip fuel us g ix i c l r with
  | Ok (Some (l', r')) => exists n, skipped us g ix i c l l' n /\ r' = (r + n) mod 4294967296 /\ (l' = 0 \/ c <= l')
  | Ok None => exists l' n u v, skipped us g ix i c l l' n /\ l' <> 0 /\ l' < c /\ at_ us i u /\ at_ us (target i u l') v /\ v mod 256 <> l'
  | _ => True
  end.
Proof.
  intros Hw. assert (Hout : forall l r, (l <? c) && negb (l =? 0) = false -> r < 4294967296 -> exists n, skipped us g ix i c l l n /\ r = (r + n) mod 4294967296 /\ (l = 0 \/ c <= l)).
  { intros l r E Hr. exists 0. split; [constructor|]. split; [by rewrite N.add_0_r, N.mod_small|]. destruct (N.ltb_spec l c); [|by right]. destruct (N.eqb_spec l 0); [by left|done]. }
  induction fuel as [|n IH]; intros l r Hr; cbn [ir_skip]; (destruct ((l <? c) && negb (l =? 0)) eqn:E; [|by apply Hout]); [done|].
  assert (Hl : l <> 0 /\ l < c) by (apply andb_true_iff in E as [E1%N.ltb_lt E2%negb_true_iff]; apply N.eqb_neq in E2; done). destruct Hl as [Hl0 Hlc].
  destruct (Follow_at us i l Hw) as [[_ ->]|(u & v & Hu & Hv & [[Hc ->]|[Hc ->]])]; cbn [mbind res_bind negb]; [done| |].
  2: { exists l, 0, u, v. split; [constructor|done]. }
  unfold ix_ChildCount. destruct (get ix (target i u l)) as [k| |] eqn:Ek; cbn [mbind res_bind]; try done. apply get_at in Ek.
  destruct (gd_Sibling g (target i u l)) as [s| |] eqn:Es; cbn [mbind res_bind]; try done. apply sibling_at in Es. unfold u32, two32.
  assert (H1 : forall l' m, skipped us g ix i c s l' m -> skipped us g ix i c l l' (k + m)) by (intros l' m Hm; eapply (skipped_one us g ix i c l (target i u l)); [done|done|by exists u, v|done|done|done]).
  specialize (IH s ((r + k) mod 4294967296) ltac:(by apply N.mod_lt)). destruct (ir_skip n us g ix i c s ((r + k) mod 4294967296)) as [[[l' r']|]| |]; [..|done|done].
  - destruct IH as (m & H2 & -> & H3). exists (k + m). split; [by apply H1|]. split; [|done]. rewrite N.add_mod_idemp_l by done. f_equal. lia.
  - destruct IH as (l' & m & u' & v' & H2 & H3). exists l', (k + m), u', v'. split; [by apply H1|done].
Qed.
Lemma skipped_run us g ix i c l l' n r : words us -> c < 256 -> r < 4294967296 -> skipped us g ix i c l l' n ->
  (l' = 0 \/ c <= l' -> ir_skip 256 us g ix i c l r = Ok (Some (l', (r + n) mod 4294967296))) /\
  (forall u v, l' <> 0 -> l' < c -> at_ us i u -> at_ us (target i u l') v -> v mod 256 <> l' -> ir_skip 256 us g ix i c l r = Ok None).
Proof.
  intros Hw Hc Hr Hs. pose proof (skip_sum us g ix i c 256 Hw l r Hr) as H1. pose proof (skip_cases us g ix i c 256 Hw l r) as H2. pose proof (skip_hang us g ix i c l r Hw Hc) as H3.
  assert (Hend : (forall x, ~ skips us g ix i c l' x) -> forall l1, rtc (skips us g ix i c) l l1 -> (forall x, ~ skips us g ix i c l1 x) -> l1 = l').
  { intros Hst l1 Hl1 Hn1. eapply (stuck_same _ (skips_fun us g ix i c) l); [done|done|by eapply skipped_rtc|done]. }
  split.
  - intros Hl'. assert (Hst : forall x, ~ skips us g ix i c l' x) by (intros x (? & ? & _); lia). specialize (Hend Hst). destruct (ir_skip 256 us g ix i c l r) as [[[l1 r1]|]| |].
    + destruct H1 as (n1 & Hs1 & -> & Hl1). assert (l1 = l') as -> by (apply Hend; [by eapply skipped_rtc|]; intros x (? & ? & _); lia). by rewrite (skipped_fun _ _ _ _ _ _ _ _ Hs _ Hs1 Hst).
    + destruct H2 as (l1 & Hr1 & H0 & Hlt & Hn & _). apply Hend in Hr1; [|done]. subst. lia.
    + destruct H2 as (l1 & Hr1 & H0 & Hlt & Hn & _). apply Hend in Hr1; [|done]. subst. lia.
    + destruct (forever_not _ (skips_fun us g ix i c) l l' (proj1 H3 eq_refl) (skipped_rtc _ _ _ _ _ _ _ _ Hs)) as [x Hx]. by apply Hst in Hx.
  - intros u v H0 Hlt Hu Hv Hne. assert (Hst : forall x, ~ skips us g ix i c l' x) by (intros x (_ & _ & j & m & (u' & v' & Hu' & -> & Hv' & Hc') & _); unfold at_ in *; simplify_eq; congruence). specialize (Hend Hst).
    destruct (ir_skip 256 us g ix i c l r) as [[[l1 r1]|]| |]; [|done| |].
    + destruct H1 as (n1 & Hs1 & _ & Hl1). assert (l1 = l') as -> by (apply Hend; [by eapply skipped_rtc|]; intros x (? & ? & _); lia). lia.
    + destruct H2 as (l1 & Hr1 & _ & _ & Hn & Hb). apply Hend in Hr1; [|done]. subst l1. exfalso. destruct Hb as [Hb|(j & (u' & v' & Hu' & -> & Hv' & Hc') & _)]; [exact (not_falls _ _ _ _ _ Hu Hv Hb)|]. unfold at_ in *; simplify_eq; congruence.
    + destruct (forever_not _ (skips_fun us g ix i c) l l' (proj1 H3 eq_refl) (skipped_rtc _ _ _ _ _ _ _ _ Hs)) as [x Hx]. by apply Hst in Hx.
Qed.
Lemma walk_has us i u r : at_ us i u -> r < 4294967296 -> exists r1, (if N.testbit u 8 then u32 (r + 1) else r) = r1 /\ r1 < 4294967296 /\ forall n, (r1 + n) mod 4294967296 = (r + (if N.testbit u 8 then 1 else 0) + n) mod 4294967296.
Proof.
  intros _ Hr. eexists. split; [done|]. destruct (N.testbit u 8).
  - split; [by apply N.mod_lt|]. intros n. unfold u32, two32. by rewrite N.add_mod_idemp_l.
  - split; [done|]. intros n. by rewrite N.add_0_r.
Qed.
(** The number that StringToIndex gives. *)
Theorem C115_rank_value us g ix q r : words us -> Forall (fun c => c < 256) q -> (ir_StringToIndex us g ix q = Ok r <-> rank_gives us g ix 0 q 0 r).
Proof.
  intros Hw Hq. unfold ir_StringToIndex, ir_BytesToIndex. enough (H0 : forall i r0, r0 < 4294967296 -> (ir_walk us g ix q i r0 = Ok r <-> rank_gives us g ix i q r0 r)) by by apply H0. intros i r0 Hr. split.
  - revert i r0 Hr. induction q as [|c q IH]; intros i r0 Hr; cbn [ir_walk].
    + destruct (dc_HasValue us i) as [has| |] eqn:E; cbn [mbind res_bind]; try done. apply has_at in E as (u & Hu & ->). intros [= <-]. by apply gives_end.
    + apply Forall_cons in Hq as [Hc Hq]. destruct (dc_HasValue us i) as [has| |] eqn:E; cbn [mbind res_bind]; try done. apply has_at in E as (u & Hu & ->).
      destruct (gd_Child g i) as [l| |] eqn:El; cbn [mbind res_bind]; try done. apply child_at in El. destruct (walk_has us i u r0 Hu Hr) as (r1 & -> & Hr1 & Hsum).
      pose proof (skip_sum us g ix i c 256 Hw l r1 Hr1) as Hs. destruct (ir_skip 256 us g ix i c l r1) as [[[l' r2]|]| |]; cbn [mbind res_bind]; try done.
      * destruct Hs as (n & Hs & -> & Hl'). destruct (N.eqb_spec l' 0) as [->|H0]; [intros [= <-]; by eapply gives_past|]. assert (Hcl : c <= l') by (destruct Hl'; done).
        destruct (Follow_at us i c Hw) as [[_ ->]|(u' & v & Hu' & Hv & [[Hv' ->]|[Hv' ->]])]; cbn [mbind res_bind negb]; [done| |]; (assert (u' = u) as -> by (unfold at_ in *; congruence)).
        -- rewrite Hsum. intros Hx. apply IH in Hx; [|done|by apply N.mod_lt]. eapply gives_step; [done..|by exists u, v|done].
        -- intros [= <-]. by eapply gives_none.
      * destruct Hs as (l' & n & u' & v & Hs & H0 & Hlt & Hu' & Hv & Hne). intros [= <-]. assert (u' = u) as -> by (unfold at_ in *; congruence). by eapply gives_failed.
  - intros H. induction H as [i r0 u Hu|i c q r0 u v l l' n Hu Hl Hs H0 Hlt Hv Hne|i c q r0 u l n Hu Hl Hs|i c q r0 u v l l' n Hu Hl Hs H0 Hle Hv Hne|i c q r0 u l l' n j r' Hu Hl Hs H0 Hle Hm _ IH]; cbn [ir_walk];
      (rewrite (proj2 (has_at us i (N.testbit u 8))) by (by exists u)); cbn [mbind res_bind]; [done|..]; (rewrite (proj2 (child_at g i l) Hl)); cbn [mbind res_bind];
      destruct (walk_has us i u r0 Hu Hr) as (r1 & -> & Hr1 & Hsum); apply Forall_cons in Hq as [Hc Hq]; destruct (skipped_run us g ix i c l _ n r1 Hw Hc Hr1 Hs) as [S1 S2].
    + by rewrite (S2 u v).
    + rewrite S1 by (by left). cbn [mbind res_bind]. done.
    + rewrite S1 by (by right). cbn [mbind res_bind]. rewrite (proj2 (N.eqb_neq _ _) H0). destruct (Follow_at us i c Hw) as [[Hf _]|(u' & v' & Hu' & Hv' & [[Hx ->]|[_ ->]])]; cbn [mbind res_bind negb].
      * exfalso. exact (not_falls _ _ _ _ _ Hu Hv Hf).
      * exfalso. unfold at_ in *. congruence.
      * done.
    + rewrite S1 by (by right). cbn [mbind res_bind]. rewrite (proj2 (N.eqb_neq _ _) H0). rewrite (proj2 (meets_Follow us i c j Hw) Hm). cbn [mbind res_bind negb]. rewrite Hsum. apply IH; [done|by apply N.mod_lt].
Qed.
Print Assumptions C115_rank_value.
(** What is found is a key. *)
Theorem C115_rank_key us g ix q r : words us -> ir_StringToIndex us g ix q = Ok r -> r <> 4294967295 -> r <> 4294967294 -> ends_key us q.
Proof.
  intros Hw. unfold ir_StringToIndex, ir_BytesToIndex, ends_key. generalize 0 at 2 as r0. generalize 0 as i. induction q as [|c q IH]; intros i r0; cbn [ir_walk].
  - destruct (dc_HasValue us i) as [[]| |] eqn:E; cbn [mbind res_bind]; try done; [|by intros [= <-] ?]. intros _ _ _. apply has_at in E as (u & Hu & E). exists i, u. split; [constructor|done].
  - destruct (dc_HasValue us i) as [has| |]; cbn [mbind res_bind]; try done. destruct (gd_Child g i) as [l| |]; cbn [mbind res_bind]; try done.
    destruct (ir_skip 256 us g ix i c l _) as [[[l' r2]|]| |]; cbn [mbind res_bind]; try done; [|by intros [= <-] ? ?]. destruct (l' =? 0); [by intros [= <-] ?|].
    destruct (dc_Follow us c i) as [[[] j]| |] eqn:Ef; cbn [mbind res_bind negb]; try done; [|by intros [= <-] ?]. intros H H1 H2. destruct (IH j r2 H H1 H2) as (k & u & Hk & Hu).
    apply (meets_Follow us i c j Hw) in Ef as (u' & v & Hu' & -> & Hv & Ev). exists k, u. split; [by econstructor|done].
Qed.
Print Assumptions C115_rank_key.

(** ** IndexToBytes: one child. *)
Lemma passes_fun us g ix w i a b b' : passes us g ix w i a b -> passes us g ix w i a b' -> b = b'.
Proof.
  destruct b as [b1 b2], b' as [c1 c2]. intros (_ & j & n & Hm & Hn & _ & (l & Hl) & E) (_ & j' & n' & Hm' & Hn' & _ & (l' & Hl') & E').
  rewrite (meets_fun _ _ _ _ _ Hm' Hm) in *. unfold at_ in *. cbn [fst snd] in *. congruence.
Qed.
Section level.
  Context (F : N -> N -> N -> res (option (N * N * N))) (us : list N) (g : list (N * N)) (w : N).
  Lemma lev_starts i cur buf t : starts us g w (i, cur) t -> level_by F us g w (i, cur, buf) =
    match F i t.1 t.2 with Ok None => Ok (inr None) | Ok (Some (l, j, cur')) => Ok (inl (j, cur', buf ++ [l])) | Panic => Panic | Hang => Hang end.
  Proof.
    destruct t as [c cur1]. intros (u & Hle & Hu & Hne & Hf & E). cbn [fst snd] in *. unfold level_by. rewrite (proj2 (N.ltb_ge _ _) Hle).
    rewrite (proj2 (has_at us i (N.testbit u 8))) by (by exists u). cbn [mbind res_bind].
    assert (N.testbit u 8 && (cur =? w) = false) as ->. { destruct (N.testbit u 8); [|done]. cbn. apply N.eqb_neq. by apply Hne. }
    cbv zeta. rewrite (proj2 (child_at g i c) Hf). cbn [mbind res_bind]. unfold u32, two32. rewrite <- E. destruct (F i c cur1) as [[[[l j] cur']|]| |]; done.
  Qed.
  Definition lev_lost (i cur : N) : Prop := (cur <= w /\ beyond us i) \/ exists u, cur <= w /\ at_ us i u /\ (N.testbit u 8 = true -> cur <> w) /\ beyond g i.
  Lemma lev_cases i cur buf : (exists t, starts us g w (i, cur) t /\ ~ lev_lost i cur) \/
    ((forall t, ~ starts us g w (i, cur) t) /\ match level_by F us g w (i, cur, buf) with
      | Ok (inr (Some b)) => b = buf /\ cur = w /\ (exists u, at_ us i u /\ N.testbit u 8 = true) /\ ~ lev_lost i cur
      | Ok (inr None) => ~ lev_lost i cur | Panic => lev_lost i cur | _ => False end).
  Proof.
    unfold level_by. destruct (N.ltb_spec w cur) as [Hlt|Hle]; [right; split; [intros t (u & Hle & _); cbn in Hle; lia|]; intros [[Hle _]|(u & Hle & _)]; lia|].
    pose proof (has_ok us i) as Hh. pose proof (has_beyond us i) as Hb. destruct (dc_HasValue us i) as [has| |] eqn:Eh; cbn [mbind res_bind]; [| |by destruct Hh].
    2: { right. split; [|left; split; [done|]; by apply Hb]. intros t (u & _ & Hu & _). rewrite (proj2 (has_at us i (N.testbit u 8))) in Eh by (by exists u). done. }
    assert (Hnu : ~ beyond us i) by by intros H%Hb. apply has_at in Eh as (u & Hu & ->). destruct (N.testbit u 8 && (cur =? w)) eqn:E.
    { apply andb_true_iff in E as [E8 ->%N.eqb_eq]. right. split; [|split; [done|]; split; [done|]; split; [by exists u|]].
      - intros t (u' & _ & Hu' & Hne & _). cbn in *. unfold at_ in *. simplify_eq. by apply Hne.
      - intros [[_ H]|(u' & _ & Hu' & Hne & _)]; [done|]. unfold at_ in *. simplify_eq. by apply Hne. }
    cbv zeta. pose proof (child_ok g i) as Hh2. pose proof (child_beyond g i) as Hb2. destruct (gd_Child g i) as [c| |] eqn:Ec; cbn [mbind res_bind]; [| |by destruct Hh2].
    - left. apply child_at in Ec. eexists (c, _). split; [|intros [[_ H]|(_ & _ & _ & _ & H%Hb2)]; done]. exists u. cbn. split; [done|]. split; [done|]. split; [|done]. intros E8 ->. by rewrite E8, N.eqb_refl in E.
    - right. split; [|right; exists u; split; [done|]; split; [done|]; split; [|by apply Hb2]; intros E8 ->; by rewrite E8, N.eqb_refl in E]. intros t (u' & _ & _ & _ & Hf & _). cbn in Hf. apply child_at in Hf. congruence.
  Qed.
End level.
Section key.
  Context (us : list N) (g : list (N * N)) (ix : list N) (w : N) (Hw : words us).
  Notation look := (ir_look us g ix w).
  Notation pass := (passes us g ix w).
  Lemma look_cases i t :
    (exists t', look i t = Ok (inl t') /\ pass i t t') \/
    ((forall t', ~ pass i t t') /\ match look i t with
      | Ok (inr (Some (l, j, cur))) => t = (l, cur) /\ l <> 0 /\ meets us i l j /\ exists n, at_ ix j n /\ w < (cur + n) mod 4294967296
      | Ok (inr None) => ~ look_lost us g ix w i t /\ forall j n, t.1 <> 0 -> meets us i t.1 j -> at_ ix j n -> (t.2 + n) mod 4294967296 <= w
      | Panic => look_lost us g ix w i t /\ forall j n, t.1 <> 0 -> meets us i t.1 j -> at_ ix j n -> (t.2 + n) mod 4294967296 <= w
      | _ => False end).
  Proof.
    destruct t as [c cur]. unfold ir_look. destruct (N.eqb_spec c 0) as [->|H0]; [right; split; [by intros t' []|]; split; [by intros []|by intros j n]|].
    pose proof (Follow_ok us i c) as Hh. pose proof (falls_Follow us i c Hw) as Hfa. pose proof (fun j => meets_Follow us i c j Hw) as Hm. destruct (dc_Follow us c i) as [[[] j]| |]; cbn [mbind res_bind negb]; [| | |by destruct Hh].
    2: { right. split; [intros t' (_ & j' & n & H%Hm & _); done|]. split; [intros (_ & [H%Hfa|(j' & H%Hm & _)]); done|]. intros j' n _ H%Hm. done. }
    2: { right. split; [intros t' (_ & j' & n & H%Hm & _); done|]. split; [split; [done|]; left; by apply Hfa|]. intros j' n _ H%Hm. done. }
    assert (Hj : meets us i c j) by by apply Hm. assert (Hju : forall j', meets us i c j' -> j' = j) by (intros j' H'%Hm; congruence).
    unfold ix_ChildCount. pose proof (get_ok ix j) as Hh2. pose proof (get_beyond ix j) as Hb2. destruct (get ix j) as [n| |] eqn:En; cbn [mbind res_bind]; [| |by destruct Hh2].
    2: { assert (Hno : forall n, ~ at_ ix j n) by (intros n H%get_at; congruence). right. split; [intros t' (_ & j' & n & ->%Hju & H & _); by eapply Hno|]. split; [split; [done|]; right; exists j; split; [done|]; left; by apply Hb2|].
         intros j' n _ ->%Hju H. by destruct (Hno n). }
    apply get_at in En. unfold u32, two32. destruct (N.ltb_spec w ((cur + n) mod 4294967296)) as [Hlt|Hge].
    { right. split; [|split; [done|]; split; [done|]; split; [done|]; by exists n]. intros t' (_ & j' & n' & ->%Hju & H & Hle & _). cbn in Hle. assert (n' = n) as -> by (unfold at_ in *; congruence). lia. }
    pose proof (sibling_ok g j) as Hh3. pose proof (sibling_beyond g j) as Hb3. destruct (gd_Sibling g j) as [s| |] eqn:Es; cbn [mbind res_bind]; [| |by destruct Hh3].
    - left. eexists. split; [done|]. apply sibling_at in Es. split; [done|]. exists j, n. done.
    - right. split; [intros t' (_ & j' & n' & ->%Hju & _ & _ & H & _); apply sibling_at in H; congruence|].
      split; [split; [done|]; right; exists j; split; [done|]; right; exists n; split; [done|]; split; [done|]; by apply Hb3|].
      intros j' n' _ ->%Hju H. cbn. assert (n' = n) as -> by (unfold at_ in *; congruence). done.
  Qed.
  Lemma look_next i t t' : next (look i) t = Some t' <-> pass i t t'.
  Proof.
    unfold next. destruct (look_cases i t) as [(t1 & -> & H)|[Hn H]].
    - split; [by intros [= <-]|]. intros H'. f_equal. by eapply passes_fun.
    - destruct (look i t) as [[]| |]; [done|split; [done|by intros ?%Hn]..].
  Qed.
  Lemma look_rtc i n : forall t t', turned (look i) n t = Some t' -> rtc (pass i) t t'.
  Proof. induction n as [|n IH]; intros t t'; cbn; [intros [= <-]; constructor|]. destruct (next (look i) t) as [t1|] eqn:E; [|done]. intros H%IH. econstructor; [by apply look_next|done]. Qed.
  Lemma rtc_look i t t' : rtc (pass i) t t' -> exists n, turned (look i) n t = Some t'.
  Proof. induction 1 as [t|t t1 t' H _ [n IH]]; [by exists O|]. exists (S n). cbn. apply look_next in H. by rewrite H. Qed.
  Lemma look_forever i t : (forall n, is_Some (turned (look i) n t)) <-> forever (pass i) t.
  Proof.
    split.
    - intros H. exists (fun n => default t (turned (look i) n t)). split; [done|]. intros n. destruct (H (S n)) as [y Hy]. rewrite Hy. rewrite turned_S in Hy. destruct (turned (look i) n t); [|done]. by apply look_next.
    - intros (f & <- & H) n. exists (f n). induction n as [|n IH]; [done|]. rewrite turned_S, IH. by apply look_next.
  Qed.
  (** A state: its label and its count. *)
  Definition tcode (t : N * N) : N := (t.1 - 1) * 4294967296 + t.2 mod 4294967296.
  Definition tmany : nat := N.to_nat 1095216660480.
  Lemma tmany_pow : (tmany < 2 ^ 40)%nat.
  Proof.
    assert (H : N.of_nat tmany < N.of_nat (2 ^ 40)); [|revert H; generalize tmany (2 ^ 40)%nat; lia]. unfold tmany. rewrite N2Nat.id, Nat2N.inj_pow. reflexivity.
  Qed.
  Lemma tcode_low i t t' : next (look i) t = Some t' -> (N.to_nat (tcode t) < tmany)%nat.
  Proof.
    intros (H0 & j & n & Hm & _)%look_next. apply meets_low in Hm. assert (H : tcode t < 1095216660480); [|unfold tmany; revert H; generalize (tcode t) 1095216660480; lia].
    unfold tcode. pose proof (N.mod_lt t.2 4294967296 ltac:(done)). lia.
  Qed.
  Lemma tcode_next i t t1 : is_Some (next (look i) t) -> is_Some (next (look i) t1) -> tcode t = tcode t1 -> next (look i) t = next (look i) t1.
  Proof.
    intros [x Hx] [y Hy] E. rewrite Hx, Hy. f_equal. apply look_next in Hx, Hy. destruct t as [a b], t1 as [c d], x as [x1 x2], y as [y1 y2].
    destruct Hx as (H0 & j & n & Hm & Hn & _ & (l & Hl) & Ex), Hy as (H0' & j' & n' & Hm' & Hn' & _ & (l' & Hl') & Ey). cbn in *. unfold tcode in E. cbn in E.
    pose proof (N.mod_lt b 4294967296 ltac:(done)) as M1. pose proof (N.mod_lt d 4294967296 ltac:(done)) as M2. assert (a = c /\ b mod 4294967296 = d mod 4294967296) as [-> Eb] by lia.
    rewrite (meets_fun _ _ _ _ _ Hm' Hm) in *. unfold at_ in *. assert (n' = n) as -> by congruence. assert (x1 = y1) as -> by congruence. f_equal.
    rewrite Ex, Ey, <- (N.add_mod_idemp_l b), <- (N.add_mod_idemp_l d), Eb by done. done.
  Qed.
  Lemma tcode_same i t t1 : True -> True -> is_Some (next (look i) t) -> is_Some (next (look i) t1) -> tcode t = tcode t1 -> forall n, is_Some (turned (look i) n t1) -> is_Some (turned (look i) n t).
  Proof. intros _ _ H1 H2 E [|n]; [by eexists|]. cbn. by rewrite (tcode_next i t t1). Qed.
  Notation find := (ir_find us g ix w).
  Lemma find_stops i n t t' : turned (look i) n t = Some t' -> next (look i) t' = None -> find i t.1 t.2 = match look i t' with Ok (inr a) => Ok a | Panic => Panic | _ => Hang end.
  Proof.
    intros H N. unfold ir_find. destruct t as [c cur]. refine (loop_stops (look i) (fun _ => True) tcode tmany _ (tcode_same i) 40 tmany_pow n _ t' I H N). intros s s' _ Hs. split; [done|]. by eapply tcode_low.
  Qed.
  Lemma find_hang i c cur : find i c cur = Hang <-> forever (pass i) (c, cur).
  Proof.
    unfold ir_find. rewrite (loop_endless (look i) (fun _ => True) tcode tmany) by (done || exact tmany_pow || apply tcode_same || (intros s s' _ Hs; split; [done|by eapply tcode_low])).
    rewrite look_forever. split; [|by left]. intros [H|(n & t & _ & E)]; [done|]. exfalso. destruct (look_cases i t) as [(t1 & E' & _)|[_ H]]; [congruence|by rewrite E in H].
  Qed.
  Lemma find_some i t l j cur : find i t.1 t.2 = Ok (Some (l, j, cur)) <-> rtc (pass i) t (l, cur) /\ l <> 0 /\ meets us i l j /\ exists n, at_ ix j n /\ w < (cur + n) mod 4294967296.
  Proof.
    split.
    - unfold ir_find. intros (n & t' & _ & H & E)%loop_ok_inv. destruct t as [c cur0]. apply look_rtc in H. destruct (look_cases i t') as [(t1 & E' & _)|[_ Hc]]; [congruence|]. rewrite E in Hc.
      destruct Hc as (-> & Hc). done.
    - intros ((n & Hn)%rtc_look & Hl & Hm & m & Hm' & Hlt). assert (Hno : forall t', ~ pass i (l, cur) t').
      { intros t' (_ & j' & m' & Hj & Hi & Hle & _). cbn in *. rewrite (meets_fun _ _ _ _ _ Hj Hm) in Hi. unfold at_ in *. assert (m' = m) as -> by congruence. lia. }
      rewrite (find_stops i n t (l, cur) Hn) by (destruct (next (look i) (l, cur)) eqn:E; [by apply look_next, Hno in E|done]).
      destruct (look_cases i (l, cur)) as [(t1 & _ & H%Hno)|[_ H]]; [done|]. destruct (look i (l, cur)) as [[?|[[[l' j'] cur']|]]| |].
      + done.
      + destruct H as ([= <- <-] & _ & Hm2 & _). by rewrite (meets_fun _ _ _ _ _ Hm2 Hm).
      + destruct H as [_ H]. cbn in H. specialize (H j m Hl Hm Hm'). lia.
      + destruct H as [_ H]. cbn in H. specialize (H j m Hl Hm Hm'). lia.
      + done.
  Qed.
  Lemma lost_no i t t' : look_lost us g ix w i t -> ~ pass i t t'.
  Proof.
    intros (_ & H) (_ & j & n & Hm & Hn & Hle & (l & Hl) & _). destruct H as [H|(j' & Hm' & H)].
    - apply (falls_Follow us i t.1 Hw) in H. apply (meets_Follow us i t.1 j Hw) in Hm. congruence.
    - rewrite (meets_fun _ _ _ _ _ Hm' Hm) in H. destruct H as [H|(n' & _ & _ & H)]; [exact (at_beyond _ _ _ Hn H)|exact (at_beyond _ _ _ Hl H)].
  Qed.
  Lemma find_panic i t : find i t.1 t.2 = Panic <-> exists t', rtc (pass i) t t' /\ look_lost us g ix w i t'.
  Proof.
    split.
    - unfold ir_find. intros (n & t' & H & E)%loop_panic_inv. exists t'. destruct t as [c cur0]. apply look_rtc in H. split; [done|]. destruct (look_cases i t') as [(t1 & E' & _)|[_ Hc]]; [congruence|]. rewrite E in Hc. apply Hc.
    - intros (t' & (n & Hn)%rtc_look & Hl). pose proof (lost_no i t') as Hno.
      rewrite (find_stops i n t t' Hn) by (destruct (next (look i) t') eqn:E; [by apply look_next, Hno in E|done]).
      destruct (look_cases i t') as [(t1 & _ & H%Hno)|[_ H]]; [done|done|]. destruct (look i t') as [[?|[[[l' j'] cur']|]]| |]; [done| | |done|done].
      + destruct H as (-> & _ & Hm2 & m & Hm & Hlt). exfalso. destruct Hl as (_ & [Hl|(j & Hj & Hl)]); cbn [fst snd] in *.
        * apply (falls_Follow us i l' Hw) in Hl. apply (meets_Follow us i l' j' Hw) in Hm2. congruence.
        * rewrite (meets_fun _ _ _ _ _ Hj Hm2) in Hl. destruct Hl as [Hl|(m' & Hm' & Hle & _)]; [exact (at_beyond _ _ _ Hm Hl)|]. unfold at_ in *. assert (m' = m) as -> by congruence. lia.
      + destruct H as [H _]. done.
  Qed.
  (** One level. *)
  Notation lev := (level_by (ir_find us g ix w) us g w).
  Notation enterl := (enterl us g ix w).
  Lemma enterl_iff s s' : enters us g ix w s s' <-> exists l, enterl s l s'.
  Proof.
    split.
    - intros (t & [l cur] & n & H1 & H2 & H3 & H4 & H5 & H6 & H7). cbn in *. subst cur. by exists l, t, n.
    - intros (l & t & n & H1 & H2 & H3 & H4 & H5 & H6). by exists t, (l, s'.2), n.
  Qed.
  Lemma starts_fun s t t' : starts us g w s t -> starts us g w s t' -> t = t'.
  Proof.
    destruct t as [a b], t' as [a' b']. intros (u & _ & Hu & _ & (x & Hl) & E) (u' & _ & Hu' & _ & (x' & Hl') & E'). unfold at_ in *. cbn [fst snd] in *. simplify_eq. done.
  Qed.
  Definition level_starts := lev_starts (ir_find us g ix w) us g w.
  Definition level_cases := lev_cases (ir_find us g ix w) us g w.
  Lemma level_next i cur buf s' : next lev (i, cur, buf) = Some s' <-> exists l, s'.2 = buf ++ [l] /\ enterl (i, cur) l s'.1.
  Proof.
    destruct s' as [[j cur'] buf']. cbn [fst snd]. unfold next. destruct (level_cases i cur buf) as [(t & Ht & Hnl)|[Hn Hc]].
    - rewrite (level_starts i cur buf t Ht). split.
      + destruct (find i t.1 t.2) as [[[[l j'] cur2]|]| |] eqn:E; try done. intros [= <- <- <-]. exists l. split; [done|]. apply find_some in E as (H1 & H2 & H3 & n & H4 & H5). by exists t, n.
      + intros (l & -> & t' & n & Ht' & H1 & H2 & H3 & H4 & H5). rewrite <- (starts_fun _ _ _ Ht Ht') in H1. rewrite (proj2 (find_some i t l j cur')); [done|]. split; [done|]. split; [done|]. split; [done|]. by exists n.
    - split; [destruct (lev (i, cur, buf)) as [[]| |]; done|]. intros (l & _ & t & n & Ht & _). by apply Hn in Ht.
  Qed.
  Lemma level_turned n : forall i cur buf s', turned lev n (i, cur, buf) = Some s' -> exists k, s'.2 = buf ++ k /\ forall buf2, turned lev n (i, cur, buf2) = Some (s'.1, buf2 ++ k).
  Proof.
    induction n as [|n IH]; intros i cur buf s'; cbn; [intros [= <-]; exists []; rewrite app_nil_r; split; [done|]; intros buf2; by rewrite app_nil_r|].
    destruct (next lev (i, cur, buf)) as [[[j cur'] b]|] eqn:E; [|done]. cbn. intros H. apply level_next in E as (l & E1 & E2). cbn [fst snd] in *. subst b. destruct (IH _ _ _ _ H) as (k & E & Hk).
    exists (l :: k). split; [by rewrite E, <- app_assoc|]. intros buf2. rewrite (proj2 (level_next i cur buf2 (j, cur', buf2 ++ [l]))) by (by exists l). cbn. rewrite (Hk (buf2 ++ [l])). by rewrite <- app_assoc.
  Qed.
  Lemma turned_enters n : forall i cur buf s', turned lev n (i, cur, buf) = Some s' -> rtc (enters us g ix w) (i, cur) s'.1.
  Proof.
    induction n as [|n IH]; intros i cur buf s'; cbn; [intros [= <-]; constructor|]. destruct (next lev (i, cur, buf)) as [[[j cur'] b]|] eqn:E; [|done]. cbn. intros H%IH. econstructor; [|exact H].
    apply level_next in E as (l & _ & E). apply enterl_iff. by exists l.
  Qed.
  Lemma enters_turned s s' : rtc (enters us g ix w) s s' -> forall buf, exists n k, turned lev n (s, buf) = Some (s', buf ++ k).
  Proof.
    induction 1 as [s|s [j cur'] s' H _ IH]; intros buf; [exists O, []; by rewrite app_nil_r|]. apply enterl_iff in H as [l H]. destruct (IH (buf ++ [l])) as (n & k & E). exists (S n), (l :: k). destruct s as [i cur].
    cbn. rewrite (proj2 (level_next i cur buf (j, cur', buf ++ [l]))) by (by exists l). cbn. rewrite E. by rewrite <- app_assoc.
  Qed.
  Lemma level_forever s : (forall n, is_Some (turned lev n (s, []))) <-> forever (enters us g ix w) s.
  Proof.
    split.
    - intros H. exists (fun n => default s (fst <$> turned lev n (s, []))). split; [done|]. intros n. destruct (H (S n)) as [y Hy]. rewrite Hy. rewrite turned_S in Hy. destruct (turned lev n (s, [])) as [[[i cur] b]|]; [|done].
      cbn in Hy |- *. apply level_next in Hy as (l & _ & Hy). apply enterl_iff. by exists l.
    - intros (f & <- & H) n. cut (exists b, turned lev n (f O, []) = Some (f n, b)); [intros [b ->]; by eexists|]. induction n as [|n [b IH]]; [by exists []|]. pose proof (H n) as [l Hl]%enterl_iff. exists (b ++ [l]). rewrite turned_S, IH.
      destruct (f n) as [i cur]. cbn. apply level_next. by exists l.
  Qed.
  Definition slive (s : N * N * list N) : Prop := s.1.2 < 4294967296.
  Definition scode (s : N * N * list N) : N := s.1.1 * 4294967296 + s.1.2.
  Definition smany : nat := N.to_nat (N.of_nat (length us) * 4294967296).
  Lemma pass_low i t t' : rtc (pass i) t t' -> t.2 < 4294967296 -> t'.2 < 4294967296.
  Proof. induction 1 as [|t t1 t' (_ & j & n & _ & _ & _ & _ & E) _ IH]; [done|]. intros _. apply IH. rewrite E. by apply N.mod_lt. Qed.
  Lemma slow s s' : slive s -> next lev s = Some s' -> slive s' /\ (N.to_nat (scode s) < smany)%nat.
  Proof.
    destruct s as [[i cur] buf]. unfold slive, scode. cbn [fst snd]. intros Hc (l & _ & t & n & (u & _ & Hu & _ & _ & E) & Hr & _)%level_next. cbn [fst snd] in *. split.
    - apply (pass_low _ _ _ Hr). rewrite E. destruct (N.testbit u 8); [by apply N.mod_lt|done].
    - assert (H : i * 4294967296 + cur < N.of_nat (length us) * 4294967296); [|unfold smany; revert H; generalize (i * 4294967296 + cur) (N.of_nat (length us) * 4294967296); lia].
      assert (i < N.of_nat (length us)); [|lia]. unfold at_ in Hu. apply lookup_lt_Some in Hu. lia.
  Qed.
  Lemma smany_pow : (smany < 2 ^ (N.size_nat (N.of_nat (length us)) + 32))%nat.
  Proof.
    assert (H : N.of_nat smany < N.of_nat (2 ^ (N.size_nat (N.of_nat (length us)) + 32))); [|revert H; generalize smany (2 ^ (N.size_nat (N.of_nat (length us)) + 32))%nat; lia].
    rewrite Nat.pow_add_r, Nat2N.inj_mul. unfold smany. rewrite N2Nat.id. rewrite (Nat2N.inj_pow 2 32). change (N.of_nat 2 ^ N.of_nat 32) with 4294967296.
    pose proof (size_units us) as H. revert H. generalize (2 ^ N.size_nat (N.of_nat (length us)))%nat. lia.
  Qed.
  Lemma scode_same s s' : slive s -> slive s' -> is_Some (next lev s) -> is_Some (next lev s') -> scode s = scode s' -> forall n, is_Some (turned lev n s') -> is_Some (turned lev n s).
  Proof.
    destruct s as [[i cur] b], s' as [[i' cur'] b']. unfold slive, scode. cbn [fst snd]. intros H1 H2 _ _ E n [s Hs]. assert (i = i' /\ cur = cur') as [-> ->] by lia.
    destruct (level_turned n _ _ _ _ Hs) as (k & _ & Hk). rewrite (Hk b). by eexists.
  Qed.
  Lemma IndexToBytes_loop : ir_IndexToBytes us g ix w = loop (N.size_nat (N.of_nat (length us)) + 32) lev (0, 0, []).
  Proof. reflexivity. Qed.
  Lemma key_hang : ir_IndexToBytes us g ix w = Hang <->
    forever (enters us g ix w) (0, 0) \/ exists s t, rtc (enters us g ix w) (0, 0) s /\ starts us g w s t /\ forever (pass s.1) t.
  Proof.
    rewrite IndexToBytes_loop, (loop_endless lev slive scode smany slow scode_same _ smany_pow (0, 0, [])) by done. rewrite level_forever. split; (intros [H|H]; [by left|right]).
    - destruct H as (n & [[i cur] b] & H & E). apply turned_enters in H. exists (i, cur). destruct (level_cases i cur b) as [(t & Ht & Hnl)|[_ Hc]]; [|by rewrite E in Hc]. exists t. split; [done|]. split; [done|].
      rewrite (level_starts i cur b t Ht) in E. destruct t as [c cur1]. apply find_hang. cbn [fst snd] in E |- *. destruct (find i c cur1) as [[[[]]|]| |]; done.
    - destruct H as ([i cur] & t & Hr & Ht & Hf). destruct (enters_turned _ _ Hr []) as (n & k & E). exists n, (i, cur, [] ++ k). split; [exact E|]. rewrite (level_starts _ _ _ t Ht). destruct t as [c cur1]. cbn [fst snd] in *.
      apply find_hang in Hf. by rewrite Hf.
  Qed.
  Lemma key_panic : ir_IndexToBytes us g ix w = Panic <-> exists s, rtc (enters us g ix w) (0, 0) s /\ key_lost us g ix w s.
  Proof.
    rewrite IndexToBytes_loop. split.
    - intros (n & [[i cur] b] & H & E)%loop_panic_inv. apply turned_enters in H. exists (i, cur). split; [done|]. unfold key_lost. cbn [fst snd]. destruct (level_cases i cur b) as [(t & Ht & Hnl)|[_ Hc]].
      + right. right. rewrite (level_starts i cur b t Ht) in E. exists t. assert (Hp : find i t.1 t.2 = Panic) by (destruct (find i t.1 t.2) as [[[[]]|]| |]; done). apply find_panic in Hp as (t' & Hp). by exists t'.
      + rewrite E in Hc. destruct Hc as [Hc|Hc]; [by left|by right; left].
    - intros ([i cur] & Hr & Hl). destruct (enters_turned _ _ Hr []) as (n & k & E). assert (Ep : lev (i, cur, [] ++ k) = Panic).
      { destruct (level_cases i cur ([] ++ k)) as [(t & Ht & Hnl)|[Hn Hc]].
        - destruct Hl as [Hl|[Hl|(t2 & t' & Ht2 & Hp)]]; [by destruct Hnl; left|by destruct Hnl; right|]. rewrite <- (starts_fun _ _ _ Ht Ht2) in Hp. rewrite (level_starts _ _ _ t Ht). rewrite (proj2 (find_panic i t)); [done|by exists t'].
        - assert (Hx : lev_lost us g w i cur) by (destruct Hl as [Hl|[Hl|(t2 & t' & Ht2 & _)]]; [by left|by right|by apply Hn in Ht2]). destruct (lev (i, cur, [] ++ k)) as [[|[]]| |]; try done. by destruct Hc as (_ & _ & _ & Hc). }
      rewrite (loop_stops lev slive scode smany slow scode_same _ smany_pow n (0, 0, []) (i, cur, [] ++ k)); [by rewrite Ep|done|exact E|unfold next; by rewrite Ep].
  Qed.
  Lemma turned_leads n : forall i cur buf s', leads us 0 buf i -> turned lev n (i, cur, buf) = Some s' -> leads us 0 s'.2 s'.1.1.
  Proof.
    induction n as [|n IH]; intros i cur buf s' Hl; cbn; [by intros [= <-]|]. destruct (next lev (i, cur, buf)) as [[[j cur'] b]|] eqn:E; [|done]. cbn. apply IH.
    apply level_next in E as (l & E & t & m & _ & _ & _ & (u & v & Hu & Ej & Hv & El) & _). cbn [fst snd] in *. subst b j. clear -Hl Hu Hv El. remember 0 as z eqn:Ez. clear Ez.
    induction Hl as [z|z u' c v' q k H1 H2 H3 _ IH]; [by repeat econstructor|]. cbn. econstructor; eauto.
  Qed.
  Lemma turned_spells n : forall s buf s', turned lev n (s, buf) = Some s' -> exists b, s'.2 = buf ++ b /\ spells us g ix w s b s'.1.
  Proof.
    induction n as [|n IH]; intros [i cur] buf s'; cbn; [intros [= <-]; exists []; rewrite app_nil_r; split; [done|constructor]|]. destruct (next lev (i, cur, buf)) as [[[j cur'] b]|] eqn:E; [|done]. cbn.
    apply level_next in E as (l & E & Hl). cbn [fst snd] in *. subst b. intros (b & E & Hb)%IH. exists (l :: b). split; [by rewrite E, <- app_assoc|]. by econstructor.
  Qed.
  Lemma spells_turned s b s' : spells us g ix w s b s' -> forall buf, exists n, turned lev n (s, buf) = Some (s', buf ++ b).
  Proof.
    induction 1 as [s|s l [j cur'] b s' H _ IH]; intros buf; [exists O; by rewrite app_nil_r|]. destruct (IH (buf ++ [l])) as (n & E). exists (S n). destruct s as [i cur].
    cbn. rewrite (proj2 (level_next i cur buf (j, cur', buf ++ [l]))) by (by exists l). cbn. rewrite E. by rewrite <- app_assoc.
  Qed.
  Lemma key_value b : ir_IndexToBytes us g ix w = Ok (Some b) <-> exists k u, spells us g ix w (0, 0) b (k, w) /\ at_ us k u /\ N.testbit u 8 = true.
  Proof.
    rewrite IndexToBytes_loop. split.
    - intros (n & [[i cur] b'] & _ & H & E)%loop_ok_inv. apply turned_spells in H as (b2 & E2 & H). cbn [fst snd] in *. subst b'. destruct (level_cases i cur ([] ++ b2)) as [(t & Ht & _)|[_ Hc]].
      + rewrite (level_starts i cur _ t Ht) in E. destruct (find i t.1 t.2) as [[[[]]|]| |]; discriminate E.
      + rewrite E in Hc. destruct Hc as (-> & -> & (u & Hu & E8) & _). by exists i, u.
    - intros (k & u & H & Hu & E8). destruct (spells_turned _ _ _ H []) as [n E].
      assert (Ep : lev (k, w, [] ++ b) = Ok (inr (Some b))).
      { unfold level_by. rewrite N.ltb_irrefl. rewrite (proj2 (has_at us k true)) by (by exists u). cbn [mbind res_bind]. by rewrite N.eqb_refl. }
      rewrite (loop_stops lev slive scode smany slow scode_same _ smany_pow n (0, 0, []) (k, w, [] ++ b)); [by rewrite Ep|done|exact E|unfold next; by rewrite Ep].
  Qed.
  Lemma key_key b : ir_IndexToBytes us g ix w = Ok (Some b) -> ends_key us b.
  Proof.
    rewrite IndexToBytes_loop. intros (n & [[i cur] b'] & _ & H & E)%loop_ok_inv. apply (turned_leads n 0 0 []) in H; [|constructor]. cbn [fst snd] in H. destruct (level_cases i cur b') as [(t & Ht & Hnl)|[_ Hc]].
    - rewrite (level_starts i cur b' t Ht) in E. destruct (find i t.1 t.2) as [[[[]]|]| |]; discriminate E.
    - rewrite E in Hc. destruct Hc as (-> & _ & (u & Hu & E8) & _). by exists i, u.
  Qed.
End key.
(** C115. IndexToBytes and IndexToString go on for ever exactly when they enter children
    without end, or come to a unit where they pass children without end. *)
Theorem C115_key_ends us g ix w : words us ->
  (ir_IndexToString us g ix w = Hang <->
    forever (enters us g ix w) (0, 0) \/ exists s t, rtc (enters us g ix w) (0, 0) s /\ starts us g w s t /\ forever (passes us g ix w s.1) t).
Proof.
  intros Hw. rewrite <- (key_hang us g ix w Hw). unfold ir_IndexToString. destruct (ir_IndexToBytes us g ix w); done.
Qed.
Print Assumptions C115_key_ends.
(** They panic exactly when a step needs something that is not there. *)
Theorem C115_key_panics us g ix w : words us -> (ir_IndexToString us g ix w = Panic <-> exists s, rtc (enters us g ix w) (0, 0) s /\ key_lost us g ix w s).
Proof. intros Hw. rewrite <- (key_panic us g ix w Hw). unfold ir_IndexToString. destruct (ir_IndexToBytes us g ix w); done. Qed.
Print Assumptions C115_key_panics.
(** The bytes that IndexToBytes gives; in all other cases where it returns it gives nil. *)
Theorem C115_key_value us g ix w b : words us -> (ir_IndexToBytes us g ix w = Ok (Some b) <-> exists k u, spells us g ix w (0, 0) b (k, w) /\ at_ us k u /\ N.testbit u 8 = true).
Proof. intros Hw. by apply key_value. Qed.
Print Assumptions C115_key_value.
(** What they give is a key of the dictionary. *)
Theorem C115_key us g ix w b : words us -> ir_IndexToBytes us g ix w = Ok (Some b) -> ends_key us b.
Proof. intros Hw. by apply key_key. Qed.
Print Assumptions C115_key.

(** ** BuildIndex. *)
Definition siblings (us : list N) (g : list (N * N)) (i : N) (l l' : N) : Prop := l <> 0 /\ exists j, meets us i l j /\ next_label g j l'.
Definition kid (us : list N) (g : list (N * N)) (i j : N) : Prop := exists l0 l, first_label g i l0 /\ rtc (siblings us g i) l0 l /\ l <> 0 /\ meets us i l j.
Section build.
  Context (us : list N) (g : list (N * N)) (Hw : words us).
  Definition sib (i l : N) : res (N + unit) :=
    if l =? 0 then Ok (inr tt) else
    match dc_Follow us l i with Ok (true, j) => match gd_Sibling g j with Ok s => Ok (inl s) | _ => Panic end | _ => Panic end.
  Lemma sib_next i l l' : next (sib i) l = Some l' <-> siblings us g i l l'.
  Proof.
    unfold next, sib, siblings. destruct (N.eqb_spec l 0) as [->|H0]; [split; [done|by intros []]|]. pose proof (fun j => meets_Follow us i l j Hw) as Hm.
    destruct (dc_Follow us l i) as [[[] j]| |]; [|split; [done|]; intros (_ & j' & H%Hm & _); done..]. pose proof (fun s => sibling_at g j s) as Hs. split.
    - destruct (gd_Sibling g j) as [s| |]; try done. intros [= <-]. split; [done|]. exists j. split; [by apply Hm|by apply Hs].
    - intros (_ & j' & H%Hm & Hn). injection H as <-. apply Hs in Hn. by rewrite Hn.
  Qed.
  Lemma sib_forever i l : is_Some (turned (sib i) 256 l) -> forever (siblings us g i) l.
  Proof.
    intros H. assert (Ha : forall n, is_Some (turned (sib i) n l)).
    { apply (turned_forever (sib i) (fun l => True) (fun l => l - 1) 255); [| |done|done].
      - intros s s' _ Hs%sib_next. split; [done|]. destruct Hs as (H0 & j & Hm & _). apply meets_low in Hm. lia.
      - intros s s' _ _ [x Hx] [y Hy] E n. apply sib_next in Hx, Hy. destruct Hx as [H1 _], Hy as [H2 _]. assert (s = s') as -> by lia. done. }
    exists (fun n => default l (turned (sib i) n l)). split; [done|]. intros n. destruct (Ha (S n)) as [y Hy]. rewrite Hy. rewrite turned_S in Hy. destruct (turned (sib i) n l); [|done]. by apply sib_next.
  Qed.
  Lemma ib_loop_hang rec i n : forall ix l, ib_loop rec us g i n ix l = Hang ->
    is_Some (turned (sib i) n l) \/ exists ix' l' j, rtc (siblings us g i) l l' /\ l' <> 0 /\ meets us i l' j /\ rec ix' j = Hang.
  Proof.
    induction n as [|n IH]; intros ix l; cbn [ib_loop]; [left; by eexists|]. destruct (N.eqb_spec l 0) as [->|H0]; [done|].
    pose proof (Follow_ok us i l) as Hh. destruct (dc_Follow us l i) as [[[] j]| |] eqn:Ef; cbn [mbind res_bind negb]; try done. apply (meets_Follow us i l j Hw) in Ef.
    pose proof (get_ok ix j) as Hh1. destruct (get ix j) as [n0| |]; cbn [mbind res_bind]; [|done|by destruct Hh1].
    destruct (if n0 =? 0 then rec ix j else Ok (true, ix)) as [[ok ix1]| |] eqn:Er; cbn [mbind res_bind]; [|done|].
    2: { intros _. right. exists ix, l, j. split; [constructor|]. split; [done|]. split; [done|]. destruct (n0 =? 0); [exact Er|discriminate Er]. }
    destruct ok; cbn [negb]; [|done]. pose proof (get_ok ix1 j) as Hh2. destruct (get ix1 j) as [c| |]; cbn [mbind res_bind]; [|done|by destruct Hh2].
    pose proof (upd_nohang ix1 i (fun x => u32 (x + c))) as Hh3. destruct (upd ix1 i (fun x => u32 (x + c))) as [ix2| |]; cbn [mbind res_bind]; [|done|done].
    pose proof (sibling_ok g j) as Hh4. destruct (gd_Sibling g j) as [s| |] eqn:Es; cbn [mbind res_bind]; [|done|by destruct Hh4]. apply sibling_at in Es.
    assert (H1 : siblings us g i l s) by (split; [done|]; by exists j). intros [H|(ix' & l' & j' & Hr & Hx)]%IH; [left|right].
    - cbn. apply sib_next in H1. by rewrite H1.
    - exists ix', l', j'. split; [by econstructor|done].
  Qed.
  Lemma build_hang n : forall ix i, ib_buildIndices n us g ix i = Hang ->
    (exists k l, rtc (kid us g) i k /\ first_label g k l /\ forever (siblings us g k) l) \/ exists p : nat -> N, p O = i /\ forall m, (m < n)%nat -> kid us g (p m) (p (S m)).
  Proof.
    induction n as [|n IH]; intros ix i; cbn [ib_buildIndices]; [intros _; right; exists (fun _ => i); split; [done|lia]|].
    pose proof (has_ok us i) as Hh. destruct (dc_HasValue us i) as [has| |]; cbn [mbind res_bind]; [|done|by destruct Hh].
    pose proof (upd_nohang ix i (fun x => u32 (x + 1))) as Hh1. destruct (if has then upd ix i (fun x => u32 (x + 1)) else Ok ix) as [ix1| |] eqn:Eu; cbn [mbind res_bind]; [|done|by destruct has].
    pose proof (child_ok g i) as Hh2. destruct (gd_Child g i) as [l| |] eqn:Ec; cbn [mbind res_bind]; [|done|by destruct Hh2]. apply child_at in Ec.
    intros [H|(ix' & l' & j & Hr & H0 & Hm & H)]%ib_loop_hang.
    - left. exists i, l. split; [constructor|]. split; [done|]. by apply sib_forever.
    - assert (Hk : kid us g i j) by by exists l, l'. destruct (IH _ _ H) as [(k & l1 & H1 & H2)|(p & Hp & H1)].
      + left. exists k, l1. split; [by econstructor|done].
      + right. exists (fun m => match m with O => i | S m => p m end). split; [done|]. intros [|m] Hlt; [by rewrite Hp|]. apply H1. lia.
  Qed.
  (** A path longer than there are units meets one twice, and can go on. *)
  Lemma path_forever (p : nat -> N) : (forall m, (m < S (length us))%nat -> kid us g (p m) (p (S m))) -> forever (kid us g) (p O).
  Proof.
    intros H. assert (Hlow : forall m, (m <= length us)%nat -> (N.to_nat (p m) < length us)%nat).
    { intros m Hm. destruct (H m) as (l0 & l & _ & _ & _ & u & v & Hu & _); [lia|]. unfold at_ in Hu. by apply lookup_lt_Some in Hu. }
    destruct (repeated (map p (seq 0 (S (length us))))) as [Hd|(a & b & x & Hab & Ha & Hb)].
    { exfalso. apply (low_length (length us)) in Hd; [rewrite map_length, seq_length in Hd; lia|]. apply Forall_fmap, Forall_forall. intros m [_ Hm]%elem_of_seq. apply Hlow. lia. }
    assert (E : forall k, map p (seq 0 (S (length us))) !! k = Some x -> p k = x /\ (k <= length us)%nat).
    { intros k Hk. apply list_lookup_fmap_inv in Hk as (m & -> & Hk). apply lookup_seq in Hk as [-> Hk]. split; [done|lia]. }
    apply E in Ha as [Ha _]. apply E in Hb as [Hb Hbl]. clear E.
    set (r := fun m => if (m <? a)%nat then m else (a + (m - a) mod (b - a))%nat). assert (Hr : forall m, (r m < b)%nat /\ (r (S m) = S (r m) \/ S (r m) = b /\ r (S m) = a)).
    { intros m. unfold r. destruct (Nat.ltb_spec m a) as [H1|H1].
      - split; [lia|]. destruct (Nat.ltb_spec (S m) a) as [H2|H2]; [by left|]. left. replace (S m - a)%nat with O by lia. rewrite Nat.mod_small by lia. lia.
      - pose proof (Nat.mod_upper_bound (m - a) (b - a) ltac:(lia)) as Hm. split; [lia|]. destruct (Nat.ltb_spec (S m) a) as [H2|H2]; [lia|].
        pose proof (Nat.div_mod (m - a) (b - a) ltac:(lia)) as Hd. set (d := (b - a)%nat) in *. set (q := ((m - a) / d)%nat) in *. set (e := ((m - a) mod d)%nat) in *.
        destruct (decide (S e = d)) as [He|He].
        + right. split; [lia|]. replace (S m - a)%nat with (0 + (S q) * d)%nat by lia. rewrite Nat.mod_add by lia. rewrite Nat.mod_small by lia. lia.
        + left. replace (S m - a)%nat with (S e + q * d)%nat by lia. rewrite Nat.mod_add by lia. rewrite Nat.mod_small by lia. lia. }
    exists (fun m => p (r m)). split.
    - unfold r. destruct (Nat.ltb_spec 0 a); [done|]. replace a with O by lia. by rewrite Nat.mod_small by lia.
    - intros m. destruct (Hr m) as [H1 [->|[H2 ->]]]; [apply H; lia|]. rewrite Ha, <- Hb, <- H2. apply H. lia.
  Qed.
End build.
(** C115. BuildIndex comes back unless the guide has a unit with siblings without end, or
    children of children without end. *)
Theorem C115_build_ends us g : words us -> BuildIndex us g = Hang ->
  forever (kid us g) 0 \/ exists i l, rtc (kid us g) 0 i /\ first_label g i l /\ forever (siblings us g i) l.
Proof.
  intros Hw. unfold BuildIndex. destruct (ib_buildIndices _ us g _ 0) as [[ok ix]| |] eqn:E; cbn [mbind res_bind]; try done. intros _.
  apply (build_hang us g Hw) in E as [(k & l & H)|(p & <- & H)]; [right; by exists k, l|left]. by apply path_forever.
Qed.
Print Assumptions C115_build_ends.

(** ** Files that Read accepts and where the calls do not come back. *)
Theorem C115_ends_refuted : exists file gfile ifile us g ix,
  ReadDictionary [file] = Ok (Some us, []) /\ ReadGuide [gfile] = Ok (Some g, []) /\ ReadIndex [ifile] = Ok (Some ix, []) /\
  ir_StringToIndex us g ix [2] = Hang /\ ir_IndexToString us g ix 0 = Hang /\ BuildIndex us g = Hang /\
  forever (skips us g ix 0 2) 1 /\ forever (passes us g ix 0 0) (1, 0) /\ forall n, ib_buildIndices n us g [0] 0 = Hang.
Proof.
  exists [1; 0; 0; 0; 1; 4; 0; 0], [1; 0; 0; 0; 1; 1], [1; 0; 0; 0; 0; 0; 0; 0], [1025], [(1, 1)], [0]. split; [by vm_compute|]. split; [by vm_compute|]. split; [by vm_compute|].
  assert (Hw : words [1025]) by (split; [done|repeat constructor]). assert (Hm : meets [1025] 0 1 0) by (by exists 1025, 1025).
  assert (Hs : forever (skips [1025] [(1, 1)] [0] 0 2) 1). { exists (fun _ => 1). split; [done|]. intros _. split; [done|]. split; [done|]. exists 0, 0. split; [done|]. split; [done|]. by exists 1. }
  assert (Hp : forever (passes [1025] [(1, 1)] [0] 0 0) (1, 0)). { exists (fun _ => (1, 0)). split; [done|]. intros _. split; [done|]. exists 0, 0. split; [done|]. split; [done|]. split; [done|]. split; [by exists 1|done]. }
  assert (Hb : forall n, ib_buildIndices n [1025] [(1, 1)] [0] 0 = Hang) by (induction n as [|n IH]; [done|]; cbn [ib_buildIndices]; change (dc_HasValue [1025] 0) with (Ok false); cbn [mbind res_bind]; change (gd_Child [(1, 1)] 0) with (Ok 1); cbn [mbind res_bind ib_loop]; change (1 =? 0) with false; cbn iota; change (dc_Follow [1025] 1 0) with (Ok (true, 0)); cbn [mbind res_bind negb]; change (get [0] 0) with (Ok 0); cbn [mbind res_bind]; change (0 =? 0) with true; cbn iota; by rewrite IH).
  split; [apply C115_rank_ends; [done|by repeat constructor|]; exists [], 2, [], 0, 1; split; [done|]; split; [constructor|]; split; [by exists 1|done]|].
  split; [apply C115_key_ends; [done|]; right; exists (0, 0), (1, 0); split; [constructor|]; split; [|done]; exists 1025; repeat split; [done|done|by exists 1]|].
  split; [unfold BuildIndex; change (replicate (length [1025]) 0) with [0]; by rewrite Hb|]. done.
Qed.
Print Assumptions C115_ends_refuted.
(** Where IndexToBytes enters the same child for ever: the index says that it has a key. *)
Theorem C115_enters_refuted : exists us g ix, words us /\ forever (enters us g ix 0) (0, 0) /\ ir_IndexToString us g ix 0 = Hang.
Proof.
  exists [1025], [(1, 0)], [1]. assert (Hw : words [1025]) by (split; [done|repeat constructor]). assert (Hf : forever (enters [1025] [(1, 0)] [1] 0) (0, 0)).
  { exists (fun _ => (0, 0)). split; [done|]. intros _. exists (1, 0), (1, 0), 1. split; [exists 1025; repeat split; [done|done|by exists 0]|]. split; [constructor|]. split; [done|]. split; [by exists 1025, 1025|done]. }
  split; [done|]. split; [done|]. apply C115_key_ends; [done|]. by left.
Qed.
Print Assumptions C115_enters_refuted.
(** A label that comes again need not come for ever: here each turn counts one key more,
    and the 1000th is found. *)
Example C115_case : words [0; 1281] /\ ir_IndexToString [0; 1281] [(1, 0); (0, 1)] [0; 1] 1000 = Ok [1] /\ ends_key [0; 1281] [1] /\
  ir_StringToIndex [0; 1281] [(1, 0); (0, 1)] [0; 1] [1] = Ok 0 /\ ir_StringToIndex [0; 1281] [(1, 0); (0, 3)] [0; 5] [3; 1] = Panic /\
  ir_StringToIndex [0; 1281] [(1, 0); (0, 0)] [0] [2] = Panic /\ ir_IndexToString [0; 1281] [(1, 0); (0, 0)] [0] 0 = Panic /\ ir_StringToIndex [0; 1281] [(0, 0); (0, 0)] [0; 1] [1] = Ok NotFound /\
  ir_StringToIndex [0; 1281; 0; 0] [(2, 0); (0, 0)] [0; 1] [3] = Ok Failed /\ BuildIndex [0; 1281] [(1, 0); (0, 0)] = Ok (Some [1; 1]) /\ BuildIndex [0; 1281] [(1, 0); (0, 1)] = Hang.
Proof.
  split; [split; [done|repeat constructor]|]. split; [by vm_compute|]. split; [|by vm_compute]. exists 1, 1281. split; [|by vm_compute].
  apply (leads_cons [0; 1281] 0 0 1 1281 [] 1); [done..|constructor].
Qed.
