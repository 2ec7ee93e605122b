(** container/heap keeps a least element first and loses nothing. *)
From Verif Require Import Go Ranked RankedProofs Heap.
Local Open Scope nat_scope.

Notation par j := (Nat.div2 (j - 1)).
Lemma par_spec j : 0 < j -> 2 * par j + 1 = j \/ 2 * par j + 2 = j.
Proof.
  intros Hj. pose proof (Nat.div2_odd (j - 1)) as H. destruct (Nat.odd (j - 1)); cbn [Nat.b2n] in H; lia.
Qed.
Lemma swap_perm {A} (q : list A) i j a b : q !! i = Some a -> q !! j = Some b -> <[i := b]> (<[j := a]> q) ≡ₚ q.
Proof.
  assert (Hlt : forall (q : list A) i j a b, i < j -> q !! i = Some a -> q !! j = Some b -> <[i := b]> (<[j := a]> q) ≡ₚ q).
  { clear. intros q i. revert q. induction i as [|i IH]; intros [|c q] j a b Hij Ha Hb; try done; destruct j as [|j]; try lia.
    - injection Ha as ->. change (q !! j = Some b) in Hb. change (<[0 := b]> (<[S j := a]> (a :: q))) with (b :: <[j := a]> q).
      apply elem_of_list_split_length in Hb as (l1 & l2 & -> & ->). rewrite insert_app_r_alt, Nat.sub_diag by lia.
      change (<[0 := a]> (b :: l2)) with (a :: l2). rewrite <- !Permutation_middle. apply Permutation_swap.
    - change (<[S i := b]> (<[S j := a]> (c :: q))) with (c :: <[i := b]> (<[j := a]> q)). constructor. apply IH; [lia|done|done]. }
  intros Ha Hb. destruct (Nat.lt_trichotomy i j) as [H|[->|H]].
  - by apply Hlt.
  - rewrite Ha in Hb. injection Hb as <-. rewrite !list_insert_id; done || by rewrite list_insert_id.
  - rewrite list_insert_commute by lia. by apply Hlt.
Qed.
Lemma swap_at {A} (q : list A) i j a b k : q !! i = Some a -> q !! j = Some b -> <[i := b]> (<[j := a]> q) !! k = if decide (k = i) then Some b else if decide (k = j) then Some a else q !! k.
Proof.
  intros Ha Hb. pose proof (lookup_lt_Some _ _ _ Ha). pose proof (lookup_lt_Some _ _ _ Hb). destruct (decide (k = i)) as [->|Hi].
  - rewrite list_lookup_insert by (by rewrite insert_length). done.
  - rewrite list_lookup_insert_ne by done. destruct (decide (k = j)) as [->|Hj]; [by rewrite list_lookup_insert|by rewrite list_lookup_insert_ne].
Qed.

Section heap.
  Context {A : Type} (less : A -> A -> bool) (Hw : weak_order less).
  Definition hp (q : list A) : Prop := forall j a b, 0 < j -> q !! par j = Some a -> q !! j = Some b -> less b a = false.
  Lemma Swap_ok (q : list A) i j a b : q !! i = Some a -> q !! j = Some b -> hp_Swap q i j = Ok (<[i := b]> (<[j := a]> q)).
  Proof. intros Ha Hb. unfold hp_Swap. by rewrite Ha, Hb. Qed.
  Lemma Less_ok (q : list A) i j a b : q !! i = Some a -> q !! j = Some b -> hp_Less less q i j = Ok (less a b).
  Proof. intros Ha Hb. unfold hp_Less. by rewrite Ha, Hb. Qed.
  Lemma up_ok fuel : forall q j, j < fuel -> j < length q ->
    (forall k a b, 0 < k -> k <> j -> q !! par k = Some a -> q !! k = Some b -> less b a = false) ->
    (forall k a b, 0 < k -> par k = j -> 0 < j -> q !! par j = Some a -> q !! k = Some b -> less b a = false) ->
    exists q', hp_up less fuel q j = Ok q' /\ q' ≡ₚ q /\ hp q'.
  Proof using Hw.
    induction fuel as [|fuel IH]; intros q j Hf Hj H1 H2; [lia|]. cbn [hp_up]. destruct (Nat.eqb_spec (par j) j) as [E|E].
    - exists q. split; [done|]. split; [done|]. intros k a b Hk Ha Hb. apply (H1 k); try done. intros ->. destruct (par_spec j Hk); lia.
    - assert (Hj0 : 0 < j) by (destruct j; [done|lia]). pose proof (par_spec j Hj0) as Hp. set (i := par j) in *.
      destruct (lookup_lt_is_Some_2 q j Hj) as [x Hx]. destruct (lookup_lt_is_Some_2 q i) as [p Hpp]; [lia|].
      rewrite (Less_ok q j i x p Hx Hpp). cbn [mbind res_bind]. destruct (less x p) eqn:El; cbn [negb].
      + rewrite (Swap_ok q i j p x Hpp Hx). cbn [mbind res_bind].
        assert (Hat := fun k => swap_at q i j p x k Hpp Hx). destruct (IH (<[i := x]> (<[j := p]> q)) i) as (q' & -> & Hq' & Hh).
        * lia.
        * rewrite !insert_length. lia.
        * intros k a b Hk Hki. rewrite !Hat. pose proof (par_spec k Hk) as Hpk. rewrite (decide_False (P := k = i)) by done.
          destruct (decide (k = j)) as [->|Hkj].
          -- rewrite decide_True by done. intros [= <-] [= <-]. by apply weak_asym.
          -- destruct (decide (par k = i)) as [Eki|Eki].
             ++ intros [= <-] Hb. apply (weak_le less x p b Hw); [by apply weak_asym|]. apply (H1 k); [done|done|by rewrite Eki|done].
             ++ destruct (decide (par k = j)) as [Ekj|Ekj].
                ** intros [= <-] Hb. by apply (H2 k).
                ** intros Ha Hb. by apply (H1 k).
        * intros k a b Hk Hki Hi0. rewrite !Hat. pose proof (par_spec i Hi0) as Hpi. rewrite (decide_False (P := par i = i)) by lia. rewrite (decide_False (P := par i = j)) by lia.
          rewrite (decide_False (P := k = i)) by (pose proof (par_spec k Hk); lia). intros Ha. destruct (decide (k = j)) as [->|Hkj].
          -- intros [= <-]. apply (H1 i); [done|lia|done|done].
          -- intros Hb. apply (weak_le less a p b Hw); [apply (H1 i); [done|lia|done|done]|]. apply (H1 k); [done|done|by rewrite Hki|done].
        * exists q'. split; [done|]. split; [|done]. rewrite Hq'. by apply swap_perm.
      + exists q. split; [done|]. split; [done|]. intros k a b Hk Ha Hb. destruct (decide (k = j)) as [->|Hkj]; [|by apply (H1 k)].
        fold i in Ha. congruence.
  Qed.
  Lemma Push_ok q x : hp q -> exists q', hp_Push less q x = Ok q' /\ q' ≡ₚ x :: q /\ hp q'.
  Proof using Hw.
    intros Hh. unfold hp_Push. destruct (up_ok (S (length q)) (q ++ [x]) (length q)) as (q' & -> & Hq & Hh').
    - lia.
    - rewrite app_length. cbn. lia.
    - intros k a b Hk Hne Ha Hb. assert (k < length q) by (apply lookup_lt_Some in Hb; rewrite app_length in Hb; cbn in Hb; lia).
      pose proof (par_spec k Hk). rewrite lookup_app_l in Ha, Hb by lia. by apply (Hh k).
    - intros k a b Hk Hpk _ _ Hb. apply lookup_lt_Some in Hb. rewrite app_length in Hb. cbn in Hb. pose proof (par_spec k Hk). lia.
    - exists q'. split; [done|]. split; [|done]. rewrite Hq. by rewrite Permutation_app_comm.
  Qed.
  Lemma down_ok fuel n : forall q i, n < fuel + i -> i <= n -> n <= length q -> (i < n \/ n = 0) ->
    (forall k a b, 0 < k -> k < n -> par k <> i -> q !! par k = Some a -> q !! k = Some b -> less b a = false) ->
    (forall k a b, 0 < k -> k < n -> par k = i -> 0 < i -> q !! par i = Some a -> q !! k = Some b -> less b a = false) ->
    exists q', hp_down less fuel q i n = Ok q' /\ q' ≡ₚ q /\ (forall k, n <= k -> q' !! k = q !! k) /\
      (forall k a b, 0 < k -> k < n -> q' !! par k = Some a -> q' !! k = Some b -> less b a = false).
  Proof using Hw.
    induction fuel as [|fuel IH]; intros q i Hf Hin Hn Hi H1 H2; [lia|]. cbn [hp_down]. destruct (Nat.leb_spec n (2 * i + 1)) as [Hge|Hlt].
    - exists q. split; [done|]. split; [done|]. split; [done|]. intros k a b Hk Hkn. apply (H1 k); try done. pose proof (par_spec k Hk). lia.
    - destruct (lookup_lt_is_Some_2 q i) as [x Hx]; [lia|]. destruct (lookup_lt_is_Some_2 q (2 * i + 1)) as [y1 Hy1]; [lia|].
      assert (Hbest : exists b0, (if 2 * i + 1 + 1 <? n then hp_Less less q (2 * i + 1 + 1) (2 * i + 1) else Ok false) = Ok b0 /\
        exists y, let j := if b0 then 2 * i + 1 + 1 else 2 * i + 1 in q !! j = Some y /\ par j = i /\ i < j /\ j < n /\
          forall k b, 0 < k -> k < n -> par k = i -> k <> j -> q !! k = Some b -> less b y = false).
      { destruct (Nat.ltb_spec (2 * i + 1 + 1) n) as [H|H].
        - destruct (lookup_lt_is_Some_2 q (2 * i + 1 + 1)) as [y2 Hy2]; [lia|]. rewrite (Less_ok _ _ _ _ _ Hy2 Hy1). eexists. split; [done|].
          assert (P1 : par (2 * i + 1) = i) by (pose proof (par_spec (2 * i + 1)); lia). assert (P2 : par (2 * i + 1 + 1) = i) by (pose proof (par_spec (2 * i + 1 + 1)); lia).
          destruct (less y2 y1) eqn:E.
          + exists y2. cbv zeta. split; [done|]. split; [done|]. split; [lia|]. split; [lia|]. intros k b Hk Hkn Hp Hne Hb. pose proof (par_spec k Hk).
            assert (k = 2 * i + 1) as -> by lia. rewrite Hy1 in Hb. injection Hb as <-. by apply weak_asym.
          + exists y1. cbv zeta. split; [done|]. split; [done|]. split; [lia|]. split; [lia|]. intros k b Hk Hkn Hp Hne Hb. pose proof (par_spec k Hk).
            assert (k = 2 * i + 1 + 1) as -> by lia. congruence.
        - exists false. split; [done|]. exists y1. cbv zeta. assert (P1 : par (2 * i + 1) = i) by (pose proof (par_spec (2 * i + 1)); lia).
          split; [done|]. split; [done|]. split; [lia|]. split; [lia|]. intros k b Hk Hkn Hp Hne Hb. pose proof (par_spec k Hk). lia. }
      destruct Hbest as (b0 & -> & y & Hy). cbn [mbind res_bind]. cbv zeta in Hy. set (j := if b0 then 2 * i + 1 + 1 else 2 * i + 1) in *. clearbody j.
      destruct Hy as (Hy & Hpj & Hij & Hjn & Hbest). rewrite (Less_ok _ _ _ _ _ Hy Hx). cbn [mbind res_bind]. destruct (less y x) eqn:El; cbn [negb].
      + rewrite (Swap_ok q i j x y Hx Hy). cbn [mbind res_bind]. assert (Hat := fun k => swap_at q i j x y k Hx Hy).
        destruct (IH (<[i := y]> (<[j := x]> q)) j) as (q' & -> & Hq' & Hkeep & Hh).
        * lia.
        * lia.
        * by rewrite !insert_length.
        * by left.
        * intros k a b Hk Hkn Hpk. rewrite !Hat. pose proof (par_spec k Hk) as Hps. rewrite (decide_False (P := par k = j)) by done.
          destruct (decide (k = i)) as [->|Hki].
          -- rewrite decide_False by lia. intros Ha [= <-]. apply (H2 j); [lia|done|done|done|done|done].
          -- destruct (decide (k = j)) as [->|Hkj].
             ++ rewrite decide_True by done. intros [= <-] [= <-]. by apply weak_asym.
             ++ destruct (decide (par k = i)) as [Epk|Epk].
                ** intros [= <-] Hb. by apply (Hbest k).
                ** intros Ha Hb. by apply (H1 k).
        * intros k a b Hk Hkn Hpk _. rewrite !Hat. pose proof (par_spec k Hk) as Hps. rewrite Hpj, decide_True by done. rewrite (decide_False (P := k = i)) by lia.
          rewrite (decide_False (P := k = j)) by lia. intros [= <-] Hb. apply (H1 k); [done|done|lia|by rewrite Hpk|done].
        * exists q'. split; [done|]. split; [rewrite Hq'; by apply swap_perm|]. split; [|done]. intros k Hk. rewrite Hkeep by done. rewrite Hat.
          rewrite !decide_False by lia. done.
      + exists q. split; [done|]. split; [done|]. split; [done|]. intros k a b Hk Hkn Ha Hb. destruct (decide (par k = i)) as [Epk|Epk]; [|by apply (H1 k)].
        rewrite Epk, Hx in Ha. injection Ha as <-. destruct (decide (k = j)) as [->|Hkj]; [congruence|]. apply (weak_le less x y b Hw); [done|]. by apply (Hbest k).
  Qed.
  Lemma Pop_ok q : hp q -> q <> [] -> exists x q', hp_Pop less q = Ok (x, q') /\ q !! 0 = Some x /\ q ≡ₚ x :: q' /\ hp q'.
  Proof using Hw.
    intros Hh Hne. unfold hp_Pop. assert (Hl : 0 < length q) by (destruct q; [done|cbn; lia]).
    assert (E : forall X (a b : X), match q with [] => a | _ => b end = b) by (by destruct q). rewrite E. clear E. cbv zeta. set (n := length q - 1).
    destruct (lookup_lt_is_Some_2 q 0 Hl) as [x Hx]. destruct (lookup_lt_is_Some_2 q n) as [y Hy]; [unfold n; lia|].
    rewrite (Swap_ok q 0 n x y Hx Hy). cbn [mbind res_bind]. assert (Hat := fun k => swap_at q 0 n x y k Hx Hy).
    destruct (down_ok (S n) n (<[0 := y]> (<[n := x]> q)) 0) as (q' & -> & Hq' & Hkeep & Hh').
    - lia.
    - lia.
    - rewrite !insert_length. unfold n. lia.
    - lia.
    - intros k a b Hk Hkn Hpk. rewrite !Hat. pose proof (par_spec k Hk) as Hps. rewrite !decide_False by lia. by apply Hh.
    - intros. lia.
    - cbn [mbind res_bind]. rewrite Hkeep by done. rewrite Hat. assert (Hqn : q' !! n = Some x).
      { rewrite Hkeep by done. rewrite Hat. destruct (decide (n = 0)) as [E|E]; [|by rewrite decide_True]. rewrite E in Hy. congruence. }
      rewrite <- Hat, <- Hkeep, Hqn by done. exists x, (take n q'). split; [done|]. split; [done|].
      assert (Hlen : length q' = S n) by (rewrite Hq', !insert_length; unfold n; lia). split.
      + transitivity q'; [symmetry; rewrite Hq'; by apply swap_perm|]. rewrite <- (take_drop n q') at 1. rewrite (drop_S q' x n Hqn), (drop_ge q' (S n)) by lia.
        by rewrite Permutation_app_comm.
      + intros k a b Hk Ha Hb. apply lookup_take_Some in Ha as [Ha _]. apply lookup_take_Some in Hb as [Hb ?]. by apply (Hh' k).
  Qed.
  Lemma hp_top q x y : hp q -> q !! 0 = Some x -> y ∈ q -> less y x = false.
  Proof using Hw.
    intros Hh Hx (j & Hj)%elem_of_list_lookup. revert y Hj. induction (lt_wf j) as [j _ IH]. intros y Hj. destruct j as [|j].
    - rewrite Hx in Hj. injection Hj as <-. apply Hw.
    - pose proof (par_spec (S j)) as Hp. destruct (lookup_lt_is_Some_2 q (par (S j))) as [p Hpp]; [apply lookup_lt_Some in Hj; lia|].
      apply (weak_le less x p y Hw); [apply (IH (par (S j))); [lia|done]|]. apply (Hh (S j)); [lia|done|done].
  Qed.
  Lemma hp_nil : hp [].
  Proof. intros j a b _ H. done. Qed.
End heap.
