(** The number BytesToIndex (indexer.go:31-66) gives for a key that an index with a
    ranked guide holds. *)
From Verif Require Import Go Dawg LinkTableProofs DawgRep Tree TreeFacts DictDfs Dict DictInv DictBuild DictRead DictRep Guide GuideProofs Completer CompleterProofs Index IndexProofs Ranked RankedProofs RankedSpec IndexRanked.
Local Open Scope N_scope.
Local Arguments N.mul : simpl never.
Local Arguments N.add : simpl never.
Local Arguments N.of_nat : simpl never.
Local Arguments N.lxor : simpl never.

(** [ks] are the keys of an index, in its order.  The walk to the key at place [n]
    counts the key at place [i] if it comes earlier and, at the prefix [p] where it
    leaves the key at [n], no key up to and including it goes on after [p] with a
    byte that is not below the byte [c] of the key at [n]. *)
Definition counted (ks : list (list N)) (n i : nat) : Prop :=
  (i < n)%nat /\ forall p c s k', ks !! n = Some (p ++ c :: s) -> ks !! i = Some k' -> p `prefix_of` k' -> ~ (p ++ [c]) `prefix_of` k' ->
    forall j d t, (j <= i)%nat -> ks !! j = Some (p ++ d :: t) -> d < c.

Lemma counted_nil ks i : ~ counted ks 0 i.
Proof. intros [H _]. lia. Qed.
Lemma counted_step (S A B K1 Z : list (list N)) c k n1 (L1 : list nat) :
  Forall (fun x => x = []) S -> Forall (fun x => exists l t, x = l :: t /\ l < c) A -> Forall (fun x => exists l t, x = l :: t /\ l <> c) B ->
  (B = [] \/ exists l t B', B = (l :: t) :: B' /\ c < l) -> K1 !! n1 = Some k -> (forall x, x ∈ L1 <-> counted K1 n1 x) ->
  forall x, x ∈ seq 0 (length S + length A) ++ map (Nat.add (length S + length A + length B)) L1 <->
    counted (S ++ A ++ B ++ map (cons c) K1 ++ Z) (length S + length A + length B + n1) x.
Proof.
  intros HS HA HB HB0 Hk HL x. set (off := (length S + length A + length B)%nat). set (ks := S ++ A ++ B ++ map (cons c) K1 ++ Z).
  pose proof (lookup_lt_Some _ _ _ Hk) as Hl1. rewrite Forall_forall in HS, HA, HB.
  assert (Hlow : forall j y, (j < length S)%nat -> ks !! j = Some y -> y = []).
  { intros j y Hj Hy. unfold ks in Hy. rewrite lookup_app_l in Hy by lia. apply HS. by eapply elem_of_list_lookup_2. }
  assert (Hmid : forall j y, (length S <= j < length S + length A)%nat -> ks !! j = Some y -> exists l t, y = l :: t /\ l < c).
  { intros j y Hj Hy. unfold ks in Hy. rewrite lookup_app_r, lookup_app_l in Hy by lia. apply HA. by eapply elem_of_list_lookup_2. }
  assert (Hbe : forall j y, (length S + length A <= j < off)%nat -> ks !! j = Some y -> exists l t, y = l :: t /\ l <> c).
  { intros j y Hj Hy. unfold ks, off in *. rewrite lookup_app_r, lookup_app_r, lookup_app_l in Hy by lia. apply HB. by eapply elem_of_list_lookup_2. }
  assert (Hin : forall i, (i < length K1)%nat -> ks !! (off + i)%nat = (cons c) <$> K1 !! i).
  { intros i Hi. unfold ks, off. rewrite lookup_app_r by lia. rewrite lookup_app_r by lia. rewrite lookup_app_r by lia. rewrite lookup_app_l by (rewrite map_length; lia).
    change (map ?f ?l) with (f <$> l). rewrite list_lookup_fmap. do 2 f_equal. lia. }
  assert (Hn : ks !! (off + n1)%nat = Some (c :: k)) by (by rewrite Hin, Hk).
  rewrite elem_of_app, elem_of_seq. split.
  - intros [Hx|Hx].
    + split; [unfold off; lia|]. intros p c' s k' Hp Hk' Hpre Hnp j d t Hj Hd. rewrite Hn in Hp. injection Hp as Hp.
      assert (p = []) as ->.
      { destruct p as [|y p]; [done|]. cbn [app] in Hp. injection Hp as <- Hp. destruct Hpre as [w ->]. destruct (decide (x < length S)%nat) as [H|H].
        - by apply Hlow in Hk'.
        - destruct (Hmid x _ ltac:(lia) Hk') as (l & t' & [= <- <-] & Hlt). lia. }
      cbn [app] in *. injection Hp as <- ->. destruct (decide (j < length S)%nat) as [H|H]; [by apply Hlow in Hd|].
      destruct (Hmid j _ ltac:(lia) Hd) as (l & t' & [= -> ->] & Hlt). done.
    + apply elem_of_list_fmap in Hx as (i & -> & Hi). apply HL in Hi as [Hi Hc]. split; [lia|]. intros p c' s k' Hp Hk' Hpre Hnp j d t Hj Hd. rewrite Hn in Hp. injection Hp as Hp.
      rewrite Hin in Hk' by lia. destruct (K1 !! i) as [k1|] eqn:E; [|done]. cbn in Hk'. injection Hk' as <-.
      destruct p as [|y p]; cbn [app] in *.
      { injection Hp as <- ->. exfalso. apply Hnp. exists k1. done. }
      injection Hp as <- ->. apply prefix_cons_inv_2 in Hpre. assert (Hjo : (off <= j)%nat).
      { destruct (decide (off <= j)%nat) as [?|H]; [done|]. exfalso. destruct (decide (j < length S)%nat) as [H1|H1]; [by apply Hlow in Hd|].
        destruct (decide (j < length S + length A)%nat) as [H2|H2].
        - destruct (Hmid j _ ltac:(lia) Hd) as (l & t' & [= <- _] & Hlt). lia.
        - destruct (Hbe j _ ltac:(unfold off in *; lia) Hd) as (l & t' & [= <- _] & Hlt). done. }
      replace j with (off + (j - off))%nat in Hd by lia. rewrite Hin in Hd by lia. destruct (K1 !! (j - off)%nat) as [k2|] eqn:E2; [|done]. cbn in Hd. injection Hd as ->.
      apply (Hc p c' s k1 Hk eq_refl Hpre) with (j := (j - off)%nat) (t := t); [|lia|done]. intros H. apply Hnp. by apply prefix_cons.
  - intros [Hx Hc]. destruct (decide (x < length S + length A)%nat) as [?|Hge]; [left; lia|]. right. destruct (decide (x < off)%nat) as [Hlt|Hge2].
    + exfalso. destruct HB0 as [HB0|(l & t & B' & HB0 & Hl)]; [subst B; unfold off in Hlt; cbn in Hlt; lia|].
      assert (H0 : ks !! (length S + length A)%nat = Some (l :: t)).
      { unfold ks. rewrite lookup_app_r by lia. rewrite lookup_app_r by lia. rewrite HB0. replace (_ - _)%nat with 0%nat by lia. done. }
      destruct (ks !! x) as [k'|] eqn:Ek.
      * destruct (Hbe x k' ltac:(lia) Ek) as (l' & t' & -> & Hne). specialize (Hc [] c k _ Hn eq_refl (prefix_nil _)).
        assert (l < c); [|lia]. apply Hc with (j := (length S + length A)%nat) (t := t); [|lia|done]. intros H. cbn [app] in H. by apply prefix_cons_inv_1 in H.
      * apply lookup_ge_None in Ek. apply lookup_lt_Some in Hn. lia.
    + apply elem_of_list_fmap. exists (x - off)%nat. split; [lia|]. apply HL. split; [lia|]. intros p c' s k' Hp Hk' Hpre Hnp j d t Hj Hd. rewrite Hk in Hp. injection Hp as ->.
      apply (Hc (c :: p) c' s (c :: k')) with (j := (off + j)%nat) (t := t).
      * done.
      * replace x with (off + (x - off))%nat by lia. rewrite Hin, Hk' by lia. done.
      * by apply prefix_cons.
      * intros H. apply prefix_cons_inv_2 in H. done.
      * lia.
      * rewrite Hin by lia. by rewrite Hd.
Qed.

Section exact.
  Context (us : dict) (R : edges) (node : N -> edges -> Prop) (HN : drep us R node).
  Context (sort : (link -> link -> bool) -> list link -> list link) (cmp : Z -> Z -> bool) (Hs : sorter sort).
  Context (g : guide) (HG : rgrep sort cmp us node g) (Hlim : cnt R < two32).
  Context (ix : list N) (HX : rii us node sort cmp ix []).
  Local Notation gx ix i := (default 0 ((ix : list N) !! N.to_nat i)).
  Local Notation rcnt es := (N.of_nat (length (rents sort cmp es))).
  Local Notation scnt es := (N.of_nat (length (rsum sort cmp es))).
  Local Notation vk es := (vk sort cmp es).

  Lemma rsum_hd vs x : nodes_only vs -> x ∈ (rsum sort cmp vs).*1 -> exists l e2 t, (l, Node e2) ∈ vs /\ x = l :: t.
  Proof.
    intros Hvs H. apply elem_of_list_fmap in H as ([k0 v0] & -> & H). unfold rsum in H. apply elem_of_list_In, in_concat in H as (y & Hy & H). apply in_map_iff in Hy as ([l s] & <- & Hin).
    apply elem_of_list_In in H, Hin. apply elem_of_list_fmap_2 in H as ([t w] & [= -> ->] & H). unfold nodes_only in Hvs. rewrite Forall_forall in Hvs. destruct (Hvs _ Hin) as [_ [e2 E]].
    cbn in E. subst s. by exists l, e2, t.
  Qed.
  Lemma rwalk_exact k : forall i es n v r, node i es -> gx ix i = rcnt es -> rents sort cmp es !! n = Some (k, v) -> r + rcnt es < two32 ->
    exists L, ir_walk us g ix k i r = Ok (r + N.of_nat (length L)) /\ NoDup L /\ forall x, x ∈ L <-> counted (rents sort cmp es).*1 n x.
  Proof.
    induction k as [|c k IH]; intros i es n v r Hn Hci Hk Hr; pose proof (wfn us R node HN i es Hn) as Hw; pose proof (vk_nodes sort cmp Hs es Hw) as Hno.
    - cbn [ir_walk]. rewrite (rp_has _ _ _ HN _ _ Hn). cbn [mbind res_bind]. pose proof (self_len es Hw) as Hsl. rewrite rents_eq in Hk.
      assert (Hlt : (n < length (self es))%nat).
      { destruct (decide (n < length (self es))%nat) as [?|Hge]; [done|]. rewrite lookup_app_r in Hk by lia. exfalso. apply elem_of_list_lookup_2 in Hk.
        apply (elem_of_list_fmap_1 fst) in Hk. destruct (rsum_hd _ _ Hno Hk) as (? & ? & ? & _ & ?). done. }
      rewrite Hsl in Hlt. destruct (has0 es); [|lia]. assert (n = 0)%nat as -> by lia. exists []. split; [f_equal; cbn; lia|]. split; [constructor|].
      intros x. split; [by intros H%elem_of_nil|]. by intros H%counted_nil.
    - pose proof (self_len es Hw) as Hsl. pose proof Hk as Hk0. rewrite rents_eq in Hk0.
      assert (Hself : Forall (fun x => x = []) (self es).*1) by (destruct es as [|[[|q] [w|e]] es]; cbn; repeat constructor).
      assert (Hge : (length (self es) <= n)%nat).
      { destruct (decide (n < length (self es))%nat) as [Hlt|?]; [|lia]. rewrite lookup_app_l in Hk0 by lia. exfalso. apply elem_of_list_lookup_2, (elem_of_list_fmap_1 fst) in Hk0.
        rewrite Forall_forall in Hself. by apply Hself in Hk0. }
      rewrite lookup_app_r in Hk0 by lia. destruct (rsum_lookup R sort cmp Hlim _ _ c k v Hno Hk0) as (pre & e1 & post & n1 & Hv & Hn1 & Hk1). clear Hk0.
      destruct (span_lt pre c) as (a & b & -> & Ha & Hb). rewrite rsum_app, app_length in Hn1.
      pose proof Hno as Hno'. rewrite Hv in Hno'. apply Forall_app in Hno' as [[Hnoa Hnob]%Forall_app [[Hc0 _] _]%Forall_cons]. cbn [fst] in Hc0.
      pose proof (vk_short sort cmp Hs es Hw) as Hsh. rewrite Hv, !app_length in Hsh.
      pose proof (rents_len sort cmp es Hw) as Hrl. rewrite Hv, !rsum_app, !app_length, rcnt_cons in Hrl.
      cbn [ir_walk]. rewrite (rp_has _ _ _ HN _ _ Hn). cbn [mbind res_bind]. rewrite (rg_first us node sort cmp g HG _ _ Hn), Hv. cbn [mbind res_bind]. rewrite <- app_assoc.
      assert (Hr1 : (if has0 es then u32 (r + 1) else r) = r + (if has0 es then 1 else 0)) by (destruct (has0 es); [apply u32_id; lia|lia]). rewrite Hr1.
      rewrite (rskip_ok us R node HN sort cmp Hs g HG Hlim ix HX i es c (b ++ (c, Node e1) :: post) Hn Hci) with (p0 := []); [|..].
      2: { intros l s t E. right. destruct Hb as [->|(e & t' & -> & He)]; cbn [app] in E; injection E; intros; subst; [lia|done]. }
      2: { cbn [app]. by rewrite Hv, <- app_assoc. }
      2: done.
      2: done.
      2: lia.
      2: { destruct (has0 es); lia. }
      cbn [mbind res_bind]. assert (Hh0 : hd 0 (b ++ (c, Node e1) :: post).*1 <> 0).
      { destruct b as [|[l s] b]; [done|]. cbn. by apply Forall_cons in Hnob as [[? _] _]. }
      rewrite (proj2 (N.eqb_neq _ _) Hh0). destruct (rkid us R node HN sort cmp Hs g HG Hlim ix HX i es (a ++ b) c e1 post Hn Hci Hv) as (j & -> & Hj & Hcj & _). cbn [mbind res_bind negb].
      destruct (IH j e1 n1 v (r + (if has0 es then 1 else 0) + scnt a) Hj Hcj Hk1) as (L1 & -> & Hnd & HL1); [destruct (has0 es); lia|].
      assert (Hbc : forall l e2, (l, Node e2) ∈ b -> l <> c).
      { intros l e2 Hin ->. pose proof (vk_labels sort cmp Hs es Hw) as Hnd'. rewrite Hv, !fmap_app in Hnd'. apply NoDup_app in Hnd' as (_ & Hnd' & _).
        apply (Hnd' c); [|left]. apply elem_of_app. right. apply elem_of_list_fmap. by exists (c, Node e2). }
      exists (seq 0 (length (self es).*1 + length (rsum sort cmp a).*1) ++ map (Nat.add (length (self es).*1 + length (rsum sort cmp a).*1 + length (rsum sort cmp b).*1)) L1).
      split; [rewrite app_length, seq_length, map_length, !fmap_length, Hsl; f_equal; destruct (has0 es); lia|]. split.
      + apply NoDup_app. split; [apply NoDup_seq|]. split; [|apply NoDup_fmap; [intros ? ?; lia|done]]. intros x [_ Hx]%elem_of_seq (y & -> & _)%elem_of_list_fmap. lia.
      + assert (Eks : (rents sort cmp es).*1 = (self es).*1 ++ (rsum sort cmp a).*1 ++ (rsum sort cmp b).*1 ++ map (cons c) (rents sort cmp e1).*1 ++ (rsum sort cmp post).*1).
        { rewrite rents_eq, Hv, !rsum_app, rsum_cons, !fmap_app, <- !app_assoc. do 4 f_equal. rewrite <- !list_fmap_compose. apply list_fmap_ext. by intros ? [] _. }
        assert (En : n = (length (self es).*1 + length (rsum sort cmp a).*1 + length (rsum sort cmp b).*1 + n1)%nat) by (rewrite !fmap_length; lia).
        rewrite Eks, En. apply (counted_step _ _ _ _ _ c k n1 L1).
        * exact Hself.
        * apply Forall_forall. intros x Hx. destruct (rsum_hd _ _ Hnoa Hx) as (l & e2 & t & Hin & ->). exists l, t. split; [done|]. rewrite Forall_forall in Ha. by apply (Ha _ Hin).
        * apply Forall_forall. intros x Hx. destruct (rsum_hd _ _ Hnob Hx) as (l & e2 & t & Hin & ->). exists l, t. split; [done|]. by apply (Hbc l e2).
        * destruct Hb as [->|([l s] & t & -> & He)]; [by left|right]. pose proof Hnob as Hnob'. apply Forall_cons in Hnob' as [[_ [e2 Hs2]] _]. cbn [fst snd] in *. subst s.
          assert (Hin : (l, Node e2) ∈ es) by (apply (vk_in sort cmp Hs es _ Hw); rewrite Hv; apply elem_of_app; left; apply elem_of_app; right; left).
          destruct (wfe_in _ _ Hw Hin) as (Hw2 & _). pose proof (rents_pos sort cmp Hs (Node e2) Hw2) as Hp. rewrite rsum_cons. destruct (rent sort cmp (Node e2)) as [|[x y] rest]; [cbn in Hp; lia|].
          cbn. eexists _, _, _. split; [done|]. pose proof (Hbc l e2 ltac:(left)). lia.
        * rewrite list_lookup_fmap, Hk1. done.
        * exact HL1.
  Qed.
End exact.
