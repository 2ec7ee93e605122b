(** The order of the completions of a ranked completer. *)
From Verif Require Import Go Dawg DawgRep DawgSpec Tree TreeFacts DawgAbs Dict DictRep DictSpec Guide GuideProofs GuideSpec Ranked RankedProofs Heap HeapProofs RankedCompleter RankedCompleterProofs RankedSpec RankedThms RankedIndexSpec IndexRanked RankedOrderSpec.
Local Open Scope N_scope.
Local Arguments N.mul : simpl never.
Local Arguments N.add : simpl never.
Local Arguments N.of_nat : simpl never.

(** ** Over the tree *)
Section tree.
  Context (sort : (link -> link -> bool) -> list link -> list link) (cmp : Z -> Z -> bool) (Hs : sorter sort).
  Context (es0 : edges) (Hw0 : wfe es0).
  Local Notation oe es := (oe sort cmp es).
  Local Notation mx s := (mx sort cmp s).
  Local Notation kt x := (x.1 ++ [0%N]).
  Definition topn (O : list (list N * N)) (x : list N * N) : Prop :=
    x ∈ ent_es es0 /\ x ∉ O /\ forall q es pre l s rest e, tnode es0 q es -> oe es = pre ++ (l, s) :: rest -> q ++ [l] `prefix_of` kt x -> e ∈ pre -> exists kv, kv ∈ pref q (ent_e e) /\ kv ∈ O.
  Definition tlater (O : list (list N * N)) (x y : list N * N) : Prop := exists j, (j <= length O)%nat /\ topn (take j O) y /\
    (~ topn (take j O) x \/ exists i o, j = S i /\ O !! i = Some o /\ ~ topn (take i O) x /\ ~ topn (take i O) y /\ (shared (kt x) (kt o) < shared (kt y) (kt o))%nat).
  Definition tbest (O : list (list N * N)) (x : list N * N) : Prop := topn O x /\ forall y, topn O y -> y = x \/ y.2 < x.2 \/ (y.2 = x.2 /\ tlater O x y).

  (** The entries below an edge. *)
  Lemma branch_in q es c s kv : tnode es0 q es -> (c, s) ∈ es -> kv ∈ pref q (ent_e (c, s)) <-> kv ∈ ent_es es0 /\ q ++ [c] `prefix_of` kt kv.
  Proof.
    intros Ht Hc. destruct (tnode_wf _ _ _ Hw0 Ht) as [Hw _]. split.
    - intros (kv' & Hk & ->)%pref_in. cbn [fst]. split.
      + apply (ent_in es0 _ _ Hw0). assert (Hk' : (kv'.1, kv'.2) ∈ ent_es es) by (destruct kv'; apply elem_ent_es; by exists (c, s)).
        apply (ent_in es _ _ Hw) in Hk' as (es' & Ht' & Hz). exists es'. split; [by apply (tnode_app _ _ es)|done].
      + destruct (ent_e_at c s es kv' Hw Hc Hk) as [t Ht']. rewrite <- app_assoc, Ht'. exists t. by rewrite <- app_assoc.
    - destruct kv as [k v]. cbn [fst]. intros [Hk Hp]. apply (ent_in es0 _ _ Hw0) in Hk as (es' & Ht' & Hz). apply pref_in. apply prefix_snoc in Hp as [[t ->]|Hp].
      + rewrite <- app_assoc in Ht' |- *. cbn [app] in Ht' |- *. apply tnode_split in Ht' as (es1 & Ht1 & Ht2). pose proof (tnode_fun _ _ _ _ Hw0 Ht Ht1) as <-.
        inversion Ht2 as [|? ? e1 ? ? Hin Ht3]; subst. pose proof (wfe_lab _ _ _ _ Hw Hc Hin) as ->. destruct (wfe_kid _ _ _ Hw Hin) as (Hw1 & _ & Hc0 & _).
        exists (c :: t, v). split; [|done]. unfold ent_e. cbn [fst snd]. apply N.eqb_neq in Hc0. rewrite Hc0, ent_node. apply elem_of_list_fmap. exists (t, v). split; [done|].
        apply (ent_in e1 _ _ Hw1). by exists es'.
      + apply app_inj_2 in Hp as [-> [= ->]]; [|done]. pose proof (tnode_fun _ _ _ _ Hw0 Ht Ht') as <-. pose proof (wfe_lab _ _ _ _ Hw Hc Hz) as ->.
        exists ([], v). split; [|by rewrite app_nil_r]. unfold ent_e. cbn. constructor.
  Qed.
  (** Entries take edges. *)
  Lemma entry_edge kv q c t : kv ∈ ent_es es0 -> kt kv = q ++ c :: t -> exists es s, tnode es0 q es /\ (c, s) ∈ es.
  Proof.
    destruct kv as [k v]. cbn [fst]. intros Hk Hp. apply (ent_in es0 _ _ Hw0) in Hk as (es' & Ht' & Hz). destruct t as [|d t _] using rev_ind.
    - apply app_inj_2 in Hp as [-> [= <-]]; [|done]. exists es', (Leaf v). done.
    - rewrite (app_comm_cons t [d] c), app_assoc in Hp. apply app_inj_2 in Hp as [-> _]; [|done]. apply tnode_split in Ht' as (es1 & Ht1 & Ht2).
      inversion Ht2 as [|? ? e1 ? ? Hin Ht3]; subst. by exists es1, (Node e1).
  Qed.
  Lemma topn_E O E x : NoDup (ent_es es0) -> O ++ E ≡ₚ ent_es es0 -> topn O x <-> x ∈ E /\ topen sort cmp es0 E x.
  Proof.
    intros Hnd HOE. rewrite <- HOE in Hnd. apply NoDup_app in Hnd as (_ & Hd & _).
    assert (Hio : forall y, y ∈ ent_es es0 -> y ∈ O <-> y ∉ E).
    { intros y Hy. rewrite <- HOE in Hy. apply elem_of_app in Hy. split; [apply Hd|]. intros ?. by destruct Hy. }
    assert (HE : forall y, y ∈ E -> y ∈ ent_es es0) by (intros y Hy; rewrite <- HOE; apply elem_of_app; by right).
    unfold topn, topen. split.
    - intros (H1 & H2 & H3). split; [rewrite <- HOE in H1; apply elem_of_app in H1 as [?|?]; done|]. intros q es pre l s rest e Ht Hoe Hp He.
      destruct (H3 q es pre l s rest e Ht Hoe Hp He) as (kv & Hk & HkO). exists kv. split; [done|]. by apply Hd.
    - intros (H1 & H3). split; [by apply HE|]. split; [intros H; by apply (Hd x)|]. intros q es pre l s rest e Ht Hoe Hp He.
      destruct (H3 q es pre l s rest e Ht Hoe Hp He) as (kv & Hk & HkO). exists kv. split; [done|]. apply Hio; [|done].
      destruct (tnode_wf _ _ _ Hw0 Ht) as [Hw _]. destruct e as [c sc]. apply (branch_in q es c sc kv Ht) in Hk as [? _]; [done|].
      rewrite <- (oe_perm sort cmp Hs es Hw), Hoe. apply elem_of_app. by left.
  Qed.

  Context (us : dict) (R : edges) (node : N -> edges -> Prop) (HN : drep us R node) (g : guide) (HG : rgrep sort cmp us node g) (P : list N).
  Local Notation readyq := (readyq us node sort cmp g es0 P).
  Definition kept (O : list (list N * N)) (Q : list (N * (list N * N))) : Prop := forall j1 j2 x y, (j1, x) ∈ Q -> (j2, y) ∈ Q -> j2 < j1 -> tlater O x y.
  Lemma outs_best n : forall O c L E Q, length E = n -> readyq c L E Q -> O ++ E ≡ₚ ent_es es0 -> kept O Q -> exists E', E' ≡ₚ E /\ routputs us g c (map (rout_of P) E') /\
    forall m x, E' !! m = Some x -> tbest (O ++ take m E') x.
  Proof using Hs Hw0 HN HG.
    pose proof (ent_es_nodup es0 Hw0) as Hnd0.
    induction n as [|n IH]; intros O c L E Q Hl Hr HOE HK; destruct (Next_full us R node HN sort cmp Hs g HG es0 P c L E Q Hr) as [(-> & c' & Hn & _)|(k & v & E1 & c' & i & Q0 & New & Q' & HE & Hn & Hp & Hv & _ & Hr' & _ & HQ & HQ' & Hmax & Hnew & Hsh)].
    - exists []. split; [done|]. split; [by eapply rout_end|]. done.
    - apply Permutation_length in HE. rewrite Hl in HE. done.
    - done.
    - assert (Hl' : length E1 = n) by (apply Permutation_length in HE; rewrite Hl in HE; cbn in HE; lia).
      destruct (readyq_open us R node HN sort cmp Hs g es0 P c L E Q Hr) as (HndE & HndQ & Hop & Hidx).
      destruct (readyq_open us R node HN sort cmp Hs g es0 P c' _ E1 Q' Hr') as (HndE1 & HndQ' & Hop' & Hidx').
      assert (HOE' : (O ++ [(k, v)]) ++ E1 ≡ₚ ent_es es0) by (rewrite <- HOE, HE, <- app_assoc; done).
      assert (Hopn : forall x, topn O x <-> x ∈ Q.*2) by (intros x; rewrite Hop; by apply topn_E).
      assert (Hopn' : forall x, topn (O ++ [(k, v)]) x <-> x ∈ Q'.*2) by (intros x; rewrite Hop'; by apply topn_E).
      assert (HkE1 : (k, v) ∉ E1) by (rewrite HE in HndE; by apply NoDup_cons in HndE as [? _]).
      assert (Hin : forall j x, (j, x) ∈ Q0 -> (j, x) ∈ Q /\ x <> (k, v)).
      { intros j x Hx. split; [rewrite HQ; by constructor|]. intros ->. rewrite HQ in HndQ. cbn in HndQ. apply NoDup_cons in HndQ as [Hni _]. apply Hni. apply elem_of_list_fmap. by exists (j, (k, v)). }
      assert (HNn : forall j x, (j, x) ∈ New -> ~ topn O x).
      { intros j x Hx Ho. apply Hopn in Ho. assert (Hx' : x ∈ Q'.*2) by (apply elem_of_list_fmap; exists (j, x); split; [done|]; rewrite HQ'; apply elem_of_app; by left).
        assert (HxE : x ∈ E1) by (by apply Hop'). rewrite HQ in Ho. cbn in Ho. apply elem_of_cons in Ho as [->|Ho]; [done|].
        rewrite HQ', fmap_app in HndQ'. apply NoDup_app in HndQ' as (_ & Hd & _). apply (Hd x); [|done]. apply elem_of_list_fmap. by exists (j, x). }
      assert (HK' : kept (O ++ [(k, v)]) Q').
      { intros j1 j2 x y Hx Hy Hj. rewrite HQ' in Hx, Hy. apply elem_of_app in Hx as [Hx|Hx], Hy as [Hy|Hy].
        - exists (S (length O)). split; [rewrite app_length; cbn; lia|]. assert (Ht : take (S (length O)) (O ++ [(k, v)]) = O ++ [(k, v)]) by (apply take_ge; rewrite app_length; cbn; lia).
          rewrite Ht. split; [apply Hopn'; apply elem_of_list_fmap; exists (j2, y); split; [done|]; rewrite HQ'; apply elem_of_app; by left|].
          right. exists (length O), (k, v). split; [done|]. split; [by rewrite lookup_app_r, Nat.sub_diag by done|]. rewrite take_app. split; [by apply (HNn j1)|]. split; [by apply (HNn j2)|].
          by apply (Hsh j2 y j1 x).
        - exists (length O). split; [rewrite app_length; lia|]. rewrite take_app. split; [apply Hopn, elem_of_list_fmap; exists (j2, y); split; [done|]; by apply Hin|]. left. by apply (HNn j1).
        - apply Hin in Hx as [Hx _]. pose proof (Hnew _ _ _ _ Hy Hx). lia.
        - apply Hin in Hx as [Hx _]. apply Hin in Hy as [Hy _]. destruct (HK _ _ _ _ Hx Hy Hj) as (j & Hjl & Ho & Hor). exists j. split; [rewrite app_length; lia|].
          rewrite take_app_le by done. split; [done|]. destruct Hor as [?|(i' & o & -> & Ho' & H1 & H2 & H3)]; [by left|]. right. exists i', o. split; [done|].
          split; [by apply lookup_app_l_Some|]. rewrite take_app_le by lia. done. }
      destruct (IH (O ++ [(k, v)]) c' (Z.of_N v) E1 Q' Hl' Hr' HOE' HK') as (E2 & HE2 & Ho & Hb). exists ((k, v) :: E2). split; [by rewrite HE, HE2|]. split.
      + cbn [map]. unfold rout_of at 1. cbn [fst snd].
        assert (Hx : (P ++ k ++ [0], Z.of_nat (length (P ++ k)), Z.of_N v) = (rc_Key c', rc_Length c', rc_Value c')).
        { unfold rc_Key, rc_Length, rc_Value. rewrite Hp, Hv. f_equal. f_equal. rewrite !app_length. cbn [length]. lia. }
        rewrite Hx. by eapply rout_step.
      + intros [|m] x Hx.
        * injection Hx as <-. cbn [take]. rewrite app_nil_r. split; [apply Hopn; rewrite HQ; constructor|]. intros y Hy. apply Hopn, elem_of_list_fmap in Hy as ([j y'] & -> & Hy). cbn [snd].
          rewrite HQ in Hy. apply elem_of_cons in Hy as [[= -> ->]|Hy]; [by left|]. right. destruct (Hmax j y' Hy) as [?|[H1 H2]]; [by left|]. right. split; [done|].
          destruct (Hin j y' Hy) as [Hy1 Hy2]. apply (HK i j); [rewrite HQ; constructor|done|]. assert (j <> i); [|lia]. intros ->. apply Hy2. apply (Hidx i); [done|]. rewrite HQ. constructor.
        * specialize (Hb m x Hx). rewrite <- app_assoc in Hb. exact Hb.
  Qed.
End tree.

(** ** There is one such order *)
Section unique.
  Context (cmp : Z -> Z -> bool) (E : list (list N * Z)).
  Lemma open_mono O i j k : (i <= j)%nat -> k ∉ O -> open cmp E (take i O) k -> open cmp E (take j O) k.
  Proof.
    assert (Hsub : forall n o, o ∈ take n O -> o ∈ O) by (intros n o Ho; rewrite <- (take_drop n O); apply elem_of_app; by left).
    intros Hij Hk (H1 & _ & H3). split; [done|]. split; [intros H; by apply Hk, (Hsub j)|]. intros p c d t Hkt Hb. destruct (H3 p c d t Hkt Hb) as (o & Ho & Hp). exists o. split; [|done].
    rewrite <- (take_drop i (take j O)), take_take, Nat.min_l by done. apply elem_of_app. by left.
  Qed.
  Lemma later_asym O x y : x ∉ O -> y ∉ O -> opened_later cmp E O x y -> opened_later cmp E O y x -> False.
  Proof.
    intros Hx Hy (j1 & _ & Hy1 & H1) (j2 & _ & Hx2 & H2).
    assert (Mx : forall i j, (i <= j)%nat -> open cmp E (take i O) x -> open cmp E (take j O) x) by (intros; by eapply open_mono).
    assert (My : forall i j, (i <= j)%nat -> open cmp E (take i O) y -> open cmp E (take j O) y) by (intros; by eapply open_mono).
    destruct H1 as [H1|(i1 & o1 & -> & Ho1 & Hx1 & Hy1' & Hs1)], H2 as [H2|(i2 & o2 & -> & Ho2 & Hy2 & Hx2' & Hs2)].
    - destruct (Nat.le_ge_cases j1 j2); [by apply H2, (My j1)|by apply H1, (Mx j2)].
    - destruct (Nat.le_gt_cases j1 i2); [by apply Hy2, (My j1)|apply H1, (Mx (S i2)); [lia|done]].
    - destruct (Nat.le_gt_cases j2 i1); [by apply Hx1, (Mx j2)|apply H2, (My (S i1)); [lia|done]].
    - assert (i1 = i2) as ->.
      { destruct (Nat.lt_trichotomy i1 i2) as [Hlt|[?|Hlt]]; [|done|]; exfalso.
        - apply Hy2, (My (S i1)); [lia|done].
        - apply Hx1, (Mx (S i2)); [lia|done]. }
      rewrite Ho1 in Ho2. injection Ho2 as <-. lia.
  Qed.
  Lemma best_first_unique l l' : l ≡ₚ E -> l' ≡ₚ E -> best_first cmp E l -> best_first cmp E l' -> l = l'.
  Proof.
    intros Hl Hl' B B'. assert (Hlen : length l = length l') by (by rewrite Hl, Hl').
    enough (H : forall n, take n l = take n l') by (specialize (H (length l)); rewrite firstn_all, Hlen, firstn_all in H; done).
    induction n as [|n IH]; [by rewrite !take_0|]. destruct (l !! n) as [kv|] eqn:E1, (l' !! n) as [kv'|] eqn:E2.
    - rewrite (take_S_r _ _ _ E1), (take_S_r _ _ _ E2), IH. f_equal. f_equal. pose proof (B n kv E1) as [O1 M1]. pose proof (B' n kv' E2) as [O2 M2]. rewrite IH in O1, M1.
      assert (Hin : kv ∈ E) by (rewrite <- Hl; by eapply elem_of_list_lookup_2). assert (Hin' : kv' ∈ E) by (rewrite <- Hl'; by eapply elem_of_list_lookup_2).
      destruct (M1 kv' Hin' O2) as [?|[H1|[H1 H2]]]; [done| |]; (destruct (M2 kv Hin O1) as [?|[H3|[H3 H4]]]; [done| |]); try lia. exfalso.
      apply (later_asym (take n l').*1 kv.1 kv'.1); [apply O1|apply O2|done|done].
    - apply lookup_ge_None in E2. apply lookup_lt_Some in E1. lia.
    - apply lookup_ge_None in E1. apply lookup_lt_Some in E2. lia.
    - apply lookup_ge_None in E1, E2. rewrite !take_ge by lia. rewrite <- (firstn_all l), <- (firstn_all l'). rewrite !take_ge in IH by lia. by rewrite !firstn_all.
  Qed.
End unique.

(** ** Over the entries *)
Lemma shared_app P x y : shared (P ++ x) (P ++ y) = (length P + shared x y)%nat.
Proof. induction P as [|a P IH]; [done|]. cbn. by rewrite N.eqb_refl, IH. Qed.
Section spec.
  Context (sort : (link -> link -> bool) -> list link -> list link) (cmp : Z -> Z -> bool) (Hs : sorter sort) (Hto : total_order cmp).
  Context (es0 : edges) (Hw0 : wfe es0) (P : list N) (E : list (list N * Z)).
  Local Notation oe es := (oe sort cmp es).
  Local Notation mx s := (mx sort cmp s).
  Local Notation kt x := (x.1 ++ [0%N]).
  Definition full (x : list N * N) : list N := P ++ kt x.
  Context (HE : forall k v, (k, v) ∈ E <-> exists x, x ∈ ent_es es0 /\ k = full x /\ v = Z.of_N x.2).
  Lemma key_fun x y : x ∈ ent_es es0 -> y ∈ ent_es es0 -> full x = full y -> x = y.
  Proof using Hw0.
    destruct x as [k v], y as [k' v']. unfold full. cbn [fst]. intros Hx Hy [<- _]%app_inv_head%app_inj_2; [|done].
    apply (ent_in es0 _ _ Hw0) in Hx as (e1 & H1 & H2), Hy as (e2 & H3 & H4). pose proof (tnode_fun _ _ _ _ Hw0 H1 H3) as <-.
    destruct (tnode_wf _ _ _ Hw0 H1) as [Hw _]. by pose proof (wfe_lab _ _ _ _ Hw H2 H4) as [= <-].
  Qed.
  Lemma cmp_eq a b : cmp a b = false -> cmp b a = false -> a = b.
  Proof using Hto. intros H1 H2. destruct (decide (a = b)) as [|Hn]; [done|]. destruct Hto as (_ & _ & T). destruct (T _ _ Hn); congruence. Qed.
  Lemma best_fun p v w : best_below cmp E p v -> best_below cmp E p w -> v = w.
  Proof using Hto. intros [[k Hk] Hv] [[k' Hk'] Hw]. apply cmp_eq; [by apply (Hv k')|by apply (Hw k)]. Qed.
  Lemma best_mx q es c s : tnode es0 q es -> (c, s) ∈ es -> best_below cmp E (P ++ q ++ [c]) (mx s).
  Proof using Hs Hto Hw0 HE.
    intros Ht Hc. destruct (tnode_wf _ _ _ Hw0 Ht) as [Hw _]. destruct (wfe_in _ _ Hw Hc) as (Hws & _). cbn [snd] in Hws. split.
    - destruct (mx_has sort cmp Hs s Hws) as (k & v & Hk & Hv).
      assert (exists k', (k', v) ∈ ent_e (c, s)) as [k' Hk'].
      { unfold ent_e. cbn [fst snd]. destruct (N.eqb_spec c 0) as [->|Hc0]; [by exists k|]. exists (c :: k). apply elem_of_list_fmap. by exists (k, v). }
      assert (Hin : (q ++ k', v) ∈ pref q (ent_e (c, s))) by (apply pref_in; by exists (k', v)).
      apply (branch_in es0 Hw0 q es c s _ Ht Hc) in Hin as [Hin [t Ht']]. exists t. rewrite <- app_assoc. apply HE. exists (q ++ k', v). split; [done|]. unfold full. by rewrite Ht'.
    - intros k v' H. apply HE in H as (x & Hx & Hk & ->). unfold full in Hk. rewrite <- app_assoc in Hk. apply app_inv_head in Hk.
      assert (Hin : x ∈ pref q (ent_e (c, s))) by (apply (branch_in es0 Hw0 q es c s _ Ht Hc); split; [done|]; by exists k).
      apply pref_in in Hin as ([k1 v1] & Hin & ->). cbn [snd]. assert (exists k2, (k2, v1) ∈ ent s) as [k2 Hk2].
      { unfold ent_e in Hin. cbn [fst snd] in Hin. destruct (c =? 0); [by exists k1|]. apply elem_of_list_fmap in Hin as ([k2 v2] & [= -> ->] & Hin). by exists k2. }
      by apply (mx_best sort cmp Hs Hto s k2 v1).
  Qed.
  Lemma before_iff r c d : before cmp E r c d <-> exists q es pre s rest sc, r = P ++ q /\ tnode es0 q es /\ oe es = pre ++ (d, s) :: rest /\ (c, sc) ∈ pre.
  Proof using Hs Hto Hw0 HE.
    split.
    - intros (v & w & Hv & Hw & Hor). assert (Hcd : c <> d).
      { intros ->. pose proof (best_fun _ _ _ Hv Hw) as <-. destruct Hor as [H|[_ H]]; [by rewrite (proj1 Hto) in H|lia]. }
      pose proof Hv as [[t Hx] _]. pose proof Hw as [[t' Hy] _]. apply HE in Hx as (x & Hx & Hxk & _), Hy as (y & Hy & Hyk & _). unfold full in Hxk, Hyk.
      rewrite <- app_assoc in Hxk, Hyk. cbn [app] in Hxk, Hyk.
      assert (exists q, r = P ++ q) as [q ->].
      { destruct (prefix_weak_total r P (P ++ kt x)) as [[z Hz]|[z Hz]]; [by exists (c :: t)|by exists (kt x)| |by exists z].
        destruct z as [|b z]; [exists []; by rewrite Hz, !app_nil_r|]. exfalso. apply Hcd. rewrite Hz in Hxk, Hyk. rewrite <- app_assoc in Hxk, Hyk. apply app_inv_head in Hxk, Hyk.
        injection Hxk as -> _. by injection Hyk as -> _. }
      rewrite <- app_assoc in Hxk, Hyk. apply app_inv_head in Hxk, Hyk.
      destruct (entry_edge es0 Hw0 x q c t Hx (eq_sym Hxk)) as (es & sc & Ht & Hc). destruct (entry_edge es0 Hw0 y q d t' Hy (eq_sym Hyk)) as (es' & s & Ht' & Hd).
      pose proof (tnode_fun _ _ _ _ Hw0 Ht Ht') as <-. destruct (tnode_wf _ _ _ Hw0 Ht) as [Hwe _].
      pose proof (best_mx q es c sc Ht Hc) as Hbc. pose proof (best_mx q es d s Ht Hd) as Hbd. rewrite <- app_assoc in Hv, Hw.
      pose proof (best_fun _ _ _ Hbc Hv) as <-. pose proof (best_fun _ _ _ Hbd Hw) as <-.
      rewrite <- (oe_perm sort cmp Hs es Hwe) in Hc, Hd. apply elem_of_list_lookup in Hc as [a Ha], Hd as [b Hb].
      assert (Hab : (a < b)%nat).
      { destruct (Nat.lt_trichotomy a b) as [?|[->|Hlt]]; [done| |].
        - rewrite Ha in Hb. by injection Hb as -> _.
        - exfalso. destruct (oe_lt sort cmp Hs Hto es b a _ _ Hwe Hlt Hb Ha) as [H|[H1 H2]]; cbn [fst snd] in *; destruct Hor as [H'|[H3 H4]].
          + destruct Hto as (T1 & T2 & _). pose proof (T2 _ _ _ H H') as H5. by rewrite T1 in H5.
          + rewrite H3 in H. by rewrite (proj1 Hto) in H.
          + rewrite H1 in H'. by rewrite (proj1 Hto) in H'.
          + lia. }
      exists q, es. apply elem_of_list_split_length in Hb as (pre & rest & Ho & ->). exists pre, s, rest, sc. split; [done|]. split; [done|]. split; [done|].
      rewrite Ho in Ha. rewrite lookup_app_l in Ha by done. apply elem_of_list_lookup. by exists a.
    - intros (q & es & pre & s & rest & sc & -> & Ht & Ho & Hc). destruct (tnode_wf _ _ _ Hw0 Ht) as [Hwe _]. pose proof (oe_perm sort cmp Hs es Hwe) as Hp.
      exists (mx sc), (mx s). rewrite <- !app_assoc. split; [|split].
      + apply (best_mx q es c sc Ht). rewrite <- Hp, Ho. apply elem_of_app. by left.
      + apply (best_mx q es d s Ht). rewrite <- Hp, Ho. apply elem_of_app. right. constructor.
      + apply elem_of_list_lookup in Hc as [a Ha]. pose proof (lookup_lt_Some _ _ _ Ha) as Hlt.
        apply (oe_lt sort cmp Hs Hto es a (length pre) (c, sc) (d, s) Hwe Hlt); rewrite Ho; [by apply lookup_app_l_Some|by rewrite lookup_app_r, Nat.sub_diag].
  Qed.
  Lemma open_iff O x : (forall o, o ∈ O -> o ∈ ent_es es0) -> x ∈ ent_es es0 -> topn sort cmp es0 O x <-> open cmp E (map full O) (full x).
  Proof using Hs Hto Hw0 HE.
    intros HO Hx. assert (Hin : x ∉ O <-> full x ∉ map full O).
    { split; intros Hn H; apply Hn; [|by apply (elem_of_list_fmap_1 full)]. apply elem_of_list_fmap in H as (y & Hy & HyO). by rewrite (key_fun x y Hx (HO y HyO) Hy). }
    unfold topn, open. rewrite <- Hin. split.
    - intros (_ & H2 & H3). split; [|split; [done|]].
      + apply elem_of_list_fmap. exists (full x, Z.of_N x.2). split; [done|]. apply HE. by exists x.
      + intros r c d t Hk (q & es & pre & s & rest & sc & -> & Ht & Ho & Hc)%before_iff. unfold full in Hk. rewrite <- app_assoc in Hk. apply app_inv_head in Hk.
        assert (Hpq : q ++ [d] `prefix_of` kt x) by (exists t; by rewrite Hk, <- app_assoc).
        destruct (H3 q es pre d s rest (c, sc) Ht Ho Hpq Hc) as (kv & Hkv & HkO). exists (full kv). split; [by apply (elem_of_list_fmap_1 full)|].
        destruct (tnode_wf _ _ _ Hw0 Ht) as [Hwe _]. apply (branch_in es0 Hw0 q es c sc kv Ht) in Hkv as [_ Hkv].
        * unfold full. rewrite <- app_assoc. by apply prefix_app.
        * rewrite <- (oe_perm sort cmp Hs es Hwe), Ho. apply elem_of_app. by left.
    - intros (_ & H2 & H3). split; [done|]. split; [done|]. intros q es pre d s rest [c sc] Ht Ho [t Hk] Hc.
      assert (Hb : before cmp E (P ++ q) c d) by (apply before_iff; exists q, es, pre, s, rest, sc; done).
      destruct (H3 (P ++ q) c d t) as (o & Ho' & Hpo); [|done|]; [unfold full; rewrite Hk, <- !app_assoc; done|].
      apply elem_of_list_fmap in Ho' as (kv & -> & HkO). exists kv. split; [|done]. destruct (tnode_wf _ _ _ Hw0 Ht) as [Hwe _]. apply (branch_in es0 Hw0 q es c sc kv Ht).
      + rewrite <- (oe_perm sort cmp Hs es Hwe), Ho. apply elem_of_app. by left.
      + split; [by apply HO|]. unfold full in Hpo. rewrite <- app_assoc in Hpo. by apply prefix_app_inv in Hpo.
  Qed.
  Lemma later_imp O x y : (forall o, o ∈ O -> o ∈ ent_es es0) -> x ∈ ent_es es0 -> y ∈ ent_es es0 -> tlater sort cmp es0 O x y -> opened_later cmp E (map full O) (full x) (full y).
  Proof using Hs Hto Hw0 HE.
    intros HO Hx Hy (j & Hj & H1 & H2). assert (HT : forall n o, o ∈ take n O -> o ∈ ent_es es0) by (intros n o Ho; apply HO; eapply elem_of_take in Ho as (? & ? & _); by eapply elem_of_list_lookup_2).
    exists j. rewrite map_length. split; [done|]. change (map full O) with (full <$> O). rewrite <- fmap_take. split; [apply open_iff; [apply HT|done|done]|].
    destruct H2 as [H2|(i & o & -> & Ho & H2 & H3 & H4)]; [left; rewrite <- open_iff; [done|apply HT|done]|]. right. exists i, (full o). split; [done|]. split; [by rewrite list_lookup_fmap, Ho|].
    rewrite <- fmap_take. split; [rewrite <- open_iff; [done|apply HT|done]|]. split; [rewrite <- open_iff; [done|apply HT|done]|]. unfold full. rewrite !shared_app. lia.
  Qed.
  Lemma best_first_of l : (forall o, o ∈ l -> o ∈ ent_es es0) -> (forall m x, l !! m = Some x -> tbest sort cmp es0 (take m l) x) ->
    best_first cmp E (map (fun x => (full x, Z.of_N x.2)) l).
  Proof using Hs Hto Hw0 HE.
    intros Hl H n kv Hk. change (map ?f l) with (f <$> l) in *. rewrite list_lookup_fmap in Hk. apply fmap_Some in Hk as (x & Hx & ->). destruct (H n x Hx) as [H1 H2]. cbn zeta.
    assert (HT : forall o, o ∈ take n l -> o ∈ ent_es es0) by (intros o Ho; apply Hl; eapply elem_of_take in Ho as (? & ? & _); by eapply elem_of_list_lookup_2).
    assert (HxS : x ∈ ent_es es0) by (apply Hl; by eapply elem_of_list_lookup_2).
    assert (HO : (take n ((fun x => (full x, Z.of_N x.2)) <$> l)).*1 = map full (take n l)) by (rewrite <- fmap_take, <- list_fmap_compose; done).
    rewrite HO. cbn [fst snd]. split; [by apply open_iff|]. intros [k v] Hin Ho. apply HE in Hin as (y & Hy & -> & ->). cbn [fst snd] in *. apply open_iff in Ho; [|done|done].
    destruct (H2 y Ho) as [->|[?|[H3 H4]]]; [by left|right; left; lia|]. right. right. split; [by rewrite H3|]. by apply later_imp.
  Qed.
End spec.
