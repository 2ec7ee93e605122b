(** Indices built with ranked guides.  Children behind the terminator are not
    counted: an index holds the keys that can be reached without passing one. *)
From Verif Require Import Go Dawg LinkTableProofs DawgRep Tree TreeFacts DictDfs Dict DictInv DictBuild DictRead DictRep Guide GuideProofs Completer CompleterProofs Index IndexProofs Ranked RankedProofs RankedSpec RankedThms RankedIndexSpec DawgSpec.
Local Open Scope N_scope.
Local Arguments N.mul : simpl never.
Local Arguments N.add : simpl never.
Local Arguments N.of_nat : simpl never.
Local Arguments N.lxor : simpl never.

(** Edges before the terminator. *)
Fixpoint tw {A} (l : list (N * A)) : list (N * A) := match l with [] => [] | e :: l' => if e.1 =? 0 then [] else e :: tw l' end.
Lemma tw_map {A B} (f : N * A -> B) (l : list (N * A)) : tw (map (fun k => (k.1, f k)) l) = map (fun k => (k.1, f k)) (tw l).
Proof. induction l as [|[c a] l IH]; [done|]. cbn [map tw fst]. destruct (c =? 0); [done|]. by rewrite IH. Qed.
Lemma tw_hd {A} (l : list (N * A)) : hd 0 (tw l).*1 = hd 0 l.*1.
Proof. destruct l as [|[c a] l]; [done|]. cbn [tw fst]. destruct (N.eqb_spec c 0) as [->|]; done. Qed.
Lemma tw_pre {A} (l : list (N * A)) : exists post, l = tw l ++ post /\ (post = [] \/ exists a t, post = (0, a) :: t).
Proof.
  induction l as [|[c a] l IH]; [by exists []; auto|]. cbn [tw fst]. destruct (N.eqb_spec c 0) as [->|Hc]; [by eexists; split; [done|]; right; eauto|].
  destruct IH as (post & E & H). exists post. split; [|done]. cbn [app]. by rewrite <- E.
Qed.
Lemma tw_nz {A} (l : list (N * A)) : Forall (fun e => e.1 <> 0) (tw l).
Proof. induction l as [|[c a] l IH]; [constructor|]. cbn [tw fst]. destruct (N.eqb_spec c 0); [constructor|]. by constructor. Qed.
Lemma tw_split {A} (l : list (N * A)) pre e post : tw l = pre ++ e :: post -> exists rest, l = pre ++ e :: rest /\ post = tw rest.
Proof.
  revert l. induction pre as [|x pre IH]; intros [|[c a] l] H; cbn [tw fst app] in H; try done; destruct (N.eqb_spec c 0); try done; injection H as <- H.
  - by exists l.
  - destruct (IH l H) as (rest & -> & ->). by exists rest.
Qed.

Section rent.
  Context (sort : (link -> link -> bool) -> list link -> list link) (cmp : Z -> Z -> bool).
  Local Notation mx := (mx sort cmp).
  Local Notation ord := (ord sort cmp).
  Local Notation oe := (oe sort cmp).
  Definition self (es : edges) : list (list N * N) := match es with (0, Leaf v) :: _ => [([], v)] | _ => [] end.
  Definition found (l : N) (rs : list (N * list (list N * N))) : list (list N * N) := match filter (fun e => e.1 = l) rs with [] => [([], 0)] | e :: _ => e.2 end.
  (** The entries an index holds, in its order. *)
  Fixpoint rent (s : sub) : list (list N * N) :=
    match s with
    | Leaf v => [([], v)]
    | Node es => self es ++ concat (map (fun k => map (fun kv => (k.1 :: kv.1, kv.2)) (found k.1 (map (fun e => (e.1, rent e.2)) es))) (tw (ord es)))
    end.
  Definition vk (es : edges) : edges := tw (oe es).
  Definition rsum (es : edges) : list (list N * N) := concat (map (fun e => map (fun kv => (e.1 :: kv.1, kv.2)) (rent e.2)) es).
  Definition rents (es : edges) : list (list N * N) := rent (Node es).
  Lemma found_at es l : found l (map (fun e => (e.1, rent e.2)) es) = rent (sub_at es l).
  Proof.
    unfold found, sub_at. induction es as [|[c s] es IH]; [done|]. cbn [map fst snd]. destruct (decide (c = l)) as [->|Hc].
    - rewrite !filter_cons_True by done. done.
    - rewrite !filter_cons_False by done. exact IH.
  Qed.
  Lemma rents_eq es : rents es = self es ++ rsum (vk es).
  Proof.
    unfold rents. cbn [rent]. f_equal. unfold rsum, vk, oe. rewrite (tw_map (fun k : link => sub_at es k.1)), map_map. cbn [fst snd]. f_equal. apply map_ext.
    intros k. by rewrite found_at.
  Qed.
  Lemma rsum_app a b : rsum (a ++ b) = rsum a ++ rsum b.
  Proof. unfold rsum. by rewrite map_app, concat_app. Qed.
  Lemma rsum_cons l s post : rsum ((l, s) :: post) = map (fun kv => (l :: kv.1, kv.2)) (rent s) ++ rsum post.
  Proof. done. Qed.
  Lemma rcnt_cons l e1 post : length (rsum ((l, Node e1) :: post)) = (length (rents e1) + length (rsum post))%nat.
  Proof. rewrite rsum_cons, app_length, map_length. done. Qed.
  Lemma self_len es : wfe es -> length (self es) = if has0 es then 1%nat else 0%nat.
  Proof. intros Hw. destruct (wfe_shape es Hw) as [(v & es' & -> & _)|[_ E]]; [done|]. rewrite E. by destruct es as [|[[|] s] es]. Qed.
  Lemma rents_len es : wfe es -> length (rents es) = ((if has0 es then 1 else 0) + length (rsum (vk es)))%nat.
  Proof. intros Hw. by rewrite rents_eq, app_length, self_len. Qed.

  Context (Hs : sorter sort).
  Lemma vk_in es e : wfe es -> e ∈ vk es -> e ∈ es.
  Proof.
    intros Hw He. rewrite <- (oe_perm sort cmp Hs es Hw). unfold vk in He. destruct (tw_pre (oe es)) as (post & -> & _). apply elem_of_app. by left.
  Qed.
  Lemma vk_nodes es : wfe es -> nodes_only (vk es).
  Proof.
    intros Hw. unfold nodes_only. rewrite Forall_forall. intros [l s] Hin. pose proof (tw_nz (oe es)) as H0. rewrite Forall_forall in H0.
    specialize (H0 _ Hin). cbn [fst snd] in *. split; [done|]. destruct s as [v|e1]; [|by exists e1]. by destruct (wfe_leaf es l v Hw (vk_in es _ Hw Hin)).
  Qed.
  Lemma vk_labels es : wfe es -> NoDup (vk es).*1.
  Proof.
    intros Hw. pose proof (ord_nodup sort cmp Hs es Hw) as H. rewrite <- oe_labels in H. unfold vk. destruct (tw_pre (oe es)) as (post & E & _). rewrite E, fmap_app in H.
    by apply NoDup_app in H as [H _].
  Qed.
  Lemma vk_short es : wfe es -> (length (vk es) <= 256)%nat.
  Proof.
    intros Hw. rewrite <- (fmap_length fst). apply labels_short; [by apply vk_labels|]. rewrite Forall_fmap. apply Forall_forall. intros [l s] Hin. cbn.
    apply (vk_in es _ Hw) in Hin. by destruct (wfe_in _ _ Hw Hin) as (_ & ? & _).
  Qed.
  Lemma vk_all es : wfe es -> has0 es = false -> vk es = oe es.
  Proof.
    intros Hw H0. unfold vk. destruct (tw_pre (oe es)) as (post & E & [->|(s & t & ->)]); [by rewrite app_nil_r in E|]. exfalso.
    assert (Hin : (0, s) ∈ es) by (rewrite <- (oe_perm sort cmp Hs es Hw), E; apply elem_of_app; right; left).
    destruct (wfe_zero _ _ Hw Hin) as [v ->]. rewrite (proj2 (has0_in es Hw)) in H0; [done|by exists v].
  Qed.
  Lemma rents_pos s : wf s -> (0 < length (rent s))%nat.
  Proof.
    induction s as [v|es IH] using sub_ind'; intros Hw; [cbn; lia|]. apply wf_wfe in Hw as [Hne Hw]. change (rent (Node es)) with (rents es). rewrite rents_len by done.
    destruct (has0 es) eqn:E; [lia|]. rewrite (vk_all es Hw E). destruct (mx_first sort cmp Hs es Hw Hne) as (l & s & rest & -> & Hin & _).
    rewrite rsum_cons, app_length, map_length. rewrite Forall_forall in IH. specialize (IH _ Hin). cbn [snd] in IH.
    destruct (wfe_in _ _ Hw Hin) as (Hws & _). cbn [snd] in Hws. specialize (IH Hws). lia.
  Qed.
  Lemma rents_le s : wf s -> (length (rent s) <= length (ent s))%nat.
  Proof.
    induction s as [v|es IH] using sub_ind'; intros Hw; [cbn; lia|]. apply wf_wfe in Hw as [Hne Hw]. rewrite Forall_forall in IH.
    change (rent (Node es)) with (rents es). change (ent (Node es)) with (ent_es es). rewrite rents_eq, app_length.
    assert (Hsum : forall vs, (forall e, e ∈ vs -> e ∈ es /\ e.1 <> 0) -> (length (rsum vs) <= length (ent_es vs))%nat).
    { induction vs as [|[l s] vs IHv]; intros Hv; [done|]. destruct (Hv (l, s)) as [Hin Hl]; [left|]. cbn [fst] in Hl. rewrite rsum_cons, app_length, map_length.
      unfold ent_es. cbn [map concat]. fold (ent_es vs). unfold ent_e. cbn [fst snd]. rewrite (proj2 (N.eqb_neq _ _) Hl), app_length, map_length.
      destruct (wfe_in _ _ Hw Hin) as (Hws & _). cbn [snd] in Hws. specialize (IH _ Hin Hws). cbn [snd] in IH.
      assert (length (rsum vs) <= length (ent_es vs))%nat by (apply IHv; intros e He; apply Hv; by right). lia. }
    assert (Hp : forall a b : edges, a ≡ₚ b -> length (ent_es a) = length (ent_es b)).
    { induction 1 as [|e a b _ IHp|e e' a|a b c _ IH1 _ IH2]; [done| | |congruence]; unfold ent_es in *; cbn [map concat]; rewrite ?app_length; lia. }
    pose proof (oe_perm sort cmp Hs es Hw) as Ho. rewrite <- (Hp _ _ Ho). unfold vk. destruct (tw_pre (oe es)) as (post & E & Hpost).
    assert (H1 : (length (rsum (tw (oe es))) <= length (ent_es (tw (oe es))))%nat).
    { apply Hsum. intros e He. split; [by apply (vk_in es e Hw)|]. pose proof (tw_nz (oe es)) as H0. rewrite Forall_forall in H0. by apply H0. }
    rewrite E at 2. rewrite ent_es_app, app_length. rewrite self_len by done. destruct (has0 es) eqn:E0; [|lia]. apply (has0_in es Hw) in E0 as [v Hv].
    destruct Hpost as [->|(s & t & ->)].
    - exfalso. rewrite app_nil_r in E. rewrite <- Ho, E in Hv. pose proof (tw_nz (oe es)) as H0. rewrite Forall_forall in H0. by apply (H0 _ Hv).
    - assert (Hin : (0, s) ∈ es) by (rewrite <- Ho, E; apply elem_of_app; right; left). destruct (wfe_zero _ _ Hw Hin) as [w ->].
      unfold ent_es at 2. cbn [map concat ent_e fst snd]. cbn. lia.
  Qed.
End rent.

Section rindex.
  Context (us : dict) (R : edges) (node : N -> edges -> Prop) (HN : drep us R node).
  Context (sort : (link -> link -> bool) -> list link -> list link) (cmp : Z -> Z -> bool) (Hs : sorter sort).
  Context (g : guide) (HG : rgrep sort cmp us node g) (Hlim : cnt R < two32).
  Local Notation fol l i j := (dc_Follow us l i = Ok (true, j)).
  Local Notation gx ix i := (default 0 ((ix : list N) !! N.to_nat i)).
  Local Notation rcnt es := (N.of_nat (length (rents sort cmp es))).
  Local Notation scnt es := (N.of_nat (length (rsum sort cmp es))).
  Local Notation vk es := (vk sort cmp es).

  Lemma node_rcnt i es : node i es -> 0 < rcnt es < two32.
  Proof.
    intros Hn. pose proof (rp_wf _ _ _ HN _ _ Hn) as Hw. pose proof (rents_pos sort cmp Hs _ Hw) as H1. pose proof (rents_le sort cmp Hs _ Hw) as H2.
    pose proof (node_cnt us R node HN Hlim i es Hn) as H3. unfold rents. rewrite ent_node in H2. lia.
  Qed.
  Lemma rg_first i es : node i es -> gd_Child g i = Ok (hd 0 (vk es).*1).
  Proof. intros Hn. rewrite (rg_child _ _ _ _ _ HG _ _ Hn). change (vk es) with (tw (oe sort cmp es)). by rewrite tw_hd, oe_labels. Qed.
  Lemma rg_next i es pre l e1 post j : node i es -> vk es = pre ++ (l, Node e1) :: post -> fol l i j -> gd_Sibling g j = Ok (hd 0 post.*1).
  Proof.
    intros Hn Hv Hf. pose proof (wfn us R node HN i es Hn) as Hw.
    assert (Hin : (l, Node e1) ∈ es) by (apply (vk_in sort cmp Hs es _ Hw); rewrite Hv; apply elem_of_app; right; left).
    destruct (pos_kid us R node HN i es l e1 Hn Hin) as (Hf' & _). rewrite Hf in Hf'. injection Hf' as ->. rewrite (rg_sib _ _ _ _ _ HG _ _ _ _ Hn Hin). f_equal.
    destruct (tw_split _ _ _ _ Hv) as (rest & Ho & ->). by rewrite (nxt_oe sort cmp Hs es pre l (Node e1) rest Hw Ho), tw_hd.
  Qed.

  Record rii (ix : list N) (S : list N) : Prop := mkRII {
    rii_len : length ix = length us;
    rii_done : forall i es, node i es -> i ∉ S -> gx ix i = 0 \/
      (gx ix i = rcnt es /\ forall l e1 j, (l, Node e1) ∈ vk es -> fol l i j -> gx ix j = rcnt e1 /\ j ∉ S) }.
  Lemma rii_upd ix ix' S i : rii ix (i :: S) -> length ix' = length ix -> (forall j, j <> i -> gx ix' j = gx ix j) -> rii ix' (i :: S).
  Proof.
    intros [A1 A2] Hl Hg. constructor; [congruence|]. intros i' es Hn Hni. destruct (A2 _ _ Hn Hni) as [E|[E Hk]].
    - left. rewrite Hg; [done|]. intros ->. apply Hni. left.
    - right. split; [rewrite Hg; [done|]; intros ->; apply Hni; left|]. intros l e1 j Hl1 Hf. destruct (Hk _ _ _ Hl1 Hf) as [B1 B2].
      split; [|done]. rewrite Hg; [done|]. intros ->. apply B2. left.
  Qed.
  Lemma rbuild_call fuel : forall S ix i es, (hgt (Node es) <= fuel)%nat -> node i es -> rii ix S -> gx ix i = 0 -> i ∉ S ->
    (forall s es', s ∈ S -> node s es' -> (hgt (Node es) < hgt (Node es'))%nat) ->
    exists ix', ib_buildIndices fuel us g ix i = Ok (true, ix') /\ rii ix' S /\ iext S ix ix' /\ gx ix' i = rcnt es.
  Proof.
    induction fuel as [|fuel IH]; intros S ix i es Hh Hn HI Hi0 HiS HS; [pose proof (hgt_pos (Node es)); lia|].
    cbn [ib_buildIndices]. pose proof (rp_lt _ _ _ HN _ _ Hn) as Hi. pose proof (wfn us R node HN i es Hn) as Hw. pose proof (node_rcnt _ _ Hn) as Hcnt.
    rewrite (rp_has _ _ _ HN _ _ Hn). cbn [mbind res_bind].
    assert (Hk : forall i' es' l e1 j, node i' es' -> (l, Node e1) ∈ vk es' -> fol l i' j -> (l, Node e1) ∈ es' /\ node j e1).
    { intros i' es' l e1 j Hn' Hl Hf. pose proof (vk_in sort cmp Hs es' _ (wfn us R node HN i' es' Hn') Hl) as Hin. split; [done|].
      destruct (rp_kid _ _ _ HN _ _ _ _ Hn' Hin) as (j' & Hf' & Hj' & _). rewrite Hf in Hf'. by injection Hf' as <-. }
    assert (HI0 : rii ix (i :: S)).
    { destruct HI as [A1 A2]. constructor; [done|]. intros i' es' Hn' Hni. apply not_elem_of_cons in Hni as [Hne Hni].
      destruct (A2 _ _ Hn' Hni) as [E|[E Hk']]; [by left|]. right. split; [done|]. intros l e1 j Hl Hf. destruct (Hk' _ _ _ Hl Hf) as [B1 B2].
      split; [done|]. apply not_elem_of_cons. split; [|done]. intros ->. destruct (Hk _ _ _ _ _ Hn' Hl Hf) as [_ Hj'].
      rewrite (rp_fun _ _ _ HN _ _ _ Hj' Hn) in B1. rewrite Hi0 in B1. lia. }
    assert (Hstart : exists ix1, (if has0 es then upd ix i (fun x => u32 (x + 1)) else Ok ix) = Ok ix1 /\ rii ix1 (i :: S) /\
      (forall j, j <> i -> gx ix1 j = gx ix j) /\ gx ix1 i = N.of_nat (if has0 es then 1 else 0)).
    { destruct (has0 es).
      - destruct (upd_gx R Hlim ix i (fun x => u32 (x + 1))) as (ix1 & -> & Hl & Hg1); [rewrite (rii_len _ _ HI); lia|]. exists ix1. split; [done|].
        assert (Hg' : forall j, j <> i -> gx ix1 j = gx ix j) by (intros j Hj; rewrite Hg1; by rewrite (proj2 (N.eqb_neq _ _) Hj)).
        split; [by eapply rii_upd|]. split; [done|]. rewrite Hg1, N.eqb_refl, Hi0. done.
      - exists ix. split; [done|]. split; [done|]. split; [done|]. by rewrite Hi0. }
    destruct Hstart as (ix1 & -> & HI1 & Hg1 & Hi1). cbn [mbind res_bind]. rewrite (rg_first _ _ Hn). cbn [mbind res_bind].
    assert (Hloop : forall rest pre n ix2, vk es = pre ++ rest -> nodes_only rest -> (length rest <= n)%nat -> rii ix2 (i :: S) -> iext S ix ix2 ->
      gx ix2 i + scnt rest = rcnt es -> (forall l e1 j, (l, Node e1) ∈ pre -> fol l i j -> gx ix2 j = rcnt e1 /\ j ∉ i :: S) ->
      exists ix', ib_loop (ib_buildIndices fuel us g) us g i n ix2 (hd 0 rest.*1) = Ok (true, ix') /\ rii ix' S /\ iext S ix ix' /\ gx ix' i = rcnt es).
    { clear ix1 HI1 Hg1 Hi1. induction rest as [|[l s] post IHr]; intros pre n ix2 He Hno Hln HI2 HE2 Hsum Hpre.
      - exists ix2. destruct n; cbn [ib_loop fmap list_fmap hd]; change (0 =? 0) with true; cbn iota; (split; [done|]);
          (assert (Hfin : gx ix2 i = rcnt es) by (change (scnt []) with 0 in Hsum; lia)); (split; [|done]); destruct HI2 as [A1 A2]; (constructor; [done|]);
          intros i' es' Hn' Hni; (destruct (decide (i' = i)) as [->|Hne];
          [right; rewrite (rp_fun _ _ _ HN _ _ _ Hn' Hn); split; [done|]; intros l e1 j Hl Hf; rewrite app_nil_r in He; rewrite He in Hl;
             destruct (Hpre _ _ _ Hl Hf) as [B1 B2]; split; [done|]; by apply not_elem_of_cons in B2 as [_ ?]
          |destruct (A2 _ _ Hn') as [E|[E Hk']]; [by apply not_elem_of_cons|by left|]; right; split; [done|]; intros l e1 j Hl Hf;
             destruct (Hk' _ _ _ Hl Hf) as [B1 B2]; split; [done|]; by apply not_elem_of_cons in B2 as [_ ?]]).
      - apply Forall_cons in Hno as [[Hl0 [e1 Hs1]] Hno]. cbn [fst snd] in Hl0, Hs1. subst s. destruct n as [|n]; [cbn in Hln; lia|].
        assert (Hinv : (l, Node e1) ∈ vk es) by (rewrite He; apply elem_of_app; right; left).
        assert (Hin : (l, Node e1) ∈ es) by (by apply (vk_in sort cmp Hs es _ Hw)).
        destruct (rp_kid _ _ _ HN _ _ _ _ Hn Hin) as (j & Hf & Hj & Hj0). cbn [ib_loop fmap list_fmap hd fst]. rewrite (proj2 (N.eqb_neq _ _) Hl0).
        rewrite Hf. cbn [mbind res_bind negb]. pose proof (rp_lt _ _ _ HN _ _ Hj) as Hjl. rewrite (get_gx R Hlim ix2 j) by (rewrite (rii_len _ _ HI2); done).
        cbn [mbind res_bind]. pose proof (hgt_in _ _ _ Hin) as Hhl.
        assert (HjS : j ∉ i :: S).
        { intros Hc. assert (hgt (Node e1) < hgt (Node e1))%nat; [|lia]. apply elem_of_cons in Hc as [->|Hc].
          - by rewrite (rp_fun _ _ _ HN _ _ _ Hj Hn) in Hhl |- *.
          - specialize (HS _ _ Hc Hj). lia. }
        pose proof HjS as [Hji _]%not_elem_of_cons.
        assert (Hrec : exists ix3, (if gx ix2 j =? 0 then ib_buildIndices fuel us g ix2 j else Ok (true, ix2)) = Ok (true, ix3) /\
          rii ix3 (i :: S) /\ iext (i :: S) ix2 ix3 /\ gx ix3 j = rcnt e1).
        { destruct (N.eqb_spec (gx ix2 j) 0) as [E|E].
          - apply IH; [lia|done|done|done|done|]. intros s' es' Hs' Hns'. apply elem_of_cons in Hs' as [->|Hs']; [by rewrite (rp_fun _ _ _ HN _ _ _ Hns' Hn)|].
            specialize (HS _ _ Hs' Hns'). lia.
          - exists ix2. split; [done|]. split; [done|]. split; [by intros ? ?|]. destruct (rii_done _ _ HI2 _ _ Hj HjS) as [?|[? _]]; done. }
        destruct Hrec as (ix3 & -> & HI3 & HE3 & Hg3). cbn [mbind res_bind negb]. rewrite (get_gx R Hlim ix3 j) by (rewrite (rii_len _ _ HI3); done).
        cbn [mbind res_bind]. rewrite Hg3. destruct (upd_gx R Hlim ix3 i (fun x => u32 (x + rcnt e1))) as (ix4 & -> & Hl4 & Hg4); [rewrite (rii_len _ _ HI3); done|].
        cbn [mbind res_bind]. rewrite (rg_next _ _ _ _ _ _ _ Hn He Hf). cbn [mbind res_bind].
        assert (Hg4' : forall j, j <> i -> gx ix4 j = gx ix3 j) by (intros j' Hj'; rewrite Hg4; by rewrite (proj2 (N.eqb_neq _ _) Hj')).
        assert (Hi3 : gx ix3 i = gx ix2 i) by (apply HE3; right; left). rewrite rcnt_cons in Hsum.
        assert (Hi4 : gx ix4 i = gx ix2 i + rcnt e1) by (rewrite Hg4, N.eqb_refl, Hi3; apply u32_id; lia).
        apply (IHr (pre ++ [(l, Node e1)]) n ix4).
        + by rewrite <- app_assoc.
        + done.
        + cbn in Hln. lia.
        + by eapply rii_upd.
        + intros j' Hj'. destruct (N.eq_dec j' i) as [->|Hne]; [destruct Hj' as [?|?]; done|]. rewrite Hg4' by done. rewrite HE3; [by apply HE2|].
          destruct Hj' as [Hj'|Hj']; [left; rewrite HE2; [done|by left]|right; by right].
        + rewrite Hi4. lia.
        + intros l' e' j' Hl' Hf'. apply elem_of_app in Hl' as [Hl'|Hl'].
          * destruct (Hpre _ _ _ Hl' Hf') as [B1 B2]. split; [|done]. pose proof B2 as [B3 _]%not_elem_of_cons. rewrite Hg4' by done. rewrite HE3; [done|].
            left. rewrite B1. assert (Hin' : (l', Node e') ∈ vk es) by (rewrite He; apply elem_of_app; by left).
            destruct (Hk _ _ _ _ _ Hn Hin' Hf') as [_ Hj2]. pose proof (node_rcnt _ _ Hj2). lia.
          * apply elem_of_list_singleton in Hl' as [= -> ->]. rewrite Hf in Hf'. injection Hf' as <-. split; [|done]. by rewrite Hg4'. }
    apply (Hloop (vk es) [] 256%nat ix1).
    - done.
    - by apply vk_nodes.
    - by apply vk_short.
    - done.
    - intros j Hj. apply Hg1. intros ->. destruct Hj; done.
    - rewrite Hi1, rents_len by done. lia.
    - intros l e1 j Hl _. by apply elem_of_nil in Hl.
  Qed.
  Lemma BuildIndex_ranked : exists ix, BuildIndex us g = Ok (Some ix) /\ rii ix [] /\ gx ix 0 = rcnt R.
  Proof.
    unfold BuildIndex. assert (Hz : forall i, gx (replicate (length us) 0) i = 0).
    { intros i. destruct (replicate (length us) 0 !! N.to_nat i) eqn:E; [|done]. apply lookup_replicate in E as [-> _]. done. }
    destruct (rbuild_call (S (length us)) [] (replicate (length us) 0) 0 R) as (ix & -> & HI & _ & H0).
    - apply (hgt_units us R node HN 0), HN.
    - apply HN.
    - constructor; [apply replicate_length|]. intros i es _ _. left. apply Hz.
    - apply Hz.
    - by intros H%elem_of_nil.
    - intros s es' Hs'. by apply elem_of_nil in Hs'.
    - cbn [mbind res_bind]. by exists ix.
  Qed.

  (** IndexToBytes. *)
  Context (ix : list N) (HX : rii ix []).
  Lemma rkid i es pre l e1 post : node i es -> gx ix i = rcnt es -> vk es = pre ++ (l, Node e1) :: post -> exists j, fol l i j /\ node j e1 /\ gx ix j = rcnt e1 /\
    get ix j = Ok (rcnt e1) /\ gd_Sibling g j = Ok (hd 0 post.*1).
  Proof.
    intros Hn Hc Hv. assert (Hinv : (l, Node e1) ∈ vk es) by (rewrite Hv; apply elem_of_app; right; left).
    pose proof (vk_in sort cmp Hs es _ (wfn us R node HN i es Hn) Hinv) as Hin. destruct (rp_kid _ _ _ HN _ _ _ _ Hn Hin) as (j & Hf & Hj & _). exists j.
    split; [done|]. split; [done|]. destruct (rii_done _ _ HX i es Hn) as [E|[_ B]]; [by intros H%elem_of_nil|pose proof (node_rcnt _ _ Hn); lia|].
    destruct (B l e1 j Hinv Hf) as [B1 _]. split; [done|]. split; [|by apply (rg_next i es pre l e1 post)]. rewrite <- B1. apply (get_gx R Hlim). rewrite (rii_len _ _ HX).
    by apply (rp_lt _ _ _ HN j e1).
  Qed.
  Lemma rfind_kid i es w : node i es -> gx ix i = rcnt es -> forall rest p0 n cur, vk es = p0 ++ rest -> nodes_only rest -> (length rest <= n)%nat -> cur + scnt rest < two32 -> cur <= w ->
    (cur + scnt rest <= w /\ ir_find_in n us g ix w i (hd 0 rest.*1) cur = Ok None) \/
    (exists pre l e1 post j, rest = pre ++ (l, Node e1) :: post /\ node j e1 /\ gx ix j = rcnt e1 /\ (l, Node e1) ∈ es /\ cur + scnt pre <= w < cur + scnt pre + rcnt e1 /\
      ir_find_in n us g ix w i (hd 0 rest.*1) cur = Ok (Some (l, j, cur + scnt pre))).
  Proof.
    intros Hn Hci. induction rest as [|[l s] rest IH]; intros p0 n cur He Hno Hlen Hc Hw.
    - left. split; [cbn; lia|]. by destruct n.
    - apply Forall_cons in Hno as [[Hl0 [e1 Hs1]] Hno]. cbn [fst snd] in *. subst s. destruct n as [|n]; [cbn in Hlen; lia|].
      cbn [fmap list_fmap hd fst ir_find_in]. rewrite (proj2 (N.eqb_neq _ _) Hl0). destruct (rkid i es p0 l e1 rest Hn Hci He) as (j & Hf & Hj & Hcj & Hcx & Hsb).
      rewrite Hf. cbn [mbind res_bind negb]. unfold ix_ChildCount. rewrite Hcx. cbn [mbind res_bind]. rewrite rcnt_cons in Hc |- *.
      rewrite u32_id by lia. destruct (N.ltb_spec w (cur + rcnt e1)) as [Hlt|Hge].
      + right. exists [], l, e1, rest, j. replace (cur + scnt []) with cur by (cbn; lia). split; [done|]. split; [done|]. split; [done|].
        split; [apply (vk_in sort cmp Hs es _ (wfn us R node HN i es Hn)); rewrite He; apply elem_of_app; right; left|]. done.
      + rewrite Hsb. cbn [mbind res_bind]. destruct (IH (p0 ++ [(l, Node e1)]) n (cur + rcnt e1)) as [[H1 H2]|(pre & l' & e' & post & j' & -> & Hj' & Hc' & Hin' & Hb & H2)].
        * by rewrite <- app_assoc.
        * done.
        * cbn in Hlen. lia.
        * lia.
        * lia.
        * left. split; [lia|done].
        * right. exists ((l, Node e1) :: pre), l', e', post, j'. rewrite rcnt_cons. split; [done|]. split; [done|]. split; [done|]. split; [done|].
          split; [lia|]. rewrite H2. do 3 f_equal. lia.
  Qed.
  Lemma rdescend_ok fuel : forall i es cur buf w, node i es -> gx ix i = rcnt es -> (hgt (Node es) <= fuel)%nat -> cur + rcnt es < two32 -> cur <= w ->
    ir_descend fuel us g ix w i cur buf = Ok (match rents sort cmp es !! N.to_nat (w - cur) with Some (k, _) => Some (buf ++ k) | None => None end).
  Proof.
    induction fuel as [|fuel IH]; intros i es cur buf w Hn Hci Hh Hc Hcw; [pose proof (hgt_pos (Node es)); lia|]. pose proof (wfn us R node HN i es Hn) as Hw.
    cbn [descend_by]. rewrite (proj2 (N.ltb_ge _ _) Hcw). rewrite (rp_has _ _ _ HN _ _ Hn). cbn [mbind res_bind].
    assert (Hself : has0 es = true -> exists v, self es = [([], v)]) by (intros H0; destruct (wfe_shape es Hw) as [(v & es' & -> & _)|[_ E]]; [by exists v|congruence]).
    destruct (has0 es && (cur =? w)) eqn:E.
    - apply andb_true_iff in E as [E1 E2]. apply N.eqb_eq in E2 as ->. rewrite N.sub_diag. rewrite rents_eq. destruct (Hself E1) as [v ->]. cbn. by rewrite app_nil_r.
    - rewrite (rg_first _ _ Hn). cbn [mbind res_bind]. rewrite rents_len in Hc by done.
      set (cur1 := if has0 es then u32 (cur + 1) else cur).
      assert (Hcur1 : cur1 = cur + (if has0 es then 1 else 0)) by (unfold cur1; destruct (has0 es); [apply u32_id; lia|lia]). clearbody cur1.
      assert (Hle : cur1 <= w) by (rewrite Hcur1; destruct (has0 es); [apply N.eqb_neq in E; lia|lia]).
      assert (Hent : rents sort cmp es !! N.to_nat (w - cur) = rsum sort cmp (vk es) !! N.to_nat (w - cur1)).
      { rewrite rents_eq. pose proof (self_len es Hw) as Hsl. rewrite lookup_app_r by (rewrite Hsl; destruct (has0 es); lia). f_equal. rewrite Hsl. destruct (has0 es); lia. }
      rewrite Hent. clear Hent E Hself.
      destruct (rfind_kid i es w Hn Hci (vk es) [] 256 cur1 eq_refl (vk_nodes sort cmp Hs es Hw) (vk_short sort cmp Hs es Hw)) as [[H1 ->]|(pre & l & e1 & post & j & Hk & Hj & Hcj & Hin & Hb & ->)].
      + destruct (has0 es); lia.
      + done.
      + cbn [mbind res_bind]. rewrite lookup_ge_None_2 by lia. done.
      + cbn [mbind res_bind]. pose proof (hgt_in _ _ _ Hin). rewrite Hk, rsum_app, app_length, rcnt_cons in Hc.
        rewrite (IH j e1) by (done || lia || (destruct (has0 es); lia)).
        rewrite Hk, rsum_app, lookup_app_r by lia. rewrite rsum_cons. rewrite lookup_app_l by (rewrite map_length; unfold rents in Hb; lia).
        change (map ?f ?x) with (f <$> x). rewrite list_lookup_fmap. unfold rents.
        replace (N.to_nat (w - cur1) - length (rsum sort cmp pre))%nat with (N.to_nat (w - (cur1 + scnt pre))) by lia.
        destruct (rent sort cmp (Node e1) !! N.to_nat (w - (cur1 + scnt pre))) as [[k v]|]; [|done]. cbn. by rewrite <- app_assoc.
  Qed.
  (** BytesToIndex. *)
  Lemma rskip_ok i es c tl : node i es -> gx ix i = rcnt es -> (forall l s t, tl = (l, s) :: t -> l = 0 \/ c <= l) -> forall mid p0 n r, vk es = p0 ++ mid ++ tl -> nodes_only mid ->
    Forall (fun e => e.1 < c) mid -> (length mid <= n)%nat -> r + scnt mid < two32 ->
    ir_skip n us g ix i c (hd 0 (mid ++ tl).*1) r = Ok (Some (hd 0 tl.*1, r + scnt mid)).
  Proof.
    intros Hn Hci Htl. induction mid as [|[l s] mid IH]; intros p0 n r He Hno Hlt Hlen Hr.
    - cbn [app]. replace (r + scnt []) with r by (cbn; lia). assert (E : (hd 0 tl.*1 <? c) && negb (hd 0 tl.*1 =? 0) = false).
      { destruct tl as [|[l s] t]; cbn [fmap list_fmap hd fst]; [by rewrite andb_false_r|]. destruct (Htl l s t eq_refl) as [->|Hc]; [by rewrite andb_false_r|].
        by rewrite (proj2 (N.ltb_ge _ _) Hc). }
      destruct n; cbn [ir_skip]; by rewrite E.
    - apply Forall_cons in Hno as [[Hl0 [e1 Hs1]] Hno]. apply Forall_cons in Hlt as [Hl Hlt]. cbn [fst snd] in *. subst s.
      destruct n as [|n]; [cbn in Hlen; lia|]. cbn [app fmap list_fmap hd fst ir_skip]. rewrite (proj2 (N.ltb_lt _ _) Hl), (proj2 (N.eqb_neq _ _) Hl0).
      cbn [andb negb]. destruct (rkid i es p0 l e1 (mid ++ tl) Hn Hci He) as (j & -> & Hj & _ & Hc & Hsb). cbn [mbind res_bind negb].
      unfold ix_ChildCount. rewrite Hc. cbn [mbind res_bind]. rewrite Hsb. cbn [mbind res_bind]. rewrite rcnt_cons in Hr |- *.
      rewrite u32_id by lia. rewrite (IH (p0 ++ [(l, Node e1)]) n (r + rcnt e1)).
      + do 3 f_equal. lia.
      + by rewrite <- app_assoc.
      + done.
      + done.
      + cbn in Hlen. lia.
      + lia.
  Qed.
  Lemma span_lt (es : edges) c : exists a b, es = a ++ b /\ Forall (fun e => e.1 < c) a /\ (b = [] \/ exists e t, b = e :: t /\ c <= e.1).
  Proof.
    induction es as [|e es IH]; [exists [], []; auto|]. destruct (N.lt_ge_cases e.1 c) as [Hlt|Hge].
    - destruct IH as (a & b & -> & H1 & H2). exists (e :: a), b. split; [done|]. split; [by constructor|done].
    - exists [], (e :: es). split; [done|]. split; [constructor|]. right. by exists e, es.
  Qed.
  Lemma rsum_lookup vs n c k v : nodes_only vs -> rsum sort cmp vs !! n = Some (c :: k, v) -> exists pre e1 post m, vs = pre ++ (c, Node e1) :: post /\
    n = (length (rsum sort cmp pre) + m)%nat /\ rents sort cmp e1 !! m = Some (k, v).
  Proof.
    revert n. induction vs as [|[l s] vs IH]; intros n Hno Hn; [done|]. apply Forall_cons in Hno as [[Hl [e1 Hs1]] Hno]. cbn [fst snd] in *. subst s.
    rewrite rsum_cons in Hn. destruct (decide (n < length (rents sort cmp e1))%nat) as [Hlt|Hge].
    - rewrite lookup_app_l in Hn by (by rewrite map_length). change (map ?f ?x) with (f <$> x) in Hn. rewrite list_lookup_fmap in Hn. unfold rents.
      destruct (rent sort cmp (Node e1) !! n) as [[k' v']|] eqn:E; [|done]. cbn in Hn. injection Hn as -> -> ->. by exists [], e1, vs, n.
    - unfold rents in Hge. rewrite lookup_app_r in Hn by (rewrite map_length; lia). rewrite map_length in Hn.
      destruct (IH _ Hno Hn) as (pre & e2 & post & m & -> & Hm & He). exists ((l, Node e1) :: pre), e2, post, m. split; [done|]. split; [|done].
      rewrite rcnt_cons. unfold rents. lia.
  Qed.
  Lemma rsum_ne vs : nodes_only vs -> vs <> [] -> (forall l e1, (l, Node e1) ∈ vs -> wf (Node e1)) -> (0 < length (rsum sort cmp vs))%nat.
  Proof.
    intros Hno Hne Hwf. destruct vs as [|[l s] vs]; [done|]. apply Forall_cons in Hno as [[_ [e1 Hs1]] _]. cbn [snd] in Hs1. subst s. rewrite rcnt_cons.
    pose proof (rents_pos sort cmp Hs (Node e1) (Hwf l e1 (elem_of_list_here _ _))). unfold rents. lia.
  Qed.
  Lemma rwalk_ok k : forall i es n v r, node i es -> gx ix i = rcnt es -> rents sort cmp es !! n = Some (k, v) -> r + rcnt es < two32 ->
    exists m, ir_walk us g ix k i r = Ok (r + N.of_nat m) /\ (m <= n)%nat /\ (m = n <-> Forall (fun kv => kcmp kv.1 k = Lt) (take n (rents sort cmp es))).
  Proof.
    induction k as [|c k IH]; intros i es n v r Hn Hci Hk Hr; pose proof (wfn us R node HN i es Hn) as Hw; pose proof (vk_nodes sort cmp Hs es Hw) as Hno.
    - cbn [ir_walk]. rewrite (rp_has _ _ _ HN _ _ Hn). cbn [mbind res_bind]. pose proof (self_len es Hw) as Hsl. rewrite rents_eq in Hk.
      assert (Hlt : (n < length (self es))%nat).
      { destruct (decide (n < length (self es))%nat) as [?|Hge]; [done|]. rewrite lookup_app_r in Hk by lia. exfalso. apply elem_of_list_lookup_2 in Hk.
        unfold rsum in Hk. apply elem_of_list_In, in_concat in Hk as (x & Hx & Hk). apply in_map_iff in Hx as ([l s] & <- & _). apply elem_of_list_In, elem_of_list_fmap_2 in Hk as ([] & ? & _). done. }
      rewrite Hsl in Hlt. destruct (has0 es); [|lia]. assert (n = 0)%nat as -> by lia. exists 0%nat. split; [f_equal; lia|]. split; [done|]. split; [constructor|done].
    - pose proof (self_len es Hw) as Hsl. pose proof Hk as Hk0. rewrite rents_eq in Hk0.
      assert (Hge : (length (self es) <= n)%nat).
      { destruct (decide (n < length (self es))%nat) as [Hlt|?]; [|lia]. rewrite lookup_app_l in Hk0 by lia. exfalso. apply elem_of_list_lookup_2 in Hk0.
        destruct es as [|[[|q] [w|e]] es]; cbn in Hk0; try (by apply elem_of_nil in Hk0). by apply elem_of_list_singleton in Hk0. }
      rewrite lookup_app_r in Hk0 by lia. destruct (rsum_lookup _ _ c k v Hno Hk0) as (pre & e1 & post & n1 & Hv & Hn1 & Hk1). clear Hk0.
      destruct (span_lt pre c) as (a & b & -> & Ha & Hb). rewrite rsum_app, app_length in Hn1.
      pose proof Hno as Hno'. rewrite Hv in Hno'. apply Forall_app in Hno' as [[Hnoa Hnob]%Forall_app [[Hc0 _] _]%Forall_cons]. cbn [fst] in Hc0.
      pose proof (vk_short sort cmp Hs es Hw) as Hsh. rewrite Hv, !app_length in Hsh.
      pose proof (rents_len sort cmp es Hw) as Hrl. rewrite Hv, !rsum_app, !app_length, rcnt_cons in Hrl.
      assert (Hwfb : forall l e2, (l, Node e2) ∈ b -> wf (Node e2)).
      { intros l e2 H. assert (Hin : (l, Node e2) ∈ es) by (apply (vk_in sort cmp Hs es _ Hw); rewrite Hv; apply elem_of_app; left; apply elem_of_app; by right).
        by destruct (wfe_in _ _ Hw Hin) as (? & _). }
      cbn [ir_walk]. rewrite (rp_has _ _ _ HN _ _ Hn). cbn [mbind res_bind]. rewrite (rg_first _ _ Hn), Hv. cbn [mbind res_bind]. rewrite <- app_assoc.
      assert (Hr1 : (if has0 es then u32 (r + 1) else r) = r + (if has0 es then 1 else 0)) by (destruct (has0 es); [apply u32_id; lia|lia]). rewrite Hr1.
      rewrite (rskip_ok i es c (b ++ (c, Node e1) :: post) Hn Hci) with (p0 := []); [|..].
      2: { intros l s t E. right. destruct Hb as [->|(e & t' & -> & He)]; cbn [app] in E; injection E; intros; subst; [lia|done]. }
      2: { cbn [app]. by rewrite Hv, <- app_assoc. }
      2: done.
      2: done.
      2: lia.
      2: { destruct (has0 es); lia. }
      cbn [mbind res_bind]. assert (Hh0 : hd 0 (b ++ (c, Node e1) :: post).*1 <> 0).
      { destruct b as [|[l s] b]; [done|]. cbn. by apply Forall_cons in Hnob as [[? _] _]. }
      rewrite (proj2 (N.eqb_neq _ _) Hh0). destruct (rkid i es (a ++ b) c e1 post Hn Hci Hv) as (j & -> & Hj & Hcj & _). cbn [mbind res_bind negb].
      destruct (IH j e1 n1 v (r + (if has0 es then 1 else 0) + scnt a) Hj Hcj Hk1) as (m1 & -> & Hm1 & Hm2); [destruct (has0 es); lia|].
      exists (length (self es) + length (rsum sort cmp a) + m1)%nat. split; [rewrite Hsl; f_equal; destruct (has0 es); lia|]. split; [lia|].
      assert (Etk : take n (rents sort cmp es) = self es ++ rsum sort cmp a ++ rsum sort cmp b ++ map (fun kv => (c :: kv.1, kv.2)) (take n1 (rents sort cmp e1))).
      { pose proof (lookup_lt_Some _ _ _ Hk1) as Hl1. rewrite rents_eq, Hv, !rsum_app, rsum_cons. rewrite <- !app_assoc.
        rewrite !app_assoc. rewrite <- app_assoc. rewrite take_app_ge by (rewrite !app_length; lia). rewrite <- !app_assoc. do 3 f_equal. rewrite !app_length.
        rewrite take_app_le by (rewrite map_length; change (rent sort cmp (Node e1)) with (rents sort cmp e1); lia). change (map ?f ?l) with (f <$> l). rewrite <- fmap_take. f_equal. f_equal. lia. }
      rewrite Etk, !Forall_app. rewrite Forall_fmap.
      assert (F1 : Forall (fun kv : list N * N => kcmp kv.1 (c :: k) = Lt) (self es)).
      { destruct es as [|[[|q] [w|e]] es]; cbn; repeat constructor. }
      assert (Hrin : forall vs kv, nodes_only vs -> kv ∈ rsum sort cmp vs -> exists l t, (exists e2, (l, Node e2) ∈ vs) /\ kv.1 = l :: t).
      { intros vs kv Hvs H. unfold rsum in H. apply elem_of_list_In, in_concat in H as (x & Hx & H). apply in_map_iff in Hx as ([l s] & <- & Hin). apply elem_of_list_In in H, Hin.
        apply elem_of_list_fmap_2 in H as ([t w] & -> & H). exists l, t. split; [|done]. unfold nodes_only in Hvs. rewrite Forall_forall in Hvs. destruct (Hvs _ Hin) as [_ [e2 E]]. cbn in E. subst s. by exists e2. }
      assert (F2 : Forall (fun kv : list N * N => kcmp kv.1 (c :: k) = Lt) (rsum sort cmp a)).
      { apply Forall_forall. intros kv H. destruct (Hrin a kv Hnoa H) as (l & t & (e2 & Hin) & ->). rewrite Forall_forall in Ha. specialize (Ha _ Hin). cbn [fst] in Ha.
        cbn [kcmp]. by rewrite (proj2 (N.compare_lt_iff _ _) Ha). }
      assert (F4 : Forall (fun kv : list N * N => kcmp kv.1 k = Lt) (take n1 (rents sort cmp e1)) <->
        Forall ((fun kv : list N * N => kcmp kv.1 (c :: k) = Lt) ∘ (fun kv : list N * N => (c :: kv.1, kv.2))) (take n1 (rents sort cmp e1))).
      { apply Forall_iff. intros [x y]. cbn. by rewrite N.compare_refl. }
      rewrite <- F4, <- Hm2. destruct Hb as [->|(e & t & -> & He)].
      + change (rsum sort cmp []) with (@nil (list N * N)) in Hn1 |- *. cbn [length] in Hn1. split; [intros H; split; [done|]; split; [done|]; split; [done|]; lia|intros (_ & _ & _ & ->); lia].
      + pose proof (rsum_ne _ Hnob ltac:(done) Hwfb) as Hpos. split; [lia|]. intros (_ & _ & F3 & _). exfalso.
        destruct e as [l s]. pose proof Hnob as Hnob'. apply Forall_cons in Hnob' as [[_ [e2 Hs2]] _]. cbn [fst snd] in *. subst s. rewrite rsum_cons in F3. apply Forall_app in F3 as [F3 _].
        pose proof (rents_pos sort cmp Hs (Node e2) (Hwfb l e2 (elem_of_list_here _ _))) as Hp. destruct (rent sort cmp (Node e2)) as [|[x y] rest]; [cbn in Hp; lia|].
        cbn [map] in F3. apply Forall_cons in F3 as [F3 _]. cbn [fst kcmp] in F3.
        assert (l <> c).
        { intros ->. pose proof (vk_labels sort cmp Hs es Hw) as Hnd. rewrite Hv, !fmap_app in Hnd. apply NoDup_app in Hnd as (_ & Hnd & _). apply (Hnd c); [apply elem_of_app; right; left|left]. }
        destruct (N.compare_spec l c); [lia|lia|done].
  Qed.
  (** Absent strings. *)
  Lemma rskip_any i es c : node i es -> forall rest p0 n r, vk es = p0 ++ rest -> nodes_only rest -> (length rest <= n)%nat ->
    exists l r', ir_skip n us g ix i c (hd 0 rest.*1) r = Ok (Some (l, r')).
  Proof.
    intros Hn. induction rest as [|[l s] rest IH]; intros p0 n r He Hno Hlen.
    - exists 0, r. cbn [fmap list_fmap hd]. destruct n; cbn [ir_skip]; by rewrite andb_false_r.
    - apply Forall_cons in Hno as [[Hl0 [e1 Hs1]] Hno]. cbn [fst snd] in *. subst s. destruct n as [|n]; [cbn in Hlen; lia|]. cbn [fmap list_fmap hd fst ir_skip].
      destruct ((l <? c) && negb (l =? 0)); [|by eexists _, _].
      assert (Hin : (l, Node e1) ∈ es) by (apply (vk_in sort cmp Hs es _ (wfn us R node HN i es Hn)); rewrite He; apply elem_of_app; right; left).
      destruct (rp_kid _ _ _ HN _ _ _ _ Hn Hin) as (j & Hf & Hj & _). rewrite Hf. cbn [mbind res_bind negb]. unfold ix_ChildCount.
      rewrite (get_gx R Hlim ix j) by (rewrite (rii_len _ _ HX); by apply (rp_lt _ _ _ HN j e1)). cbn [mbind res_bind]. rewrite (rg_next i es p0 l e1 rest j Hn He Hf). cbn [mbind res_bind].
      apply (IH (p0 ++ [(l, Node e1)])); [by rewrite <- app_assoc|done|cbn in Hlen; lia].
  Qed.
  Lemma rabsent_ok (P : N -> Prop) : (forall i es c, node i es -> (forall e1, (c, Node e1) ∉ es) -> P c -> dc_Follow us c i = Ok (false, i)) ->
    forall q i es r, node i es -> (forall p c t es1, q = p ++ c :: t -> tnode es p es1 -> (forall e1, (c, Node e1) ∉ es1) -> P c) ->
    exists x, ir_walk us g ix q i r = Ok x /\ ((forall v, (q, v) ∉ ent_es es) -> x = NotFound).
  Proof.
    intros Hmiss. induction q as [|c q IH]; intros i es r Hn Hc; pose proof (wfn us R node HN i es Hn) as Hw.
    - cbn [ir_walk]. rewrite (rp_has _ _ _ HN _ _ Hn). cbn [mbind res_bind]. eexists. split; [done|]. intros Hno. destruct (has0 es) eqn:E; [|done]. exfalso.
      apply (has0_in es Hw) in E as [v E]. apply (Hno v). apply (ent_in es [] v Hw). exists es. split; [constructor|done].
    - cbn [ir_walk]. rewrite (rp_has _ _ _ HN _ _ Hn). cbn [mbind res_bind]. rewrite (rg_first _ _ Hn). cbn [mbind res_bind].
      destruct (rskip_any i es c Hn (vk es) [] 256 (if has0 es then u32 (r + 1) else r) eq_refl (vk_nodes sort cmp Hs es Hw) (vk_short sort cmp Hs es Hw)) as (l & r' & ->).
      cbn [mbind res_bind]. destruct (l =? 0); [by eexists|].
      assert (Hd : (exists e1, (c, Node e1) ∈ es) \/ (forall e1, (c, Node e1) ∉ es)).
      { destruct (decide (c ∈ nzl es)) as [Hin|Hin]; [left; by apply nzl_in|]. right. intros e1 He1. apply Hin. apply nzl_in; [done|by exists e1]. }
      destruct Hd as [[e1 He1]|Hd].
      + destruct (rp_kid _ _ _ HN _ _ _ _ Hn He1) as (j & -> & Hj & _). cbn [mbind res_bind negb]. destruct (IH j e1 r' Hj) as (x & -> & Hx).
        * intros p c' t es1 -> Ht. apply (Hc (c :: p) c' t es1 eq_refl). by econstructor.
        * exists x. split; [done|]. intros Hno. apply Hx. intros v Hv. apply (Hno v). apply (ent_in es (c :: q) v Hw). apply ent_in in Hv as (es' & Ht & Hl); [|by apply (wfn us R node HN j)].
          exists es'. split; [by econstructor|done].
      + rewrite (Hmiss i es c Hn Hd); [by eexists|]. apply (Hc [] c q es eq_refl); [constructor|done].
  Qed.
End rindex.

(** ** What such an index holds, in terms of the entries *)
Lemma ahead_irr cmp E k : total_order cmp -> ~ ahead cmp E k k.
Proof.
  intros (T1 & T2 & T3) [(t & Ht & Hk)|(p & c & d & s & t & v & w & -> & Hk & [(q & Hq) Hv] & [(q' & Hq') Hw] & Hor)].
  - apply (f_equal length) in Hk. rewrite app_length in Hk. destruct t; [done|]. cbn in Hk. lia.
  - apply app_inv_head in Hk. injection Hk as -> _. destruct Hor as [Hor|[_ ?]]; [|lia]. pose proof (Hw q v Hq). congruence.
Qed.
Lemma ahead_nodup cmp E l : total_order cmp -> StronglySorted (ahead cmp E) l -> NoDup l.
Proof.
  intros Ht. induction 1 as [|k l _ IH Hk]; constructor; [|done]. intros Hin. rewrite Forall_forall in Hk. by apply (ahead_irr cmp E k Ht), Hk.
Qed.

Notation zent es := (map (fun kv : list N * N => (kv.1, Z.of_N kv.2)) (ent_es es)).
Lemma zent_in es k v : (k, v) ∈ zent es <-> exists n, v = Z.of_N n /\ (k, n) ∈ ent_es es.
Proof.
  split.
  - intros ([k' n] & [= -> ->] & H)%elem_of_list_fmap_2. by exists n.
  - intros (n & -> & H). by apply (elem_of_list_fmap_1 (fun kv : list N * N => (kv.1, Z.of_N kv.2)) _ (k, n)).
Qed.
Lemma zent_nil es v : wfe es -> ([], v) ∈ zent es <-> exists n, v = Z.of_N n /\ (0, Leaf n) ∈ es.
Proof.
  intros Hw. rewrite zent_in. split; intros (n & Hv & H); exists n; (split; [done|]).
  - apply (ent_in es [] n Hw) in H as (es' & Ht & H). by inversion Ht; subst.
  - apply (ent_in es [] n Hw). exists es. split; [constructor|done].
Qed.
Lemma zent_cons es c k v : wfe es -> (c :: k, v) ∈ zent es <-> exists e1, (c, Node e1) ∈ es /\ (k, v) ∈ zent e1.
Proof.
  intros Hw. rewrite zent_in. split.
  - intros (n & -> & H). apply (ent_in es _ n Hw) in H as (es' & Ht & H). inversion Ht as [|? ? e1 ? ? Hin Ht1]; subst. exists e1. split; [done|]. apply zent_in. exists n.
    split; [done|]. apply ent_in; [by destruct (wfe_kid _ _ _ Hw Hin)|]. by exists es'.
  - intros (e1 & Hin & H). apply zent_in in H as (n & -> & H). exists n. split; [done|]. destruct (wfe_kid _ _ _ Hw Hin) as (Hw1 & _).
    apply (ent_in e1 _ n Hw1) in H as (es' & Ht & H). apply (ent_in es _ n Hw). exists es'. split; [by econstructor|done].
Qed.
Section held.
  Context (sort : (link -> link -> bool) -> list link -> list link) (cmp : Z -> Z -> bool) (Hs : sorter sort) (Hto : total_order cmp).
  Local Notation mx := (mx sort cmp).
  Local Notation oe := (oe sort cmp).
  Local Notation vk := (vk sort cmp).
  Local Notation rents := (rents sort cmp).
  Local Notation rsum := (rsum sort cmp).
  Lemma mx_has s : wf s -> exists k v, (k, v) ∈ ent s /\ mx s = Z.of_N v.
  Proof.
    induction s as [v|es IH] using sub_ind'; intros Hw; [exists [], v; split; [by left|done]|]. apply wf_wfe in Hw as [Hne Hw]. rewrite Forall_forall in IH.
    destruct (mx_first sort cmp Hs es Hw Hne) as (l & s & rest & _ & Hin & -> & _). destruct (wfe_in _ _ Hw Hin) as (Hws & _). cbn [snd] in Hws.
    destruct (IH _ Hin Hws) as (k & v & Hk & Hv). cbn [snd] in Hk, Hv. rewrite Hv, ent_node.
    destruct (N.eqb_spec l 0) as [->|Hl]; [exists k, v|exists (l :: k), v]; (split; [|done]); apply elem_ent_es; eexists; (split; [exact Hin|]); unfold ent_e; cbn [fst snd].
    - done.
    - rewrite (proj2 (N.eqb_neq _ _) Hl). by apply (elem_of_list_fmap_1 (fun kv : list N * N => (l :: kv.1, kv.2)) _ (k, v)).
  Qed.
  Lemma mx_below es c e1 : wfe es -> (c, Node e1) ∈ es -> best_below cmp (zent es) [c] (mx (Node e1)).
  Proof.
    intros Hw Hin. destruct (wfe_in _ _ Hw Hin) as (Hws & _). cbn [snd] in Hws. split.
    - destruct (mx_has _ Hws) as (k & v & Hk & ->). exists k. apply (zent_cons es c k _ Hw). exists e1. split; [done|]. apply zent_in. by exists v.
    - intros k v' H. apply (zent_cons es c k _ Hw) in H as (e1' & Hin' & H). pose proof (wfe_lab _ _ _ _ Hw Hin Hin') as [= <-].
      apply zent_in in H as (n & -> & H). by apply (mx_best sort cmp Hs Hto (Node e1) k n).
  Qed.
  (** Two edges, the first one earlier. *)
  Lemma oe_lt es a b e e' : wfe es -> (a < b)%nat -> oe es !! a = Some e -> oe es !! b = Some e' ->
    cmp (mx e'.2) (mx e.2) = true \/ (mx e.2 = mx e'.2 /\ e.1 < e'.1).
  Proof.
    intros Hw Hab Ha Hb. pose proof (oe_links sort cmp Hs es Hw) as Hl.
    pose proof (proj2 Hs (link_less cmp) (links sort cmp es) a b (e.1, mx e.2) (e'.1, mx e'.2) (total_weak cmp Hto) Hab) as H.
    change (sort (link_less cmp) (links sort cmp es)) with (ord sort cmp es) in H. rewrite <- Hl in H. change (map ?f ?l) with (f <$> l) in H.
    rewrite !list_lookup_fmap, Ha, Hb in H. specialize (H eq_refl eq_refl). unfold link_less in H. cbn [fst snd] in H.
    destruct Hto as (T1 & T2 & T3). destruct (Z.eqb_spec (mx e'.2) (mx e.2)) as [E|E]; cbn [negb] in H.
    - right. split; [done|]. apply N.ltb_ge in H. enough (e.1 <> e'.1) by lia. intros E1.
      pose proof (ord_nodup sort cmp Hs es Hw) as Hnd. rewrite <- oe_labels in Hnd. assert (a = b); [|lia]. eapply NoDup_lookup; [exact Hnd| |]; rewrite list_lookup_fmap.
      + by rewrite Ha.
      + rewrite Hb. cbn. by rewrite E1.
    - left. destruct (T3 _ _ E) as [?|?]; [done|congruence].
  Qed.
  Lemma vk_iff es c e1 : wfe es -> (c, Node e1) ∈ es -> (c, Node e1) ∈ vk es <-> forall v, (0, Leaf v) ∈ es -> cmp (Z.of_N v) (mx (Node e1)) = true.
  Proof.
    intros Hw Hin. destruct (wfe_kid _ _ _ Hw Hin) as (_ & _ & Hc0 & _). pose proof (oe_perm sort cmp Hs es Hw) as Ho.
    change (vk es) with (tw (oe es)). destruct (tw_pre (oe es)) as (post & E & Hpost). pose proof (tw_nz (oe es)) as Hnz. rewrite Forall_forall in Hnz.
    set (T := tw (oe es)) in *. clearbody T. split.
    - intros H v Hv. rewrite <- Ho, E in Hv. apply elem_of_app in Hv as [Hv|Hv]; [by apply Hnz in Hv|].
      apply elem_of_list_lookup in H as [a Ha], Hv as [b Hb]. pose proof (lookup_lt_Some _ _ _ Ha) as Hlt.
      destruct (oe_lt es a (length T + b) (c, Node e1) (0, Leaf v) Hw) as [H|[_ H]].
      + lia.
      + rewrite E. by rewrite lookup_app_l.
      + rewrite E. rewrite lookup_app_r by lia. by replace (length T + b - length T)%nat with b by lia.
      + exact H.
      + cbn in H. lia.
    - intros H. rewrite <- Ho, E in Hin. apply elem_of_app in Hin as [Hin|Hin]; [done|]. exfalso. destruct Hpost as [->|(s & t & ->)]; [by apply elem_of_nil in Hin|].
      apply elem_of_cons in Hin as [[= -> _]|Hin]; [done|]. assert (H0 : (0, s) ∈ es) by (rewrite <- Ho, E; apply elem_of_app; right; left).
      destruct (wfe_zero _ _ Hw H0) as [v ->]. specialize (H v H0). apply elem_of_list_lookup in Hin as [b Hb].
      assert (Hbad : cmp (mx (Node e1)) (Z.of_N v) = true \/ (Z.of_N v = mx (Node e1) /\ 0 < c)).
      { apply (oe_lt es (length T) (length T + S b) (0, Leaf v) (c, Node e1) Hw).
        - lia.
        - rewrite E. rewrite lookup_app_r by lia. by rewrite Nat.sub_diag.
        - rewrite E. rewrite lookup_app_r by lia. by replace (length T + S b - length T)%nat with (S b) by lia. }
      destruct Hto as (T1 & T2 & T3). destruct Hbad as [Hbad|[Hbad _]].
      + pose proof (T2 _ _ _ H Hbad) as Hx. by rewrite T1 in Hx.
      + rewrite <- Hbad, T1 in H. done.
  Qed.
  Lemma rsum_in es k v : nodes_only es -> (k, v) ∈ rsum es <-> exists c e1 t, (c, Node e1) ∈ es /\ k = c :: t /\ (t, v) ∈ rents e1.
  Proof.
    intros Hno. change (rsum es) with (concat (map (fun e => map (fun kv : list N * N => (e.1 :: kv.1, kv.2)) (rent sort cmp e.2)) es)). rewrite elem_of_list_In, in_concat. split.
    - intros (x & Hx & Hk). apply in_map_iff in Hx as ([c s] & <- & Hin). apply elem_of_list_In in Hin, Hk. unfold nodes_only in Hno. rewrite Forall_forall in Hno.
      destruct (Hno _ Hin) as [_ [e1 E]]. cbn [fst snd] in *. subst s. apply elem_of_list_fmap_2 in Hk as ([t v'] & [= -> ->] & Hk). by exists c, e1, t.
    - intros (c & e1 & t & Hin & -> & Ht). eexists. split; [apply in_map_iff; exists (c, Node e1); split; [done|by apply elem_of_list_In]|]. apply elem_of_list_In. cbn [fst snd].
      by apply (elem_of_list_fmap_1 (fun kv : list N * N => (c :: kv.1, kv.2)) _ (t, v)).
  Qed.
  Lemma rents_in es k v : wfe es -> (k, v) ∈ rents es <-> (k, v) ∈ ent_es es /\ held cmp (zent es) k.
  Proof.
    revert es v. induction k as [|c k IH]; intros es v Hw; rewrite (rents_eq sort cmp es), elem_of_app, (rsum_in _ _ _ (vk_nodes sort cmp Hs es Hw)).
    - split.
      + intros [H|(? & ? & ? & _ & ? & _)]; [|done]. assert (Hv : (0, Leaf v) ∈ es).
        { destruct es as [|[[|q] [w|e]] es]; cbn in H; try (by apply elem_of_nil in H). apply elem_of_list_singleton in H as [= ->]. left. }
        assert (He : ([], v) ∈ ent_es es) by (apply (ent_in es [] v Hw); exists es; split; [constructor|done]).
        split; [done|]. split; [|intros [|] ? ? ? ?; done]. apply elem_of_list_fmap. exists ([], Z.of_N v). split; [done|]. apply zent_in. by exists v.
      + intros [H _]. left. apply (ent_in es [] v Hw) in H as (es' & Ht & H). inversion Ht; subst. rewrite (kids_val es' v Hw H). by left.
    - split.
      + intros [H|(c' & e1 & t & Hin & [= <- <-] & Ht)].
        { destruct es as [|[[|q] [w|e]] es]; cbn in H; try (by apply elem_of_nil in H). by apply elem_of_list_singleton in H. }
        pose proof (vk_in sort cmp Hs es _ Hw Hin) as Hin1. destruct (wfe_kid _ _ _ Hw Hin1) as (Hw1 & _ & Hc & _). apply (IH e1 v Hw1) in Ht as [Ht [H1 H2]].
        assert (He : (c :: k, v) ∈ ent_es es).
        { apply (ent_in e1 k v Hw1) in Ht as (es' & Ht & Hv). apply (ent_in es _ v Hw). exists es'. split; [by econstructor|done]. }
        split; [done|]. split; [apply elem_of_list_fmap; exists (c :: k, Z.of_N v); split; [done|]; apply zent_in; by exists v|].
        intros [|c' p] d t w Hk Hp; injection Hk as -> Hk.
        * apply (zent_nil es w Hw) in Hp as (n & -> & Hn). destruct (mx_below es d e1 Hw Hin1) as [(t' & Ht') _]. exists t', (mx (Node e1)). split; [exact Ht'|].
          by apply (proj1 (vk_iff es d e1 Hw Hin1) Hin).
        * apply (zent_cons es c' p w Hw) in Hp as (e1' & Hin' & Hp). pose proof (wfe_lab _ _ _ _ Hw Hin1 Hin') as [= <-].
          destruct (H2 p d t w Hk Hp) as (t' & v' & Ht' & Hv'). exists t', v'. split; [|done]. cbn [app]. apply (zent_cons es c' _ v' Hw). by exists e1.
      + intros [He [_ H2]]. right. apply (ent_in es _ v Hw) in He as (es' & Ht & Hv). inversion Ht as [|? ? e1 ? ? Hin Ht1]; subst.
        destruct (wfe_kid _ _ _ Hw Hin) as (Hw1 & _ & Hc & _). exists c, e1, k. split; [|split; [done|]].
        * apply (vk_iff es c e1 Hw Hin). intros w Hwv. destruct (H2 [] c k (Z.of_N w) eq_refl) as (t' & v' & Ht' & Hv').
          { apply (zent_nil es _ Hw). by exists w. }
          destruct (mx_below es c e1 Hw Hin) as [_ Hb]. specialize (Hb t' v' Ht'). destruct Hto as (T1 & T2 & T3).
          destruct (decide (mx (Node e1) = v')) as [E|E]; [by rewrite E|]. destruct (T3 _ _ E) as [?|E3]; [congruence|]. by apply (T2 _ v').
        * apply (IH e1 v Hw1). assert (He1 : (k, v) ∈ ent_es e1) by (apply (ent_in e1 k v Hw1); by exists es'). split; [done|].
          split; [apply elem_of_list_fmap; exists (k, Z.of_N v); split; [done|]; apply zent_in; by exists v|]. intros p d t w Hk Hp.
          destruct (H2 (c :: p) d t w) as (t' & v' & Ht' & Hv'); [by rewrite Hk|apply (zent_cons es c p w Hw); by exists e1|]. exists t', v'. split; [|done].
          cbn [app] in Ht'. apply (zent_cons es c _ v' Hw) in Ht' as (e1' & Hin' & Ht'). by pose proof (wfe_lab _ _ _ _ Hw Hin Hin') as [= <-].
  Qed.
  Lemma ahead_cons es c e1 k k' : wfe es -> (c, Node e1) ∈ es -> ahead cmp (zent e1) k k' -> ahead cmp (zent es) (c :: k) (c :: k').
  Proof.
    intros Hw Hin. assert (Hb : forall p v, best_below cmp (zent e1) p v -> best_below cmp (zent es) (c :: p) v).
    { intros p v [(q & Hq) H]. split.
      - exists q. cbn [app]. apply (zent_cons es c _ v Hw). by exists e1.
      - intros q' v' Hq'. cbn [app] in Hq'. apply (zent_cons es c _ v' Hw) in Hq' as (e1' & Hin' & Hq'). pose proof (wfe_lab _ _ _ _ Hw Hin Hin') as [= <-]. by apply (H q'). }
    intros [(t & Ht & ->)|(p & d & d' & s & t & v & w & -> & -> & Hv & Hw' & Hor)]; [left; by exists t|]. right. exists (c :: p), d, d', s, t, v, w.
    split; [done|]. split; [done|]. split; [by apply Hb|]. split; [by apply Hb|done].
  Qed.
  Lemma SS_app {A} (P : A -> A -> Prop) a b : StronglySorted P a -> StronglySorted P b -> (forall x y, x ∈ a -> y ∈ b -> P x y) -> StronglySorted P (a ++ b).
  Proof.
    intros Ha Hb. induction Ha as [|x a Ha IH Hx]; intros H; [done|]. cbn [app]. constructor.
    - apply IH. intros y z Hy Hz. apply H; [by right|done].
    - apply Forall_app. split; [done|]. apply Forall_forall. intros z Hz. apply H; [left|done].
  Qed.
  Lemma rents_sorted s : wf s -> forall es, s = Node es -> StronglySorted (ahead cmp (zent es)) (rents es).*1.
  Proof.
    induction s as [v|es0 IH] using sub_ind'; intros Hw es Hes; [done|]. injection Hes as ->. apply wf_wfe in Hw as [Hne Hw]. rewrite Forall_forall in IH.
    rewrite rents_eq, fmap_app. pose proof (vk_nodes sort cmp Hs es Hw) as Hno. apply SS_app.
    - destruct es as [|[[|q] [w|e]] es]; cbn; repeat constructor.
    - assert (Hall : forall vs pre, vk es = pre ++ vs -> nodes_only vs -> StronglySorted (ahead cmp (zent es)) (rsum vs).*1); [|by apply (Hall (vk es) [])].
      induction vs as [|[c s] vs IHv]; intros pre E Hn; [constructor|]. apply Forall_cons in Hn as [[Hc [e1 Hs1]] Hn]. cbn [fst snd] in *. subst s.
      assert (Hinv : (c, Node e1) ∈ vk es) by (rewrite E; apply elem_of_app; right; left). pose proof (vk_in sort cmp Hs es _ Hw Hinv) as Hin.
      destruct (wfe_in _ _ Hw Hin) as (Hws & _). cbn [snd] in Hws. rewrite rsum_cons, fmap_app. apply SS_app.
      + assert (E2 : (map (fun kv : list N * N => (c :: kv.1, kv.2)) (rent sort cmp (Node e1))).*1 = map (cons c) (rents e1).*1).
        { change (rents e1) with (rent sort cmp (Node e1)). change (map ?f ?l) with (f <$> l). rewrite <- !list_fmap_compose. by apply list_fmap_ext. }
        rewrite E2. pose proof (IH _ Hin Hws e1 eq_refl) as Hss. clear -Hss Hw Hin. induction Hss as [|x l Hl IHl Hx]; [constructor|]. cbn [map]. constructor; [done|].
        rewrite Forall_fmap. eapply Forall_impl; [exact Hx|]. cbn. intros y Hy. by apply (ahead_cons es c e1).
      + apply (IHv (pre ++ [(c, Node e1)])); [by rewrite <- app_assoc|done].
      + intros x y Hx Hy. apply elem_of_list_fmap in Hx as ([x' u] & -> & Hx), Hy as ([y' u'] & -> & Hy). cbn [fst]. apply elem_of_list_fmap_2 in Hx as ([x0 u0] & [= -> ->] & Hx).
        apply (rsum_in _ _ _ Hn) in Hy as (d & e2 & t & Hin2 & -> & _). right. apply elem_of_list_lookup in Hin2 as [b Hb].
        assert (Hind : (d, Node e2) ∈ es).
        { apply (vk_in sort cmp Hs es _ Hw). rewrite E. apply elem_of_app. right. right. by eapply elem_of_list_lookup_2. }
        exists [], c, d, x0, t, (mx (Node e1)), (mx (Node e2)). split; [done|]. split; [done|]. split; [by apply mx_below|]. split; [by apply mx_below|].
        destruct (tw_pre (oe es)) as (post & Eo & _). change (tw (oe es)) with (vk es) in Eo.
        apply (oe_lt es (length pre) (length pre + S b) (c, Node e1) (d, Node e2) Hw).
        * lia.
        * rewrite Eo, E, <- app_assoc. rewrite lookup_app_r, Nat.sub_diag by lia. done.
        * rewrite Eo, E, <- app_assoc. rewrite lookup_app_r by lia. replace (length pre + S b - length pre)%nat with (S b) by lia. cbn [app]. change ((?x :: ?l) !! S b) with (l !! b).
          rewrite lookup_app_l by (by eapply lookup_lt_Some). done.
    - intros x y Hx Hy. apply elem_of_list_fmap in Hx as ([x' u] & -> & Hx), Hy as ([y' u'] & -> & Hy). cbn [fst].
      apply (rsum_in _ _ _ Hno) in Hy as (d & e2 & t & _ & -> & _). left. exists (d :: t). split; [done|].
      destruct es as [|[[|q] [w|e]] es]; cbn in Hx; try (by apply elem_of_nil in Hx). by apply elem_of_list_singleton in Hx as [= -> _].
  Qed.
End held.
