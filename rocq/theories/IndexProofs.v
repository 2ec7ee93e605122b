(** Indices count the keys below each node, and give ranks. *)
From Verif Require Import Go Dawg LinkTableProofs DawgRep Tree TreeFacts DictDfs Dict DictInv DictBuild DictRead DictRep Guide GuideProofs Completer CompleterProofs Index LoopProofs.
Local Open Scope N_scope.
Local Arguments N.mul : simpl never.
Local Arguments N.add : simpl never.
Local Arguments N.of_nat : simpl never.
Local Arguments N.lxor : simpl never.

(** IndexToBytes with turns counted one by one. *)
Fixpoint ir_find_in (n : nat) (us : dict) (g : guide) (ix : list N) (w : N) (i child cur : N) : res (option (N * N * N)) :=
  if child =? 0 then Ok None else
  match n with
  | O => Hang
  | S n' =>
      '(ok, childIndex) ← dc_Follow us child i;
      if negb ok then Ok None else
      count ← ix_ChildCount ix childIndex;
      if w <? u32 (cur + count) then Ok (Some (child, childIndex, cur)) else
      s ← gd_Sibling g childIndex;
      ir_find_in n' us g ix w i s (u32 (cur + count))
  end.
Section descend.
  Context (F : N -> N -> N -> res (option (N * N * N))) (us : dict) (g : guide) (w : N).
  Definition level_by (s : N * N * list N) : res (N * N * list N + option (list N)) :=
    let '(i, cur, buf) := s in
    if w <? cur then Ok (inr None) else
    has ← dc_HasValue us i;
    if (has : bool) && (cur =? w) then Ok (inr (Some buf)) else
    let cur := if (has : bool) then u32 (cur + 1) else cur in
    child ← gd_Child g i;
    r ← F i child cur;
    match r with
    | None => Ok (inr None)
    | Some (l, j, cur) => Ok (inl (j, cur, buf ++ [l]))
    end.
  Fixpoint descend_by (fuel : nat) (i cur : N) (buf : list N) : res (option (list N)) :=
    match fuel with
    | O => Hang
    | S fuel' =>
        if w <? cur then Ok None else
        has ← dc_HasValue us i;
        if (has : bool) && (cur =? w) then Ok (Some buf) else
        let cur := if (has : bool) then u32 (cur + 1) else cur in
        child ← gd_Child g i;
        r ← F i child cur;
        match r with
        | None => Ok None
        | Some (l, j, cur) => descend_by fuel' j cur (buf ++ [l])
        end
    end.
End descend.
Notation ir_descend fuel us g ix w := (descend_by (ir_find_in 256 us g ix w) us g w fuel).
Lemma descend_turned F F' us g w r n : (forall i c cur r, F i c cur = Ok r -> F' i c cur = Ok r) -> forall i cur buf, descend_by F us g w n i cur buf = Ok r ->
  exists m s, (m < n)%nat /\ turned (level_by F' us g w) m (i, cur, buf) = Some s /\ level_by F' us g w s = Ok (inr r).
Proof.
  intros HF. induction n as [|n IH]; intros i cur buf; [done|]. cbn [descend_by].
  assert (El : forall s, level_by F' us g w (i, cur, buf) = Ok s -> (forall a, s = inr a -> r = a) -> (forall i cur buf, s = inl (i, cur, buf) -> descend_by F us g w n i cur buf = Ok r) ->
    exists m s, (m < S n)%nat /\ turned (level_by F' us g w) m (i, cur, buf) = Some s /\ level_by F' us g w s = Ok (inr r)).
  { intros [[[i' cur'] buf']|a] E H1 H2.
    - destruct (IH _ _ _ (H2 _ _ _ eq_refl)) as (m & s & Hm & Ht & Hl). exists (S m), s. split; [lia|]. split; [|done]. cbn [turned]. unfold next at 1. rewrite E. done.
    - exists O, (i, cur, buf). split; [lia|]. split; [done|]. by rewrite (H1 a eq_refl). }
  unfold level_by in El at 1. destruct (w <? cur); [intros [= <-]; apply (El (inr None)); naive_solver|].
  destruct (dc_HasValue us i) as [has| |]; cbn [mbind res_bind] in *; try done. destruct (has && (cur =? w)); [intros [= <-]; apply (El (inr (Some buf))); naive_solver|].
  cbv zeta in *. set (cur1 := if has then _ else _) in *. clearbody cur1. destruct (gd_Child g i) as [child| |]; cbn [mbind res_bind] in *; try done.
  destruct (F i child cur1) as [f| |] eqn:Ef; cbn [mbind res_bind]; try done. apply HF in Ef. rewrite Ef in El. cbn [mbind res_bind] in El.
  destruct f as [[[l j] cur2]|]; intros H; eapply El; naive_solver.
Qed.
Lemma find_in_turned us g ix w i r n : forall child cur, ir_find_in n us g ix w i child cur = Ok r ->
  exists m s, (m <= n)%nat /\ turned (ir_look us g ix w i) m (child, cur) = Some s /\ ir_look us g ix w i s = Ok (inr r).
Proof.
  induction n as [|n IH]; intros child cur; cbn [ir_find_in]; destruct (child =? 0) eqn:E0; [intros [= <-]; exists O, (child, cur); cbn; by rewrite E0|done| |].
  { intros [= <-]. exists O, (child, cur). split; [lia|]. cbn. by rewrite E0. }
  assert (El : ir_look us g ix w i (child, cur) = ('(ok, childIndex) ← dc_Follow us child i; if negb ok then Ok (inr None) else count ← ix_ChildCount ix childIndex;
    if w <? u32 (cur + count) then Ok (inr (Some (child, childIndex, cur))) else s ← gd_Sibling g childIndex; Ok (inl (s, u32 (cur + count))))) by (unfold ir_look; by rewrite E0).
  destruct (dc_Follow us child i) as [[ok j]| |]; cbn [mbind res_bind] in *; try discriminate. destruct ok; cbn [negb] in *; cycle 1.
  { intros [= <-]. exists O, (child, cur). split; [lia|done]. }
  destruct (ix_ChildCount ix j) as [c| |]; cbn [mbind res_bind] in *; try discriminate. destruct (w <? u32 (cur + c)).
  { intros [= <-]. exists O, (child, cur). split; [lia|done]. }
  destruct (gd_Sibling g j) as [s| |]; cbn [mbind res_bind] in *; try discriminate. intros (m & t & Hm & Ht & Hl)%IH.
  exists (S m), t. split; [lia|]. split; [|done]. cbn [turned]. unfold next at 1. rewrite El. done.
Qed.
Lemma two_pow a b : (a <= b)%nat -> (2 ^ a <= 2 ^ b)%nat.
Proof. intros H. apply Nat.pow_le_mono_r; [done|exact H]. Qed.
Lemma labels_pow k : (9 <= k)%nat -> (256 < 2 ^ k)%nat.
Proof. intros H. pose proof (two_pow 9 k H) as H2. assert (E : (2 ^ 9 = 512)%nat) by reflexivity. rewrite E in H2. lia. Qed.
Lemma find_in_ok us g ix w i child cur r : ir_find_in 256 us g ix w i child cur = Ok r -> ir_find us g ix w i child cur = Ok r.
Proof.
  intros (m & s & Hm & Ht & Hl)%find_in_turned. unfold ir_find. apply (loop_ok _ 40 m _ s); [done|done|].
  eapply Nat.le_lt_trans; [exact Hm|]. apply labels_pow. repeat constructor.
Qed.
Lemma size_units (us : dict) : (length us < 2 ^ N.size_nat (N.of_nat (length us)))%nat.
Proof.
  pose proof (N.size_gt (N.of_nat (length us))) as H. assert (E : N.size (N.of_nat (length us)) = N.of_nat (N.size_nat (N.of_nat (length us)))).
  { destruct (N.of_nat (length us)) as [|p]; [done|]. change (N.pos (Pos.size p) = N.of_nat (Pos.size_nat p)). clear H. induction p as [p IH|p IH|]; cbn [Pos.size Pos.size_nat]; lia. }
  rewrite E, <- (Nat2N.inj_pow 2) in H. revert H. generalize (2 ^ N.size_nat (N.of_nat (length us)))%nat. lia.
Qed.
Lemma IndexToBytes_in us g ix w r : ir_descend (S (length us)) us g ix w 0 0 [] = Ok r -> ir_IndexToBytes us g ix w = Ok r.
Proof.
  intros H. destruct (descend_turned _ (ir_find us g ix w) us g w r _ (find_in_ok us g ix w) _ _ _ H) as (m & s & Hm & Ht & Hl).
  apply (loop_ok (level_by (ir_find us g ix w) us g w) _ m _ s r Ht Hl). pose proof (size_units us).
  eapply Nat.lt_le_trans; [|apply (two_pow (N.size_nat (N.of_nat (length us)))); apply Nat.le_add_r]. lia.
Qed.

Notation cnt es := (N.of_nat (length (ent_es es))).
Lemma ent_es_app a b : ent_es (a ++ b) = ent_es a ++ ent_es b.
Proof. unfold ent_es. by rewrite map_app, concat_app. Qed.
Lemma cnt_cons l e1 post : l <> 0 -> length (ent_es ((l, Node e1) :: post)) = (length (ent_es e1) + length (ent_es post))%nat.
Proof. intros Hl. rewrite ent_es_cons by done. by rewrite app_length, map_length. Qed.
Lemma cnt_pos es : wf (Node es) -> (0 < length (ent_es es))%nat.
Proof. intros Hw. apply ent_ne in Hw. rewrite ent_node in Hw. destruct (ent_es es); [done|]. cbn. lia. Qed.
Lemma cnt_kids es : wfe es -> length (ent_es es) = ((if has0 es then 1 else 0) + length (ent_es (kids es)))%nat.
Proof.
  intros Hw. destruct (has0 es) eqn:E.
  - apply (has0_in es Hw) in E as [v Hv]. rewrite (kids_val es v Hw Hv) at 1. done.
  - destruct es as [|[[|] s] es]; done.
Qed.
Lemma ent_kids es : wfe es -> ent_es es = (match es with (0, Leaf v) :: _ => [([], v)] | _ => [] end) ++ ent_es (kids es).
Proof.
  intros Hw. destruct (wfe_shape es Hw) as [(v & es' & -> & _)|[_ E]]; [done|]. by destruct es as [|[[|] s] es].
Qed.
Lemma labels_short (ls : list N) : NoDup ls -> Forall (fun l => l < 256) ls -> (length ls <= 256)%nat.
Proof.
  intros Hnd Hl. rewrite <- (seq_length 256 0), <- (fmap_length N.to_nat). apply submseteq_length, NoDup_submseteq.
  - apply NoDup_fmap_2; [intros ? ? ?; lia|done].
  - intros n Hn. apply elem_of_list_fmap_2 in Hn as (l & -> & Hin). rewrite Forall_forall in Hl. apply Hl in Hin. apply elem_of_seq. lia.
Qed.
Lemma kids_short es : wfe es -> (length (kids es) <= 256)%nat.
Proof.
  intros Hw. rewrite <- (fmap_length fst), <- kids_nzl by done. apply labels_short; [by apply nzl_nodup|].
  apply Forall_forall. intros l Hl. apply (nzl_in es l Hw) in Hl as [es' Hl]. by apply (wfe_kid _ _ _ Hw) in Hl as (_ & _ & _ & ?).
Qed.
(** Edges of nodes: only nodes behind non-zero labels. *)
Definition nodes_only (es : edges) : Prop := Forall (fun e => e.1 <> 0 /\ exists e1, e.2 = Node e1) es.
Lemma kids_nodes es : wfe es -> nodes_only (kids es).
Proof.
  intros Hw. pose proof (kids_head es Hw) as H0. destruct (kids_in es) as [pre He]. unfold nodes_only. rewrite Forall_forall in *. intros [l s] Hin.
  specialize (H0 _ Hin). cbn [fst snd] in *. split; [done|]. destruct s as [v|e1]; [|by exists e1].
  destruct (wfe_leaf es l v Hw) as [? _]; [rewrite He; apply elem_of_app; by right|done].
Qed.

Section index.
  Context (us : dict) (R : edges) (node : N -> edges -> Prop) (HN : drep us R node) (g : guide) (HG : grep us node g).
  Context (Hlim : cnt R < two32).
  Local Notation fol l i j := (dc_Follow us l i = Ok (true, j)).
  Notation gx ix i := (default 0 ((ix : list N) !! N.to_nat i)).

  Lemma node_cnt i es : node i es -> 0 < cnt es < two32.
  Proof.
    intros Hn. pose proof (cnt_pos es (rp_wf _ _ _ HN _ _ Hn)). split; [lia|]. destruct (rp_reach _ _ _ HN _ _ Hn) as (p & Ht & _).
    assert (Hle : (length (ent_es es) <= length (ent_es R))%nat); [|lia].
    assert (Hg : forall a p b, tnode a p b -> wfe a -> (length (ent_es b) <= length (ent_es a))%nat).
    { clear. induction 1 as [|a l a1 p b H1 H2 IH]; intros Hw; [lia|]. destruct (wfe_kid _ _ _ Hw H1) as (Hw1 & _ & Hl & _). specialize (IH Hw1).
      apply elem_of_list_split in H1 as (x & y & ->). rewrite ent_es_app, app_length, cnt_cons by done. lia. }
    eapply Hg; [exact Ht|]. by apply (wfn us R node HN 0), HN.
  Qed.
  Lemma get_gx ix i : i < N.of_nat (length ix) -> get ix i = Ok (gx ix i).
  Proof. intros Hi. unfold get. destruct (lookup_lt_is_Some_2 ix (N.to_nat i)) as [x ->]; [lia|]. done. Qed.
  Lemma upd_gx ix i f : i < N.of_nat (length ix) -> exists ix', upd ix i f = Ok ix' /\ length ix' = length ix /\
    forall j, gx ix' j = if j =? i then f (gx ix j) else gx ix j.
  Proof.
    intros Hi. destruct (lookup_lt_is_Some_2 ix (N.to_nat i)) as [u Hu]; [lia|]. rewrite (upd_N _ _ _ u Hu). eexists. split; [done|].
    split; [apply insert_length|]. intros j. destruct (N.eqb_spec j i) as [->|Hne].
    - rewrite list_lookup_insert by (by eapply lookup_lt_Some). by rewrite Hu.
    - rewrite list_lookup_insert_ne by lia. done.
  Qed.
  Record ii (ix : list N) (S : list N) : Prop := mkII {
    ii_len : length ix = length us;
    ii_done : forall i es, node i es -> i ∉ S -> gx ix i = 0 \/
      (gx ix i = cnt es /\ forall l e1 j, (l, Node e1) ∈ es -> fol l i j -> gx ix j = cnt e1 /\ j ∉ S) }.
  Definition iext (S : list N) (ix ix' : list N) : Prop := forall j, gx ix j <> 0 \/ j ∈ S -> gx ix' j = gx ix j.
  Lemma ii_upd ix ix' S i : ii ix (i :: S) -> length ix' = length ix -> (forall j, j <> i -> gx ix' j = gx ix j) -> ii ix' (i :: S).
  Proof.
    intros [A1 A2] Hl Hg. constructor; [congruence|]. intros i' es Hn Hni. destruct (A2 _ _ Hn Hni) as [E|[E Hk]].
    - left. rewrite Hg; [done|]. intros ->. apply Hni. left.
    - right. split; [rewrite Hg; [done|]; intros ->; apply Hni; left|]. intros l e1 j Hl1 Hf. destruct (Hk _ _ _ Hl1 Hf) as [B1 B2].
      split; [|done]. rewrite Hg; [done|]. intros ->. apply B2. left.
  Qed.
  Lemma build_call fuel : forall S ix i es, (hgt (Node es) <= fuel)%nat -> node i es -> ii ix S -> gx ix i = 0 -> i ∉ S ->
    (forall s es', s ∈ S -> node s es' -> (hgt (Node es) < hgt (Node es'))%nat) ->
    exists ix', ib_buildIndices fuel us g ix i = Ok (true, ix') /\ ii ix' S /\ iext S ix ix' /\ gx ix' i = cnt es.
  Proof.
    induction fuel as [|fuel IH]; intros S ix i es Hh Hn HI Hi0 HiS HS; [pose proof (hgt_pos (Node es)); lia|].
    cbn [ib_buildIndices]. pose proof (rp_lt _ _ _ HN _ _ Hn) as Hi. pose proof (wfn us R node HN i es Hn) as Hw. pose proof (node_cnt _ _ Hn) as Hcnt.
    rewrite (rp_has _ _ _ HN _ _ Hn). cbn [mbind res_bind].
    assert (HI0 : ii ix (i :: S)).
    { destruct HI as [A1 A2]. constructor; [done|]. intros i' es' Hn' Hni. apply not_elem_of_cons in Hni as [Hne Hni].
      destruct (A2 _ _ Hn' Hni) as [E|[E Hk]]; [by left|]. right. split; [done|]. intros l e1 j Hl Hf. destruct (Hk _ _ _ Hl Hf) as [B1 B2].
      split; [done|]. apply not_elem_of_cons. split; [|done]. intros ->.
      destruct (rp_kid _ _ _ HN _ _ _ _ Hn' Hl) as (j' & Hf' & Hj' & _). rewrite Hf in Hf'. injection Hf' as <-.
      rewrite (rp_fun _ _ _ HN _ _ _ Hj' Hn) in B1. rewrite Hi0 in B1. lia. }
    assert (Hstart : exists ix1, (if has0 es then upd ix i (fun x => u32 (x + 1)) else Ok ix) = Ok ix1 /\ ii ix1 (i :: S) /\
      (forall j, j <> i -> gx ix1 j = gx ix j) /\ gx ix1 i = N.of_nat (if has0 es then 1 else 0)).
    { destruct (has0 es).
      - destruct (upd_gx ix i (fun x => u32 (x + 1))) as (ix1 & -> & Hl & Hg1); [rewrite (ii_len _ _ HI); lia|]. exists ix1. split; [done|].
        assert (Hg' : forall j, j <> i -> gx ix1 j = gx ix j) by (intros j Hj; rewrite Hg1; by rewrite (proj2 (N.eqb_neq _ _) Hj)).
        split; [by eapply ii_upd|]. split; [done|]. rewrite Hg1, N.eqb_refl, Hi0. done.
      - exists ix. split; [done|]. split; [done|]. split; [done|]. by rewrite Hi0. }
    destruct Hstart as (ix1 & -> & HI1 & Hg1 & Hi1). cbn [mbind res_bind]. rewrite (gr_child _ _ _ HG _ _ Hn), (kids_nzl es Hw). cbn [mbind res_bind].
    assert (Hloop : forall rest pre n ix2, es = pre ++ rest -> nodes_only rest -> (length rest <= n)%nat -> ii ix2 (i :: S) -> iext S ix ix2 ->
      gx ix2 i + cnt rest = cnt es -> (forall l e1 j, (l, Node e1) ∈ pre -> fol l i j -> gx ix2 j = cnt e1 /\ j ∉ i :: S) ->
      exists ix', ib_loop (ib_buildIndices fuel us g) us g i n ix2 (hd 0 rest.*1) = Ok (true, ix') /\ ii ix' S /\ iext S ix ix' /\ gx ix' i = cnt es).
    { clear ix1 HI1 Hg1 Hi1. induction rest as [|[l s] post IHr]; intros pre n ix2 He Hno Hln HI2 HE2 Hsum Hpre.
      - exists ix2. destruct n; cbn [ib_loop fmap list_fmap hd]; change (0 =? 0) with true; cbn iota; (split; [done|]);
          (assert (Hfin : gx ix2 i = cnt es) by (cbn in Hsum; lia)); (split; [|done]); destruct HI2 as [A1 A2]; (constructor; [done|]);
          intros i' es' Hn' Hni; (destruct (decide (i' = i)) as [->|Hne];
          [right; rewrite (rp_fun _ _ _ HN _ _ _ Hn' Hn); split; [done|]; intros l e1 j Hl Hf; rewrite app_nil_r in He; rewrite He in Hl;
             destruct (Hpre _ _ _ Hl Hf) as [B1 B2]; split; [done|]; by apply not_elem_of_cons in B2 as [_ ?]
          |destruct (A2 _ _ Hn') as [E|[E Hk]]; [by apply not_elem_of_cons|by left|]; right; split; [done|]; intros l e1 j Hl Hf;
             destruct (Hk _ _ _ Hl Hf) as [B1 B2]; split; [done|]; by apply not_elem_of_cons in B2 as [_ ?]]).
      - apply Forall_cons in Hno as [[Hl0 [e1 Hs]] Hno]. cbn [fst snd] in Hl0, Hs. subst s. destruct n as [|n]; [cbn in Hln; lia|].
        assert (Hin : (l, Node e1) ∈ es) by (rewrite He; apply elem_of_app; right; left).
        destruct (rp_kid _ _ _ HN _ _ _ _ Hn Hin) as (j & Hf & Hj & Hj0). cbn [ib_loop fmap list_fmap hd fst]. rewrite (proj2 (N.eqb_neq _ _) Hl0).
        rewrite Hf. cbn [mbind res_bind negb]. pose proof (rp_lt _ _ _ HN _ _ Hj) as Hjl. rewrite (get_gx ix2 j) by (rewrite (ii_len _ _ HI2); done).
        cbn [mbind res_bind]. pose proof (hgt_in _ _ _ Hin) as Hhl.
        assert (HjS : j ∉ i :: S).
        { intros Hc. assert (hgt (Node e1) < hgt (Node e1))%nat; [|lia]. apply elem_of_cons in Hc as [->|Hc].
          - by rewrite (rp_fun _ _ _ HN _ _ _ Hj Hn) in Hhl |- *.
          - specialize (HS _ _ Hc Hj). lia. }
        pose proof HjS as [Hji _]%not_elem_of_cons.
        assert (Hrec : exists ix3, (if gx ix2 j =? 0 then ib_buildIndices fuel us g ix2 j else Ok (true, ix2)) = Ok (true, ix3) /\
          ii ix3 (i :: S) /\ iext (i :: S) ix2 ix3 /\ gx ix3 j = cnt e1).
        { destruct (N.eqb_spec (gx ix2 j) 0) as [E|E].
          - apply IH; [lia|done|done|done|done|]. intros s' es' Hs' Hns'. apply elem_of_cons in Hs' as [->|Hs']; [by rewrite (rp_fun _ _ _ HN _ _ _ Hns' Hn)|].
            specialize (HS _ _ Hs' Hns'). lia.
          - exists ix2. split; [done|]. split; [done|]. split; [by intros ? ?|]. destruct (ii_done _ _ HI2 _ _ Hj HjS) as [?|[? _]]; done. }
        destruct Hrec as (ix3 & -> & HI3 & HE3 & Hg3). cbn [mbind res_bind negb]. rewrite (get_gx ix3 j) by (rewrite (ii_len _ _ HI3); done).
        cbn [mbind res_bind]. rewrite Hg3. destruct (upd_gx ix3 i (fun x => u32 (x + cnt e1))) as (ix4 & -> & Hl4 & Hg4); [rewrite (ii_len _ _ HI3); done|].
        cbn [mbind res_bind]. rewrite (gr_sib _ _ _ HG _ _ _ _ _ Hn Hin Hf). cbn [mbind res_bind]. rewrite (nxt_split es pre l e1 post Hw He).
        assert (Hg4' : forall j, j <> i -> gx ix4 j = gx ix3 j) by (intros j' Hj'; rewrite Hg4; by rewrite (proj2 (N.eqb_neq _ _) Hj')).
        assert (Hi3 : gx ix3 i = gx ix2 i) by (apply HE3; right; left). rewrite cnt_cons in Hsum by done.
        assert (Hi4 : gx ix4 i = gx ix2 i + cnt e1) by (rewrite Hg4, N.eqb_refl, Hi3; apply u32_id; lia).
        apply (IHr (pre ++ [(l, Node e1)]) n ix4).
        + by rewrite <- app_assoc.
        + done.
        + cbn in Hln. lia.
        + by eapply ii_upd.
        + intros j' Hj'. destruct (N.eq_dec j' i) as [->|Hne]; [destruct Hj' as [?|?]; done|]. rewrite Hg4' by done. rewrite HE3; [by apply HE2|].
          destruct Hj' as [Hj'|Hj']; [left; rewrite HE2; [done|by left]|right; by right].
        + rewrite Hi4. lia.
        + intros l' e' j' Hl' Hf'. apply elem_of_app in Hl' as [Hl'|Hl'].
          * destruct (Hpre _ _ _ Hl' Hf') as [B1 B2]. split; [|done]. pose proof B2 as [B3 _]%not_elem_of_cons. rewrite Hg4' by done. rewrite HE3; [done|].
            left. rewrite B1. assert (Hin' : (l', Node e') ∈ es) by (rewrite He; apply elem_of_app; by left).
            destruct (rp_kid _ _ _ HN _ _ _ _ Hn Hin') as (j2 & Hf2 & Hj2 & _). pose proof (node_cnt _ _ Hj2). lia.
          * apply elem_of_list_singleton in Hl' as [= -> ->]. rewrite Hf in Hf'. injection Hf' as <-. split; [|done]. by rewrite Hg4'. }
    destruct (kids_in es) as [pre He]. apply (Hloop (kids es) pre 256%nat ix1).
    - done.
    - by apply kids_nodes.
    - by apply kids_short.
    - done.
    - intros j Hj. apply Hg1. intros ->. destruct Hj; done.
    - rewrite Hi1, (cnt_kids es Hw). lia.
    - intros l e1 j Hl _. exfalso. assert (Hin : (l, Node e1) ∈ es) by (rewrite He; apply elem_of_app; by left).
      assert (Hnil : pre = [] \/ exists s, pre = [(0, s)]).
      { clear -He. destruct es as [|[[|q] s] es]; cbn [kids] in He.
        - destruct pre; [by left|done].
        - right. exists s. change ((0, s) :: es) with ([(0, s)] ++ es) in He. by apply app_inv_tail in He.
        - left. apply (app_inv_tail ((N.pos q, s) :: es) [] pre) in He. done. }
      destruct Hnil as [->|[s ->]]; [by apply elem_of_nil in Hl|]. apply elem_of_list_singleton in Hl as [= -> <-].
      destruct (wfe_kid _ _ _ Hw Hin) as (_ & _ & ? & _). done.
  Qed.
  Lemma BuildIndex_ok : exists ix, BuildIndex us g = Ok (Some ix) /\ length ix = length us /\ forall i es, node i es -> get ix i = Ok (cnt es).
  Proof.
    unfold BuildIndex. assert (Hz : forall i, gx (replicate (length us) 0) i = 0).
    { intros i. destruct (replicate (length us) 0 !! N.to_nat i) eqn:E; [|done]. apply lookup_replicate in E as [-> _]. done. }
    destruct (build_call (S (length us)) [] (replicate (length us) 0) 0 R) as (ix & -> & HI & _ & H0).
    - apply (hgt_units us R node HN 0), HN.
    - apply HN.
    - constructor; [apply replicate_length|]. intros i es _ _. left. apply Hz.
    - apply Hz.
    - by intros H%elem_of_nil.
    - intros s es' Hs. by apply elem_of_nil in Hs.
    - cbn [mbind res_bind]. exists ix. split; [done|]. split; [apply HI|]. intros i es Hn. pose proof (rp_lt _ _ _ HN _ _ Hn) as Hi.
      rewrite get_gx by (rewrite (ii_len _ _ HI); done). f_equal. destruct (rp_reach _ _ _ HN _ _ Hn) as (p & Ht & Hf).
      assert (Hstep : forall es0 p es, tnode es0 p es -> forall i0 i, node i0 es0 -> gx ix i0 = cnt es0 -> dc_FollowString us p i0 = Ok (true, i) -> gx ix i = cnt es).
      { clear -HN HI Hlim. induction 1 as [|es0 l es1 p es H1 H2 IH]; intros i0 i Hn Hf0 Hfo; [cbn in Hfo; congruence|]. cbn [dc_FollowString] in Hfo.
        destruct (rp_kid _ _ _ HN _ _ _ _ Hn H1) as (j & Hj & Hnj & _). rewrite Hj in Hfo. cbn [mbind res_bind] in Hfo.
        eapply IH; [exact Hnj| |exact Hfo]. destruct (ii_done _ _ HI _ _ Hn) as [E|[_ B]]; [by intros H%elem_of_nil| |by apply (B l es1)].
        pose proof (node_cnt _ _ Hn). rewrite E in Hf0. lia. }
      eapply Hstep; [exact Ht|apply HN|done|done].
  Qed.

  (** ** The indexer *)
  Context (ix : list N) (HX : forall i es, node i es -> get ix i = Ok (cnt es)).
  Lemma kid_facts i es pre l e1 post : node i es -> es = pre ++ (l, Node e1) :: post -> exists j, fol l i j /\ node j e1 /\ get ix j = Ok (cnt e1) /\
    gd_Sibling g j = Ok (hd 0 post.*1).
  Proof.
    intros Hn He. assert (Hin : (l, Node e1) ∈ es) by (rewrite He; apply elem_of_app; right; left).
    destruct (rp_kid _ _ _ HN _ _ _ _ Hn Hin) as (j & Hf & Hj & _). exists j. split; [done|]. split; [done|]. split; [by apply HX|].
    rewrite (gr_sib _ _ _ HG _ _ _ _ _ Hn Hin Hf). f_equal. apply (nxt_split es pre l e1 post); [by apply (wfn us R node HN i)|done].
  Qed.
  Lemma skip_ok i es c tl : node i es -> (forall l s t, tl = (l, s) :: t -> l = 0 \/ c <= l) -> forall mid p0 n r, es = p0 ++ mid ++ tl -> nodes_only mid ->
    Forall (fun e => e.1 < c) mid -> (length mid <= n)%nat -> r + cnt mid < two32 ->
    ir_skip n us g ix i c (hd 0 (mid ++ tl).*1) r = Ok (Some (hd 0 tl.*1, r + cnt mid)).
  Proof.
    intros Hn Htl. induction mid as [|[l s] mid IH]; intros p0 n r He Hno Hlt Hlen Hr.
    - cbn [app]. replace (r + cnt []) with r by (cbn; lia). assert (E : (hd 0 tl.*1 <? c) && negb (hd 0 tl.*1 =? 0) = false).
      { destruct tl as [|[l s] t]; cbn [fmap list_fmap hd fst]; [by rewrite andb_false_r|]. destruct (Htl l s t eq_refl) as [->|Hc]; [by rewrite andb_false_r|].
        by rewrite (proj2 (N.ltb_ge _ _) Hc). }
      destruct n; cbn [ir_skip]; by rewrite E.
    - apply Forall_cons in Hno as [[Hl0 [e1 Hs]] Hno]. apply Forall_cons in Hlt as [Hl Hlt]. cbn [fst snd] in *. subst s.
      destruct n as [|n]; [cbn in Hlen; lia|]. cbn [app fmap list_fmap hd fst ir_skip]. rewrite (proj2 (N.ltb_lt _ _) Hl), (proj2 (N.eqb_neq _ _) Hl0).
      cbn [andb negb]. destruct (kid_facts i es p0 l e1 (mid ++ tl) Hn He) as (j & -> & Hj & Hc & Hsb). cbn [mbind res_bind negb].
      unfold ix_ChildCount. rewrite Hc. cbn [mbind res_bind]. rewrite Hsb. cbn [mbind res_bind]. rewrite cnt_cons in Hr |- * by done.
      rewrite u32_id by lia. rewrite (IH (p0 ++ [(l, Node e1)]) n (r + cnt e1)).
      + do 3 f_equal. lia.
      + by rewrite <- app_assoc.
      + done.
      + done.
      + cbn in Hlen. lia.
      + lia.
  Qed.
  Lemma split_at (es : edges) c : asc es -> exists pre tl, es = pre ++ tl /\ Forall (fun e => e.1 < c) pre /\ Forall (fun e => c <= e.1) tl.
  Proof.
    unfold asc. induction es as [|e es IH]; intros Ha; [by exists [], []|]. cbn [fmap list_fmap] in Ha. apply StronglySorted_inv in Ha as [Ha Hall].
    destruct (N.lt_ge_cases e.1 c) as [Hlt|Hge].
    - destruct (IH Ha) as (pre & tl & -> & H1 & H2). exists (e :: pre), tl. split; [done|]. split; [by constructor|done].
    - exists [], (e :: es). split; [done|]. split; [constructor|]. constructor; [done|]. rewrite Forall_fmap in Hall. eapply Forall_impl; [exact Hall|].
      intros e' He'. cbn in He'. lia.
  Qed.
  Lemma asc_app (a b : edges) : asc (a ++ b) -> asc b.
  Proof. unfold asc. rewrite fmap_app. induction a as [|x a IH]; [done|]. intros H. apply StronglySorted_inv in H as [H _]. by apply IH. Qed.
  (** One step of BytesToIndex. *)
  Lemma walk_step i es c rest r : node i es -> r + cnt es < two32 -> exists pre tl, kids es = pre ++ tl /\ Forall (fun e => e.1 < c) pre /\ Forall (fun e => c <= e.1) tl /\
    ir_walk us g ix (c :: rest) i r = match tl with [] => Ok NotFound | _ =>
      '(ok, j) ← dc_Follow us c i; if negb ok then Ok NotFound else ir_walk us g ix rest j (r + (if has0 es then 1 else 0) + cnt pre) end.
  Proof.
    intros Hn Hr. pose proof (wfn us R node HN i es Hn) as Hw. destruct (kids_in es) as [p0 He].
    destruct (split_at (kids es) c) as (pre & tl & Hk & H1 & H2); [apply (asc_app p0); rewrite <- He; apply Hw|]. exists pre, tl. split; [done|]. split; [done|]. split; [done|].
    pose proof (kids_nodes es Hw) as Hno. rewrite Hk in Hno. apply Forall_app in Hno as [Hno1 Hno2]. pose proof (kids_short es Hw) as Hsh. rewrite Hk, app_length in Hsh.
    cbn [ir_walk]. rewrite (rp_has _ _ _ HN _ _ Hn). cbn [mbind res_bind]. rewrite (gr_child _ _ _ HG _ _ Hn), (kids_nzl es Hw). cbn [mbind res_bind].
    rewrite (cnt_kids es Hw), Hk, ent_es_app, app_length in Hr.
    assert (Hr1 : (if has0 es then u32 (r + 1) else r) = r + (if has0 es then 1 else 0)) by (destruct (has0 es); [apply u32_id; lia|lia]). rewrite Hr1, Hk.
    rewrite (skip_ok i es c tl Hn) with (p0 := p0).
    - cbn [mbind res_bind]. destruct tl as [|[l s] tl]; [done|]. apply Forall_cons in Hno2 as [[Hl _] _]. cbn [fst] in Hl.
      cbn [fmap list_fmap hd fst]. by rewrite (proj2 (N.eqb_neq _ _) Hl).
    - intros l s t ->. apply Forall_cons in H2 as [H2 _]. by right.
    - by rewrite <- Hk.
    - done.
    - done.
    - lia.
    - destruct (has0 es); lia.
  Qed.
  Lemma lookup_kids es n c k v : nodes_only es -> ent_es es !! n = Some (c :: k, v) -> exists pre e1 post m, es = pre ++ (c, Node e1) :: post /\
    n = (length (ent_es pre) + m)%nat /\ ent_es e1 !! m = Some (k, v).
  Proof.
    revert n. induction es as [|[l s] es IH]; intros n Hno Hn; [done|]. apply Forall_cons in Hno as [[Hl [e1 Hs]] Hno]. cbn [fst snd] in *. subst s.
    rewrite ent_es_cons in Hn by done. destruct (decide (n < length (ent_es e1))%nat) as [Hlt|Hge].
    - rewrite lookup_app_l in Hn by (by rewrite map_length). change (map ?f ?x) with (f <$> x) in Hn. rewrite list_lookup_fmap in Hn.
      destruct (ent_es e1 !! n) as [[k' v']|] eqn:E; [|done]. cbn in Hn. injection Hn as -> -> ->. exists [], e1, es, n. done.
    - rewrite lookup_app_r in Hn by (rewrite map_length; lia). rewrite map_length in Hn.
      destruct (IH _ Hno Hn) as (pre & e2 & post & m & -> & Hm & He). exists ((l, Node e1) :: pre), e2, post, m. split; [done|]. split; [|done].
      rewrite cnt_cons by done. lia.
  Qed.
  Lemma rank_ok k : forall i es n v r, node i es -> ent_es es !! n = Some (k, v) -> r + cnt es < two32 ->
    ir_walk us g ix k i r = Ok (r + N.of_nat n).
  Proof.
    induction k as [|c k IH]; intros i es n v r Hn Hk Hr; pose proof (wfn us R node HN i es Hn) as Hw.
    - assert (Hnil : forall n v, ent_es (kids es) !! n <> Some ([], v)).
      { intros n' v' H. apply elem_of_list_lookup_2 in H. apply elem_ent_es in H as ([l s] & Hin & H). pose proof (kids_nodes es Hw) as Hno.
        unfold nodes_only in Hno. rewrite Forall_forall in Hno. destruct (Hno _ Hin) as [Hl _]. cbn [fst] in Hl. unfold ent_e in H. cbn [fst snd] in H.
        rewrite (proj2 (N.eqb_neq _ _) Hl) in H. apply elem_of_list_fmap_2 in H as ([] & ? & _). done. }
      rewrite (ent_kids es Hw) in Hk. cbn [ir_walk]. rewrite (rp_has _ _ _ HN _ _ Hn). cbn [mbind res_bind]. destruct es as [|[[|q] [w|e1]] es]; cbn [app kids] in *;
        try (exfalso; by eapply Hnil). cbn [has0]. destruct n; [f_equal; lia|]. exfalso. by eapply (Hnil n).
    - assert (exists m, n = ((if has0 es then 1 else 0) + m)%nat /\ ent_es (kids es) !! m = Some (c :: k, v)) as (m & -> & Hm).
      { rewrite (ent_kids es Hw) in Hk. destruct (wfe_shape es Hw) as [(w & es' & -> & _)|[_ E]]; [|exists n; by destruct es as [|[[|] s] es]].
        cbn [kids app has0] in *. destruct n; [done|]. exists n. split; [done|]. exact Hk. }
      destruct (walk_step i es c k r Hn Hr) as (pre & tl & Hks & H1 & H2 & ->).
      destruct (lookup_kids (kids es) m c k v (kids_nodes es Hw) Hm) as (pre' & e1 & post & m' & Hks' & -> & Hm'). destruct (kids_in es) as [p0 He].
      assert (pre' = pre /\ tl = (c, Node e1) :: post) as [-> ->].
      { assert (Ha : asc (kids es)) by (apply (asc_app p0); rewrite <- He; apply Hw). rewrite Hks' in Hks, Ha. clear -Hks Ha H1 H2.
        revert pre' Hks Ha. induction H1 as [|e pre He _ IH]; intros [|e' pre'] Hks Ha; cbn [app] in *.
        - done.
        - subst tl. apply Forall_cons in H2 as [Hc _]. unfold asc in Ha. cbn [fmap list_fmap] in Ha. apply StronglySorted_inv in Ha as [_ Ha].
          rewrite fmap_app in Ha. apply Forall_app in Ha as [_ Ha]. apply Forall_cons in Ha as [Ha _]. cbn in Ha. lia.
        - injection Hks as <- Hks. cbn in He. lia.
        - injection Hks as <- Hks. unfold asc in Ha. cbn [fmap list_fmap] in Ha. apply StronglySorted_inv in Ha as [Ha _]. destruct (IH pre' Hks Ha) as [-> ->]. done. }
      rewrite Hks' in He. rewrite app_assoc in He. destruct (kid_facts i es _ _ _ _ Hn He) as (j & -> & Hj & _). cbn [mbind res_bind negb].
      pose proof (cnt_kids es Hw) as Hc. rewrite Hks', ent_es_app, app_length, cnt_cons in Hc by (by destruct (proj1 (Forall_app _ _ _) (eq_ind _ nodes_only (kids_nodes es Hw) _ Hks')) as [_ [[? _] _]%Forall_cons]).
      rewrite (IH j e1 m' v _ Hj Hm') by (destruct (has0 es); lia). f_equal. destruct (has0 es); lia.
  Qed.
  (** Absent strings. *)
  Lemma absent_ok (P : N -> Prop) : (forall i es c, node i es -> (forall e1, (c, Node e1) ∉ es) -> P c -> dc_Follow us c i = Ok (false, i)) ->
    forall q i es r, node i es -> r + cnt es < two32 -> (forall v, (q, v) ∉ ent_es es) ->
    (forall p c t es1, q = p ++ c :: t -> tnode es p es1 -> (forall e1, (c, Node e1) ∉ es1) -> P c) ->
    ir_walk us g ix q i r = Ok NotFound.
  Proof.
    intros Hmiss. induction q as [|c q IH]; intros i es r Hn Hr Hno Hc; pose proof (wfn us R node HN i es Hn) as Hw.
    - cbn [ir_walk]. rewrite (rp_has _ _ _ HN _ _ Hn). cbn [mbind res_bind]. destruct (has0 es) eqn:E; [|done]. exfalso.
      apply (has0_in es Hw) in E as [v E]. apply (Hno v). apply (ent_in es [] v Hw). exists es. split; [constructor|done].
    - destruct (walk_step i es c q r Hn Hr) as (pre & tl & Hks & H1 & H2 & ->). destruct tl as [|e tl]; [done|].
      assert (Hd : (exists e1, (c, Node e1) ∈ es) \/ (forall e1, (c, Node e1) ∉ es)).
      { destruct (decide (c ∈ nzl es)) as [Hin|Hin]; [left; by apply nzl_in|]. right. intros e1 He1. apply Hin. apply nzl_in; [done|by exists e1]. }
      destruct Hd as [[e1 He1]|Hd].
      + destruct (rp_kid _ _ _ HN _ _ _ _ Hn He1) as (j & -> & Hj & _). cbn [mbind res_bind negb]. apply (IH j e1).
        * done.
        * assert (Hle : (length (ent_es pre) + length (ent_es e1) <= length (ent_es (kids es)))%nat).
          { rewrite Hks, ent_es_app, app_length. enough (length (ent_es e1) <= length (ent_es (e :: tl)))%nat by lia.
            assert (Hin : (c, Node e1) ∈ e :: tl).
            { destruct (kids_in es) as [p0 He]. destruct (wfe_kid _ _ _ Hw He1) as (_ & _ & Hc0 & _).
              assert (Hk : (c, Node e1) ∈ kids es).
              { destruct es as [|[[|p] s] es']; cbn [kids]; [done| |done]. by apply elem_of_cons in He1 as [[= -> _]|?]. }
              rewrite Hks in Hk. apply elem_of_app in Hk as [Hk|Hk]; [|done]. rewrite Forall_forall in H1. apply H1 in Hk. cbn in Hk. lia. }
            destruct (wfe_kid _ _ _ Hw He1) as (_ & _ & Hc0 & _).
            apply elem_of_list_split in Hin as (x & y & ->). rewrite ent_es_app, app_length, cnt_cons by done. lia. }
          rewrite (cnt_kids es Hw) in Hr. destruct (has0 es); lia.
        * intros v Hv. apply (Hno v). apply (ent_in es (c :: q) v Hw). apply ent_in in Hv as (es' & Ht & Hl); [|by apply (wfn us R node HN j)].
          exists es'. split; [by econstructor|done].
        * intros p c' t es1 -> Ht. apply (Hc (c :: p) c' t es1 eq_refl). by econstructor.
      + rewrite (Hmiss i es c Hn Hd); [done|]. apply (Hc [] c q es eq_refl); [constructor|done].
  Qed.
  (** IndexToBytes. *)
  Lemma find_kid i es w : node i es -> forall rest p0 n cur, es = p0 ++ rest -> nodes_only rest -> (length rest <= n)%nat -> cur + cnt rest < two32 -> cur <= w ->
    (cur + cnt rest <= w /\ ir_find_in n us g ix w i (hd 0 rest.*1) cur = Ok None) \/
    (exists pre l e1 post j, rest = pre ++ (l, Node e1) :: post /\ l <> 0 /\ fol l i j /\ node j e1 /\ cur + cnt pre <= w < cur + cnt pre + cnt e1 /\
      ir_find_in n us g ix w i (hd 0 rest.*1) cur = Ok (Some (l, j, cur + cnt pre))).
  Proof.
    intros Hn. induction rest as [|[l s] rest IH]; intros p0 n cur He Hno Hlen Hc Hw.
    - left. split; [cbn; lia|]. by destruct n.
    - apply Forall_cons in Hno as [[Hl0 [e1 Hs]] Hno]. cbn [fst snd] in *. subst s. destruct n as [|n]; [cbn in Hlen; lia|].
      cbn [fmap list_fmap hd fst ir_find_in]. rewrite (proj2 (N.eqb_neq _ _) Hl0). destruct (kid_facts i es p0 l e1 rest Hn He) as (j & Hf & Hj & Hcx & Hsb).
      rewrite Hf. cbn [mbind res_bind negb]. unfold ix_ChildCount. rewrite Hcx. cbn [mbind res_bind]. rewrite cnt_cons in Hc |- * by done.
      rewrite u32_id by lia. destruct (N.ltb_spec w (cur + cnt e1)) as [Hlt|Hge].
      + right. exists [], l, e1, rest, j. replace (cur + cnt []) with cur by (cbn; lia). done.
      + rewrite Hsb. cbn [mbind res_bind]. destruct (IH (p0 ++ [(l, Node e1)]) n (cur + cnt e1)) as [[H1 H2]|(pre & l' & e' & post & j' & -> & Hl' & Hf' & Hj' & Hb & H2)].
        * by rewrite <- app_assoc.
        * done.
        * cbn in Hlen. lia.
        * lia.
        * lia.
        * left. split; [lia|done].
        * right. exists ((l, Node e1) :: pre), l', e', post, j'. rewrite cnt_cons by done. split; [done|]. split; [done|]. split; [done|]. split; [done|].
          split; [lia|]. rewrite H2. do 3 f_equal. lia.
  Qed.
  Lemma descend_ok fuel : forall i es cur buf w, node i es -> (hgt (Node es) <= fuel)%nat -> cur + cnt es < two32 -> cur <= w ->
    ir_descend fuel us g ix w i cur buf = Ok (match ent_es es !! N.to_nat (w - cur) with Some (k, _) => Some (buf ++ k) | None => None end).
  Proof.
    induction fuel as [|fuel IH]; intros i es cur buf w Hn Hh Hc Hcw; [pose proof (hgt_pos (Node es)); lia|]. pose proof (wfn us R node HN i es Hn) as Hw.
    cbn [descend_by]. rewrite (proj2 (N.ltb_ge _ _) Hcw). rewrite (rp_has _ _ _ HN _ _ Hn). cbn [mbind res_bind].
    destruct (has0 es && (cur =? w)) eqn:E.
    - apply andb_true_iff in E as [E1 E2]. apply N.eqb_eq in E2 as ->. rewrite N.sub_diag. apply (has0_in es Hw) in E1 as [v Hv].
      rewrite (kids_val es v Hw Hv). cbn. by rewrite app_nil_r.
    - rewrite (gr_child _ _ _ HG _ _ Hn), (kids_nzl es Hw). cbn [mbind res_bind]. rewrite (cnt_kids es Hw) in Hc.
      set (cur1 := if has0 es then u32 (cur + 1) else cur).
      assert (Hcur1 : cur1 = cur + (if has0 es then 1 else 0)) by (unfold cur1; destruct (has0 es); [apply u32_id; lia|lia]). clearbody cur1.
      assert (Hle : cur1 <= w) by (rewrite Hcur1; destruct (has0 es); [apply N.eqb_neq in E; lia|lia]).
      assert (Hent : ent_es es !! N.to_nat (w - cur) = ent_es (kids es) !! N.to_nat (w - cur1)).
      { destruct (has0 es) eqn:E0.
        - apply (has0_in es Hw) in E0 as [v Hv]. rewrite (kids_val es v Hw Hv) at 1. unfold ent_es at 1. cbn [map concat ent_e fst snd]. cbn [ent N.eqb app].
          replace (N.to_nat (w - cur)) with (S (N.to_nat (w - cur1))) by lia. done.
        - replace cur1 with cur by lia. f_equal. by destruct es as [|[[|] s] es]. }
      rewrite Hent. clear Hent E. destruct (kids_in es) as [p0 He].
      destruct (find_kid i es w Hn (kids es) p0 256 cur1 He (kids_nodes es Hw) (kids_short es Hw)) as [[H1 ->]|(pre & l & e1 & post & j & Hk & Hl & Hf & Hj & Hb & ->)].
      + destruct (has0 es); lia.
      + done.
      + cbn [mbind res_bind]. rewrite lookup_ge_None_2 by lia. done.
      + cbn [mbind res_bind]. assert (Hin : (l, Node e1) ∈ es) by (rewrite He, Hk; apply elem_of_app; right; apply elem_of_app; right; left).
        pose proof (hgt_in _ _ _ Hin). rewrite Hk, ent_es_app, app_length, cnt_cons in Hc by done.
        rewrite (IH j e1) by (done || lia || (destruct (has0 es); lia)).
        rewrite Hk, ent_es_app, lookup_app_r by lia. rewrite ent_es_cons by done. rewrite lookup_app_l by (rewrite map_length; lia).
        change (map ?f ?x) with (f <$> x). rewrite list_lookup_fmap.
        replace (N.to_nat (w - cur1) - length (ent_es pre))%nat with (N.to_nat (w - (cur1 + cnt pre))) by lia.
        destruct (ent_es e1 !! N.to_nat (w - (cur1 + cnt pre))) as [[k v]|]; [|done]. cbn. by rewrite <- app_assoc.
  Qed.
End index.
