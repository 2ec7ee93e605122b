(** A completer walks the entries below its start in order. *)
From Verif Require Import Go Tree TreeFacts DictDfs Dict DictInv DictBuild DictRead DictRep Guide GuideProofs Completer.
Local Open Scope N_scope.
Local Arguments N.mul : simpl never.
Local Arguments N.add : simpl never.
Local Arguments N.of_nat : simpl never.
Local Arguments N.lxor : simpl never.

(** Entries with a string put in front. *)
Notation pmap q L := (map (fun kv : list N * N => (q ++ kv.1, kv.2)) L).
Lemma pmap_nil L : pmap [] L = L.
Proof. induction L as [|[k v] L IH]; [done|]. cbn [map]. by rewrite IH. Qed.
Lemma pmap_pmap a b L : pmap a (pmap b L) = pmap (a ++ b) L.
Proof. rewrite map_map. apply map_ext. intros [k v]. cbn. by rewrite app_assoc. Qed.
Lemma ent_es_cons l e1 post : l <> 0 -> ent_es ((l, Node e1) :: post) = pmap [l] (ent_es e1) ++ ent_es post.
Proof. intros Hl. unfold ent_es at 1. cbn [map concat]. unfold ent_e at 1. cbn [fst snd]. rewrite (proj2 (N.eqb_neq _ _) Hl). done. Qed.
Lemma pmap_cons q l e1 post : l <> 0 -> pmap q (ent_es ((l, Node e1) :: post)) = pmap (q ++ [l]) (ent_es e1) ++ pmap q (ent_es post).
Proof. intros Hl. rewrite ent_es_cons by done. by rewrite map_app, pmap_pmap. Qed.

(** The edges other than the value. *)
Definition kids (es : edges) : edges := match es with (0, _) :: t => t | _ => es end.
Lemma kids_val es v : wfe es -> (0, Leaf v) ∈ es -> es = (0, Leaf v) :: kids es.
Proof.
  intros Hw H. destruct (wfe_shape es Hw) as [(v' & es' & -> & _ & Hw')|[_ E]].
  - by pose proof (wfe_lab _ _ _ _ Hw H (elem_of_list_here _ _)) as [= ->].
  - rewrite (proj2 (has0_in es Hw)) in E by (by exists v). done.
Qed.
Lemma kids_nzl es : wfe es -> nzl es = (kids es).*1.
Proof. intros Hw. destruct (wfe_shape es Hw) as [(v & es' & -> & -> & _)|[-> E]]; [done|]. by destruct es as [|[[|?] ?] es]. Qed.
Lemma kids_in es : exists pre, es = pre ++ kids es.
Proof. destruct es as [|[[|p] s] es]; [by exists []|by exists [(0, s)]|by exists []]. Qed.
Lemma post_head es pre l s post : wfe es -> es = pre ++ (l, s) :: post -> Forall (fun e => e.1 <> 0) post.
Proof.
  intros Hw ->. induction pre as [|e pre IH]; cbn [app] in *.
  - apply wfe_cons in Hw as (_ & _ & _ & _ & H). eapply Forall_impl; [exact H|]. intros e He. cbn in He. lia.
  - apply wfe_cons in Hw as (Hw & _). by apply IH.
Qed.
Lemma kids_head es : wfe es -> Forall (fun e => e.1 <> 0) (kids es).
Proof.
  intros Hw. pose proof (kids_nzl es Hw) as E2. apply Forall_fmap with (P := fun l => l <> 0). rewrite <- E2.
  apply Forall_forall. intros l Hl. by apply elem_of_list_filter in Hl as [? _].
Qed.
Lemma nxt_split es pre l e1 post : wfe es -> es = pre ++ (l, Node e1) :: post -> nxt l (nzl es) = hd 0 post.*1.
Proof.
  intros Hw ->. rewrite (nxt_edge _ (length pre) l e1 Hw) by (by apply list_lookup_middle).
  rewrite lookup_app_r by lia. replace (S (length pre) - length pre)%nat with 1%nat by lia. change (((l, Node e1) :: post) !! 1%nat) with (post !! 0%nat).
  by destruct post as [|[] ?].
Qed.

Section comp.
  Context (us : dict) (R : edges) (node : N -> edges -> Prop) (HN : drep us R node) (g : guide) (HG : grep us node g).
  Local Notation fol l i j := (dc_Follow us l i = Ok (true, j)).
  (** The index stack, the labels passed, and the entries after those below the top. *)
  Inductive stk : N -> edges -> list N -> list N -> list (list N * N) -> Prop :=
  | stk_base i es : node i es -> stk i es [i] [] []
  | stk_step i es st q rest pre l e1 post j : stk i es st q rest -> es = pre ++ (l, Node e1) :: post -> fol l i j ->
      stk j e1 (j :: st) (q ++ [l]) (pmap q (ent_es post) ++ rest).
  Lemma stk_node i es st q rest : stk i es st q rest -> node i es.
  Proof using HN.
    induction 1 as [|i es st q rest pre l e1 post j _ IH -> Hf]; [done|].
    destruct (rp_kid _ _ _ HN i _ l e1 IH) as (j' & Hf' & Hj & _); [apply elem_of_app; right; left|]. congruence.
  Qed.
  Lemma stk_top i es st q rest : stk i es st q rest -> exists st', st = i :: st'.
  Proof. destruct 1; eauto. Qed.
  Lemma stk_ne i es st q rest : stk i es st q rest -> q <> [] -> i <> 0.
  Proof using HN.
    destruct 1 as [|i es st q rest pre l e1 post j H -> Hf]; [done|]. intros _. apply stk_node in H.
    destruct (rp_kid _ _ _ HN i _ l e1 H) as (j' & Hf' & Hj & Hne); [apply elem_of_app; right; left|]. congruence.
  Qed.
  Lemma wfn i es : node i es -> wfe es.
  Proof using HN. intros H. apply (rp_wf _ _ _ HN) in H. by apply wf_wfe. Qed.
  Lemma path_push_eq a l : path_push (a ++ [0]) l = Ok (a ++ [l; 0]).
  Proof. unfold path_push. destruct (a ++ [0]) as [|x t] eqn:E; [by destruct a|]. rewrite <- E. f_equal. f_equal. apply removelast_last. Qed.
  Lemma follow_stk P last i es st q rest pre l e1 post : stk i es st q rest -> es = pre ++ (l, Node e1) :: post ->
    exists j, cp_Follow us (mkComp (P ++ q ++ [0]) st last) l i = Ok (true, j, mkComp (P ++ (q ++ [l]) ++ [0]) (j :: st) last) /\
      stk j e1 (j :: st) (q ++ [l]) (pmap q (ent_es post) ++ rest).
  Proof using HN.
    intros H He. pose proof (stk_node _ _ _ _ _ H) as Hn. subst es.
    destruct (rp_kid _ _ _ HN i _ l e1 Hn) as (j & Hf & Hj & Hne); [apply elem_of_app; right; left|].
    exists j. unfold cp_Follow. rewrite Hf. cbn [mbind res_bind negb cp_path cp_stack cp_last]. rewrite app_assoc, path_push_eq. cbn [mbind res_bind].
    split; [|by eapply stk_step]. do 2 f_equal. by rewrite <- !app_assoc.
  Qed.
  Lemma find_ok P last fuel : forall i es st q rest, stk i es st q rest -> (hgt (Node es) <= fuel)%nat ->
    exists i' es' st' k v rest', cp_FindTerminal fuel us g (mkComp (P ++ q ++ [0]) st last) i = Ok (true, mkComp (P ++ (q ++ k) ++ [0]) st' i') /\
      stk i' es' st' (q ++ k) rest' /\ (0, Leaf v) ∈ es' /\
      pmap q (ent_es es) ++ rest = (q ++ k, v) :: pmap (q ++ k) (ent_es (kids es')) ++ rest' /\ (k = [] -> i' = i /\ es' = es).
  Proof using HN HG.
    induction fuel as [|fuel IH]; intros i es st q rest H Hh; [pose proof (hgt_pos (Node es)); lia|]. pose proof (stk_node _ _ _ _ _ H) as Hn.
    pose proof (wfn _ _ Hn) as Hw. cbn [cp_FindTerminal]. rewrite (rp_has _ _ _ HN _ _ Hn). cbn [mbind res_bind]. destruct (has0 es) eqn:E0.
    - apply has0_in in E0 as [v Hv]; [|done]. exists i, es, st, [], v, rest. rewrite app_nil_r. split; [done|]. split; [done|]. split; [done|].
      rewrite (kids_val es v Hw Hv) at 1. unfold ent_es at 1. cbn [map concat ent_e]. cbn. rewrite app_nil_r. done.
    - rewrite (gr_child _ _ _ HG _ _ Hn). cbn [mbind res_bind]. destruct (wfe_shape es Hw) as [(v & es' & -> & _)|[Hz _]]; [done|].
      destruct es as [|[l s] post]; [apply (rp_wf _ _ _ HN) in Hn; by apply wf_wfe in Hn as [? _]|].
      assert (Hl : l <> 0) by (intros ->; done). destruct s as [v|e1]; [by destruct (wfe_leaf _ l v Hw (elem_of_list_here _ _))|].
      rewrite Hz. cbn [fmap list_fmap hd fst]. destruct (follow_stk P last i _ st q rest [] l e1 post H eq_refl) as (j & -> & Hs). cbn [mbind res_bind negb].
      pose proof (hgt_in _ _ _ (elem_of_list_here (l, Node e1) post)) as Hlt.
      destruct (IH _ _ _ _ _ Hs) as (i' & es' & st' & k & v & rest' & H1 & H2 & H3 & H4); [lia|].
      exists i', es', st', (l :: k), v, rest'. rewrite <- (app_assoc q [l] k) in *. cbn [app] in *. split; [done|]. split; [done|]. split; [done|].
      split; [|done]. rewrite pmap_cons by done. rewrite <- app_assoc. apply H4.
  Qed.
  Lemma back_ok P last i es st q rest : stk i es st q rest ->
    (rest = [] /\ exists c', cp_back us g (P ++ q ++ [0]) last i st = Ok (None, c') /\ cp_stack c' = []) \/
    (exists j e st' q' rest', cp_back us g (P ++ q ++ [0]) last i st = Ok (Some j, mkComp (P ++ q' ++ [0]) st' last) /\
      stk j e st' q' rest' /\ q' <> [] /\ rest = pmap q' (ent_es e) ++ rest').
  Proof using HN HG.
    induction 1 as [i es Hn|i es st q rest pre l e1 post j H IH He Hf].
    - left. split; [done|]. cbn [cp_back].
      assert (exists s, gd_Sibling g i = Ok s) as [s ->].
      { unfold gd_Sibling, get. destruct (lookup_lt_is_Some_2 g (N.to_nat i)) as [u ->]; [|by eexists].
        rewrite (gr_len _ _ _ HG). pose proof (rp_lt _ _ _ HN _ _ Hn). lia. }
      cbn [mbind res_bind]. eexists. done.
    - pose proof (stk_node _ _ _ _ _ H) as Hn. pose proof (wfn _ _ Hn) as Hw. cbn [cp_back].
      rewrite (gr_sib _ _ _ HG i es l e1 j Hn) by (done || subst es; apply elem_of_app; right; left). cbn [mbind res_bind].
      rewrite (nxt_split es pre l e1 post Hw He).
      assert (Hp : (if Nat.ltb 1 (length (P ++ (q ++ [l]) ++ [0])) then removelast (removelast (P ++ (q ++ [l]) ++ [0])) ++ [0] else P ++ (q ++ [l]) ++ [0]) = P ++ q ++ [0]).
      { destruct (Nat.ltb_spec 1 (length (P ++ (q ++ [l]) ++ [0]))) as [_|Hb]; [|rewrite !app_length in Hb; cbn in Hb; lia].
        rewrite (app_assoc P), removelast_last, (app_assoc P q), removelast_last. by rewrite <- app_assoc. }
      rewrite Hp. destruct (stk_top _ _ _ _ _ H) as [st' ->]. destruct post as [|[l2 s2] post].
      + cbn [fmap list_fmap hd]. change (negb (0 =? 0)) with false. cbn iota. cbn [ent_es map concat app]. exact IH.
      + cbn [fmap list_fmap hd fst]. pose proof (post_head es pre l _ _ Hw He) as Hp0. apply Forall_cons in Hp0 as [Hl2 _]. cbn [fst] in Hl2.
        rewrite (proj2 (N.eqb_neq _ _) Hl2). cbn [negb]. right.
        assert (He2 : es = (pre ++ [(l, Node e1)]) ++ (l2, s2) :: post) by (by rewrite <- app_assoc).
        destruct s2 as [v|e2]; [destruct (wfe_leaf es l2 v Hw) as [? _]; [rewrite He2; apply elem_of_app; right; left|done]|].
        destruct (follow_stk P last i es (i :: st') q rest _ l2 e2 post H He2) as (j2 & -> & Hs). cbn [mbind res_bind].
        exists j2, e2, (j2 :: i :: st'), (q ++ [l2]), (pmap q (ent_es post) ++ rest). split; [done|]. split; [done|]. split; [by destruct q|].
        rewrite pmap_cons by done. by rewrite <- app_assoc.
  Qed.
  (** One call of Next, not at the very start. *)
  Lemma next_ok P i es st q rest : stk i es st q rest -> i <> 0 ->
    let L := pmap q (ent_es (kids es)) ++ rest in
    (L = [] /\ exists c', cp_Next us g (mkComp (P ++ q ++ [0]) st i) = Ok (false, c') /\ cp_stack c' = []) \/
    (exists i' es' st' q' v rest', cp_Next us g (mkComp (P ++ q ++ [0]) st i) = Ok (true, mkComp (P ++ q' ++ [0]) st' i') /\
      stk i' es' st' q' rest' /\ i' <> 0 /\ (0, Leaf v) ∈ es' /\ L = (q', v) :: pmap q' (ent_es (kids es')) ++ rest').
  Proof using HN HG.
    intros H Hi L. pose proof (stk_node _ _ _ _ _ H) as Hn. pose proof (wfn _ _ Hn) as Hw. unfold cp_Next. cbn [cp_stack cp_last cp_path].
    destruct (stk_top _ _ _ _ _ H) as [st1 Est]. rewrite Est. rewrite <- Est. rewrite (proj2 (N.eqb_neq _ _) Hi). cbn [negb].
    rewrite (gr_child _ _ _ HG _ _ Hn). cbn [mbind res_bind].
    assert (Hdown : forall j e1 st2 q2 rest2, stk j e1 st2 q2 rest2 -> q2 <> [] -> L = pmap q2 (ent_es e1) ++ rest2 ->
      exists i' es' st' q' v rest', cp_FindTerminal (S (length us)) us g (mkComp (P ++ q2 ++ [0]) st2 i) j = Ok (true, mkComp (P ++ q' ++ [0]) st' i') /\
      stk i' es' st' q' rest' /\ i' <> 0 /\ (0, Leaf v) ∈ es' /\ L = (q', v) :: pmap q' (ent_es (kids es')) ++ rest').
    { intros j e1 st2 q2 rest2 Hs Hq HL. destruct (find_ok P i (S (length us)) _ _ _ _ _ Hs) as (i' & es' & st' & k & v & rest' & H1 & H2 & H3 & H4 & _).
      - apply (hgt_units us R node HN j). by eapply stk_node.
      - exists i', es', st', (q2 ++ k), v, rest'. split; [done|]. split; [done|]. split; [|split; [done|congruence]]. eapply stk_ne; [exact H2|]. by destruct q2. }
    destruct (kids_in es) as [pre He]. rewrite (kids_nzl es Hw). pose proof (kids_head es Hw) as Hk0. unfold L in *. clear L. destruct (kids es) as [|[l s] post].
    - cbn [fmap list_fmap hd]. change (negb (0 =? 0)) with false. cbn iota. cbn [ent_es map concat app].
      destruct (back_ok P i _ _ _ _ _ H) as [(-> & c' & -> & Hc)|(j & e & st' & q' & rest' & -> & Hs & Hq & HL)]; cbn [mbind res_bind].
      + left. split; [done|]. by exists c'.
      + right. by apply (Hdown j e st' q' rest').
    - apply Forall_cons in Hk0 as [Hl _]. cbn [fst] in Hl. cbn [fmap list_fmap hd fst]. rewrite (proj2 (N.eqb_neq _ _) Hl). cbn [negb].
      destruct s as [v|e1]; [destruct (wfe_leaf es l v Hw) as [? _]; [rewrite He; apply elem_of_app; right; left|done]|].
      destruct (follow_stk P i i es st q rest pre l e1 post H He) as (j & -> & Hs). cbn [mbind res_bind]. right.
      apply (Hdown j e1 (j :: st) (q ++ [l]) (pmap q (ent_es post) ++ rest)); [done|by destruct q|]. rewrite pmap_cons by done. by rewrite <- app_assoc.
  Qed.
  Lemma first_ok P i es : node i es -> exists i' es' st' q' v rest',
    cp_Next us g (mkComp (P ++ [0]) [i] 0) = Ok (true, mkComp (P ++ q' ++ [0]) st' i') /\
    stk i' es' st' q' rest' /\ (0, Leaf v) ∈ es' /\ (i <> 0 -> i' <> 0) /\ (has0 es = false -> i' <> 0) /\
    ent_es es = (q', v) :: pmap q' (ent_es (kids es')) ++ rest'.
  Proof using HN HG.
    intros Hn. pose proof (stk_base _ _ Hn) as Hs. destruct (find_ok P 0 (S (length us)) _ _ _ _ _ Hs) as (i' & es' & st' & k & v & rest' & H1 & H2 & H3 & H4 & H5).
    - by apply (hgt_units us R node HN i).
    - cbn [app] in *. rewrite pmap_nil, app_nil_r in H4. exists i', es', st', k, v, rest'. unfold cp_Next. cbn [cp_stack cp_last cp_path N.eqb negb mbind res_bind].
      split; [done|]. split; [done|]. split; [done|].
      assert (Hd : k <> [] \/ (i' = i /\ es' = es)).
      { destruct k as [|c k]; [right; by apply H5|by left]. }
      split; [|split; [|done]].
      + intros Hi. destruct Hd as [Hk|[-> _]]; [by eapply stk_ne|done].
      + intros H0. destruct Hd as [Hk|[_ ->]]; [by eapply stk_ne|]. rewrite (proj2 (has0_in es (wfn _ _ Hn))) in H0 by (by exists v). done.
  Qed.
End comp.
