(** Properties C119 and C120: the guide of guide_builder.go, and the numbers that
    indexer.go gives to strings that are no keys. *)
From Verif Require Import Go Dawg DawgSpec Tree TreeFacts DawgAbs DictDfs Dict DictUnit DictInv DictRead DictMain DictRep DictSpec DictThms Guide GuideProofs Completer CompleterProofs GuideSpec GuideThms Index IndexProofs DictWrong IndexWrong Properties_Dict Properties_Completer Properties_Index Properties_Wrong.
Local Open Scope N_scope.
Local Arguments N.mul : simpl never.
Local Arguments N.add : simpl never.
Local Arguments N.of_nat : simpl never.
Local Arguments N.lxor : simpl never.
Local Ltac by_vm := lazymatch goal with |- _ /\ _ => split; [vm_compute; reflexivity|by_vm] | _ => vm_compute; reflexivity end.
Local Ltac guide_vm := apply guide_of_made; vm_compute; reflexivity.

(** The number of keys smaller than [q]. *)
Definition smaller (h : list entry) (q : list N) : N := N.of_nat (length (filter (fun kv : entry => kcmp kv.1 q = Lt) (entries h))).
(** An absent string that gets a number all the same: it leaves the keys with its last
    byte, which leads to a value with bit 8 set, and a key goes on with a greater one. *)
Definition numbered (h : list entry) (us : dict) (p : list N) (c : N) (t : list N) : Prop :=
  t = [] /\ (exists c', c < c' /\ key_prefix h (p ++ [c'])) /\ exists k v j, lands h us p c k v j /\ Z.testbit v 8 = true.

Lemma made_of_guide h us g : made_guide h us g -> made h us.
Proof.
  intros (d & (size & d0 & rs & un & Hs & Hb & Hd) & _). exists size, d0, un. split; [done|]. unfold build_dict. rewrite Hb. exact Hd.
Qed.
Lemma below_smaller h R q : ent_es R = map nentry (accepted h) -> below R q = smaller h q.
Proof.
  intros He. unfold below, smaller. rewrite (entries_ent h R He). clear He. f_equal. induction (ent_es R) as [|[k v] l IH]; [done|].
  cbn [map]. rewrite !filter_cons. cbn [fst snd].
  destruct (decide (kcmp k q = Lt)); cbn [length]; by rewrite IH.
Qed.
Lemma edge_prefix h R p es c : ent_es R = map nentry (accepted h) -> wfe R -> R <> [] -> tnode R p es ->
  key_prefix h (p ++ [c]) <-> exists e1, (c, Node e1) ∈ es.
Proof.
  intros He Hw HR Ht. rewrite (prefix_tnode h R He Hw _ HR). split.
  - intros [e1 H]. apply tnode_split in H as (es' & Ht' & H). rewrite (tnode_fun R p es es' Hw Ht Ht'). inversion H as [|? ? e2 ? ? Hin H2]; subst.
    inversion H2; subst. by exists e1.
  - intros [e1 H]. exists e1. eapply tnode_app; [exact Ht|]. econstructor; [exact H|constructor].
Qed.

Lemma absent_cases h us g ix q p c t : hist_ok h -> made_guide h us g -> BuildIndex us g = Ok (Some ix) -> bytes q -> leaves h q p c t ->
  (numbered h us p c t /\ ir_StringToIndex us g ix q = Ok (smaller h q)) \/
  (~ numbered h us p c t /\ ir_StringToIndex us g ix q = Ok NotFound).
Proof.
  intros Hh Hm Hi Hq Hl. pose proof (made_of_guide h us g Hm) as Hmd. destruct (C118_step h us q p c t Hh Hmd Hq Hl) as [S1 S2].
  destruct (index_facts h us g ix Hh Hm Hi) as (R & b & nb & asg & ff & He & Hw & HR & Eus & HB & HP & HG & Hlim & _ & Hc).
  destruct Hl as (Eq & Hp & Hn). pose proof Hq as Hq'. rewrite Eq in Hq'. apply Forall_app in Hq' as [_ Hq']. apply Forall_cons in Hq' as [Hc256 _].
  destruct (proj1 (prefix_tnode h R He Hw p HR) Hp) as [es Ht].
  assert (Hno : forall e1, (c, Node e1) ∉ es) by (intros e1 Hin; apply Hn, (edge_prefix h R p es c He Hw HR Ht); by exists e1).
  destruct (walk_to us R _ HP g HG Hlim ix Hc (c :: t) R p es Ht 0 0) as (i & r & Hf & Hnd & Hwalk & Hr & Hbel); [apply HP|lia|].
  assert (Hres : ir_StringToIndex us g ix q = ir_walk us g ix (c :: t) i r) by (rewrite Eq; exact Hwalk). rewrite Hres.
  assert (Hsm : r + below es (c :: t) = smaller h q) by (rewrite <- (below_smaller h R q He), Eq; specialize (Hbel (c :: t)); lia).
  destruct (walk_off us R _ HP g HG Hlim ix Hc c t i es r Hnd Hr Hno) as [[Hnf Hless]|[(l & e1 & Hin & Hcl) Hgo]].
  { right. split; [|done]. intros (_ & (c' & Hlt & Hpc) & _). apply (edge_prefix h R p es c' He Hw HR Ht) in Hpc as [e1 Hin].
    apply Hless in Hin. lia. }
  rewrite Hgo, Hsm. destruct (wrong_step h us Hh Hmd p c Hp Hc256 Hn) as (i' & u & Hi' & Hu & HF). rewrite Hf in Hi'. injection Hi' as <-.
  assert (Hj : forall k v j, lands h us p c k v j -> j = N.lxor (N.lxor i (dictOffset u)) c).
  { intros k v j (i2 & u2 & Hi2 & Hu2 & -> & _). rewrite Hf in Hi2. injection Hi2 as <-. rewrite Hu in Hu2. by injection Hu2 as <-. }
  destruct HF as [(Hfo & k & v & Hv & Hmod)|(Hfo & Hnl)]; rewrite Hfo; cbn [mbind res_bind negb].
  - set (j := N.lxor (N.lxor i (dictOffset u)) c) in *. assert (HL : lands h us p c k v j) by (by exists i, u).
    destruct (S1 k v j HL) as [_ Hhv]. destruct t as [|x t].
    + cbn [ir_walk]. rewrite Hhv. cbn [mbind res_bind]. destruct (Z.testbit v 8) eqn:E; [left|right]; (split; [|done]).
      * split; [done|]. split; [|by exists k, v, j]. exists l. split; [done|]. apply (edge_prefix h R p es l He Hw HR Ht). by exists e1.
      * intros (_ & _ & k' & v' & j' & HL' & Hb'). destruct (S1 k' v' j' HL') as [_ Hhv']. rewrite (Hj k' v' j' HL') in Hhv'. congruence.
    + right. split; [by intros [? _]|]. apply (walk_stop us _ g HG ix j x t _ (Z.testbit v 8)); [| |done].
      * pose proof (value_unit_at h us Hh Hmd k v j Hv) as Hju. apply lookup_lt_Some in Hju. lia.
      * destruct Hv as (Hk & n & w & Hkn & Hwn & Hjn). apply (entry_tnode h R He Hw) in Hk as (esk & m & Htk & Hmk & _).
        destruct (node_prefix us R _ k esk HP Htk) as (n' & Hn' & Hnn & _). rewrite Hkn in Hn'. injection Hn' as <-.
        destruct (rp_leaf _ _ _ HP _ _ _ Hnn Hmk) as (w' & Hw' & _ & Hnot). rewrite Hwn in Hw'. injection Hw' as <-. rewrite Hjn. exact Hnot.
  - right. split; [|done]. intros (_ & _ & k & v & j & HL & _). pose proof (Hj k v j HL) as Ej. destruct HL as (_ & _ & _ & _ & _ & Hv & Hmod).
    rewrite Ej in Hv. by apply Hnl in Hv.
Qed.
(** C120. What StringToIndex gives for a string that leaves the keys. *)
Theorem C120_absent h us g ix q p c t : hist_ok h -> made_guide h us g -> BuildIndex us g = Ok (Some ix) -> bytes q -> leaves h q p c t ->
  (numbered h us p c t -> ir_StringToIndex us g ix q = Ok (smaller h q)) /\
  (~ numbered h us p c t -> ir_StringToIndex us g ix q = Ok NotFound).
Proof. intros Hh Hm Hi Hq Hl. by destruct (absent_cases h us g ix q p c t Hh Hm Hi Hq Hl) as [[H1 H2]|[H1 H2]]. Qed.
Print Assumptions C120_absent.
Lemma prefix_notfound h us g ix q : hist_ok h -> made_guide h us g -> BuildIndex us g = Ok (Some ix) -> bytes q -> key_prefix h q -> ~ is_key h q ->
  ir_StringToIndex us g ix q = Ok NotFound.
Proof.
  intros Hh Hm Hi Hq Hp Hk. apply (C67_absent_safe h us g ix q); try done. intros p c t -> _ Hno. exfalso. apply Hno.
  apply (prefix_less _ _ _ Hp). exists t. by rewrite <- app_assoc.
Qed.
(** All strings: keys have the number of smaller keys (C42), and so have the strings
    above; other strings are not found, and no call panics. *)
Theorem C120_every h us g ix q : hist_ok h -> made_guide h us g -> BuildIndex us g = Ok (Some ix) -> bytes q ->
  (ir_StringToIndex us g ix q = Ok (smaller h q) /\ (is_key h q \/ exists p c t, leaves h q p c t /\ numbered h us p c t)) \/
  (ir_StringToIndex us g ix q = Ok NotFound /\ ~ is_key h q /\ forall p c t, leaves h q p c t -> ~ numbered h us p c t).
Proof.
  intros Hh Hm Hi Hq. pose proof (index_made h us g ix Hh Hm Hi) as Ha. pose proof (made_of_guide h us g Hm) as Hmd.
  assert (H0 : key_prefix h []).
  { destruct (accepted h) as [|e l] eqn:E; [done|]. exists (kept_entry e).1, (kept_entry e).2. rewrite E. split; [left; by destruct (kept_entry e)|apply prefix_nil]. }
  destruct (leaves_or h q [] H0) as [Hp|(p & c & t & Hl)].
  - cbn [app] in Hp. destruct (decide (Exists (fun e => e.1 = q) (entries h))) as [Hk|Hk].
    + left. apply Exists_exists in Hk as ([k v] & Hk & E). cbn in E. subst k. assert (HK : is_key h q) by (by exists v).
      split; [by apply (C42_rank h us g ix q)|by left].
    + right. assert (HK : ~ is_key h q) by (intros [v Hv]; apply Hk, Exists_exists; by exists (q, v)).
      split; [by apply (prefix_notfound h)|]. split; [done|]. intros p c t Hl. by apply leaves_not in Hl.
  - cbn [app] in Hl. destruct (absent_cases h us g ix q p c t Hh Hm Hi Hq Hl) as [[Hd A]|[Hd A]]; [left; split; [done|right; by exists p, c, t]|right].
    split; [done|]. split; [intros [v Hv]; apply (leaves_not h q p c t Hl); by exists q, v|].
    intros p' c' t' Hl'. by destruct (leaves_fun h q p c t p' c' t' Hl Hl') as (<- & <- & <-).
Qed.
Print Assumptions C120_every.
Example C120_case : made_guide fp_h (guide_of fp_h).1 (guide_of fp_h).2 /\ leaves fp_h [97; 98] [97] 98 [] /\
  (exists c', 98 < c' /\ key_prefix fp_h ([97] ++ [c'])) /\ (exists j, lands fp_h (guide_of fp_h).1 [97] 98 [97; 99] 354 j) /\ Z.testbit 354 8 = true /\
  smaller fp_h [97; 98] = 0 /\ (exists ix, BuildIndex (guide_of fp_h).1 (guide_of fp_h).2 = Ok (Some ix) /\
    ir_StringToIndex (guide_of fp_h).1 (guide_of fp_h).2 ix [97; 98] = Ok 0 /\ ir_StringToIndex (guide_of fp_h).1 (guide_of fp_h).2 ix [97; 98; 98] = Ok NotFound).
Proof.
  assert (Hent : entries fp_h = [([97; 99], 354%Z)]) by done. split; [guide_vm|]. split; [split; [done|split]|].
  - exists [97; 99], 354%Z. rewrite Hent. split; [by left|by exists [99]].
  - intros (k & v & Hk & s & E). rewrite Hent in Hk. apply elem_of_list_singleton in Hk. by simplify_eq.
  - split; [exists 99; split; [done|]; exists [97; 99], 354%Z; rewrite Hent; split; [by left|by exists []]|]. split.
    + eexists. do 2 eexists. split; [by vm_compute|]. split; [by vm_compute|]. split; [by vm_compute|]. split; [|done]. split; [rewrite Hent; by left|].
      do 2 eexists. split; [by vm_compute|]. split; by vm_compute.
    + split; [done|]. split; [by vm_compute|]. eexists. by_vm.
Qed.

(** C119. The guide.  The smallest byte that satisfies [P], or 0. *)
Definition first_of (P : N -> Prop) (c : N) : Prop := (P c /\ forall c', P c' -> c <= c') \/ (c = 0 /\ forall c', ~ P c').
Lemma hd_first (L : list N) : StronglySorted N.lt L -> first_of (fun c => c ∈ L) (hd 0 L).
Proof.
  intros H. destruct L as [|x L]; [right; split; [done|]; intros c Hc; by apply elem_of_nil in Hc|]. left. apply StronglySorted_inv in H as [_ H].
  split; [left|]. intros c Hc. apply elem_of_cons in Hc as [->|Hc]; [cbn; lia|]. rewrite Forall_forall in H. apply H in Hc. cbn. lia.
Qed.
Lemma nxt_first (L : list N) l : StronglySorted N.lt L -> l ∈ L -> first_of (fun c => l < c /\ c ∈ L) (nxt l L).
Proof.
  induction L as [|x L IH]; intros H Hl; [by apply elem_of_nil in Hl|]. apply StronglySorted_inv in H as [Hs Hx]. cbn [nxt]. rewrite Forall_forall in Hx.
  destruct (N.eqb_spec x l) as [->|Hne].
  - destruct (hd_first L Hs) as [[H1 H2]|[H1 H2]]; [left|right]; (split; [try done|]).
    + split; [by apply Hx|by right].
    + intros c [Hc Hin]. apply elem_of_cons in Hin as [->|Hin]; [lia|by apply H2].
    + intros c [Hc Hin]. apply elem_of_cons in Hin as [->|Hin]; [lia|by apply H2 in Hin].
  - apply elem_of_cons in Hl as [->|Hl]; [done|]. pose proof (Hx l Hl) as Hxl. destruct (IH Hs Hl) as [[[H1 H3] H2]|[H1 H2]]; [left|right]; (split; [try done|]).
    + split; [done|by right].
    + intros c [Hc Hin]. apply elem_of_cons in Hin as [->|Hin]; [lia|by apply H2].
    + intros c [Hc Hin]. apply elem_of_cons in Hin as [->|Hin]; [lia|by apply (H2 c)].
Qed.
Lemma first_iff (P Q : N -> Prop) c : (forall x, P x <-> Q x) -> first_of P c -> first_of Q c.
Proof.
  intros H [[H1 H2]|[H1 H2]]; [left|right]; (split; [try done; by apply H|]); intros c' Hc'; apply H in Hc'; [by apply H2|by apply H2 in Hc'].
Qed.
Lemma nzl_sorted es : wfe es -> StronglySorted N.lt (nzl es).
Proof.
  intros Hw. rewrite (kids_nzl es Hw). destruct (kids_in es) as [p0 He]. apply (asc_app p0). rewrite <- He. apply Hw.
Qed.
Theorem C119_guide h us g : hist_ok h -> made_guide h us g -> accepted h <> [] -> length g = length us /\
  (forall p i, key_prefix h p -> dc_FollowString us p 0 = Ok (true, i) -> exists a b, g !! N.to_nat i = Some (a, b) /\
     first_of (fun c => key_prefix h (p ++ [c])) a /\ (p = [] -> b = 0) /\
     forall p' l, p = p' ++ [l] -> first_of (fun c => l < c /\ key_prefix h (p' ++ [c])) b) /\
  (forall i, i < N.of_nat (length us) -> (forall p, key_prefix h p -> dc_FollowString us p 0 <> Ok (true, i)) -> g !! N.to_nat i = Some (0, 0)).
Proof.
  intros Hh Hm Ha. destruct (index_cases h us g Hh Hm Ha) as (R & b & nb & asg & ff & He & Hw & HR & Eus & HB & HP & HG & _).
  split; [apply HG|]. split.
  - intros p i Hp Hf. destruct (proj1 (prefix_tnode h R He Hw p HR) Hp) as [es Ht]. destruct (node_prefix us R _ p es HP Ht) as (i' & Hf' & Hn & _).
    rewrite Hf in Hf'. injection Hf' as <-. pose proof (rp_lt _ _ _ HP _ _ Hn) as Hlt. pose proof (wfn us R _ HP i es Hn) as Hwe.
    destruct (lookup_lt_is_Some_2 g (N.to_nat i)) as [[x y] Hu]; [rewrite (gr_len _ _ _ HG); lia|]. exists x, y. split; [done|]. split; [|split].
    + pose proof (gr_child _ _ _ HG _ _ Hn) as Hc. unfold gd_Child, get in Hc. rewrite Hu in Hc. cbn in Hc. injection Hc as ->.
      eapply first_iff; [|by apply hd_first, nzl_sorted]. intros c. rewrite (edge_prefix h R p es c He Hw HR Ht). by apply nzl_in.
    + intros ->. cbn in Hf. injection Hf as <-. pose proof (gr_root _ _ _ HG) as Hc. unfold gd_Sibling, get in Hc. rewrite Hu in Hc. cbn in Hc. by injection Hc.
    + intros p' l ->. apply tnode_split in Ht as (es0 & Ht0 & Ht1). inversion Ht1 as [|? ? e2 ? ? Hin H2]; subst. inversion H2; subst.
      destruct (node_prefix _ R _ p' es0 HP Ht0) as (i0 & Hf0 & Hn0 & _). pose proof (wfn _ R _ HP i0 es0 Hn0) as Hwe0.
      rewrite FollowString_app, Hf0 in Hf. cbn [mbind res_bind dc_FollowString] in Hf.
      assert (Hfo : dc_Follow (db_units b) l i0 = Ok (true, i)).
      { destruct (dc_Follow (db_units b) l i0) as [[[] j]| |]; cbn [mbind res_bind] in Hf; congruence. }
      pose proof (gr_sib _ _ _ HG _ _ _ _ _ Hn0 Hin Hfo) as Hc. unfold gd_Sibling, get in Hc. rewrite Hu in Hc. cbn in Hc. injection Hc as ->.
      eapply first_iff; [|apply nxt_first; [by apply nzl_sorted|apply nzl_in; [done|by exists es]]].
      intros c. cbn beta. rewrite (edge_prefix h R p' es0 c He Hw HR Ht0), (nzl_in es0 c Hwe0). done.
  - intros i Hi Hno. apply (gr_off _ _ _ HG i Hi). intros es Hn. destruct (rp_reach _ _ _ HP _ _ Hn) as (p & Ht & Hf). apply (Hno p); [|done].
    apply (prefix_tnode h R He Hw p HR). by exists es.
Qed.
Print Assumptions C119_guide.
(** So there is one guide for each dictionary. *)
Theorem C119_one h us g g' : hist_ok h -> made_guide h us g -> made_guide h us g' -> g = g'.
Proof.
  intros Hh Hm Hm'. destruct (decide (accepted h = [])) as [Ha|Ha].
  { destruct (made_guide_cases h us g Hh Hm) as (R & He & Hw & [(-> & -> & ->)|(HR & _)]); [|exfalso; by apply HR, (nil_iff h R He Hw)].
    destruct (made_guide_cases h _ g' Hh Hm') as (R & He' & Hw' & [(-> & _ & ->)|(HR & _)]); [done|]. exfalso. by apply HR, (nil_iff h R He' Hw'). }
  destruct (index_cases h us g Hh Hm Ha) as (R & b & nb & asg & ff & He & Hw & HR & Eus & HB & HP & HG & _).
  destruct (C119_guide h us g Hh Hm Ha) as (L & C1 & C2). destruct (C119_guide h us g' Hh Hm' Ha) as (L' & C1' & C2').
  apply list_eq_same_length with (length us); [done|done|]. intros n [x1 y1] [x2 y2] Hn H1 H2.
  assert (FU : forall P c c', first_of P c -> first_of P c' -> c = c').
  { intros P c c' [[A1 A2]|[A1 A2]] [[B1 B2]|[B1 B2]]; [specialize (A2 _ B1); specialize (B2 _ A1); lia|by apply B2 in A1|by apply A2 in B1|congruence]. }
  assert (Hd : (exists p, key_prefix h p /\ dc_FollowString us p 0 = Ok (true, N.of_nat n)) \/ (forall p, key_prefix h p -> dc_FollowString us p 0 <> Ok (true, N.of_nat n))).
  { assert (HD : forall pe : list N * edges, Decision (dc_FollowString us pe.1 0 = Ok (true, N.of_nat n))).
    { intros pe. destruct (dc_FollowString us pe.1 0) as [[[] j]| |]; [destruct (N.eq_dec j (N.of_nat n)); [left|right]|right|right|right]; congruence. }
    destruct (decide (Exists (fun pe => dc_FollowString us pe.1 0 = Ok (true, N.of_nat n)) (pn (Node R)))) as [Hx|Hx].
    - left. apply Exists_exists in Hx as ([p es] & Hin & Hx). apply pn_in in Hin as (es' & [= <-] & Ht). exists p. split; [|done].
      apply (prefix_tnode h R He Hw p HR). by exists es.
    - right. intros p [es Ht]%(prefix_tnode h R He Hw p HR) Hf. apply Hx, Exists_exists. exists (p, es). split; [by apply tnode_pn|done]. }
  destruct Hd as [(p & Hp & Hf)|Hno].
  - destruct (C1 p _ Hp Hf) as (a1 & b1 & E1 & F1 & G1 & S1). destruct (C1' p _ Hp Hf) as (a2 & b2 & E2 & F2 & G2 & S2).
    rewrite Nat2N.id in E1, E2. rewrite H1 in E1. rewrite H2 in E2. injection E1 as <- <-. injection E2 as <- <-. f_equal; [by eapply FU|].
    destruct p as [|l p' _] using rev_ind; [by rewrite G1, G2|]. eapply FU; [by apply (S1 p' l)|by apply (S2 p' l)].
  - assert (Hlt : N.of_nat n < N.of_nat (length us)) by lia. specialize (C2 _ Hlt Hno). specialize (C2' _ Hlt Hno).
    rewrite Nat2N.id in C2, C2'. rewrite H1 in C2. rewrite H2 in C2'. congruence.
Qed.
Print Assumptions C119_one.
Example C119_case : made_guide dex_h (guide_of dex_h).1 (guide_of dex_h).2 /\ accepted dex_h <> [] /\
  dc_FollowString (guide_of dex_h).1 [97] 0 = Ok (true, 1) /\ (guide_of dex_h).2 !! 1%nat = Some (98, 98) /\ (guide_of dex_h).2 !! 255%nat = Some (0, 0).
Proof. split; [guide_vm|]. split; [done|]. by_vm. Qed.
