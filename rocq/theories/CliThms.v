(** Proofs about Cli.v: the file written, and the answers read from it. *)
From Verif Require Import Go Dawg DawgSpec DawgAbs Dict DictSpec DictThms Guide GuideSpec GuideThms Completer Index Ranked RankedSpec RankedProofs RankedCompleter RankedCompleterProofs RankedThms Serial SerialRange Cli CliSpec CliProofs
  Properties_Dawg Properties_Dict Properties_Completer Properties_Index Properties_Ranked Properties_Serial.
Local Open Scope N_scope.
Local Arguments N.mul : simpl never.
Local Arguments N.add : simpl never.
Local Arguments N.of_nat : simpl never.

(** ** Plain queries *)
Lemma safe_prefix h p t : safe h (p ++ t) -> safe h p.
Proof. intros H a c b -> Ha Hn. apply (H a c (b ++ t)); [|done|done]. by rewrite <- app_assoc. Qed.
Lemma prefix_kcmp p k : p `prefix_of` k -> kcmp k p <> Lt.
Proof. intros [t ->]. rewrite <- (app_nil_r p) at 2. rewrite kcmp_app. by destruct t. Qed.
Lemma key_split h k v : (k, v) ∈ entries h -> exists es1 es2, entries h = es1 ++ (k, v) :: es2 /\ Forall (fun e => kcmp e.1 k = Lt) es1 /\ Forall (fun e => kcmp k e.1 = Lt) es2.
Proof.
  intros (n & Hn)%elem_of_list_lookup. pose proof (entries_inc h) as Hi. exists (take n (entries h)), (drop (S n) (entries h)).
  split; [by rewrite take_drop_middle|]. split; apply Forall_forall; intros e (i & He)%elem_of_list_lookup.
  - apply lookup_take_Some in He as [He Hin]. by apply (Hi i n e (k, v)).
  - rewrite lookup_drop in He. apply (Hi n (S n + i)%nat (k, v) e); [lia|done|done].
Qed.
Lemma prefix_longer (p k q : list N) : p `prefix_of` q -> k `prefix_of` q -> (length p <= length k)%nat -> p `prefix_of` k.
Proof.
  intros Hp Hk Hl. destruct (prefix_weak_total p k q Hp Hk) as [H|[t ->]]; [done|]. rewrite app_length in Hl. destruct t; [|cbn in Hl; lia]. by rewrite app_nil_r.
Qed.
Lemma filter_iff_in {A} (P Q : A -> Prop) `{!forall x, Decision (P x), !forall x, Decision (Q x)} (l : list A) : (forall x, x ∈ l -> P x <-> Q x) -> filter P l = filter Q l.
Proof.
  induction l as [|a l IH]; intros Hx; [done|]. rewrite !filter_cons. rewrite IH by (intros x Hin; apply Hx; by right).
  pose proof (Hx a ltac:(by left)). destruct (decide (P a)), (decide (Q a)); tauto.
Qed.
Section plain.
  Context (h : list entry) (us : dict) (Hh : hist_ok h) (Hm : made h us) (q : list N) (Hq : bytes q) (Hs : safe h q).
  Notation longer n := (filter (fun kv : entry => (n < length kv.1)%nat /\ kv.1 `prefix_of` q) (entries h)).
  Lemma plain_ok key : forall pre i, q = rev pre ++ key -> dc_FollowString us (rev pre) 0 = Ok (true, i) -> plain_hits us pre key i = Ok (longer (length pre)).
  Proof using Hh Hm Hq Hs.
    induction key as [|c key IH]; intros pre i Eq Hi; cbn [plain_hits].
    - f_equal. symmetry. apply elem_of_nil_inv. intros kv [[H1 [t H2]] _]%elem_of_list_filter. apply (f_equal length) in H2. rewrite Eq, !app_length, rev_length in H2. cbn in H2. lia.
    - assert (Eq' : q = rev (c :: pre) ++ key) by (cbn [rev]; by rewrite <- app_assoc).
      destruct (safe_follow h us Hh Hm (rev (c :: pre))) as (b & j & Hf & _ & Hv & Hp).
      { rewrite Eq' in Hq. by apply Forall_app in Hq as [? _]. }
      { rewrite Eq' in Hs. by apply safe_prefix in Hs. }
      assert (E : exists j', dc_Follow us c i = Ok (b, j') /\ (b = true -> j' = j)).
      { cbn [rev] in Hf. rewrite (C24_follow_append us (rev pre) [c] 0 i Hi) in Hf. cbn [dc_FollowString] in Hf.
        destruct (dc_Follow us c i) as [[[] j']| |]; cbn [mbind res_bind] in Hf; [injection Hf as <- <-| injection Hf as <- <-|done|done]; by exists j'. }
      destruct E as (j' & -> & Ej). cbn [mbind res_bind]. destruct b; cbn [negb].
      2:{ f_equal. symmetry. apply elem_of_nil_inv. intros [k v] [[H1 H2] H3]%elem_of_list_filter. cbn [fst] in *.
          assert (false = true); [|done]. apply Hp. exists k, v. split; [done|]. apply (prefix_longer _ k q); [by exists key|done|].
          cbn [rev]. rewrite app_length, rev_length. cbn. lia. }
      rewrite (Ej eq_refl). rewrite (IH (c :: pre) j Eq' Hf). clear IH.
      assert (Hk : forall k, k `prefix_of` q -> (length pre < length k)%nat -> rev (c :: pre) `prefix_of` k).
      { intros k Hk Hl. apply (prefix_longer _ k q); [by exists key|done|]. cbn [rev]. rewrite app_length, rev_length. cbn. lia. }
      assert (He : forall k v, (k, v) ∈ entries h -> k <> rev (c :: pre) -> ((length pre < length k)%nat /\ k `prefix_of` q) <-> ((length (c :: pre) < length k)%nat /\ k `prefix_of` q)).
      { intros k v Hkv Hne. split; intros [H1 H2]; [|cbn in H1; split; [lia|done]]. split; [|done]. destruct (Hk k H2 H1) as [t ->].
        rewrite app_length, rev_length. destruct t; [by rewrite app_nil_r in Hne|]. cbn. lia. }
      destruct (decide (Exists (fun kv : entry => kv.1 = rev (c :: pre)) (entries h))) as [Hx|Hx].
      + apply Exists_exists in Hx as ([k v] & Hx & Ek). cbn [fst] in Ek. subst k.
        destruct (follow_prefix h us Hh Hm (rev (c :: pre))) as (j2 & Hf2 & Hv2 & _); [by exists (rev (c :: pre)), v|]. rewrite Hf in Hf2. injection Hf2 as <-.
        destruct (Hv2 v Hx) as [-> ->]. cbn [mbind res_bind]. f_equal.
        destruct (key_split h _ v Hx) as (es1 & es2 & Ees & H1 & H2). rewrite Ees, !filter_app, !filter_cons.
        rewrite decide_False by (cbn [length fst]; rewrite rev_length; cbn; lia).
        rewrite decide_True by (split; [cbn [fst]; rewrite rev_length; cbn; lia|by exists key]).
        assert (N1 : forall n, (length pre <= n)%nat -> filter (fun kv : entry => (n < length kv.1)%nat /\ kv.1 `prefix_of` q) es1 = []).
        { intros n Hn. apply elem_of_nil_inv. intros [k' v'] [[H3 H4] H5]%elem_of_list_filter. cbn [fst] in *. rewrite Forall_forall in H1. specialize (H1 _ H5). cbn [fst] in H1.
          apply (prefix_kcmp (rev (c :: pre)) k'); [|done]. apply Hk; [done|lia]. }
        rewrite !N1 by (cbn; lia). cbn [app]. f_equal. symmetry. apply filter_iff_in. intros [k' v'] Hin. cbn [fst]. apply (He k' v').
        * rewrite Ees. apply elem_of_app. right. by right.
        * intros ->. rewrite Forall_forall in H2. specialize (H2 _ Hin). cbn [fst] in H2. by rewrite kcmp_refl in H2.
      + assert (Hn : dc_HasValue us j = Ok false).
        { destruct (Hv eq_refl) as [?|[v Hin]]; [done|]. exfalso. apply Hx, Exists_exists. by exists (rev (c :: pre), v). }
        rewrite Hn. cbn [mbind res_bind]. f_equal. symmetry. apply filter_iff_in. intros [k' v'] Hin. cbn [fst]. apply (He k' v' Hin). intros ->.
        apply Hx, Exists_exists. by exists (rev (c :: pre), v').
  Qed.
  Lemma plain_hits_ok : plain_hits us [] q 0 = Ok (prefix_hits (entries h) q).
  Proof using Hh Hm Hq Hs.
    rewrite (plain_ok q [] 0); [|done|done]. f_equal. apply list_filter_iff. intros [k v]. cbn [fst length]. destruct k; cbn; [|naive_solver lia]. naive_solver lia.
  Qed.
End plain.
Lemma answers_plain_ok h us qs : hist_ok h -> made h us -> Forall (query_ok h) qs -> answers_plain us qs = Ok (map (plain_answer (entries h)) qs).
Proof.
  intros Hh Hm. induction 1 as [|q qs [Hq Hs] _ IH]; [done|]. cbn [answers_plain map]. rewrite (plain_hits_ok h us Hh Hm q Hq Hs). cbn [mbind res_bind]. by rewrite IH.
Qed.

(** ** Queries with a guide *)
Lemma comp_hits_out us g key c l : outputs us g c l -> forall fuel, if decide (length l < fuel)%nat
  then exists c', comp_hits fuel us g key c = Ok (map (fun x => (key ++ x.1.1, x.2)) l, c') else comp_hits fuel us g key c = Hang.
Proof.
  induction 1 as [c c' H|c c' v l H1 H2 Ho IH]; intros [|n]; cbn [length].
  - by rewrite decide_False by lia.
  - rewrite decide_True by lia. exists c'. cbn [comp_hits]. by rewrite H.
  - by rewrite decide_False by lia.
  - specialize (IH n). cbn [comp_hits]. rewrite H1. cbn [mbind res_bind negb]. rewrite H2. cbn [mbind res_bind].
    destruct (decide (length l < n)%nat).
    + rewrite decide_True by lia. destruct IH as [c2 ->]. by exists c2.
    + rewrite decide_False by lia. by rewrite IH.
Qed.
Lemma rcomp_hits_out us g key c l : routputs us g c l -> forall fuel, (length l < fuel)%nat ->
  exists c', rcomp_hits fuel us g key c = Ok (map (fun x => (key ++ x.1.1, x.2)) l, c').
Proof.
  induction 1 as [c c' H|c c' l H1 Ho IH]; intros [|n] Hn; cbn [length] in Hn; try lia.
  - exists c'. cbn [rcomp_hits]. by rewrite H.
  - cbn [rcomp_hits]. rewrite H1. cbn [mbind res_bind negb]. destruct (IH n) as [c2 ->]; [lia|]. by exists c2.
Qed.
Lemma with_prefix_length p es : (length (with_prefix p es) <= length es)%nat.
Proof. apply filter_length. Qed.
Lemma position_key h k n v : entries h !! n = Some (k, v) -> position (entries h) k = N.of_nat n.
Proof.
  intros Hn. unfold position. assert (E : list_find (fun kv : entry => kv.1 = k) (entries h) = Some (n, (k, v))).
  { apply list_find_Some. split; [done|]. split; [done|]. intros j [k' v'] Hj Hjn. cbn [fst]. intros ->. pose proof (entries_inc h j n (k, v') (k, v) Hjn Hj Hn) as H. cbn [fst] in H. by rewrite kcmp_refl in H. }
  by rewrite E.
Qed.
Lemma position_none h q : ~ is_key h q -> position (entries h) q = 4294967295.
Proof.
  intros Hn. unfold position. destruct (list_find _ _) as [[i [k v]]|] eqn:E; [|done]. apply list_find_Some in E as (E & Hk & _). cbn [fst] in Hk. subst k.
  exfalso. apply Hn. exists v. by apply elem_of_list_lookup_2 in E.
Qed.
Lemma key_dec h q : {is_key h q} + {~ is_key h q}.
Proof.
  destruct (decide (Exists (fun kv : entry => kv.1 = q) (entries h))) as [H|H]; [left|right].
  - apply Exists_exists in H as ([k v] & H & Hk). cbn [fst] in Hk. subst k. by exists v.
  - intros [v Hv]. apply H, Exists_exists. by exists (q, v).
Qed.
Lemma not_prefix h q : ~ key_prefix h q -> with_prefix q (entries h) = [].
Proof.
  intros H. apply elem_of_nil_inv. intros [k v] [H1 H2]%elem_of_list_filter. cbn [fst] in H1. apply H. exists k, v. split; [done|]. exists (drop (length q) k). by rewrite <- H1 at 1; rewrite take_drop.
Qed.
Section guide.
  Context (h : list entry) (us : dict) (g : guide) (Hh : hist_ok h).
  (** Where a query starts. *)
  Lemma query_follow q : made h us -> query_ok h q -> (exists i, dc_FollowString us q 0 = Ok (true, i) /\ (started us h q i \/ accepted h = [])) \/
    (exists i, dc_FollowString us q 0 = Ok (false, i) /\ with_prefix q (entries h) = []).
  Proof using Hh.
    intros Hm [Hq Hs]. destruct (safe_follow h us Hh Hm q Hq Hs) as (b & j & Hf & Hb & _ & Hp). destruct b.
    - left. exists j. split; [done|]. destruct (decide (accepted h = [])) as [Ha|Ha]; [by right|]. left. split; [|done]. right. by apply (Hb Ha).
    - right. exists j. split; [done|]. apply not_prefix. intros H. by apply Hp in H.
  Qed.
  Lemma position_ok ix q : made_guide h us g -> BuildIndex us g = Ok (Some ix) -> query_ok h q -> ir_StringToIndex us g ix q = Ok (position (entries h) q).
  Proof using Hh.
    intros Hm Hi [Hq Hs]. destruct (key_dec h q) as [Hk|Hk].
    - rewrite (C42_rank h us g ix q Hh Hm Hi Hk). destruct Hk as [v (n & Hn)%elem_of_list_lookup]. rewrite (position_key h q n v Hn). do 2 f_equal. apply (rank_filter _ n q v); [apply entries_inc|done].
    - by rewrite (C67_absent_safe h us g ix q Hh Hm Hi Hq Hs Hk), (position_none h q Hk).
  Qed.
End guide.
Section answers.
  Context (h : list entry) (us : dict) (g : guide) (Hh : hist_ok h) (Hm : made_guide h us g).
  Lemma guide_made : made h us.
  Proof using Hm. destruct Hm as (d & Hd & _). by apply (made_dawg_made h d). Qed.
  Lemma empty_guide : accepted h = [] -> g = [].
  Proof using Hh Hm. intros Ha. destruct Hm as (d & Hd & Hg). destruct (C40_guide_built h d us Hh Hd) as (g' & Hg' & Hl). rewrite Hg in Hg'. injection Hg' as <-. rewrite decide_True in Hl by done. by destruct g. Qed.
  Lemma one_guide fuel q c : (length (accepted h) < fuel)%nat -> query_ok h q -> (q = [] -> ~ is_key h []) ->
    exists b i c', dc_FollowString us q 0 = Ok (b, i) /\
      (if (b : bool) then c ← cp_Start g c i; comp_hits fuel us g q c else Ok ([], c)) = Ok (map with_nul (with_prefix q (entries h)), c').
  Proof using Hh Hm.
    intros Hfu Hq H0. destruct (query_follow h us Hh q guide_made Hq) as [(i & Hf & [Hst|Ha])|(i & Hf & Hn)].
    - exists true, i. destruct (C65_enumeration h us g q i c [] Hh Hm Hst H0) as (c0 & Hc & Ho). rewrite Hf, (proj2 (C39_start_len g c i [] 0 ltac:(done))), Hc. cbn [mbind res_bind].
      pose proof (comp_hits_out us g q c0 _ Ho fuel) as H. rewrite decide_True in H.
      + destruct H as [c' ->]. exists c'. split; [done|]. do 2 f_equal. rewrite <- residual_prefix, !map_map. apply map_ext. intros [k v]. unfold with_nul. cbn [fst snd app]. by rewrite <- app_assoc.
      + rewrite map_length. pose proof (with_prefix_length q (entries h)) as Hl. rewrite <- residual_prefix, !map_length in Hl. lia.
    - exists true, i. rewrite (empty_guide Ha). rewrite Hf. unfold cp_Start. cbn. rewrite Ha. eexists. split; [done|]. destruct fuel; [lia|]. cbn [comp_hits]. by unfold cp_Next.
    - exists false, i, c. rewrite Hf, Hn. done.
  Qed.
  Lemma query_index_ok ix q : query_ok h q -> (match ix with Some ix => BuildIndex us g = Ok (Some ix) | None => True end) ->
    query_index us ix g q = Ok (if ix then Some (position (entries h) q) else None).
  Proof using Hh Hm. intros Hq Hi. destruct ix as [ix|]; [|done]. unfold query_index. by rewrite (position_ok h us g Hh ix q Hm Hi Hq). Qed.
  Lemma answers_guide_ok fuel ix qs : (length (accepted h) < fuel)%nat -> (match ix with Some ix => BuildIndex us g = Ok (Some ix) | None => True end) ->
    Forall (query_ok h) qs -> ([] ∈ qs -> ~ is_key h []) ->
    forall c, answers_guide fuel us ix g c qs = Ok (map (guide_answer (if ix then true else false) (entries h)) qs).
  Proof using Hh Hm.
    intros Hfu Hix. induction 1 as [|q qs Hq _ IH]; intros H0 c; [done|]. cbn [answers_guide map]. rewrite (query_index_ok ix q Hq Hix). cbn [mbind res_bind].
    destruct (one_guide fuel q c Hfu Hq) as (b & i & c' & Hf & E); [intros ->; apply H0; by left|]. rewrite Hf. cbn [mbind res_bind]. rewrite E. cbn [mbind res_bind].
    rewrite IH by (intros Hin; apply H0; by right). cbn [mbind res_bind]. unfold guide_answer. by destruct ix.
  Qed.
  (** The empty query with the empty key never ends. *)
  Lemma loop_hits key c : cp_Next us g c = Ok (true, c) -> (exists v, cp_Value us c = Ok v) -> forall fuel, comp_hits fuel us g key c = Hang.
  Proof using. intros Hn [v Hv]. induction fuel as [|n IH]; [done|]. cbn [comp_hits]. rewrite Hn. cbn [mbind res_bind negb]. rewrite Hv. cbn [mbind res_bind]. by rewrite IH. Qed.
  Lemma one_hang fuel q c : query_ok h q -> (q = [] -> ~ is_key h []) ->
    exists b i, dc_FollowString us q 0 = Ok (b, i) /\
      ((if (b : bool) then c ← cp_Start g c i; comp_hits fuel us g q c else Ok ([], c)) = Hang \/
       exists l c', (if (b : bool) then c ← cp_Start g c i; comp_hits fuel us g q c else Ok ([], c)) = Ok (l, c')).
  Proof using Hh Hm.
    intros Hq H0. destruct (query_follow h us Hh q guide_made Hq) as [(i & Hf & [Hst|Ha])|(i & Hf & Hn)].
    - exists true, i. split; [done|]. destruct (C65_enumeration h us g q i c [] Hh Hm Hst H0) as (c0 & Hc & Ho). rewrite (proj2 (C39_start_len g c i [] 0 ltac:(done))), Hc. cbn [mbind res_bind].
      pose proof (comp_hits_out us g q c0 _ Ho fuel) as H. destruct (decide _); [right|by left]. destruct H as [c' ->]. by eexists _, _.
    - exists true, i. split; [done|]. rewrite (empty_guide Ha). unfold cp_Start. cbn. destruct fuel; [by left|right]. cbn [comp_hits]. unfold cp_Next. cbn. by eexists _, _.
    - exists false, i. split; [done|]. right. by eexists _, _.
  Qed.
  Lemma answers_guide_hang fuel ix qs : (match ix with Some ix => BuildIndex us g = Ok (Some ix) | None => True end) ->
    Forall (query_ok h) qs -> [] ∈ qs -> is_key h [] -> forall c, answers_guide fuel us ix g c qs = Hang.
  Proof using Hh Hm.
    intros Hix Hqs Hin Hk. induction Hqs as [|q qs Hq _ IH]; intros c; [by apply elem_of_nil in Hin|]. cbn [answers_guide]. rewrite (query_index_ok ix q Hq Hix). cbn [mbind res_bind].
    destruct (decide (q = [])) as [->|Hne].
    - cbn [dc_FollowString mbind res_bind]. rewrite (proj2 (C39_start_len g c 0 [] 0 ltac:(done))). destruct (C66_empty_key_repeats h us g c [] Hh Hm Hk) as (c0 & v & Hc & Hn & _ & Hv & _).
      rewrite Hc. cbn [mbind res_bind]. rewrite loop_hits; [done|done|by exists v].
    - destruct (one_hang fuel q c Hq) as (b & i & Hf & [E|(l & c' & E)]); [done|rewrite Hf; cbn [mbind res_bind]; rewrite E; done|].
      rewrite Hf. cbn [mbind res_bind]. rewrite E. cbn [mbind res_bind]. rewrite IH; [done|]. apply elem_of_cons in Hin as [?|?]; done.
  Qed.
  Lemma all_words_ok ix : BuildIndex us g = Ok (Some ix) -> forall n i, (i + n = length (accepted h))%nat -> N.of_nat (length (accepted h)) < two32 ->
    all_words us g ix n (N.of_nat i) = Ok (map fst (drop i (entries h))).
  Proof using Hh Hm.
    intros Hi. induction n as [|n IH]; intros i Hin Hl; cbn [all_words].
    - rewrite drop_ge by (rewrite map_length; lia). done.
    - destruct (C44_key_at h us g ix (N.of_nat i) Hh Hm Hi) as [_ E]; [lia|]. rewrite E, Nat2N.id. cbn [mbind res_bind].
      destruct (entries h !! i) as [[k v]|] eqn:Ek; [|apply lookup_ge_None in Ek; rewrite map_length in Ek; lia].
      rewrite (drop_S _ _ _ Ek). cbn [fmap option_fmap option_map default fst map]. destruct n as [|n].
      + cbn [all_words mbind res_bind]. rewrite drop_ge; [done|]. rewrite map_length. lia.
      + replace (u32 (N.of_nat i + 1)) with (N.of_nat (S i)) by (unfold u32, two32 in *; rewrite N.mod_small; lia). rewrite IH; [done|lia|done].
  Qed.
End answers.
Section ranked_answers.
  Context (h : list entry) (us : dict) (g : guide) (Hh : hist_ok h) (Hm : made_default h us g).
  Lemma ranked_dawg : exists d, made_dawg h d us.
  Proof using Hm. destruct Hm as (d & sort & _ & Hd & _). by exists d. Qed.
  Lemma ranked_residual q i c : started us h q i -> exists c0 es, rc_Start us g c i = Ok c0 /\ es ≡ₚ with_prefix q (entries h) /\ ranked Z.ltb es.*2 /\
    exists l, routputs us g c0 l /\ map (fun x => (q ++ x.1.1, x.2)) l = map with_nul es.
  Proof using Hh Hm.
    intros Hst. destruct (start_cases Z.ltb h us g Hh (proj1 (made_default_ranked h us g) Hm) q i Hst c []) as (c0 & Hc0 & [(He & -> & ->)|(sort & R & node & es & Hso & HP & HG & Hn & He & Hr & _)]).
    - eexists _, []. split; [exact Hc0|]. rewrite <- residual_prefix, He. split; [done|]. split; [by intros ? ? ? ? ? ?|]. exists []. split; [|done]. eapply rout_end. cbn. done.
    - destruct (routs us R node HP sort Z.ltb Hso g HG es [] _ c0 _ _ eq_refl Hr) as (E' & HE & Ho & Hd). destruct (Hd (ltb_dec sort Hso)) as [Hss _].
      exists c0, (map (fun kv => (q ++ kv.1, Z.of_N kv.2)) E'). split; [exact Hc0|]. split.
      + rewrite <- residual_prefix, He, map_map. cbn [fst snd]. by apply Permutation_map.
      + split.
        * apply ranked_sorted. change (map ?f ?l) with (f <$> l) in *. rewrite <- list_fmap_compose. exact Hss.
        * eexists. split; [exact Ho|]. rewrite !map_map. apply map_ext. intros [k v]. unfold rout_of, with_nul. cbn [fst snd app]. by rewrite <- app_assoc.
  Qed.
  Lemma one_ranked fuel q c : (length (accepted h) < fuel)%nat -> query_ok h q ->
    exists b i c' l, dc_FollowString us q 0 = Ok (b, i) /\
      (if (b : bool) then c ← rc_Start us g c i; rcomp_hits fuel us g q c else Ok ([], c)) = Ok (map with_nul l, c') /\ l ≡ₚ with_prefix q (entries h) /\ ranked Z.ltb l.*2.
  Proof using Hh Hm.
    intros Hfu Hq. destruct ranked_dawg as [d Hd]. destruct (query_follow h us Hh q (made_dawg_made h d us Hd) Hq) as [(i & Hf & [Hst|Ha])|(i & Hf & Hn)].
    - exists true, i. destruct (ranked_residual q i c Hst) as (c0 & es & Hc & Hp & Hr & l & Ho & El). rewrite Hc. cbn [mbind res_bind].
      destruct (rcomp_hits_out us g q c0 l Ho fuel) as [c' Hc'].
      { apply (f_equal length) in El. rewrite !map_length in El. apply Permutation_length in Hp. pose proof (with_prefix_length q (entries h)) as Hl. rewrite map_length in Hl. lia. }
      exists c', es. rewrite Hc', El. done.
    - assert (g = []) as Hg.
      { destruct Hm as (d' & sort & Hso & Hd' & Hg). destruct (C68_ranked_built sort Z.ltb h d' us Hso Hh Hd') as (g' & Hg' & Hl).
        change (BuildRankedGuideCmp sort Z.ltb d' us) with (BuildRankedGuide sort d' us) in Hg'. rewrite Hg in Hg'. injection Hg' as <-. rewrite decide_True in Hl by done. by destruct g. }
      exists true, i. rewrite Hg, Ha. unfold rc_Start. cbn. eexists _, []. split; [done|]. destruct fuel; [lia|]. cbn [rcomp_hits]. split; [by unfold rc_Next|]. split; [done|]. by intros ? ? ? ? ? ?.
    - exists false, i, c, []. rewrite Hn. split; [done|]. split; [done|]. split; [done|]. by intros ? ? ? ? ? ?.
  Qed.
  Lemma answers_ranked_ok fuel qs : (length (accepted h) < fuel)%nat -> Forall (query_ok h) qs ->
    forall c, exists l, answers_ranked fuel us None g c qs = Ok l /\ Forall2 (ranked_answer (entries h)) qs l.
  Proof using Hh Hm.
    intros Hfu. induction 1 as [|q qs Hq _ IH]; intros c; [exists []; split; [done|constructor]|]. cbn [answers_ranked query_index mbind res_bind].
    destruct (one_ranked fuel q c Hfu Hq) as (b & i & c' & l & Hf & E & Hp & Hr). rewrite Hf. cbn [mbind res_bind]. rewrite E. cbn [mbind res_bind].
    destruct (IH c') as (l' & -> & Hl'). cbn [mbind res_bind]. eexists. split; [done|]. constructor; [|done]. by exists l.
  Qed.
End ranked_answers.
