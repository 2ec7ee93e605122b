(** Dictionaries built from histories. *)
From Verif Require Import Go BitPool LinkTable Dawg DawgRep Tree DawgSpec TreeFacts DawgAbs Dict DictUnit DictX DictGrow DictInv DictBuild DictDfs DictMain DictRead DictSpec.
Local Open Scope N_scope.
Local Ltac Zify.zify_post_hook ::= Z.div_mod_to_equations.
Local Arguments N.mul : simpl never.
Local Arguments N.add : simpl never.
Local Arguments N.of_nat : simpl never.
Local Arguments N.lxor : simpl never.

(** ** Entries of a tree and of a history *)
Section hist.
  Context (h : list entry) (R : edges) (He : ent_es R = map nentry (accepted h)) (Hw : wfe R).
  Lemma entry_in k v : (k, v) ∈ entries h <-> exists n, (k, n) ∈ ent_es R /\ v = Z.of_N n.
  Proof.
    rewrite He. split.
    - intros H. apply elem_of_list_fmap_2 in H as ([k' v'] & [= -> ->] & H). exists (nval v'). split; [|unfold nval, kept; lia].
      apply elem_of_list_fmap. by exists (k', v').
    - intros (n & H & ->). apply elem_of_list_fmap_2 in H as ([k' v'] & [= -> ->] & H). apply elem_of_list_fmap. exists (k', v'). split; [|done].
      unfold kept_entry. cbn. f_equal. unfold nval, kept. lia.
  Qed.
  Lemma entry_tnode k v : (k, v) ∈ entries h <-> exists es n, tnode R k es /\ (0, Leaf n) ∈ es /\ v = Z.of_N n.
  Proof.
    rewrite entry_in. split.
    - intros (n & H & ->). apply ent_in in H as (es & ? & ?); [|done]. by exists es, n.
    - intros (es & n & H1 & H2 & ->). exists n. split; [|done]. apply ent_in; [done|]. by exists es.
  Qed.
  Lemma prefix_tnode p : R <> [] -> key_prefix h p <-> exists es, tnode R p es.
  Proof.
    intros Hne. split.
    - intros (k & v & Hk & [t ->]). apply entry_tnode in Hk as (es & n & Ht & _). apply tnode_split in Ht as (a & ? & _). by exists a.
    - intros [es Ht]. destruct (tnode_wf _ _ _ Hw Ht) as [Hwe Hpe]. assert (Hes : es <> []).
      { destruct p; [|by apply Hpe]. inversion Ht; by subst. }
      destruct (tnode_key es) as (k & es' & n & Hk & Hn); [by apply wf_wfe|]. exists (p ++ k), (Z.of_N n). split; [|by apply prefix_app_r].
      apply entry_tnode. exists es', n. split; [by eapply tnode_app|done].
  Qed.
  Lemma nil_iff : R = [] <-> accepted h = [].
  Proof.
    split.
    - intros ->. cbn in He. destruct (accepted h); [done|]. done.
    - intros Ha. destruct (decide (R = [])) as [|Hne]; [done|]. destruct (tnode_key R) as (k & es' & n & Hk & Hn); [by apply wf_wfe|].
      assert (H : (k, n) ∈ ent_es R) by (apply ent_in; [done|]; by exists es'). rewrite He, Ha in H. by apply elem_of_nil in H.
  Qed.
  Lemma entry_fun k v v' : (k, v) ∈ entries h -> (k, v') ∈ entries h -> v = v'.
  Proof.
    intros (es & n & Ht & Hn & ->)%entry_tnode (es' & n' & Ht' & Hn' & ->)%entry_tnode.
    assert (es = es') as <- by (by eapply tnode_fun). destruct (tnode_wf _ _ _ Hw Ht) as [Hwe _].
    by pose proof (wfe_lab _ _ _ _ Hwe Hn Hn') as [= ->].
  Qed.
End hist.
Lemma entries_fun h k v v' : hist_ok h -> (k, v) ∈ entries h -> (k, v') ∈ entries h -> v = v'.
Proof.
  intros Hh. destruct (build_abs h Hh) as (R & x & He & _ & Hd). destruct (Hd 1%Z NewDawg) as (d & _ & HD); [lia|].
  apply (entry_fun h R He). apply wfe_or. apply HD.
Qed.

(** ** The empty dictionary *)
Lemma empty_get i : i < 256 -> get empty_units i = Ok (if i =? 0 then 1024 else N.lxor i 1).
Proof.
  intros Hi. unfold get, empty_units. destruct (N.eqb_spec i 0) as [->|Hne]; [done|].
  destruct (N.to_nat i) as [|n] eqn:E; [lia|]. assert (n < 255)%nat as Hn by lia.
  assert (El : (1024 :: map (fun i : nat => N.lxor (N.of_nat i) 1) (seq 1 255)) !! S n = Some (N.lxor (N.of_nat (1 + n)) 1)).
  { change ((1024 :: ?l) !! S n) with (l !! n). change (map ?f ?l) with (f <$> l). rewrite list_lookup_fmap, lookup_seq_lt by done. done. }
  rewrite El. do 2 f_equal. lia.
Qed.
Lemma xor1_lt i l : i < 256 -> l < 256 -> N.lxor i l < 256.
Proof. intros Hi Hl. pose proof (lxor_lt i l 1 Hl). lia. Qed.
Lemma small_unit u : u < 256 -> dictOffset u = 0 /\ dictLabel u = u /\ dictHasLeaf u = false.
Proof.
  intros Hu. split; [|split].
  - rewrite dictOffset_eq. assert (N.testbit u 9 = false) as -> by (apply (proj1 (lt_bits 8 u)); [done|lia]).
    rewrite N.shiftr_div_pow2. rewrite N.div_small; [done|]. change (2 ^ 10) with 1024. lia.
  - rewrite dictLabel_mod. lia.
  - rewrite dictHasLeaf_bit. apply (proj1 (lt_bits 8 u)); [done|lia].
Qed.
(** From a unit i < 256: the root and unit 1 go everywhere except by label 1, any other unit nowhere. *)
Lemma empty_follow i l : i < 256 -> l < 256 -> dc_Follow empty_units l i =
  Ok (if (i <=? 1) && negb (l =? 1) then (true, N.lxor 1 l) else (false, i)).
Proof.
  intros Hi Hl. unfold dc_Follow. rewrite empty_get by done. cbn [mbind res_bind]. cbv zeta.
  assert (Ho : N.lxor i (dictOffset (if i =? 0 then 1024 else N.lxor i 1)) = if i =? 0 then 1 else i).
  { destruct (N.eqb_spec i 0) as [->|Hne]; [done|]. destruct (small_unit (N.lxor i 1)) as (-> & _); [apply xor1_lt; lia|]. apply N.lxor_0_r. }
  rewrite Ho. assert (Hj : N.lxor (if i =? 0 then 1 else i) l < 256) by (apply xor1_lt; [destruct (i =? 0); lia|done]).
  rewrite empty_get by done. cbn [mbind res_bind]. set (j := N.lxor (if i =? 0 then 1 else i) l) in *.
  assert (Hlab : dictLabel (if j =? 0 then 1024 else N.lxor j 1) = if j =? 0 then 0 else N.lxor j 1).
  { destruct (N.eqb_spec j 0); [done|]. destruct (small_unit (N.lxor j 1)) as (_ & -> & _); [apply xor1_lt; lia|done]. }
  rewrite Hlab. destruct (N.leb_spec i 1) as [Hi1|Hi1]; cbn [andb].
  - assert (Hj1 : j = N.lxor 1 l) by (unfold j; destruct (N.eqb_spec i 0); [done|]; by replace i with 1 by lia). clearbody j. subst j.
    destruct (N.eqb_spec l 1) as [->|Hl1]; [rewrite N.lxor_nilpotent; cbn; destruct (N.eqb_spec i 0) as [->|]; done|]. cbn [negb].
    destruct (N.eqb_spec (N.lxor 1 l) 0) as [H0|H0]; [apply N.lxor_eq in H0; lia|].
    rewrite (N.lxor_comm 1 l), lxor_cancel, N.eqb_refl. cbn [negb]. done.
  - assert (Hj1 : j = N.lxor i l) by (unfold j; destruct (N.eqb_spec i 0); [lia|done]). clearbody j. subst j.
    destruct (N.eqb_spec (N.lxor i l) 0) as [H0|H0].
    + apply N.lxor_eq in H0. subst l. destruct (N.eqb_spec 0 i); [lia|done].
    + destruct (N.eqb_spec (N.lxor (N.lxor i l) 1) l) as [H1|H1]; [|done]. exfalso. rewrite N.lxor_assoc, (N.lxor_comm l 1), <- N.lxor_assoc in H1.
      apply lxor_eq_iff in H1. rewrite N.lxor_nilpotent in H1. apply N.lxor_eq in H1. lia.
Qed.
Lemma empty_nofollow q : forall i, 1 < i < 256 -> bytes q -> dc_FollowString empty_units q i = Ok (if q then true else false, i).
Proof.
  intros i Hi Hq. destruct q as [|c q]; [done|]. apply Forall_cons in Hq as [Hc _]. cbn [dc_FollowString].
  rewrite empty_follow by lia. destruct (N.leb_spec i 1); [lia|]. done.
Qed.
Lemma empty_string q : forall i, i <= 1 -> bytes q -> exists b j, dc_FollowString empty_units q i = Ok (b, j) /\ j < 256 /\
  (b = true <-> q = [] \/ exists n l, q = repeat 0 n ++ [l] /\ l <> 1).
Proof.
  induction q as [|c q IH]; intros i Hi Hq; [exists true, i; split; [done|]; split; [lia|]; split; [by left|done]|].
  apply Forall_cons in Hq as [Hc Hq]. cbn [dc_FollowString]. rewrite empty_follow by lia. destruct (N.leb_spec i 1); [|lia]. cbn [andb].
  destruct (N.eqb_spec c 1) as [->|Hc1]; cbn [negb mbind res_bind].
  - exists false, i. split; [done|]. split; [lia|]. split; [done|]. intros [?|(n & l & E & Hl)]; [done|]. destruct n; cbn in E; congruence.
  - destruct (N.eq_dec c 0) as [->|Hc0].
    + change (N.lxor 1 0) with 1. destruct (IH 1) as (b & j & -> & Hj & Hb); [lia|done|]. exists b, j. split; [done|]. split; [done|]. rewrite Hb. split.
      * intros [->|(n & l & -> & Hl)]; right; [exists O, 0; done|]. exists (S n), l. done.
      * intros [?|(n & l & E & Hl)]; [done|]. destruct n as [|n]; cbn in E; [left; congruence|]. right. exists n, l. split; [congruence|done].
    + assert (Hx : N.lxor 1 c < 256) by (apply xor1_lt; lia).
      assert (1 < N.lxor 1 c).
      { destruct (N.eq_dec (N.lxor 1 c) 0) as [E|]; [apply N.lxor_eq in E; lia|]. destruct (N.eq_dec (N.lxor 1 c) 1) as [E|]; [|lia].
        rewrite N.lxor_comm in E. apply lxor_eq_iff in E. by rewrite N.lxor_nilpotent in E. }
      rewrite empty_nofollow by done. eexists _, _. split; [done|]. split; [done|]. split.
      * destruct q; [|done]. intros _. right. by exists O, c.
      * intros [?|(n & l & E & Hl)]; [done|]. destruct n as [|n]; cbn in E; [by injection E as -> ->|]. congruence.
Qed.
Lemma empty_hasvalue i : i < 256 -> dc_HasValue empty_units i = Ok false.
Proof.
  intros Hi. unfold dc_HasValue. rewrite empty_get by done. cbn [mbind res_bind]. f_equal. destruct (N.eqb_spec i 0); [done|].
  apply small_unit. apply xor1_lt; lia.
Qed.

(** ** Built dictionaries *)
Lemma build_cases size h d0 : size_ok size -> hist_ok h -> exists R, ent_es R = map nentry (accepted h) /\ wfe R /\
  ((R = [] /\ build_dict size h d0 = Ok (Some (empty_units, 255))) \/
   (R <> [] /\ ((exists b nb asg ff, build_dict size h d0 = Ok (Some (db_units b, db_unused b)) /\
      binv b nb (nb - 16) (256 * N.of_nat nb) R asg [] ff /\ (1 <= nb)%nat) \/
    (build_dict size h d0 = Ok None /\ 2097152 < N.of_nat (1 + length (nodes (Node R))))))).
Proof.
  intros Hs Hh. destruct (build_abs h Hh) as (R & x & He & _ & Hd). destruct (Hd size d0 Hs) as (d & Hbd & HD).
  exists R. split; [done|]. split; [apply wfe_or; apply HD|]. unfold build_dict. rewrite Hbd. cbn [mbind res_bind]. unfold dict_BuildWithUnused.
  destruct (decide (R = [])) as [->|Hne].
  - left. split; [done|]. by eapply build_empty.
  - right. split; [done|]. destruct (build_nonempty d R x HD Hne) as [(b & nb & asg & ff & H1 & H2 & H3)|[H1 H2]].
    + left. exists b, nb, asg, ff. split; [done|]. split; [done|lia].
    + right. exact (conj H1 H2).
Qed.
(** What the readers need of the units: they hold the entries of h. *)
Definition view (h : list entry) (us : dict) : Prop := exists R, ent_es R = map nentry (accepted h) /\ wfe R /\
  ((R = [] /\ us = empty_units) \/
   (R <> [] /\ exists b nb asg ff, us = db_units b /\ binv b nb (nb - 16) (256 * N.of_nat nb) R asg [] ff)).
Lemma made_cases h us : hist_ok h -> made h us -> view h us.
Proof.
  intros Hh (size & d0 & un & Hs & Hb). destruct (build_cases size h d0 Hs Hh) as (R & He & Hw & [[HR Hb']|[HR [(b & nb & asg & ff & Hb' & HB & _)|[Hb' _]]]]);
    rewrite Hb in Hb'; try done; exists R; (split; [done|]); (split; [done|]).
  - left. split; [done|congruence].
  - right. split; [done|]. exists b, nb, asg, ff. split; [congruence|done].
Qed.

Section view.
  Context (h : list entry) (us : dict) (Hm : view h us).
  (** Every accepted key and each of its prefixes are found, always. *)
  Lemma view_prefix p : key_prefix h p -> exists j, dc_FollowString us p 0 = Ok (true, j) /\
    (forall v, (p, v) ∈ entries h -> dc_HasValue us j = Ok true /\ dc_Value us j = Ok v) /\
    (~ is_key h p -> dc_HasValue us j = Ok false).
  Proof.
    intros Hp. destruct Hm as (R & He & Hw & [[-> _]|(HR & b & nb & asg & ff & -> & HB)]).
    - destruct Hp as (k & v & Hk & _). apply (entry_in h [] He) in Hk as (n & Hk & _). by apply elem_of_nil in Hk.
    - destruct (proj1 (prefix_tnode h R He Hw p HR) Hp) as [es Ht]. destruct (FollowString_hit _ _ _ _ _ HB 0 R p es (dn_root _ _) Ht) as (j & Hj & Hd).
      exists j. split; [done|]. pose proof (dn_wf _ _ _ _ _ HB _ _ Hd) as Hwe. apply wf_wfe in Hwe as [_ Hwe]. split.
      + intros v Hv. apply (entry_tnode h R He Hw) in Hv as (es' & n & Ht' & Hn & ->). assert (es = es') as <- by (by apply (tnode_fun R p)).
        split; [|by eapply Value_dn]. rewrite (HasValue_dn _ _ _ _ _ HB _ _ Hd). f_equal. apply has0_in; [done|by exists n].
      + intros Hn. rewrite (HasValue_dn _ _ _ _ _ HB _ _ Hd). f_equal. destruct (has0 es) eqn:E; [|done]. exfalso. apply Hn.
        apply has0_in in E as [n E]; [|done]. exists (Z.of_N n). apply (entry_tnode h R He Hw). by exists es, n.
  Qed.
  Lemma view_key k v : (k, v) ∈ entries h -> dc_ContainsString us k = Ok true /\ dc_FindString us k = Ok v /\
    forall w, dc_FindStringValue us k w = Ok (true, v).
  Proof.
    intros Hk. destruct (view_prefix k) as (j & Hj & Hv & _); [exists k, v; done|]. destruct (Hv v Hk) as [H1 H2].
    unfold dc_ContainsString, dc_FindString, dc_FindStringValue. rewrite Hj. cbn [mbind res_bind negb]. rewrite H1. cbn [mbind res_bind negb].
    rewrite H2. done.
  Qed.
  (** Safe queries. *)
  Lemma view_follow q : bytes q -> safe h q -> exists b j, dc_FollowString us q 0 = Ok (b, j) /\
    (accepted h <> [] -> b = true <-> key_prefix h q) /\
    (b = true -> dc_HasValue us j = Ok false \/ exists v, (q, v) ∈ entries h) /\ (key_prefix h q -> b = true).
  Proof.
    intros Hq Hs. destruct Hm as (R & He & Hw & [[-> ->]|(HR & b & nb & asg & ff & -> & HB)]).
    - destruct (empty_string q 0) as (b & j & Hf & Hj & _); [lia|done|]. exists b, j. split; [done|]. split; [|split].
      + intros Ha. by rewrite (proj1 (nil_iff h [] He Hw) eq_refl) in Ha.
      + intros _. left. by apply empty_hasvalue.
      + intros (k & v & Hk & _). apply (entry_in h [] He) in Hk as (n & Hk & _). by apply elem_of_nil in Hk.
    - assert (Hc : clean asg R q).
      { intros p c t es1 -> Ht Hno v Hv Hmod. destruct (stored_ent _ _ _ _ _ HB v Hv) as [k Hk]. apply (Hs p c t eq_refl) with (k := k) (v := Z.of_N v).
        - right. apply (prefix_tnode h R He Hw p HR). by exists es1.
        - intros Hp. apply (prefix_tnode h R He Hw _ HR) in Hp as [es2 Ht2]. apply tnode_split in Ht2 as (es3 & Ht3 & Ht2).
          rewrite (tnode_fun R p es1 es3) in Hno by done. inversion Ht2 as [|? ? es4 ? ? Hin]; subst. by apply Hno in Hin.
        - apply (entry_in h R He). by exists v.
        - lia. }
      destruct (FollowString_clean _ _ _ _ _ HB q 0 R (dn_root _ _) Hq Hc) as [(j & es' & Hf & Ht & Hd)|(j & Hf & Hno)].
      + assert (Hp : key_prefix h q) by (apply (prefix_tnode h R He Hw q HR); by exists es'). exists true, j. split; [done|]. split; [done|]. split; [|done].
        intros _. rewrite (HasValue_dn _ _ _ _ _ HB _ _ Hd). destruct (has0 es') eqn:E; [right|by left].
        apply has0_in in E as [n E]; [|apply (tnode_wf R q es'); done]. exists (Z.of_N n). apply (entry_tnode h R He Hw). by exists es', n.
      + exists false, j. split; [done|]. assert (Hp : ~ key_prefix h q).
        { intros [es Ht]%(prefix_tnode h R He Hw q HR). by apply (Hno es). }
        split; [|split]; [done|done|]. intros H. by apply Hp in H.
  Qed.
  Lemma view_lookup q : bytes q -> safe h q ->
    (exists v, (q, v) ∈ entries h /\ dc_ContainsString us q = Ok true /\ dc_FindString us q = Ok v /\ forall w, dc_FindStringValue us q w = Ok (true, v)) \/
    (~ is_key h q /\ dc_ContainsString us q = Ok false /\ dc_FindString us q = Ok (-1)%Z /\ forall w, dc_FindStringValue us q w = Ok (false, w)).
  Proof.
    intros Hq Hs. destruct (view_follow q Hq Hs) as (b & j & Hf & _ & Hv & Hp).
    assert (Hk : (exists v, (q, v) ∈ entries h) -> exists v, (q, v) ∈ entries h /\ dc_ContainsString us q = Ok true /\ dc_FindString us q = Ok v /\
       forall w, dc_FindStringValue us q w = Ok (true, v)).
    { intros [v H]. exists v. split; [done|]. by apply view_key. }
    destruct b.
    - destruct (Hv eq_refl) as [Hn|H]; [|left; by apply Hk]. right. split.
      + intros H. destruct (Hk H) as (v & _ & Hc & _). unfold dc_ContainsString in Hc. rewrite Hf in Hc. cbn [mbind res_bind negb] in Hc. congruence.
      + unfold dc_ContainsString, dc_FindString, dc_FindStringValue. rewrite Hf. cbn [mbind res_bind negb]. rewrite Hn. cbn [mbind res_bind negb]. done.
    - right. split.
      + intros [v H]. assert (false = true) by (apply Hp; by exists q, v). done.
      + unfold dc_ContainsString, dc_FindString, dc_FindStringValue. rewrite Hf. done.
  Qed.
End view.
Section dict.
  Context (h : list entry) (us : dict) (Hh : hist_ok h) (Hm : made h us).
  Lemma follow_prefix p : key_prefix h p -> exists j, dc_FollowString us p 0 = Ok (true, j) /\
    (forall v, (p, v) ∈ entries h -> dc_HasValue us j = Ok true /\ dc_Value us j = Ok v) /\
    (~ is_key h p -> dc_HasValue us j = Ok false).
  Proof using Hh Hm. apply view_prefix, (made_cases h us Hh Hm). Qed.
  Lemma find_key k v : (k, v) ∈ entries h -> dc_ContainsString us k = Ok true /\ dc_FindString us k = Ok v /\
    forall w, dc_FindStringValue us k w = Ok (true, v).
  Proof using Hh Hm. apply view_key, (made_cases h us Hh Hm). Qed.
  Lemma safe_follow q : bytes q -> safe h q -> exists b j, dc_FollowString us q 0 = Ok (b, j) /\
    (accepted h <> [] -> b = true <-> key_prefix h q) /\
    (b = true -> dc_HasValue us j = Ok false \/ exists v, (q, v) ∈ entries h) /\ (key_prefix h q -> b = true).
  Proof using Hh Hm. apply view_follow, (made_cases h us Hh Hm). Qed.
  Lemma safe_lookup q : bytes q -> safe h q ->
    (exists v, (q, v) ∈ entries h /\ dc_ContainsString us q = Ok true /\ dc_FindString us q = Ok v /\ forall w, dc_FindStringValue us q w = Ok (true, v)) \/
    (~ is_key h q /\ dc_ContainsString us q = Ok false /\ dc_FindString us q = Ok (-1)%Z /\ forall w, dc_FindStringValue us q w = Ok (false, w)).
  Proof using Hh Hm. apply view_lookup, (made_cases h us Hh Hm). Qed.
End dict.

(** ** The lookup variants, whatever the units *)
Lemma Follow_nohang us c i : dc_Follow us c i <> Hang.
Proof.
  unfold dc_Follow, get. destruct (us !! N.to_nat i); cbn [mbind res_bind]; [|done]. cbv zeta. destruct (us !! _); cbn [mbind res_bind]; [|done].
  by destruct (negb _).
Qed.
Lemma FollowString_nohang us q : forall i, dc_FollowString us q i <> Hang.
Proof.
  induction q as [|c q IH]; intros i; [done|]. cbn [dc_FollowString]. pose proof (Follow_nohang us c i) as Hn.
  destruct (dc_Follow us c i) as [[[] j]| |]; cbn [mbind res_bind]; done || apply IH.
Qed.
Lemma Value_nonneg us i v : Forall (fun u => u < two32) us -> dc_Value us i = Ok v -> (0 <= v)%Z.
Proof.
  intros Hu. unfold dc_Value, get. destruct (us !! N.to_nat i); cbn [mbind res_bind]; [|done].
  destruct (us !! N.to_nat (N.lxor i (dictOffset n))) as [u|] eqn:E; cbn [mbind res_bind]; [|done]. intros [= <-].
  rewrite dictValue_mod; [lia|]. rewrite Forall_lookup in Hu. by eapply Hu.
Qed.
Lemma variants us q w : Forall (fun u => u < two32) us ->
  match dc_FindString us q with
  | Ok v => ((0 <= v)%Z /\ dc_ContainsString us q = Ok true /\ dc_FindStringValue us q w = Ok (true, v)) \/
            (v = (-1)%Z /\ dc_ContainsString us q = Ok false /\ dc_FindStringValue us q w = Ok (false, w))
  | Panic => dc_FindStringValue us q w = Panic /\ (dc_ContainsString us q = Panic \/ dc_ContainsString us q = Ok true)
  | Hang => False
  end.
Proof.
  intros Hu. unfold dc_ContainsString, dc_FindString, dc_FindStringValue. pose proof (FollowString_nohang us q 0) as Hn.
  destruct (dc_FollowString us q 0) as [[[] j]| |]; cbn [mbind res_bind negb]; [|by right|by split; [|left]|done].
  unfold dc_HasValue, get. destruct (us !! N.to_nat j) as [u|] eqn:E; cbn [mbind res_bind]; [|by split; [|left]].
  destruct (dictHasLeaf u); cbn [negb]; [|by right]. pose proof (Value_nonneg us j) as Hv. destruct (dc_Value us j) as [v| |] eqn:Ev; cbn [mbind res_bind].
  - left. split; [by apply Hv|done].
  - split; [done|by right].
  - unfold dc_Value, get in Ev. rewrite E in Ev. cbn [mbind res_bind] in Ev. destruct (us !! N.to_nat (N.lxor j (dictOffset u))); done.
Qed.
Lemma variants_len us q n : (0 <= n <= Z.of_nat (length q))%Z ->
  dc_ContainsStringLen us q n = dc_ContainsString us (take (Z.to_nat n) q) /\
  dc_FindStringLen us q n = dc_FindString us (take (Z.to_nat n) q) /\
  (forall w, dc_FindStringLenValue us q n w = dc_FindStringValue us (take (Z.to_nat n) q) w) /\
  (forall i, dc_FollowStringLen us q n i = dc_FollowString us (take (Z.to_nat n) q) i) /\
  (forall i c, dc_FollowStringLenCount us q n i c = dc_FollowStringCount us (take (Z.to_nat n) q) i c).
Proof.
  intros Hn. unfold dc_ContainsStringLen, dc_FindStringLen, dc_FindStringLenValue. rewrite FollowLen_take by done.
  split; [done|]. split; [done|]. split; [done|]. split; [intros i; by apply FollowLen_take|].
  intros i c. unfold dc_FollowStringLenCount. rewrite follow_len_take by lia. by rewrite drop_0.
Qed.

(** ** Sizes *)
Lemma pn_nodes s : length (pn s) = length (nodes s).
Proof.
  induction s as [v|es IH] using sub_ind'; [done|]. cbn [pn nodes length]. f_equal. induction IH as [|e es He _ IH]; [done|].
  cbn [map concat]. rewrite !app_length, map_length. cbn in *. congruence.
Qed.
Lemma prefix_count h R L : ent_es R = map nentry (accepted h) -> wfe R -> R <> [] -> enumerates L (key_prefix h) -> length L = length (nodes (Node R)).
Proof.
  intros He Hw HR [HL1 HL2]. assert (Hperm : L ≡ₚ (pn (Node R)).*1).
  { apply NoDup_Permutation; [done|apply pn_nodup; by apply wf_wfe|]. intros p. rewrite HL2, (prefix_tnode h R He Hw p HR). split.
    - intros [es Ht]. apply elem_of_list_fmap. exists (p, es). split; [done|]. by apply tnode_pn.
    - intros H. apply elem_of_list_fmap_2 in H as ([p' es] & -> & H). apply pn_in in H as (es' & [= <-] & Ht). by exists es. }
  apply Permutation_length in Hperm. rewrite fmap_length, pn_nodes in Hperm. exact Hperm.
Qed.
Lemma size_facts size h d0 : size_ok size -> hist_ok h -> exists r, build_dict size h d0 = Ok r /\
  (forall L, enumerates L (key_prefix h) -> N.of_nat (length L) < 2097152 -> r <> None) /\
  forall us unused, r = Some (us, unused) ->
    (N.of_nat (length us) mod 256 = 0 /\ 256 <= N.of_nat (length us) <= 536870912 /\ Forall (fun u => u < two32) us) /\
    exists L, enumerates L (fun i => i < N.of_nat (length us) /\ ~ unit_used h us i) /\ unused = N.of_nat (length L).
Proof.
  intros Hs Hh. destruct (build_cases size h d0 Hs Hh) as (R & He & Hw & [[-> Hb]|[HR [(b & nb & asg & ff & Hb & HB & Hnb)|[Hb Hbig]]]]); rewrite Hb.
  - eexists. split; [done|]. split; [done|]. intros us un [= <- <-]. split; [split; [done|]; split; [done|]|].
    + apply Forall_lookup. intros i u Hu. assert (Hi : N.of_nat i < 256).
      { apply lookup_lt_Some in Hu. unfold empty_units in Hu. cbn in Hu. lia. }
      pose proof (empty_get (N.of_nat i) Hi) as Hg. unfold get in Hg. rewrite Nat2N.id, Hu in Hg. injection Hg as ->. unfold two32.
      destruct (N.of_nat i =? 0); [lia|]. pose proof (xor1_lt (N.of_nat i) 1 Hi). lia.
    + exists (map N.of_nat (seq 1 255)). split; [|done]. split; [apply NoDup_fmap; [typeclasses eauto|apply NoDup_seq]|].
      intros i. assert (Hnone : forall k v, (k, v) ∉ entries h).
      { intros k v Hk. apply (entry_in h [] He) in Hk as (n & Hk & _). by apply elem_of_nil in Hk. }
      assert (Hu : unit_used h empty_units i <-> i = 0).
      { split; [|by left]. intros [?|[(p & (k & v & Hk & _) & _)|(k & j & u & [v Hk] & _)]]; [done| |]; by apply Hnone in Hk. }
      rewrite Hu. change (length empty_units) with 256%nat. split.
      * intros H. apply elem_of_list_fmap_2 in H as (n & -> & Hin). apply elem_of_seq in Hin. lia.
      * intros [H1 H2]. apply elem_of_list_fmap. exists (N.to_nat i). rewrite N2Nat.id. split; [done|]. apply elem_of_seq. lia.
  - eexists. split; [done|]. split; [done|]. intros us un [= <- <-]. rewrite (us_len _ _ _ _ _ HB).
    pose proof (xi_lim _ _ _ (bi_x _ _ _ _ _ _ _ _ HB)) as Hlim. split; [split; [lia|split; [lia|apply (bi_u _ _ _ _ _ _ _ _ HB)]]|].
    exists ff. split; [|apply HB]. split; [apply (bi_u _ _ _ _ _ _ _ _ HB)|]. intros i. rewrite (ff_unused _ _ _ _ _ HB).
    assert (Hu : reached b R i <-> unit_used h (db_units b) i).
    { unfold reached, unit_used. split.
      - intros [(p & es & Ht & Hf)|(p & es & v & j & u & Ht & Hv & Hf & Hu & ->)]; right; [left|right].
        + exists p. split; [|done]. apply (prefix_tnode h R He Hw p HR). by exists es.
        + exists p, j, u. split; [|done]. exists (Z.of_N v). apply (entry_tnode h R He Hw). by exists es, v.
      - intros [->|[(p & Hp & Hf)|(k & j & u & [v Hk] & Hf & Hu & ->)]].
        + left. exists [], R. split; [constructor|done].
        + left. apply (prefix_tnode h R He Hw p HR) in Hp as [es Ht]. by exists p, es.
        + right. apply (entry_tnode h R He Hw) in Hk as (es & n & Ht & Hn & _). by exists k, es, n, j, u. }
    rewrite Hu. split; intros [? ?]; (split; [lia|done]).
  - eexists. split; [done|]. split; [|done]. intros L HL Hlt. exfalso. rewrite (prefix_count h R L He Hw HR HL) in Hlt. lia.
Qed.
