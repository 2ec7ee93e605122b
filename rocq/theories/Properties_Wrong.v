(** Property C118 of dictionary.go: lookups that leave the keys.  [safe] of C60
    excludes every byte that is the low byte of some value; here no query is
    excluded. *)
From Verif Require Import Go Dawg DawgSpec Dict DictUnit DictMain DictRead DictSpec DictThms DictWrong Properties_Dict.
Local Open Scope N_scope.
Local Arguments N.mul : simpl never.
Local Arguments N.add : simpl never.
Local Arguments N.of_nat : simpl never.
Local Ltac by_vm := lazymatch goal with |- _ /\ _ => split; [vm_compute; reflexivity|by_vm] | _ => vm_compute; reflexivity end.
Local Ltac made_vm := eapply dict_of_made; vm_compute; reflexivity.

(** Byte [c] after the prefix [p] leads to unit [j], which holds the value [v] of
    the key [k], whose low byte is [c]. *)
Definition lands (h : list entry) (us : dict) (p : list N) (c : N) (k : list N) (v : Z) (j : N) : Prop :=
  exists i u, dc_FollowString us p 0 = Ok (true, i) /\ us !! N.to_nat i = Some u /\ j = N.lxor (N.lxor i (dictOffset u)) c /\
    value_unit h us k v j /\ (v mod 256)%Z = Z.of_N c.
(** The longest prefix of [q] that is one of a key is [p]; [c] comes next, then [t]. *)
Definition leaves (h : list entry) (q p : list N) (c : N) (t : list N) : Prop :=
  q = p ++ c :: t /\ key_prefix h p /\ ~ key_prefix h (p ++ [c]).

Lemma key_prefix_dec h p : {key_prefix h p} + {~ key_prefix h p}.
Proof.
  destruct (decide (Exists (fun e => p `prefix_of` e.1) (entries h))) as [H|H]; [left|right].
  - apply Exists_exists in H as ([k v] & Hk & Hp). by exists k, v.
  - intros (k & v & Hk & Hp). apply H, Exists_exists. by exists (k, v).
Qed.
Lemma leaves_or h q : forall p, key_prefix h p -> key_prefix h (p ++ q) \/ exists p' c t, leaves h (p ++ q) p' c t.
Proof.
  induction q as [|c q IH]; intros p Hp; [left; by rewrite app_nil_r|].
  destruct (key_prefix_dec h (p ++ [c])) as [H|H].
  - destruct (IH _ H) as [Hq|Hq]; rewrite <- app_assoc in Hq; [by left|by right].
  - right. by exists p, c, q.
Qed.
Lemma prefix_less h p q : key_prefix h q -> p `prefix_of` q -> key_prefix h p.
Proof. intros (k & v & Hk & Hq) Hp. exists k, v. split; [done|]. by transitivity q. Qed.
Lemma leaves_not h q p c t : leaves h q p c t -> ~ key_prefix h q.
Proof. intros (-> & _ & Hn) Hq. apply Hn. apply (prefix_less _ _ _ Hq). exists t. by rewrite <- app_assoc. Qed.
Lemma leaves_fun h q p c t p' c' t' : leaves h q p c t -> leaves h q p' c' t' -> p = p' /\ c = c' /\ t = t'.
Proof.
  intros (-> & Hp & Hn) (E & Hp' & Hn'). revert p' E Hp' Hn'. revert Hp Hn.
  assert (G : forall a p p', p ++ c :: t = p' ++ c' :: t' -> key_prefix h (a ++ p) -> ~ key_prefix h (a ++ p ++ [c]) ->
    key_prefix h (a ++ p') -> ~ key_prefix h (a ++ p' ++ [c']) -> p = p' /\ c = c' /\ t = t').
  { clear p. intros a p. revert a. induction p as [|x p IH]; intros a [|x' p'] E H1 H2 H3 H4; cbn in E; injection E as <- E.
    - by rewrite E.
    - exfalso. apply H2. apply (prefix_less _ _ _ H3). exists p'. by rewrite <- app_assoc.
    - exfalso. apply H4. apply (prefix_less _ _ _ H1). exists p. by rewrite <- app_assoc.
    - destruct (IH (a ++ [x]) p' E) as (-> & -> & ->); rewrite <- ?app_assoc; done. }
  intros H1 H2 p' E H3 H4. by apply (G [] p p').
Qed.

(** C118. The step that leaves the keys: on to the unit of a value with that low
    byte, if the byte leads to one, and otherwise the lookup stops there. *)
Theorem C118_step h us q p c t : hist_ok h -> made h us -> bytes q -> leaves h q p c t ->
  (forall k v j, lands h us p c k v j -> dc_FollowString us q 0 = dc_FollowString us t j /\ dc_HasValue us j = Ok (Z.testbit v 8)) /\
  ((forall k v j, ~ lands h us p c k v j) -> exists i, dc_FollowString us p 0 = Ok (true, i) /\ dc_FollowString us q 0 = Ok (false, i)).
Proof.
  intros Hh Hm Hq (-> & Hp & Hn). apply Forall_app in Hq as [_ Hq]. apply Forall_cons in Hq as [Hc _]. split.
  - intros k v j (i & u & Hi & Hu & Hj & Hv & Hl). pose proof (value_unit_at h us Hh Hm k v j Hv) as Hju. split.
    + rewrite FollowString_app, Hi. cbn [mbind res_bind dc_FollowString]. unfold dc_Follow, get. rewrite Hu. cbn [mbind res_bind]. cbv zeta.
      rewrite <- Hj, Hju. cbn [mbind res_bind]. pose proof (setValue_label v) as Hlab. rewrite Hl in Hlab. apply N2Z.inj in Hlab.
      by rewrite Hlab, N.eqb_refl.
    + unfold dc_HasValue, get. rewrite Hju. cbn [mbind res_bind]. by rewrite value_hasleaf.
  - intros Hno. destruct (wrong_step h us Hh Hm p c Hp Hc Hn) as (i & u & Hi & Hu & [(Hf & k & v & Hv & Hl)|(Hf & _)]).
    + exfalso. eapply Hno. exists i, u. split; [done|]. split; [done|]. split; [done|]. exact (conj Hv Hl).
    + exists i. split; [done|]. rewrite FollowString_app, Hi. cbn [mbind res_bind dc_FollowString]. rewrite Hf. done.
Qed.
Print Assumptions C118_step.
(** It is one or the other. *)
Theorem C118_decides h us q p c t : hist_ok h -> made h us -> bytes q -> leaves h q p c t ->
  (exists k v j, lands h us p c k v j) \/ (forall k v j, ~ lands h us p c k v j).
Proof.
  intros Hh Hm Hq (-> & Hp & Hn). apply Forall_app in Hq as [_ Hq]. apply Forall_cons in Hq as [Hc _].
  destruct (wrong_step h us Hh Hm p c Hp Hc Hn) as (i & u & Hi & Hu & [(Hf & k & v & Hv & Hl)|(Hf & Hno)]).
  - left. exists k, v, (N.lxor (N.lxor i (dictOffset u)) c). by exists i, u.
  - right. intros k v j (i' & u' & Hi' & Hu' & -> & Hv & Hl). rewrite Hi in Hi'. injection Hi' as <-. rewrite Hu in Hu'. injection Hu' as <-.
    by apply (Hno k v).
Qed.
Print Assumptions C118_decides.

(** From the unit of a value every further byte, and the value, are beyond the
    units: always if the dictionary has at most 2^21 units, and if bit 9 of the
    value is set. *)
Definition short (us : dict) (v : Z) : Prop := N.of_nat (length us) <= 2097152 \/ Z.testbit v 9 = true.
Lemma made_short h us : hist_ok h -> made h us -> N.of_nat (length us) <= 536870912.
Proof.
  intros Hh (size & d0 & un & Hs & Hb). destruct (size_facts size h d0 Hs Hh) as (r & Hr & _ & H). rewrite Hb in Hr. injection Hr as <-.
  destruct (H us un eq_refl) as [(_ & ? & _) _]. lia.
Qed.
Theorem C118_beyond h us k v j : hist_ok h -> made h us -> value_unit h us k v j -> short us v ->
  dc_Value us j = Panic /\ forall c t, c < 256 -> dc_FollowString us (c :: t) j = Panic.
Proof.
  intros Hh Hm Hv Hs. pose proof (value_unit_at h us Hh Hm k v j Hv) as Hj. pose proof (made_short h us Hh Hm) as Hlen.
  assert (HB : forall c, c < 256 -> us !! N.to_nat (N.lxor (N.lxor j (dictOffset (dictSetValue v))) c) = None).
  { intros c Hc. apply (value_beyond us j v c); [|done|done]. destruct Hs as [?|?]; [by left|by right]. }
  split.
  - unfold dc_Value, get. rewrite Hj. cbn [mbind res_bind]. pose proof (HB 0 ltac:(lia)) as H0. rewrite N.lxor_0_r in H0. by rewrite H0.
  - intros c t Hc. cbn [dc_FollowString]. unfold dc_Follow, get. rewrite Hj. cbn [mbind res_bind]. cbv zeta. by rewrite (HB c Hc).
Qed.
Print Assumptions C118_beyond.

(** C118, the outcome of every lookup that leaves the keys. *)
Definition outcome (us : dict) (q t : list N) (hit : option Z) : Prop :=
  match hit, t with
  | None, _ => dc_ContainsString us q = Ok false /\ dc_FindString us q = Ok (-1)%Z /\ forall w, dc_FindStringValue us q w = Ok (false, w)
  | Some v, [] => dc_ContainsString us q = Ok (Z.testbit v 8) /\
      if Z.testbit v 8 then dc_FindString us q = Panic /\ forall w, dc_FindStringValue us q w = Panic
      else dc_FindString us q = Ok (-1)%Z /\ forall w, dc_FindStringValue us q w = Ok (false, w)
  | Some _, _ => dc_ContainsString us q = Panic /\ dc_FindString us q = Panic /\ forall w, dc_FindStringValue us q w = Panic
  end.
Theorem C118_lookup h us q p c t : hist_ok h -> made h us -> bytes q -> leaves h q p c t ->
  (forall k v j, lands h us p c k v j -> short us v -> outcome us q t (Some v)) /\
  ((forall k v j, ~ lands h us p c k v j) -> outcome us q t None).
Proof.
  intros Hh Hm Hq Hl. destruct (C118_step h us q p c t Hh Hm Hq Hl) as [S1 S2]. split.
  - intros k v j Hj Hs. destruct (S1 k v j Hj) as [Hf Hv]. destruct Hj as (i & u & _ & _ & _ & Hvu & _).
    destruct (C118_beyond h us k v j Hh Hm Hvu Hs) as [H1 H2]. destruct Hl as (-> & _). apply Forall_app in Hq as [_ Hq].
    apply Forall_cons in Hq as [_ Hq]. unfold outcome, dc_ContainsString, dc_FindString, dc_FindStringValue. rewrite Hf. destruct t as [|x t].
    + cbn [dc_FollowString mbind res_bind negb]. rewrite Hv. cbn [mbind res_bind]. split; [done|]. destruct (Z.testbit v 8); cbn [negb]; [|done].
      by rewrite H1.
    + apply Forall_cons in Hq as [Hx _]. by rewrite (H2 x t Hx).
  - intros Hno. destruct (S2 Hno) as (i & _ & Hf). unfold outcome, dc_ContainsString, dc_FindString, dc_FindStringValue. by rewrite Hf.
Qed.
Print Assumptions C118_lookup.

(** In a dictionary of at most 2^21 units, FindString is right or panics. *)
Theorem C118_right_or_panics h us q : hist_ok h -> made h us -> bytes q -> accepted h <> [] -> N.of_nat (length us) <= 2097152 ->
  (exists v, (q, v) ∈ entries h /\ dc_FindString us q = Ok v) \/
  (~ is_key h q /\ (dc_FindString us q = Ok (-1)%Z \/ dc_FindString us q = Panic)).
Proof.
  intros Hh Hm Hq Ha Hlen. assert (H0 : key_prefix h []).
  { destruct (accepted h) as [|e l] eqn:E; [done|]. exists (kept_entry e).1, (kept_entry e).2. rewrite E. split; [left; by destruct (kept_entry e)|apply prefix_nil]. }
  destruct (leaves_or h q [] H0) as [Hp|(p & c & t & Hl)].
  - cbn [app] in Hp. destruct (follow_prefix h us Hh Hm q Hp) as (j & Hj & H1 & H2).
    destruct (decide (Exists (fun e => e.1 = q) (entries h))) as [Hk|Hk].
    + apply Exists_exists in Hk as ([k v] & Hk & E). cbn in E. subst k. left. exists v. split; [done|]. by apply (find_key h us Hh Hm q v Hk).
    + right. assert (Hn : ~ is_key h q) by (intros [v Hv]; apply Hk, Exists_exists; by exists (q, v)). split; [done|]. left.
      unfold dc_FindString. rewrite Hj. cbn [mbind res_bind negb]. by rewrite (H2 Hn).
  - cbn [app] in Hl. right. split; [intros [v Hv]; apply (leaves_not h q p c t Hl); by exists q, v|].
    destruct (C118_lookup h us q p c t Hh Hm Hq Hl) as [O1 O2].
    destruct (C118_decides h us q p c t Hh Hm Hq Hl) as [(k & v & j & Hj)|Hno]; [|left; by apply (O2 Hno)].
    pose proof (O1 k v j Hj (or_introl Hlen)) as Ho. destruct t; cbn [outcome] in Ho; [|right; by apply Ho]. destruct Ho as [_ Ho].
    destruct (Z.testbit v 8); [right|left]; by apply Ho.
Qed.
Print Assumptions C118_right_or_panics.
(** And which panic, and which strings are contained though they are no keys. *)
Theorem C118_panics h us q p c t : hist_ok h -> made h us -> bytes q -> leaves h q p c t -> N.of_nat (length us) <= 2097152 ->
  (dc_FindString us q = Panic <-> exists k v j, lands h us p c k v j /\ (t <> [] \/ Z.testbit v 8 = true)) /\
  (dc_ContainsString us q = Panic <-> t <> [] /\ exists k v j, lands h us p c k v j) /\
  (dc_ContainsString us q = Ok true <-> t = [] /\ exists k v j, lands h us p c k v j /\ Z.testbit v 8 = true).
Proof.
  intros Hh Hm Hq Hl Hlen. destruct (C118_lookup h us q p c t Hh Hm Hq Hl) as [O1 O2].
  assert (O : forall k v j, lands h us p c k v j -> outcome us q t (Some v)) by (intros k v j Hj; apply (O1 k v j Hj); by left).
  destruct (C118_decides h us q p c t Hh Hm Hq Hl) as [(k & v & j & Hj)|Hno].
  - pose proof (O k v j Hj) as Ho. destruct t as [|x t]; cbn [outcome] in Ho.
    + destruct Ho as [Hc Ho]. rewrite Hc. split; [|split].
      * destruct (Z.testbit v 8) eqn:E; destruct Ho as [Ho _]; rewrite Ho; (split; [|]); intros H; try done; [exists k, v, j; split; [done|by right]|].
        destruct H as (k' & v' & j' & Hj' & [?|Hv']); [done|]. pose proof (O k' v' j' Hj') as [_ Ho']. rewrite Hv' in Ho'. destruct Ho' as [Ho' _]. congruence.
      * split; [done|]. by intros [? _].
      * split.
        -- intros [= Hv]. split; [done|]. by exists k, v, j.
        -- intros (_ & k' & v' & j' & Hj' & Hv'). pose proof (O k' v' j' Hj') as [Hc' _]. rewrite <- Hv', <- Hc, Hc'. done.
    + destruct Ho as (Hc & Hf & _). rewrite Hc, Hf. split; [|split]; (split; [|first [done|by intros [? _]]]).
      * intros _. exists k, v, j. split; [done|by left].
      * intros _. split; [done|]. by exists k, v, j.
      * done.
  - destruct (O2 Hno) as (Hc & Hf & _). rewrite Hc, Hf. split; [|split]; (split; [done|]).
    + intros (k & v & j & Hj & _). by apply Hno in Hj.
    + intros (_ & k & v & j & Hj). by apply Hno in Hj.
    + intros (_ & k & v & j & Hj & _). by apply Hno in Hj.
Qed.
Print Assumptions C118_panics.

(** The hypotheses can be met: key "a", values 98 and 354, byte "b". *)
Lemma leaves_ex v t : leaves [([97], v)] (98 :: t) [] 98 t.
Proof.
  split; [done|]. split.
  - exists [97], (v mod 2147483648)%Z. split; [by left|apply prefix_nil].
  - intros (k & w & H & s & E). apply elem_of_list_singleton in H. cbn in H. by simplify_eq.
Qed.
Example C118_case_98 : made [([97], 98%Z)] (dict_of [([97], 98%Z)]) /\ leaves [([97], 98%Z)] [98; 99] [] 98 [99] /\
  lands [([97], 98%Z)] (dict_of [([97], 98%Z)]) [] 98 [97] 98 2 /\ length (dict_of [([97], 98%Z)]) = 256%nat /\
  dc_FollowString (dict_of [([97], 98%Z)]) [98] 0 = Ok (true, 2) /\
  dc_ContainsString (dict_of [([97], 98%Z)]) [98] = Ok false /\ dc_FindString (dict_of [([97], 98%Z)]) [98] = Ok (-1)%Z /\
  dc_ContainsString (dict_of [([97], 98%Z)]) [98; 99] = Panic.
Proof.
  split; [made_vm|]. split; [apply leaves_ex|]. split; [|by_vm]. do 2 eexists. split; [by vm_compute|]. split; [by vm_compute|].
  split; [by vm_compute|]. split; [|done]. split; [by left|]. do 2 eexists. split; [by vm_compute|]. split; by vm_compute.
Qed.
Example C118_case_354 : made [([97], 354%Z)] (dict_of [([97], 354%Z)]) /\ leaves [([97], 354%Z)] [98] [] 98 [] /\
  (exists j, lands [([97], 354%Z)] (dict_of [([97], 354%Z)]) [] 98 [97] 354 j) /\
  dc_ContainsString (dict_of [([97], 354%Z)]) [98] = Ok true /\ dc_FindString (dict_of [([97], 354%Z)]) [98] = Panic /\
  dc_ContainsString (dict_of [([97], 354%Z)]) [99; 98] = Ok false.
Proof.
  split; [made_vm|]. split; [apply leaves_ex|]. split; [|by_vm]. eexists. do 2 eexists. split; [by vm_compute|]. split; [by vm_compute|].
  split; [by vm_compute|]. split; [|done]. split; [by left|]. do 2 eexists. split; [by vm_compute|]. split; by vm_compute.
Qed.
