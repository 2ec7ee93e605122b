(** Properties C108-C110: dictionaries whose keys are UTF-C texts, and the UtfcState
    objects of utfc.go.  The vocabulary is in UtfcSpec.v, DawgSpec.v, DictSpec.v, GuideSpec.v
    and RankedSpec.v. *)
From Verif Require Import Go Utfc UtfcSpec UtfcArith UtfcProofs UtfcMain UtfcSearch Dawg DawgSpec Dict DictSpec Guide Completer GuideSpec Ranked RankedCompleter RankedSpec Properties_Utfc Properties_Dict Properties_Completer Properties_Ranked.
Local Open Scope Z_scope.

(** C108. An encoding starts with another one exactly when the text starts with the
    other text. *)
Theorem C108_prefix s t : is_text s -> is_text t -> utfc_encode s `prefix_of` utfc_encode t <-> s `prefix_of` t.
Proof. apply encode_prefix. Qed.
Print Assumptions C108_prefix.

(** Texts with values, and what is inserted for them. *)
Notation titem := (list Z * Z)%type.
Definition enc (sv : titem) : entry := (utfc_encode sv.1, sv.2).
Definition texts (T : list titem) : Prop := Forall (fun sv => is_text sv.1) T.
Definition starting (p : list Z) (K : list titem) : list titem := filter (fun sv => take (length p) sv.1 = p) K.
Lemma take_prefix {A} (p k : list A) : take (length p) k = p <-> p `prefix_of` k.
Proof. split; [intros H; exists (drop (length p) k); by rewrite <- H at 1; rewrite take_drop|intros [z ->]; apply take_app]. Qed.
(** All texts can be keys. *)
Theorem C108_keys T : texts T -> (N.of_nat (sum_list_with (fun sv : titem => S (3 * length sv.1)) T) < 1073741824)%N -> hist_ok (map enc T).
Proof.
  intros HT Hl. split.
  - rewrite Forall_fmap. eapply Forall_impl; [exact HT|]. intros [s v] Hs. unfold key_ok. cbn. eapply Forall_impl; [exact (C02_no_zero_byte s Hs)|]. cbn. lia.
  - unfold hist_size. enough (sum_list_with (fun kv : entry => S (length kv.1)) (map enc T) <= sum_list_with (fun sv : titem => S (3 * length sv.1)) T)%nat by lia. clear.
    induction T as [|[s v] T IH]; [done|]. cbn [map sum_list_with enc fst]. pose proof (C04_length_bounds s). lia.
Qed.
Print Assumptions C108_keys.
Lemma run_keys h : forall es kv, kv ∈ (spec_run es h).2 -> kv ∈ es \/ kv ∈ h.
Proof.
  induction h as [|e h IH]; intros es kv H; [by left|]. cbn [spec_run] in H. destruct (spec_insert es e) as [r es'] eqn:E. destruct (spec_run es' h) as [rs es''] eqn:E2.
  cbn [snd] in H. specialize (IH es' kv). rewrite E2 in IH. destruct (IH H) as [Hk|Hk]; [|right; by right]. clear IH. unfold spec_insert in E. destruct (last es) as [[k0 v0]|] eqn:El.
  - destruct (kcmp k0 e.1); injection E as <- <-.
    + apply elem_of_app in Hk as [Hk|Hk%elem_of_list_singleton]; [|subst; right; by left]. left. destruct es as [|x es _] using rev_ind; [done|]. rewrite removelast_last in Hk. apply elem_of_app. by left.
    + apply elem_of_app in Hk as [Hk|Hk%elem_of_list_singleton]; [by left|subst; right; by left].
    + by left.
  - injection E as <- <-. apply elem_of_list_singleton in Hk as ->. right. by left.
Qed.
(** What is kept are texts, and what starts with the encoding of a text is what starts
    with the text. *)
Theorem C108_entries T : texts T -> exists K, texts K /\ entries (map enc T) = map enc K /\ (forall s v, (s, v) ∈ K -> exists v', (s, v') ∈ T /\ v = kept v') /\
  forall p, is_text p -> with_prefix (utfc_encode p) (map enc K) = map enc (starting p K).
Proof.
  intros HT. assert (HK : exists K0, accepted (map enc T) = map enc K0 /\ forall sv, sv ∈ K0 -> sv ∈ T).
  { assert (H : forall kv, kv ∈ accepted (map enc T) -> exists sv, kv = enc sv /\ sv ∈ T).
    { intros kv Hk. apply run_keys in Hk as [Hk|Hk]; [by apply elem_of_nil in Hk|]. apply elem_of_list_fmap in Hk. done. }
    revert H. generalize (accepted (map enc T)) as A. clear HT. induction A as [|kv A IH]; intros H; [exists []; split; [done|]; intros sv Hx; by apply elem_of_nil in Hx|].
    destruct IH as (K0 & -> & HK); [intros kv' Hk; apply H; by right|]. destruct (H kv) as (sv & -> & Hsv); [by left|]. exists (sv :: K0). split; [done|].
    intros sv' [->|Hin]%elem_of_cons; [done|by apply HK]. }
  destruct HK as (K0 & HA & HK). exists (map (fun sv => (sv.1, kept sv.2)) K0). unfold texts in *. rewrite Forall_forall in HT.
  assert (HT' : Forall (fun sv : titem => is_text sv.1) (map (fun sv => (sv.1, kept sv.2)) K0)).
  { rewrite Forall_fmap, Forall_forall. intros sv Hsv. cbn. by apply HT, HK. }
  split; [exact HT'|]. split; [rewrite HA, !map_map; apply map_ext; intros [s v]; reflexivity|]. split.
  - intros s v ([s' v'] & [= -> ->] & Hin)%elem_of_list_fmap. exists v'. split; [by apply HK|done].
  - intros p Hp. unfold with_prefix, starting. revert HT'. generalize (map (fun sv : titem => (sv.1, kept sv.2)) K0) as K. induction K as [|[s v] K IH]; intros HT'; [done|].
    apply Forall_cons in HT' as [Hs HT']. cbn [fst] in Hs. cbn [map]. rewrite !filter_cons. unfold enc at 1. cbn [fst]. rewrite IH by done.
    assert (Hiff : take (length (utfc_encode p)) (utfc_encode s) = utfc_encode p <-> take (length p) s = p) by (rewrite !take_prefix; by apply C108_prefix).
    destruct (decide (take (length (utfc_encode p)) (utfc_encode s) = utfc_encode p)), (decide (take (length p) s = p)); tauto || done.
Qed.
Print Assumptions C108_entries.
(** UtfcFollow with a follower that walks in a dictionary, without the encoding being
    made. *)
Theorem C108_follower us s i : let '(f, st, ok) := utfc_follow (walk us) s (Ok i) in
  dc_FollowString us (utfc_encode s) i = match f with Ok j => Ok (ok, j) | Panic => Panic | Hang => Hang end.
Proof.
  pose proof (follow_from_feed (walk us) ustate0 s (Ok i)) as H. unfold utfc_follow. destruct (utfc_follow_from (walk us) ustate0 s (Ok i)) as [[f st] ok]. rewrite encode_encs.
  rewrite walk_feed in H. destruct (dc_FollowString us (encs ustate0 s).1 i) as [[ok' j]| |]; by injection H as -> ->.
Qed.
Print Assumptions C108_follower.
(** Search.  [stored T K]: the texts in the dictionary, with their values. *)
Definition stored (T K : list titem) : Prop := texts K /\ entries (map enc T) = map enc K.
Lemma stored_prefix T K p : stored T K -> is_text p -> key_prefix (map enc T) (utfc_encode p) <-> starting p K <> [].
Proof.
  intros [HK He] Hp. unfold key_prefix. rewrite He. unfold texts in HK. rewrite Forall_forall in HK. split.
  - intros (k & v & Hk & Hpre) Hn. apply elem_of_list_fmap in Hk as ([s v'] & [= -> ->] & Hin). apply C108_prefix in Hpre; [|done|by apply (HK _ Hin)].
    assert (Hs : (s, v') ∈ starting p K) by (apply elem_of_list_filter; split; [by apply take_prefix|done]). rewrite Hn in Hs. by apply elem_of_nil in Hs.
  - intros Hn. destruct (starting p K) as [|[s v] l] eqn:E; [done|]. assert (Hs : (s, v) ∈ starting p K) by (rewrite E; by left). apply elem_of_list_filter in Hs as [Ht%take_prefix Hin].
    exists (utfc_encode s), v. split; [apply elem_of_list_fmap; by exists (s, v)|]. apply C108_prefix; [done|by apply (HK _ Hin)|done].
Qed.
Lemma enc_inj K : texts K -> forall K', texts K' -> map enc K = map enc K' -> K = K'.
Proof.
  induction 1 as [|[s v] K Hs HK IH]; intros K' HK' E; destruct HK' as [|[s' v'] K' Hs' HK']; [done|done|done|]. cbn [map] in E. unfold enc at 1 3 in E. cbn [fst snd] in E, Hs, Hs'.
  injection E as E1 -> E2. rewrite (C03_injective _ _ Hs Hs' E1). f_equal. by apply IH.
Qed.
Lemma stored_with T K p : texts T -> stored T K -> is_text p -> with_prefix (utfc_encode p) (entries (map enc T)) = map enc (starting p K).
Proof.
  intros HT [HK He] Hp. destruct (C108_entries T HT) as (K' & HK' & He' & _ & H). rewrite He'. rewrite H by done. rewrite He in He'. by rewrite (enc_inj K HK K' HK' He').
Qed.
Definition item (sv : titem) : list N * Z * Z := (utfc_encode sv.1 ++ [0%N], Z.of_nat (length (utfc_encode sv.1)), sv.2).
Lemma follower_started us h p : p = [] \/ key_prefix h (utfc_encode p) -> forall i, dc_FollowString us (utfc_encode p) 0 = Ok (true, i) ->
  started us h (utfc_encode p) i /\ exists st, utfc_follow (walk us) p (Ok 0%N) = (Ok i, st, true).
Proof.
  intros Hp i Hi. split; [split; [destruct Hp as [->|Hp]; [by left|by right]|done]|]. pose proof (C108_follower us p 0) as H. destruct (utfc_follow (walk us) p (Ok 0%N)) as [[f st] ok].
  rewrite Hi in H. destruct f as [j| |]; [|done|done]. injection H as <- <-. by exists st.
Qed.
(** After the text [p], the completers give the texts that start with [p]: *)
Theorem C108_completer T K us g p : texts T -> hist_ok (map enc T) -> made_guide (map enc T) us g -> stored T K -> is_text p -> p = [] \/ starting p K <> [] ->
  exists i st, utfc_follow (walk us) p (Ok 0%N) = (Ok i, st, true) /\
    ((p = [] -> [] ∉ K.*1) -> forall c, exists c0, cp_StartString g c i (utfc_encode p) = Ok c0 /\ outputs us g c0 (map item (starting p K))).
Proof.
  intros HT Hh Hm HK Hp Hpre. assert (Hkp : p = [] \/ key_prefix (map enc T) (utfc_encode p)) by (destruct Hpre; [by left|right; by apply (stored_prefix T K)]).
  destruct (C65_reached _ us g (utfc_encode p) Hh Hm) as [i Hst]; [destruct Hkp as [->|?]; [by left|by right]|].
  destruct (follower_started us (map enc T) p Hkp i (proj2 Hst)) as [_ [st Hf]]. exists i, st. split; [exact Hf|]. intros H0 c.
  destruct (C36_enumeration_partial _ us g (utfc_encode p) i c Hh Hm Hst) as (c0 & Hc & Ho).
  { intros E Hk. assert (Hp0 : p = []) by (apply (C03_injective p []); [done|constructor|done]). apply (H0 Hp0). destruct Hk as [v Hk]. destruct HK as [HKt He]. rewrite He in Hk.
    apply elem_of_list_fmap in Hk as ([s v'] & [= Hs ->] & Hin). apply elem_of_list_fmap. exists (s, v'). split; [|done]. cbn. unfold texts in HKt. rewrite Forall_forall in HKt.
    apply (C03_injective [] s); [constructor|by apply (HKt _ Hin)|done]. }
  exists c0. split; [exact Hc|]. rewrite (stored_with T K p HT HK Hp), map_map in Ho. exact Ho.
Qed.
Print Assumptions C108_completer.
(** the ranked one by decreasing value. *)
Theorem C108_ranked T K us g p i : texts T -> hist_ok (map enc T) -> made_default (map enc T) us g -> stored T K -> is_text p -> p = [] \/ starting p K <> [] ->
  dc_FollowString us (utfc_encode p) 0 = Ok (true, i) -> (exists st, utfc_follow (walk us) p (Ok 0%N) = (Ok i, st, true)) /\
    forall c, exists c0 l, rc_StartString us g c i (utfc_encode p) = Ok c0 /\ l ≡ₚ starting p K /\ ranked Z.ltb l.*2 /\ routputs us g c0 (map item l).
Proof.
  intros HT Hh Hm HK Hp Hpre Hi. assert (Hkp : p = [] \/ key_prefix (map enc T) (utfc_encode p)) by (destruct Hpre; [by left|right; by apply (stored_prefix T K)]).
  destruct (follower_started us (map enc T) p Hkp i Hi) as [Hst Hf]. split; [exact Hf|]. intros c.
  destruct (C47_ranked_order _ us g (utfc_encode p) i c Hh Hm Hst) as (c0 & es & Hc & Hes & Hr & Ho). rewrite (stored_with T K p HT HK Hp) in Hes.
  apply Permutation_map_inv in Hes as (l & -> & Hl). exists c0, l. split; [exact Hc|]. split; [by symmetry|]. split.
  - change (map enc l) with (enc <$> l) in Hr. rewrite <- list_fmap_compose in Hr. exact Hr.
  - rewrite map_map in Ho. exact Ho.
Qed.
Print Assumptions C108_ranked.
(** A text with which nothing starts is not followed, if it is safe in the sense of
    C60. *)
Theorem C108_absent T K us p : texts T -> hist_ok (map enc T) -> made (map enc T) us -> stored T K -> K <> [] -> is_text p -> safe (map enc T) (utfc_encode p) ->
  exists i st ok, utfc_follow (walk us) p (Ok 0%N) = (Ok i, st, ok) /\ (ok = true <-> starting p K <> []).
Proof.
  intros HT Hh Hm HK Hne Hp Hs. destruct (C61_prefix_search_exact _ us (utfc_encode p) Hh Hm) as (b & j & Hf & Hb); [|done| |].
  - unfold bytes. eapply Forall_impl; [exact (C02_no_zero_byte p Hp)|]. cbn. lia.
  - destruct HK as [_ He]. intros E. rewrite E in He. by destruct K.
  - pose proof (C108_follower us p 0) as H. destruct (utfc_follow (walk us) p (Ok 0%N)) as [[f st] ok]. rewrite Hf in H. destruct f as [i| |]; [|done|done]. injection H as <- <-.
    exists j, st, b. split; [done|]. rewrite Hb. by apply stored_prefix.
Qed.
Print Assumptions C108_absent.
(** "да", "дом" and "дым" with values, and "д": "дом" and "дым", but not "да", go on
    after "д" with two letters more. *)
Definition sx_T : list titem := [([0x434; 0x430], 3); ([0x434; 0x43E; 0x43C], 9); ([0x434; 0x44B; 0x43C], 5)].
Example C108_case : texts sx_T /\ hist_ok (map enc sx_T) /\ stored sx_T sx_T /\ made_guide (map enc sx_T) (guide_of (map enc sx_T)).1 (guide_of (map enc sx_T)).2 /\
  made_default (map enc sx_T) (ranked_of Z.ltb (map enc sx_T)).1 (ranked_of Z.ltb (map enc sx_T)).2 /\ starting [0x434; 0x43E] sx_T = [([0x434; 0x43E; 0x43C], 9)] /\
  starting [0x434] sx_T = sx_T /\ utfc_encode [0x434; 0x43E] = [0xE4; 0xEE]%N.
Proof.
  assert (HT : texts sx_T) by (unfold texts, sx_T, is_text; repeat constructor; cbn; lia).
  split; [exact HT|]. split; [apply C108_keys; [exact HT|vm_compute; reflexivity]|]. split; [split; [exact HT|vm_compute; reflexivity]|].
  split; [apply guide_of_made; vm_compute; reflexivity|]. split; [apply (proj2 (made_default_ranked _ _ _)), ranked_of_made; vm_compute; reflexivity|].
  split; [vm_compute; reflexivity|]. split; vm_compute; reflexivity.
Qed.

(** C109. UtfcState objects, from any number of variables that start as zero values, with any
    sequence of NewUtfcState (or Clear), Copy and Follow, where the followers take
    as many bytes as they like.  [typed t cs rs]: with the texts [t] typed so far the calls
    [cs] give [rs].  A character that is refused has not been typed; a zero value is in the
    state after U+0100 (C110). *)
Inductive typed : (nat -> list Z) -> list call -> list (list N * bool) -> Prop :=
| ty_end t : typed t [] []
| ty_new t i cs rs : typed (put t i []) cs rs -> typed t (CNew i :: cs) (([], true) :: rs)
| ty_copy t i j cs rs : typed (put t i (t j)) cs rs -> typed t (CCopy i j :: cs) (([], true) :: rs)
| ty_taken t i c room bs cs rs : utfc_encode (t i ++ [c]) = utfc_encode (t i) ++ bs -> (length bs <= room)%nat -> typed (put t i (t i ++ [c])) cs rs ->
    typed t (CFollow i c room :: cs) ((bs, true) :: rs)
| ty_refused t i c room bs cs rs : utfc_encode (t i ++ [c]) = utfc_encode (t i) ++ bs -> (room < length bs)%nat -> typed t cs rs ->
    typed t (CFollow i c room :: cs) ((take room bs, false) :: rs).
Definition zero_state : ustate := mkU 0 0 false.
Lemma typed_calls cs : forall m t, (forall i, m i = state_after (t i)) -> typed t cs (do_calls m cs).
Proof.
  induction cs as [|c cs IH]; intros m t Hm; [constructor|]. cbn [do_calls]. destruct c as [i|i j|i c room]; cbn [do_call].
  - constructor. apply IH. intros k. unfold put. destruct (Nat.eqb k i); [done|apply Hm].
  - rewrite copy_eq. constructor. apply IH. intros k. unfold put. destruct (Nat.eqb k i); apply Hm.
  - rewrite taking_follow. cbn [fst]. set (st := m i) in *. assert (Hst : st = (encs ustate0 (t i)).2) by (unfold st; by rewrite Hm, state_after_encs).
    assert (He : utfc_encode (t i ++ [c]) = utfc_encode (t i) ++ (enc1 st c).1) by (rewrite !encode_encs, encs_app, <- Hst; rewrite encs_cons; cbn [fst encs]; by rewrite app_nil_r).
    destruct (Nat.leb_spec (length (enc1 st c).1) room) as [Hl|Hl].
    + rewrite take_ge by done. eapply ty_taken; [exact He|exact Hl|]. apply IH. intros k. unfold put. destruct (Nat.eqb_spec k i) as [->|]; [|apply Hm].
      rewrite state_after_encs, encs_app, <- Hst. cbn [snd]. by rewrite encs_cons.
    + eapply ty_refused; [exact He|exact Hl|]. apply IH. intros k. unfold put. destruct (Nat.eqb_spec k i) as [->|]; apply Hm.
Qed.
Theorem C109_states cs : typed (fun _ => [0x100]) cs (do_calls (fun _ => zero_state) cs).
Proof. apply typed_calls. intros i. vm_compute. reflexivity. Qed.
Print Assumptions C109_states.
Lemma typed_unique t cs rs : typed t cs rs -> forall rs', typed t cs rs' -> rs = rs'.
Proof.
  induction 1 as [t|t i cs rs _ IH|t i j cs rs _ IH|t i c room bs cs rs E Hl _ IH|t i c room bs cs rs E Hl _ IH]; intros rs' H';
    inversion H' as [|? ? ? ? H1|? ? ? ? ? H1|? ? ? ? bs' ? ? E' Hl' H1|? ? ? ? bs' ? ? E' Hl' H1]; subst.
  - done.
  - f_equal. by apply IH.
  - f_equal. by apply IH.
  - rewrite E in E'. apply app_inv_head in E'. subst bs'. f_equal. by apply IH.
  - rewrite E in E'. apply app_inv_head in E'. subst bs'. lia.
  - rewrite E in E'. apply app_inv_head in E'. subst bs'. lia.
  - rewrite E in E'. apply app_inv_head in E'. subst bs'. f_equal. by apply IH.
Qed.
Theorem C109_only cs rs : typed (fun _ => [0x100]) cs rs <-> rs = do_calls (fun _ => zero_state) cs.
Proof. split; [intros H; exact (typed_unique _ _ _ H _ (C109_states cs))|intros ->; apply C109_states]. Qed.
Print Assumptions C109_only.
(** Two continuations of "д一", one of them after a refusal. *)
Example C109_case : do_calls (fun _ => zero_state) [CNew 0; CFollow 0 0x434 1; CFollow 0 0x4E00 3; CCopy 1 0; CFollow 0 0x4E01 1; CFollow 1 0x61 9; CFollow 0 0x4E01 9] =
  [([], true); ([0xE4]%N, true); ([0xBD; 0xA0; 0x28]%N, true); ([], true); ([0x28]%N, false); ([0xDA]%N, true); ([0x28; 0x01]%N, true)].
Proof. vm_compute. reflexivity. Qed.

(** C110. Full statement: [var st UtfcState] encodes as NewUtfcState does.  False: *)
Theorem C110_zero_refuted : exists s, is_text s /\ (utfc_follow_from buf_follow zero_state s []).1.1 <> utfc_encode s.
Proof. exists [0x41]. split; [repeat constructor; lia|]. vm_compute. discriminate. Qed.
Print Assumptions C110_zero_refuted.
(** It encodes as after U+0100. *)
Theorem C110_zero_exact s : utfc_encode (0x100 :: s) = utfc_encode [0x100] ++ (utfc_follow_from buf_follow zero_state s []).1.1.
Proof. exact (proj1 (C06_streaming [0x100] s)). Qed.
Print Assumptions C110_zero_exact.
Example C110_case : (utfc_follow_from buf_follow zero_state [0x41] []).1.1 = [0xC0]%N /\ utfc_encode [0x41] = [0x41]%N /\ utfc_decode [0xC0]%N = Ok [0x410].
Proof. vm_compute. done. Qed.
