(** Properties C21-C28, C50, C60-C64 of dictionary.go, dictionary_unit.go and
    dictionary_builder.go.  The vocabulary ([hist_ok], [made], [entries],
    [key_prefix], [safe], [unit_used], ...) is in DawgSpec.v and DictSpec.v. *)
From Verif Require Import Go Dawg DawgSpec Dict DictUnit DictInv DictMain DictRead DictSpec DictThms.
Local Open Scope N_scope.
Local Arguments N.mul : simpl never.
Local Arguments N.add : simpl never.
Local Arguments N.of_nat : simpl never.
Local Ltac by_vm := lazymatch goal with |- _ /\ _ => split; [vm_compute; reflexivity|by_vm] | _ => vm_compute; reflexivity end.

Definition dex_h : list entry :=
  [([97; 98], 1%Z); ([97; 97; 98], 4%Z); ([97; 99], (-1)%Z); ([98; 98], 5%Z); ([98; 98], 1%Z); ([98; 99], (-1)%Z); ([99], 7%Z)].
Lemma dex_ok : hist_ok dex_h.
Proof. split; [|by vm_compute]. unfold dex_h, key_ok. repeat constructor. Qed.
Lemma one_ok c v : 0 < c < 256 -> hist_ok [([c], v)].
Proof. intros H. split; [|by vm_compute]. constructor; [|constructor]. cbn [fst]. apply Forall_singleton. exact H. Qed.
(** A dictionary computed from a history. *)
Definition dict_of (h : list entry) : dict := match build_dict 4 h NewDawg with Ok (Some (us, _)) => us | _ => [] end.
Lemma dict_of_made h us un : build_dict 4 h NewDawg = Ok (Some (us, un)) -> made h (dict_of h).
Proof. intros H. exists 4%Z, NewDawg, un. split; [done|]. unfold dict_of. by rewrite H. Qed.
Local Ltac made_vm := eapply dict_of_made; vm_compute; reflexivity.

(** C21. Every accepted key is found with its value. *)
Theorem C21_keys_found h us k v : hist_ok h -> made h us -> (k, v) ∈ entries h ->
  dc_ContainsString us k = Ok true /\ dc_FindString us k = Ok v /\ forall w, dc_FindStringValue us k w = Ok (true, v).
Proof. intros Hh Hm. by apply find_key. Qed.
Print Assumptions C21_keys_found.
Example C21_case : made dex_h (dict_of dex_h) /\ entries dex_h =
  [([97; 98], 1%Z); ([97; 99], 2147483647%Z); ([98; 98], 1%Z); ([98; 99], 2147483647%Z); ([99], 7%Z)].
Proof. split; [made_vm|done]. Qed.

(** C22 is false: a string that was not inserted is contained. *)
Theorem C22_no_false_positives_refuted : exists h us q, hist_ok h /\ made h us /\ bytes q /\ ~ is_key h q /\
  dc_ContainsString us q = Ok true.
Proof.
  exists [([97], 354%Z)], (dict_of [([97], 354%Z)]), [98]. split; [by apply one_ok|]. split; [made_vm|].
  split; [by apply Forall_singleton|]. split; [|by vm_compute].
  intros [v H]. apply elem_of_list_fmap_2 in H as ([k v'] & E & H). apply elem_of_list_singleton in H. simplify_eq.
Qed.
Print Assumptions C22_no_false_positives_refuted.
(** C23 is false: a query may panic. *)
Theorem C23_no_panic_refuted : exists h us q, hist_ok h /\ made h us /\ bytes q /\ dc_FindString us q = Panic.
Proof.
  exists [([97], 354%Z)], (dict_of [([97], 354%Z)]), [98]. split; [by apply one_ok|]. split; [made_vm|].
  split; [by apply Forall_singleton|by vm_compute].
Qed.
Print Assumptions C23_no_panic_refuted.
(** C60. Lookups are exact, and do not panic, for every query whose first byte
    leaving the keys is not the low byte of a value. *)
Theorem C60_lookup_exact h us q : hist_ok h -> made h us -> bytes q -> safe h q ->
  (exists v, (q, v) ∈ entries h /\ dc_ContainsString us q = Ok true /\ dc_FindString us q = Ok v /\
     forall w, dc_FindStringValue us q w = Ok (true, v)) \/
  (~ is_key h q /\ dc_ContainsString us q = Ok false /\ dc_FindString us q = Ok (-1)%Z /\
     forall w, dc_FindStringValue us q w = Ok (false, w)).
Proof. intros Hh Hm. by apply safe_lookup. Qed.
Print Assumptions C60_lookup_exact.
(** In particular when no byte of the query is the low byte of a value. *)
Theorem C60_safe_bytes h q : (forall c k v, c ∈ q -> (k, v) ∈ entries h -> (v mod 256)%Z <> Z.of_N c) -> safe h q.
Proof. intros H p c t -> _ _ k v Hk. apply (H c k v); [|done]. apply elem_of_app. right. by left. Qed.
Print Assumptions C60_safe_bytes.
Example C60_case : made dex_h (dict_of dex_h) /\ safe dex_h [98; 98; 98] /\
  dc_ContainsString (dict_of dex_h) [98; 98; 98] = Ok false.
Proof.
  split; [made_vm|]. split; [|by vm_compute]. apply C60_safe_bytes. intros c k v Hc Hk.
  assert (c = 98) as -> by (rewrite !elem_of_cons, elem_of_nil in Hc; naive_solver).
  change (entries dex_h) with [([97; 98], 1%Z); ([97; 99], 2147483647%Z); ([98; 98], 1%Z); ([98; 99], 2147483647%Z); ([99], 7%Z)] in Hk.
  rewrite !elem_of_cons, elem_of_nil in Hk. naive_solver.
Qed.

(** C24: the unconditional half, and composition whatever the units. *)
Theorem C24_prefixes_followed_partial h us p : hist_ok h -> made h us -> key_prefix h p ->
  exists j, dc_FollowString us p 0 = Ok (true, j) /\
    (forall v, (p, v) ∈ entries h -> dc_HasValue us j = Ok true /\ dc_Value us j = Ok v) /\
    (~ is_key h p -> dc_HasValue us j = Ok false).
Proof. intros Hh Hm. by apply follow_prefix. Qed.
Print Assumptions C24_prefixes_followed_partial.
Theorem C24_follow_append us p s i j : dc_FollowString us p i = Ok (true, j) ->
  dc_FollowString us (p ++ s) i = dc_FollowString us s j.
Proof. intros H. rewrite FollowString_app, H. done. Qed.
Print Assumptions C24_follow_append.
(** C24's other half is false. *)
Theorem C24_prefix_search_refuted : exists h us p j, hist_ok h /\ made h us /\ bytes p /\ ~ key_prefix h p /\
  dc_FollowString us p 0 = Ok (true, j).
Proof.
  exists [([97], 98%Z)], (dict_of [([97], 98%Z)]), [98], 2. split; [by apply one_ok|]. split; [made_vm|].
  split; [by apply Forall_singleton|]. split; [|by vm_compute].
  intros (k & v & H & t & E). apply elem_of_list_fmap_2 in H as ([k' v'] & E' & H). apply elem_of_list_singleton in H. simplify_eq.
Qed.
Print Assumptions C24_prefix_search_refuted.
(** C61. Prefix search is exact for safe queries of a non-empty lexicon. *)
Theorem C61_prefix_search_exact h us q : hist_ok h -> made h us -> bytes q -> safe h q -> accepted h <> [] ->
  exists b j, dc_FollowString us q 0 = Ok (b, j) /\ (b = true <-> key_prefix h q).
Proof. intros Hh Hm Hq Hs Ha. destruct (safe_follow h us Hh Hm q Hq Hs) as (b & j & H1 & H2 & _). exists b, j. split; [done|]. by apply H2. Qed.
Print Assumptions C61_prefix_search_exact.
Example C61_case : accepted dex_h <> [] /\ key_prefix dex_h [98] /\ dc_FollowString (dict_of dex_h) [98] 0 = Ok (true, 2).
Proof. split; [done|]. split; [|by vm_compute]. exists [98; 98], 1%Z. split; [|by exists [98]]. by do 2 right; left. Qed.

(** C25. FollowStringCount, whatever the units: it follows the longest prefix it
    can, adds its length to the count and leaves the index there. *)
Theorem C25_follow_count us q i c : 
  (forall b j c', dc_FollowStringCount us q i c = Ok (b, j, c') ->
     exists p t, q = p ++ t /\ c' = (c + Z.of_nat (length p))%Z /\ dc_FollowString us p i = Ok (true, j) /\
     match t with [] => b = true | x :: _ => b = false /\ dc_Follow us x j = Ok (false, j) end) /\
  (dc_FollowStringCount us q i c = Panic <-> dc_FollowString us q i = Panic) /\
  dc_FollowStringCount us q i c <> Hang.
Proof.
  pose proof (FollowString_nohang us q i) as Hn. pose proof (Count_0 us q i c) as H0. destruct (Count_spec us q i c) as [_ H2]. split; [|split].
  - intros b j c' H. by apply H2.
  - split; intros H; [by rewrite H in H0|]. rewrite H in H0. by destruct (dc_FollowStringCount us q i c) as [[[] ?]| |].
  - intros H. rewrite H in H0. by apply Hn.
Qed.
Print Assumptions C25_follow_count.
Theorem C25_follow_count_len us q n i c : (0 <= n <= Z.of_nat (length q))%Z ->
  dc_FollowStringLenCount us q n i c = dc_FollowStringCount us (take (Z.to_nat n) q) i c.
Proof. intros H. by apply variants_len. Qed.
Print Assumptions C25_follow_count_len.
Example C25_case : dc_FollowStringCount (dict_of dex_h) [98; 98; 98] 0 5 = Ok (false, 4, 7%Z) /\
  dc_FollowStringLenCount (dict_of dex_h) [98; 98; 98] 2 0 5 = Ok (true, 4, 7%Z).
Proof. by_vm. Qed.

(** C26 is false where FindString panics. *)
Theorem C26_variants_refuted : exists h us q, hist_ok h /\ made h us /\ dc_ContainsString us q = Ok true /\ dc_FindString us q = Panic.
Proof. exists [([97], 354%Z)], (dict_of [([97], 354%Z)]), [98]. split; [by apply one_ok|]. split; [made_vm|]. by_vm. Qed.
Print Assumptions C26_variants_refuted.
(** C62. The lookup variants agree, whatever the units, up to that. *)
Theorem C62_variants us q w : Forall (fun u => u < two32) us ->
  match dc_FindString us q with
  | Ok v => ((0 <= v)%Z /\ dc_ContainsString us q = Ok true /\ dc_FindStringValue us q w = Ok (true, v)) \/
            (v = (-1)%Z /\ dc_ContainsString us q = Ok false /\ dc_FindStringValue us q w = Ok (false, w))
  | Panic => dc_FindStringValue us q w = Panic /\ (dc_ContainsString us q = Panic \/ dc_ContainsString us q = Ok true)
  | Hang => False
  end.
Proof. exact (variants us q w). Qed.
Print Assumptions C62_variants.
Theorem C62_variants_len us q n : (0 <= n <= Z.of_nat (length q))%Z ->
  dc_ContainsStringLen us q n = dc_ContainsString us (take (Z.to_nat n) q) /\
  dc_FindStringLen us q n = dc_FindString us (take (Z.to_nat n) q) /\
  (forall w, dc_FindStringLenValue us q n w = dc_FindStringValue us (take (Z.to_nat n) q) w) /\
  (forall i, dc_FollowStringLen us q n i = dc_FollowString us (take (Z.to_nat n) q) i).
Proof. intros H. destruct (variants_len us q n H) as (H1 & H2 & H3 & H4 & _). done. Qed.
Print Assumptions C62_variants_len.
Example C62_case : dc_FindStringLen (dict_of dex_h) [99; 98] 1 = Ok 7%Z /\ dc_FindString (dict_of dex_h) [99; 98] = Ok (-1)%Z.
Proof. by_vm. Qed.

(** C27. Building ends without panic, with a dictionary when the keys have fewer
    than 2^21 distinct prefixes (counting the empty one); its size is a multiple
    of 256, and the unused units are counted exactly. *)
Theorem C27_build_succeeds size h d0 : size_ok size -> hist_ok h -> exists r, build_dict size h d0 = Ok r /\
  (forall L, enumerates L (key_prefix h) -> N.of_nat (length L) < 2097152 -> r <> None) /\
  forall us unused, r = Some (us, unused) ->
    (N.of_nat (length us) mod 256 = 0 /\ 256 <= N.of_nat (length us) <= 536870912 /\ Forall (fun u => u < two32) us) /\
    exists L, enumerates L (fun i => i < N.of_nat (length us) /\ ~ unit_used h us i) /\ unused = N.of_nat (length L).
Proof. exact (size_facts size h d0). Qed.
Print Assumptions C27_build_succeeds.
Example C27_case : size_ok 4 /\ exists us, build_dict 4 dex_h NewDawg = Ok (Some (us, 247)) /\ length us = 256%nat.
Proof. split; [done|]. eexists. by_vm. Qed.

(** C28 is false: an accepted offset may be lost and the label disturbed. *)
Theorem C28_packing_refuted : exists u o, u < two32 /\ dictIsLeaf u = false /\ (dictSetOffset u o).1 = true /\
  dictOffset (dictSetOffset u o).2 <> o /\ dictLabel (dictSetOffset u o).2 <> dictLabel u.
Proof. exists 0, 2097153. vm_compute. done. Qed.
Print Assumptions C28_packing_refuted.
(** C63. An offset is accepted iff it is below 2^29, and an accepted one is read
    back iff the format can hold it: below 2^21, or a multiple of 256.  Then no
    other field changes.  The other setters are independent. *)
Theorem C63_packing u o l v : u < two32 -> l < 256 ->
  ((dictSetOffset u o).1 = true <-> o < 536870912) /\
  ((dictSetOffset u o).1 = false -> (dictSetOffset u o).2 = u) /\
  (dictIsLeaf u = false -> (dictSetOffset u o).1 = true ->
     (dictOffset (dictSetOffset u o).2 = o <-> o < 2097152 \/ o mod 256 = 0)) /\
  (o < 2097152 \/ (o < 536870912 /\ o mod 256 = 0) ->
     dictLabel (dictSetOffset u o).2 = dictLabel u /\ dictHasLeaf (dictSetOffset u o).2 = dictHasLeaf u /\
     dictIsLeaf (dictSetOffset u o).2 = dictIsLeaf u) /\
  (dictLabel (dictSetLabel u l) = l /\ dictHasLeaf (dictSetLabel u l) = dictHasLeaf u /\
     dictIsLeaf (dictSetLabel u l) = dictIsLeaf u /\ dictOffset (dictSetLabel u l) = dictOffset u) /\
  (dictHasLeaf (dictSetHasLeaf u) = true /\ dictLabel (dictSetHasLeaf u) = dictLabel u /\
     dictIsLeaf (dictSetHasLeaf u) = dictIsLeaf u /\ dictOffset (dictSetHasLeaf u) = dictOffset u) /\
  (dictValue (dictSetValue v) = kept v /\ dictIsLeaf (dictSetValue v) = true).
Proof.
  intros Hu Hl. assert (Hacc : (dictSetOffset u o).1 = true <-> o < 536870912).
  { pose proof (setOffset_refused u o) as H. destruct (dictSetOffset u o).1; split; try done.
    - intros _. apply N.lt_nge. intros H1. by apply H in H1.
    - intros H1. exfalso. assert (536870912 <= o) by by apply H. lia. }
  split; [done|]. split; [apply setOffset_refused_unit|]. split; [|split; [|split; [|split]]].
  - intros Hlf Ha. apply Hacc in Ha. split.
    + intros Ho. destruct (N.lt_ge_cases o 2097152) as [|Hge]; [by left|right]. rewrite <- Ho. rewrite dictOffset_eq.
      rewrite setOffset_big by done. cbn [snd].
      match goal with |- (if ?b then _ else _) mod _ = _ => assert (b = true) as -> end.
      { rewrite !N.lor_spec. rewrite c512, pow2_bits. rewrite N.eqb_refl, !orb_true_r. done. }
      unfold shl32, u32. rewrite N.shiftl_mul_pow2. change two32 with (16777216 * 256). change (2 ^ 8) with 256.
      rewrite N.mul_mod_distr_r by done. apply N.mod_mul. done.
    + intros H. apply setOffset_offset; [|done|done]. destruct H; [by left|right; done].
  - intros H. split; [by apply setOffset_label|]. split; [by apply setOffset_hasLeaf|by apply setOffset_isLeaf].
  - split; [by apply setLabel_label|]. split; [by apply setLabel_hasLeaf|]. split; [by apply setLabel_isLeaf|by apply setLabel_offset].
  - split; [apply setHasLeaf_hasLeaf|]. split; [apply setHasLeaf_label|]. split; [apply setHasLeaf_isLeaf|apply setHasLeaf_offset].
  - split; [apply setValue_value|apply setValue_isLeaf].
Qed.
Print Assumptions C63_packing.
Example C63_case : (dictSetOffset 97 2097408).1 = true /\ dictOffset (dictSetOffset 97 2097408).2 = 2097408.
Proof. by_vm. Qed.

(** C50: the empty dictionary contains nothing, but labels can be followed in it. *)
Theorem C50_empty_lookup_partial h us q : hist_ok h -> accepted h = [] -> made h us -> bytes q ->
  dc_ContainsString us q = Ok false /\ dc_FindString us q = Ok (-1)%Z.
Proof.
  intros Hh Ha Hm Hq. destruct (safe_lookup h us Hh Hm q Hq) as [(v & Hv & _)|(_ & H1 & H2 & _)]; [| |done].
  - intros p c t _ _ _ k v Hv. rewrite Ha in Hv. by apply elem_of_nil in Hv.
  - rewrite Ha in Hv. by apply elem_of_nil in Hv.
Qed.
Print Assumptions C50_empty_lookup_partial.
Theorem C50_empty_follow_refuted : exists us j, made [] us /\ dc_FollowString us [97] 0 = Ok (true, j).
Proof. exists (dict_of []), 96. split; [made_vm|by vm_compute]. Qed.
Print Assumptions C50_empty_follow_refuted.
(** C64. Exactly which strings can be followed in it: any label except 1, after
    any number of zeros. *)
Theorem C64_empty_follow_exact h us q : hist_ok h -> accepted h = [] -> made h us -> bytes q ->
  exists b j, dc_FollowString us q 0 = Ok (b, j) /\
    (b = true <-> q = [] \/ exists n l, q = repeat 0 n ++ [l] /\ l <> 1).
Proof.
  intros Hh Ha Hm Hq. destruct (made_cases h us Hh Hm) as (R & He & Hw & [[-> ->]|(HR & _)]).
  - destruct (empty_string q 0) as (b & j & H1 & _ & H2); [lia|done|]. by exists b, j.
  - by apply (nil_iff h R He Hw) in Ha.
Qed.
Print Assumptions C64_empty_follow_exact.
Example C64_case : exists us, made [] us /\ dc_FollowString us [0; 0; 7] 0 = Ok (true, 6) /\ dc_FollowString us [7; 7] 0 = Ok (false, 6).
Proof. exists (dict_of []). split; [made_vm|by_vm]. Qed.
