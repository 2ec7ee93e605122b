(** Property theorems for dawg_builder.go and dawg.go: C09-C20, C54, C58, C59.
    Hypotheses: [hist_ok h]: keys are bytes without 0 and their total length
    (terminators counted) is below 2^30, so that transition indices fit in the
    30 bits of base_unit.go; [size_ok size]: 1 <= size < 2^32. *)
From Verif Require Import Go BitPool Dawg DawgSpec DawgThms.
Local Open Scope N_scope.

(** Run the code of a conjunction of equations. *)
Local Ltac by_vm := lazymatch goal with |- _ /\ _ => split; [vm_compute; reflexivity|by_vm] | _ => vm_compute; reflexivity end.

(** The history used in the examples: "ab"=1, "aab" out of order, "ac"=-1,
    "bb"=1, "bb"=5 again, "bc"=-1, "c"=7. *)
Definition ex_h : list entry :=
  [([97; 98], 1%Z); ([97; 97; 98], 4%Z); ([97; 99], (-1)%Z); ([98; 98], 5%Z); ([98; 98], 1%Z); ([98; 99], (-1)%Z); ([99], 7%Z)].
Lemma ex_ok : hist_ok ex_h.
Proof. split; [|by vm_compute]. unfold ex_h, key_ok. repeat constructor. Qed.

(** C09. After any accepted/rejected history, the next insertion is accepted
    iff its key is not before the last accepted key.  The results of the
    history itself are those of the specification. *)
Theorem C09_insert_order size h k v : size_ok size -> hist_ok (h ++ [(k, v)]) ->
  exists b r b', insert_all (NewDawgBuilderWithSize size) h = Ok (results h, b) /\
    InsertStringValue b k v = Ok (r, b') /\
    (r = true <-> match last (accepted h) with None => True | Some (k0, _) => kcmp k0 k <> Gt end).
Proof.
  intros Hs Hh. destruct (insert_next size h k v Hs Hh) as (b & b' & H1 & H2 & _). exists b, (spec_insert (accepted h) (k, v)).1, b'. split; [done|]. split; [done|].
  unfold spec_insert. destruct (last (accepted h)) as [[k0 v0]|]; cbn [fst]; [|done]. destruct (kcmp k0 k); naive_solver.
Qed.
Print Assumptions C09_insert_order.
Example C09_case : size_ok 1 /\ hist_ok ex_h /\ results ex_h = [true; false; true; true; true; true; true] /\
  exists b, insert_all (NewDawgBuilderWithSize 1) ex_h = Ok (results ex_h, b).
Proof. split; [done|]. split; [apply ex_ok|]. split; [done|]. eexists. vm_compute. reflexivity. Qed.

(** The length argument selects a prefix of the key. *)
Theorem C09_insert_prefix b key len v : (0 <= len <= Z.of_nat (length key))%Z ->
  InsertKeyValue b key len v = InsertStringValue b (take (Z.to_nat len) key) v.
Proof. exact (InsertKeyValue_take b key len v). Qed.
Print Assumptions C09_insert_prefix.

(** C10. A rejected insertion returns the builder it was given. *)
Theorem C10_rejected_unchanged size h k v rs b b' : size_ok size -> hist_ok (h ++ [(k, v)]) ->
  insert_all (NewDawgBuilderWithSize size) h = Ok (rs, b) ->
  InsertStringValue b k v = Ok (false, b') -> b' = b.
Proof.
  intros Hs Hh H1 H2. destruct (insert_next size h k v Hs Hh) as (b0 & b0' & H1' & H2' & H3).
  rewrite H1 in H1'. injection H1' as -> <-. rewrite H2 in H2'. injection H2' as Hr <-. by apply H3.
Qed.
Print Assumptions C10_rejected_unchanged.
Example C10_case : exists rs b, insert_all (NewDawgBuilderWithSize 2) ex_h = Ok (rs, b) /\
  InsertStringValue b [98] 9 = Ok (false, b).
Proof. eexists _, _. by_vm. Qed.

(** C11, C19. The Dawg spells exactly the accepted keys, each with its value
    modulo 2^31 (a negative int32 v comes back as v + 2^31). *)
Theorem C11_dawg_exact size h d0 : size_ok size -> hist_ok h ->
  exists d, build size h d0 = Ok (results h, d) /\
    forall k v, spells d dawg_root k v <-> (k, v) ∈ map kept_entry (accepted h).
Proof. exact (build_spells size h d0). Qed.
Print Assumptions C11_dawg_exact.
Theorem C19_values size h d0 k v : size_ok size -> hist_ok h -> (k, v) ∈ accepted h ->
  (-2147483648 <= v < 2147483648)%Z ->
  exists d, build size h d0 = Ok (results h, d) /\
    spells d dawg_root k (if (v <? 0)%Z then v + 2147483648 else v)%Z.
Proof.
  intros Hs Hh Hin Hv. destruct (build_spells size h d0 Hs Hh) as (d & H1 & H2). exists d. split; [done|]. apply H2.
  apply elem_of_list_fmap. exists (k, v). split; [|done]. unfold kept_entry, kept. cbn. f_equal.
  destruct (Z.ltb_spec v 0); [|symmetry; apply Z.mod_small; lia].
  symmetry. rewrite <- (Z_mod_plus_full v 1 2147483648), Z.mod_small by lia. lia.
Qed.
Print Assumptions C19_values.
Example C11_case : map kept_entry (accepted ex_h) =
  [([97; 98], 1%Z); ([97; 99], 2147483647%Z); ([98; 98], 1%Z); ([98; 99], 2147483647%Z); ([99], 7%Z)] /\
  exists d, build 1 ex_h NewDawg = Ok (results ex_h, d).
Proof. split; [done|]. eexists. vm_compute. reflexivity. Qed.

(** C12. Inserting the last key again is accepted and replaces its value. *)
Theorem C12_overwrite size h k v v0 es d0 : size_ok size -> hist_ok (h ++ [(k, v)]) ->
  accepted h = es ++ [(k, v0)] ->
  exists d, build size (h ++ [(k, v)]) d0 = Ok (results h ++ [true], d) /\
    forall key val, spells d dawg_root key val <-> (key, val) ∈ map kept_entry (es ++ [(k, v)]).
Proof.
  intros Hs Hh He. destruct (build_spells size _ d0 Hs Hh) as (d & H1 & H2). exists d.
  rewrite results_snoc in H1. rewrite accepted_snoc in H2. unfold spec_insert in H1, H2. rewrite He, last_snoc in H1, H2. cbn [fst] in H1, H2.
  assert (Hr : forall a, kcmp a a = Eq) by (induction a as [|x a IH]; cbn; [done|]; by rewrite N.compare_refl).
  rewrite Hr, removelast_last in H2. rewrite Hr in H1. done.
Qed.
Print Assumptions C12_overwrite.
Example C12_case : accepted (take 4 ex_h) = [([97; 98], 1%Z); ([97; 99], (-1)%Z)] ++ [([98; 98], 5%Z)] /\
  accepted (take 5 ex_h) = [([97; 98], 1%Z); ([97; 99], (-1)%Z)] ++ [([98; 98], 1%Z)].
Proof. done. Qed.

(** C13. Minimality: the states, the root excluded, are as many as the distinct
    non-empty residuals of the accepted entries. *)
Theorem C13_minimal size h d0 : size_ok size -> hist_ok h ->
  exists d L, build size h d0 = Ok (results h, d) /\
    enumerates L (fun r => r <> [] /\ exists p, r = residual (map kept_entry (accepted h)) p) /\
    d_states d = N.of_nat (S (length L)).
Proof. exact (build_minimal size h d0). Qed.
Print Assumptions C13_minimal.

(** C14. Transition and merged-state counters. *)
Theorem C14_counters size h d0 : size_ok size -> hist_ok h ->
  exists d L, build size h d0 = Ok (results h, d) /\ enumerates L (trie_edge (accepted h)) /\
    (dawg_transitions d + Z.of_N (d_mergedTrans d) = Z.of_nat (length L))%Z /\
    (d_mergedStates d = Z.of_nat (length L) + 1 - Z.of_N (d_states d))%Z.
Proof. exact (build_counts size h d0). Qed.
Print Assumptions C14_counters.

(** C15. Building ends, without panic. *)
Theorem C15_no_panic size h d0 : size_ok size -> hist_ok h -> exists d, build size h d0 = Ok (results h, d).
Proof. intros Hs Hh. destruct (build_spells size h d0 Hs Hh) as (d & ? & _). eauto. Qed.
Print Assumptions C15_no_panic.

(** C16. The Dawg depends neither on the table size nor on the Dawg passed to Finish. *)
Theorem C16_size_independent size size' h d0 d0' : size_ok size -> size_ok size' -> hist_ok h ->
  build size h d0 = build size' h d0'.
Proof. exact (build_same size size' h d0 d0'). Qed.
Print Assumptions C16_size_independent.

(** C20. Merging states: the counter is the number of states whose flag is set,
    and the flag of a state is set iff two different prefixes lead to it. *)
Theorem C20_merging size h d0 : size_ok size -> hist_ok h ->
  exists d L, build size h d0 = Ok (results h, d) /\
    enumerates L (fun c => (exists p, state_of d c p) /\ dawg_isMerging d c = Ok true) /\
    d_merging d = N.of_nat (length L) /\
    (forall c p, state_of d c p -> dawg_isMerging d c = Ok true \/ dawg_isMerging d c = Ok false) /\
    forall c, (exists p, state_of d c p) -> dawg_isMerging d c = Ok true <->
      exists p p', p <> p' /\ state_of d c p /\ state_of d c p'.
Proof. exact (build_merging size h d0). Qed.
Print Assumptions C20_merging.
Example C13_C14_C20_case : exists rs d, build 3 ex_h NewDawg = Ok (rs, d) /\
  d_states d = 6 /\ dawg_transitions d = 8%Z /\ d_mergedTrans d = 4 /\ d_mergedStates d = 7%Z /\ d_merging d = 3.
Proof. eexists _, _. by_vm. Qed.

(** C17 is false: after Finish the builder only panics. *)
Theorem C17_reusable_refuted : exists rs b d b', insert_all NewDawgBuilder ex_h = Ok (rs, b) /\
  Finish b NewDawg = Ok (d, b') /\ InsertStringValue b' [97] 1 = Panic /\ Finish b' d = Panic.
Proof. eexists _, _, _, _. by_vm. Qed.
Print Assumptions C17_reusable_refuted.
(** C58. What it does instead, for every builder on which Finish succeeded. *)
Theorem C58_after_finish b d d' b' : Finish b d = Ok (d', b') ->
  (forall key len v, (0 <= len)%Z -> InsertKeyValue b' key len v = Panic) /\ (forall d2, Finish b' d2 = Panic).
Proof. exact (after_finish b d d' b'). Qed.
Print Assumptions C58_after_finish.
Example C58_case : exists d b, Finish NewDawgBuilder NewDawg = Ok (d, b).
Proof. eexists _, _. by_vm. Qed.

(** C18 is false: a zero byte and a negative value are accepted. *)
Theorem C18_illformed_refuted : exists k v, In 0 k /\ (v < 0)%Z /\ exists b b1,
  InsertStringValue NewDawgBuilder k 0 = Ok (true, b) /\ InsertStringValue NewDawgBuilder [97] v = Ok (true, b1).
Proof. exists [97; 0; 98], (-5)%Z. split; [by right; left|]. split; [done|]. eexists _, _. by_vm. Qed.
Print Assumptions C18_illformed_refuted.

(** C54 is false: Clear leaves two counters. *)
Theorem C54_clear_refuted : exists rs d, build 1 ex_h NewDawg = Ok (rs, d) /\
  d_mergedTrans (dawg_clear d) <> 0 /\ d_merging (dawg_clear d) <> 0.
Proof. eexists _, _. split; [vm_compute; reflexivity|]. split; vm_compute; done. Qed.
Print Assumptions C54_clear_refuted.
(** C59. Clear resets everything else, so it yields a new Dawg exactly when
    nothing had been merged. *)
Theorem C59_clear_exact d :
  dawg_clear d = NewDawg <-> d_mergedTrans d = 0 /\ d_merging d = 0.
Proof. unfold dawg_clear, NewDawg, NewBitPool, bp_clear. split; [intros [= -> ->]; done|intros [-> ->]; done]. Qed.
Print Assumptions C59_clear_exact.
