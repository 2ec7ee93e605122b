(** Property theorems C121: initial hash table sizes below 1, which C09-C20 leave out
    (dawg_builder.go:22-36, 73-79). *)
From Verif Require Import Go BitPool Dawg DawgSpec DawgSize Dict DictSpec Properties_Dawg.
Local Open Scope N_scope.

(** "The initial size does not matter" is false of sizes below 1.  With 0, "a" is
    accepted and lost, and the empty key, never inserted, is found; a second, greater key
    panics.  With -1 everything panics. *)
Theorem C121_size_refuted :
  (exists b d u, insert_all (NewDawgBuilderWithSize 0) [([97], 1%Z)] = Ok ([true], b) /\
    build_dict 0 [([97], 1%Z)] NewDawg = Ok (Some (d, u)) /\ dc_FindString d [97] = Ok (-1)%Z /\ dc_FindString d [] = Ok 0%Z) /\
  insert_all (NewDawgBuilderWithSize 0) [([97], 1%Z); ([98], 2%Z)] = Panic /\
  build (-1) [] NewDawg = Panic.
Proof.
  split; [|split; vm_compute; reflexivity]. eexists _, _, _. split; [vm_compute; reflexivity|].
  split; [vm_compute; reflexivity|]. split; vm_compute; reflexivity.
Qed.
Print Assumptions C121_size_refuted.

(** A negative size: the first call panics, whatever it is. *)
Theorem C121_negative size key length value d : (size < 0)%Z ->
  InsertKeyValue (NewDawgBuilderWithSize size) key length value = Panic /\ Finish (NewDawgBuilderWithSize size) d = Panic.
Proof.
  intros Hs. unfold InsertKeyValue, Finish, db_init. cbn [NewDawgBuilderWithSize b_hash b_init].
  destruct (Z.ltb_spec size 0) as [_|?]; [done|lia].
Qed.
Print Assumptions C121_negative.
Example C121_negative_case : (-5 < 0)%Z. Proof. lia. Qed.

(** The size 0.  [none_greater k h]: no key of [h] is greater than [k].  The first key is accepted.  A later call returns true for that key and false
    for a smaller one; it panics for a greater one. *)
Theorem C121_zero k v h : key_ok k -> N.of_nat (length k) < 1073741824 -> Forall (fun e : entry => key_ok e.1) h ->
  (none_greater k h -> exists b, insert_all (NewDawgBuilderWithSize 0) ((k, v) :: h) = Ok (true :: map (fun e => bool_decide (e.1 = k)) h, b)) /\
  (~ none_greater k h -> insert_all (NewDawgBuilderWithSize 0) ((k, v) :: h) = Panic).
Proof.
  intros Hk Hl Hh. cbn [insert_all]. destruct (insert_first k v Hk Hl) as (b & -> & Hz). cbn [mbind res_bind].
  destruct (insert_rest k h v 0 b Hz Hk Hh) as [H1 H2]. split.
  - intros Hg. destruct (H1 Hg) as (b' & v' & -> & _). by exists b'.
  - intros Hg. by rewrite H2.
Qed.
Print Assumptions C121_zero.

Lemma zero_build k v h d0 : key_ok k -> N.of_nat (length k) < 1073741824 -> Forall (fun e : entry => key_ok e.1) h -> none_greater k h ->
  exists ws, build 0 ((k, v) :: h) d0 = Ok (true :: map (fun e => bool_decide (e.1 = k)) h,
    mkDawg (4 :: 0 :: replicate (length h) 0) (255 :: 0 :: replicate (length h) 0) (mkBP (0 :: replicate ws 0) (N.of_nat (S (S (length h))))) 1 0 (Z.of_nat (S (length h))) 0).
Proof.
  intros Hk Hl Hh Hg. unfold build. cbn [insert_all]. destruct (insert_first k v Hk Hl) as (b & -> & Hz). cbn [mbind res_bind].
  destruct (insert_rest k h v 0 b Hz Hk Hh) as [H1 _]. destruct (H1 Hg) as (b' & v' & -> & Hz'). cbn [mbind res_bind].
  destruct (finish_zero _ _ _ _ d0 Hz') as (ws & b2 & ->). exists ws. cbn [mbind res_bind Nat.add replicate]. done.
Qed.
(** Nothing of what was inserted is in the Dawg: it holds the empty key with the value
    0 and no other, has one state, and one transition for every call. *)
Theorem C121_dawg k v h d0 : key_ok k -> N.of_nat (length k) < 1073741824 -> Forall (fun e : entry => key_ok e.1) h -> none_greater k h ->
  exists rs d, build 0 ((k, v) :: h) d0 = Ok (rs, d) /\ (forall k' v', spells d dawg_root k' v' <-> k' = [] /\ v' = 0%Z) /\
    d_states d = 1 /\ dawg_transitions d = Z.of_nat (length ((k, v) :: h)).
Proof.
  intros Hk Hl Hh Hg. destruct (zero_build k v h d0 Hk Hl Hh Hg) as [ws ->]. eexists _, _. split; [reflexivity|].
  match goal with |- context [spells ?d0 _ _ _] => set (d := d0) end.
  assert (Hc : dawg_child d 0 = Ok 1) by reflexivity. assert (Hn : dawg_sibling d 1 = Ok 0) by reflexivity.
  assert (Hb : dawg_lbl d 1 = Ok 0) by reflexivity. assert (Hv : dawg_value d 1 = Ok 0%Z) by reflexivity.
  assert (Hin : forall j, in_chain d 1 j -> j = 1).
  { intros j Hj. inversion Hj as [|c n j' _ Hs Hr]; subst; [done|]. rewrite Hn in Hs. injection Hs as <-. inversion Hr; done. }
  split; [|split; [done|unfold dawg_transitions; cbn [d d_base length]; rewrite replicate_length; lia]].
  intros k' v'. split.
  - intros Hs. inversion Hs as [i c j w H1 H2 H3 H4|i c j l q w H1 H2 H3 H4 H5]; subst; unfold dawg_root in *; rewrite Hc in H1; injection H1 as <-; apply Hin in H2 as ->.
    + rewrite Hv in H4. by injection H4 as <-.
    + rewrite Hb in H3. by injection H3 as <-.
  - intros [-> ->]. by apply (sp_end d _ 1 1); [|constructor| |].
Qed.
Print Assumptions C121_dawg.
(** So the dictionary is the one of the single entry ("", 0), whatever was inserted. *)
Theorem C121_dictionary k v h d0 size d0' : key_ok k -> N.of_nat (length k) < 1073741824 -> Forall (fun e : entry => key_ok e.1) h -> none_greater k h -> size_ok size ->
  build_dict 0 ((k, v) :: h) d0 = build_dict size [([], 0%Z)] d0'.
Proof.
  intros Hk Hl Hh Hg Hs. assert (H1 : build_dict 1 [([], 0%Z)] NewDawg = build_dict size [([], 0%Z)] d0').
  { unfold build_dict. rewrite (C16_size_independent 1 size [([], 0%Z)] NewDawg d0'); [done|done|done|split; [repeat constructor|done]]. }
  rewrite <- H1. unfold build_dict at 1. destruct (zero_build k v h d0 Hk Hl Hh Hg) as [ws ->]. cbn [mbind res_bind].
  unfold dict_BuildWithUnused, BuildDictionary, dawg_size. cbn [d_base length].
  assert (Hlt : (1 <? N.of_nat (S (S (length (replicate (length h) 0))))) = true) by (apply N.ltb_lt; lia). rewrite Hlt. cbn [d_merging].
  vm_compute. reflexivity.
Qed.
Print Assumptions C121_dictionary.
(** With no insertion at all the size 0 does no harm. *)
Theorem C121_none d0 : build 0 [] d0 = build 1 [] d0.
Proof. vm_compute. reflexivity. Qed.
Print Assumptions C121_none.

Example C121_zero_case : key_ok [98; 97] /\ N.of_nat (length [98; 97]) < 1073741824 /\
  Forall (fun e : entry => key_ok e.1) [([98; 97], 7%Z); ([97], 1%Z)] /\ none_greater [98; 97] [([98; 97], 7%Z); ([97], 1%Z)] /\
  ~ none_greater [98; 97] [([98; 97; 97], 7%Z)].
Proof.
  split; [repeat constructor; lia|]. split; [cbn; lia|]. split; [repeat constructor; cbn; lia|].
  split; [repeat constructor; done|]. intros H. by apply Forall_cons in H as [H _].
Qed.
Example C121_zero_runs : (exists b, insert_all (NewDawgBuilderWithSize 0) [([98; 97], 5%Z); ([98; 97], 7%Z); ([97], 1%Z)] = Ok ([true; true; false], b)) /\
  insert_all (NewDawgBuilderWithSize 0) [([98; 97], 5%Z); ([98; 97; 97], 7%Z)] = Panic.
Proof. split; [eexists|]; vm_compute; reflexivity. Qed.
