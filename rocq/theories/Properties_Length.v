(** Property theorems C101, C102: InsertKeyValue with a length that is not that of
    a prefix of the key (dawg_builder.go:264-320).  The lengths 0..len(key) are
    C09_insert_prefix. *)
From Verif Require Import Go BitPool Dawg DawgSpec DawgThms DawgLength.
Local Open Scope N_scope.
Local Ltac by_vm := lazymatch goal with |- _ /\ _ => split; [vm_compute; reflexivity|by_vm] | _ => vm_compute; reflexivity end.

(** "ab" = 1, "bb" = 2. *)
Definition len_h : list entry := [([97; 98], 1%Z); ([98; 98], 2%Z)].

(** C101. A length greater than the key never inserts: the call returns false and
    changes nothing when some byte of the key is less than the byte of the last
    accepted key in its place, all earlier ones being equal; otherwise the key
    is read outside its bounds, and the call panics. *)
Theorem C101_long size h k v b len : size_ok size -> hist_ok (h ++ [(k, v)]) ->
  insert_all (NewDawgBuilderWithSize size) h = Ok (results h, b) -> (Z.of_nat (length k) < len)%Z ->
  let before := exists k0 v0 p l q l' r,
    last (accepted h) = Some (k0, v0) /\ k0 = p ++ l :: q /\ k = p ++ l' :: r /\ l' < l in
  (before -> InsertKeyValue b k len v = Ok (false, b)) /\ (~ before -> InsertKeyValue b k len v = Panic).
Proof. exact (length_long size h k v b len). Qed.
Print Assumptions C101_long.
Example C101_case : size_ok 256 /\ hist_ok (len_h ++ [([98; 97], 0%Z)]) /\
  exists b, insert_all (NewDawgBuilderWithSize 256) len_h = Ok (results len_h, b) /\
    InsertKeyValue b [98; 97] 3 0 = Ok (false, b) /\ InsertKeyValue b [98] 2 0 = Panic /\
    InsertKeyValue b [98; 98] 3 0 = Panic /\ InsertKeyValue b [99] 9 0 = Panic.
Proof.
  split; [done|]. split. { split; [|by vm_compute]. unfold len_h, key_ok. repeat constructor. }
  eexists. by_vm.
Qed.

(** C102. "A negative length is refused, or at least leaves the other keys as they
    are" is false: it is accepted, and after it the key inserted next is lost and
    the one before has another value.  On a builder without keys it makes the
    root's child a transition that does not exist. *)
Theorem C102_negative_refuted : exists b b1 b2 d b3, insert_all NewDawgBuilder [([97], 5%Z)] = Ok ([true], b) /\
  InsertKeyValue b [] (-1) 0 = Ok (true, b1) /\ InsertStringValue b1 [98] 3 = Ok (true, b2) /\
  Finish b2 NewDawg = Ok (d, b3) /\ (forall v, ~ spells d dawg_root [98] v) /\ (forall v, spells d dawg_root [97] v -> v <> 5%Z) /\
  exists b4 d' b5, InsertKeyValue NewDawgBuilder [] (-1) 7 = Ok (true, b4) /\ Finish b4 NewDawg = Ok (d', b5) /\
    dawg_child d' 0 = Ok 7 /\ length (d_base d') = 1%nat.
Proof.
  eexists _, _, _, _, _. do 4 (split; [vm_compute; reflexivity|]). split; [|split].
  - intros v H. inversion H as [|? c j ? ? ? Hc Hj Hl]; subst. cbv in Hc. injection Hc as <-.
    inversion Hj as [|? n ? ? Hn Hj']; subst; [by cbv in Hl|]. cbv in Hn. injection Hn as <-. by inversion Hj'.
  - intros v H. inversion H as [|? c j ? ? ? Hc Hj Hl _ Hs]; subst. cbv in Hc. injection Hc as <-.
    inversion Hj as [|? n ? ? Hn Hj']; subst; [|cbv in Hn; injection Hn as <-; by inversion Hj'].
    inversion Hs as [? c j ? Hc' Hj2 Hl' Hv|]; subst. cbv in Hc'. injection Hc' as <-.
    inversion Hj2 as [|? n ? ? Hn2 Hj3]; subst; [|cbv in Hn2; injection Hn2 as <-; by inversion Hj3]. cbv in Hv. by injection Hv as <-.
  - eexists _, _, _. by_vm.
Qed.
Print Assumptions C102_negative_refuted.
(** What it does: it returns true, and the child of the first unit, the root,
    becomes the value; nothing else changes. *)
Theorem C102_negative b u us key len v : (len < 0)%Z -> b_hash b <> [] -> b_unit b = u :: us ->
  InsertKeyValue b key len v =
    Ok (true, set_unit b (mkDU (u32_of_i32 v) (u_sibling u) (u_label u) (u_isState u) (u_hasSibling u) :: us)).
Proof. exact (length_negative b u us key len v). Qed.
Print Assumptions C102_negative.
(** So after at least one key a call of Finish that follows at once writes the
    root's child again: the Dawg is the same. *)
Theorem C102_finish size kv h rs b key len v b' d : size_ok size -> hist_ok (kv :: h) ->
  insert_all (NewDawgBuilderWithSize size) (kv :: h) = Ok (rs, b) -> (len < 0)%Z ->
  InsertKeyValue b key len v = Ok (true, b') -> Finish b' d = Finish b d.
Proof. exact (negative_finish size kv h rs b key len v b' d). Qed.
Print Assumptions C102_finish.
Example C102_case : exists b b' u us d b2, insert_all (NewDawgBuilderWithSize 256) len_h = Ok ([true; true], b) /\
  b_unit b = u :: us /\ b_hash b <> [] /\ InsertKeyValue b [99] (-2) 9 = Ok (true, b') /\ Finish b' NewDawg = Ok (d, b2).
Proof. eexists _, _, _, _, _, _. do 2 (split; [vm_compute; reflexivity|]). split; [by vm_compute|]. by_vm. Qed.
