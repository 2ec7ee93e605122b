(** Property theorem C106: keys with zero bytes (dawg_builder.go:264-320), which C18
    leaves out.  A zero byte ends a key in the graph, so the builder has no other
    place for what follows it. *)
From Verif Require Import Go BitPool Dawg DawgSpec DawgThms DawgNulSpec DawgNulRun Tree TreeFacts DawgAbs DawgNav Dict DictInv DictMain DictSpec DictThms Guide Completer GuideSpec GuideThms.
Local Open Scope N_scope.
Local Ltac by_vm := lazymatch goal with |- _ /\ _ => split; [vm_compute; reflexivity|by_vm] | _ => vm_compute; reflexivity end.

(** "A key with a zero byte is refused, or found afterwards" is false.  "a\0b" alone
    is accepted; afterwards it is not found, and "a", never inserted, is, with
    a value of the builder's own.  After "a" with the value 7 the call panics; after "a"
    with the value 1 it is accepted and "a" is lost. *)
Theorem C106_nul_refuted :
  (exists d u, build_dict 256 [([97; 0; 98], 5%Z)] NewDawg = Ok (Some (d, u)) /\
    dc_FindString d [97; 0; 98] = Ok (-1)%Z /\ dc_FindString d [97] = Ok 2%Z) /\
  build_dict 256 [([97], 7%Z); ([97; 0; 98], 5%Z)] NewDawg = Panic /\
  exists d u, build_dict 256 [([97], 1%Z); ([97; 0; 98], 5%Z)] NewDawg = Ok (Some (d, u)) /\
    dc_FindString d [97] = Ok (-1)%Z /\ dc_FindString d [97; 0; 98] = Ok (-1)%Z.
Proof. split; [eexists _, _; by_vm|]. split; [by vm_compute|]. eexists _, _. by_vm. Qed.
Print Assumptions C106_nul_refuted.
(** "Such a key harms at most the key with the same bytes before the zero byte" is false
    too, when that one came before with a small positive value: the value is taken for the
    place of a unit.  Every call below returns true.  Then nothing is found, neither
    "aa" nor "ab" nor the later "b"; with another key, "abc" is found, which nobody
    inserted.  And the value of a later "a" is lost after "a\0b". *)
Definition outcome (H : list entry) (rs : list bool) (found : list (list N * Z)) : Prop :=
  exists b d u, insert_all (NewDawgBuilderWithSize 256) H = Ok (rs, b) /\ build_dict 256 H NewDawg = Ok (Some (d, u)) /\
    forall k v, (k, v) ∈ found -> dc_FindString d k = Ok v.
Theorem C106_damage_refuted :
  outcome [([97; 97], 1%Z); ([97; 98], 3%Z); ([97; 98; 0; 99], 5%Z); ([98], 7%Z)] [true; true; true; true] [([97; 97], (-1)%Z); ([97; 98], (-1)%Z); ([98], (-1)%Z)] /\
  outcome [([97; 97], 1%Z); ([97; 98], 3%Z); ([97; 98; 0; 98; 99], 5%Z); ([98], 7%Z)] [true; true; true; true] [([97; 97], 1%Z); ([97; 98], 3%Z); ([98], 7%Z); ([97; 98; 99], 5%Z)] /\
  outcome [([97; 0; 98], 5%Z); ([97], 9%Z)] [true; true] [([97], 2%Z)].
Proof.
  split; [|split]; eexists _, _, _; (split; [by vm_compute|]); (split; [vm_compute; reflexivity|]); intros k v Hk; repeat (apply elem_of_cons in Hk as [[= -> ->]|Hk]; [by vm_compute|]); by apply elem_of_nil in Hk.
Qed.
Print Assumptions C106_damage_refuted.

(** What happens.  A key is accepted if it is not less than the last accepted one, or if it
    is that one up to a zero byte ([takes]).  It is stored up to its first zero byte.
    Of the accepted keys that are the same up to there, the value of the last is stored if
    none of them has a zero byte, and a number of the builder's own if one has
    ([nul_stored]; [t k] is the place of a transition).  Nothing else is
    stored.  The keys are any bytes, in any order.
    The full statement has no [calm]: that the accepted key before k, a zero byte and
    more is k only if the value is 0, as all are without -t.  For values of more than the
    bytes inserted so far see C106_panic; missing are the positive ones up to there,
    for which C106_damage_refuted shows what can happen. *)
Theorem C106_nul_partial size H : size_ok size -> bytes_ok H -> hist_size H < 1073741824 -> calm (nul_accepted H) -> H <> [] ->
  exists b d b' t, insert_all (NewDawgBuilderWithSize size) H = Ok (nul_results H, b) /\ Finish b NewDawg = Ok (d, b') /\
    (forall k, 0 < t k < 1073741824)%Z /\ forall k v, spells d dawg_root k v <-> nul_stored t (nul_accepted H) k v.
Proof. exact (nul_exact size H). Qed.
Print Assumptions C106_nul_partial.
(** The last accepted key, with or without zero bytes, and then a zero byte and more: when
    the value of that one is negative, or more than the bytes inserted so far, the call
    panics. *)
Theorem C106_panic size H k v b r w : size_ok size -> bytes_ok H -> hist_size H < 1073741824 -> calm (nul_accepted H) ->
  insert_all (NewDawgBuilderWithSize size) H = Ok (nul_results H, b) -> last (nul_accepted H) = Some (k, v) ->
  (Z.of_N (hist_size H) < v mod 4294967296)%Z -> InsertStringValue b (k ++ 0 :: r) w = Panic.
Proof. intros H1 H2 H3 H4 H5 H6 H7. exact (nul_panic size H k v r w b H1 H2 H3 H4 H5 H6 H7). Qed.
Print Assumptions C106_panic.
(** A key that is refused changes nothing. *)
Theorem C106_lower size H k v b key w : size_ok size -> bytes_ok H -> hist_size H < 1073741824 -> calm (nul_accepted H) ->
  insert_all (NewDawgBuilderWithSize size) H = Ok (nul_results H, b) -> last (nul_accepted H) = Some (k, v) ->
  takes k key = false -> InsertStringValue b key w = Ok (false, b).
Proof. intros H1 H2 H3 H4 H5 H6 H7. exact (nul_false size H k v key w b H1 H2 H3 H4 H5 H6 H7). Qed.
Print Assumptions C106_lower.
(** Without zero bytes this is C18 and C19: the same results, and the same entries
    whatever [t] is. *)
Theorem C106_agrees h t : hist_ok h -> h <> [] -> nul_results h = results h /\ calm (nul_accepted h) /\
  forall k v, nul_stored t (nul_accepted h) k v <-> (k, v) ∈ map kept_entry (accepted h).
Proof. exact (nul_agrees h t). Qed.
Print Assumptions C106_agrees.
Example C106_case : let H := [([97; 0; 98], 5%Z); ([96], 1%Z); ([97; 98], 2%Z); ([98], 0%Z); ([98; 0], 3%Z); ([99], 4%Z)] in
  size_ok 256 /\ bytes_ok H /\ hist_size H < 1073741824 /\ calm (nul_accepted H) /\ nul_results H = [true; false; true; true; true; true] /\
  exists b d u, insert_all (NewDawgBuilderWithSize 256) H = Ok (nul_results H, b) /\
    build_dict 256 H NewDawg = Ok (Some (d, u)) /\ dc_FindString d [97; 98] = Ok 2%Z /\ dc_FindString d [99] = Ok 4%Z /\
    dc_FindString d [97] = Ok 2%Z /\ dc_FindString d [98] = Ok 6%Z.
Proof.
  cbv zeta. split; [done|]. split; [by repeat constructor|]. split; [by vm_compute|]. split; [by apply calm_check; vm_compute|]. split; [by vm_compute|]. eexists _, _, _. by_vm.
Qed.
(** Several keys with the same bytes before the zero byte, a key that is less than the
    last one and yet accepted, and one after it. *)
Example C106_case3 : let H := [([97; 0; 98], 0%Z); ([97; 0; 98; 0; 99], 5%Z); ([97; 0; 98], 1%Z); ([97; 0; 99], 5%Z); ([97; 0], 1%Z); ([97], 9%Z); ([96; 0], 7%Z); ([98], 4%Z)] in
  size_ok 256 /\ bytes_ok H /\ hist_size H < 1073741824 /\ calm (nul_accepted H) /\ nul_results H = [true; true; true; true; false; true; false; true] /\
  exists b d u, insert_all (NewDawgBuilderWithSize 256) H = Ok (nul_results H, b) /\
    build_dict 256 H NewDawg = Ok (Some (d, u)) /\ dc_FindString d [98] = Ok 4%Z /\ dc_FindString d [97] = Ok 4%Z.
Proof.
  cbv zeta. split; [done|]. split; [by repeat constructor|]. split; [by vm_compute|]. split; [by apply calm_check; vm_compute|]. split; [by vm_compute|]. eexists _, _, _. by_vm.
Qed.
(** A panic after a key with a zero byte. *)
Example C106_case2 : let H := [([97], 0%Z); ([97; 0; 98], 100%Z)] in size_ok 256 /\ bytes_ok H /\ hist_size H < 1073741824 /\ calm (nul_accepted H) /\
  last (nul_accepted H) = Some ([97; 0; 98], 100%Z) /\ (Z.of_N (hist_size H) < 100 mod 4294967296)%Z /\ takes [97; 0; 98] [97; 0; 97] = false /\
  exists b, insert_all (NewDawgBuilderWithSize 256) H = Ok (nul_results H, b) /\ InsertStringValue b [97; 0; 98; 0] 0%Z = Panic.
Proof.
  cbv zeta. split; [done|]. split; [by repeat constructor|]. split; [by vm_compute|]. split; [by apply calm_check; vm_compute|]. split; [by vm_compute|]. split; [by vm_compute|]. split; [by vm_compute|]. eexists. by_vm.
Qed.

(** The dictionary and the guide made from it: those of the entries stored.  [h] is a
    history without zero bytes that has them, in increasing order; every one is found,
    a query that is safe for them (see C21) finds nothing else, and a
    completer gives those with a prefix, in order, as in C65. *)
Theorem C106_dictionary size H : size_ok size -> bytes_ok H -> hist_size H < 1073741824 -> calm (nul_accepted H) -> H <> [] ->
  exists d h t r, build size H NewDawg = Ok (nul_results H, d) /\ hist_ok h /\ increasing (entries h) /\ (forall k, 0 < t k < 1073741824)%Z /\
    (forall k v, (k, v) ∈ entries h <-> nul_stored t (nul_accepted H) k v) /\ dict_BuildWithUnused d = Ok r /\
    (forall L, enumerates L (key_prefix h) -> N.of_nat (length L) < 2097152 -> r <> None) /\
    forall us un, r = Some (us, un) ->
      (forall k v, (k, v) ∈ entries h -> dc_ContainsString us k = Ok true /\ dc_FindString us k = Ok v /\ forall w, dc_FindStringValue us k w = Ok (true, v)) /\
      (forall q, bytes q -> safe h q -> ~ is_key h q -> dc_ContainsString us q = Ok false /\ dc_FindString us q = Ok (-1)%Z /\ forall w, dc_FindStringValue us q w = Ok (false, w)) /\
      exists g, BuildGuide d us = Ok (Some g) /\ forall p, p = [] \/ key_prefix h p -> (p = [] -> ~ is_key h []) ->
        exists i, dc_FollowString us p 0 = Ok (true, i) /\ forall c P, exists c0, cp_StartString g c i P = Ok c0 /\
          outputs us g c0 (map (fun kv => (P ++ kv.1 ++ [0], Z.of_nat (length (P ++ kv.1)), kv.2)) (residual (entries h) p)).
Proof.
  intros Hs Hby Hsz Hc Hne. destruct (nul_tree size H Hs Hby Hsz Hc Hne) as (d & h & R & x & t & Hb & Hh & _ & HD & HR & He & Ht & Hst).
  exists d, h, t. destruct (build_nonempty d R x HD HR) as [(b & nb & asg & ff & Hbd & HB & _)|[Hbd Hbig]]; eexists; (split; [exact Hb|]); (split; [exact Hh|]);
    (split; [apply entries_inc|]); (split; [exact Ht|]); (split; [exact Hst|]); (split; [exact Hbd|]).
  - split; [intros L _ _ HN; discriminate HN|]. intros us un E. injection E as <- _.
    assert (Hw : wfe R) by (apply (dw_wfe _ _ _ HD)).
    assert (Hv : view h (db_units b)) by (exists R; split; [exact He|]; split; [exact Hw|]; right; split; [exact HR|]; exists b, nb, asg, ff; split; [reflexivity|exact HB]).
    split; [exact (view_key h _ Hv)|]. split.
    + intros q Hq Hsq Hno. destruct (view_lookup h _ Hv q Hq Hsq) as [(v & Hin & _)|[_ Hf]]; [|exact Hf]. exfalso. apply Hno. by exists v.
    + destruct (guide_nonempty d R x _ _ HD HR Hbd) as (g & Hg & Hg0 & b2 & nb2 & asg2 & ff2 & _ & _ & HP & HG). exists g. split; [exact Hg|].
      assert (Hgv : gview h (db_units b) g) by (exists R; split; [exact He|]; split; [exact Hw|]; right; split; [exact HR|]; split; [exact Hg0|]; exists (DictRead.dn R asg2); split; [exact HP|exact HG]).
      intros p Hp H0. destruct (view_reached h _ g p Hgv Hp) as [i Hi]. exists i. split; [exact Hi|]. intros c P. exact (view_outputs h _ g p i c P Hgv Hp Hi H0).
  - split; [|intros us un E; discriminate E]. intros L HL Hlt. exfalso. rewrite (prefix_count h R L He (dw_wfe _ _ _ HD) HR HL) in Hlt. clear -Hlt Hbig. lia.
Qed.
Print Assumptions C106_dictionary.
(** All stored entries, from the root. *)
Example C106_case4 : let H := [([97; 0; 98], 5%Z); ([96], 1%Z); ([97; 98], 2%Z); ([98], 0%Z); ([98; 0], 3%Z); ([99], 4%Z)] in
  size_ok 256 /\ bytes_ok H /\ hist_size H < 1073741824 /\ calm (nul_accepted H) /\
  exists d us un g, build 256 H NewDawg = Ok (nul_results H, d) /\ dict_BuildWithUnused d = Ok (Some (us, un)) /\ BuildGuide d us = Ok (Some g) /\
    exists c0 c1 c2 c3 c4 c5, cp_Start g NewCompleter 0 = Ok c0 /\ cp_Next us g c0 = Ok (true, c1) /\ cp_Next us g c1 = Ok (true, c2) /\
      cp_Next us g c2 = Ok (true, c3) /\ cp_Next us g c3 = Ok (true, c4) /\ cp_Next us g c4 = Ok (false, c5) /\
      map (fun c => (cp_Key c, cp_Value us c)) [c1; c2; c3; c4] = [([97; 0], Ok 2%Z); ([97; 98; 0], Ok 2%Z); ([98; 0], Ok 6%Z); ([99; 0], Ok 4%Z)].
Proof.
  cbv zeta. split; [done|]. split; [by repeat constructor|]. split; [by vm_compute|]. split; [by apply calm_check; vm_compute|].
  eexists _, _, _, _. split; [vm_compute; reflexivity|]. split; [vm_compute; reflexivity|]. split; [vm_compute; reflexivity|]. eexists _, _, _, _, _, _. by_vm.
Qed.
