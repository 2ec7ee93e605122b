(** Property C82: the short forms of the calls, and Clear of guides. *)
From Verif Require Import Go Dawg DawgSpec Dict DictSpec Guide Serial Properties_Dawg Properties_Dict Properties_Serial.
Local Open Scope N_scope.

(** The calls of InsertString one after the other. *)
Fixpoint insert_strings (b : builder) (ks : list (list N)) : res (list bool * builder) :=
  match ks with
  | [] => Ok ([], b)
  | k :: ks' =>
      '(r, b) ← InsertString b k;
      '(rs, b) ← insert_strings b ks';
      Ok (r :: rs, b)
  end.
(** InsertString gives the value 0. *)
Theorem C82_insert_string b ks : insert_strings b ks = insert_all b (map (fun k => (k, 0%Z)) ks).
Proof.
  revert b. induction ks as [|k ks IH]; intros b; [done|]. cbn [insert_strings insert_all map]. change (InsertStringValue b k 0) with (InsertString b k).
  destruct (InsertString b k) as [[r b']| |]; cbn [mbind res_bind]; [|done|done]. by rewrite IH.
Qed.
Print Assumptions C82_insert_string.
Example C82_strings : exists b, insert_strings NewDawgBuilder [[97]; [97; 98]; [97]] = Ok ([true; true; false], b).
Proof. eexists. by vm_compute. Qed.

(** Build gives the dictionary BuildWithUnused gives, and fails when it does. *)
Theorem C82_build d : match dict_BuildWithUnused d with
  | Ok (Some (us, _)) => dict_Build d = Ok (Some us)
  | Ok None => dict_Build d = Ok None
  | Panic => dict_Build d = Panic
  | Hang => dict_Build d = Hang
  end.
Proof. unfold dict_Build, dict_BuildWithUnused. by destruct (BuildDictionary d) as [[[us n]|]| |]. Qed.
Print Assumptions C82_build.
Lemma made_shape {A} (x : res (list bool * dawg)) (bw : dawg -> res (option (A * N))) (bd : dawg -> res (option A)) us n :
  (forall d, match bw d with Ok (Some (us, _)) => bd d = Ok (Some us) | Ok None => bd d = Ok None | Panic => bd d = Panic | Hang => bd d = Hang end) ->
  ('(_, d) ← x; bw d) = Ok (Some (us, n)) -> exists rs d, x = Ok (rs, d) /\ bd d = Ok (Some us).
Proof. intros Hb H. destruct x as [[rs d]| |]; [|done|done]. cbn [mbind res_bind] in H. exists rs, d. split; [done|]. specialize (Hb d). by rewrite H in Hb. Qed.
Lemma shape_made {A} (x : res (list bool * dawg)) (bw : dawg -> res (option (A * N))) (bd : dawg -> res (option A)) us rs d :
  (forall d, match bw d with Ok (Some (us, _)) => bd d = Ok (Some us) | Ok None => bd d = Ok None | Panic => bd d = Panic | Hang => bd d = Hang end) ->
  x = Ok (rs, d) -> bd d = Ok (Some us) -> exists n, ('(_, d) ← x; bw d) = Ok (Some (us, n)).
Proof. intros Hb -> H. cbn [mbind res_bind]. specialize (Hb d). rewrite H in Hb. destruct (bw d) as [[[us' n]|]| |]; try done. injection Hb as <-. by exists n. Qed.
(** So the dictionary of a history can be had with Build. *)
Theorem C82_build_made h us : made h us <-> exists size d0 rs d, size_ok size /\ build size h d0 = Ok (rs, d) /\ dict_Build d = Ok (Some us).
Proof.
  split.
  - intros (size & d0 & n & Hs & H). unfold build_dict in H. destruct (made_shape (build size h d0) dict_BuildWithUnused dict_Build us n C82_build H) as (rs & d & H1 & H2). exists size, d0, rs, d. exact (conj Hs (conj H1 H2)).
  - intros (size & d0 & rs & d & Hs & Hb & Hd). destruct (shape_made (build size h d0) dict_BuildWithUnused dict_Build us rs d C82_build Hb Hd) as (n & H). exists size, d0, n. exact (conj Hs H).
Qed.
Print Assumptions C82_build_made.

(** After Clear a guide has no units: its size is 0, every Child and Sibling panics, and
    the file of it is that of an empty guide. *)
Theorem C82_clear g : length (guide_Clear g) = 0%nat /\ length (rguide_Clear g) = 0%nat /\
  (forall i, gd_Child (guide_Clear g) i = Panic /\ gd_Sibling (guide_Clear g) i = Panic /\ gd_Child (rguide_Clear g) i = Panic /\ gd_Sibling (rguide_Clear g) i = Panic) /\
  guide_Write (guide_Clear g) ([], []) = (true, ([0; 0; 0; 0], [])) /\ rguide_Write (rguide_Clear g) ([], []) = (true, ([0; 0; 0; 0], [])).
Proof.
  unfold guide_Clear, rguide_Clear. rewrite take_0. split; [done|]. split; [done|]. split; [|by vm_compute]. intros i. unfold gd_Child, gd_Sibling, get. by rewrite lookup_nil.
Qed.
Print Assumptions C82_clear.
