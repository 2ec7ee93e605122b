(** Lemmas in the form used by Properties_Utfc.v. *)
From Verif Require Import Go Utfc UtfcArith UtfcProofs UtfcHeap UtfcHeapProofs UtfcSpec.
Local Open Scope Z_scope.

Lemma text_scalar s : is_text s -> Forall scalar s.
Proof.
  intros H. eapply List.Forall_impl; [|exact H]. intros c [Hc Hs]. unfold scalar, is_scalar. lia.
Qed.

(** The codec state after a text. *)
Definition state_after (s : list Z) : ustate := (utfc_follow buf_follow s []).1.2.

Lemma state_after_encs s : state_after s = (encs ustate0 s).2.
Proof. unfold state_after, utfc_follow. by rewrite follow_from_buf. Qed.

Lemma round_trip_iff s : is_text s ->
  utfc_decode (utfc_encode s) = Ok s <->
  ~ (exists p c q, s = p ++ c :: q /\ is21Bit (state_after p) = true /\
       utfc_encode (p ++ [c]) = utfc_encode p ++ [0xBB%N]).
Proof.
  intros Ht%text_scalar. rewrite decode_encode_iff by done.
  pose proof (bads_spec ustate0 s uinv0 Ht) as Hb.
  rewrite <- not_true_iff_false, Hb. split; intros H; contradict H;
    destruct H as (p & c & q & H1 & H2 & H3); exists p, c, q;
    rewrite state_after_encs, !encode_encs in *; done.
Qed.

Lemma round_trip_partial s : is_text s ->
  Forall (fun c => c < 0x2600 \/ (c - 0x2600) mod 0x8000 <> 0) s ->
  utfc_decode (utfc_encode s) = Ok s.
Proof.
  intros Ht%text_scalar Hm. apply decode_encode_iff; [done|]. apply bads_mod; [apply uinv0|done|].
  eapply List.Forall_impl; [|exact Hm]. cbn. intros c Hc. lia.
Qed.

Lemma no_zero s : is_text s -> Forall (fun b => (1 <= b <= 255)%N) (utfc_encode s).
Proof.
  intros Ht%text_scalar. rewrite encode_encs. eapply List.Forall_impl; [|exact (encs_bytes _ _ uinv0 Ht)].
  cbn. intros b [? ?]. lia.
Qed.

Lemma injective s t : is_text s -> is_text t -> utfc_encode s = utfc_encode t -> s = t.
Proof.
  intros Hs%text_scalar Ht%text_scalar. rewrite !encode_encs. by apply (encs_inj ustate0 s t uinv0).
Qed.

Lemma length_bounds s : (length s <= length (utfc_encode s) <= 3 * length s)%nat.
Proof. rewrite encode_encs. apply encs_length. Qed.

Lemma feed_true {F} (fol : F -> N -> F * bool) f bs f' :
  feed fol f bs = (f', true) -> accepts fol f bs f'.
Proof.
  revert f; induction bs as [|b bs IH]; intros f; cbn [feed].
  - intros H; injection H as ->. constructor.
  - destruct (fol f b) as [f1 []] eqn:E; [|done]. intros H. econstructor; [done|by apply IH].
Qed.
Lemma feed_false {F} (fol : F -> N -> F * bool) f bs f' :
  feed fol f bs = (f', false) ->
  exists p b q f1, bs = p ++ b :: q /\ accepts fol f p f1 /\ fol f1 b = (f', false).
Proof.
  revert f; induction bs as [|b bs IH]; intros f; cbn [feed]; [done|].
  destruct (fol f b) as [f1 []] eqn:E.
  - intros (p & b' & q & f2 & -> & Ha & Hf)%IH. exists (b :: p), b', q, f2.
    split; [done|]. split; [by econstructor|done].
  - intros H; injection H as ->. exists [], b, bs, f. split; [done|]. split; [constructor|done].
Qed.

Lemma follow_refused {F} (fol : F -> N -> F * bool) st s f f' st' :
  utfc_follow_from fol st s f = (f', st', false) ->
  exists s1 c s2 p b q f1, s = s1 ++ c :: s2 /\ st' = (encs st s1).2 /\
    (encs st (s1 ++ [c])).1 = (encs st s1).1 ++ p ++ b :: q /\
    accepts fol f ((encs st s1).1 ++ p) f1 /\ fol f1 b = (f', false).
Proof.
  revert st f. induction s as [|c s IH]; intros st f; cbn [utfc_follow_from]; [done|].
  rewrite follow_enc1. unfold emit.
  destruct (feed fol f (enc1 st c).1) as [f2 []] eqn:E.
  - intros (s1 & d & s2 & p & b & q & f1 & -> & -> & Hc & Ha & Hf)%IH.
    exists (c :: s1), d, s2, p, b, q, f1. split; [done|]. rewrite encs_cons. split; [done|].
    cbn [app]. rewrite encs_cons. cbn [fst]. rewrite Hc, app_assoc. split; [done|]. split; [|done].
    apply feed_true in E. clear -E Ha. rewrite <- app_assoc.
    induction E; cbn; [done|]. econstructor; eauto.
  - intros H; injection H as -> ->. apply feed_false in E as (p & b & q & f1 & Hp & Ha & Hf).
    exists [], c, s, p, b, q, f1. split; [done|]. cbn [encs fst snd app]. split; [done|].
    split; [|done]. destruct (enc1 st' c) as [bs ?]. cbn [fst] in *. by rewrite Hp, app_nil_r.
Qed.

Lemma follow_spec {F} (fol : F -> N -> F * bool) s f :
  let '(f', st, ok) := utfc_follow fol s f in
  if ok then accepts fol f (utfc_encode s) f' /\ st = state_after s
  else exists s1 c s2 p b q f1,
    s = s1 ++ c :: s2 /\
    utfc_encode (s1 ++ [c]) = utfc_encode s1 ++ p ++ b :: q /\
    accepts fol f (utfc_encode s1 ++ p) f1 /\ fol f1 b = (f', false) /\
    st = state_after s1.
Proof.
  destruct (utfc_follow fol s f) as [[f' st] ok] eqn:E. destruct ok.
  - split.
    + pose proof (follow_from_feed fol ustate0 s f) as H. unfold utfc_follow in E. rewrite E in H.
      apply feed_true. rewrite encode_encs. done.
    + rewrite state_after_encs. unfold utfc_follow in E. clear -E. revert E. generalize ustate0 as st0.
      revert f. induction s as [|c s IH]; intros f st0; cbn [utfc_follow_from].
      * intros H; by injection H.
      * rewrite follow_enc1. unfold emit. rewrite encs_cons. cbn [snd].
        destruct (feed _ _ _) as [f2 []]; [|done]. apply IH.
  - apply follow_refused in E as (s1 & c & s2 & p & b & q & f1 & H1 & H2 & H3 & H4 & H5).
    exists s1, c, s2, p, b, q, f1. rewrite state_after_encs, !encode_encs. done.
Qed.

Lemma streaming s t :
  utfc_encode (s ++ t) =
  utfc_encode s ++ (utfc_follow_from buf_follow (state_after s) t []).1.1.
Proof. rewrite follow_from_buf, state_after_encs, !encode_encs, encs_app. done. Qed.
Lemma streaming_prefix s t : utfc_encode s `prefix_of` utfc_encode (s ++ t).
Proof. rewrite streaming. by eexists. Qed.

Lemma state_after_app s t :
  state_after (s ++ t) = (utfc_follow_from buf_follow (state_after s) t []).1.2.
Proof. rewrite follow_from_buf, !state_after_encs, encs_app. done. Qed.

(** ** Shared buffer *)
Lemma history_independent grow calls s :
  let h := run_encodes grow uheap_init calls in
  let '(sl, h') := UtfcEncode grow h s in read h' sl = utfc_encode s.
Proof.
  cbv zeta. pose proof (encode_heap_spec grow _ s (run_encodes_hinv grow _ calls hinv_init)) as H.
  destruct (UtfcEncode _ _ _). apply H.
Qed.
Lemma overlay grow calls s1 s2 :
  let h := run_encodes grow uheap_init calls in
  let '(sl1, h1) := UtfcEncode grow h s1 in
  let '(sl2, h2) := UtfcEncode grow h1 s2 in
  read h2 sl1 = take (length (utfc_encode s1))
                  (utfc_encode s2 ++ drop (length (utfc_encode s2)) (utfc_encode s1)).
Proof. cbv zeta. apply encode_twice, run_encodes_hinv, hinv_init. Qed.
Lemma comparator grow calls a b :
  (utfc_sort_less grow (run_encodes grow uheap_init calls) a b).1 =
  Nat.ltb (length (utfc_encode a)) (length (utfc_encode b)).
Proof. apply sort_less_length, run_encodes_hinv, hinv_init. Qed.
