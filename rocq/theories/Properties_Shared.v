(** Property C99 of utfc.go: followers that use the package themselves. *)
From Verif Require Import Go Utfc UtfcSpec UtfcProofs UtfcMain UtfcShared.
Local Open Scope Z_scope.

(** C99. Full statement: whatever a follower does, if it accepts all bytes they are
    those of UtfcEncode.  False: *)
Theorem C99_reentrant_refuted : exists texts s, is_text s /\ (forall bs t, texts bs = Some t -> is_text t) /\ (SharedFollow (calling texts) s []).1.1 <> utfc_encode s.
Proof.
  exists (fun _ => Some [0x3B1]), [0x61; 0x62]. split; [repeat constructor; lia|]. split; [intros bs t [= <-]; repeat constructor; lia|]. vm_compute. discriminate.
Qed.
Print Assumptions C99_reentrant_refuted.
(** "ab", with UtfcEncode("α") called for each byte: 61 is right, then 62 is written as of the second
    alphabet. *)
Example C99_case : (SharedFollow (calling (fun _ => Some [0x3B1])) [0x61; 0x62] []).1.1 = [0x61; 0xDB]%N /\ utfc_encode [0x61; 0x62] = [0x61; 0x62]%N.
Proof. vm_compute. done. Qed.

(** Proved instead: followers that leave sharedState as it was (C05 holds for them), *)
Theorem C99_undisturbed {F} (fol : F -> N -> F * bool) s f : SharedFollow (undisturbed fol) s f = utfc_follow fol s f.
Proof. apply shared_from_undisturbed. Qed.
Print Assumptions C99_undisturbed.
(** and texts in ASCII and А-Я, а-я on both sides, which never change it. *)
Definition plain (c : Z) : Prop := 0 <= c < 0x80 \/ 0x410 <= c <= 0x44F.
Lemma plain_follow {F} (fol : F -> N -> F * bool) c f : plain c -> exists b, ustate_follow fol ustate0 c f = emit fol f ustate0 [b] ustate0 /\
  forall G (fol' : G * ustate -> N -> G * ustate * bool) (g : G), shared_follow fol' ustate0 c g = feed_shared fol' g ustate0 [b] (fun st => st).
Proof.
  intros Hc. unfold ustate_follow, shared_follow. cbv zeta. change (auxOffs ustate0) with 0x410. change (offs ustate0) with 0. change (is21Bit ustate0) with false.
  change (0x410 =? 0) with false. cbn [andb negb]. destruct ((0x410 <=? c) && (c <=? 0x410 + 0x3F)) eqn:E.
  { eexists. split; [reflexivity|]. intros G fol' g. reflexivity. }
  assert (Hlt : 0 <= c < 0x80) by (destruct Hc as [Hc|Hc]; [done|lia]).
  assert (inRanges c rangesExtra = false) as ->. { unfold rangesExtra, inRanges, rangeHK0, rangeHK1. repeat match goal with |- context [?a && ?b] => replace (a && b) with false by lia end. done. }
  replace (min21BitCp <=? c) with false by (unfold min21BitCp; lia).
  assert (Z.land c offsMask13Bit = 0) as ->.
  { apply Z.bits_inj'. intros n Hn. rewrite Z.land_spec, Z.bits_0. destruct (decide (n < 7)) as [H|H].
    - assert (Hm : forall n, 0 <= n < 7 -> Z.testbit offsMask13Bit n = false). { intros k Hk. assert (k = 0 \/ k = 1 \/ k = 2 \/ k = 3 \/ k = 4 \/ k = 5 \/ k = 6) as [->|[->|[->|[->|[->|[->| ->]]]]]] by lia; reflexivity. }
      rewrite Hm by lia. apply andb_false_r.
    - assert (Z.testbit c n = false) as ->; [|done]. apply Z.bits_above_log2; [lia|]. destruct (decide (c = 0)) as [->|]; [cbn; lia|]. apply Z.log2_lt_pow2; [lia|]. apply (Z.lt_le_trans _ (2 ^ 7)); [cbn; lia|]. apply Z.pow_le_mono_r; lia. }
  change (0 =? 0) with true. cbn [andb]. destruct (_ =? 0)%N; (eexists; split; [reflexivity|]; intros; reflexivity).
Qed.
Lemma plain_state {F} (fol : F -> N -> F * bool) s f : Forall plain s -> (utfc_follow_from fol ustate0 s f).1.2 = ustate0.
Proof.
  revert f. induction s as [|c s IH]; intros f H; [done|]. apply Forall_cons in H as [Hc H]. cbn [utfc_follow_from]. destruct (plain_follow fol c f Hc) as (b & -> & _).
  unfold emit. destruct (feed fol f [b]) as [f' []]; [by apply IH|done].
Qed.
Theorem C99_one_alphabet texts s : Forall plain s -> (forall bs t, texts bs = Some t -> Forall plain t) -> (SharedFollow (calling texts) s []).1.1 = utfc_encode s.
Proof.
  intros Hs Ht. unfold SharedFollow, utfc_encode, utfc_follow. generalize (@nil N) as f. induction Hs as [|c s Hc Hs IH]; intros f; [done|]. cbn [shared_follow_from utfc_follow_from].
  destruct (plain_follow buf_follow c f Hc) as (b & -> & H). rewrite H. cbn [feed_shared]. unfold calling at 1. unfold emit. cbn [feed]. change (buf_follow f b) with (f ++ [b], true).
  assert (E : match texts (f ++ [b]) with Some t => (utfc_follow buf_follow t []).1.2 | None => ustate0 end = ustate0). { destruct (texts (f ++ [b])) as [t|] eqn:E; [|done]. apply plain_state. exact (Ht _ _ E). }
  cbv beta iota. rewrite E. apply IH.
Qed.
Print Assumptions C99_one_alphabet.
Example C99_hyps : Forall plain [0x61; 0x41F; 0x62] /\ (SharedFollow (calling (fun _ => Some [0x410; 0x63])) [0x61; 0x41F; 0x62] []).1.1 = [0x61; 0xCF; 0x62]%N.
Proof. split; [repeat constructor; unfold plain; lia|by vm_compute]. Qed.
