(** The free list of the dictionary builder. *)
From Verif Require Import Go BitPool LinkTable Dawg DawgRep Dict DictUnit.
Local Open Scope N_scope.
Local Ltac Zify.zify_post_hook ::= Z.div_mod_to_equations.
Local Arguments N.mul : simpl never.
Local Arguments N.add : simpl never.
Local Arguments N.of_nat : simpl never.

(** ** Extra units by index *)
Definition xt (es : list (list extra)) (i : N) : option extra :=
  es !! N.to_nat (i / 256) ≫= (fun blk => blk !! N.to_nat (i mod 256)).
Definition xset (es : list (list extra)) (i : N) (f : extra -> extra) : list (list extra) :=
  alter (alter f (N.to_nat (i mod 256))) (N.to_nat (i / 256)) es.
Notation X b := (xt (db_extras b)).

Lemma db_extra_xt b i e : X b i = Some e -> db_extra b i = Ok e.
Proof.
  unfold xt, db_extra, get, blockSize. destruct (_ !! N.to_nat (i / 256)) as [blk|]; [|done]. cbn [mbind option_bind res_bind].
  by intros ->.
Qed.
Lemma alter_insert {A} (f : A -> A) (l : list A) i x : l !! i = Some x -> alter f i l = <[i := f x]> l.
Proof. revert i. induction l as [|y l IH]; intros [|i] H; cbn in *; simplify_eq; [done|]. f_equal. by apply IH. Qed.
Lemma db_extra_upd_xt b i f e : X b i = Some e ->
  db_extra_upd b i f = Ok (dbset_extras b (xset (db_extras b) i f)).
Proof.
  unfold xt, db_extra_upd, upd, get, set, blockSize, xset. destruct (db_extras b !! _) as [blk|] eqn:E; [|done].
  cbn [mbind option_bind res_bind]. intros He. rewrite !He. cbn [mbind res_bind]. rewrite ?E. cbn [mbind res_bind]. f_equal. f_equal.
  by rewrite (alter_insert _ _ _ _ E), (alter_insert _ _ _ _ He).
Qed.
Lemma xt_xset es i f j : xt (xset es i f) j = (if decide (j = i) then f else id) <$> xt es j.
Proof.
  unfold xt, xset. destruct (decide (j = i)) as [->|Hne].
  - rewrite list_lookup_alter. destruct (es !! _) as [blk|]; [|done]. cbn [mbind option_bind fmap option_fmap option_map]. by rewrite list_lookup_alter.
  - rewrite option_fmap_id. destruct (decide (j / 256 = i / 256)) as [Heq|Hn].
    + rewrite Heq, list_lookup_alter. destruct (es !! _) as [blk|]; [|done]. cbn [mbind option_bind fmap option_fmap option_map]. apply list_lookup_alter_ne. lia.
    + rewrite list_lookup_alter_ne by lia. done.
Qed.

(** [nb] blocks, of which the first [q] are nil. *)
Definition shape (es : list (list extra)) (nb q : nat) : Prop :=
  length es = nb /\ forall k blk, es !! k = Some blk -> length blk = if (k <? q)%nat then 0%nat else 256%nat.
Lemma shape_xset es nb q i f : shape es nb q -> shape (xset es i f) nb q.
Proof.
  intros [H1 H2]. unfold xset. split; [by rewrite alter_length|]. intros k blk Hk.
  destruct (decide (k = N.to_nat (i / 256))) as [->|Hne].
  - rewrite list_lookup_alter in Hk. apply fmap_Some in Hk as (blk' & Hk & ->). rewrite alter_length. by apply H2.
  - rewrite list_lookup_alter_ne in Hk by done. by apply H2.
Qed.
Lemma shape_xt es nb q i : shape es nb q -> is_Some (xt es i) <-> (256 * N.of_nat q <= i < 256 * N.of_nat nb).
Proof.
  intros [H1 H2]. unfold xt. split.
  - intros [e H]. apply bind_Some in H as (blk & Hb & He). apply H2 in Hb as Hl. apply lookup_lt_Some in Hb, He.
    destruct (Nat.ltb_spec (N.to_nat (i / 256)) q); lia.
  - intros Hi. destruct (lookup_lt_is_Some_2 es (N.to_nat (i / 256))) as [blk Hb]; [lia|]. rewrite Hb. cbn [mbind option_bind].
    apply lookup_lt_is_Some. rewrite (H2 _ _ Hb). destruct (Nat.ltb_spec (N.to_nat (i / 256)) q); lia.
Qed.

(** ** Free units: a doubly linked list *)
Definition free (x : N -> option extra) (i : N) : Prop := exists e, x i = Some e /\ ex_isFixed e = false.
Definition used (x : N -> option extra) (i : N) : Prop := exists e, x i = Some e /\ ex_isUsed e = true.
Definition links (x : N -> option extra) : Prop := forall i e, x i = Some e -> ex_isFixed e = false ->
  (exists e', x (ex_next e) = Some e' /\ ex_isFixed e' = false /\ ex_prev e' = i) /\
  (exists e', x (ex_prev e) = Some e' /\ ex_isFixed e' = false /\ ex_next e' = i).
Lemma free_dec x i : free x i \/ ~ free x i.
Proof.
  unfold free. destruct (x i) as [e|]; [|right; by intros (e & He & _)]. destruct (ex_isFixed e) eqn:E; [|eauto].
  right. intros (e' & He & Hf). injection He as ->. congruence.
Qed.

Record xinv (b : dbuilder) (nb q : nat) : Prop := mkXI {
  xi_len : length (db_units b) = (256 * nb)%nat;
  xi_lim : N.of_nat nb <= 2097152;
  xi_q : (q <= nb)%nat;
  xi_shape : shape (db_extras b) nb q;
  xi_links : links (X b);
  xi_unf : db_unfixed b = 256 * N.of_nat nb \/ free (X b) (db_unfixed b) }.
Lemma xi_units b nb q : xinv b nb q -> numOfUnits b = 256 * N.of_nat nb.
Proof. intros H. unfold numOfUnits, len32, u32, two32. rewrite (xi_len _ _ _ H). pose proof (xi_lim _ _ _ H). lia. Qed.
Lemma xi_lt b nb q i e : xinv b nb q -> X b i = Some e -> i < 256 * N.of_nat nb.
Proof.
  intros H He. apply (shape_xt _ _ _ i (xi_shape _ _ _ H)). eauto.
Qed.
Lemma xi_free_lt b nb q i : xinv b nb q -> free (X b) i -> 256 * N.of_nat q <= i < 256 * N.of_nat nb.
Proof. intros H (e & He & _). apply (shape_xt _ _ _ i (xi_shape _ _ _ H)). eauto. Qed.

(** ** unlinkUnit *)
Definition unlinked (i a c : N) (x : N -> option extra) (j : N) : option extra :=
  (fun e => (if decide (j = i) then ex_setIsFixed else id)
            ((if decide (j = c) then ex_setPrev a else id) ((if decide (j = a) then ex_setNext c else id) e))) <$> x j.
Lemma unlinked_facts i a c x j e : a < 2147483648 -> c < 2147483648 -> x j = Some e ->
  exists e', unlinked i a c x j = Some e' /\ ex_isUsed e' = ex_isUsed e /\
    (ex_isFixed e' = if decide (j = i) then true else ex_isFixed e) /\
    (ex_next e' = if decide (j = a) then c else ex_next e) /\
    (ex_prev e' = if decide (j = c) then a else ex_prev e).
Proof.
  intros Ha Hc He. unfold unlinked. rewrite He. eexists. split; [reflexivity|].
  destruct (decide (j = i)), (decide (j = c)), (decide (j = a)); cbn [id];
    rewrite ?ex_used_fixed, ?ex_used_prev, ?ex_used_next, ?ex_fixed_fixed, ?ex_fixed_prev, ?ex_fixed_next,
      ?ex_next_fixed, ?ex_next_prev, ?ex_prev_fixed; 
    rewrite ?ex_prev_prev, ?ex_prev_next, ?ex_next_next by done; done.
Qed.
Lemma unlinked_free i a c x j : a < 2147483648 -> c < 2147483648 ->
  free (unlinked i a c x) j <-> free x j /\ j <> i.
Proof.
  intros Ha Hc. split.
  - intros (e' & He' & Hf). destruct (x j) as [e|] eqn:He; [|unfold unlinked in He'; by rewrite He in He'].
    destruct (unlinked_facts i a c x j e Ha Hc He) as (e2 & H2 & _ & Hf2 & _). rewrite H2 in He'. injection He' as ->.
    rewrite Hf2 in Hf. destruct (decide (j = i)); [done|]. split; [exists e; eauto|done].
  - intros [(e & He & Hf) Hne]. destruct (unlinked_facts i a c x j e Ha Hc He) as (e2 & H2 & _ & Hf2 & _).
    exists e2. rewrite decide_False in Hf2 by done. split; [done|]. congruence.
Qed.
Lemma unlinked_used i a c x j : a < 2147483648 -> c < 2147483648 -> used (unlinked i a c x) j <-> used x j.
Proof.
  intros Ha Hc. split.
  - intros (e' & He' & Hf). destruct (x j) as [e|] eqn:He; [|unfold unlinked in He'; by rewrite He in He'].
    destruct (unlinked_facts i a c x j e Ha Hc He) as (e2 & H2 & Hu & _). rewrite H2 in He'. injection He' as ->.
    exists e. split; [done|]. congruence.
  - intros (e & He & Hf). destruct (unlinked_facts i a c x j e Ha Hc He) as (e2 & H2 & Hu & _). exists e2. split; [done|]. congruence.
Qed.
Lemma unlinked_links i x e : links x -> x i = Some e -> ex_isFixed e = false ->
  ex_prev e < 2147483648 -> ex_next e < 2147483648 -> links (unlinked i (ex_prev e) (ex_next e) x).
Proof.
  intros HL He Hf Ha Hc. set (a := ex_prev e) in *. set (c := ex_next e) in *.
  destruct (HL i e He Hf) as [(ec & Hec & Hcf & Hcp) (ea & Hea & Haf & Han)]. fold a in Hea. fold c in Hec.
  intros j ej' Hj' Hjf'. assert (Hfr : free (unlinked i a c x) j) by (by exists ej').
  apply unlinked_free in Hfr as [(ej & Hj & Hjf) Hji]; [|done|done].
  destruct (unlinked_facts i a c x j ej Ha Hc Hj) as (ej2 & Hj2 & _ & _ & Hn & Hp).
  rewrite Hj' in Hj2. injection Hj2 as <-. rewrite Hn, Hp.
  destruct (HL j ej Hj Hjf) as [(en & Hen & Hnf & Hnp) (ep & Hep & Hpf & Hpn)]. split.
  - destruct (decide (j = a)) as [->|Hja].
    + assert (c <> i) by (intros Hci; rewrite Hci, He in Hec; injection Hec as ->; unfold a in *; congruence).
      destruct (unlinked_facts i a c x c ec Ha Hc Hec) as (e2 & H2 & _ & Hf2 & _ & Hp2).
      exists e2. rewrite decide_False in Hf2 by done. rewrite decide_True in Hp2 by done. split; [done|]. split; congruence.
    + assert (Hni : ex_next ej <> i) by (intros Hni; rewrite Hni, He in Hen; injection Hen as ->; unfold a in *; congruence).
      destruct (unlinked_facts i a c x _ en Ha Hc Hen) as (e2 & H2 & _ & Hf2 & _ & Hp2).
      exists e2. rewrite decide_False in Hf2 by done. split; [done|]. split; [congruence|].
      rewrite Hp2. destruct (decide (ex_next ej = c)) as [Hnc|]; [|done]. exfalso. rewrite Hnc, Hec in Hen. injection Hen as ->. congruence.
  - destruct (decide (j = c)) as [->|Hjc].
    + assert (a <> i) by (intros Hai; rewrite Hai, He in Hea; injection Hea as ->; unfold c in *; congruence).
      destruct (unlinked_facts i a c x a ea Ha Hc Hea) as (e2 & H2 & _ & Hf2 & Hn2 & _).
      exists e2. rewrite decide_False in Hf2 by done. rewrite decide_True in Hn2 by done. split; [done|]. split; congruence.
    + assert (Hni : ex_prev ej <> i) by (intros Hni; rewrite Hni, He in Hep; injection Hep as ->; unfold c in *; congruence).
      destruct (unlinked_facts i a c x _ ep Ha Hc Hep) as (e2 & H2 & _ & Hf2 & Hn2 & _).
      exists e2. rewrite decide_False in Hf2 by done. split; [done|]. split; [congruence|].
      rewrite Hn2. destruct (decide (ex_prev ej = a)) as [Hnc|]; [|done]. exfalso. rewrite Hnc, Hea in Hep. injection Hep as ->. congruence.
Qed.

Lemma links_ext x x' : (forall i, x i = x' i) -> links x -> links x'.
Proof.
  intros Hx HL i e He Hf. rewrite <- Hx in He. destruct (HL i e He Hf) as [(en & ? & ?) (ep & ? & ?)].
  split; [exists en|exists ep]; by rewrite <- Hx.
Qed.
Lemma free_ext x x' i : (forall i, x i = x' i) -> free x i <-> free x' i.
Proof. intros Hx. unfold free. by rewrite Hx. Qed.
Lemma used_ext x x' i : (forall i, x i = x' i) -> used x i <-> used x' i.
Proof. intros Hx. unfold used. by rewrite Hx. Qed.

(** What does not change in most steps. *)
Definition same_rest (b b' : dbuilder) : Prop := db_link b' = db_link b /\ db_unused b' = db_unused b /\ db_units b' = db_units b.

Lemma unlink_ok b nb q i : xinv b nb q -> free (X b) i -> exists b',
  unlinkUnit b i = Ok b' /\ xinv b' nb q /\ same_rest b b' /\
  (forall j, free (X b') j <-> free (X b) j /\ j <> i) /\ (forall j, used (X b') j <-> used (X b) j).
Proof.
  intros HI Hfree. pose proof Hfree as (e & He & Hf). pose proof HI as [Hlen Hlim Hq Hsh HL Hun].
  destruct (HL i e He Hf) as [(ec & Hec & Hcf & Hcp) (ea & Hea & Haf & Han)].
  pose proof (xi_lt _ _ _ _ _ HI Hea) as Ha. pose proof (xi_lt _ _ _ _ _ HI Hec) as Hc. pose proof (xi_lt _ _ _ _ _ HI He) as Hi.
  assert (Ha' : ex_prev e < 2147483648) by lia. assert (Hc' : ex_next e < 2147483648) by lia.
  set (a := ex_prev e) in *. set (c := ex_next e) in *.
  set (unf := if i =? db_unfixed b then if c =? i then numOfUnits b else c else db_unfixed b).
  set (es1 := xset (db_extras b) a (ex_setNext c)).
  set (es2 := xset es1 c (ex_setPrev a)).
  set (es3 := xset es2 i ex_setIsFixed).
  exists (mkDB (db_units b) es3 (db_link b) unf (db_unused b)).
  assert (HX3 : forall j, unlinked i a c (X b) j = xt es3 j).
  { intros j. unfold es3, es2, es1. rewrite !xt_xset. unfold unlinked. destruct (X b j); done. }
  split; [|split; [|split; [|split]]].
  - unfold unlinkUnit.
    assert ((if i =? db_unfixed b then e0 ← db_extra b i;
         Ok (dbset_unfixed b (if ex_next e0 =? i then numOfUnits b else ex_next e0)) else Ok b) = Ok (dbset_unfixed b unf)) as ->.
    { unfold unf. destruct (i =? db_unfixed b).
      - rewrite (db_extra_xt _ _ _ He). cbn [mbind res_bind]. done.
      - destruct b; done. }
    cbn [mbind res_bind].
    assert (He0 : X (dbset_unfixed b unf) i = Some e) by done. rewrite (db_extra_xt _ _ _ He0). cbn [mbind res_bind].
    fold a c. rewrite (db_extra_upd_xt _ a _ ea) by done. cbn [mbind res_bind].
    set (b1 := mkDB (db_units b) es1 (db_link b) unf (db_unused b)).
    change (dbset_extras (dbset_unfixed b unf) _) with b1.
    assert (He1 : exists e1, X b1 i = Some e1 /\ ex_next e1 = c /\ ex_prev e1 = a).
    { unfold b1, es1. cbn [db_extras]. rewrite xt_xset, He. destruct (decide (i = a)); [|eauto].
      eexists. split; [reflexivity|]. split; [by rewrite ex_next_next|by rewrite ex_prev_next]. }
    destruct He1 as (e1 & He1 & Hn1 & Hp1). rewrite (db_extra_xt _ _ _ He1). cbn [mbind res_bind]. rewrite Hn1, Hp1.
    assert (exists y, X b1 c = Some y) as [y Hy].
    { unfold b1, es1. cbn [db_extras]. rewrite xt_xset, Hec. eauto. }
    rewrite (db_extra_upd_xt _ c _ y) by done. cbn [mbind res_bind].
    set (b2 := dbset_extras b1 (xset (db_extras b1) c (ex_setPrev a))).
    assert (exists y, X b2 i = Some y) as [y2 Hy2].
    { unfold b2, dbset_extras. cbn [db_extras]. rewrite xt_xset, He1. eauto. }
    rewrite (db_extra_upd_xt _ i _ y2) by done. done.
  - constructor; cbn [db_units db_extras db_unfixed]; [done|done|done| | |].
    + by do 3 apply shape_xset.
    + eapply links_ext; [exact HX3|]. by apply unlinked_links.
    + rewrite <- (free_ext _ _ _ HX3). rewrite unlinked_free by done. unfold unf.
      rewrite (xi_units _ _ _ HI). destruct (N.eqb_spec i (db_unfixed b)) as [Hiu|Hiu].
      * destruct (N.eqb_spec c i); [by left|]. right. split; [|done]. exists ec. split; [done|]. done.
      * destruct Hun as [|]; [by left|]. right. split; [done|]. congruence.
  - done.
  - intros j. cbn [db_extras]. rewrite <- (free_ext _ _ _ HX3). by apply unlinked_free.
  - intros j. cbn [db_extras]. rewrite <- (used_ext _ _ _ HX3). by apply unlinked_used.
Qed.
