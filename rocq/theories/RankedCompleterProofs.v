(** A ranked completer gives every key below its start once; with the default
    comparator, in the order of the values. *)
From Verif Require Import Go Dawg DawgRep Tree TreeFacts LinkTableProofs DawgSpec DawgAbs Dict DictUnit DictInv DictBuild DictDfs DictRep Guide GuideProofs IndexProofs Ranked RankedProofs Heap HeapProofs RankedCompleter RankedOrderSpec.
Local Open Scope N_scope.
Local Ltac Zify.zify_post_hook ::= Z.div_mod_to_equations.
Local Arguments N.mul : simpl never.
Local Arguments N.add : simpl never.
Local Arguments N.of_nat : simpl never.
Local Arguments N.lxor : simpl never.

(** ** The order of the candidates *)
Lemma cand_weak : weak_order cand_less.
Proof.
  unfold weak_order, equiv, cand_less. split; [|split].
  - intros [n v]. cbn [fst snd]. rewrite Z.eqb_refl. cbn. apply N.ltb_irrefl.
  - intros [a u] [b v] [c w]. cbn [fst snd]. destruct (Z.eqb_spec u v), (Z.eqb_spec v w), (Z.eqb_spec u w); cbn [negb]; rewrite ?N.ltb_lt, ?Z.ltb_lt; lia.
  - intros [a u] [b v] [c w]. cbn [fst snd]. destruct (Z.eqb_spec u v), (Z.eqb_spec v w), (Z.eqb_spec u w), (Z.eqb_spec v u), (Z.eqb_spec w v), (Z.eqb_spec w u); cbn [negb];
      rewrite ?N.ltb_ge, ?Z.ltb_ge; lia.
Qed.
Lemma cand_top a b : cand_less a b = false -> (a.2 <= b.2)%Z.
Proof. unfold cand_less. destruct (Z.eqb_spec a.2 b.2); cbn [negb]; rewrite ?Z.ltb_ge; lia. Qed.

(** ** Lists *)
Lemma sum_perm {A} (f : A -> nat) l l' : l ≡ₚ l' -> sum_list_with f l = sum_list_with f l'.
Proof. induction 1; cbn; lia. Qed.
Lemma sum_ext {A} (f f' : A -> nat) l : (forall x, x ∈ l -> f x = f' x) -> sum_list_with f l = sum_list_with f' l.
Proof. induction l as [|x l IH]; intros H; [done|]. cbn. rewrite (H x) by constructor. rewrite IH; [done|]. intros y Hy. apply H. by constructor. Qed.
Lemma bind_ext' {A B} (f f' : A -> list B) l : (forall x, x ∈ l -> f x = f' x) -> l ≫= f = l ≫= f'.
Proof.
  induction l as [|x l IH]; intros H; [done|]. rewrite !bind_cons. rewrite (H x) by constructor. f_equal. apply IH. intros y Hy. apply H. by constructor.
Qed.

(** ** What a node stands for *)
Record ab := mkAB { a_dict : N; a_prev : N; a_label : N; a_base : list N; a_path : list N; a_sub : sub; a_rest : edges }.
Definition pref (b : list N) (kvs : list (list N * N)) : list (list N * N) := map (fun kv => (b ++ kv.1, kv.2)) kvs.
(** The entries below a node, and those of the siblings after it. *)
Definition nout (a : ab) : list (list N * N) := match a_sub a with Leaf v => [(a_base a, v)] | Node es => pref (a_path a) (ent_es es) end.
Definition rout (a : ab) : list (list N * N) := pref (a_base a) (ent_es (a_rest a)).
Definition rt (gs : list ab) (n : N) : list (list N * N) := match gs !! N.to_nat n with Some a => rout a | None => [] end.
Definition sz (gs : list ab) (n : N) : nat := match gs !! N.to_nat n with Some a => nedges_es (a_rest a) | None => 0 end.
Definition z0 (es : edges) : bool := bool_decide (0 ∈ es.*1).
Definition tv (s : sub) : bool := match s with Leaf _ => false | Node es => z0 es end.
Definition qd (ns : list rnode) (n : N) : bool := match ns !! N.to_nat n with Some x => rn_queued x | None => false end.
Definition tm (ns : list rnode) (n : N) : bool := match ns !! N.to_nat n with Some x => rn_term x | None => false end.
Definition rel (ns : list rnode) (gs : list ab) : Prop := Forall2 (fun x a => rn_dict x = a_dict a /\ rn_prev x = a_prev a /\ rn_label x = a_label a) ns gs.
Inductive anc (gs : list ab) : N -> N -> Prop :=
| anc_here n : anc gs n n
| anc_up m n a : gs !! N.to_nat n = Some a -> n <> 0 -> anc gs m (a_prev a) -> anc gs m n.

Lemma pref_app b x y : pref b (x ++ y) = pref b x ++ pref b y.
Proof. apply map_app. Qed.
Lemma pref_perm b x y : x ≡ₚ y -> pref b x ≡ₚ pref b y.
Proof. intros H. unfold pref. by rewrite H. Qed.
Lemma ent_es_cons e es : ent_es (e :: es) = ent_e e ++ ent_es es.
Proof. done. Qed.
Lemma ent_es_perm es es' : es ≡ₚ es' -> ent_es es ≡ₚ ent_es es'.
Proof.
  induction 1 as [|e es es' H IH|e e' es|es1 es2 es3 H1 IH1 H2 IH2]; [done| | |by rewrite IH1].
  - rewrite !ent_es_cons. by rewrite IH.
  - rewrite !ent_es_cons, !app_assoc. by rewrite (Permutation_app_comm (ent_e e)).
Qed.
Lemma has0_z0 es : wfe es -> has0 es = z0 es.
Proof.
  intros Hw. unfold z0. destruct (has0 es) eqn:E.
  - apply has0_in in E as [v Hv]; [|done]. symmetry. apply bool_decide_eq_true. apply elem_of_list_fmap. by exists (0, Leaf v).
  - symmetry. apply bool_decide_eq_false. intros ([l s] & E0 & Hin)%elem_of_list_fmap. cbn in E0. subst l. destruct (wfe_zero _ _ Hw Hin) as [v ->].
    enough (has0 es = true) by congruence. apply has0_in; eauto.
Qed.

Lemma rel_len ns gs : rel ns gs -> length ns = length gs. Proof. apply Forall2_length. Qed.
Lemma rel_at ns gs n a : rel ns gs -> gs !! N.to_nat n = Some a -> exists x, ns !! N.to_nat n = Some x /\ rn_dict x = a_dict a /\ rn_prev x = a_prev a /\ rn_label x = a_label a /\
  rn_queued x = qd ns n /\ rn_term x = tm ns n.
Proof.
  intros Hr Ha. destruct (Forall2_lookup_r _ _ _ _ _ Hr Ha) as (x & Hx & H1 & H2 & H3). exists x. unfold qd, tm. by rewrite Hx.
Qed.
(** Changing a flag of a node. *)
Lemma upd_flag ns gs n a (f : rnode -> rnode) : rel ns gs -> gs !! N.to_nat n = Some a ->
  (forall x, rn_dict (f x) = rn_dict x /\ rn_prev (f x) = rn_prev x /\ rn_label (f x) = rn_label x) ->
  exists x ns', ns !! N.to_nat n = Some x /\ upd ns n f = Ok ns' /\ rel ns' gs /\
    (forall m, qd ns' m = if m =? n then rn_queued (f x) else qd ns m) /\ (forall m, tm ns' m = if m =? n then rn_term (f x) else tm ns m).
Proof.
  intros Hr Ha Hf. destruct (rel_at ns gs n a Hr Ha) as (x & Hx & H1 & H2 & H3 & _). exists x, (<[N.to_nat n := f x]> ns). split; [done|].
  split; [by apply upd_N|]. pose proof (lookup_lt_Some _ _ _ Hx) as Hlt. split; [|split].
  - rewrite <- (list_insert_id gs (N.to_nat n) a Ha). apply Forall2_insert; [done|]. destruct (Hf x) as (-> & -> & ->). done.
  - intros m. unfold qd. destruct (N.eqb_spec m n) as [->|Hne]; [by rewrite list_lookup_insert|]. by rewrite list_lookup_insert_ne by lia.
  - intros m. unfold tm. destruct (N.eqb_spec m n) as [->|Hne]; [by rewrite list_lookup_insert|]. by rewrite list_lookup_insert_ne by lia.
Qed.
Lemma clear_ok ns gs n a : rel ns gs -> gs !! N.to_nat n = Some a -> exists ns', upd ns n clear_term = Ok ns' /\ rel ns' gs /\
  (forall m, qd ns' m = qd ns m) /\ (forall m, tm ns' m = if m =? n then false else tm ns m).
Proof.
  intros Hr Ha. destruct (upd_flag ns gs n a clear_term Hr Ha) as (x & ns' & Hx & H1 & H2 & H3 & H4); [done|]. exists ns'. split; [done|]. split; [done|]. split.
  - intros m. rewrite H3. destruct (N.eqb_spec m n) as [->|]; [|done]. unfold qd. by rewrite Hx.
  - done.
Qed.
Lemma enq_ok ns gs nq n a : rel ns gs -> gs !! N.to_nat n = Some a -> exists ns', rc_enqueueNode ns nq n = Ok (ns', nq ++ if qd ns n then [] else [n]) /\ rel ns' gs /\
  (forall m, qd ns' m = (m =? n) || qd ns m) /\ (forall m, tm ns' m = tm ns m).
Proof.
  intros Hr Ha. destruct (rel_at ns gs n a Hr Ha) as (x & Hx & _ & _ & _ & Hq & _). unfold rc_enqueueNode. rewrite (get_N _ _ _ Hx). cbn [mbind res_bind].
  rewrite Hq. destruct (qd ns n) eqn:E.
  - exists ns. rewrite app_nil_r. split; [done|]. split; [done|]. split; [|done]. intros m. destruct (N.eqb_spec m n) as [->|]; [by rewrite E|done].
  - destruct (upd_flag ns gs n a (fun x => mkRN (rn_dict x) (rn_prev x) (rn_label x) true (rn_term x)) Hr Ha) as (x' & ns' & Hx' & H1 & H2 & H3 & H4); [done|].
    rewrite H1. cbn [mbind res_bind]. exists ns'. split; [done|]. split; [done|]. split.
    + intros m. rewrite H3. by destruct (m =? n).
    + intros m. rewrite H4. destruct (N.eqb_spec m n) as [->|]; [|done]. cbn. unfold tm. by rewrite Hx'.
Qed.
Lemma look_app {A} (l : list A) x n : (l ++ [x]) !! N.to_nat n = if n =? N.of_nat (length l) then Some x else l !! N.to_nat n.
Proof.
  destruct (N.eqb_spec n (N.of_nat (length l))) as [->|Hne].
  - rewrite Nnat.Nat2N.id, lookup_app_r, Nat.sub_diag by lia. done.
  - destruct (Nat.lt_ge_cases (N.to_nat n) (length l)); [by rewrite lookup_app_l|]. rewrite !lookup_ge_None_2; [done|lia|rewrite app_length; cbn; lia].
Qed.
Lemma look_old {A} (l l' : list A) (n : N) x : l !! N.to_nat n = Some x -> (l ++ l') !! N.to_nat n = Some x.
Proof. intros H. rewrite lookup_app_l; [done|]. by eapply lookup_lt_Some. Qed.

Section run.
  Context (us : dict) (R : edges) (node : N -> edges -> Prop) (HN : drep us R node).
  Context (sort : (link -> link -> bool) -> list link -> list link) (cmp : Z -> Z -> bool) (Hs : sorter sort).
  Context (g : guide) (HG : rgrep sort cmp us node g).
  Local Notation oe es := (oe sort cmp es).
  Local Notation ord es := (ord sort cmp es).
  Local Notation mx s := (mx sort cmp s).
  Local Notation pos i l := (pos us i l).

  Definition gok (a : ab) : Prop :=
    match a_sub a with
    | Node es => node (a_dict a) es /\ a_label a <> 0
    | Leaf v => us !! N.to_nat (a_dict a) = Some (dictSetValue (Z.of_N v)) /\ v < 2147483648 /\ a_label a = 0
    end.
  Definition gup (gs : list ab) (n : N) (a : ab) : Prop := a_prev a < n /\ exists m es pre, gs !! N.to_nat (a_prev a) = Some m /\ a_sub m = Node es /\
    oe es = pre ++ (a_label a, a_sub a) :: a_rest a /\ a_base a = a_path m /\ a_path a = a_path m ++ [a_label a] /\ a_dict a = pos (a_dict m) (a_label a).
  Definition gwf (gs : list ab) : Prop := forall n a, gs !! N.to_nat n = Some a -> gok a /\ (n = 0 -> a_path a = [] /\ a_rest a = []) /\ (n <> 0 -> gup gs n a).

  Lemma node_wfe i es : node i es -> wfe es /\ es <> [].
  Proof. intros Hn. pose proof (rp_wf _ _ _ HN _ _ Hn) as Hw. apply wf_wfe in Hw as [? ?]. done. Qed.
  Lemma gup_app gs gs' n a : gup gs n a -> gup (gs ++ gs') n a.
  Proof. intros (H1 & m & es & pre & H2 & H). split; [done|]. exists m, es, pre. split; [by apply look_old|done]. Qed.
  Lemma anc_le gs m n : gwf gs -> anc gs m n -> m <= n.
  Proof. intros HW. induction 1 as [n|m n a Ha H0 H IH]; [lia|]. destruct (proj2 (proj2 (HW n a Ha)) H0) as [Hlt _]. lia. Qed.
  Lemma anc_app gs gs' m n : anc gs m n -> anc (gs ++ gs') m n.
  Proof. induction 1 as [n|m n a Ha H0 H IH]; [constructor|]. apply (anc_up _ m n a); [by apply look_old|done|done]. Qed.
  Lemma anc_old gs gs' m n : gwf gs -> n < N.of_nat (length gs) -> anc (gs ++ gs') m n -> anc gs m n.
  Proof.
    intros HW Hn H. induction H as [n|m n a Ha H0 H IH]; [constructor|]. rewrite lookup_app_l in Ha by lia. apply (anc_up _ m n a); [done|done|].
    apply IH. destruct (proj2 (proj2 (HW n a Ha)) H0) as [Hlt _]. lia.
  Qed.
  Lemma anc_trans gs a b c : anc gs a b -> anc gs b c -> anc gs a c.
  Proof. intros H. induction 1 as [n|m n x Hx H0 H1 IH]; [done|]. apply (anc_up _ _ _ x); auto. Qed.

  (** *** Adding a node *)
  Definition kid (am : ab) (m l : N) (s : sub) (rest : edges) : ab := mkAB (pos (a_dict am) l) m l (a_path am) (a_path am ++ [l]) s rest.
  Lemma kid_ok ns gs m am es pre l s rest : rel ns gs -> gwf gs -> gs !! N.to_nat m = Some am -> a_sub am = Node es -> oe es = pre ++ (l, s) :: rest ->
    N.of_nat (length gs) < two32 ->
    let a := kid am m l s rest in
    exists x, fwc us (a_dict am) l = Ok (a_dict a) /\ rc_createNode us ns (a_dict a) m l = Ok (ns ++ [x], N.of_nat (length gs)) /\ rel (ns ++ [x]) (gs ++ [a]) /\ gwf (gs ++ [a]) /\
      rn_queued x = false /\ rn_term x = tv s.
  Proof.
    intros Hr HW Ham Hsub Hoe Hlt a. destruct (HW m am Ham) as (Hok & _). unfold gok in Hok. rewrite Hsub in Hok. destruct Hok as [Hn Hl0].
    destruct (node_wfe _ _ Hn) as [Hw Hne]. assert (Hin : (l, s) ∈ es).
    { rewrite <- (oe_perm sort cmp Hs es Hw), Hoe. set_solver. }
    rewrite (fwc_ok us R node HN (a_dict am) es l Hn). cbn [a a_dict kid].
    assert (Hgok : gok a /\ (if negb (l =? 0) then dc_HasValue us (pos (a_dict am) l) else Ok false) = Ok (tv s)).
    { destruct s as [v|e1].
      - destruct (wfe_leaf _ _ _ Hw Hin) as [-> Hv]. cbn. split; [|done]. unfold gok. cbn. split; [|done]. by apply (pos_leaf us R node HN (a_dict am) es).
      - destruct (pos_kid us R node HN (a_dict am) es l e1 Hn Hin) as (_ & Hn1 & _). destruct (wfe_kid _ _ _ Hw Hin) as (Hw1 & _ & Hl & _).
        split; [by split|]. destruct (N.eqb_spec l 0); [done|]. cbn [negb tv]. rewrite (rp_has _ _ _ HN _ _ Hn1). by rewrite has0_z0. }
    destruct Hgok as [Hgok Hh]. unfold rc_createNode. rewrite Hh. cbn [mbind res_bind]. rewrite (rel_len _ _ Hr), u32_id by done.
    eexists. split; [done|]. split; [done|]. split; [|split]; [| |done].
    - apply Forall2_app; [done|]. constructor; [done|constructor].
    - intros n b Hb. rewrite look_app in Hb. destruct (N.eqb_spec n (N.of_nat (length gs))) as [->|Hne'].
      + injection Hb as <-. split; [done|]. pose proof (lookup_lt_Some _ _ _ Ham) as Hmlt. split; [lia|]. intros _. cbn. split; [cbn; lia|].
        exists am, es, pre. split; [by apply look_old|]. done.
      + destruct (HW n b Hb) as (H1 & H2 & H3). split; [done|]. split; [done|]. intros H0. by apply gup_app, H3.
  Qed.
  Lemma qd_app ns x n : rn_queued x = false -> qd (ns ++ [x]) n = qd ns n.
  Proof.
    intros Hx. unfold qd. rewrite look_app. destruct (N.eqb_spec n (N.of_nat (length ns))) as [->|]; [|done]. rewrite lookup_ge_None_2 by lia. done.
  Qed.
  Lemma tm_app ns x n : tm (ns ++ [x]) n = if n =? N.of_nat (length ns) then rn_term x else tm ns n.
  Proof. unfold tm. rewrite look_app. by destruct (n =? N.of_nat (length ns)). Qed.
  Lemma rt_app gs x n : n <> N.of_nat (length gs) -> rt (gs ++ [x]) n = rt gs n.
  Proof. intros H. unfold rt. rewrite look_app. apply N.eqb_neq in H. by rewrite H. Qed.
  Lemma rt_old gs gs' n : n < N.of_nat (length gs) -> rt (gs ++ gs') n = rt gs n.
  Proof. intros H. unfold rt. by rewrite lookup_app_l by lia. Qed.
  Lemma sz_old gs gs' n : n < N.of_nat (length gs) -> sz (gs ++ gs') n = sz gs n.
  Proof. intros H. unfold sz. by rewrite lookup_app_l by lia. Qed.

  (** The new nodes. *)
  Definition range (gs gs' : list ab) : list N := map N.of_nat (seq (length gs) (length gs' - length gs)).
  Lemma in_range gs gs' n : n ∈ range gs gs' <-> N.of_nat (length gs) <= n < N.of_nat (length gs').
  Proof.
    unfold range. rewrite elem_of_list_fmap. split.
    - intros (k & -> & H%elem_of_seq). lia.
    - intros H. exists (N.to_nat n). split; [lia|]. apply elem_of_seq. lia.
  Qed.
  Lemma range_nodup gs gs' : NoDup (range gs gs').
  Proof. unfold range. change (map ?f ?l) with (f <$> l). apply NoDup_fmap_2; [apply _|]. apply NoDup_seq. Qed.
  Lemma range_nil gs : range gs gs = [].
  Proof. unfold range. by rewrite Nat.sub_diag. Qed.
  Lemma range_cons gs a gs' : (length gs < length gs')%nat -> range gs gs' = N.of_nat (length gs) :: range (gs ++ [a]) gs'.
  Proof.
    intros H. unfold range. rewrite app_length. cbn [length]. replace (length gs' - length gs)%nat with (S (length gs' - (length gs + 1)))%nat by lia. cbn [seq map].
    by rewrite Nat.add_1_r.
  Qed.

  (** *** Down to a terminal *)
  Record chain (ns : list rnode) (gs : list ab) (n : N) (a : ab) (ns' : list rnode) (gs' : list ab) (t : N) (v : N) : Prop := mkCh {
    ch_rel : rel ns' gs';
    ch_wf : gwf gs';
    ch_app : exists new, gs' = gs ++ new;
    ch_q : forall m, qd ns' m = qd ns m;
    ch_t : forall m, m < N.of_nat (length gs) -> m <> n -> tm ns' m = tm ns m;
    ch_at : exists at', gs' !! N.to_nat t = Some at' /\ a_sub at' = Leaf v /\ (a_base at', v) :: (range gs gs' ≫= rt gs') ≡ₚ nout a;
    ch_v : mx (a_sub a) = Z.of_N v;
    ch_sz : (length gs' + sum_list_with (sz gs') (range gs gs') = length gs + nedges (a_sub a))%nat;
    ch_anc : anc gs' n t;
    ch_new : forall m, m ∈ range gs gs' -> exists b, gs' !! N.to_nat m = Some b /\ mx (a_sub b) = Z.of_N v /\ anc gs' m t /\ tm ns' (a_prev b) = z0 (a_rest b) /\
      a_prev b = (if m =? N.of_nat (length gs) then n else m - 1);
    ch_first : forall m b, m ∈ range gs gs' -> gs' !! N.to_nat m = Some b -> exists am es, gs' !! N.to_nat (a_prev b) = Some am /\ a_sub am = Node es /\
      oe es = (a_label b, a_sub b) :: a_rest b }.

  Lemma nout_split gs a es l s rest : gwf gs -> gok a -> a_sub a = Node es -> oe es = (l, s) :: rest -> forall m,
    nout a ≡ₚ nout (kid a m l s rest) ++ rout (kid a m l s rest).
  Proof.
    intros HW Hok Hsub Hoe m. unfold nout, rout. rewrite Hsub. unfold gok in Hok. rewrite Hsub in Hok. destruct Hok as [Hn Hl]. destruct (node_wfe _ _ Hn) as [Hw Hne].
    rewrite (pref_perm _ _ _ (ent_es_perm _ _ (Permutation_sym (oe_perm sort cmp Hs es Hw)))), Hoe, ent_es_cons, pref_app. cbn [a_base a_rest a_sub a_path kid].
    apply Permutation_app; [|done]. assert (Hin : (l, s) ∈ es) by (rewrite <- (oe_perm sort cmp Hs es Hw), Hoe; constructor).
    unfold ent_e. cbn [fst snd]. destruct s as [v|e1].
    - destruct (wfe_leaf _ _ _ Hw Hin) as [-> Hv]. cbn. by rewrite app_nil_r.
    - destruct (wfe_kid _ _ _ Hw Hin) as (_ & _ & Hl0 & _). apply N.eqb_neq in Hl0. rewrite Hl0. rewrite ent_node. unfold pref. rewrite map_map. cbn [fst snd].
      erewrite map_ext; [reflexivity|]. intros [k v']. cbn [fst snd]. by rewrite <- app_assoc.
  Qed.
  Lemma z0_rest es l s rest : wfe es -> oe es = (l, s) :: rest -> (if l =? 0 then false else z0 es) = z0 rest.
  Proof.
    intros Hw Hoe. pose proof (ord_nodup sort cmp Hs es Hw) as Hnd. rewrite <- oe_labels, Hoe in Hnd. cbn in Hnd. apply NoDup_cons in Hnd as [Hni _].
    assert (Hz : z0 es = bool_decide (0 ∈ l :: rest.*1)).
    { unfold z0. apply bool_decide_ext. rewrite <- (oe_perm sort cmp Hs es Hw), Hoe. done. }
    rewrite Hz. unfold z0. destruct (N.eqb_spec l 0) as [->|Hl].
    - symmetry. by apply bool_decide_eq_false.
    - apply bool_decide_ext. rewrite elem_of_cons. naive_solver.
  Qed.
  Lemma nedges_oe es : wfe es -> nedges (Node es) = nedges_es (oe es).
  Proof. intros Hw. cbn [nedges]. unfold nedges_es. apply sum_perm. by rewrite (oe_perm sort cmp Hs es Hw). Qed.

  Lemma find_ok fuel : forall ns gs n a, (hgt (a_sub a) <= fuel)%nat -> rel ns gs -> gwf gs -> gs !! N.to_nat n = Some a -> tm ns n = tv (a_sub a) ->
    N.of_nat (length gs + nedges (a_sub a)) <= two32 ->
    exists ns' gs' t v, rc_findTerminal us g fuel ns n = Ok (ns', t) /\ chain ns gs n a ns' gs' t v.
  Proof.
    induction fuel as [|fuel IH]; intros ns gs n a Hh Hr HW Ha Ht Hsz; [pose proof (hgt_pos (a_sub a)); lia|].
    destruct (rel_at ns gs n a Hr Ha) as (x & Hx & Hxd & Hxp & Hxl & _). destruct (HW n a Ha) as (Hok & _). cbn [rc_findTerminal].
    rewrite (get_N _ _ _ Hx). cbn [mbind res_bind]. rewrite Hxl, Hxd. pose proof Hok as Hok'. unfold gok in Hok. destruct (a_sub a) as [v|es] eqn:Hsub.
    - destruct Hok as (_ & Hv & ->). cbn. exists ns, gs, n, v. split; [done|]. constructor; try done.
      + exists []. by rewrite app_nil_r.
      + exists a. split; [done|]. split; [done|]. rewrite range_nil. unfold nout. rewrite Hsub. done.
      + by rewrite Hsub.
      + rewrite range_nil, Hsub. cbn. lia.
      + constructor.
      + rewrite range_nil. intros m Hm. by apply elem_of_nil in Hm.
      + rewrite range_nil. intros m b Hm. by apply elem_of_nil in Hm.
    - destruct Hok as [Hn Hl]. apply N.eqb_neq in Hl. rewrite Hl. destruct (node_wfe _ _ Hn) as [Hw Hne].
      rewrite (rg_child _ _ _ _ _ HG _ _ Hn). cbn [mbind res_bind]. destruct (mx_first sort cmp Hs es Hw Hne) as (l & s & rest & Hoe & Hin & Hmx & ->).
      assert (H1 : exists ns1, (if l =? 0 then upd ns n clear_term else Ok ns) = Ok ns1 /\ rel ns1 gs /\ (forall m, qd ns1 m = qd ns m) /\
        (forall m, tm ns1 m = if m =? n then z0 rest else tm ns m)).
      { pose proof (z0_rest es l s rest Hw Hoe) as Hz. cbn [tv] in Ht. destruct (l =? 0).
        - destruct (clear_ok ns gs n a Hr Ha) as (ns1 & ? & ? & ? & Htm). exists ns1. rewrite <- Hz. done.
        - exists ns. split; [done|]. split; [done|]. split; [done|]. intros m. destruct (N.eqb_spec m n) as [->|]; [congruence|done]. }
      destruct H1 as (ns1 & -> & Hr1 & Hq1 & Ht1). cbn [mbind res_bind].
      rewrite (nedges_oe es Hw), Hoe in Hsz. unfold nedges_es in Hsz. cbn [sum_list_with fst snd] in Hsz.
      destruct (kid_ok ns1 gs n a es [] l s rest Hr1 HW Ha Hsub Hoe) as (y & Hf & Hc & Hr2 & HW2 & Hyq & Hyt); [lia|].
      rewrite Hf. cbn [mbind res_bind]. rewrite Hc. cbn [mbind res_bind]. set (b := kid a n l s rest) in *.
      pose proof (hgt_in _ _ _ Hin) as Hhs. pose proof (rel_len _ _ Hr1) as Hlen1. pose proof (lookup_lt_Some _ _ _ Ha) as Hnlt.
      destruct (IH (ns1 ++ [y]) (gs ++ [b]) (N.of_nat (length gs)) b) as (ns' & gs' & t & v & Hres & [C1 C2 (new & Enew) C4 C5 (at' & C6 & C6a & C6b) C7 C8 C9 C10 C11]).
      + cbn [b kid a_sub]. lia.
      + done.
      + done.
      + rewrite look_app, N.eqb_refl. done.
      + rewrite tm_app, Hlen1, N.eqb_refl. done.
      + rewrite app_length. cbn [length b kid a_sub]. lia.
      + exists ns', gs', t, v. split; [done|].
        assert (Hlg : (length gs < length gs')%nat) by (rewrite Enew, !app_length; cbn [length]; lia).
        rewrite !app_length in C5, C8, C10. cbn [length] in C5, C8, C10.
        assert (Hb : gs' !! N.to_nat (N.of_nat (length gs)) = Some b) by (rewrite Enew; apply look_old; rewrite look_app, N.eqb_refl; done).
        assert (Htn : tm ns' n = z0 rest).
        { rewrite C5 by lia. rewrite tm_app, Ht1, N.eqb_refl, Hlen1. destruct (N.eqb_spec n (N.of_nat (length gs))); [lia|done]. }
        constructor; try done.
        * exists (b :: new). by rewrite Enew, <- app_assoc.
        * intros m. rewrite C4, qd_app by done. apply Hq1.
        * intros m Hm Hmn. rewrite C5 by lia. rewrite tm_app, Hlen1, Ht1. destruct (N.eqb_spec m (N.of_nat (length gs))); [lia|]. destruct (N.eqb_spec m n); done.
        * exists at'. split; [done|]. split; [done|]. rewrite (range_cons gs b gs' Hlg), bind_cons. unfold rt at 1. rewrite Hb.
          rewrite (nout_split gs a es l s rest HW Hok' Hsub Hoe n). change (kid a n l s rest) with b. rewrite <- C6b.
          rewrite Permutation_app_comm. cbn [app]. rewrite (Permutation_app_comm _ (rout b)). rewrite Permutation_middle. by rewrite (Permutation_app_comm (rout b)).
        * rewrite Hsub, Hmx. done.
        * rewrite (range_cons gs b gs' Hlg). cbn [sum_list_with]. unfold sz at 1. rewrite Hb, Hsub, (nedges_oe es Hw), Hoe. unfold nedges_es. cbn [sum_list_with fst snd b kid a_rest].
          cbn [b kid a_sub] in C8. lia.
        * apply (anc_trans _ _ (N.of_nat (length gs))); [|done]. apply (anc_up _ _ _ b); [done|lia|constructor].
        * intros m Hm. rewrite (range_cons gs b gs' Hlg) in Hm. apply elem_of_cons in Hm as [->|Hm].
          -- exists b. split; [done|]. split; [done|]. split; [done|]. split; [done|]. by rewrite N.eqb_refl.
          -- pose proof Hm as Hm'. apply in_range in Hm'. rewrite app_length in Hm'. cbn [length] in Hm'. destruct (C10 m Hm) as (b' & ? & ? & ? & ? & Hp). exists b'.
             split; [done|]. split; [done|]. split; [done|]. split; [done|]. rewrite Hp.
             destruct (N.eqb_spec m (N.of_nat (length gs + 1))), (N.eqb_spec m (N.of_nat (length gs))); lia.
        * intros m b' Hm Hb'. rewrite (range_cons gs b gs' Hlg) in Hm. apply elem_of_cons in Hm as [->|Hm]; [|by apply (C11 m)].
          rewrite Hb in Hb'. injection Hb' as <-. exists a, es. cbn [b kid a_prev a_label a_sub a_rest]. split; [|done]. rewrite Enew. apply look_old, look_old. exact Ha.
  Qed.

  (** *** What has come out.  [E] is what is to come. *)
  Lemma nout_kid am m es l s rest : wfe es -> (l, s) ∈ es -> nout (kid am m l s rest) = pref (a_path am) (ent_e (l, s)).
  Proof.
    intros Hw Hin. unfold nout. cbn [kid a_sub a_base a_path]. unfold ent_e. cbn [fst snd]. destruct s as [v|e1].
    - destruct (wfe_leaf _ _ _ Hw Hin) as [-> Hv]. cbn. by rewrite app_nil_r.
    - destruct (wfe_kid _ _ _ Hw Hin) as (_ & _ & Hl0 & _). apply N.eqb_neq in Hl0. rewrite Hl0, ent_node. unfold pref. rewrite map_map. cbn [fst snd].
      apply map_ext. intros [k v']. cbn [fst snd]. by rewrite <- app_assoc.
  Qed.
  Lemma ent_e_at l s es kv : wfe es -> (l, s) ∈ es -> kv ∈ ent_e (l, s) -> exists t, kv.1 ++ [0] = l :: t.
  Proof.
    intros Hw Hin Hk. unfold ent_e in Hk. cbn [fst snd] in Hk. destruct (N.eqb_spec l 0) as [->|Hl].
    - destruct (wfe_zero _ _ Hw Hin) as [v ->]. cbn [ent] in Hk. apply elem_of_list_singleton in Hk as ->. by exists [].
    - apply elem_of_list_fmap in Hk as ([k v] & -> & _). cbn [fst]. by exists (k ++ [0]).
  Qed.
  Lemma pref_in b kvs kv : kv ∈ pref b kvs <-> exists kv', kv' ∈ kvs /\ kv = (b ++ kv'.1, kv'.2).
  Proof. unfold pref. change (map ?f ?l) with (f <$> l). rewrite elem_of_list_fmap. naive_solver. Qed.
  Lemma nout_ed gs n a am es : gwf gs -> gs !! N.to_nat n = Some a -> n <> 0 -> gs !! N.to_nat (a_prev a) = Some am -> a_sub am = Node es ->
    nout a = pref (a_path am) (ent_e (a_label a, a_sub a)).
  Proof.
    intros HW Ha H0 Ham Hsub. destruct (proj2 (proj2 (HW n a Ha)) H0) as (_ & am' & es' & pre & Ham' & Hsub' & Hoe & Hb & Hp & _).
    rewrite Ham in Ham'. injection Ham' as <-. rewrite Hsub in Hsub'. injection Hsub' as <-.
    destruct (HW _ _ Ham) as (Hok & _). unfold gok in Hok. rewrite Hsub in Hok. destruct Hok as [Hn _]. destruct (node_wfe _ _ Hn) as [Hw _].
    assert (Hin : (a_label a, a_sub a) ∈ es) by (rewrite <- (oe_perm sort cmp Hs es Hw), Hoe; apply elem_of_app; right; constructor).
    rewrite <- (nout_kid am 0 es (a_label a) (a_sub a) [] Hw Hin). unfold nout. cbn [kid a_sub a_base a_path]. by rewrite Hb, Hp.
  Qed.
  Lemma nout_up gs n a am kv : gwf gs -> gs !! N.to_nat n = Some a -> n <> 0 -> gs !! N.to_nat (a_prev a) = Some am -> kv ∈ nout a -> kv ∈ nout am.
  Proof.
    intros HW Ha H0 Ham Hk. destruct (proj2 (proj2 (HW n a Ha)) H0) as (_ & am' & es & pre & Ham' & Hsub & Hoe & _).
    rewrite Ham in Ham'. injection Ham' as <-. destruct (HW _ _ Ham) as (Hok & _). unfold gok in Hok. rewrite Hsub in Hok. destruct Hok as [Hn _]. destruct (node_wfe _ _ Hn) as [Hw _].
    rewrite (nout_ed gs n a am es HW Ha H0 Ham Hsub) in Hk. unfold nout. rewrite Hsub. apply pref_in in Hk as (kv' & Hk & ->). apply pref_in. exists kv'. split; [|done].
    apply elem_ent_es. exists (a_label a, a_sub a). split; [|done]. rewrite <- (oe_perm sort cmp Hs es Hw), Hoe. apply elem_of_app. right. constructor.
  Qed.
  Lemma nout_anc gs m n a b kv : gwf gs -> anc gs m n -> gs !! N.to_nat m = Some b -> gs !! N.to_nat n = Some a -> kv ∈ nout a -> kv ∈ nout b.
  Proof.
    intros HW Hanc Hb. revert a. induction Hanc as [n|m n c Hc H0 H IH]; intros a Ha Hk; [congruence|]. rewrite Hc in Ha. injection Ha as <-.
    destruct (proj2 (proj2 (HW n c Hc)) H0) as (_ & am & es & pre & Ham & _). apply (IH Hb am Ham). by apply (nout_up gs n c am kv HW Hc H0 Ham).
  Qed.
  (** The path of a node starts the keys below it. *)
  Lemma nout_path gs n a kv : gwf gs -> gs !! N.to_nat n = Some a -> kv ∈ nout a -> a_path a `prefix_of` kv.1 ++ [0].
  Proof.
    intros HW Ha Hk. destruct (HW n a Ha) as (Hok & H0 & H1). unfold nout in Hk. unfold gok in Hok. destruct (a_sub a) as [v|es].
    - apply elem_of_list_singleton in Hk as ->. cbn [fst]. destruct Hok as (_ & _ & Hl). destruct (decide (n = 0)) as [E|E].
      + destruct (H0 E) as [-> _]. apply prefix_nil.
      + destruct (H1 E) as (_ & am & es & pre & _ & _ & _ & -> & -> & _). by rewrite Hl.
    - apply pref_in in Hk as (kv' & _ & ->). cbn [fst]. rewrite <- app_assoc. by eexists.
  Qed.
  Lemma oe_at es l s s' pre rest pre' rest' : wfe es -> oe es = pre ++ (l, s) :: rest -> oe es = pre' ++ (l, s') :: rest' -> pre = pre' /\ s = s' /\ rest = rest'.
  Proof.
    intros Hw H1 H2. pose proof (ord_nodup sort cmp Hs es Hw) as Hnd. rewrite <- oe_labels in Hnd.
    assert (Hl : length pre = length pre').
    { eapply (NoDup_lookup _ _ _ l Hnd).
      - rewrite H1, list_lookup_fmap, lookup_app_r, Nat.sub_diag by done. done.
      - rewrite H2, list_lookup_fmap, lookup_app_r, Nat.sub_diag by done. done. }
    rewrite H1 in H2. apply app_inj_1 in H2 as [-> H2]; [|done]. injection H2 as -> ->. done.
  Qed.

  Lemma ent_nodup s : wf s -> NoDup (ent s).
  Proof.
    induction s as [v|es IH] using sub_ind'; intros Hw; [apply NoDup_singleton|]. apply wf_wfe in Hw as [_ Hw]. rewrite ent_node. unfold ent_es.
    assert (H : forall es', (forall e, e ∈ es' -> e ∈ es) -> NoDup es'.*1 -> NoDup (concat (map ent_e es'))).
    2: { apply H; [done|]. by apply wfe_labels. }
    induction es' as [|[l s] es' IHe]; intros Hin Hnd; [constructor|]. cbn [map concat]. cbn in Hnd. apply NoDup_cons in Hnd as [Hl Hnd].
    assert (Hls : (l, s) ∈ es) by (apply Hin; constructor). apply NoDup_app. split; [|split; [|apply IHe; [intros e He; apply Hin; by constructor|done]]].
    - rewrite Forall_forall in IH. pose proof (IH _ Hls (proj1 (wfe_in _ _ Hw Hls))) as H. cbn [snd] in H. unfold ent_e. cbn [fst snd]. destruct (l =? 0); [done|].
      change (map ?f ?x) with (f <$> x). apply NoDup_fmap_2; [|done]. intros [? ?] [? ?] [= -> ->]. done.
    - intros kv Hk Hk'. fold (ent_es es') in Hk'. apply elem_ent_es in Hk' as ([l' s'] & He & Hk'). destruct (ent_e_at l s es kv Hw Hls Hk) as [t Ht].
      destruct (ent_e_at l' s' es kv Hw) as [t' Ht']; [apply Hin; by constructor|done|]. rewrite Ht in Ht'. injection Ht' as <- _. apply Hl. apply elem_of_list_fmap. by exists (l, s').
  Qed.
  Lemma ent_es_nodup es : wfe es -> NoDup (ent_es es).
  Proof. intros Hw. destruct (decide (es = [])) as [->|Hne]; [constructor|]. rewrite <- ent_node. apply ent_nodup. by apply wf_wfe. Qed.
  Context (es0 : edges).
  Record front (ns : list rnode) (gs : list ab) (F : list N) (E : list (list N * N)) : Prop := mkFr {
    fr_0 : exists a0, gs !! N.to_nat 0 = Some a0 /\ a_sub a0 = Node es0;
    fr_F : forall n, n ∈ F -> n <> 0 /\ exists a, gs !! N.to_nat n = Some a;
    fr_nd : NoDup E;
    fr_low : forall n n' a a', n ∈ F -> gs !! N.to_nat n = Some a -> gs !! N.to_nat n' = Some a' -> n' <> 0 -> a_prev a = a_prev a' -> n' <> n -> (length (a_rest a) < length (a_rest a'))%nat;
    fr_u : forall n n' a a', n <> 0 -> n' <> 0 -> gs !! N.to_nat n = Some a -> gs !! N.to_nat n' = Some a' -> a_prev a = a_prev a' -> n <> n' -> length (a_rest a) <> length (a_rest a');
    fr_pre : forall n a am es pre e, gs !! N.to_nat n = Some a -> n <> 0 -> gs !! N.to_nat (a_prev a) = Some am -> a_sub am = Node es ->
      oe es = pre ++ (a_label a, a_sub a) :: a_rest a -> e ∈ pre -> exists kv, kv ∈ pref (a_path am) (ent_e e) /\ kv ∉ E;
    fr_q : forall n a, gs !! N.to_nat n = Some a -> n <> 0 -> qd ns n = true -> exists kv, kv ∈ nout a /\ kv ∉ E;
    fr_v : forall n a kv, gs !! N.to_nat n = Some a -> qd ns n = false -> kv ∈ nout a -> kv ∈ E }.
  Lemma prev_lt gs n a : gwf gs -> gs !! N.to_nat n = Some a -> n <> 0 -> a_prev a < n.
  Proof. intros HW Ha H0. by destruct (proj2 (proj2 (HW n a Ha)) H0) as [? _]. Qed.

  (** A sibling is added. *)
  Lemma front_kid ns gs n a am es pre l s rest F E ns' : let b := kid am (a_prev a) l s rest in gwf gs -> gwf (gs ++ [b]) -> front ns gs (n :: F) E -> n ∉ F ->
    gs !! N.to_nat n = Some a -> qd ns n = true -> gs !! N.to_nat (a_prev a) = Some am -> a_sub am = Node es -> oe es = pre ++ (a_label a, a_sub a) :: a_rest a -> a_rest a = (l, s) :: rest ->
    (forall m, qd ns' m = qd ns m) -> (forall m, N.of_nat (length gs) <= m -> qd ns m = false) -> (forall kv, kv ∈ nout b -> kv ∈ E) ->
    front ns' (gs ++ [b]) (F ++ [N.of_nat (length gs)]) E.
  Proof.
    intros b HW HW' HF Hnn Ha Hqn Ham Hsub Hoe Hrest HQ Hqk HbE. set (k := N.of_nat (length gs)) in *.
    destruct (fr_F _ _ _ _ HF n ltac:(constructor)) as [Hn0 _].
    assert (Hlt : forall m c, gs !! N.to_nat m = Some c -> m < k) by (intros m c Hm%lookup_lt_Some; unfold k; lia).
    assert (Hk0 : k <> 0) by (pose proof (Hlt _ _ Ha); lia).
    assert (Hlow : forall m c, m <> 0 -> gs !! N.to_nat m = Some c -> a_prev c = a_prev a -> (length rest < length (a_rest c))%nat).
    { intros m c H0 Hc Hp. destruct (decide (m = n)) as [->|Hmn].
      - rewrite Ha in Hc. injection Hc as <-. rewrite Hrest. cbn. lia.
      - pose proof (fr_low _ _ _ _ HF n m a c ltac:(constructor) Ha Hc H0 (eq_sym Hp) Hmn) as H. rewrite Hrest in H. cbn in H. lia. }
    assert (Hlk : forall m c, (gs ++ [b]) !! N.to_nat m = Some c -> (m = k /\ c = b) \/ (m < k /\ gs !! N.to_nat m = Some c)).
    { intros m c. rewrite look_app. fold k. destruct (N.eqb_spec m k) as [->|]; [intros [= <-]; by left|]. intros H. right. split; [by eapply Hlt|done]. }
    assert (HFo : forall m c, m ∈ F -> gs !! N.to_nat m = Some c -> a_prev c <> a_prev a).
    { intros m c Hm Hc Hp. assert (Hmn : m <> n) by (intros ->; done). destruct (fr_F _ _ _ _ HF m ltac:(by constructor)) as [Hm0 _].
      pose proof (fr_low _ _ _ _ HF n m a c ltac:(constructor) Ha Hc Hm0 (eq_sym Hp) Hmn).
      pose proof (fr_low _ _ _ _ HF m n c a ltac:(by constructor) Hc Ha Hn0 Hp (not_eq_sym Hmn)). lia. }
    constructor.
    - destruct (fr_0 _ _ _ _ HF) as (a0 & ? & ?). exists a0. split; [by apply look_old|done].
    - intros m [Hm|Hm%elem_of_list_singleton]%elem_of_app.
      + destruct (fr_F _ _ _ _ HF m ltac:(by constructor)) as (? & c & ?). split; [done|]. exists c. by apply look_old.
      + subst m. split; [done|]. exists b. rewrite look_app. fold k. by rewrite N.eqb_refl.
    - apply HF.
    - intros n1 n2 a1 a2 Hin [[-> ->]|[Hn1 H1]]%Hlk [[-> ->]|[Hn2 H2]]%Hlk Hz Hp Hne; [done| | |].
      + apply (Hlow n2); [done|done|]. by symmetry.
      + apply elem_of_app in Hin as [Hin|Hin%elem_of_list_singleton]; [|lia]. by destruct (HFo n1 a1).
      + apply elem_of_app in Hin as [Hin|Hin%elem_of_list_singleton]; [|lia]. apply (fr_low _ _ _ _ HF n1 n2); [by constructor|done..].
    - intros n1 n2 a1 a2 Hz1 Hz2 [[-> ->]|[Hn1 H1]]%Hlk [[-> ->]|[Hn2 H2]]%Hlk Hp Hne; [done| | |].
      + pose proof (Hlow n2 a2 Hz2 H2 (eq_sym Hp)). cbn [b kid a_rest]. lia.
      + pose proof (Hlow n1 a1 Hz1 H1 Hp). cbn [b kid a_rest]. lia.
      + by apply (fr_u _ _ _ _ HF n1 n2).
    - intros m c cm es' pre' e [[-> ->]|[Hm Hc]]%Hlk Hm0 Hcm Hcs Hoe' He.
      + cbn [b kid a_prev] in Hcm. rewrite (look_old _ _ _ _ Ham) in Hcm. injection Hcm as <-. rewrite Hsub in Hcs. injection Hcs as <-.
        cbn [b kid a_label a_sub a_rest] in Hoe'. assert (pre' = pre ++ [(a_label a, a_sub a)]) as ->.
        { rewrite Hoe, Hrest in Hoe'. change ((a_label a, a_sub a) :: (l, s) :: rest) with ([(a_label a, a_sub a)] ++ (l, s) :: rest) in Hoe'. rewrite app_assoc in Hoe'. by apply app_inv_tail in Hoe'. }
        apply elem_of_app in He as [He|He%elem_of_list_singleton].
        * by apply (fr_pre _ _ _ _ HF n a am es pre e).
        * subst e. destruct (fr_q _ _ _ _ HF n a Ha Hn0 Hqn) as (kv & Hk & HkE). exists kv. split; [|done].
          by rewrite <- (nout_ed gs n a am es HW Ha Hn0 Ham Hsub).
      + pose proof (prev_lt gs m c HW Hc Hm0). apply Hlk in Hcm as [[? _]|[_ Hcm]]; [lia|]. by apply (fr_pre _ _ _ _ HF m c cm es' pre' e).
    - intros m c [[-> ->]|[Hm Hc]]%Hlk Hm0; rewrite HQ; [rewrite Hqk by done; done|]. by apply (fr_q _ _ _ _ HF m).
    - intros m c kv [[-> ->]|[Hm Hc]]%Hlk; rewrite HQ; [intros _; apply HbE|]. by apply (fr_v _ _ _ _ HF m).
  Qed.

  (** Nodes are added down to a terminal. *)
  Lemma front_chain ns gs n a ns' gs' t v F E : gwf gs -> chain ns gs n a ns' gs' t v -> front ns gs F E -> gs !! N.to_nat n = Some a ->
    (forall m c, gs !! N.to_nat m = Some c -> m <> 0 -> a_prev c <> n) ->
    (forall m, N.of_nat (length gs) <= m -> qd ns m = false) -> (forall kv, kv ∈ nout a -> kv ∈ E) ->
    front ns' gs' (F ++ range gs gs') E.
  Proof.
    intros HW C HF Ha Hnone Hqk HaE. destruct (ch_app _ _ _ _ _ _ _ _ C) as [new Enew]. pose proof (ch_wf _ _ _ _ _ _ _ _ C) as HW'. pose proof (ch_q _ _ _ _ _ _ _ _ C) as HQ.
    set (k := N.of_nat (length gs)) in *. pose proof (lookup_lt_Some _ _ _ Ha) as Hnk.
    assert (Hlt : forall m c, gs !! N.to_nat m = Some c -> m < k) by (intros m c Hm%lookup_lt_Some; unfold k; lia).
    assert (Hold : forall m c, gs !! N.to_nat m = Some c -> gs' !! N.to_nat m = Some c) by (intros m c Hm; rewrite Enew; by apply look_old).
    assert (Hlk : forall m c, gs' !! N.to_nat m = Some c -> (m ∈ range gs gs' /\ k <= m /\ a_prev c = (if m =? k then n else m - 1)) \/ (m < k /\ gs !! N.to_nat m = Some c)).
    { intros m c Hc. destruct (N.lt_ge_cases m k) as [Hm|Hm].
      - right. split; [done|]. rewrite Enew, lookup_app_l in Hc by (unfold k in Hm; lia). done.
      - left. assert (Hr : m ∈ range gs gs') by (apply in_range; apply lookup_lt_Some in Hc; unfold k in Hm; lia). split; [done|]. split; [done|].
        destruct (ch_new _ _ _ _ _ _ _ _ C m Hr) as (b & Hb & _ & _ & _ & Hp). rewrite Hc in Hb. by injection Hb as <-. }
    assert (Hpp : forall m1 m2 c1 c2, gs' !! N.to_nat m1 = Some c1 -> gs' !! N.to_nat m2 = Some c2 -> m1 <> 0 -> m2 <> 0 -> a_prev c1 = a_prev c2 -> m1 <> m2 ->
      gs !! N.to_nat m1 = Some c1 /\ gs !! N.to_nat m2 = Some c2).
    { intros m1 m2 c1 c2 H1 H2 Z1 Z2 Hp Hne. destruct (Hlk m1 c1 H1) as [(R1 & K1 & P1)|[L1 G1]], (Hlk m2 c2 H2) as [(R2 & K2 & P2)|[L2 G2]]; [| | |done].
      - rewrite P1, P2 in Hp. exfalso. destruct (N.eqb_spec m1 k), (N.eqb_spec m2 k); unfold k in *; lia.
      - exfalso. rewrite P1 in Hp. pose proof (Hnone m2 c2 G2 Z2). pose proof (prev_lt gs m2 c2 HW G2 Z2). destruct (N.eqb_spec m1 k); [congruence|lia].
      - exfalso. rewrite P2 in Hp. pose proof (Hnone m1 c1 G1 Z1). pose proof (prev_lt gs m1 c1 HW G1 Z1). destruct (N.eqb_spec m2 k); [congruence|lia]. }
    assert (Hnz : forall m, m ∈ range gs gs' -> m <> 0) by (intros m Hm%in_range; lia).
    constructor.
    - destruct (fr_0 _ _ _ _ HF) as (a0 & ? & ?). exists a0. split; [by apply Hold|done].
    - intros m [Hm|Hm]%elem_of_app.
      + destruct (fr_F _ _ _ _ HF m Hm) as (? & c & ?). split; [done|]. exists c. by apply Hold.
      + split; [by apply Hnz|]. destruct (ch_new _ _ _ _ _ _ _ _ C m Hm) as (b & Hb & _). by exists b.
    - apply HF.
    - intros n1 n2 a1 a2 Hin H1 H2 Hz Hp Hne. assert (Z1 : n1 <> 0).
      { apply elem_of_app in Hin as [Hin|Hin]; [by apply (fr_F _ _ _ _ HF)|by apply Hnz]. }
      destruct (Hpp n1 n2 a1 a2 H1 H2 Z1 Hz Hp (not_eq_sym Hne)) as [G1 G2]. apply elem_of_app in Hin as [Hin|Hin].
      + by apply (fr_low _ _ _ _ HF n1 n2).
      + apply in_range in Hin. apply Hlt in G1. unfold k in G1. lia.
    - intros n1 n2 a1 a2 Z1 Z2 H1 H2 Hp Hne. destruct (Hpp n1 n2 a1 a2 H1 H2 Z1 Z2 Hp Hne) as [G1 G2]. by apply (fr_u _ _ _ _ HF n1 n2).
    - intros m c cm es pre e Hc Hm0 Hcm Hcs Hoe He. destruct (Hlk m c Hc) as [(R1 & _)|[L1 G1]].
      + destruct (ch_first _ _ _ _ _ _ _ _ C m c R1 Hc) as (cm' & es' & Hcm' & Hcs' & Hoe'). rewrite Hcm in Hcm'. injection Hcm' as <-. rewrite Hcs in Hcs'. injection Hcs' as <-.
        rewrite Hoe' in Hoe. change ((a_label c, a_sub c) :: a_rest c) with ([] ++ (a_label c, a_sub c) :: a_rest c) in Hoe at 1. apply app_inv_tail in Hoe. subst pre. by apply elem_of_nil in He.
      + pose proof (prev_lt gs m c HW G1 Hm0). destruct (Hlk _ cm Hcm) as [(_ & K & _)|[_ Gm]]; [lia|]. by apply (fr_pre _ _ _ _ HF m c cm es pre e).
    - intros m c Hc Hm0. rewrite HQ. destruct (Hlk m c Hc) as [(_ & K & _)|[_ G]]; [rewrite Hqk by done; done|]. by apply (fr_q _ _ _ _ HF m).
    - intros m c kv Hc. rewrite HQ. destruct (Hlk m c Hc) as [(Rm & K & _)|[_ G]]; [|by apply (fr_v _ _ _ _ HF m)]. intros _. clear -Hc Rm Hs HN HaE Hlk HW' Hold Ha Hnz C.
      revert c Hc Rm. induction (N.lt_wf_0 m) as [m _ IH]. intros c Hc Rm Hk. destruct (ch_new _ _ _ _ _ _ _ _ C m Rm) as (b & Hb & _ & _ & _ & Hp). rewrite Hc in Hb. injection Hb as <-.
      pose proof (Hnz m Rm) as Hm0. destruct (proj2 (proj2 (HW' m c Hc)) Hm0) as (Hlt & am & es & pre & Ham & _).
      pose proof (nout_up gs' m c am kv HW' Hc Hm0 Ham Hk) as Hk'. destruct (N.eqb_spec m (N.of_nat (length gs))) as [->|Hmk].
      + rewrite Hp, (Hold n a Ha) in Ham. injection Ham as <-. by apply HaE.
      + apply (IH (a_prev c) Hlt am Ham); [|done]. rewrite Hp. apply in_range. apply in_range in Rm. lia.
  Qed.

  (** Nodes and their paths. *)
  Lemma prefix_snoc {A} (x y : list A) c : x `prefix_of` y ++ [c] -> x `prefix_of` y \/ x = y ++ [c].
  Proof.
    intros [k Hk]. destruct k as [|d k _] using rev_ind; [right; by rewrite app_nil_r in Hk|]. left. rewrite app_assoc in Hk. apply app_inj_2 in Hk as [-> _]; [|done]. by eexists.
  Qed.
  Lemma path_uniq ns gs F E : gwf gs -> front ns gs F E -> forall n n' a a', gs !! N.to_nat n = Some a -> gs !! N.to_nat n' = Some a' -> a_path a = a_path a' -> n = n'.
  Proof.
    intros HW HF n. induction (N.lt_wf_0 n) as [n _ IH]. intros n' a a' Ha Ha' Hp. destruct (HW n a Ha) as (_ & H0 & H1). destruct (HW n' a' Ha') as (_ & H0' & H1').
    destruct (decide (n = 0)) as [E0|E0], (decide (n' = 0)) as [E1|E1].
    - congruence.
    - exfalso. destruct (H0 E0) as [Hn _]. destruct (H1' E1) as (_ & am & es & pre & _ & _ & _ & _ & Hq & _). rewrite Hn, Hq in Hp. by destruct (a_path am).
    - exfalso. destruct (H0' E1) as [Hn _]. destruct (H1 E0) as (_ & am & es & pre & _ & _ & _ & _ & Hq & _). rewrite Hn, Hq in Hp. by destruct (a_path am).
    - destruct (H1 E0) as (Hlt & am & es & pre & Ham & Hsub & Hoe & _ & Hq & _). destruct (H1' E1) as (Hlt' & am' & es' & pre' & Ham' & Hsub' & Hoe' & _ & Hq' & _).
      rewrite Hq, Hq' in Hp. apply app_inj_2 in Hp as [Hp Hl]; [|done]. injection Hl as Hl. pose proof (IH _ Hlt _ _ _ Ham Ham' Hp) as Hpr.
      destruct (decide (n = n')) as [|Hne]; [done|]. exfalso. apply (fr_u _ _ _ _ HF n n' a a' E0 E1 Ha Ha' Hpr Hne).
      rewrite <- Hpr, Ham in Ham'. injection Ham' as <-. rewrite Hsub in Hsub'. injection Hsub' as <-. rewrite <- Hl in Hoe'.
      destruct (HW _ _ Ham) as (Hok & _). unfold gok in Hok. rewrite Hsub in Hok. destruct Hok as [Hn _]. destruct (node_wfe _ _ Hn) as [Hw _].
      by destruct (oe_at es _ _ _ _ _ _ _ Hw Hoe Hoe') as (_ & _ & ->).
  Qed.
  Lemma anc_path ns gs F E : gwf gs -> front ns gs F E -> forall t n at' a, gs !! N.to_nat t = Some at' -> gs !! N.to_nat n = Some a -> a_path a `prefix_of` a_path at' -> anc gs n t.
  Proof.
    intros HW HF t. induction (N.lt_wf_0 t) as [t _ IH]. intros n at' a Ht Ha Hp. destruct (decide (a_path a = a_path at')) as [Heq|Hne].
    - rewrite (path_uniq ns gs F E HW HF n t a at' Ha Ht Heq). constructor.
    - destruct (HW t at' Ht) as (_ & H0 & H1). destruct (decide (t = 0)) as [E0|E0].
      + destruct (H0 E0) as [Hn _]. rewrite Hn in Hp, Hne. apply prefix_nil_inv in Hp. done.
      + destruct (H1 E0) as (Hlt & am & es & pre & Ham & Hsub & Hoe & _ & Hq & _). apply (anc_up _ _ _ at' Ht E0). apply (IH _ Hlt n am a Ham Ha).
        rewrite Hq in Hp, Hne. apply prefix_snoc in Hp as [Hp|Hp]; [done|done].
  Qed.

  Lemma front_mono ns gs F F' E : front ns gs F E -> (forall n, n ∈ F' -> n ∈ F) -> front ns gs F' E.
  Proof. intros [H1 H2 H3 H4 H5 H6 H7 H8] HS. constructor; [done|intros; apply H2; auto|done| |done..]. intros n n' a a' Hn. apply H4. auto. Qed.
  (** A key comes out. *)
  Lemma front_pop ns ns' gs F F' E E' t a v : gwf gs -> front ns gs F E -> gs !! N.to_nat t = Some a -> a_sub a = Leaf v -> t <> 0 -> E ≡ₚ (a_base a, v) :: E' ->
    (forall n, n ∈ F' -> n ∈ F) -> qd ns 0 = true -> (forall m, qd ns' m = true <-> qd ns m = true \/ (m <> 0 /\ anc gs m t)) -> front ns' gs F' E'.
  Proof.
    intros HW HF Ha Hsub Ht0 HE HS Hq0 HQ. pose proof (fr_nd _ _ _ _ HF) as Hnd. rewrite HE in Hnd. apply NoDup_cons in Hnd as [Hni Hnd].
    assert (Hin : forall kv, kv ∉ E -> kv ∉ E') by (intros kv Hk Hk'; apply Hk; rewrite HE; by constructor).
    assert (Hout : (a_base a, v) ∈ nout a) by (unfold nout; rewrite Hsub; constructor).
    constructor.
    - apply HF.
    - intros n Hn. by apply (fr_F _ _ _ _ HF), HS.
    - done.
    - intros n n' b b' Hn. by apply (fr_low _ _ _ _ HF), HS.
    - apply HF.
    - intros n b bm es pre e H1 H2 H3 H4 H5 H6. destruct (fr_pre _ _ _ _ HF n b bm es pre e H1 H2 H3 H4 H5 H6) as (kv & ? & ?). exists kv. split; [done|by apply Hin].
    - intros n b Hb H0 [Hq|[_ Hanc]]%HQ.
      + destruct (fr_q _ _ _ _ HF n b Hb H0 Hq) as (kv & ? & ?). exists kv. split; [done|by apply Hin].
      + exists (a_base a, v). split; [|done]. by apply (nout_anc gs n t a b).
    - intros n b kv Hb Hq Hk. assert (Hq1 : qd ns n = false).
      { destruct (qd ns n) eqn:Eq; [|done]. enough (qd ns' n = true) by congruence. apply HQ. by left. }
      pose proof (fr_v _ _ _ _ HF n b kv Hb Hq1 Hk) as HkE. rewrite HE in HkE. apply elem_of_cons in HkE as [->|HkE]; [|done]. exfalso.
      enough (qd ns' n = true) by congruence. apply HQ. right. split; [intros ->; congruence|]. apply (anc_path ns gs F E HW HF t n a b Ha Hb).
      pose proof (nout_path gs n b _ HW Hb Hk) as Hp. cbn [fst] in Hp. destruct (HW t a Ha) as (Hok & _ & H1). unfold gok in Hok. rewrite Hsub in Hok. destruct Hok as (_ & _ & Hl).
      destruct (H1 Ht0) as (_ & am & es & pre & _ & _ & _ & Hba & Hpa & _). by rewrite Hpa, <- Hba, Hl.
  Qed.

  (** *** The invariant between the turns of the first loop of Next *)
  Definition ct (gs : list ab) (c : cand) : list (list N * N) := match gs !! N.to_nat c.1 with Some a => nout a | None => [] end.
  (** The comparator orders children by decreasing value. *)
  Definition dec : Prop := forall es pre e rest e', wfe es -> oe es = pre ++ e :: rest -> e' ∈ rest -> (mx e'.2 <= mx e.2)%Z.
  Record mid (ns : list rnode) (gs : list ab) (nq : list N) (cq : list cand) (V : list N) (L : Z) (E : list (list N * N)) : Prop := mkMid {
    md_rel : rel ns gs;
    md_wf : gwf gs;
    md_V : forall n, n ∈ V <-> exists a, gs !! N.to_nat n = Some a /\ qd ns n = false;
    md_Vn : NoDup V;
    md_nq : forall n, n ∈ nq -> exists a, gs !! N.to_nat n = Some a /\ n <> 0 /\ qd ns n = true;
    md_nqn : NoDup nq;
    md_0 : qd ns 0 = true;
    md_par : forall n n' a a', n ∈ nq ++ V -> n' ∈ nq ++ V -> gs !! N.to_nat n = Some a -> gs !! N.to_nat n' = Some a' -> a_prev a = a_prev a' -> n = n';
    md_tm : forall n a, n ∈ nq ++ V -> gs !! N.to_nat n = Some a -> tm ns (a_prev a) = z0 (a_rest a);
    md_cq : forall c, c ∈ cq -> exists a v, gs !! N.to_nat c.1 = Some a /\ a_sub a = Leaf v /\ c.2 = Z.of_N v /\ c.1 <> 0;
    md_hp : hp cand_less cq;
    md_K : forall m, m ∈ V -> exists c, c ∈ cq /\ anc gs m c.1;
    md_J : forall c m a, c ∈ cq -> m ∈ V -> anc gs m c.1 -> gs !! N.to_nat m = Some a -> mx (a_sub a) = c.2;
    md_Q : forall n a, gs !! N.to_nat n = Some a -> n <> 0 -> qd ns n = true -> qd ns (a_prev a) = true;
    md_E : (cq ≫= ct gs) ++ ((nq ++ V) ≫= rt gs) ≡ₚ E;
    md_sz : N.of_nat (length gs + sum_list_with (sz gs) (nq ++ V)) <= two32;
    md_O : dec -> (forall c, c ∈ cq -> (c.2 <= L)%Z) /\ (forall n a l s, n ∈ nq -> gs !! N.to_nat n = Some a -> (l, s) ∈ a_rest a -> (mx s <= L)%Z);
    md_F : front ns gs (nq ++ V) E }.
  (** The candidates, with their keys and values. *)
  Definition tags (gs : list ab) (cq : list cand) : list (N * (list N * N)) := cq ≫= fun c => map (pair c.1) (ct gs c).

  Lemma anc_q ns gs : (forall n a, gs !! N.to_nat n = Some a -> n <> 0 -> qd ns n = true -> qd ns (a_prev a) = true) ->
    forall m n, anc gs m n -> qd ns n = true -> qd ns m = true.
  Proof. intros HQ m n. induction 1 as [n|m n a Ha H0 H IH]; [done|]. intros Hq. apply IH. by apply (HQ n a). Qed.
  Lemma ns_none ns gs n : rel ns gs -> N.of_nat (length gs) <= n -> qd ns n = false.
  Proof. intros Hr Hn. unfold qd. rewrite lookup_ge_None_2; [done|]. rewrite (rel_len _ _ Hr). lia. Qed.
  Lemma expand_step ns gs n nq cq V L E : mid ns gs (n :: nq) cq V L E ->
    (rc_findSibling us g ns n = Ok (ns, None) /\ mid ns gs nq cq V L E) \/
    (exists ns1 i ns' gs' t cq' V', rc_findSibling us g ns n = Ok (ns1, Some i) /\ rc_findTerminal us g (S (S (length us))) ns1 i = Ok (ns', t) /\
       rc_enqueueCandidate us ns' cq t = Ok cq' /\ mid ns' gs' nq cq' V' L E /\
       exists x, (exists new, gs' = gs ++ new) /\ tags gs' cq' ≡ₚ (t, x) :: tags gs cq /\ N.of_nat (length gs) <= t < N.of_nat (length gs') /\ x ∈ rt gs n).
  Proof.
    intros M. pose proof (md_rel _ _ _ _ _ _ _ M) as Hr. pose proof (md_wf _ _ _ _ _ _ _ M) as HW.
    destruct (md_nq _ _ _ _ _ _ _ M n) as (a & Ha & Hn0 & Hnq); [constructor|]. pose proof (md_nqn _ _ _ _ _ _ _ M) as Hnd. apply NoDup_cons in Hnd as [Hnn Hnd].
    destruct (proj2 (proj2 (HW n a Ha)) Hn0) as (Hplt & am & es & pre & Ham & Hsub & Hoe & Hba & Hpa & Hdi).
    destruct (HW _ _ Ham) as (Hok & _). pose proof Hok as Hok'. unfold gok in Hok. rewrite Hsub in Hok. destruct Hok as [Hn Hl]. destruct (node_wfe _ _ Hn) as [Hw Hne].
    destruct (rel_at ns gs n a Hr Ha) as (x & Hx & Hxd & Hxp & Hxl & _). destruct (rel_at ns gs _ am Hr Ham) as (y & Hy & Hyd & _ & _ & _ & Hyt).
    assert (Hoin : forall e, e ∈ (a_label a, a_sub a) :: a_rest a -> e ∈ es).
    { intros e He. rewrite <- (oe_perm sort cmp Hs es Hw), Hoe. apply elem_of_app. by right. }
    assert (Htm : tm ns (a_prev a) = z0 (a_rest a)) by (apply (md_tm _ _ _ _ _ _ _ M n a); [constructor|done]).
    pose proof (md_par _ _ _ _ _ _ _ M n) as Hpar0. pose proof (md_V _ _ _ _ _ _ _ M) as HV. assert (HnV : n ∉ V) by (intros (? & _ & ?)%HV; congruence).
    unfold rc_findSibling. rewrite (get_N _ _ _ Hx). cbn [mbind res_bind]. rewrite Hxd, Hdi.
    rewrite (rg_sib _ _ _ _ _ HG (a_dict am) es (a_label a) (a_sub a) Hn (Hoin _ (elem_of_list_here _ _))). cbn [mbind res_bind].
    rewrite (nxt_oe sort cmp Hs es pre _ _ _ Hw Hoe), Hxp. rewrite (get_N _ _ _ Hy). cbn [mbind res_bind]. rewrite Hyt, Htm, Hyd.
    destruct (a_rest a) as [|[l s] rest] eqn:Hrest.
    - left. cbn. split; [done|]. constructor; try apply M.
      + intros m Hm. apply (md_nq _ _ _ _ _ _ _ M). by constructor.
      + done.
      + intros n1 n2 a1 a2 H1 H2. apply (md_par _ _ _ _ _ _ _ M); by constructor.
      + intros m b Hm. apply (md_tm _ _ _ _ _ _ _ M). by constructor.
      + rewrite <- (md_E _ _ _ _ _ _ _ M). cbn [app]. rewrite bind_cons. unfold rt at 2. rewrite Ha. unfold rout. rewrite Hrest. done.
      + pose proof (md_sz _ _ _ _ _ _ _ M) as H. cbn [app sum_list_with] in H. lia.
      + intros Hd. destruct (md_O _ _ _ _ _ _ _ M Hd) as [O1 O2]. split; [done|]. intros m b l s Hm. apply O2. by constructor.
      + apply (front_mono _ _ _ _ _ (md_F _ _ _ _ _ _ _ M)). intros m Hm. by constructor.
    - right. cbn [fmap list_fmap hd fst]. set (p := a_prev a) in *.
      assert (Hz : (l =? 0) && negb (z0 ((l, s) :: rest)) = false).
      { destruct (N.eqb_spec l 0) as [->|]; [|done]. unfold z0. rewrite bool_decide_eq_true_2; [done|]. constructor. }
      rewrite Hz. clear Hz.
      assert (H1 : exists ns1, (if l =? 0 then upd ns p clear_term else Ok ns) = Ok ns1 /\ rel ns1 gs /\ (forall m, qd ns1 m = qd ns m) /\
        (forall m, tm ns1 m = if m =? p then z0 rest else tm ns m)).
      { assert (Hz : (if l =? 0 then false else z0 ((l, s) :: rest)) = z0 rest).
        { pose proof (ord_nodup sort cmp Hs es Hw) as Hno. rewrite <- oe_labels, Hoe in Hno. rewrite fmap_app in Hno. apply NoDup_app in Hno as (_ & _ & Hno).
          cbn in Hno. apply NoDup_cons in Hno as [_ Hno]. apply NoDup_cons in Hno as [Hno _]. unfold z0. destruct (N.eqb_spec l 0) as [->|Hl0].
          - symmetry. by apply bool_decide_eq_false.
          - apply bool_decide_ext. cbn [fmap list_fmap fst]. rewrite elem_of_cons. naive_solver. }
        destruct (l =? 0).
        - destruct (clear_ok ns gs p am Hr Ham) as (ns1 & ? & ? & ? & Htm'). exists ns1. rewrite <- Hz. done.
        - exists ns. split; [done|]. split; [done|]. split; [done|]. intros m. destruct (N.eqb_spec m p) as [->|]; [congruence|done]. }
      destruct H1 as (ns1 & -> & Hr1 & Hq1 & Ht1). cbn [mbind res_bind].
      pose proof (md_sz _ _ _ _ _ _ _ M) as Hsz. cbn [app sum_list_with] in Hsz. unfold sz at 1 in Hsz. rewrite Ha, Hrest in Hsz. unfold nedges_es in Hsz. cbn [sum_list_with fst snd] in Hsz.
      assert (Hoe' : oe es = (pre ++ [(a_label a, a_sub a)]) ++ (l, s) :: rest) by (by rewrite Hoe, <- app_assoc).
      assert (Hin : (l, s) ∈ es) by (apply Hoin; right; constructor).
      destruct (kid_ok ns1 gs p am es _ l s rest Hr1 HW Ham Hsub Hoe') as (z & Hf & Hc & Hr2 & HW2 & Hzq & Hzt); [lia|].
      rewrite Hf. cbn [mbind res_bind]. rewrite Hc. cbn [mbind res_bind]. set (b := kid am p l s rest) in *. set (k := N.of_nat (length gs)) in *.
      pose proof (rel_len _ _ Hr1) as Hlen1. pose proof (lookup_lt_Some _ _ _ Ham) as Hpl.
      destruct (find_ok (S (S (length us))) (ns1 ++ [z]) (gs ++ [b]) k b) as (ns' & gs' & t & v & Hres & C0).
      { cbn [b kid a_sub]. pose proof (hgt_units us R node HN _ _ Hn). pose proof (hgt_in _ _ _ Hin). lia. }
      { done. }
      { done. }
      { rewrite look_app, N.eqb_refl. done. }
      { rewrite tm_app, Hlen1, N.eqb_refl. done. }
      { rewrite app_length. cbn [length b kid a_sub]. lia. }
      pose proof C0 as [C1 C2 (new & Enew) C4 C5 (at' & C6 & C6a & C6b) C7 C8 C9 C10 C11].
      exists (ns1 ++ [z]), k, ns', gs', t. rewrite !app_length in C5, C8, C10. cbn [length] in C5, C8, C10.
      assert (Hlg : (length gs < length gs')%nat) by (rewrite Enew, !app_length; cbn [length]; lia).
      assert (Hb : gs' !! N.to_nat k = Some b) by (rewrite Enew; apply look_old; rewrite look_app, N.eqb_refl; done).
      assert (Hold : forall m, m < k -> gs' !! N.to_nat m = gs !! N.to_nat m).
      { intros m Hm. rewrite Enew, <- app_assoc. apply lookup_app_l. lia. }
      assert (Hgsl : forall m c, gs !! N.to_nat m = Some c -> m < k) by (intros m c Hm%lookup_lt_Some; lia).
      assert (HQ' : forall m, qd ns' m = qd ns m) by (intros m; rewrite C4, qd_app by done; apply Hq1).
      assert (HT' : forall m, m < k -> m <> p -> tm ns' m = tm ns m).
      { intros m Hm Hmp. rewrite C5 by lia. rewrite tm_app, Hlen1, Ht1. destruct (N.eqb_spec m (N.of_nat (length gs))); [lia|]. destruct (N.eqb_spec m p); done. }
      assert (HTp : tm ns' p = z0 rest).
      { rewrite C5 by lia. rewrite tm_app, Hlen1, Ht1, N.eqb_refl. destruct (N.eqb_spec p (N.of_nat (length gs))); [lia|done]. }
      assert (Hancn : forall m c, anc gs m c -> anc gs' m c) by (intros m c H; rewrite Enew, <- app_assoc; by apply anc_app).
      assert (Hanco : forall m c, c < k -> anc gs' m c -> anc gs m c).
      { intros m c Hck H. rewrite Enew, <- app_assoc in H. by apply anc_old in H. }
      assert (NEW : forall m, m ∈ range gs gs' -> exists b', gs' !! N.to_nat m = Some b' /\ mx (a_sub b') = Z.of_N v /\ anc gs' m t /\ tm ns' (a_prev b') = z0 (a_rest b') /\
        a_prev b' = if m =? k then p else m - 1).
      { intros m Hm. rewrite (range_cons gs b gs' Hlg) in Hm. apply elem_of_cons in Hm as [->|Hm].
        - exists b. split; [done|]. split; [done|]. split; [done|]. split; [done|]. by rewrite N.eqb_refl.
        - pose proof Hm as Hm'. apply in_range in Hm'. rewrite app_length in Hm'. cbn [length] in Hm'. destruct (C10 m Hm) as (b' & ? & ? & ? & ? & Hp). exists b'.
          split; [done|]. split; [done|]. split; [done|]. split; [done|]. rewrite Hp.
          destruct (N.eqb_spec m (N.of_nat (length gs + 1))), (N.eqb_spec m k); lia. }
      assert (Htr : t ∈ range gs gs').
      { apply in_range. pose proof (anc_le _ _ _ C2 C9). apply lookup_lt_Some in C6. lia. }
      assert (HA : forall m c, anc gs' m c -> c ∈ range gs gs' -> m ∈ range gs gs' \/ anc gs' m p).
      { intros m c. induction 1 as [c|m c d Hd H0 H IH]; [by left|]. intros Hcr. destruct (NEW c Hcr) as (d' & Hd' & _ & _ & _ & Hp). rewrite Hd in Hd'. injection Hd' as <-.
        destruct (N.eqb_spec c k) as [->|Hck].
        - right. by rewrite Hp in H.
        - apply IH. rewrite Hp. apply in_range. apply in_range in Hcr. lia. }
      assert (Hpq : qd ns p = true) by (by apply (md_Q _ _ _ _ _ _ _ M n a)).
      pose proof (anc_q ns gs (md_Q _ _ _ _ _ _ _ M)) as Hancq.
      assert (Htg : gok at') by apply (C2 t at' C6). unfold gok in Htg. rewrite C6a in Htg. destruct Htg as (Htu & Hv & _).
      destruct (rel_at ns' gs' t at' C1 C6) as (xt & Hxt & Hxtd & _).
      destruct (Push_ok cand_less cand_weak cq (t, Z.of_N v) (md_hp _ _ _ _ _ _ _ M)) as (cq' & Hpush & Hcq' & Hhp).
      exists cq', (V ++ range gs gs'). split; [done|]. split; [done|]. split.
      { unfold rc_enqueueCandidate. rewrite (get_N _ _ _ Hxt). cbn [mbind res_bind]. rewrite Hxtd, (get_N _ _ _ Htu). cbn [mbind res_bind].
        rewrite setValue_value, Z.mod_small by lia. done. }
      assert (Hrn : rt gs n = nout b ++ rout b).
      { unfold rt. rewrite Ha. unfold rout. rewrite Hrest, ent_es_cons, pref_app, Hba. cbn [b kid a_base a_rest]. f_equal. symmetry. by apply (nout_kid am p es). }
      assert (HbE : forall kv, kv ∈ nout b -> kv ∈ E).
      { intros kv Hk. rewrite <- (md_E _ _ _ _ _ _ _ M). cbn [app]. rewrite bind_cons, Hrn. apply elem_of_app. right. apply elem_of_app. left. apply elem_of_app. by left. }
      split; [|exists (a_base at', v); split; [exists (b :: new); by rewrite Enew, <- app_assoc|]; split; [|split]].
      2: { unfold tags. rewrite Hcq', bind_cons. unfold ct at 1. cbn [fst]. rewrite C6. unfold nout at 1. rewrite C6a. cbn [map app]. constructor. apply Permutation_refl'.
           apply bind_ext'. intros c Hc'. destruct (md_cq _ _ _ _ _ _ _ M c Hc') as (ac & vc & Hac & _). unfold ct. rewrite Hold; [done|by eapply Hgsl]. }
      2: { apply in_range in Htr. lia. }
      2: { rewrite Hrn. apply elem_of_app. left. rewrite <- C6b. constructor. }
      assert (HFold : forall m c, m ∈ nq ++ V -> gs' !! N.to_nat m = Some c -> gs !! N.to_nat m = Some c /\ m < k /\ m ∈ (n :: nq) ++ V /\ m <> n).
      { intros m c Hm Hc'. assert (Hmk : m < k).
        { apply elem_of_app in Hm as [Hm|Hm].
          - destruct (md_nq _ _ _ _ _ _ _ M m) as (? & ? & _); [by constructor|]. by eapply Hgsl.
          - apply HV in Hm as (? & ? & _). by eapply Hgsl. }
        split; [by rewrite <- Hold|]. split; [done|]. split; [by constructor|]. intros ->. apply elem_of_app in Hm as [?|?]; done. }
      assert (Hprv : forall m c, m <> 0 -> gs !! N.to_nat m = Some c -> a_prev c < k).
      { intros m c H0 Hm. destruct (proj2 (proj2 (HW m c Hm)) H0) as [? _]. pose proof (Hgsl _ _ Hm). lia. }
      assert (HF0 : forall m, m ∈ nq ++ V -> m <> 0).
      { intros m [Hm|Hm]%elem_of_app.
        - destruct (md_nq _ _ _ _ _ _ _ M m) as (? & _ & ? & _); [by constructor|done].
        - intros ->. apply HV in Hm as (? & _ & ?). pose proof (md_0 _ _ _ _ _ _ _ M). congruence. }
      assert (Hpr : forall m c, m ∈ nq ++ V -> gs' !! N.to_nat m = Some c -> a_prev c <> p /\ a_prev c < k).
      { intros m c Hm Hc'. destruct (HFold m c Hm Hc') as (Hc0 & Hmk & HmF & Hmn). split; [|by eapply Hprv; [apply HF0|]].
        intros Ep. apply Hmn. symmetry. apply (Hpar0 m a c); [constructor|done|done|done|]. by symmetry. }
      constructor; try done.
      + intros m. rewrite elem_of_app, HV, in_range, HQ'. destruct (N.lt_ge_cases m k) as [Hm|Hm].
        * rewrite Hold by done. split; [intros [?|?]; [done|lia]|by left].
        * split.
          -- intros [(? & ? & _)|Hm']; [exfalso; by apply (N.lt_irrefl k), (N.le_lt_trans _ m); [|eapply Hgsl]|]. destruct (lookup_lt_is_Some_2 gs' (N.to_nat m)) as [c Hc']; [lia|].
             exists c. split; [done|]. by apply (ns_none ns gs).
          -- intros (c & Hc' & _). right. apply lookup_lt_Some in Hc'. lia.
      + apply NoDup_app. split; [apply M|]. split; [|apply range_nodup]. intros m Hm Hm'. apply HV in Hm as (? & ? & _). apply in_range in Hm'. pose proof (Hgsl _ _ H). lia.
      + intros m Hm. destruct (md_nq _ _ _ _ _ _ _ M m) as (c & Hc' & ?); [by constructor|]. exists c. rewrite HQ'. split; [|done]. rewrite Hold; [done|by eapply Hgsl].
      + rewrite HQ'. apply M.
      + assert (Hon : forall n1 n2 a1 a2, n1 ∈ nq ++ V -> n2 ∈ range gs gs' -> gs' !! N.to_nat n1 = Some a1 -> gs' !! N.to_nat n2 = Some a2 -> a_prev a1 <> a_prev a2).
        { intros n1 n2 a1 a2 H1 H2 E1 E2 Ep. destruct (NEW n2 H2) as (b' & E2' & _ & _ & _ & Hp). rewrite E2 in E2'. injection E2' as <-.
          destruct (Hpr n1 a1 H1 E1) as [P1 P2]. destruct (N.eqb_spec n2 k); [congruence|]. apply in_range in H2. lia. }
        intros n1 n2 a1 a2 H1 H2 E1 E2 Ep. rewrite app_assoc in H1, H2. apply elem_of_app in H1, H2. destruct H1 as [H1|H1], H2 as [H2|H2].
        * destruct (HFold _ _ H1 E1) as (E1' & _ & H1' & _). destruct (HFold _ _ H2 E2) as (E2' & _ & H2' & _). by apply (md_par _ _ _ _ _ _ _ M n1 n2 a1 a2).
        * by destruct (Hon n1 n2 a1 a2).
        * by destruct (Hon n2 n1 a2 a1).
        * destruct (NEW n1 H1) as (b1 & E1' & _ & _ & _ & Hp1). destruct (NEW n2 H2) as (b2 & E2' & _ & _ & _ & Hp2). rewrite E1 in E1'. rewrite E2 in E2'. injection E1' as <-. injection E2' as <-.
          rewrite Hp1, Hp2 in Ep. apply in_range in H1, H2. destruct (N.eqb_spec n1 k), (N.eqb_spec n2 k); lia.
      + intros m c Hm Hc'. rewrite app_assoc in Hm. apply elem_of_app in Hm as [Hm|Hm].
        * destruct (HFold _ _ Hm Hc') as (Hc0 & _ & HmF & _). destruct (Hpr _ _ Hm Hc') as [P1 P2]. rewrite HT' by done. by apply (md_tm _ _ _ _ _ _ _ M m).
        * destruct (NEW m Hm) as (c' & Hc2 & _ & _ & ? & _). congruence.
      + intros c Hc'. rewrite Hcq' in Hc'. apply elem_of_cons in Hc' as [->|Hc'].
        * exists at', v. split; [done|]. split; [done|]. split; [done|]. cbn. apply in_range in Htr. lia.
        * destruct (md_cq _ _ _ _ _ _ _ M c Hc') as (ac & vc & Hac & ?). exists ac, vc. split; [|done]. rewrite Hold; [done|by eapply Hgsl].
      + intros m [Hm|Hm]%elem_of_app.
        * destruct (md_K _ _ _ _ _ _ _ M m Hm) as (c & ? & ?). exists c. split; [rewrite Hcq'; by constructor|by apply Hancn].
        * exists (t, Z.of_N v). split; [rewrite Hcq'; constructor|]. by destruct (NEW m Hm) as (? & _ & _ & ? & _).
      + intros c m d Hc' Hm Hanc Hd. rewrite Hcq' in Hc'. apply elem_of_cons in Hc' as [->|Hc']; apply elem_of_app in Hm as [Hm|Hm]; cbn [fst snd] in *.
        * destruct (HA m t Hanc Htr) as [Hm'|Hm'].
          -- apply HV in Hm as (? & ? & _). apply in_range in Hm'. pose proof (Hgsl _ _ H). lia.
          -- apply Hanco in Hm'; [|lia]. pose proof (Hancq _ _ Hm' Hpq). apply HV in Hm as (? & _ & ?). congruence.
        * destruct (NEW m Hm) as (d' & Hd' & ? & _). congruence.
        * destruct (md_cq _ _ _ _ _ _ _ M c Hc') as (ac & vc & Hac & _). apply HV in Hm as Hm'. destruct Hm' as (dm & Hdm & _).
          apply (md_J _ _ _ _ _ _ _ M c m d Hc' Hm); [apply Hanco; [by eapply Hgsl|done]|]. rewrite <- Hold; [done|by eapply Hgsl].
        * destruct (md_cq _ _ _ _ _ _ _ M c Hc') as (ac & vc & Hac & _). pose proof (anc_le _ _ _ C2 Hanc). apply in_range in Hm. pose proof (Hgsl _ _ Hac). lia.
      + intros m c Hc' H0 Hq. rewrite HQ' in *. destruct (N.lt_ge_cases m k) as [Hm|Hm]; [|rewrite (ns_none ns gs) in Hq; done]. rewrite Hold in Hc' by done. by apply (md_Q _ _ _ _ _ _ _ M m c).
      + rewrite <- (md_E _ _ _ _ _ _ _ M). rewrite Hcq'. cbn [app]. rewrite !bind_cons. unfold ct at 1. cbn [fst]. rewrite C6. unfold nout at 1. rewrite C6a.
        rewrite (app_assoc nq V), (bind_app _ (nq ++ V)).
        rewrite (bind_ext' (ct gs') (ct gs) cq).
        2: { intros c Hc'. destruct (md_cq _ _ _ _ _ _ _ M c Hc') as (ac & vc & Hac & _). unfold ct. rewrite Hold; [done|by eapply Hgsl]. }
        rewrite (bind_ext' (rt gs') (rt gs) (nq ++ V)).
        2: { intros m Hm. unfold rt. rewrite Hold; [done|]. destruct (gs' !! N.to_nat m) as [c|] eqn:Hc'; [by apply (HFold m c)|].
             apply lookup_ge_None in Hc'. apply elem_of_app in Hm as [Hm|Hm].
             - destruct (md_nq _ _ _ _ _ _ _ M m) as (? & ? & _); [by constructor|]. by eapply Hgsl.
             - apply HV in Hm as (? & ? & _). by eapply Hgsl. }
        rewrite (range_cons gs b gs' Hlg), bind_cons. unfold rt at 2. fold k. rewrite Hb.
        rewrite Hrn, <- C6b. clear. set (X := cq ≫= ct gs). set (Y := (nq ++ V) ≫= rt gs). set (Z := range (gs ++ [b]) gs' ≫= rt gs'). set (W := rout b).
        cbn [app]. rewrite <- Permutation_middle. constructor. apply Permutation_app_head. rewrite (Permutation_app_comm Y). rewrite (Permutation_app_comm Z W). done.
      + rewrite (app_assoc nq V), sum_list_with_app. rewrite (sum_ext (sz gs') (sz gs) (nq ++ V)).
        2: { intros m Hm. unfold sz. rewrite Hold; [done|]. apply elem_of_app in Hm as [Hm|Hm].
             - destruct (md_nq _ _ _ _ _ _ _ M m) as (? & ? & _); [by constructor|]. by eapply Hgsl.
             - apply HV in Hm as (? & ? & _). by eapply Hgsl. }
        rewrite (range_cons gs b gs' Hlg). cbn [sum_list_with]. unfold sz at 2. fold k. rewrite Hb. cbn [b kid a_rest]. unfold nedges_es. cbn [b kid a_sub] in C8. lia.
      + intros Hd. destruct (md_O _ _ _ _ _ _ _ M Hd) as [O1 O2]. split.
        * intros c Hc'. rewrite Hcq' in Hc'. apply elem_of_cons in Hc' as [->|Hc']; [|by apply O1]. cbn [snd]. rewrite <- C7. cbn [b kid a_sub].
          apply (O2 n a l s); [constructor|done|rewrite Hrest; constructor].
        * intros m c l' s' Hm Hc'. apply (O2 m c l' s'); [by constructor|]. rewrite <- Hold; [done|]. destruct (md_nq _ _ _ _ _ _ _ M m) as (? & ? & _); [by constructor|]. by eapply Hgsl.
      + assert (HF1 : front (ns1 ++ [z]) (gs ++ [b]) ((nq ++ V) ++ [k]) E).
        { apply (front_kid ns gs n a am es pre l s rest); [done|done|apply M|by rewrite not_elem_of_app|done|done|done|done|by rewrite Hrest|done|intros m; rewrite qd_app by done; apply Hq1|
            intros m; by apply ns_none|done]. }
        assert (Heq : nq ++ V ++ range gs gs' = ((nq ++ V) ++ [k]) ++ range (gs ++ [b]) gs').
        { rewrite (range_cons gs b gs' Hlg). fold k. by rewrite <- !app_assoc. }
        rewrite Heq. apply (front_chain (ns1 ++ [z]) (gs ++ [b]) k b ns' gs' t v _ _ HW2 C0 HF1).
        * rewrite look_app. fold k. by rewrite N.eqb_refl.
        * intros m c Hc' H0 Hpk. pose proof (prev_lt _ m c HW2 Hc' H0). apply lookup_lt_Some in Hc'. rewrite app_length in Hc'. cbn [length] in Hc'. lia.
        * intros m Hm. apply (ns_none _ (gs ++ [b])); [done|lia].
        * done.
  Qed.

  (** The new candidates: siblings of the nodes of the queue, in its order. *)
  Definition grown (gs gs' : list ab) (nq : list N) (nc : list (N * (list N * N))) : Prop :=
    (exists new, gs' = gs ++ new) /\ (forall j x, (j, x) ∈ nc -> N.of_nat (length gs) <= j < N.of_nat (length gs') /\ exists n, n ∈ nq /\ x ∈ rt gs n) /\
    forall j1 x1 j2 x2, (j1, x1) ∈ nc -> (j2, x2) ∈ nc -> j1 < j2 -> exists l1 n1 l2 n2 l3, nq = l1 ++ n1 :: l2 ++ n2 :: l3 /\ x1 ∈ rt gs n1 /\ x2 ∈ rt gs n2.
  Lemma expand_ok value nq : (value <> -1)%Z -> forall ns gs cq V L E, mid ns gs nq cq V L E ->
    exists ns' gs' cq' V' nc, rc_expand us g value nq ns cq = Ok (ns', cq') /\ mid ns' gs' [] cq' V' L E /\ tags gs' cq' ≡ₚ nc ++ tags gs cq /\ grown gs gs' nq nc.
  Proof.
    intros Hv. induction nq as [|n nq IH]; intros ns gs cq V L E M.
    { exists ns, gs, cq, V, []. split; [done|]. split; [done|]. split; [done|]. split; [exists []; by rewrite app_nil_r|]. split; intros j x; [|intros ? ?]; intros Hx; by apply elem_of_nil in Hx. }
    cbn [rc_expand]. apply Z.eqb_neq in Hv. rewrite Hv. cbn [negb]. apply Z.eqb_neq in Hv.
    destruct (expand_step ns gs n nq cq V L E M) as [(-> & M')|(ns1 & i & ns1' & gs1 & t & cq1 & V1 & -> & H2 & H3 & M' & x & (new1 & E1) & Hx1 & Ht & Hxn)]; cbn [mbind res_bind].
    - destruct (IH _ _ _ _ _ _ M') as (ns' & gs' & cq' & V' & nc & H1 & H2 & H3 & (H4 & H5 & H6)). exists ns', gs', cq', V', nc. split; [done|]. split; [done|]. split; [done|]. split; [done|]. split.
      + intros j x Hx. destruct (H5 j x Hx) as (? & n' & ? & ?). split; [done|]. exists n'. split; [by constructor|done].
      + intros j1 x1 j2 x2 Hj1 Hj2 Hj. destruct (H6 _ _ _ _ Hj1 Hj2 Hj) as (l1 & n1 & l2 & n2 & l3 & -> & ? & ?). by exists (n :: l1), n1, l2, n2, l3.
    - rewrite H2. cbn [mbind res_bind]. rewrite H3. cbn [mbind res_bind].
      assert (Hrt : forall n', n' ∈ nq -> rt gs1 n' = rt gs n').
      { intros n' Hn'. rewrite E1. apply rt_old. destruct (md_nq _ _ _ _ _ _ _ M n') as (c & Hc & _); [by constructor|]. apply lookup_lt_Some in Hc. lia. }
      destruct (IH _ _ _ _ _ _ M') as (ns' & gs' & cq' & V' & nc & G1 & G2 & G3 & ((new2 & E2) & G5 & G6)). exists ns', gs', cq', V', (nc ++ [(t, x)]).
      assert (Hl1 : (length gs <= length gs1)%nat) by (rewrite E1, app_length; lia). assert (Hl2 : (length gs1 <= length gs')%nat) by (rewrite E2, app_length; lia).
      split; [done|]. split; [done|]. split; [by rewrite G3, Hx1, <- app_assoc|]. split; [exists (new1 ++ new2); by rewrite E2, E1, <- app_assoc|]. split.
      + intros j y [Hy|Hy%elem_of_list_singleton]%elem_of_app.
        * destruct (G5 j y Hy) as (? & n' & ? & Hyn). split; [lia|]. exists n'. split; [by constructor|]. by rewrite <- Hrt.
        * injection Hy as -> ->. split; [lia|]. exists n. split; [constructor|done].
      + intros j1 x1 j2 x2 [Hj1|Hj1%elem_of_list_singleton]%elem_of_app [Hj2|Hj2%elem_of_list_singleton]%elem_of_app Hj.
        * destruct (G6 _ _ _ _ Hj1 Hj2 Hj) as (l1 & n1 & l2 & n2 & l3 & -> & R1 & R2). exists (n :: l1), n1, l2, n2, l3. split; [done|]. rewrite <- !Hrt; [done|..].
          -- apply elem_of_app. right. right. apply elem_of_app. right. left.
          -- apply elem_of_app. right. left.
        * injection Hj2 as -> ->. destruct (G5 _ _ Hj1) as (? & _). lia.
        * injection Hj1 as -> ->. destruct (G5 _ _ Hj2) as (? & n' & Hn' & Hy). apply elem_of_list_split in Hn' as (l2 & l3 & ->). exists [], n, l2, n', l3. split; [done|]. split; [done|].
          rewrite <- Hrt; [done|]. apply elem_of_app. right. left.
        * injection Hj1 as -> ->. injection Hj2 as -> ->. lia.
  Qed.

  (** *** Up to the start *)
  Lemma up_ok gs (HW : gwf gs) fuel : forall ns nq path i a, rel ns gs -> gs !! N.to_nat i = Some a -> (N.to_nat i <= fuel)%nat ->
    exists ns' new labs, rc_up fuel ns nq path i = Ok (ns', nq ++ new, path ++ labs) /\ rel ns' gs /\ (forall m, tm ns' m = tm ns m) /\
      (forall m, qd ns' m = true <-> qd ns m = true \/ (m <> 0 /\ anc gs m i)) /\ NoDup new /\
      (forall m, m ∈ new <-> m <> 0 /\ anc gs m i /\ qd ns m = false) /\ rev labs = a_path a /\ StronglySorted (fun a b => b < a) new.
  Proof.
    assert (Ha0 : forall m, anc gs m 0 -> m = 0) by (intros m Hm; pose proof (anc_le _ _ _ HW Hm); lia).
    assert (H00 : forall fuel ns nq path a, rel ns gs -> gs !! N.to_nat 0 = Some a -> exists ns' new labs, rc_up fuel ns nq path 0 = Ok (ns', nq ++ new, path ++ labs) /\ rel ns' gs /\ (forall m, tm ns' m = tm ns m) /\
      (forall m, qd ns' m = true <-> qd ns m = true \/ (m <> 0 /\ anc gs m 0)) /\ NoDup new /\
      (forall m, m ∈ new <-> m <> 0 /\ anc gs m 0 /\ qd ns m = false) /\ rev labs = a_path a /\ StronglySorted (fun a b => b < a) new).
    { clear fuel. intros fuel ns nq path a Hr Ha. exists ns, [], []. rewrite !app_nil_r. split; [by destruct fuel|]. split; [done|]. split; [done|].
      split; [intros m; split; [by left|intros [?|[? ?%Ha0]]; done]|]. split; [apply NoDup_nil_2|]. split.
      - intros m. rewrite elem_of_nil. split; [done|intros (? & ?%Ha0 & _); done].
      - destruct (HW 0 a Ha) as (_ & H0 & _). destruct H0 as [-> _]; [done|]. split; [done|constructor]. }
    induction fuel as [|fuel IH]; intros ns nq path i a Hr Ha Hf; (destruct (N.eqb_spec i 0) as [->|Hi]; [by apply H00|]); [lia|].
    cbn [rc_up]. apply N.eqb_neq in Hi. rewrite Hi. apply N.eqb_neq in Hi. destruct (rel_at ns gs i a Hr Ha) as (x & Hx & _ & Hxp & Hxl & _).
    rewrite (get_N _ _ _ Hx). cbn [mbind res_bind]. destruct (enq_ok ns gs nq i a Hr Ha) as (ns1 & -> & Hr1 & Hq1 & Ht1). cbn [mbind res_bind]. rewrite Hxp, Hxl.
    destruct (proj2 (proj2 (HW i a Ha)) Hi) as (Hplt & am & es & pre & Ham & _ & _ & _ & Hpa & _).
    destruct (IH ns1 (nq ++ if qd ns i then [] else [i]) (path ++ [a_label a]) (a_prev a) am Hr1 Ham) as (ns' & new & labs & -> & Hr' & Ht' & Hq' & Hnd & Hnew & Hlab & Hsort); [lia|].
    assert (HA : forall m, anc gs m i <-> m = i \/ anc gs m (a_prev a)).
    { intros m. split.
      - inversion 1 as [|m' n' b Hb H0 Hanc]; subst; [by left|]. right. congruence.
      - intros [->|H]; [constructor|]. by apply (anc_up _ _ _ a). }
    exists ns', ((if qd ns i then [] else [i]) ++ new), (a_label a :: labs). rewrite <- !app_assoc. split; [done|]. split; [done|]. split; [intros m; by rewrite Ht', Ht1|]. split; [|split; [|split]].
    - intros m. rewrite Hq', Hq1, orb_true_iff, N.eqb_eq, HA. naive_solver.
    - destruct (qd ns i) eqn:E; [done|]. apply NoDup_cons. split; [|done]. rewrite Hnew, Hq1, N.eqb_refl. cbn. naive_solver.
    - intros m. rewrite elem_of_app, Hnew, Hq1, orb_false_iff, N.eqb_neq, HA. destruct (decide (m = i)) as [->|Hmi].
      + destruct (qd ns i) eqn:E; rewrite ?elem_of_nil, ?elem_of_list_singleton; naive_solver.
      + destruct (qd ns i); rewrite ?elem_of_nil, ?elem_of_list_singleton; naive_solver.
    - cbn [rev]. split; [by rewrite Hlab, Hpa|]. destruct (qd ns i); [done|]. constructor; [done|]. apply Forall_forall. intros m (_ & Hm & _)%Hnew. apply (anc_le _ _ _ HW) in Hm. lia.
  Qed.

  Lemma shared_at x y l l' a b : x = a ++ l :: b -> l <> l' -> a ++ [l'] `prefix_of` y -> shared x y = length a.
  Proof.
    intros -> Hl [z ->]. rewrite <- app_assoc. cbn [app]. induction a as [|c a IH]; cbn; [by apply N.eqb_neq in Hl as ->|]. rewrite N.eqb_refl. by f_equal.
  Qed.
  Lemma prefix_len {A} (x y z : list A) : x `prefix_of` z -> y `prefix_of` z -> (length x <= length y)%nat -> x `prefix_of` y.
  Proof. intros H1 H2 Hl. destruct (prefix_weak_total x y z H1 H2) as [H|[t ->]]; [done|]. rewrite app_length in Hl. destruct t; [by rewrite app_nil_r|cbn in Hl; lia]. Qed.
  (** The siblings after a node above a terminal part from its key there. *)
  Lemma rest_shared gs n b t a v x : gwf gs -> gs !! N.to_nat n = Some b -> n <> 0 -> gs !! N.to_nat t = Some a -> a_sub a = Leaf v -> anc gs n t -> x ∈ rout b ->
    shared (x.1 ++ [0]) (a_base a ++ [0]) = length (a_base b) /\ a_path b `prefix_of` a_base a ++ [0] /\ length (a_path b) = S (length (a_base b)).
  Proof.
    intros HW Hb Hn0 Ha Hsub Hanc Hx. destruct (proj2 (proj2 (HW n b Hb)) Hn0) as (_ & bm & es & pre & Hbm & Hbs & Hoe & Hbb & Hbp & _).
    destruct (HW _ _ Hbm) as (Hok & _). unfold gok in Hok. rewrite Hbs in Hok. destruct Hok as [Hn _]. destruct (node_wfe _ _ Hn) as [Hw _].
    assert (Hpp : a_path b `prefix_of` a_base a ++ [0]).
    { apply (nout_path gs n b (a_base a, v) HW Hb). apply (nout_anc gs n t a b); try done. unfold nout. rewrite Hsub. constructor. }
    split; [|split; [done|rewrite Hbp, Hbb, app_length; cbn; lia]].
    unfold rout in Hx. apply pref_in in Hx as (kv' & Hk & ->). cbn [fst]. apply elem_ent_es in Hk as ([l' s'] & Hl & Hk).
    pose proof (ord_nodup sort cmp Hs es Hw) as Hnd. rewrite <- oe_labels, Hoe, fmap_app in Hnd. apply NoDup_app in Hnd as (_ & _ & Hnd). cbn in Hnd. apply NoDup_cons in Hnd as [Hni _].
    destruct (ent_e_at l' s' es kv' Hw) as [t' Ht']; [rewrite <- (oe_perm sort cmp Hs es Hw), Hoe; apply elem_of_app; right; by constructor|done|].
    apply (shared_at _ _ l' (a_label b) (a_base b) t').
    - by rewrite <- app_assoc, Ht'.
    - intros ->. apply Hni. apply elem_of_list_fmap. by exists (a_label b, s').
    - by rewrite Hbb, <- Hbp.
  Qed.

  (** *** Which keys are candidates *)
  Lemma node_tnode ns gs F E : gwf gs -> front ns gs F E -> forall n a es, gs !! N.to_nat n = Some a -> a_sub a = Node es -> tnode es0 (a_path a) es.
  Proof.
    intros HW HF n. induction (N.lt_wf_0 n) as [n _ IH]. intros a es Ha Hsub. destruct (HW n a Ha) as (_ & H0 & H1). destruct (decide (n = 0)) as [->|E0].
    - destruct (fr_0 _ _ _ _ HF) as (a0 & Ha0 & Hs0). rewrite Ha in Ha0. injection Ha0 as <-. rewrite Hsub in Hs0. injection Hs0 as ->. destruct (H0 eq_refl) as [-> _]. constructor.
    - destruct (H1 E0) as (Hlt & am & es' & pre & Ham & Hsub' & Hoe & _ & Hpa & _). rewrite Hpa. apply (tnode_app _ _ es'); [by apply (IH _ Hlt am)|].
      destruct (HW _ _ Ham) as (Hok & _). unfold gok in Hok. rewrite Hsub' in Hok. destruct Hok as [Hn _]. destruct (node_wfe _ _ Hn) as [Hw _].
      eapply tn_step; [|constructor]. rewrite <- Hsub, <- (oe_perm sort cmp Hs es' Hw), Hoe. apply elem_of_app. right. constructor.
  Qed.
  Lemma path_node gs : gwf gs -> forall t a q, gs !! N.to_nat t = Some a -> q `prefix_of` a_path a -> exists n b, gs !! N.to_nat n = Some b /\ a_path b = q.
  Proof.
    intros HW t. induction (N.lt_wf_0 t) as [t _ IH]. intros a q Ha Hq. destruct (decide (q = a_path a)) as [->|Hne]; [by exists t, a|].
    destruct (HW t a Ha) as (_ & H0 & H1). destruct (decide (t = 0)) as [E0|E0].
    - destruct (H0 E0) as [Hn _]. rewrite Hn in Hq, Hne. by apply prefix_nil_inv in Hq.
    - destruct (H1 E0) as (Hlt & am & es & pre & Ham & _ & _ & _ & Hpa & _). rewrite Hpa in Hq, Hne. apply prefix_snoc in Hq as [Hq|Hq]; [|done]. by apply (IH _ Hlt am).
  Qed.
  Lemma leaf_path gs t a v : gwf gs -> gs !! N.to_nat t = Some a -> a_sub a = Leaf v -> t <> 0 -> a_path a = a_base a ++ [0].
  Proof.
    intros HW Ha Hsub H0. destruct (HW t a Ha) as (Hok & _ & H1). unfold gok in Hok. rewrite Hsub in Hok. destruct Hok as (_ & _ & Hl). destruct (H1 H0) as (_ & am & es & pre & _ & _ & _ & Hb & Hp & _).
    by rewrite Hp, Hb, Hl.
  Qed.
  Lemma tags_in ns gs nq cq V L E j x : mid ns gs nq cq V L E -> (j, x) ∈ tags gs cq <-> exists c a v, c ∈ cq /\ j = c.1 /\ gs !! N.to_nat c.1 = Some a /\ a_sub a = Leaf v /\ x = (a_base a, v).
  Proof.
    intros M. unfold tags. rewrite elem_of_list_bind. split.
    - intros (c & Hx & Hc). destruct (md_cq _ _ _ _ _ _ _ M c Hc) as (a & v & Ha & Hsub & _). exists c, a, v. unfold ct in Hx. rewrite Ha in Hx. unfold nout in Hx. rewrite Hsub in Hx. cbn [map] in Hx.
      apply elem_of_list_singleton in Hx. injection Hx as -> ->. done.
    - intros (c & a & v & Hc & -> & Ha & Hsub & ->). exists c. split; [|done]. unfold ct. rewrite Ha. unfold nout. rewrite Hsub. constructor.
  Qed.
  Lemma tags_snd gs cq : (tags gs cq).*2 = cq ≫= ct gs.
  Proof.
    induction cq as [|c cq IH]; [done|]. unfold tags. rewrite !bind_cons, fmap_app. fold (tags gs cq). rewrite IH. f_equal. change (map ?f ?l) with (f <$> l). rewrite <- list_fmap_compose.
    transitivity (id <$> ct gs c); [by apply list_fmap_ext|apply list_fmap_id].
  Qed.
  Definition topen (E : list (list N * N)) (x : list N * N) : Prop := forall q es pre l s rest e, tnode es0 q es -> oe es = pre ++ (l, s) :: rest -> q ++ [l] `prefix_of` x.1 ++ [0] -> e ∈ pre ->
    exists kv, kv ∈ pref q (ent_e e) /\ kv ∉ E.
  Lemma mid_open ns gs cq V L E : mid ns gs [] cq V L E -> NoDup E /\ NoDup (tags gs cq).*2 /\ forall x, x ∈ (tags gs cq).*2 <-> x ∈ E /\ topen E x.
  Proof.
    intros M. pose proof (md_wf _ _ _ _ _ _ _ M) as HW. pose proof (md_F _ _ _ _ _ _ _ M) as HF. pose proof (fr_nd _ _ _ _ HF) as Hnd. split; [done|].
    pose proof (md_E _ _ _ _ _ _ _ M) as HE. cbn [app] in HE. rewrite <- tags_snd in HE. split.
    { rewrite <- HE in Hnd. by apply NoDup_app in Hnd as [? _]. }
    assert (Hw0 : wfe es0).
    { destruct (fr_0 _ _ _ _ HF) as (a0 & Ha0 & Hs0). destruct (HW _ _ Ha0) as (Hok & _). unfold gok in Hok. rewrite Hs0 in Hok. destruct Hok as [Hn _]. by apply node_wfe in Hn as [? _]. }
    intros x. split.
    - intros Hx. split; [rewrite <- HE; apply elem_of_app; by left|]. apply elem_of_list_fmap in Hx as ([j x'] & -> & Hx). cbn [snd].
      apply (tags_in ns gs [] cq V L E _ _ M) in Hx as (c & a & v & Hc & -> & Ha & Hsub & ->). destruct (md_cq _ _ _ _ _ _ _ M c Hc) as (_ & _ & _ & _ & _ & Hc0).
      intros q es pre l s rest e Ht Hoe Hp He. cbn [fst] in Hp. rewrite <- (leaf_path gs c.1 a v HW Ha Hsub Hc0) in Hp.
      destruct (path_node gs HW c.1 a _ Ha Hp) as (n & b & Hb & Hbp). destruct (HW n b Hb) as (_ & H0 & H1). destruct (decide (n = 0)) as [E0|E0].
      { destruct (H0 E0) as [Hn _]. rewrite Hn in Hbp. by destruct q. }
      destruct (H1 E0) as (_ & am & es' & pre' & Ham & Hams & Hoe' & _ & Hpa & _). rewrite Hpa in Hbp. apply app_inj_2 in Hbp as [Hq Hl]; [|done]. injection Hl as Hl.
      pose proof (node_tnode ns gs _ E HW HF _ am es' Ham Hams) as Ht'. rewrite Hq in Ht'. pose proof (tnode_fun _ _ _ _ Hw0 Ht Ht') as <-.
      destruct (tnode_wf _ _ _ Hw0 Ht) as [Hw _]. rewrite Hl in Hoe'. destruct (oe_at es l s (a_sub b) pre rest pre' (a_rest b) Hw Hoe Hoe') as (-> & -> & ->).
      rewrite <- Hq. apply (fr_pre _ _ _ _ HF n b am es pre' e Hb E0 Ham Hams); [by rewrite Hl|done].
    - intros [Hx Ho]. rewrite <- HE in Hx. apply elem_of_app in Hx as [Hx|Hx]; [done|]. exfalso. apply elem_of_list_bind in Hx as (n & Hx & Hn).
      apply (md_V _ _ _ _ _ _ _ M) in Hn as (b & Hb & Hq). unfold rt in Hx. rewrite Hb in Hx. destruct (HW n b Hb) as (_ & H0 & H1). destruct (decide (n = 0)) as [E0|E0].
      { destruct (H0 E0) as [_ Hr]. unfold rout in Hx. rewrite Hr in Hx. by apply elem_of_nil in Hx. }
      destruct (H1 E0) as (_ & am & es & pre & Ham & Hams & Hoe & Hba & Hpa & _).
      pose proof (node_tnode ns gs _ E HW HF _ am es Ham Hams) as Ht. destruct (tnode_wf _ _ _ Hw0 Ht) as [Hw _].
      unfold rout in Hx. apply pref_in in Hx as (kv & Hk & ->). apply elem_ent_es in Hk as ([l s] & Hl & Hk).
      destruct (ent_e_at l s es kv Hw) as [t' Ht']; [rewrite <- (oe_perm sort cmp Hs es Hw), Hoe; apply elem_of_app; right; by constructor|done|].
      apply elem_of_list_split in Hl as (r1 & r2 & Hr). rewrite Hr in Hoe.
      destruct (Ho (a_path am) es (pre ++ (a_label b, a_sub b) :: r1) l s r2 (a_label b, a_sub b) Ht) as (kv' & Hk' & HkE).
      + by rewrite Hoe, <- app_assoc.
      + cbn [fst]. exists t'. rewrite Hba, <- !app_assoc. by rewrite Ht'.
      + apply elem_of_app. right. left.
      + apply HkE. apply (fr_v _ _ _ _ HF n b kv' Hb Hq). by rewrite (nout_ed gs n b am es HW Hb E0 Ham Hams).
  Qed.

  (** *** Next *)
  Section start.
  Context (p : list N).
  Definition readyq (c : rcomp) (L : Z) (E : list (list N * N)) (Q : list (N * (list N * N))) : Prop :=
    length p = rc_plen c /\ take (rc_plen c) (rc_path c) = p /\
    exists ns gs cq V, rc_expand us g (rc_value c) (rc_nq c) (rc_nodes c) (rc_cq c) = Ok (ns, cq) /\ mid ns gs [] cq V L E /\ Q = tags gs cq.
  Definition ready (c : rcomp) (L : Z) (E : list (list N * N)) : Prop := exists Q, readyq c L E Q.
  Lemma Next_full c L E Q : readyq c L E Q ->
    (E = [] /\ exists c', rc_Next us g c = Ok (false, c') /\ readyq c' L [] Q /\ rc_path c' = rc_path c /\ rc_value c' = rc_value c) \/
    (exists k v E' c' i Q0 New Q', E ≡ₚ (k, v) :: E' /\ rc_Next us g c = Ok (true, c') /\ rc_path c' = p ++ k ++ [0] /\ rc_value c' = Z.of_N v /\
      (dec -> (Z.of_N v <= L)%Z) /\ readyq c' (Z.of_N v) E' Q' /\
      (forall ns cq, rc_expand us g (rc_value c) (rc_nq c) (rc_nodes c) (rc_cq c) = Ok (ns, cq) -> exists t, (t, Z.of_N v) ∈ cq) /\
      Q ≡ₚ (i, (k, v)) :: Q0 /\ Q' ≡ₚ New ++ Q0 /\ (forall j x, (j, x) ∈ Q0 -> x.2 < v \/ (x.2 = v /\ j <= i)) /\ (forall j x j' x', (j, x) ∈ New -> (j', x') ∈ Q -> j' < j) /\
      forall j1 x1 j2 x2, (j1, x1) ∈ New -> (j2, x2) ∈ New -> j1 < j2 -> (shared (x2.1 ++ [0%N]) (k ++ [0%N]) < shared (x1.1 ++ [0%N]) (k ++ [0%N]))%nat).
  Proof.
    intros (Hp1 & Hp2 & ns & gs & cq & V & Hex & M & ->). pose proof (md_V _ _ _ _ _ _ _ M) as HV. pose proof (md_wf _ _ _ _ _ _ _ M) as HW.
    unfold rc_Next. rewrite Hex. cbn [mbind res_bind]. destruct cq as [|c0 cq0] eqn:Ecq.
    - left. assert (HVn : V = []).
      { destruct V as [|m V]; [done|]. destruct (md_K _ _ _ _ _ _ _ M m) as (c1 & Hc1 & _); [constructor|]. by apply elem_of_nil in Hc1. }
      subst V. pose proof (md_E _ _ _ _ _ _ _ M) as HE. cbn in HE. apply Permutation_nil_l in HE. split; [done|]. eexists. split; [done|]. split; [|done].
      split; [done|]. split; [done|]. cbn [rc_value rc_nq rc_nodes rc_cq rc_expand]. exists ns, gs, [], []. split; [done|]. split; [by subst E|done].
    - rewrite <- Ecq in *. assert (Hcin : c0 ∈ cq) by (rewrite Ecq; constructor). right.
      destruct (md_cq _ _ _ _ _ _ _ M c0 Hcin) as (a & v & Ha & Hsub & Hcv & Hc0).
      destruct (enq_ok ns gs [] c0.1 a (md_rel _ _ _ _ _ _ _ M) Ha) as (ns1 & -> & Hr1 & Hq1 & Ht1). cbn [mbind res_bind app].
      destruct (rel_at ns1 gs c0.1 a Hr1 Ha) as (x & Hx & _ & Hxp & _). rewrite (get_N _ _ _ Hx). cbn [mbind res_bind].
      assert (Hpl : (length (rc_path c) <? rc_plen c)%nat = false).
      { apply Nat.ltb_ge. rewrite <- Hp1, <- Hp2, take_length. lia. }
      rewrite Hpl, Hxp. destruct (proj2 (proj2 (HW c0.1 a Ha)) Hc0) as (Hplt & am & es & pre & Ham & Hams & Hoe & Hba & _).
      destruct (up_ok gs HW (length ns1) ns1 (if qd ns c0.1 then [] else [c0.1]) [] (a_prev a) am Hr1 Ham) as (ns' & new & labs & Hup & Hr' & Ht' & Hq' & Hnd & Hnew & Hlab & Hsort).
      { apply lookup_lt_Some in Ham. rewrite (rel_len _ _ Hr1). lia. }
      rewrite Hup. cbn [mbind res_bind app].
      destruct (Pop_ok cand_less cand_weak cq (md_hp _ _ _ _ _ _ _ M)) as (c1 & cq' & Hpop & Htop & Hcq & Hhp); [congruence|].
      assert (c1 = c0) as -> by (rewrite Ecq in Htop; cbn in Htop; congruence).
      rewrite Hpop. cbn [mbind res_bind]. set (nq' := (if qd ns c0.1 then [] else [c0.1]) ++ new) in *.
      assert (HA : forall m, anc gs m c0.1 <-> m = c0.1 \/ anc gs m (a_prev a)).
      { intros m. split.
        - inversion 1 as [|m' n' b Hb H0 Hanc]; subst; [by left|]. right. congruence.
        - intros [->|H]; [constructor|]. by apply (anc_up _ _ _ a). }
      assert (HQ : forall m, qd ns' m = true <-> qd ns m = true \/ (m <> 0 /\ anc gs m c0.1)).
      { intros m. rewrite Hq', Hq1, orb_true_iff, N.eqb_eq, HA. naive_solver. }
      assert (HN' : forall m, m ∈ nq' <-> m <> 0 /\ anc gs m c0.1 /\ qd ns m = false).
      { intros m. unfold nq'. rewrite elem_of_app, Hnew, Hq1, orb_false_iff, N.eqb_neq, HA. destruct (decide (m = c0.1)) as [->|Hmi].
        - destruct (qd ns c0.1) eqn:E0; rewrite ?elem_of_nil, ?elem_of_list_singleton; naive_solver.
        - destruct (qd ns c0.1); rewrite ?elem_of_nil, ?elem_of_list_singleton; naive_solver. }
      assert (HNd : NoDup nq').
      { unfold nq'. destruct (qd ns c0.1) eqn:E0; [done|]. apply NoDup_cons. split; [|done]. rewrite Hnew, Hq1, N.eqb_refl. cbn. naive_solver. }
      set (V' := filter (fun m => qd ns' m = false) V).
      assert (HV0 : 0 ∉ V) by (intros (? & _ & ?)%HV; pose proof (md_0 _ _ _ _ _ _ _ M); congruence).
      assert (Hlook : forall m, anc gs m c0.1 -> exists b, gs !! N.to_nat m = Some b).
      { intros m Hm%(anc_le _ _ _ HW). apply lookup_lt_is_Some_2. apply lookup_lt_Some in Ha. lia. }
      assert (Hperm : nq' ++ V' ≡ₚ V).
      { apply NoDup_Permutation.
        - apply NoDup_app. split; [done|]. split; [|apply NoDup_filter, M]. intros m Hm Hm'. apply HN' in Hm as (? & ? & ?). apply elem_of_list_filter in Hm' as [Hm' _].
          assert (qd ns' m = true) by (apply HQ; by right). congruence.
        - apply M.
        - intros m. rewrite elem_of_app, HN'. unfold V'. rewrite elem_of_list_filter. split.
          + intros [(? & Hanc & ?)|[_ ?]]; [|done]. apply HV. destruct (Hlook m Hanc) as [b ?]. by exists b.
          + intros Hm. destruct (qd ns' m) eqn:Eq; [|by right]. left. apply HV in Hm as Hm'. destruct Hm' as (_ & _ & Hm'). apply HQ in Eq as [?|[? ?]]; [congruence|done]. }
      assert (HF : forall m, m ∈ nq' ++ V' -> m ∈ [] ++ V) by (intros m; by rewrite Hperm).
      assert (Hsubq : forall c1, c1 ∈ cq' -> c1 ∈ cq) by (intros c1 Hc1; rewrite Hcq; by constructor).
      set (E' := (cq' ≫= ct gs) ++ ((nq' ++ V') ≫= rt gs)).
      assert (HE' : E ≡ₚ (a_base a, v) :: E').
      { rewrite <- (md_E _ _ _ _ _ _ _ M). unfold E'. rewrite Hcq, bind_cons. unfold ct at 1. rewrite Ha. unfold nout. rewrite Hsub. rewrite Hperm. done. }
      assert (M' : mid ns' gs nq' cq' V' c0.2 E').
      2: { destruct (expand_ok c0.2 nq' ltac:(lia) ns' gs cq' V' c0.2 E' M') as (ns2 & gs2 & cq2 & V2 & nc & Hex2 & M2 & Htag & Hgrown).
      assert (HQ0 : tags gs cq ≡ₚ (c0.1, (a_base a, v)) :: tags gs cq').
      { unfold tags. rewrite Hcq, bind_cons. unfold ct at 1. rewrite Ha. unfold nout. rewrite Hsub. done. }
      eexists (a_base a), v, E', _, c0.1, (tags gs cq'), nc, (tags gs2 cq2). split; [exact HE'|]. split; [done|].
      cbn [rc_path rc_value]. rewrite Hp2, Hlab, <- Hba. split; [done|]. split; [done|]. split.
      { intros Hd. rewrite <- Hcv. by apply (md_O _ _ _ _ _ _ _ M Hd). }
      split.
      { split; [done|]. split; [cbn [rc_plen rc_path]; by rewrite <- Hp1, take_app|]. cbn [rc_value rc_nq rc_nodes rc_cq]. exists ns2, gs2, cq2, V2. split; [done|]. split; [|done]. by rewrite <- Hcv. }
      split; [intros ns3 cq3; intros [= <- <-]; exists c0.1; rewrite <- Hcv; by destruct c0|].
      split; [exact HQ0|]. split; [exact Htag|]. destruct Hgrown as (_ & Gn & Go).
      split; [|split].
      - clear x Hx Hxp. intros j x Hx. unfold tags in Hx. apply elem_of_list_bind in Hx as (c1 & Hx & Hc1). pose proof (Hsubq c1 Hc1) as Hc1'.
        destruct (md_cq _ _ _ _ _ _ _ M c1 Hc1') as (a1 & v1 & Ha1 & Hs1 & Hv1 & _). unfold ct in Hx. rewrite Ha1 in Hx. unfold nout in Hx. rewrite Hs1 in Hx. cbn [map] in Hx.
        apply elem_of_list_singleton in Hx. injection Hx as -> ->. cbn [snd].
        pose proof (hp_top cand_less cand_weak cq c0 c1 (md_hp _ _ _ _ _ _ _ M) Htop Hc1') as Hle. unfold cand_less in Hle.
        destruct (Z.eqb_spec c1.2 c0.2) as [Ez|Ez]; cbn [negb] in Hle; [right; apply N.ltb_ge in Hle; split; lia|]. left. apply Z.ltb_ge in Hle. lia.
      - clear x Hx Hxp. intros j x j' x' Hx Hx'. destruct (Gn j x Hx) as [Hj _]. unfold tags in Hx'. apply elem_of_list_bind in Hx' as (c1 & Hx' & Hc1).
        destruct (md_cq _ _ _ _ _ _ _ M c1 Hc1) as (a1 & v1 & Ha1 & _). apply elem_of_list_fmap in Hx' as (y & [= -> ->] & _). apply lookup_lt_Some in Ha1. lia.
      - intros j1 x1 j2 x2 Hx1 Hx2 Hj. destruct (Go _ _ _ _ Hx1 Hx2 Hj) as (l1 & n1 & l2 & n2 & l3 & Enq & Hr1' & Hr2').
        assert (Hlt : n2 < n1).
        { assert (Hss : StronglySorted (fun a b => b < a) nq').
          { unfold nq'. destruct (qd ns c0.1); [done|]. constructor; [done|]. apply Forall_forall. intros m (_ & Hm & _)%Hnew. apply (anc_le _ _ _ HW) in Hm. lia. }
          rewrite Enq in Hss. apply (sorted_at (fun a b => b < a) _ (length l1) (length l1 + S (length l2)) n1 n2 Hss); [lia| |].
          - by rewrite lookup_app_r, Nat.sub_diag by done.
          - rewrite lookup_app_r by lia. replace (length l1 + S (length l2) - length l1)%nat with (S (length l2)) by lia. change ((n1 :: l2 ++ n2 :: l3) !! S (length l2)) with ((l2 ++ n2 :: l3) !! length l2). by rewrite lookup_app_r, Nat.sub_diag by done. }
        assert (Hat : forall n x, n ∈ nq' -> x ∈ rt gs n -> exists b, gs !! N.to_nat n = Some b /\ shared (x.1 ++ [0]) (a_base a ++ [0]) = length (a_base b) /\ a_path b `prefix_of` a_base a ++ [0] /\ length (a_path b) = S (length (a_base b))).
        { clear x Hx Hxp. intros n x Hn Hx. apply HN' in Hn as (Hn0 & Hanc & _). unfold rt in Hx. destruct (gs !! N.to_nat n) as [b|] eqn:Hb; [|by apply elem_of_nil in Hx]. exists b. split; [done|].
          apply (rest_shared gs n b (c0.1) a v x HW Hb Hn0 Ha Hsub Hanc Hx). }
        destruct (Hat n1 x1) as (b1 & Hb1 & Hs1 & Hpp1 & Hlp1); [rewrite Enq; apply elem_of_app; right; left|done|].
        destruct (Hat n2 x2) as (b2 & Hb2 & Hs2 & Hpp2 & Hlp2); [rewrite Enq; apply elem_of_app; right; right; apply elem_of_app; right; left|done|].
        rewrite Hs1, Hs2. destruct (Nat.lt_ge_cases (length (a_base b2)) (length (a_base b1))) as [|Hge]; [done|]. exfalso.
        assert (Hp12 : a_path b1 `prefix_of` a_path b2) by (apply (prefix_len _ _ _ Hpp1 Hpp2); lia).
        pose proof (anc_le _ _ _ HW (anc_path ns gs _ _ HW (md_F _ _ _ _ _ _ _ M) n2 n1 b2 b1 Hb2 Hb1 Hp12)). lia. }
      constructor; try done.
      + intros m. unfold V'. rewrite elem_of_list_filter, HV. split; [naive_solver|]. intros (b & ? & Hq). split; [done|]. exists b. split; [done|].
        destruct (qd ns m) eqn:Eq; [|done]. enough (qd ns' m = true) by congruence. apply HQ. by left.
      + apply NoDup_filter, M.
      + intros m (H0 & Hanc & _)%HN'. destruct (Hlook m Hanc) as [b ?]. exists b. split; [done|]. split; [done|]. apply HQ. by right.
      + apply HQ. left. apply M.
      + intros n1 n2 a1 a2 H1%HF H2%HF. by apply (md_par _ _ _ _ _ _ _ M).
      + intros m b Hm%HF Hb. rewrite Ht', Ht1. by apply (md_tm _ _ _ _ _ _ _ M m).
      + intros c1 Hc1%Hsubq. by apply (md_cq _ _ _ _ _ _ _ M).
      + intros m Hm. unfold V' in Hm. apply elem_of_list_filter in Hm as [Hq Hm]. destruct (md_K _ _ _ _ _ _ _ M m Hm) as (c1 & Hc1 & Hanc). rewrite Hcq in Hc1.
        apply elem_of_cons in Hc1 as [->|Hc1]; [|by exists c1]. enough (qd ns' m = true) by congruence. apply HQ. right. split; [|done]. intros ->. done.
      + intros c1 m b Hc1%Hsubq [_ Hm]%elem_of_list_filter. by apply (md_J _ _ _ _ _ _ _ M).
      + intros m b Hb H0 [Hq|[_ Hanc]]%HQ; apply HQ.
        * left. by apply (md_Q _ _ _ _ _ _ _ M m b).
        * destruct (decide (a_prev b = 0)) as [->|Hb0]; [left; apply M|]. right. split; [done|]. apply (anc_trans _ _ m); [|done]. apply (anc_up _ _ _ b); [done|done|constructor].
      + rewrite (sum_perm _ _ _ Hperm). apply M.
      + intros Hd. destruct (md_O _ _ _ _ _ _ _ M Hd) as [O1 O2]. split.
        * intros c1 Hc1%Hsubq. apply cand_top. by apply (hp_top cand_less cand_weak cq c0 c1 (md_hp _ _ _ _ _ _ _ M)).
        * intros m b l s Hm Hb Hin. apply HN' in Hm as (H0 & Hanc & Hq). assert (HmV : m ∈ V) by (apply HV; by exists b).
          rewrite <- (md_J _ _ _ _ _ _ _ M c0 m b Hcin HmV Hanc Hb). destruct (proj2 (proj2 (HW m b Hb)) H0) as (_ & bm & es' & pre' & Hbm & Hbms & Hoe' & _).
          destruct (HW _ _ Hbm) as (Hok & _). unfold gok in Hok. rewrite Hbms in Hok. destruct Hok as [Hn _]. destruct (node_wfe _ _ Hn) as [Hw _].
          by apply (Hd es' pre' (a_label b, a_sub b) (a_rest b) (l, s)).
      + by apply (front_pop ns ns' gs ([] ++ V) (nq' ++ V') E E' c0.1 a v HW (md_F _ _ _ _ _ _ _ M)); [..|apply M|].
  Qed.
  Lemma readyq_open c L E Q : readyq c L E Q -> NoDup E /\ NoDup Q.*2 /\ (forall x, x ∈ Q.*2 <-> x ∈ E /\ topen E x) /\ forall j x y, (j, x) ∈ Q -> (j, y) ∈ Q -> x = y.
  Proof.
    intros (_ & _ & ns & gs & cq & V & _ & M & ->). destruct (mid_open ns gs cq V L E M) as (H1 & H2 & H3). split; [done|]. split; [done|]. split; [done|].
    intros j x y Hx Hy. apply (tags_in ns gs [] cq V L E _ _ M) in Hx as (c1 & a1 & v1 & _ & E1 & Ha1 & Hs1 & ->). apply (tags_in ns gs [] cq V L E _ _ M) in Hy as (c2 & a2 & v2 & _ & E2 & Ha2 & Hs2 & ->). congruence.
  Qed.
  Lemma Next_ok c L E : ready c L E ->
    (E = [] /\ exists c', rc_Next us g c = Ok (false, c') /\ ready c' L [] /\ rc_path c' = rc_path c /\ rc_value c' = rc_value c) \/
    (exists k v E' c', E ≡ₚ (k, v) :: E' /\ rc_Next us g c = Ok (true, c') /\ rc_path c' = p ++ k ++ [0] /\ rc_value c' = Z.of_N v /\
      (dec -> (Z.of_N v <= L)%Z) /\ ready c' (Z.of_N v) E' /\
      (forall ns cq, rc_expand us g (rc_value c) (rc_nq c) (rc_nodes c) (rc_cq c) = Ok (ns, cq) -> exists t, (t, Z.of_N v) ∈ cq)).
  Proof.
    intros [Q H]. destruct (Next_full c L E Q H) as [(HE & c' & H1 & H2 & H3 & H4)|(k & v & E' & c' & i & Q0 & New & Q' & H1 & H2 & H3 & H4 & H5 & H6 & H7 & _)].
    - left. split; [done|]. exists c'. split; [done|]. split; [by exists Q|done].
    - right. exists k, v, E', c'. do 5 (split; [done|]). split; [by exists Q'|done].
  Qed.

  (** *** The first call *)
  Lemma Start_ok c i : g <> [] -> node i es0 -> N.of_nat (1 + nedges (Node es0)) <= two32 ->
    exists c', rc_StartString us g c i p = Ok c' /\ (exists x, readyq c' (mx (Node es0)) (ent_es es0) [x]) /\ rc_Key c' = p /\
      exists ns t, rc_expand us g (rc_value c') (rc_nq c') (rc_nodes c') (rc_cq c') = Ok (ns, [(t, mx (Node es0))]).
  Proof.
    intros Hg Hn Hsz. destruct (node_wfe _ _ Hn) as [Hw Hne]. unfold rc_StartString, rc_StartStringLen.
    destruct (Z.ltb_spec (Z.of_nat (length p)) 0); [lia|]. rewrite Z.ltb_irrefl. rewrite Nat2Z.id, firstn_all.
    assert (E : forall X (a b : X), match g with [] => a | _ => b end = b) by (by destruct g). rewrite E. clear E.
    unfold rc_createNode. cbn [N.eqb negb]. rewrite (rp_has _ _ _ HN _ _ Hn), (has0_z0 es0 Hw). cbn [mbind res_bind app].
    assert (E : rc_enqueueNode [mkRN i 0 88 false (z0 es0)] [] 0 = Ok ([mkRN i 0 88 true (z0 es0)], [0])) by reflexivity. rewrite E. clear E. cbn [mbind res_bind].
    eexists. split; [reflexivity|]. unfold readyq. cbn [rc_value rc_nq rc_nodes rc_cq rc_plen rc_path rc_Key].
    enough (H0 : exists ns gs t V, rc_expand us g (-1) [0] [mkRN i 0 88 true (z0 es0)] [] = Ok (ns, [(t, mx (Node es0))]) /\ mid ns gs [] [(t, mx (Node es0))] V (mx (Node es0)) (ent_es es0)).
    { destruct H0 as (ns & gs & t & V & H1 & H2). split; [|split; [done|by exists ns, t]]. destruct (md_cq _ _ _ _ _ _ _ H2 (t, mx (Node es0))) as (a & v & Ha & Hsub & _); [constructor|].
      exists (t, (a_base a, v)). split; [done|]. split; [by rewrite firstn_all|]. exists ns, gs, [(t, mx (Node es0))], V. split; [done|]. split; [done|].
      unfold tags. rewrite bind_cons. unfold ct at 1. cbn [fst]. cbn [fst] in Ha. rewrite Ha. unfold nout. by rewrite Hsub. }
    set (ns0 := [mkRN i 0 88 true (z0 es0)]). set (r := mkAB i 0 88 [] [] (Node es0) []). set (gs0 := [r]).
    assert (Hr0 : rel ns0 gs0) by (constructor; [done|constructor]).
    assert (HW0 : gwf gs0).
    { intros n a Ha. unfold gs0 in Ha. apply list_lookup_singleton_Some in Ha as [H0 <-]. split; [by split|]. split; [done|]. intros ?. lia. }
    cbn [rc_expand]. cbn [Z.eqb Pos.eqb negb mbind res_bind].
    destruct (find_ok (S (S (length us))) ns0 gs0 0 r) as (ns' & gs' & t & v & Hres & C0).
    { cbn [r a_sub]. pose proof (hgt_units us R node HN _ _ Hn). lia. }
    { done. }
    { done. }
    { done. }
    { done. }
    { done. }
    pose proof C0 as [C1 C2 (new & Enew) C4 C5 (at' & C6 & C6a & C6b) C7 C8 C9 C10 C11].
    rewrite Hres. cbn [mbind res_bind].
    assert (Htg : gok at') by apply (C2 t at' C6). unfold gok in Htg. rewrite C6a in Htg. destruct Htg as (Htu & Hv & _).
    destruct (rel_at ns' gs' t at' C1 C6) as (xt & Hxt & Hxtd & _).
    unfold rc_enqueueCandidate. rewrite (get_N _ _ _ Hxt). cbn [mbind res_bind]. rewrite Hxtd, (get_N _ _ _ Htu). cbn [mbind res_bind].
    rewrite setValue_value, Z.mod_small by lia. destruct (Push_ok cand_less cand_weak [] (t, Z.of_N v) (hp_nil _)) as (cq' & -> & Hcq' & Hhp). cbn [mbind res_bind].
    assert (Hc1 : forall c1, c1 ∈ cq' <-> c1 = (t, Z.of_N v)) by (intros c1; rewrite Hcq', elem_of_list_singleton; done).
    cbn [r a_sub] in C7. pose proof (Permutation_length_1_inv (Permutation_sym Hcq')) as E.
    exists ns', gs', t, (range gs0 gs'). rewrite C7, <- E. split; [done|].
    assert (Hroot : gs' !! N.to_nat 0 = Some r) by (by rewrite Enew).
    assert (Ht0 : t <> 0).
    { intros ->. rewrite Hroot in C6. injection C6 as <-. discriminate C6a. }
    assert (HQ : forall m, qd ns' m = (m =? 0)).
    { intros m. rewrite C4. unfold qd, ns0. destruct (N.eqb_spec m 0) as [->|]; [done|]. rewrite lookup_ge_None_2; [done|]. cbn. lia. }
    constructor; try done.
    + intros m. rewrite in_range, HQ. split.
      * intros Hm. destruct (lookup_lt_is_Some_2 gs' (N.to_nat m)) as [b Hb]; [lia|]. exists b. split; [done|]. apply N.eqb_neq. cbn in Hm. lia.
      * intros (b & Hb%lookup_lt_Some & H0%N.eqb_neq). cbn. lia.
    + apply range_nodup.
    + intros m Hm. by apply elem_of_nil in Hm.
    + apply NoDup_nil_2.
    + by rewrite HQ.
    + intros n1 n2 a1 a2 H1 H2 E1 E2 Ep. cbn [app] in H1, H2. destruct (C10 n1 H1) as (b1 & E1' & _ & _ & _ & Hp1). destruct (C10 n2 H2) as (b2 & E2' & _ & _ & _ & Hp2). rewrite E1 in E1'. rewrite E2 in E2'. injection E1' as <-. injection E2' as <-.
      rewrite Hp1, Hp2 in Ep. apply in_range in H1, H2. cbn in H1, H2, Ep. destruct (N.eqb_spec n1 (N.of_nat 1)), (N.eqb_spec n2 (N.of_nat 1)); lia.
    + intros m b Hm Hb. destruct (C10 m Hm) as (b' & Hb' & _ & _ & ? & _). congruence.
    + intros c1 ->%Hc1. exists at', v. done.
    + intros m Hm. exists (t, Z.of_N v). split; [by apply Hc1|]. by destruct (C10 m Hm) as (? & _ & _ & ? & _).
    + intros c1 m b ->%Hc1 Hm _ Hb. destruct (C10 m Hm) as (b' & Hb' & ? & _). cbn. congruence.
    + intros m b _ H0. rewrite HQ. by apply N.eqb_neq in H0 as ->.
    + rewrite Hcq', bind_cons. unfold ct at 1. cbn [fst app]. rewrite C6. unfold nout at 1. rewrite C6a. change ([] ≫= ct gs') with (@nil (list N * N)). cbn [app]. rewrite C6b. unfold nout. cbn [r a_sub a_path]. unfold pref. cbn [app].
      erewrite map_ext; [by rewrite map_id|]. by intros [].
    + cbn [app]. rewrite C8. done.
    + intros _. split; [|intros m b l s Hm; by apply elem_of_nil in Hm]. intros c1 ->%Hc1. cbn. lia.
    + cbn [app]. change (range gs0 gs') with ([] ++ range gs0 gs'). apply (front_chain ns0 gs0 0 r ns' gs' t v [] _ HW0 C0); [|done|..].
      * constructor.
        -- by exists r.
        -- intros m Hm. by apply elem_of_nil in Hm.
        -- by apply ent_es_nodup.
        -- intros m n' a a' Hm. by apply elem_of_nil in Hm.
        -- intros m n' a a' Hm0 _ Hm. unfold gs0 in Hm. apply list_lookup_singleton_Some in Hm as [Hm _]. lia.
        -- intros m a am es pre e Hm Hm0. unfold gs0 in Hm. apply list_lookup_singleton_Some in Hm as [Hm _]. lia.
        -- intros m a Hm Hm0. unfold gs0 in Hm. apply list_lookup_singleton_Some in Hm as [Hm _]. lia.
        -- intros m a kv Hm Hq. unfold gs0 in Hm. apply list_lookup_singleton_Some in Hm as [Hm _]. unfold qd in Hq. assert (m = 0) as -> by lia. done.
      * intros m c0 Hm Hm0. unfold gs0 in Hm. apply list_lookup_singleton_Some in Hm as [Hm _]. lia.
      * intros m Hm. by apply (ns_none ns0 gs0).
      * intros kv. unfold nout. cbn [r a_sub a_path]. intros (kv' & Hk & ->)%pref_in. cbn [app]. by destruct kv'.
  Qed.
  End start.
End run.
