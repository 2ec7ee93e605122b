(** Low-level facts about the loops of dawg_builder.go: sibling chains in the
    unit pool, groups of transitions in the base/label pools. *)
From Verif Require Import Go BitPool BitPoolProofs LinkTable LinkTableProofs Dawg Tree.
Local Open Scope N_scope.
Local Ltac Zify.zify_post_hook ::= Z.div_mod_to_equations.

(** ** Bits *)
Lemma hasSib_odd b : bu_hasSibling b = N.odd b.
Proof.
  unfold bu_hasSibling. replace (N.land b 1) with (b mod 2).
  - rewrite <- N.bit0_mod, N.bit0_odd. by destruct (N.odd b).
  - change 1 with (N.ones 1). by rewrite N.land_ones.
Qed.
Lemma isState_bit b : bu_isState b = N.testbit b 1.
Proof.
  unfold bu_isState. destruct (N.testbit b 1) eqn:E.
  - apply negb_true_iff, N.eqb_neq. intros H.
    assert (N.testbit (N.land b 2) 1 = false) as Hb by (by rewrite H).
    rewrite N.land_spec, E in Hb. done.
  - apply negb_false_iff, N.eqb_eq. apply N.bits_inj. intros m. rewrite N.land_spec, N.bits_0.
    change 2 with (2 ^ 1). rewrite N.pow2_bits_eqb. destruct (N.eqb_spec 1 m) as [<-|]; [by rewrite E|by rewrite andb_false_r].
Qed.
Lemma hasSib_enc x hs : bu_hasSibling (2 * x + N.b2n hs) = hs.
Proof. rewrite hasSib_odd. destruct hs; cbn [N.b2n]; rewrite ?N.add_0_r, ?N.odd_add, ?N.odd_mul; done. Qed.
Lemma isState_enc x (st hs : bool) : bu_isState (4 * x + 2 * N.b2n st + N.b2n hs) = st.
Proof.
  rewrite isState_bit, N.testbit_eqb. replace (2 ^ 1) with 2 by done.
  destruct st, hs; cbn [N.b2n];
    match goal with |- (?a =? 1) = true => apply N.eqb_eq | |- _ => apply N.eqb_neq end; lia.
Qed.
Lemma child_enc x (st hs : bool) : bu_child (4 * x + 2 * N.b2n st + N.b2n hs) = x.
Proof. unfold bu_child. rewrite N.shiftr_div_pow2. change (2 ^ 2) with 4. destruct st, hs; cbn [N.b2n]; lia. Qed.
Lemma value_enc v hs : v < 2147483648 -> bu_value (2 * v + N.b2n hs) = Z.of_N v.
Proof.
  intros Hv. unfold bu_value. rewrite N.shiftr_div_pow2. change (2 ^ 1) with 2.
  replace ((2 * v + N.b2n hs) / 2) with v by (destruct hs; cbn [N.b2n]; lia).
  unfold i32_of_u32. rewrite u32_id by (unfold two32; lia). cbv zeta.
  destruct (Z.ltb_spec (Z.of_N v) 2147483648); [done|lia].
Qed.

Lemma shl32_1 c : shl32 c 1 = 2 * (c mod 2147483648).
Proof. unfold shl32, u32, two32. rewrite N.shiftl_mul_pow2. change (2 ^ 1) with 2. lia. Qed.
Lemma shl32_2 c : shl32 c 2 = 4 * (c mod 1073741824).
Proof. unfold shl32, u32, two32. rewrite N.shiftl_mul_pow2. change (2 ^ 2) with 4. lia. Qed.
Lemma lor_add_1 x : N.lor (2 * x) 1 = 2 * x + 1.
Proof. by destruct x. Qed.
Lemma lor_add_2 x : N.lor (4 * x) 2 = 4 * x + 2.
Proof. by destruct x. Qed.
Lemma du_base_leaf c sib st hs : du_base (mkDU c sib 0 st hs) = 2 * (c mod 2147483648) + N.b2n hs.
Proof.
  unfold du_base. cbn [u_label u_child u_hasSibling u_isState]. rewrite shl32_1. cbn [N.eqb].
  destruct hs; cbn [N.b2n]; [by rewrite lor_add_1|lia].
Qed.
Lemma du_base_node c sib l st hs : l <> 0 -> c < 1073741824 ->
  du_base (mkDU c sib l st hs) = 4 * c + 2 * N.b2n st + N.b2n hs.
Proof.
  intros Hl Hc. unfold du_base. cbn [u_label u_child u_hasSibling u_isState].
  destruct (N.eqb_spec l 0); [done|]. rewrite shl32_2, N.mod_small by done.
  destruct st, hs; cbn [N.b2n]; rewrite ?lor_add_2; try lia.
  - replace (4 * c + 2) with (2 * (2 * c + 1)) by lia. rewrite lor_add_1. lia.
  - replace (4 * c) with (2 * (2 * c)) by lia. rewrite lor_add_1. lia.
Qed.

(** ** Groups in the transition pools *)
Definition pat (bs ls : list N) (p : nat) (bl : list (N * N)) : Prop :=
  forall j x, bl !! j = Some x -> bs !! (p + j)%nat = Some x.1 /\ ls !! (p + j)%nat = Some x.2.
(** hasSibling is set on all but the last transition of a group. *)
Fixpoint sibbits (bl : list (N * N)) : Prop :=
  match bl with
  | [] => True
  | x :: bl' => bu_hasSibling x.1 = (match bl' with [] => false | _ => true end) /\ sibbits bl'
  end.

Lemma pat_cons bs ls p x bl : pat bs ls p (x :: bl) <->
  (bs !! p = Some x.1 /\ ls !! p = Some x.2) /\ pat bs ls (S p) bl.
Proof.
  split.
  - intros H. split; [specialize (H 0%nat x eq_refl); by rewrite Nat.add_0_r in H|].
    intros j y Hj. specialize (H (S j) y Hj). by rewrite Nat.add_succ_r in H.
  - intros [[H1 H2] H] [|j] y Hj; cbn in Hj.
    + injection Hj as <-. by rewrite Nat.add_0_r.
    + rewrite Nat.add_succ_r. by apply H.
Qed.
Lemma pat_app bs ls p bl1 bl2 : pat bs ls p (bl1 ++ bl2) <->
  pat bs ls p bl1 /\ pat bs ls (p + length bl1) bl2.
Proof.
  revert p. induction bl1 as [|x bl1 IH]; intros p; cbn [app length].
  - rewrite Nat.add_0_r. split; [intros H; split; [by intros j y|done]|by intros [_ H]].
  - rewrite !pat_cons, IH. replace (p + S (length bl1))%nat with (S p + length bl1)%nat by lia. naive_solver.
Qed.
Lemma pat_mono bs ls bs' ls' p bl : pat bs ls p bl -> pat (bs ++ bs') (ls ++ ls') p bl.
Proof.
  intros H j x Hj. destruct (H j x Hj) as [H1 H2]. split.
  - by apply lookup_app_l_Some. - by apply lookup_app_l_Some.
Qed.
Lemma pat_ext bs ls bs' ls' p bl : pat bs ls p bl ->
  (forall i, (p <= i)%nat -> (i < p + length bl)%nat -> bs' !! i = bs !! i /\ ls' !! i = ls !! i) ->
  pat bs' ls' p bl.
Proof.
  intros H He j x Hj. destruct (H j x Hj) as [H1 H2]. apply lookup_lt_Some in Hj.
  destruct (He (p + j)%nat) as [-> ->]; [lia|lia|]. done.
Qed.

(** Hash of a list of (base, label) pairs. *)
Definition hl (acc : N) (bl : list (N * N)) : N :=
  fold_left (fun h x => N.lxor h (intHash (N.lxor (shl32 x.2 24) x.1))) bl acc.
Lemma hl_acc bl acc z : N.lxor (hl acc bl) z = hl (N.lxor acc z) bl.
Proof.
  revert acc. induction bl as [|x bl IH]; intros acc; cbn [hl fold_left]; [done|].
  fold (hl (N.lxor acc (intHash (N.lxor (shl32 x.2 24) x.1))) bl). rewrite IH.
  unfold hl at 1. f_equal. rewrite !N.lxor_assoc. f_equal. apply N.lxor_comm.
Qed.
Lemma hl_app acc bl1 bl2 : hl acc (bl1 ++ bl2) = hl (hl acc bl1) bl2.
Proof. unfold hl. by rewrite fold_left_app. Qed.
Lemma hl_rev acc bl : hl acc (rev bl) = hl acc bl.
Proof.
  revert acc. induction bl as [|x bl IH]; intros acc; cbn [rev]; [done|].
  rewrite hl_app, IH. cbn [hl fold_left]. rewrite hl_acc. done.
Qed.

Lemma get_nat {A} (l : list A) i x : l !! i = Some x -> get l (N.of_nat i) = Ok x.
Proof. intros H. unfold get. by rewrite Nat2N.id, H. Qed.
Lemma set_nat {A} (l : list A) i x : (i < length l)%nat -> set l (N.of_nat i) x = Ok (<[i := x]> l).
Proof. intros H. unfold set. rewrite Nat2N.id. by destruct (lookup_lt_is_Some_2 l i H) as [y ->]. Qed.
Lemma upd_nat {A} (l : list A) i f x : l !! i = Some x -> upd l (N.of_nat i) f = Ok (<[i := f x]> l).
Proof.
  intros H. unfold upd. rewrite (get_nat _ _ _ H). cbn [mbind res_bind]. apply set_nat. by apply lookup_lt_Some in H.
Qed.

Lemma hashTransition_group bs ls bl : forall fuel p acc,
  pat bs ls p bl -> sibbits bl -> bl <> [] -> (1 <= p)%nat -> N.of_nat (p + length bl) < two32 ->
  (length bl <= fuel)%nat ->
  hashTransition_loop fuel bs ls (N.of_nat p) acc = Ok (hl acc bl).
Proof.
  induction bl as [|x bl IH]; intros fuel p acc Hp Hs Hne Hp1 Hb Hf; [done|].
  destruct fuel as [|fuel]; [cbn in Hf; lia|]. cbn [hashTransition_loop].
  destruct (N.eqb_spec (N.of_nat p) 0); [lia|].
  apply pat_cons in Hp as [[H1 H2] Hp]. destruct Hs as [Hx Hs].
  rewrite (get_nat _ _ _ H1), (get_nat _ _ _ H2). cbn [mbind res_bind]. rewrite Hx.
  destruct bl as [|y bl].
  - done.
  - rewrite u32_id by (cbn [length] in Hb; lia). replace (N.of_nat p + 1) with (N.of_nat (S p)) by lia.
    cbn [length] in *. apply (IH fuel (S p)); [done|done|done|lia| |lia].
    cbn [length]. lia.
Qed.

(** ** Sibling chains in the unit pool *)
Fixpoint uchain (us : list dunit) (i : N) (l : list (N * dunit)) : Prop :=
  match l with
  | [] => i = 0
  | (j, u) :: l' => i = j /\ j <> 0 /\ us !! N.to_nat j = Some u /\ uchain us (u_sibling u) l'
  end.
Definition uenc (l : list (N * dunit)) : list (N * N) := map (fun x => (du_base x.2, u_label x.2)) l.

Lemma get_N {A} (l : list A) i x : l !! N.to_nat i = Some x -> get l i = Ok x.
Proof. intros H. unfold get. by rewrite H. Qed.
Lemma set_N {A} (l : list A) i x y : l !! N.to_nat i = Some y -> set l i x = Ok (<[N.to_nat i := x]> l).
Proof. intros H. unfold set. by rewrite H. Qed.
Lemma upd_N {A} (l : list A) i f x : l !! N.to_nat i = Some x -> upd l i f = Ok (<[N.to_nat i := f x]> l).
Proof. intros H. unfold upd. rewrite (get_N _ _ _ H). cbn [mbind res_bind]. by eapply set_N. Qed.

Lemma countSiblings_chain us l : forall fuel i, uchain us i l -> (length l < fuel)%nat ->
  countSiblings fuel us i = Ok (length l).
Proof.
  induction l as [|[j u] l IH]; intros fuel i Hc Hf; destruct fuel as [|fuel]; try (cbn in Hf; lia); cbn [countSiblings].
  - cbn in Hc. subst. done.
  - destruct Hc as (-> & Hj & Hu & Hc). destruct (N.eqb_spec j 0); [done|].
    rewrite (get_N _ _ _ Hu). cbn [mbind res_bind]. rewrite (IH fuel) by (done || (cbn in Hf; lia)). done.
Qed.
Lemma hashUnit_chain us l : forall fuel i acc, uchain us i l -> (length l < fuel)%nat ->
  hashUnit_loop fuel us i acc = Ok (hl acc (uenc l)).
Proof.
  induction l as [|[j u] l IH]; intros fuel i acc Hc Hf; destruct fuel as [|fuel]; try (cbn in Hf; lia); cbn [hashUnit_loop].
  - cbn in Hc. subst. done.
  - destruct Hc as (-> & Hj & Hu & Hc). destruct (N.eqb_spec j 0); [done|].
    rewrite (get_N _ _ _ Hu). cbn [mbind res_bind]. rewrite (IH fuel) by (done || (cbn in Hf; lia)). done.
Qed.
Lemma freeUnits_chain l : forall fuel b i, uchain (b_unit b) i l -> (length l < fuel)%nat ->
  freeUnits fuel b i = Ok (set_unused b (rev l.*1 ++ b_unused b)).
Proof.
  induction l as [|[j u] l IH]; intros fuel b i Hc Hf; destruct fuel as [|fuel]; try (cbn in Hf; lia); cbn [freeUnits].
  - cbn in Hc. subst. cbn. by destruct b.
  - destruct Hc as (-> & Hj & Hu & Hc). destruct (N.eqb_spec j 0); [done|].
    rewrite (get_N _ _ _ Hu). cbn [mbind res_bind].
    rewrite (IH fuel (freeUnit b j) (u_sibling u)); [|done|cbn in Hf; lia].
    cbn [freeUnit set_unused b_unused fmap list_fmap fst rev]. rewrite <- app_assoc. done.
Qed.

(** Comparison of a chain with a group. *)
Lemma areEqual_count_chain us bs ls bl : forall l fuel i p,
  uchain us i l -> (length l < fuel)%nat -> pat bs ls p bl -> sibbits bl -> bl <> [] ->
  N.of_nat (p + length bl) < two32 ->
  areEqual_count fuel us bs i (N.of_nat p) =
    if Nat.ltb (length l) (length bl) then Ok (Some (N.of_nat (p + length l))) else Ok None.
Proof.
  induction bl as [|x bl IH]; intros l fuel i p Hc Hf Hp Hs Hne Hb; [done|].
  destruct fuel as [|fuel]; [lia|]. cbn [areEqual_count].
  destruct l as [|[j u] l].
  - cbn in Hc. subst. cbn. by rewrite Nat.add_0_r.
  - destruct Hc as (-> & Hj & Hu & Hc). destruct (N.eqb_spec j 0); [done|].
    apply pat_cons in Hp as [[H1 H2] Hp]. destruct Hs as [Hx Hs].
    rewrite (get_nat _ _ _ H1). cbn [mbind res_bind]. rewrite Hx.
    destruct bl as [|y bl].
    + cbn [length]. done.
    + rewrite (get_N _ _ _ Hu). cbn [mbind res_bind].
      rewrite u32_id by (cbn [length] in Hb; lia). replace (N.of_nat p + 1) with (N.of_nat (S p)) by lia.
      rewrite (IH l fuel (u_sibling u) (S p)); [|done|cbn in Hf; lia|done|done|done|cbn [length] in *; lia].
      cbn [length]. change (S (length l) <? S (S (length bl)))%nat with (length l <? S (length bl))%nat.
      destruct (Nat.ltb_spec (length l) (S (length bl))); [|done]. do 3 f_equal. lia.
Qed.

(** Second loop: the chain is compared backwards with the group. *)
Lemma areEqual_cmp_chain us bs ls : forall l bl fuel i t,
  uchain us i l -> (length l < fuel)%nat -> length bl = length l ->
  pat bs ls (S t - length l) (rev bl) -> (length l <= t)%nat -> N.of_nat t < two32 ->
  areEqual_cmp fuel us bs ls i (N.of_nat t) = Ok (bool_decide (uenc l = bl)).
Proof.
  induction l as [|[j u] l IH]; intros bl fuel i t Hc Hf Hl Hp Ht Hb; destruct fuel as [|fuel]; try (cbn in Hf; lia); cbn [areEqual_cmp].
  - cbn in Hc. subst. destruct bl; [|done]. cbn. done.
  - destruct Hc as (-> & Hj & Hu & Hc). destruct (N.eqb_spec j 0); [done|].
    destruct bl as [|[b lb] bl]; [done|]. cbn [rev] in Hp. cbn [length] in *.
    apply pat_app in Hp as [Hp1 Hp2]. rewrite rev_length in Hp2.
    replace (S t - S (length l) + length bl)%nat with t in Hp2 by lia.
    apply pat_cons in Hp2 as [[H1 H2] _]. cbn [fst snd] in *.
    rewrite (get_N _ _ _ Hu), (get_nat _ _ _ H1), (get_nat _ _ _ H2). cbn [mbind res_bind uenc map snd].
    destruct (N.eqb_spec (du_base u) b) as [->|Hne]; cbn [negb].
    + destruct (N.eqb_spec (u_label u) lb) as [->|Hne]; cbn [negb].
      * unfold dec32. replace (u32 (N.of_nat t + 4294967295)) with (N.of_nat (t - 1)).
        2:{ unfold u32, two32 in *. lia. }
        destruct t as [|t]; [lia|]. replace (S t - 1)%nat with t by lia.
        rewrite (IH bl fuel (u_sibling u) t); [|done|lia|lia| |lia|lia].
        -- f_equal. apply bool_decide_ext. fold (uenc l). split; [by intros ->|by intros [=]].
        -- done.
      * f_equal. symmetry. apply bool_decide_eq_false. intros [=]. done.
    + f_equal. symmetry. apply bool_decide_eq_false. intros [=]. done.
Qed.

Lemma areEqual_group b i l bl p :
  uchain (b_unit b) i l -> l <> [] -> (length l <= length (b_unit b))%nat ->
  pat (b_base b) (b_label b) p bl -> sibbits bl -> bl <> [] -> (1 <= p)%nat ->
  N.of_nat (p + length bl) < two32 ->
  areEqual b i (N.of_nat p) = Ok (bool_decide (rev (uenc l) = bl)).
Proof.
  intros Hc Hne Hlen Hp Hs Hbne Hp1 Hb. pose proof Hc as Hc0. destruct l as [|[j u] l]; [done|].
  destruct Hc as (-> & Hj & Hu & Hc). unfold areEqual. rewrite (get_N _ _ _ Hu). cbn [mbind res_bind].
  rewrite (areEqual_count_chain _ _ (b_label b) bl l); [|done|cbn [length] in Hlen; lia|done|done|done|done].
  destruct (Nat.ltb_spec (length l) (length bl)) as [Hlt|Hge]; cbn [mbind res_bind].
  - destruct (lookup_lt_is_Some_2 bl (length l) Hlt) as [x Hx].
    destruct (Hp _ _ Hx) as [H1 _]. rewrite (get_nat _ _ _ H1). cbn [mbind res_bind].
    assert (Hsx : bu_hasSibling x.1 = negb (Nat.eqb (S (length l)) (length bl))).
    { clear -Hs Hx. revert Hs Hx. generalize (length l) as k. induction bl as [|y bl IH]; intros k Hs Hx; [done|].
      destruct Hs as [Hy Hs]. destruct k as [|k]; cbn in Hx.
      - injection Hx as ->. rewrite Hy. destruct bl; done.
      - rewrite (IH k Hs Hx). cbn [length]. done. }
    rewrite Hsx. destruct (Nat.eqb_spec (S (length l)) (length bl)) as [He|He]; cbn [negb].
    + replace (N.of_nat (p + length l)) with (N.of_nat (p + length l)) by done.
      rewrite (areEqual_cmp_chain _ _ _ ((j, u) :: l) (rev bl)); [|done|cbn [length] in *; lia| | | |].
      * f_equal. apply bool_decide_ext. split; [intros ->; apply rev_involutive|].
        intros <-. by rewrite rev_involutive.
      * rewrite rev_length. cbn [length]. lia.
      * rewrite rev_involutive. cbn [length]. replace (S (p + length l) - S (length l))%nat with p by lia. done.
      * cbn [length]. lia.
      * lia.
    + f_equal. symmetry. apply bool_decide_eq_false. intros <-.
      apply He. rewrite rev_length. unfold uenc. rewrite map_length. done.
  - f_equal. symmetry. apply bool_decide_eq_false. intros <-.
    rewrite rev_length in Hge. unfold uenc in Hge. rewrite map_length in Hge. cbn [length] in Hge. lia.
Qed.

(** Writing a chain as a new group at the end of the pools. *)
Lemma allocateTransitions_spec n : forall b t,
  allocateTransitions n b t =
  (match n with O => t | _ => u32 (N.of_nat (length (b_label b) + n) - 1) end,
   set_pools b (b_base b ++ replicate n 0) (b_label b ++ replicate n 0) (Nat.iter n bp_allocate (b_flag b))).
Proof.
  induction n as [|n IH]; intros b t; cbn [allocateTransitions].
  - cbn [replicate Nat.iter nat_rect]. rewrite !app_nil_r. by destruct b.
  - unfold allocateTransition. rewrite IH. cbn [set_pools b_base b_label b_flag b_init b_unit b_hash b_unfixed b_unused b_states b_mergedTrans b_merging].
    rewrite <- !app_assoc. cbn [app replicate]. f_equal.
    + destruct n as [|n]; rewrite !app_length; cbn [length]; do 2 f_equal; lia.
    + unfold set_pools; cbn. f_equal. clear. generalize (b_flag b). induction n as [|n IH]; intros p; [done|].
      cbn [Nat.iter nat_rect]. f_equal. apply IH.
Qed.

Lemma writeTransitions_chain us l : forall fuel i B L X Y,
  uchain us i l -> (length l < fuel)%nat -> length L = length B -> (1 <= length B)%nat ->
  N.of_nat (length B + length l) < two32 ->
  writeTransitions fuel us (B ++ replicate (length l) 0 ++ X) (L ++ replicate (length l) 0 ++ Y) i
     (N.of_nat (length B + length l - 1)) =
  Ok (B ++ (rev (uenc l)).*1 ++ X, L ++ (rev (uenc l)).*2 ++ Y, N.of_nat (length B - 1)).
Proof.
  induction l as [|[j u] l IH]; intros fuel i B L X Y Hc Hf HL HB Hb; destruct fuel as [|fuel]; try (cbn in Hf; lia); cbn [writeTransitions].
  - cbn in Hc. subst. cbn [length uenc map rev replicate fmap list_fmap app].
    cbn [N.eqb]. by rewrite Nat.add_0_r.
  - destruct Hc as (-> & Hj & Hu & Hc). destruct (N.eqb_spec j 0); [done|].
    rewrite (get_N _ _ _ Hu). cbn [mbind res_bind length] in *.
    rewrite !replicate_S_end, <- !app_assoc. cbn [app].
    replace (length B + S (length l) - 1)%nat with (length B + length l)%nat by lia.
    assert (Hset : forall (Z W : list N) z w k, length Z = k ->
      set (Z ++ replicate (length l) 0 ++ z :: W) (N.of_nat (k + length l)) w = Ok (Z ++ replicate (length l) 0 ++ w :: W)).
    { intros Z W z w k <-. rewrite set_nat by (rewrite !app_length, replicate_length; cbn; lia).
      f_equal. rewrite insert_app_r_alt by lia. f_equal. rewrite insert_app_r_alt by (rewrite replicate_length; lia).
      f_equal. rewrite replicate_length. replace (length Z + length l - length Z - length l)%nat with O by lia. done. }
    rewrite (Hset B X) by done. cbn [mbind res_bind]. rewrite (Hset L Y) by done. cbn [mbind res_bind].
    replace (dec32 (N.of_nat (length B + length l))) with (N.of_nat (length B + length l - 1)).
    2:{ unfold dec32, u32, two32 in *. lia. }
    rewrite (IH fuel (u_sibling u) B L (du_base u :: X) (u_label u :: Y)); [|done|lia|done|done|lia].
    cbn [uenc map rev snd]. fold (uenc l). rewrite !fmap_app, <- !app_assoc. done.
Qed.

Lemma pat_end B L bl X Y : length L = length B -> pat (B ++ bl.*1 ++ X) (L ++ bl.*2 ++ Y) (length B) bl.
Proof.
  intros HL j x Hj. pose proof (lookup_lt_Some _ _ _ Hj). split.
  - rewrite lookup_app_r by lia. rewrite lookup_app_l by (rewrite fmap_length; lia).
    replace (length B + j - length B)%nat with j by lia. by rewrite list_lookup_fmap, Hj.
  - rewrite lookup_app_r by lia. rewrite lookup_app_l by (rewrite fmap_length; lia).
    replace (length B + j - length L)%nat with j by lia. by rewrite list_lookup_fmap, Hj.
Qed.
Lemma brep_iter n p f : brep p f -> brep (Nat.iter n bp_allocate p) f /\ bp_size (Nat.iter n bp_allocate p) = bp_size p + N.of_nat n.
Proof.
  intros H. induction n as [|n [IH1 IH2]]; [split; [done|cbn; lia]|].
  change (Nat.iter (S n) bp_allocate p) with (bp_allocate (Nat.iter n bp_allocate p)).
  destruct (brep_allocate _ _ IH1) as [H1 H2]. split; [done|]. rewrite H2, IH2. lia.
Qed.
