(** The builder with an initial hash table size of 0 (dawg_builder.go:73-79, 264-351):
    every call initialises it again, and the first state to be fixed divides by 0. *)
From Verif Require Import Go BitPool Dawg DawgSpec DawgAbs.
Local Open Scope N_scope.

(** The unit of the byte at position [i] of [k]. *)
Definition chain_unit (k : list N) (v : Z) (i : nat) : dunit :=
  match k !! i with
  | Some c => mkDU (N.of_nat (S (S i))) 0 c true false
  | None => mkDU (u32_of_i32 v) 0 0 true false
  end.
(** After [n] calls of which the first inserted [k] and the last to be accepted had [v]. *)
Record zinv (k : list N) (v : Z) (n : nat) (b : builder) : Prop := mkZ {
  z_init : b_init b = 0%Z; z_hash : b_hash b = []; z_unused : b_unused b = [];
  z_base : b_base b = replicate n 0; z_label : b_label b = replicate n 0;
  z_states : b_states b = 1; z_mt : b_mergedTrans b = 0; z_mg : b_merging b = 0;
  z_flag : exists ws, bp_words (b_flag b) = replicate ws 0 /\ bp_size (b_flag b) = N.of_nat n /\ (0 < n -> 0 < ws)%nat;
  z_root : b_unit b !! 0%nat = Some (mkDU 1 0 255 false false);
  z_chain : forall i, (i <= length k)%nat -> b_unit b !! S i = Some (chain_unit k v i) }.

Lemma alloc_flag n f : (exists ws, bp_words f = replicate ws 0 /\ bp_size f = N.of_nat n /\ (0 < n -> 0 < ws)%nat) ->
  exists ws, bp_words (bp_allocate f) = replicate ws 0 /\ bp_size (bp_allocate f) = N.of_nat (S n) /\ (0 < S n -> 0 < ws)%nat.
Proof.
  intros (ws & Hw & Hs & Hn). unfold bp_allocate. cbn [bp_words bp_size]. rewrite Hw, Hs.
  destruct (N.eqb_spec (N.of_nat n mod 64) 0) as [E|E].
  - exists (S ws). rewrite replicate_S_end. split; [done|]. lia.
  - exists ws. split; [done|]. split; [lia|]. intros _. apply Hn. destruct n; [done|lia].
Qed.
Lemma rep_snoc n : replicate n 0 ++ [0] = replicate (S n) 0.
Proof. by rewrite replicate_S_end. Qed.

(** The initialisation made by every call. *)
Lemma init_again k v n b : zinv k v n b -> exists b', db_init b = Ok b' /\ zinv k v (S n) b' /\ exists r, b_unfixed b' = 0 :: r.
Proof.
  intros [Hi Hh Hu Hb Hl Hs Hm Hg Hf Hr Hc]. unfold db_init. rewrite Hi. cbn [Z.ltb Z.compare].
  unfold allocateUnit. cbn [set_hash b_unused]. rewrite Hu. cbn [mbind res_bind].
  unfold allocateTransition, upd, get. cbn [set_unit set_pools b_unit b_base b_label b_flag set_hash].
  change (N.to_nat 0) with 0%nat. rewrite (lookup_app_l_Some _ _ _ _ Hr). cbn [mbind res_bind].
  unfold set. change (N.to_nat 0) with 0%nat. rewrite (lookup_app_l_Some _ _ _ _ Hr). cbn [mbind res_bind].
  eexists. split; [reflexivity|]. split; [|by eexists].
  assert (H0 : (0 < length (b_unit b))%nat) by (apply lookup_lt_Some in Hr; done).
  split; cbn; try done.
  - by rewrite Hb, rep_snoc.
  - by rewrite Hl, rep_snoc.
  - by apply alloc_flag.
  - rewrite list_lookup_insert; [done|rewrite app_length; cbn; lia].
  - intros i Hik. rewrite list_lookup_insert_ne by done. by apply lookup_app_l_Some, Hc.
Qed.

(** Fixing anything panics. *)
Lemma fix_panics b r index n us : b_hash b = [] -> b_unfixed b = 0 :: r -> index <> 0 -> b_base b = replicate (S (S n)) 0 -> b_label b = replicate (S (S n)) 0 -> b_states b = 1 ->
  fixUnits (set_unit b us) index = Panic.
Proof.
  destruct b as [ini ba la fl un ha uf uu st mt mg]. cbn [b_hash b_unfixed b_base b_label b_states]. intros -> -> Hi -> -> ->.
  destruct index as [|q]; [done|]. reflexivity.
Qed.

Lemma drop_label (k : list N) i : key_ok k -> (i <= length k)%nat ->
  key_label k (Z.of_nat (length k)) (Z.of_nat i) = Ok (default 0 (k !! i)).
Proof.
  intros Hk Hi. unfold key_label. rewrite Nat2Z.id. destruct (Z.ltb_spec (Z.of_nat i) (Z.of_nat (length k))) as [E|E].
  - destruct (lookup_lt_is_Some_2 k i ltac:(lia)) as [c ->]. done.
  - by rewrite lookup_ge_None_2 by lia.
Qed.
Lemma u32_small x : x < 4294967296 -> u32 x = x.
Proof. intros H. unfold u32, two32. by rewrite N.mod_small. Qed.

Lemma find_again k v n b r s : forall p s1, zinv k v (S (S n)) b -> b_unfixed b = 0 :: r -> k = p ++ s1 -> key_ok (p ++ s) -> key_ok k ->
  insert_find (S (length s)) b (p ++ s) (Z.of_nat (length (p ++ s))) (N.of_nat (length p)) (Z.of_nat (length p)) =
  match kcmp k (p ++ s) with
  | Gt => Ok None | Lt => Panic
  | Eq => Ok (Some (N.of_nat (S (length k)), Z.of_nat (S (length k)), b)) end.
Proof.
  induction s as [|c s IH]; intros p s1 Hz Hu Hk Hok Hokk.
  - rewrite app_nil_r in *. cbn [length insert_find].
    assert (Hg : get (b_unit b) (N.of_nat (length p)) = Ok (match length p with O => mkDU 1 0 255 false false | S i => chain_unit k v i end)).
    { unfold get. rewrite Nat2N.id. destruct (length p) as [|i] eqn:E; [by rewrite (z_root _ _ _ _ Hz)|].
      rewrite (z_chain _ _ _ _ Hz i); [done|]. rewrite Hk, app_length. lia. }
    assert (Hch : u_child (match length p with O => mkDU 1 0 255 false false | S i => chain_unit k v i end) = N.of_nat (S (length p))).
    { destruct (length p) as [|i] eqn:E; [done|]. unfold chain_unit.
      destruct (lookup_lt_is_Some_2 k i) as [c Hc]; [rewrite Hk, app_length; lia|]. by rewrite Hc. }
    rewrite Hg. cbn [mbind res_bind]. rewrite Hch.
    destruct (N.eqb_spec (N.of_nat (S (length p))) 0) as [E|_]; [lia|].
    rewrite drop_label by done. rewrite lookup_ge_None_2 by lia. cbn [mbind res_bind default].
    assert (Hg2 : get (b_unit b) (N.of_nat (S (length p))) = Ok (chain_unit k v (length p))).
    { unfold get. rewrite Nat2N.id, (z_chain _ _ _ _ Hz); [done|]. rewrite Hk, app_length. lia. }
    rewrite Hg2. cbn [mbind res_bind].
    assert (Hlab : u_label (chain_unit k v (length p)) = match s1 with [] => 0 | c1 :: _ => c1 end).
    { unfold chain_unit. rewrite Hk, lookup_app_r by lia. rewrite Nat.sub_diag. by destruct s1. }
    rewrite Hlab. assert (Hcmp : kcmp k p = kcmp s1 []) by (rewrite Hk; rewrite <- (app_nil_r p) at 2; apply kcmp_app).
    rewrite Hcmp. destruct s1 as [|c1 s1]; cbn [kcmp].
    + rewrite N.ltb_irrefl. rewrite Hk, app_nil_r. do 4 f_equal. lia.
    + rewrite Hk in Hokk. apply Forall_app in Hokk as [_ Hc1]. apply Forall_cons in Hc1 as [Hc1 _].
      destruct (N.ltb_spec 0 c1) as [_|?]; [done|lia].
  - assert (Hok' := Hok). apply Forall_app in Hok' as [Hp Hcs]. apply Forall_cons in Hcs as [Hc Hs].
    change (S (length (c :: s))) with (S (S (length s))). remember (S (length s)) as m eqn:Em. cbn [insert_find].
    assert (Hg : get (b_unit b) (N.of_nat (length p)) = Ok (match length p with O => mkDU 1 0 255 false false | S i => chain_unit k v i end)).
    { unfold get. rewrite Nat2N.id. destruct (length p) as [|i] eqn:E; [by rewrite (z_root _ _ _ _ Hz)|].
      rewrite (z_chain _ _ _ _ Hz i); [done|]. rewrite Hk, app_length. lia. }
    assert (Hch : u_child (match length p with O => mkDU 1 0 255 false false | S i => chain_unit k v i end) = N.of_nat (S (length p))).
    { destruct (length p) as [|i] eqn:E; [done|]. unfold chain_unit.
      destruct (lookup_lt_is_Some_2 k i) as [c' Hc']; [rewrite Hk, app_length; lia|]. by rewrite Hc'. }
    rewrite Hg. cbn [mbind res_bind]. rewrite Hch.
    destruct (N.eqb_spec (N.of_nat (S (length p))) 0) as [E|_]; [lia|].
    rewrite drop_label by (try done; rewrite app_length; cbn; lia). rewrite lookup_app_r by lia. rewrite Nat.sub_diag. cbn [mbind res_bind default lookup list_lookup id].
    assert (Hg2 : get (b_unit b) (N.of_nat (S (length p))) = Ok (chain_unit k v (length p))).
    { unfold get. rewrite Nat2N.id, (z_chain _ _ _ _ Hz); [done|]. rewrite Hk, app_length. lia. }
    rewrite Hg2. cbn [mbind res_bind].
    assert (Hlab : u_label (chain_unit k v (length p)) = match s1 with [] => 0 | c1 :: _ => c1 end).
    { unfold chain_unit. rewrite Hk, lookup_app_r by lia. rewrite Nat.sub_diag. by destruct s1. }
    rewrite Hlab.
    assert (Hpan : forall l, l < c -> l = match s1 with [] => 0 | c1 :: _ => c1 end ->
      (us ← upd (b_unit b) (N.of_nat (S (length p))) (fun u => du_set_hasSibling u true);
       b0 ← fixUnits (set_unit b us) (N.of_nat (S (length p)));
       Ok (Some (N.of_nat (length p), Z.of_nat (length p), b0))) = Panic).
    { intros l Hl _. unfold upd. rewrite Hg2. cbn [mbind res_bind]. unfold set. rewrite Nat2N.id.
      rewrite (z_chain _ _ _ _ Hz) by (rewrite Hk, app_length; lia). cbn [mbind res_bind].
      rewrite (fix_panics b r _ n); [done|apply Hz|done|lia|apply Hz|apply Hz|apply Hz]. }
    assert (Hcmp : kcmp k (p ++ c :: s) = kcmp s1 (c :: s)) by (rewrite Hk; apply kcmp_app). rewrite Hcmp.
    destruct s1 as [|c1 s1]; cbn [kcmp].
    + destruct (N.ltb_spec c 0) as [?|_]; [lia|]. destruct (N.ltb_spec 0 c) as [_|?]; [|lia]. apply (Hpan 0); [lia|done].
    + destruct (N.compare_spec c1 c) as [->|Hlt|Hgt].
      * rewrite N.ltb_irrefl. specialize (IH (p ++ [c]) s1 Hz Hu). rewrite <- app_assoc in IH. cbn [app] in IH.
        rewrite <- app_assoc in IH. cbn [app] in IH. specialize (IH Hk Hok Hokk). rewrite Hcmp in IH. cbn [kcmp] in IH. rewrite N.compare_refl in IH.
        replace (N.of_nat (length (p ++ [c]))) with (N.of_nat (S (length p))) in IH by (rewrite app_length; cbn; lia).
        replace (Z.of_nat (length (p ++ [c]))) with (Z.of_nat (length p) + 1)%Z in IH by (rewrite app_length; cbn; lia).
        exact IH.
      * destruct (N.ltb_spec c c1) as [?|_]; [lia|]. destruct (N.ltb_spec c1 c) as [_|?]; [|lia]. apply (Hpan c1); [lia|done].
      * destruct (N.ltb_spec c c1) as [_|?]; [done|lia].
Qed.

Lemma insert_again k v n b k' v' : zinv k v (S n) b -> key_ok k -> key_ok k' ->
  match kcmp k k' with
  | Lt => InsertStringValue b k' v' = Panic
  | Eq => exists b', InsertStringValue b k' v' = Ok (true, b') /\ zinv k v' (S (S n)) b'
  | Gt => exists b', InsertStringValue b k' v' = Ok (false, b') /\ zinv k v (S (S n)) b'
  end.
Proof.
  intros Hz Hk Hk'. destruct (init_again k v _ b Hz) as (b1 & Hi & Hz1 & r & Hr).
  unfold InsertStringValue, InsertKeyValue. rewrite (z_hash _ _ _ _ Hz), Hi. cbn [mbind res_bind].
  replace (Z.to_nat (Z.of_nat (length k') + 1)) with (S (length k')) by lia.
  pose proof (find_again k v n b1 r k' [] k Hz1 Hr eq_refl Hk' Hk) as Hf. cbn [app length] in Hf.
  change (N.of_nat 0) with 0 in Hf. change (Z.of_nat 0) with 0%Z in Hf. rewrite Hf. destruct (kcmp k k') eqn:E; cbn [mbind res_bind].
  - apply kcmp_eq in E as <-. replace (Z.to_nat (Z.of_nat (length k) + 1 - Z.of_nat (S (length k)))) with 0%nat by lia.
    cbn [insert_add mbind res_bind]. unfold upd, get, set. rewrite Nat2N.id, (z_chain _ _ _ _ Hz1) by lia. cbn [mbind res_bind].
    eexists. split; [reflexivity|]. destruct Hz1 as [Ha Hh Hu Hb Hl Hs Hm Hg Hfl Hro Hc]. split; cbn; try done.
    + by rewrite list_lookup_insert_ne.
    + intros i Hik. destruct (decide (i = length k)) as [->|Hne].
      * rewrite list_lookup_insert; [|eapply lookup_lt_Some, Hc; lia]. f_equal. unfold chain_unit. by rewrite lookup_ge_None_2 by lia.
      * rewrite list_lookup_insert_ne by lia. rewrite Hc by done. f_equal. unfold chain_unit.
        destruct (lookup_lt_is_Some_2 k i ltac:(lia)) as [c ->]. done.
  - done.
  - eauto.
Qed.

(** The first insertion: the units of the labels [p] so far. *)
Definition open_unit (p : list N) (i : nat) : dunit :=
  mkDU (if decide (i < length p)%nat then N.of_nat (S i) else 0) 0 (match i with O => 255 | S i => default 0 (p !! i) end)
    (match i with O => false | S _ => true end) false.
Definition opened (p : list N) (us : list dunit) : Prop :=
  length us = S (length p) /\ forall i, (i <= length p)%nat -> us !! i = Some (open_unit p i).
Lemma add_first k : N.of_nat (length k) < 1073741824 -> forall s p b, key_ok k -> k ++ [0] = p ++ s -> b_unused b = [] -> opened p (b_unit b) ->
  exists us uf, insert_add (length s) b k (Z.of_nat (length k)) (N.of_nat (length p)) (Z.of_nat (length p)) =
    Ok (N.of_nat (S (length k)), set_unfixed (set_unit b us) uf) /\ opened (k ++ [0]) us.
Proof.
  intros Hlen s. induction s as [|l s IH]; intros p b Hk Hp Hu [Hl Hus].
  - rewrite app_nil_r in Hp. subst p. exists (b_unit b), (b_unfixed b). split; [|by split]. cbn [insert_add length].
    rewrite app_length. cbn [length]. do 2 f_equal; [lia|]. by destruct b.
  - assert (Hpl : (length p <= length k)%nat) by (apply (f_equal length) in Hp; rewrite !app_length in Hp; cbn in Hp; lia).
    assert (Hlab : default 0 (k !! length p) = l).
    { assert (Hx : (k ++ [0]) !! length p = Some l) by (rewrite Hp, lookup_app_r, Nat.sub_diag by lia; done).
      destruct (decide (length p < length k)%nat) as [?|?]; [rewrite lookup_app_l in Hx by done; by rewrite Hx|].
      rewrite lookup_app_r in Hx by lia. rewrite lookup_ge_None_2 by lia. replace (length p - length k)%nat with 0%nat in Hx by lia. by injection Hx. }
    cbn [length insert_add]. rewrite drop_label, Hlab by done. cbn [mbind res_bind]. unfold allocateUnit. rewrite Hu. cbn [mbind res_bind].
    unfold len32. rewrite Hl, u32_small by lia. cbn [set_unit b_unit].
    assert (Hlast : (b_unit b ++ [du_zero]) !! length p = Some (open_unit p (length p))) by (apply lookup_app_l_Some, Hus; done).
    assert (Hnew : (b_unit b ++ [du_zero]) !! S (length p) = Some du_zero) by (rewrite lookup_app_r, Hl, Nat.sub_diag by lia; done).
    unfold get at 1. rewrite Nat2N.id, Hlast. cbn [mbind res_bind open_unit u_child]. rewrite decide_False by lia.
    change (0 =? 0) with true. cbn iota. unfold upd, get, set. rewrite !Nat2N.id, Hnew. cbn [mbind res_bind].
    rewrite list_lookup_insert by (rewrite app_length; cbn; lia). cbn [mbind res_bind].
    rewrite !list_lookup_insert_ne by lia. rewrite Hlast. cbn [mbind res_bind]. rewrite list_insert_insert.
    cbn [set_unit set_unfixed b_unit b_unfixed].
    match goal with |- context [insert_add _ ?bb _ _ _ _] => set (b2 := bb) end.
    destruct (IH (p ++ [l]) b2) as (us & uf & Hi & Ho); [done|by rewrite <- app_assoc|done| |].
    + split; cbn [b2 set_unfixed set_unit b_unit]; [rewrite !insert_length, !app_length; cbn; lia|].
      intros i Hi. rewrite app_length in Hi. cbn in Hi. unfold open_unit. rewrite app_length. cbn [length].
      destruct (decide (i = length p)) as [->|Hne].
      * rewrite list_lookup_insert by (rewrite insert_length, app_length; cbn; lia).
        unfold du_set_child. cbn [u_sibling u_label u_isState u_hasSibling]. rewrite decide_True by lia. f_equal. destruct (length p) as [|i] eqn:E; [done|].
        by rewrite lookup_app_l by lia.
      * rewrite list_lookup_insert_ne by done. destruct (decide (i = S (length p))) as [->|Hne2].
        -- rewrite list_lookup_insert by (rewrite app_length; cbn; lia). rewrite decide_False by lia.
           rewrite lookup_app_r, Nat.sub_diag by lia. done.
        -- rewrite list_lookup_insert_ne by done. rewrite lookup_app_l by lia. rewrite Hus by lia. unfold open_unit. rewrite decide_True by lia. rewrite decide_True by lia.
           destruct i as [|i]; [done|]. by rewrite lookup_app_l by lia.
    + exists us, uf. split; [|done].
      replace (N.of_nat (length (p ++ [l]))) with (N.of_nat (S (length p))) in Hi by (rewrite app_length; cbn; lia).
      replace (Z.of_nat (length (p ++ [l]))) with (Z.of_nat (length p) + 1)%Z in Hi by (rewrite app_length; cbn; lia).
      rewrite Hi. done.
Qed.
Lemma insert_first k v : key_ok k -> N.of_nat (length k) < 1073741824 ->
  exists b, InsertStringValue (NewDawgBuilderWithSize 0) k v = Ok (true, b) /\ zinv k v 1 b.
Proof.
  intros Hk Hlen. unfold InsertStringValue, InsertKeyValue. cbn [NewDawgBuilderWithSize b_hash].
  match goal with |- context [db_init ?b] => let b1 := eval vm_compute in (db_init b) in change (db_init b) with b1 end. cbn [mbind res_bind].
  replace (Z.to_nat (Z.of_nat (length k) + 1)) with (S (length k)) by lia. cbn [insert_find b_unit get lookup list_lookup N.to_nat mbind res_bind u_child].
  match goal with |- context [mkB ?a ?c ?d ?e ?f ?g ?h ?i ?j ?l ?m] => set (b1 := mkB a c d e f g h i j l m) end.
  change (0 =? 0) with true. cbn iota. cbn [mbind res_bind]. replace (Z.to_nat (Z.of_nat (length k) + 1 - 0)) with (length (k ++ [0])) by (rewrite app_length; cbn; lia).
  destruct (add_first k Hlen (k ++ [0]) [] b1 Hk eq_refl eq_refl) as (us & uf & Hi & Hl & Ho).
  { split; [done|]. intros [|i] H; [done|cbn in H; lia]. }
  cbn [length] in Hi. change (N.of_nat 0) with 0 in Hi. change (Z.of_nat 0) with 0%Z in Hi. rewrite Hi. cbn [mbind res_bind].
  assert (Hlk : length (k ++ [0]) = S (length k)) by (rewrite app_length; cbn; lia).
  unfold upd, get, set. cbn [set_unfixed set_unit b_unit]. rewrite Nat2N.id, Ho by lia. cbn [mbind res_bind].
  eexists. split; [reflexivity|]. split; cbn [set_unfixed set_unit b_init b_hash b_unused b_base b_label b_states b_mergedTrans b_merging b_flag b_unit b1]; try done.
  - exists 1%nat. done.
  - rewrite list_lookup_insert_ne by done. rewrite Ho by lia. unfold open_unit. rewrite decide_True by lia. done.
  - intros i Hik. unfold chain_unit. destruct (decide (i = length k)) as [->|Hne].
    + rewrite list_lookup_insert by (rewrite Hl, Hlk; lia). rewrite lookup_ge_None_2 by lia. f_equal. unfold du_set_child, open_unit. cbn [u_sibling u_label u_isState u_hasSibling].
      by rewrite lookup_app_r, Nat.sub_diag by lia.
    + rewrite list_lookup_insert_ne by lia. rewrite Ho by lia. unfold open_unit. rewrite decide_True by lia. rewrite lookup_app_l by lia.
      destruct (lookup_lt_is_Some_2 k i ltac:(lia)) as [c ->]. done.
Qed.

(** Finish. *)
Lemma finish_zero k v n b d0 : zinv k v n b -> exists ws b', Finish b d0 =
  Ok (mkDawg (4 :: replicate n 0) (255 :: replicate n 0) (mkBP (0 :: replicate ws 0) (N.of_nat (S n))) 1 0 (Z.of_nat n) 0, b').
Proof.
  intros Hz. destruct (init_again k v n b Hz) as (b1 & Hi & Hz1 & r & Hr). unfold Finish. rewrite (z_hash _ _ _ _ Hz), Hi. cbn [mbind res_bind].
  unfold fixUnits. rewrite Hr. cbn [fixUnits_loop]. change (0 =? 0) with true. cbn iota. cbn [mbind res_bind].
  destruct Hz1 as [_ _ _ Hb Hl Hs Hm Hg (ws & Hw & Hn & Hws) Hro _]. unfold get, set.
  cbn [set_unfixed b_unit b_base b_label]. change (N.to_nat 0) with 0%nat. rewrite Hro, Hb, Hl. cbn [mbind res_bind replicate lookup list_lookup insert list_insert].
  destruct ws as [|ws]; [lia|]. exists ws. eexists.
  unfold b_numOfMergedStates, b_numOfTransitions. cbn [set_unfixed set_pools b_unit b_base b_label b_flag b_states b_mergedTrans b_merging].
  rewrite Hs, Hm, Hg. cbn [length]. rewrite replicate_length.
  replace (Z.of_nat (S n) - 1 + Z.of_N 0 + 1 - Z.of_N 1)%Z with (Z.of_nat n) by lia.
  replace (b_flag b1) with (mkBP (0 :: replicate ws 0) (N.of_nat (S n))); [reflexivity|].
  destruct (b_flag b1) as [w z]. cbn in Hw, Hn. by rewrite Hw, Hn.
Qed.

Definition none_greater (k : list N) (h : list entry) : Prop := Forall (fun e => kcmp k e.1 <> Lt) h.
Lemma insert_rest k : forall h v n b, zinv k v (S n) b -> key_ok k -> Forall (fun e : entry => key_ok e.1) h ->
  (none_greater k h -> exists b' v', insert_all b h = Ok (map (fun e => bool_decide (e.1 = k)) h, b') /\ zinv k v' (S (n + length h)) b') /\
  (~ none_greater k h -> insert_all b h = Panic).
Proof.
  induction h as [|[k' v'] h IH]; intros v n b Hz Hk Hh.
  - split.
    + intros _. exists b, v. cbn. by rewrite Nat.add_0_r.
    + intros H. destruct H. constructor.
  - apply Forall_cons in Hh as [Hk' Hh]. cbn [fst] in Hk'. pose proof (insert_again k v n b k' v' Hz Hk Hk') as Hi. cbn [insert_all].
    unfold none_greater. rewrite Forall_cons. cbn [fst]. destruct (kcmp k k') eqn:E.
    + destruct Hi as (b' & -> & Hz'). cbn [mbind res_bind]. destruct (IH _ _ _ Hz' Hk Hh) as [H1 H2]. split.
      * intros [_ Hg]. destruct (H1 Hg) as (b2 & v2 & -> & Hz2). cbn [mbind res_bind map fst]. exists b2, v2.
        apply kcmp_eq in E as <-. rewrite bool_decide_true by done. split; [done|]. cbn [length]. by rewrite Nat.add_succ_r.
      * intros Hg. rewrite H2; [done|]. intros Hg'. by apply Hg.
    + rewrite Hi. split; [naive_solver|done].
    + destruct Hi as (b' & -> & Hz'). cbn [mbind res_bind]. destruct (IH _ _ _ Hz' Hk Hh) as [H1 H2]. split.
      * intros [_ Hg]. destruct (H1 Hg) as (b2 & v2 & -> & Hz2). cbn [mbind res_bind map fst]. exists b2, v2.
        rewrite bool_decide_false; [|intros ->; by rewrite kcmp_refl in E]. split; [done|]. cbn [length]. by rewrite Nat.add_succ_r.
      * intros Hg. rewrite H2; [done|]. intros Hg'. by apply Hg.
Qed.
