(** Histories of keys with zero bytes. *)
From Verif Require Import Go BitPool BitPoolProofs LinkTable LinkTableProofs Probe Dawg Tree DawgRep DawgFrozen DawgFix DawgTrie DawgInsert DawgMain DawgAbs TreeFacts DawgNav DawgThms DawgSpec GuideThms DawgNul DawgNulAny DawgNulSpec.
Local Open Scope N_scope.
Local Ltac Zify.zify_post_hook ::= Z.div_mod_to_equations.
Local Arguments N.mul : simpl never.
Local Arguments N.add : simpl never.
Local Arguments N.of_nat : simpl never.

(** ** Keys *)
Lemma key_cut key : Forall (fun c => c < 256) key -> key_ok key \/ exists k r, key = k ++ 0 :: r /\ key_ok k /\ Forall (fun c => c < 256) r.
Proof.
  induction key as [|c key IH]; intros H; [left; constructor|]. apply Forall_cons in H as [Hc H]. destruct (decide (c = 0)) as [->|].
  - right. exists [], key. split; [done|]. split; [constructor|done].
  - destruct (IH H) as [Hk|(k & r & -> & Hk & Hr)].
    + left. apply Forall_cons. split; [lia|done].
    + right. exists (c :: k), r. split; [done|]. split; [|done]. apply Forall_cons. split; [lia|done].
Qed.
Lemma cut_ok k : key_ok k -> cut k = k.
Proof. intros H. induction H as [|c k Hc _ IH]; [done|]. cbn [cut]. rewrite IH. by destruct (N.eqb_spec c 0); [lia|]. Qed.
Lemma cut_nul k r : key_ok k -> cut (k ++ 0 :: r) = k.
Proof. intros H. induction H as [|c k Hc _ IH]; [done|]. cbn [cut app]. rewrite IH. by destruct (N.eqb_spec c 0); [lia|]. Qed.
Lemma key_nz k : key_ok k -> 0 ∉ k.
Proof. intros H Hi. unfold key_ok in H. rewrite Forall_forall in H. specialize (H 0 Hi). cbn in H. lia. Qed.
Lemma nval_of t : 0 < t < 1073741824 -> nval (Z.of_N t) = t.
Proof. intros Ht. unfold nval, kept. lia. Qed.
Lemma term_tail (k p : list N) l q : k ++ [0] = p ++ l :: q -> (q = [] /\ l = 0 /\ k = p) \/ exists q', q = q' ++ [0] /\ k = p ++ l :: q'.
Proof.
  intros H. destruct q as [|z q0] using rev_ind.
  - apply app_inj_tail in H as [-> <-]. by left.
  - right. rewrite app_comm_cons, app_assoc in H. apply app_inj_tail in H as [-> <-]. exists q0. done.
Qed.
Lemma tri (a : list N) : forall b, (exists s, a = b ++ s) \/ (exists l s, b = a ++ l :: s) \/ exists p l q l' r, a = p ++ l :: q /\ b = p ++ l' :: r /\ l <> l'.
Proof.
  induction a as [|x a IH]; intros [|y b].
  - left. by exists [].
  - right. left. by exists y, b.
  - left. by exists (x :: a).
  - destruct (decide (x = y)) as [<-|Hne]; [|right; right; by exists [], x, a, y, b].
    destruct (IH b) as [[s ->]|[(l & s & ->)|(p & l & q & l' & r & -> & -> & Hne)]]; [left; by exists s|right; left; by exists l, s|right; right; by exists (x :: p), l, q, l', r].
Qed.
Lemma kcmp_div k0 k p l q l' r : k0 ++ [0] = p ++ l :: q -> k ++ [0] = p ++ l' :: r -> l <> l' -> kcmp k0 k = (l ?= l').
Proof.
  intros H1 H2 Hne. destruct (term_tail _ _ _ _ H1) as [(-> & -> & ->)|(q' & -> & ->)]; destruct (term_tail _ _ _ _ H2) as [(-> & -> & ->)|(r' & -> & ->)]; [done| | |].
  - rewrite <- (app_nil_r p) at 1. rewrite kcmp_app. cbn. by destruct l'.
  - rewrite <- (app_nil_r p) at 2. rewrite kcmp_app. cbn. by destruct l.
  - rewrite kcmp_app. cbn. destruct (N.compare_spec l l'); done.
Qed.
Lemma takes_pre k0 k s : k0 ++ [0] = (k ++ [0]) ++ s -> takes k0 k = true.
Proof.
  intros H. unfold takes. destruct (kcmp k0 k) eqn:E; [done|done|]. apply bool_decide_eq_true_2. destruct s as [|z s _] using rev_ind.
  - rewrite app_nil_r in H. apply app_inj_tail in H as [-> _]. by rewrite kcmp_refl in E.
  - rewrite app_assoc in H. apply app_inj_tail in H as [-> _]. by exists s.
Qed.
Lemma takes_ext k0 k l s : k ++ [0] = (k0 ++ [0]) ++ l :: s -> takes k0 k = true /\ k0 ++ [0] `prefix_of` k /\ exists r, k = k0 ++ 0 :: r /\ r ++ [0] = l :: s.
Proof.
  intros H. assert (exists r, k = k0 ++ 0 :: r /\ r ++ [0] = l :: s) as (r & -> & Hr).
  { destruct (exists_last (l := l :: s)) as (r & z & Hz); [done|]. rewrite Hz, app_assoc in H. apply app_inj_tail in H as [-> <-]. exists r. rewrite <- app_assoc. done. }
  split; [|split; [exists r; by rewrite <- app_assoc|by exists r]]. unfold takes. rewrite <- (app_nil_r k0) at 1. by rewrite kcmp_app.
Qed.
Lemma takes_div k0 k p l q l' r : k0 ++ [0] = p ++ l :: q -> k ++ [0] = p ++ l' :: r -> l <> l' -> takes k0 k = (l <? l').
Proof.
  intros H1 H2 Hne. unfold takes. rewrite (kcmp_div _ _ _ _ _ _ _ H1 H2 Hne). unfold N.ltb. destruct (N.compare_spec l l'); [done|done|].
  apply bool_decide_eq_false_2. intros [s ->]. rewrite <- app_assoc, H2, <- app_assoc in H1. apply app_inv_head in H1. by injection H1 as ->.
Qed.
Lemma zero_len k0 k s : key_ok k0 -> k0 ++ [0] = (k ++ [0]) ++ s -> k = k0 /\ s = [].
Proof.
  intros Hk H. destruct s as [|z s _] using rev_ind.
  - rewrite app_nil_r in H. by apply app_inj_tail in H as [-> _].
  - rewrite app_assoc in H. apply app_inj_tail in H as [-> _]. exfalso. apply (key_nz _ Hk). rewrite !elem_of_app. left. right. left.
Qed.
Lemma cut_of K k0 w : key_ok k0 -> K ++ [0] = (k0 ++ [0]) ++ w -> cut K = k0.
Proof.
  intros Hk H. destruct w as [|z w _] using rev_ind.
  - rewrite app_nil_r in H. apply app_inj_tail in H as [-> _]. by apply cut_ok.
  - rewrite app_assoc in H. apply app_inj_tail in H as [-> _]. rewrite <- app_assoc. by apply cut_nul.
Qed.
Lemma head_ok k0 p l q : key_ok k0 -> k0 ++ [0] = p ++ l :: q -> key_ok p.
Proof. intros Hk H. destruct (term_tail _ _ _ _ H) as [(_ & _ & ->)|(q' & _ & ->)]; [done|]. unfold key_ok in *. by apply Forall_app in Hk as [? _]. Qed.
Lemma cut_split k r p l r2 : key_ok p -> (k ++ 0 :: r) ++ [0] = p ++ l :: r2 -> exists r', k ++ [0] = p ++ l :: r'.
Proof.
  intros Hp H. replace ((k ++ 0 :: r) ++ [0]) with ((k ++ [0]) ++ r ++ [0]) in H by (by rewrite <- !app_assoc).
  apply app_eq_app in H as (z & [[H1 H2]|[H1 H2]]).
  - destruct z as [|z0 z]; [|injection H2 as <- _; by exists z]. rewrite app_nil_r in H1. exfalso. apply (key_nz _ Hp). rewrite <- H1. apply elem_of_app. right. left.
  - exfalso. apply (key_nz _ Hp). rewrite H1, !elem_of_app. left. right. left.
Qed.

(** ** The accepted entries and what they stand for *)
Definition group_val (G : list entry) (v : Z) : Prop :=
  (Forall (fun e : entry => 0 ∉ e.1) G /\ exists e, last G = Some e /\ e.2 = v) \/ (Exists (fun e : entry => 0 ∈ e.1) G /\ (0 < v < 1073741824)%Z).
Inductive reads : list entry -> list entry -> Prop :=
  | reads_nil : reads [] []
  | reads_snoc acc es G k v : reads acc es -> Forall (fun e : entry => kcmp (cut e.1) k = Lt) acc -> Forall (fun e : entry => cut e.1 = k) G -> group_val G v ->
      reads (acc ++ G) (es ++ [(k, v)]).
Lemma filter_none {A} (P : A -> Prop) `{forall x, Decision (P x)} l : Forall (fun x => ~ P x) l -> filter P l = [].
Proof. induction 1 as [|x l Hx _ IH]; [done|]. by rewrite filter_cons_False. Qed.
Lemma filter_every {A} (P : A -> Prop) `{forall x, Decision (P x)} l : Forall P l -> filter P l = l.
Proof. induction 1 as [|x l Hx _ IH]; [done|]. by rewrite filter_cons_True, IH. Qed.
Lemma reads_stored acc es : reads acc es -> exists t, (forall k, (0 < t k < 1073741824)%Z) /\ forall k v, (k, v) ∈ map kept_entry es <-> nul_stored t acc k v.
Proof.
  induction 1 as [|acc es G k0 v0 _ (t & Ht & IH) Hlt HG Hv].
  - exists (fun _ => 1%Z). split; [done|]. intros k v. split; [by intros ?%not_elem_of_nil|]. by intros (e & He & _).
  - assert (HGne : G <> []). { destruct Hv as [[_ (e & He & _)]|[He _]]; [by destruct G|]. intros ->. by apply Exists_nil in He. }
    exists (fun k => if decide (k = k0 /\ Exists (fun e : entry => 0 ∈ e.1) G) then v0 else t k). split.
    { intros k. destruct (decide (k = k0 /\ _)) as [[_ He]|_]; [|apply Ht]. destruct Hv as [[Hn _]|[_ Hv]]; [|done]. exfalso. apply Exists_exists in He as (e & Hi & He). rewrite Forall_forall in Hn. by apply (Hn e). }
    intros k v. rewrite map_app, elem_of_app. cbn [map]. rewrite elem_of_list_singleton, IH. unfold nul_stored, with_cut. rewrite filter_app. destruct (decide (k = k0)) as [->|Hne].
    + rewrite (filter_none _ acc), (filter_every _ G) by (first [done|eapply Forall_impl; [exact Hlt|]; cbn; intros e He E; rewrite E, kcmp_refl in He; done]).
      cbn [app]. split.
      * intros [(e & He & _)|[= ->]]; [done|]. destruct (last G) as [e|] eqn:El; [|by apply last_None in El]. exists e. split; [done|].
        destruct Hv as [[Hn (e' & He' & <-)]|[Hz Hv]].
        -- assert (e' = e) as -> by congruence. destruct (decide (Exists _ G)) as [Hz|_]; [|done]. exfalso. apply Exists_exists in Hz as (e' & Hi & He). rewrite Forall_forall in Hn. by apply (Hn e').
        -- destruct (decide (Exists _ G)) as [_|]; [|done]. destruct (decide (k0 = k0 /\ _)) as [_|Hx]; [|by destruct Hx]. unfold kept. rewrite Z.mod_small by lia. done.
      * intros (e & He & ->). right. unfold kept_entry. cbn [fst snd]. f_equal. destruct Hv as [[Hn (e' & He' & <-)]|[Hz Hv]].
        -- rewrite He in He'. injection He' as <-. destruct (decide (Exists _ G)) as [Hz|_]; [|done]. exfalso. apply Exists_exists in Hz as (e' & Hi & He'). rewrite Forall_forall in Hn. by apply (Hn e').
        -- destruct (decide (Exists _ G)) as [_|]; [|done]. destruct (decide (k0 = k0 /\ _)) as [_|Hx]; [|by destruct Hx]. unfold kept. rewrite Z.mod_small by lia. done.
    + rewrite (filter_none _ G), app_nil_r by (eapply Forall_impl; [exact HG|]; cbn; intros e -> E; by apply Hne). split.
      * intros [(e & He & ->)|[= E _]]; [|done]. exists e. split; [done|]. destruct (decide (k = k0 /\ _)) as [[? _]|_]; [done|done].
      * intros (e & He & ->). left. exists e. split; [done|]. destruct (decide (k = k0 /\ _)) as [[? _]|_]; [done|done].
Qed.

(** ** The states *)
Definition st_val (b : builder) (es : list entry) (A : nat) : Prop := exists x afs v, brep_st b x afs v A /\ absw afs v es /\ raw_last b es.
Definition scut (b : builder) (es : list entry) (k : list N) (w : list N) (c : N) (A : nat) : Prop :=
  exists x afs, lst b x afs w c A /\ key_ok k /\ pathof afs = k ++ [0] /\ forall val, absw afs (nval val) (es ++ [(k, val)]).
Definition finishes (b : builder) (es : list entry) : Prop := exists d b', Finish b NewDawg = Ok (d, b') /\
  forall k w, spells d dawg_root k w <-> (k, w) ∈ map kept_entry es.
Definition hsz (H : list entry) : nat := sum_list_with (fun kv => S (length kv.1)) H.
Definition lower (k : list N) (acc : list entry) : Prop := Forall (fun e : entry => kcmp (cut e.1) k = Lt) acc.
Definition at_plain (b : builder) (acc : list entry) (A : nat) : Prop := exists es acc1 G k0 v0, st_val b (es ++ [(k0, v0)]) A /\ acc = acc1 ++ G ++ [(k0, v0)] /\
  reads acc1 es /\ lower k0 acc1 /\ Forall (fun e : entry => e.1 = k0) G /\ key_ok k0.
Definition at_zero (b : builder) (acc : list entry) (A : nat) : Prop := exists es acc1 G k0 w K v0, scut b es k0 w (u32_of_i32 v0) A /\ acc = acc1 ++ G ++ [(K, v0)] /\
  reads acc1 es /\ lower k0 acc1 /\ Forall (fun e : entry => cut e.1 = k0) (G ++ [(K, v0)]) /\ Exists (fun e : entry => 0 ∈ e.1) (G ++ [(K, v0)]) /\ K ++ [0] = (k0 ++ [0]) ++ w.
Definition at_some (b : builder) (acc : list entry) (A : nat) : Prop := at_plain b acc A \/ at_zero b acc A.

Lemma lower_next k0 k acc G : lower k0 acc -> Forall (fun e : entry => cut e.1 = k0) G -> kcmp k0 k = Lt -> lower k (acc ++ G).
Proof.
  intros H1 H2 Hc. apply Forall_app. split; eapply Forall_impl; [exact H1| |exact H2|]; cbn; intros e He; [by eapply kcmp_trans|by rewrite He].
Qed.
Lemma plain_cut k0 v0 G : key_ok k0 -> Forall (fun e : entry => e.1 = k0) G -> Forall (fun e : entry => cut e.1 = k0) (G ++ [(k0, v0)]) /\ group_val (G ++ [(k0, v0)]) v0.
Proof.
  intros Hk HG. split.
  - apply Forall_app. split; [eapply Forall_impl; [exact HG|]; cbn; intros e ->; by apply cut_ok|]. apply Forall_singleton. by apply cut_ok.
  - left. split; [|exists (k0, v0); by rewrite last_snoc]. apply Forall_app. split; [eapply Forall_impl; [exact HG|]; cbn; intros e ->; by apply key_nz|]. apply Forall_singleton. by apply key_nz.
Qed.
Lemma plain_val b es k0 v0 A : st_val b (es ++ [(k0, v0)]) A -> exists x afs v, brep_st b x afs v A /\ absw afs v (es ++ [(k0, v0)]) /\ raw_last b (es ++ [(k0, v0)]) /\ pathof afs = k0 ++ [0].
Proof.
  intros (x & afs & v & Hb & Hab & Hraw). exists x, afs, v. split; [done|]. split; [done|]. split; [done|]. destruct Hab as [_ _ (es1 & k1 & v1 & He & Hp & _)]. by apply app_inj_tail in He as [_ [= <- _]].
Qed.
Definition next_ok (acc : list entry) (kv : entry) : bool := match last acc with None => true | Some e => takes e.1 kv.1 end.
Definition next_acc (acc : list entry) (kv : entry) : list entry := if next_ok acc kv then acc ++ [kv] else acc.
Definition next_calm (acc : list entry) (kv : entry) : Prop := match last acc with None => True | Some e => e.1 ++ [0] `prefix_of` kv.1 -> (e.2 mod 4294967296 = 0)%Z end.
Lemma next_snoc a e kv : next_ok (a ++ [e]) kv = takes e.1 kv.1 /\ (next_calm (a ++ [e]) kv <-> (e.1 ++ [0] `prefix_of` kv.1 -> (e.2 mod 4294967296 = 0)%Z)).
Proof. unfold next_ok, next_calm. by rewrite last_snoc. Qed.

(** After a key without a zero byte. *)
Lemma step_plain b acc A key val : at_plain b acc A -> Forall (fun c => c < 256) key -> next_calm acc (key, val) -> N.of_nat (S (A + S (length key))) <= 1073741824 ->
  exists b' A', InsertStringValue b key val = Ok (next_ok acc (key, val), b') /\ at_some b' (next_acc acc (key, val)) A' /\ (A' <= A + S (length key))%nat.
Proof.
  intros (es & acc1 & G & k0 & v0 & Hst & -> & Hrd & Hlow & HG & Hk0) Hby Hcalm Hsz. unfold next_acc. rewrite app_assoc in *. destruct (next_snoc (acc1 ++ G) (k0, v0) (key, val)) as [-> Hcal]. pose proof (proj1 Hcal Hcalm) as Hcalm'. clear Hcal Hcalm. rename Hcalm' into Hcalm. cbn [fst snd] in *.
  destruct (plain_val _ _ _ _ _ Hst) as (x & afs & v & Hb & Hab & Hraw & Hp). destruct (plain_cut k0 v0 G Hk0 HG) as [HGc HGv].
  destruct (tri (k0 ++ [0]) (key ++ [0])) as [[s Hs]|[(l & s & Hs)|(p & l & q & l' & r & H1 & H2 & Hne)]].
  - rewrite (takes_pre _ _ _ Hs). destruct (zero_len _ _ _ Hk0 Hs) as [-> _].
    destruct (ins_w b x afs v A _ k0 val Hb Hab Hraw Hk0 Hsz) as (b1 & x1 & afs1 & v1 & A1 & Hi & Hb1 & Hab1 & Hraw1 & HA1).
    unfold spec_insert in *. rewrite last_snoc in *. cbn [fst] in *. rewrite kcmp_refl, removelast_snoc in *. cbn [fst snd] in *. exists b1, A1. split; [done|]. split; [|done]. left.
    exists es, acc1, (G ++ [(k0, v0)]), k0, val. split; [by exists x1, afs1, v1|]. split; [by rewrite <- !app_assoc|]. split; [done|]. split; [done|]. split; [|done]. apply Forall_app. split; [done|by apply Forall_singleton].
  - destruct (takes_ext _ _ _ _ Hs) as (-> & Hpre & r & -> & Hr). specialize (Hcalm Hpre). specialize (Hraw k0 v0 (last_snoc _ _)).
    assert (u32_of_i32 v0 = 0) as Hv0 by (unfold u32_of_i32; by rewrite Hcalm). rewrite Hv0 in Hraw. apply Forall_app in Hby as [_ Hby]. apply Forall_cons in Hby as [_ Hby]. rewrite app_length in Hsz |- *. cbn [length] in Hsz |- *.
    destruct (same_nul b x afs v A k0 r val Hb Hraw Hby ltac:(lia) Hp) as (b' & Hi & Hpend). exists b', (A + S (length r))%nat. split; [done|]. split; [|lia]. right.
    exists es, acc1, (G ++ [(k0, v0)]), k0, (r ++ [0]), (k0 ++ 0 :: r), val. split; [|split; [by rewrite <- !app_assoc|split; [done|split; [done|split; [|split]]]]].
    + exists x, afs. split; [by apply pendw_lst|]. split; [done|]. split; [done|]. intros w. by eapply absw_val.
    + apply Forall_app. split; [done|]. apply Forall_singleton. by apply cut_nul.
    + apply Exists_app. right. apply Exists_cons. left. cbn [fst]. apply elem_of_app. right. left.
    + by rewrite <- !app_assoc.
  - rewrite (takes_div _ _ _ _ _ _ _ H1 H2 Hne). destruct (N.ltb_spec l l') as [Hlt|Hge].
    + assert (Hfix : reads ((acc1 ++ G) ++ [(k0, v0)]) (es ++ [(k0, v0)])) by (rewrite <- app_assoc; by constructor).
      destruct (key_cut key Hby) as [Hk|(k & r0 & -> & Hk & Hr0)].
      * destruct (ins_w b x afs v A _ key val Hb Hab Hraw Hk Hsz) as (b1 & x1 & afs1 & v1 & A1 & Hi & Hb1 & Hab1 & Hraw1 & HA1).
        assert (Hc : kcmp k0 key = Lt) by (rewrite (kcmp_div _ _ _ _ _ _ _ H1 H2 Hne); exact Hlt).
        unfold spec_insert in *. rewrite last_snoc in *. cbn [fst] in *. rewrite Hc in *. cbn [fst snd] in *. exists b1, A1. split; [done|]. split; [|done]. left.
        exists (es ++ [(k0, v0)]), ((acc1 ++ G) ++ [(k0, v0)]), [], key, val. split; [by exists x1, afs1, v1|]. split; [done|]. split; [done|]. split; [|done]. rewrite <- app_assoc. by eapply lower_next.
      * destruct (cut_split _ _ _ _ _ (head_ok _ _ _ _ Hk0 H1) H2) as [r' Hr']. pose proof H1 as H1'. rewrite <- Hp in H1'. rewrite app_length in Hsz |- *. cbn [length] in Hsz |- *.
        assert (Hc : kcmp k0 k = Lt) by (rewrite (kcmp_div _ _ _ _ _ _ _ H1 Hr' Hne); exact Hlt).
        destruct (higher_nul b x afs v A k r0 val p l q l' r' Hb Hk Hr0 ltac:(lia) H1' Hr' Hlt) as (inner & es2 & outer & Hafs & Hpo & Hpi & Hins).
        rewrite aaclose_eq in Hins. destruct Hins as (b' & Hi & Hb' & _). exists b'. eexists. split; [exact Hi|]. split; [|apply (f_equal length) in Hr'; rewrite !app_length in Hr'; cbn [length] in Hr'; instantiate (1 := (A + S (length r') + S (length r0))%nat); lia]. right.
        exists (es ++ [(k0, v0)]), ((acc1 ++ G) ++ [(k0, v0)]), [], k, (r0 ++ [0]), (k ++ 0 :: r0), val. split; [|split; [done|split; [done|split; [|split; [|split]]]]].
        -- eexists _, _. split; [apply pendw_lst; exact Hb'|]. split; [done|]. split; [by rewrite pathof_apush, Hpo|]. intros w. subst afs. by eapply absw_higher.
        -- rewrite <- app_assoc. by eapply lower_next.
        -- apply Forall_singleton. by apply cut_nul.
        -- apply Exists_cons. left. cbn [fst]. apply elem_of_app. right. left.
        -- by rewrite <- !app_assoc.
    + rewrite <- Hp in H1. exists b, A. split; [|split; [left|lia]].
      * unfold InsertStringValue. apply (insert_lower b x afs v A key (length key) val p l q l' r); [exact Hb|done|exact H1| |lia]. unfold keyof. rewrite take_ge by lia. exact H2.
      * exists es, acc1, G, k0, v0. split; [done|]. split; [by rewrite <- app_assoc|]. done.
Qed.
(** After a key with a zero byte. *)
Lemma step_zero b acc A key val : at_zero b acc A -> Forall (fun c => c < 256) key -> next_calm acc (key, val) -> N.of_nat (S (A + S (length key))) <= 1073741824 ->
  exists b' A', InsertStringValue b key val = Ok (next_ok acc (key, val), b') /\ at_some b' (next_acc acc (key, val)) A' /\ (A' <= A + S (length key))%nat.
Proof.
  intros (es & acc1 & G & k0 & w & K & v0 & Hst & -> & Hrd & Hlow & HG & Hex & HK) Hby Hcalm Hsz. unfold next_acc. rewrite (app_assoc acc1) in *. destruct (next_snoc (acc1 ++ G) (K, v0) (key, val)) as [-> Hcal]. pose proof (proj1 Hcal Hcalm) as Hcalm'. clear Hcal Hcalm. rename Hcalm' into Hcalm. cbn [fst snd] in *.
  pose proof Hst as (x & afs & Hlst & Hk0 & Hp & Hab). pose proof HK as HV. rewrite <- Hp in HV.
  assert (Hstay : forall b' A' x' w', lst b' x' afs w' (u32_of_i32 val) A' -> key ++ [0] = (k0 ++ [0]) ++ w' -> at_some b' (((acc1 ++ G) ++ [(K, v0)]) ++ [(key, val)]) A').
  { intros b' A' x' w' Hl Hw'. right. exists es, acc1, (G ++ [(K, v0)]), k0, w', key, val. split; [by exists x', afs|]. split; [by rewrite <- !app_assoc|]. split; [done|]. split; [done|].
    split; [apply Forall_app; split; [done|]; apply Forall_singleton; by eapply cut_of|]. split; [apply Exists_app; by left|done]. }
  destruct (tri (K ++ [0]) (key ++ [0])) as [[s Hs]|[(l & s & Hs)|(p & l & q & l' & r & H1 & H2 & Hne)]].
  - rewrite (takes_pre _ _ _ Hs). assert (exists w1 w2, key ++ [0] = (k0 ++ [0]) ++ w1 /\ w = w1 ++ w2) as (w1 & w2 & Hw1 & ->).
    { rewrite HK in Hs. apply app_eq_app in Hs as (z & [[E1 E2]|[E1 E2]]); [|by exists z, s]. destruct (zero_len _ _ _ Hk0 E1) as [-> ->]. exists [], w. split; [by rewrite app_nil_r|done]. }
    pose proof Hw1 as Hw1'. rewrite <- Hp in Hw1'. destruct (lst_prefix b x afs w1 w2 _ A key val Hlst Hw1') as (a' & Hi & Hl). exists a', A. split; [done|]. split; [by eapply Hstay|lia].
  - destruct (takes_ext _ _ _ _ Hs) as (-> & Hpre & _). specialize (Hcalm Hpre). assert (u32_of_i32 v0 = 0) as Hv0 by (unfold u32_of_i32; by rewrite Hcalm). rewrite Hv0 in Hlst.
    pose proof Hs as Hs'. rewrite HV in Hs'. assert (Hls : (S (length s) <= S (length key))%nat) by (apply (f_equal length) in Hs; rewrite !app_length in Hs; cbn [length] in Hs; lia).
    destruct (lst_longer b x afs w A key val l s Hlst Hs' ltac:(lia) Hby) as (a' & Hi & Hl). exists a'. eexists. split; [done|]. split; [|instantiate (1 := (A + S (length s))%nat); lia]. eapply Hstay; [exact Hl|]. by rewrite Hs, HK, <- !app_assoc.
  - rewrite (takes_div _ _ _ _ _ _ _ H1 H2 Hne). destruct (N.ltb_spec l l') as [Hlt|Hge].
    2:{ exists b, A. split; [|split; [right|lia]].
        - eapply (lst_lower b x afs w _ A key val p l q l' r Hlst); [by rewrite <- HV|done|lia].
        - exists es, acc1, G, k0, w, K, v0. split; [done|]. split; [by rewrite <- app_assoc|]. done. }
    assert ((exists q1, k0 ++ [0] = p ++ l :: q1) \/ exists p1, p = (k0 ++ [0]) ++ p1 /\ w = p1 ++ l :: q) as [[q1 Hq1]|(p1 & -> & ->)].
    { rewrite HK in H1. apply app_eq_app in H1 as (z & [[E1 E2]|[E1 E2]]); [|right; by exists z]. destruct z as [|z0 z]; [right; exists []; rewrite app_nil_r in *; by split|]. injection E2 as <- _. left. by exists z. }
    2:{ assert (Hls : (S (length r) <= S (length key))%nat) by (apply (f_equal length) in H2; rewrite !app_length in H2; cbn [length] in H2; lia). pose proof H2 as H2'. rewrite <- Hp in H2'.
        destruct (lst_in b x afs _ A key val p1 l q l' r Hlst H2' Hlt ltac:(lia) Hby) as (a' & x' & Hi & Hl). exists a'. eexists. split; [done|]. split; [|instantiate (1 := (A + S (length r))%nat); lia]. eapply Hstay; [exact Hl|]. by rewrite H2, <- !app_assoc. }
    assert (Hq1' : pathof afs = p ++ l :: q1) by (by rewrite Hp).
    destruct (lst_out b x afs w _ A key val p l q1 l' r Hlst Hq1' H2 Hlt) as (b0 & Hb & Heq). rewrite Heq.
    assert (Hfix : forall t, 0 < t < 1073741824 -> reads ((acc1 ++ G) ++ [(K, v0)]) (es ++ [(k0, Z.of_N t)])).
    { intros t Ht. rewrite <- app_assoc. constructor; [done|done|done|]. right. split; [done|lia]. }
    assert (Hlow' : forall k, kcmp k0 k = Lt -> lower k ((acc1 ++ G) ++ [(K, v0)])) by (intros k Hc; rewrite <- app_assoc; by eapply lower_next).
    destruct (key_cut key Hby) as [Hk|(k & r0 & -> & Hk & Hr0)].
    + assert (Hko : keyof key (length key) = key) by (unfold keyof; by rewrite take_ge). pose proof H2 as H2'. rewrite <- Hko in H2'.
      destruct (insert_higher_nul b0 x afs A key (length key) val p l q1 l' r Hb ltac:(done) ltac:(by rewrite Hko) ltac:(lia) Hq1' H2' Hlt) as (inner & es2 & outer & Hafs & Hpo & Hpi & t & x1 & Ht & Hins).
      rewrite aaclose_eq in Hins. destruct Hins as (b' & Hi & Hb' & Hraw). rewrite val31_nval in Hb'. exists b'. eexists. split; [exact Hi|].
      split; [left|apply (f_equal length) in H2; rewrite !app_length in H2; cbn [length] in H2; instantiate (1 := (A + S (length r))%nat); lia].
      exists (es ++ [(k0, Z.of_N t)]), ((acc1 ++ G) ++ [(K, v0)]), [], key, val. split; [|split; [done|split; [by apply Hfix|split; [|done]]]].
      * eexists _, _, _. split; [exact Hb'|]. specialize (Hab (Z.of_N t)). rewrite nval_of in Hab by done. subst afs. split; [by eapply absw_higher|]. intros k' v' Hl. rewrite last_snoc in Hl. by injection Hl as <- <-.
      * apply Hlow'. rewrite (kcmp_div _ _ _ _ _ _ _ Hq1 H2 Hne). exact Hlt.
    + destruct (cut_split _ _ _ _ _ (head_ok _ _ _ _ Hk0 Hq1) H2) as [r' Hr']. rewrite app_length in Hsz |- *. cbn [length] in Hsz |- *.
      destruct (higher_nul2 b0 x afs A k r0 val p l q1 l' r' Hb Hk Hr0 ltac:(lia) Hq1' Hr' Hlt) as (inner & es2 & outer & Hafs & Hpo & Hpi & t & x1 & Ht & Hins).
      rewrite aaclose_eq in Hins. destruct Hins as (b' & Hi & Hb' & _). exists b'. eexists. split; [exact Hi|].
      split; [right|apply (f_equal length) in Hr'; rewrite !app_length in Hr'; cbn [length] in Hr'; instantiate (1 := (A + S (length r') + S (length r0))%nat); lia].
      exists (es ++ [(k0, Z.of_N t)]), ((acc1 ++ G) ++ [(K, v0)]), [], k, (r0 ++ [0]), (k ++ 0 :: r0), val. split; [|split; [done|split; [by apply Hfix|split; [|split; [|split]]]]].
      * eexists _, _. split; [apply pendw_lst; exact Hb'|]. split; [done|]. split; [by rewrite pathof_apush, Hpo|]. intros u. specialize (Hab (Z.of_N t)). rewrite nval_of in Hab by done. subst afs. by eapply absw_higher.
      * apply Hlow'. rewrite (kcmp_div _ _ _ _ _ _ _ Hq1 Hr' Hne). exact Hlt.
      * apply Forall_singleton. by apply cut_nul.
      * apply Exists_cons. left. cbn [fst]. apply elem_of_app. right. left.
      * by rewrite <- !app_assoc.
Qed.
Lemma step_some b acc A key val : at_some b acc A -> Forall (fun c => c < 256) key -> next_calm acc (key, val) -> N.of_nat (S (A + S (length key))) <= 1073741824 ->
  exists b' A', InsertStringValue b key val = Ok (next_ok acc (key, val), b') /\ at_some b' (next_acc acc (key, val)) A' /\ (A' <= A + S (length key))%nat.
Proof. intros [H|H]; [by apply step_plain|by apply step_zero]. Qed.
Lemma some_finish b acc A : at_some b acc A -> exists es, reads acc es /\ finishes b es.
Proof.
  intros [(es & acc1 & G & k0 & v0 & Hst & -> & Hrd & Hlow & HG & Hk0)|(es & acc1 & G & k0 & w & K & v0 & Hst & -> & Hrd & Hlow & HG & Hex & HK)].
  - exists (es ++ [(k0, v0)]). destruct (plain_cut k0 v0 G Hk0 HG) as [HGc HGv]. split; [by constructor|]. destruct (plain_val _ _ _ _ _ Hst) as (x & afs & v & Hb & Hab & _).
    destruct (finish_w _ _ _ _ _ _ NewDawg Hb Hab) as (d' & b' & Hf & Hsp). by exists d', b'.
  - destruct Hst as (x & afs & Hlst & Hk & Hp & Hab). destruct (lst_finish _ _ _ _ _ _ NewDawg Hlst) as (b0 & Hb & Heq).
    destruct (finish_nul b0 x afs A NewDawg Hb) as (t & x1 & Ht & Hf). rewrite aaclose_eq in Hf. exists (es ++ [(k0, Z.of_N t)]). split; [constructor; [done|done|done|right; split; [done|lia]]|].
    destruct Hf as (d' & b' & k' & es' & Hfin & Hes' & Hk' & Hwf' & Hrep). rewrite Hes' in Hwf'. exists d', b'. split; [by rewrite Heq|]. intros k1 u.
    rewrite (spells_w d' _ _ es' k1 u Hrep Hwf') by (right; eauto). specialize (Hab (Z.of_N t)). rewrite nval_of in Hab by done. pose proof (aw_ent _ _ _ Hab) as Hent. rewrite Hes' in Hent. rewrite elem_kept, <- Hent. done.
Qed.
Lemma some_first size key val : size_ok size -> Forall (fun c => c < 256) key -> N.of_nat (S (S (length key))) <= 1073741824 ->
  exists b A, InsertStringValue (NewDawgBuilderWithSize size) key val = Ok (true, b) /\ at_some b [(key, val)] A /\ (A <= S (length key))%nat.
Proof.
  intros Hs Hby Hsz. destruct (key_cut key Hby) as [Hk|(k & r & -> & Hk & Hr)].
  - destruct (first_abs key val Hk ltac:(lia)) as (afs & Hab & Hb). destruct (Hb size Hs) as (b & Hi & Hb1).
    assert (Hko : keyof key (length key) = key) by (unfold keyof; by rewrite take_ge).
    destruct (insert_first_raw size key (length key) val Hs ltac:(done) ltac:(by rewrite Hko) ltac:(lia)) as (b2 & l & r & _ & Hi2 & _ & _ & Hraw).
    fold (InsertStringValue (NewDawgBuilderWithSize size) key val) in Hi2. rewrite Hi in Hi2. injection Hi2 as <-.
    exists b, (S (length key)). split; [done|]. split; [|lia]. left. exists [], [], [], key, val. split; [|split; [done|split; [constructor|split; [constructor|split; [constructor|done]]]]].
    exists fx0, afs, (nval val). split; [done|]. split; [by eapply absw_of|]. intros k' v' Hl. cbn in Hl. by injection Hl as <- <-.
  - destruct (k ++ [0]) as [|l r'] eqn:E; [by apply app_eq_nil in E as [_ ?]|]. rewrite app_length in Hsz |- *. cbn [length] in Hsz |- *.
    destruct (first_nul size k r val l r' Hs Hk Hr ltac:(lia) E) as (b & Hi & Hpend).
    exists b, (S (length k) + S (length r))%nat. split; [done|]. split; [|lia]. right. exists [], [], [], k, (r ++ [0]), (k ++ 0 :: r), val.
    split; [|split; [done|split; [constructor|split; [constructor|split; [|split]]]]].
    + exists fx0, (apush l [] r' []). split; [by apply pendw_lst|]. split; [done|]. split; [by rewrite pathof_apush|]. intros w. split.
      * by eapply apush_shape.
      * rewrite (ent_apush _ _ _ _ _ k) by done. done.
      * exists [], k, w. split; [done|]. rewrite pathof_apush. done.
    + apply Forall_singleton. by apply cut_nul.
    + apply Exists_cons. left. cbn [fst]. apply elem_of_app. right. left.
    + by rewrite <- !app_assoc.
Qed.

(** ** Whole histories *)
Lemma nul_run_cons acc kv H : nul_run acc (kv :: H) = (next_ok acc kv :: (nul_run (next_acc acc kv) H).1, (nul_run (next_acc acc kv) H).2).
Proof. cbn [nul_run]. fold (next_ok acc kv). fold (next_acc acc kv). by destruct (nul_run (next_acc acc kv) H). Qed.
Lemma nul_run_more H : forall acc, exists rest, (nul_run acc H).2 = acc ++ rest.
Proof.
  induction H as [|kv H IH]; intros acc; [exists []; by rewrite app_nil_r|]. rewrite nul_run_cons. cbn [snd]. destruct (IH (next_acc acc kv)) as [rest ->]. unfold next_acc.
  destruct (next_ok acc kv); [|by exists rest]. exists (kv :: rest). by rewrite <- app_assoc.
Qed.
Lemma calm_next acc kv H : calm (nul_run acc (kv :: H)).2 -> next_calm acc kv.
Proof.
  intros Hc. unfold next_calm. destruct (last acc) as [e|] eqn:El; [|done]. apply last_Some in El as [a ->]. intros Hpre. rewrite nul_run_cons in Hc. cbn [snd] in Hc.
  assert (Ht : next_acc (a ++ [e]) kv = (a ++ [e]) ++ [kv]).
  { unfold next_acc, next_ok. rewrite last_snoc. destruct Hpre as [s Hs]. unfold takes. rewrite Hs. replace (kcmp e.1 ((e.1 ++ [0]) ++ s)) with Lt; [done|]. rewrite <- (app_nil_r e.1) at 1. by rewrite <- app_assoc, kcmp_app. }
  rewrite Ht in Hc. destruct (nul_run_more H ((a ++ [e]) ++ [kv])) as [rest Hrest]. rewrite Hrest in Hc. eapply (Hc a e kv rest); [|done]. by rewrite <- !app_assoc.
Qed.
Lemma run_some H : forall b acc A, at_some b acc A -> bytes_ok H -> calm (nul_run acc H).2 -> N.of_nat (S (A + hsz H)) <= 1073741824 ->
  exists b' A', insert_all b H = Ok ((nul_run acc H).1, b') /\ at_some b' (nul_run acc H).2 A' /\ (A' <= A + hsz H)%nat.
Proof.
  induction H as [|[key val] H IH]; intros b acc A Hst Hby Hc Hsz.
  - exists b, A. split; [done|]. split; [done|]. lia.
  - apply Forall_cons in Hby as [Hby1 Hby]. pose proof (calm_next _ _ _ Hc) as Hn. rewrite nul_run_cons in *. unfold hsz in *. cbn [sum_list_with fst snd] in *.
    destruct (step_some b acc A key val Hst Hby1 Hn ltac:(lia)) as (b1 & A1 & Hi & Hst1 & HA1).
    destruct (IH b1 _ A1 Hst1 Hby Hc ltac:(lia)) as (b2 & A2 & Hi2 & Hst2 & HA2). exists b2, A2. split; [|split; [done|lia]].
    cbn [insert_all]. rewrite Hi. cbn [mbind res_bind]. rewrite Hi2. done.
Qed.
Lemma run_history size H : size_ok size -> bytes_ok H -> hist_size H < 1073741824 -> calm (nul_accepted H) -> H <> [] ->
  exists b A, insert_all (NewDawgBuilderWithSize size) H = Ok (nul_results H, b) /\ at_some b (nul_accepted H) A /\ N.of_nat A <= hist_size H.
Proof.
  intros Hs Hby Hsz Hc Hne. destruct H as [|[key val] H]; [done|]. clear Hne. apply Forall_cons in Hby as [Hby1 Hby]. unfold nul_results, nul_accepted, hist_size in *. rewrite nul_run_cons in *. cbn [sum_list_with fst snd] in *.
  destruct (some_first size key val Hs Hby1 ltac:(lia)) as (b & A & Hi & Hst & HA). unfold next_ok, next_acc in *. cbn [last next_ok app] in *.
  destruct (run_some H b _ A Hst Hby Hc) as (b1 & A1 & Hi1 & Hst1 & HA1); [unfold hsz; lia|]. exists b1, A1. split; [|split; [done|unfold hsz in *; lia]].
  cbn [insert_all]. rewrite Hi. cbn [mbind res_bind]. rewrite Hi1. done.
Qed.
Lemma nul_exact size H : size_ok size -> bytes_ok H -> hist_size H < 1073741824 -> calm (nul_accepted H) -> H <> [] ->
  exists b d b' t, insert_all (NewDawgBuilderWithSize size) H = Ok (nul_results H, b) /\ Finish b NewDawg = Ok (d, b') /\
    (forall k, 0 < t k < 1073741824)%Z /\ forall k v, spells d dawg_root k v <-> nul_stored t (nul_accepted H) k v.
Proof.
  intros Hs Hby Hsz Hc Hne. destruct (run_history size H Hs Hby Hsz Hc Hne) as (b & A & Hi & Hst & _). destruct (some_finish _ _ _ Hst) as (es & Hrd & d & b' & Hf & Hsp).
  destruct (reads_stored _ _ Hrd) as (t & Ht & Hst'). exists b, d, b', t. split; [done|]. split; [done|]. split; [intros k; specialize (Ht k); lia|]. intros k v. by rewrite Hsp.
Qed.
Lemma some_panic b acc A k v r w : at_some b acc A -> last acc = Some (k, v) -> (Z.of_nat A < v mod 4294967296)%Z -> InsertStringValue b (k ++ 0 :: r) w = Panic.
Proof.
  intros [(es & acc1 & G & k0 & v0 & Hst & -> & _ & _ & _ & Hk0)|(es & acc1 & G & k0 & u & K & v0 & (x & afs & Hlst & Hk0 & Hp & Hab) & -> & _ & _ & _ & _ & HK)] Hl Hv; rewrite app_assoc, last_snoc in Hl; injection Hl as -> ->.
  - destruct (plain_val _ _ _ _ _ Hst) as (x & afs & v' & Hb & Hab & Hraw & Hp). eapply big_panic; [exact Hb|exact Hp|apply (Hraw k v), last_snoc|]. unfold u32_of_i32. lia.
  - destruct (r ++ [0]) as [|l s] eqn:E; [by apply app_eq_nil in E as [_ ?]|]. eapply (lst_panic b x afs u _ A _ w l s Hlst).
    + rewrite Hp, <- HK, <- E, <- !app_assoc. done.
    + unfold u32_of_i32. lia.
Qed.
Lemma some_false b acc A k v key w : at_some b acc A -> last acc = Some (k, v) -> takes k key = false -> InsertStringValue b key w = Ok (false, b).
Proof.
  intros Hst Hl Ht.
  assert (exists p l q l' r, k ++ [0] = p ++ l :: q /\ key ++ [0] = p ++ l' :: r /\ l' < l) as (p & l & q & l' & r & H1 & H2 & Hlt).
  { destruct (tri (k ++ [0]) (key ++ [0])) as [[s Hs]|[(l & s & Hs)|(p & l & q & l' & r & H1 & H2 & Hne)]].
    - by rewrite (takes_pre _ _ _ Hs) in Ht.
    - destruct (takes_ext _ _ _ _ Hs) as [Ht' _]. congruence.
    - rewrite (takes_div _ _ _ _ _ _ _ H1 H2 Hne) in Ht. exists p, l, q, l', r. apply N.ltb_ge in Ht. split; [done|]. split; [done|lia]. }
  destruct Hst as [(es & acc1 & G & k0 & v0 & Hst & -> & _ & _ & _ & Hk0)|(es & acc1 & G & k0 & u & K & v0 & (x & afs & Hlst & Hk0 & Hp & Hab) & -> & _ & _ & _ & _ & HK)]; rewrite app_assoc, last_snoc in Hl; injection Hl as -> ->.
  - destruct (plain_val _ _ _ _ _ Hst) as (x & afs & v' & Hb & Hab & Hraw & Hp). rewrite <- Hp in H1. unfold InsertStringValue. apply (insert_lower b x afs v' A key (length key) w p l q l' r); [exact Hb|done|exact H1| |exact Hlt]. unfold keyof. rewrite take_ge by lia. exact H2.
  - apply (lst_lower b x afs u _ A key w p l q l' r Hlst); [by rewrite Hp, <- HK|done|done].
Qed.
Lemma nul_panic size H k v r w b : size_ok size -> bytes_ok H -> hist_size H < 1073741824 -> calm (nul_accepted H) ->
  insert_all (NewDawgBuilderWithSize size) H = Ok (nul_results H, b) -> last (nul_accepted H) = Some (k, v) -> (Z.of_N (hist_size H) < v mod 4294967296)%Z -> InsertStringValue b (k ++ 0 :: r) w = Panic.
Proof.
  intros Hs Hby Hsz Hc Hb Hl Hv. destruct (run_history size H Hs Hby Hsz Hc) as (b1 & A & Hi & Hst & HA); [by intros ->|]. rewrite Hb in Hi. injection Hi as <-. eapply some_panic; [exact Hst|exact Hl|lia].
Qed.
Lemma nul_false size H k v key w b : size_ok size -> bytes_ok H -> hist_size H < 1073741824 -> calm (nul_accepted H) ->
  insert_all (NewDawgBuilderWithSize size) H = Ok (nul_results H, b) -> last (nul_accepted H) = Some (k, v) -> takes k key = false -> InsertStringValue b key w = Ok (false, b).
Proof.
  intros Hs Hby Hsz Hc Hb Hl Ht. destruct (run_history size H Hs Hby Hsz Hc) as (b1 & A & Hi & Hst & HA); [by intros ->|]. rewrite Hb in Hi. injection Hi as <-. by eapply some_false.
Qed.

(** The condition, computed. *)
Definition prefixb (a b : list N) : bool := bool_decide (a `prefix_of` b).
Fixpoint calmb (acc : list entry) : bool := match acc with
  | e1 :: ((e2 :: _) as rest) => (negb (prefixb (e1.1 ++ [0]) e2.1) || (e1.2 mod 4294967296 =? 0)%Z) && calmb rest
  | _ => true end.
Lemma calm_check acc : calmb acc = true -> calm acc.
Proof.
  intros H a e1 e2 c -> Hp. induction a as [|e a IH].
  - cbn [app calmb] in H. apply andb_true_iff in H as [H _]. unfold prefixb in H. rewrite bool_decide_eq_true_2 in H by done. cbn in H. by apply Z.eqb_eq in H.
  - apply IH. cbn [app] in H. destruct a as [|e' a]; cbn [app calmb] in H |- *; by apply andb_true_iff in H as [_ H].
Qed.
(** Histories without zero bytes. *)
Lemma nul_from H : forall acc, Forall (fun e : entry => key_ok e.1) acc -> Forall (fun e : entry => key_ok e.1) H -> Forall (fun e : entry => key_ok e.1) (nul_run acc H).2.
Proof.
  induction H as [|kv H IH]; intros acc Ha Hh; [done|]. rewrite nul_run_cons. cbn [snd]. apply Forall_cons in Hh as [H1 Hh]. apply IH; [|done]. unfold next_acc. destruct (next_ok acc kv); [|done]. apply Forall_app. split; [done|by constructor].
Qed.
Lemma ok_nz acc : Forall (fun e : entry => key_ok e.1) acc -> Forall (fun e : entry => 0 ∉ e.1) acc.
Proof. intros H. eapply Forall_impl; [exact H|]. cbn. intros e. apply key_nz. Qed.
Lemma ok_calm acc : Forall (fun e : entry => key_ok e.1) acc -> calm acc.
Proof.
  intros H a e1 e2 c -> [s Hs]. apply ok_nz in H. apply Forall_app in H as [_ H]. apply Forall_cons in H as [_ H]. apply Forall_cons in H as [H _]. destruct H. rewrite Hs. apply elem_of_app. left. apply elem_of_app. right. left.
Qed.
Lemma stored_any t t' acc k v : Forall (fun e : entry => key_ok e.1) acc -> nul_stored t acc k v -> nul_stored t' acc k v.
Proof.
  intros H (e & Hl & ->). exists e. split; [done|]. destruct (decide (Exists _ _)) as [Hx|_]; [|done]. exfalso. apply Exists_exists in Hx as (f & Hf & H0). apply elem_of_list_filter in Hf as [_ Hf]. apply ok_nz in H. rewrite Forall_forall in H. by apply (H f).
Qed.
Lemma nul_agrees h t : hist_ok h -> h <> [] -> nul_results h = results h /\ calm (nul_accepted h) /\
  forall k v, nul_stored t (nul_accepted h) k v <-> (k, v) ∈ map kept_entry (accepted h).
Proof.
  intros [Hk Hsz] Hne. assert (Hok : Forall (fun e : entry => key_ok e.1) (nul_accepted h)) by (apply nul_from; [constructor|done]).
  pose proof (ok_calm _ Hok) as Hc. assert (Hs : size_ok 4) by (unfold size_ok; lia).
  assert (Hby : bytes_ok h). { eapply Forall_impl; [exact Hk|]. cbn. intros e He. eapply Forall_impl; [exact He|]. cbn. lia. }
  destruct (nul_exact 4 h Hs Hby Hsz Hc Hne) as (b & d & b' & t' & Hi & Hf & _ & Hsp).
  destruct (build_spells 4 h NewDawg Hs (conj Hk Hsz)) as (d2 & Hb2 & Hsp2). unfold build in Hb2. rewrite Hi in Hb2. cbn [mbind res_bind] in Hb2. rewrite Hf in Hb2. cbn [mbind res_bind] in Hb2. injection Hb2 as Hr ->.
  split; [done|]. split; [done|]. intros k v. rewrite <- Hsp2, Hsp. split; by apply stored_any.
Qed.

(** ** The edges of the Dawg *)
Lemma some_tree b acc A : at_some b acc A -> exists es R x d b', reads acc es /\ Finish b NewDawg = Ok (d, b') /\ dawgw d R x /\ R <> [] /\ ent_es R = map nentry es.
Proof.
  intros [(es & acc1 & G & k0 & v0 & Hst & -> & Hrd & Hlow & HG & Hk0)|(es & acc1 & G & k0 & w & K & v0 & Hst & -> & Hrd & Hlow & HG & Hex & HK)].
  - exists (es ++ [(k0, v0)]). destruct (plain_cut k0 v0 G Hk0 HG) as [HGc HGv]. destruct (plain_val _ _ _ _ _ Hst) as (x & afs & v & Hb & Hab & _).
    pose proof (finish_ok b x afs v A NewDawg Hb) as Hf. rewrite aaclose_eq in Hf. destruct Hf as (d' & b' & k' & es' & Hfin & Hes' & Hk' & Hwf' & Hrep & _). rewrite Hes' in *.
    eexists es', _, d', b'. split; [by constructor|]. split; [exact Hfin|]. split; [split; [eexists; split; [exact Hrep|right; eauto]|by right]|].
    split; [by apply wf_wfe in Hwf' as [? _]|]. pose proof (aw_ent _ _ _ Hab) as Hent. by rewrite Hes' in Hent.
  - destruct Hst as (x & afs & Hlst & Hk & Hp & Hab). destruct (lst_finish _ _ _ _ _ _ NewDawg Hlst) as (b0 & Hb & Heq).
    destruct (finish_nul b0 x afs A NewDawg Hb) as (t & x1 & Ht & Hf). rewrite aaclose_eq in Hf. exists (es ++ [(k0, Z.of_N t)]).
    destruct Hf as (d' & b' & k' & es' & Hfin & Hes' & Hk' & Hwf' & Hrep). rewrite Hes' in *. eexists es', _, d', b'. split; [constructor; [done|done|done|right; split; [done|lia]]|].
    split; [by rewrite Heq|]. split; [split; [eexists; split; [exact Hrep|right; eauto]|by right]|]. split; [by apply wf_wfe in Hwf' as [? _]|].
    specialize (Hab (Z.of_N t)). rewrite nval_of in Hab by done. pose proof (aw_ent _ _ _ Hab) as Hent. by rewrite Hes' in Hent.
Qed.
Lemma cut_len k : (length (cut k) <= length k)%nat.
Proof. induction k as [|c k IH]; [done|]. cbn [cut]. destruct (c =? 0); cbn [length]; lia. Qed.
Lemma cut_key k : Forall (fun c => c < 256) k -> key_ok (cut k).
Proof. intros H. destruct (key_cut k H) as [Hk|(k0 & r & -> & Hk & _)]; [by rewrite cut_ok|by rewrite cut_nul]. Qed.
Lemma reads_plain acc es : reads acc es -> bytes_ok acc -> Forall (fun kv : entry => key_ok kv.1) es /\ hist_size es <= hist_size acc /\ accepted es = es /\
  Forall (fun f : entry => Exists (fun e : entry => cut e.1 = f.1) acc) es.
Proof.
  induction 1 as [|acc es G k v _ IH Hlt HG Hv]; intros Hby; [split; [constructor|]; split; [done|]; split; [done|constructor]|].
  apply Forall_app in Hby as [Hby1 Hby2]. destruct (IH Hby1) as (H1 & H2 & H3 & H4).
  assert (exists e G', G = e :: G') as (e & G' & ->). { destruct G as [|e G']; [|eauto]. destruct Hv as [[_ (e & He & _)]|[He _]]; [done|by apply Exists_nil in He]. }
  pose proof HG as HG0. apply Forall_cons in HG0 as [He _]. apply Forall_cons in Hby2 as [Hbe _]. split; [|split; [|split]].
  - apply Forall_app. split; [done|]. apply Forall_singleton. cbn [fst]. rewrite <- He. by apply cut_key.
  - unfold hist_size in *. rewrite !sum_list_with_app. cbn [sum_list_with fst]. pose proof (cut_len e.1). rewrite He in *. lia.
  - rewrite accepted_app, H3. unfold spec_insert. destruct (last es) as [[k0 v0]|] eqn:El; [|apply last_None in El as ->; done]. cbn [fst].
    assert (kcmp k0 k = Lt) as ->; [|done]. apply last_Some in El as [es0 ->]. apply Forall_app in H4 as [_ H4]. apply Forall_cons in H4 as [H4 _]. apply Exists_exists in H4 as (f & Hf & Hfe). cbn [fst] in Hfe. rewrite Forall_forall in Hlt. rewrite <- Hfe. by apply Hlt.
  - apply Forall_app. split; [eapply Forall_impl; [exact H4|]; intros f Hf; apply Exists_app; by left|]. apply Forall_singleton. apply Exists_app. right. apply Exists_cons. by left.
Qed.
Lemma run_sub H : forall acc, exists l, (nul_run acc H).2 = acc ++ l /\ l `sublist_of` H.
Proof.
  induction H as [|kv H IH]; intros acc; [exists []; by rewrite app_nil_r|]. rewrite nul_run_cons. cbn [snd]. destruct (IH (next_acc acc kv)) as (l & -> & Hl). unfold next_acc.
  destruct (next_ok acc kv); [|exists l; split; [done|by constructor]]. exists (kv :: l). rewrite <- app_assoc. split; [done|by constructor].
Qed.
Lemma sub_size (l H : list entry) : l `sublist_of` H -> hist_size l <= hist_size H.
Proof. unfold hist_size. induction 1; cbn [sum_list_with]; lia. Qed.
Lemma sub_bytes (l H : list entry) : l `sublist_of` H -> bytes_ok H -> bytes_ok l.
Proof. intros Hl Hb. apply Forall_forall. intros e He. unfold bytes_ok in Hb. rewrite Forall_forall in Hb. apply Hb. eapply elem_of_submseteq; [exact He|]. by apply sublist_submseteq. Qed.
Lemma nul_tree size H : size_ok size -> bytes_ok H -> hist_size H < 1073741824 -> calm (nul_accepted H) -> H <> [] ->
  exists d h R x t, build size H NewDawg = Ok (nul_results H, d) /\ hist_ok h /\ accepted h = h /\ dawgw d R x /\ R <> [] /\ ent_es R = map nentry (accepted h) /\
    (forall k, 0 < t k < 1073741824)%Z /\ forall k v, (k, v) ∈ map kept_entry (accepted h) <-> nul_stored t (nul_accepted H) k v.
Proof.
  intros Hs Hby Hsz Hc Hne. destruct (run_history size H Hs Hby Hsz Hc Hne) as (b & A & Hi & Hst & _). destruct (some_tree _ _ _ Hst) as (es & R & x & d & b' & Hrd & Hf & Hw & HR & He).
  destruct (reads_stored _ _ Hrd) as (t & Ht & Hst'). destruct (run_sub H []) as (l & Hl & Hsub). cbn [app] in Hl. fold (nul_accepted H) in Hl. rewrite <- Hl in Hsub.
  destruct (reads_plain _ _ Hrd (sub_bytes _ _ Hsub Hby)) as (H1 & H2 & H3 & _). pose proof (sub_size _ _ Hsub). exists d, es, R, x, t.
  split; [unfold build; rewrite Hi; cbn [mbind res_bind]; by rewrite Hf|]. split; [split; [done|lia]|]. rewrite H3. split; [done|]. split; [done|]. split; [done|]. split; [done|]. split; [done|]. done.
Qed.
