(** Proofs about the command line of Main.v. *)
From Coq Require Import String.
From Verif Require Import Go Dawg Cli CliSpec Main MainSpec.
Local Open Scope N_scope.

Definition set1 (s : settings) (x : setting) : settings :=
  match x with Switch c v => default s (set_bool s c v) | Path c p => default s (set_path s c p) end.
Ltac letters H := repeat (apply elem_of_cons in H as [->|H]); [..|by apply elem_of_nil in H].
Lemma switch_some s c v : c ∈ switches -> set_bool s c v = Some (set1 s (Switch c v)).
Proof. intros H. destruct s as [b [t g r so u i] l d]. cbn in H. letters H; reflexivity. Qed.
Lemma switch_in s c v s' : set_bool s c v = Some s' -> c ∈ switches.
Proof.
  destruct s as [b [t g r so u i] l d]. unfold set_bool. intros H. cbn.
  repeat match type of H with context [?x =? ?y] => destruct (N.eqb_spec x y) as [->|?]; [set_solver|] end. done.
Qed.
Lemma path_none s c v : c ∈ paths -> set_bool s c v = None.
Proof. intros H. destruct s as [b [t g r so u i] l d]. cbn in H. letters H; reflexivity. Qed.
Lemma path_some s c p : c ∈ paths -> set_path s c p = Some (set1 s (Path c p)).
Proof. intros H. destruct s as [b o l d]. cbn in H. letters H; reflexivity. Qed.
Lemma path_in s c p s' : set_path s c p = Some s' -> c ∈ paths.
Proof. unfold set_path. intros H. cbn. repeat match type of H with context [?x =? ?y] => destruct (N.eqb_spec x y) as [->|?]; [set_solver|] end. done. Qed.
Lemma truth_iff t v : parse_bool t = Some v <-> truth t v.
Proof.
  unfold parse_bool. split.
  - destruct (existsb _ _) eqn:E.
    + intros [= <-]. constructor. apply existsb_exists in E as (x & Hx & E%bool_decide_eq_true). subst. by apply elem_of_list_fmap_1, elem_of_list_In.
    + clear E. destruct (existsb _ _) eqn:E; [|done]. intros [= <-]. constructor. apply existsb_exists in E as (x & Hx & E%bool_decide_eq_true). subst. by apply elem_of_list_fmap_1, elem_of_list_In.
  - intros H. destruct H as [t H|t H]; cbn [map] in H; letters H; reflexivity.
Qed.
Lemma split_eq_spec bs : forall pre nm v, split_eq pre bs = (nm, v) -> (pre <> [] \/ head bs <> Some 61) -> rev pre ++ bs = nm ++ match v with Some v => 61 :: v | None => [] end.
Proof.
  induction bs as [|b bs IH]; intros pre nm v H Hp; cbn [split_eq] in H.
  - injection H as <- <-. done.
  - destruct (N.eqb_spec b 61) as [->|Hb]; cbn [andb] in H.
    + rewrite bool_decide_false in H by (by destruct Hp). cbn in H. injection H as <- <-. done.
    + apply IH in H; [|by left]. rewrite <- H. cbn [rev]. by rewrite <- app_assoc.
Qed.
Lemma split_eq_none pre bs nm v : split_eq pre bs = (nm, v) -> exists r, nm = rev pre ++ r.
Proof.
  revert pre. induction bs as [|b bs IH]; intros pre H; cbn [split_eq] in H.
  - injection H as <- <-. exists []. by rewrite app_nil_r.
  - destruct ((b =? 61) && _); [injection H as <- <-; exists []; by rewrite app_nil_r|]. apply IH in H as [r ->]. cbn [rev]. exists (b :: r). by rewrite <- app_assoc.
Qed.

(** The settings one by one are those of [chosen]. *)
Lemma set1_chosen sets x : set1 (chosen sets) x = match x with Switch c _ => if decide (c ∈ switches) then chosen (sets ++ [x]) else chosen sets | Path c _ => if decide (c ∈ paths) then chosen (sets ++ [x]) else chosen sets end.
Proof.
  unfold chosen, switch, path. destruct x as [c v|c p].
  - destruct (decide (c ∈ switches)) as [H|H].
    + rewrite !fold_left_app. cbn in H. letters H; reflexivity.
    + cbn [set1]. destruct (set_bool _ c v) eqn:E; [|done]. by apply switch_in in E.
  - destruct (decide (c ∈ paths)) as [H|H].
    + rewrite !fold_left_app. cbn in H. letters H; reflexivity.
    + cbn [set1]. destruct (set_path _ c p) eqn:E; [|done]. by apply path_in in E.
Qed.
Lemma sets_chosen sets : Forall (fun x => match x with Switch c _ => c ∈ switches | Path c _ => c ∈ paths end) sets -> fold_left set1 sets settings0 = chosen sets.
Proof.
  induction sets as [|x sets IH] using rev_ind; intros H; [done|]. apply Forall_app in H as [H Hx]. apply Forall_inv in Hx. rewrite fold_left_app, (IH H). cbn [fold_left]. rewrite set1_chosen.
  destruct x; by rewrite decide_True.
Qed.
(** One argument: after the dashes, a name and perhaps a value. *)
Section parse.
Context (t : texts).
Lemma parse_on s d c rest : dashes d -> c ∈ switches -> parse t s ((d ++ [c]) :: rest) = parse t (set1 s (Switch c true)) rest.
Proof. intros Hd Hc. destruct s as [b [t1 g r so u i] l dd]. destruct Hd as [->| ->]; cbn in Hc; letters Hc; reflexivity. Qed.
Lemma parse_switch s d c x v rest : dashes d -> c ∈ switches -> truth x v -> parse t s ((d ++ c :: str "=" ++ x) :: rest) = parse t (set1 s (Switch c v)) rest.
Proof.
  intros Hd Hc Ht%truth_iff. destruct s as [b [t1 g r so u i] l dd]. destruct Hd as [->| ->]; cbn in Hc; letters Hc;
    (etransitivity; [|eapply (fun msg => f_equal (fun y => match y with Some v => parse t (set1 _ (Switch _ v)) rest | None => PBad msg end) Ht)]; reflexivity).
Qed.
Lemma parse_path s d c p rest : dashes d -> c ∈ paths -> parse t s ((d ++ [c]) :: p :: rest) = parse t (set1 s (Path c p)) rest.
Proof. intros Hd Hc. destruct s as [b [t1 g r so u i] l dd]. destruct Hd as [->| ->]; cbn in Hc; letters Hc; reflexivity. Qed.
Lemma parse_path_eq s d c p rest : dashes d -> c ∈ paths -> parse t s ((d ++ c :: str "=" ++ p) :: rest) = parse t (set1 s (Path c p)) rest.
Proof. intros Hd Hc. destruct s as [b [t1 g r so u i] l dd]. destruct Hd as [->| ->]; cbn in Hc; letters Hc; reflexivity. Qed.
Lemma parse_operands s tail ops : operands tail ops -> parse t s tail = PDone s ops.
Proof.
  intros [->|[-> H]]; [done|]. destruct ops as [|a ops]; [done|]. cbn [parse]. destruct a as [|c [|c2 more]]; [done|done|].
  destruct H as [H|H]; [cbn in H; lia|]. destruct (N.eqb_spec c 45) as [->|?]; [done|]. done.
Qed.
Lemma parse_spelled s x l rest : spelled x l -> parse t s (l ++ rest) = parse t (set1 s x) rest.
Proof. intros []; cbn [app]; [by apply parse_on|by apply parse_switch|by apply parse_path|by apply parse_path_eq]. Qed.
Lemma parse_line s args sets ops : command_line args sets ops -> parse t s args = PDone (fold_left set1 sets s) ops.
Proof.
  intros (l & tail & Hl & Ht & ->). revert s. induction Hl as [|x a sets l Hx _ IH]; intros s; cbn [concat fold_left app]; [by apply parse_operands|].
  rewrite <- app_assoc, (parse_spelled s x); [apply IH|done].
Qed.
Lemma parse_help s h rest : help h -> parse t s (h :: rest) = PHelp.
Proof. intros (d & n & v & Hd & Hn & Hv & ->). destruct s as [b [t1 g r so u i] l dd]. destruct Hd as [->| ->], Hn as [->| ->], Hv as [->|[x ->]]; reflexivity. Qed.

(** The part of [parse] after the dashes. *)
Definition parse_name (s : settings) (a name : list N) (rest : list (list N)) : parsed :=
  match name with
  | [] => PBad (str "bad flag syntax: " ++ a)
  | n0 :: _ =>
      if (n0 =? 45) || (n0 =? 61) then PBad (str "bad flag syntax: " ++ a) else
      let '(name, value) := split_eq [] name in
      match name with
      | [n] =>
          match set_bool s n true with
          | Some s' =>
              match value with
              | None => parse t s' rest
              | Some v => match parse_bool v with Some v => match set_bool s n v with Some s' => parse t s' rest | None => PBad [] end
                          | None => PBad (str "invalid boolean value " ++ quote t v ++ str " for -" ++ name ++ str ": parse error") end
              end
          | None =>
              match set_path s n [] with
              | Some _ =>
                  match value, rest with
                  | Some v, _ => match set_path s n v with Some s' => parse t s' rest | None => PBad [] end
                  | None, v :: rest' => match set_path s n v with Some s' => parse t s' rest' | None => PBad [] end
                  | None, [] => PBad (str "flag needs an argument: -" ++ name)
                  end
              | None => if n =? 104 then PHelp else PBad (str "flag provided but not defined: -" ++ name)
              end
          end
      | _ => if bool_decide (name = str "help") then PHelp else PBad (str "flag provided but not defined: -" ++ name)
      end
  end.
Lemma parse_dashes s d name rest : dashes d -> name <> [] -> (d = str "-" -> head name <> Some 45) -> parse t s ((d ++ name) :: rest) = parse_name s (d ++ name) name rest.
Proof.
  intros [->| ->] Hn H.
  - destruct name as [|c2 more]; [done|]. change (str "-" ++ c2 :: more) with (45 :: c2 :: more). cbn [parse negb N.eqb]. change (45 =? 45) with true. cbn [negb]. specialize (H eq_refl). cbn [head] in H.
    destruct (N.eqb_spec c2 45) as [->|_]; [done|]. reflexivity.
  - destruct name as [|c2 more]; [done|]. reflexivity.
Qed.
Lemma split_eq_no bs : forall pre nm v, split_eq pre bs = (nm, v) -> (pre <> [] \/ head bs <> Some 61) -> 61 ∉ pre -> 61 ∉ nm.
Proof.
  induction bs as [|b bs IH]; intros pre nm v H Hp Hn; cbn [split_eq] in H.
  - injection H as <- <-. rewrite elem_of_list_In, <- in_rev, <- elem_of_list_In. done.
  - destruct (N.eqb_spec b 61) as [->|Hb]; cbn [andb] in H.
    + rewrite bool_decide_false in H by (by destruct Hp). cbn in H. injection H as <- <-. by rewrite elem_of_list_In, <- in_rev, <- elem_of_list_In.
    + apply IH in H; [done|by left|]. intros [<-|?]%elem_of_cons; done.
Qed.
Lemma split_eq_at name v pre : 61 ∉ name -> (pre <> [] \/ name <> []) -> split_eq pre (name ++ match v with Some v => 61 :: v | None => [] end) = (rev pre ++ name, v).
Proof.
  revert pre. induction name as [|b name IH]; intros pre Hn Hp; cbn [app split_eq].
  - destruct v as [v|]; cbn [split_eq]; [|by rewrite app_nil_r]. rewrite bool_decide_false by (by destruct Hp). cbn. by rewrite app_nil_r.
  - assert (Hb : b <> 61) by (intros ->; apply Hn; left). destruct (N.eqb_spec b 61) as [|_]; [done|]. cbn [andb]. rewrite IH; [|intros X; apply Hn; by right|by left]. cbn [rev]. by rewrite <- app_assoc.
Qed.
Lemma parse_fault s tail msg : fault t tail msg -> parse t s tail = PBad msg.
Proof.
  assert (G : forall a name v rest, named a name v -> exists n0 more, name ++ match v with Some v => 61 :: v | None => [] end = n0 :: more /\ (n0 =? 45) || (n0 =? 61) = false /\ split_eq [] (n0 :: more) = (name, v) /\
    parse t s (a :: rest) = parse_name s a (n0 :: more) rest).
  { intros a name v rest (d & Hd & Hn & H1 & H2 & ->). destruct name as [|n0 name]; [done|]. exists n0, (name ++ match v with Some v => 61 :: v | None => [] end). split; [done|].
    split; [|split].
    - cbn [head] in H1. destruct (N.eqb_spec n0 45) as [->|_]; [done|]. destruct (N.eqb_spec n0 61) as [->|_]; [exfalso; apply H2; left|done].
    - by rewrite app_comm_cons, split_eq_at by (try done; by right).
    - apply parse_dashes; [done|done|]. by intros _. }
  intros [p x rest Hp|a name v rest Ha H1 H2 H3|a c v rest Ha Hc Hv|d c Hd Hc].
  - cbn in Hp. letters Hp; reflexivity.
  - destruct (G a name v rest Ha) as (n0 & more & _ & E1 & E2 & ->). unfold parse_name. rewrite E1, E2. destruct name as [|n [|n1 name]].
    + rewrite bool_decide_false by done. done.
    + destruct (H3 n eq_refl) as [K1 K2]. destruct (set_bool s n true) eqn:Es; [by apply switch_in in Es|]. destruct (set_path s n []) eqn:Ep; [by apply path_in in Ep|].
      destruct (N.eqb_spec n 104) as [->|_]; [done|done].
    + by rewrite bool_decide_false.
  - destruct (G a [c] (Some v) rest Ha) as (n0 & more & _ & E1 & E2 & ->). unfold parse_name. rewrite E1, E2. rewrite (switch_some s c true Hc). destruct (parse_bool v) as [b|] eqn:Eb; [|done]. apply truth_iff in Eb. by destruct (Hv b).
  - destruct s as [b [t1 g r so u i] l dd]. destruct Hd as [->| ->]; cbn in Hc; letters Hc; reflexivity.
Qed.

Lemma line_cons x a args sets ops : spelled x a -> command_line args sets ops -> command_line (a ++ args) (x :: sets) ops.
Proof. intros Hx (l & tail & Hl & Ht & ->). exists (a :: l), tail. split; [by constructor|]. split; [done|]. cbn. by rewrite app_assoc. Qed.
Lemma help_cons x a args : spelled x a -> help_line args -> help_line (a ++ args).
Proof. intros Hx (sets & l & h & rest & Hl & Hh & ->). exists (x :: sets), (a :: l), h, rest. split; [by constructor|]. split; [done|]. cbn. by rewrite app_assoc. Qed.
Lemma fault_cons x a args msg : spelled x a -> fault_line t args msg -> fault_line t (a ++ args) msg.
Proof. intros Hx (sets & l & tail & Hl & Hh & ->). exists (x :: sets), (a :: l), tail. split; [by constructor|]. split; [done|]. cbn. by rewrite app_assoc. Qed.
Definition read_so (s : settings) (args : list (list N)) (r : parsed) : Prop :=
  match r with PDone s' ops => exists sets, command_line args sets ops /\ s' = fold_left set1 sets s | PHelp => help_line args | PBad msg => fault_line t args msg end.
Lemma read_cons s x a args r : spelled x a -> read_so (set1 s x) args r -> read_so s (a ++ args) r.
Proof.
  intros Hx. destruct r as [s' ops|msg|]; cbn [read_so]; [|by apply (fault_cons x)|by apply (help_cons x)]. intros (sets & Hl & ->). exists (x :: sets). split; [by apply line_cons|done].
Qed.
Lemma parse_inv n : forall s args, (length args < n)%nat -> read_so s args (parse t s args).
Proof.
  induction n as [|n IH]; intros s args Hn; [lia|]. destruct args as [|a rest].
  { exists []. split; [|done]. exists [], []. split; [constructor|]. split; [by right|done]. }
  assert (Hend : forall tail ops, operands tail ops -> read_so s tail (PDone s ops)).
  { intros tail ops Ho. exists []. split; [|done]. exists [], tail. split; [constructor|]. by split. }
  assert (Hone : forall tail msg, fault t tail msg -> read_so s tail (PBad msg)). { intros tail msg Hf. exists [], [], tail. by split; [constructor|]. }
  cbn [length] in Hn. destruct a as [|c [|c2 more]]; [apply Hend; right; split; [done|left; cbn; lia]..|].
  destruct (decide (c = 45)) as [->|Hc].
  2: { cbn [parse]. rewrite (proj2 (N.eqb_neq c 45) Hc). cbn [negb]. apply Hend. right. split; [done|]. right. cbn. congruence. }
  destruct (decide (c2 :: more = [45])) as [[= -> ->]|Hdd]; [apply Hend; by left|].
  assert (exists d name, dashes d /\ name <> [] /\ (d = str "-" -> head name <> Some 45) /\ 45 :: c2 :: more = d ++ name) as (d & name & Hd & Hnn & Hh & Ea).
  { destruct (decide (c2 = 45)) as [->|Hne]; [exists (str "--"), more|exists (str "-"), (c2 :: more)].
    - split; [by right|]. split; [intros ->; by apply Hdd|done].
    - split; [by left|]. split; [done|]. split; [|done]. intros _. cbn. congruence. }
  rewrite Ea in *. rewrite parse_dashes by done. clear c2 more Hdd Ea. destruct name as [|n0 more]; [done|]. unfold parse_name.
  destruct (N.eqb_spec n0 45) as [->|Hn0]; cbn [orb].
  { destruct Hd as [->| ->]; [by destruct (Hh eq_refl)|]. apply Hone. change (str "--" ++ 45 :: more) with (str "---" ++ more). apply f_syntax. left. }
  destruct (N.eqb_spec n0 61) as [->|Hn1].
  { apply Hone. destruct Hd as [->| ->]; [change (str "-" ++ 61 :: more) with (str "-=" ++ more)|change (str "--" ++ 61 :: more) with (str "--=" ++ more)]; apply f_syntax; cbn; [right; right; left|right; left]. }
  destruct (split_eq [] (n0 :: more)) as [nm v] eqn:E. pose proof E as E'. apply split_eq_spec in E; [|right; cbn; congruence]. cbn [rev app] in E.
  apply split_eq_no in E'; [|right; cbn; congruence|by intros ?%elem_of_nil].
  assert (Hnm : named (d ++ n0 :: more) nm v).
  { exists d. split; [done|]. destruct nm as [|e nm]; [exfalso; destruct v; [|done]; cbn in E; congruence|]. split; [done|]. split; [cbn in *; congruence|]. split; [done|]. by rewrite E. }
  rewrite E in Hnm |- *. clear E Hn0 Hn1 Hh Hnn n0 more.
  assert (Hhelp : nm = str "h" \/ nm = str "help" -> read_so s ((d ++ nm ++ match v with Some v => 61 :: v | None => [] end) :: rest) PHelp).
  { intros Hx. exists [], [], (d ++ nm ++ match v with Some v => 61 :: v | None => [] end), rest. split; [constructor|]. split; [|done]. exists d, nm, (match v with Some v => 61 :: v | None => [] end).
    split; [done|]. split; [done|]. split; [|done]. destruct v as [v|]; [right; by exists v|by left]. }
  destruct nm as [|e [|n1 nm]].
  - destruct Hnm as (d' & _ & ? & _). done.
  - destruct (set_bool s e true) as [s1|] eqn:Es.
    + pose proof (switch_in _ _ _ _ Es) as Hin. destruct v as [v|].
      * destruct (parse_bool v) as [v'|] eqn:Ev.
        -- rewrite (switch_some s e v' Hin). apply (read_cons s (Switch e v') [_]); [apply sp_switch; [done|done|by apply truth_iff]|]. apply IH. cbn in Hn. lia.
        -- apply Hone. apply f_switch; [done|done|]. intros b Hb%truth_iff. congruence.
      * rewrite (switch_some s e true Hin) in Es. injection Es as <-. apply (read_cons s (Switch e true) [_]); [by apply sp_on|]. apply IH. cbn in Hn. lia.
    + destruct (set_path s e []) as [s1|] eqn:Ep.
      * apply path_in in Ep as Hin. destruct v as [v|].
        -- rewrite (path_some s e v Hin). apply (read_cons s (Path e v) [_]); [by apply sp_path_eq|]. apply IH. cbn in Hn. lia.
        -- destruct rest as [|v rest]; [apply Hone; cbn [app]; by apply f_path|]. rewrite (path_some s e v Hin). apply (read_cons s (Path e v) [_; _]); [by apply sp_path|]. apply IH. cbn in Hn. lia.
      * destruct (N.eqb_spec e 104) as [->|He]; [apply Hhelp; by left|]. apply Hone. apply (f_unknown t _ _ v); [done| |done|].
        -- change (str "h") with [104]. congruence.
        -- intros c [= <-]. split; intros X; [by rewrite (switch_some s e true X) in Es|by rewrite (path_some s e [] X) in Ep].
  - destruct (bool_decide _) eqn:Eb; [apply bool_decide_eq_true in Eb; apply Hhelp; by right|]. apply bool_decide_eq_false in Eb. apply Hone. apply (f_unknown t _ _ v); done.
Qed.
Lemma parse_iff args s ops : parse t settings0 args = PDone s ops <-> exists sets, command_line args sets ops /\ s = chosen sets.
Proof.
  assert (Hs : forall sets, command_line args sets ops -> fold_left set1 sets settings0 = chosen sets).
  { intros sets (l & tail & Hl & _). apply sets_chosen. clear -Hl. induction Hl as [|x a sets l Hx _ IH]; constructor; [|done]. by destruct Hx. }
  split.
  - intros H. pose proof (parse_inv (S (length args)) settings0 args (Nat.lt_succ_diag_r _)) as R. rewrite H in R. destruct R as (sets & Hl & ->). exists sets. split; [done|]. by apply Hs.
  - intros (sets & Hl & ->). rewrite (parse_line _ _ _ _ Hl). by rewrite (Hs sets Hl).
Qed.
Lemma help_iff args : parse t settings0 args = PHelp <-> help_line args.
Proof.
  split.
  - intros H. pose proof (parse_inv (S (length args)) settings0 args (Nat.lt_succ_diag_r _)) as R. by rewrite H in R.
  - intros (sets & l & h & rest & Hl & Hh & ->). generalize settings0 as s. induction Hl as [|x a sets l Hx _ IH]; intros s; cbn [concat app]; [by apply parse_help|].
    rewrite <- app_assoc, (parse_spelled s x); [apply IH|done].
Qed.
Lemma fault_iff args msg : parse t settings0 args = PBad msg <-> fault_line t args msg.
Proof.
  split.
  - intros H. pose proof (parse_inv (S (length args)) settings0 args (Nat.lt_succ_diag_r _)) as R. by rewrite H in R.
  - intros (sets & l & tail & Hl & Hf & ->). generalize settings0 as s. induction Hl as [|x a sets l Hx _ IH]; intros s; cbn [concat app]; [by apply parse_fault|].
    rewrite <- app_assoc, (parse_spelled s x); [apply IH|done].
Qed.
End parse.
