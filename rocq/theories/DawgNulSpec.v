(** Keys with zero bytes: what the calls return and what is stored, without the
    builder. *)
From Verif Require Import Go DawgSpec.
Local Open Scope N_scope.

(** The bytes before the first zero byte. *)
Fixpoint cut (k : list N) : list N := match k with [] => [] | c :: k => if c =? 0 then [] else c :: cut k end.
(** Whether [k] is accepted when [k0] was the last key accepted: if it is not less, or
    if [k0] is [k], a zero byte and more. *)
Definition takes (k0 k : list N) : bool := match kcmp k0 k with Gt => bool_decide (k ++ [0] `prefix_of` k0) | _ => true end.
(** The results of the calls and the entries accepted, in order. *)
Fixpoint nul_run (acc H : list entry) : list bool * list entry :=
  match H with
  | [] => ([], acc)
  | kv :: H =>
      let ok := match last acc with None => true | Some e => takes e.1 kv.1 end in
      let '(rs, acc') := nul_run (if ok then acc ++ [kv] else acc) H in (ok :: rs, acc')
  end.
Definition nul_results (H : list entry) : list bool := (nul_run [] H).1.
Definition nul_accepted (H : list entry) : list entry := (nul_run [] H).2.
(** An accepted key is followed by itself with a zero byte and more only if its value
    is 0. *)
Definition calm (acc : list entry) : Prop := forall a e1 e2 c, acc = a ++ e1 :: e2 :: c -> e1.1 ++ [0] `prefix_of` e2.1 -> (e1.2 mod 4294967296 = 0)%Z.
(** The accepted entries that begin with [k] and then end or have a zero byte. *)
Definition with_cut (k : list N) (acc : list entry) : list entry := filter (fun e => cut e.1 = k) acc.
(** What is stored: the last value, or a value of the builder's own when one of these
    keys has a zero byte. *)
Definition nul_stored (t : list N -> Z) (acc : list entry) (k : list N) (v : Z) : Prop := exists e, last (with_cut k acc) = Some e /\
  v = if decide (Exists (fun e : entry => 0 ∈ e.1) (with_cut k acc)) then t k else kept e.2.
Definition bytes_ok (H : list entry) : Prop := Forall (fun kv => Forall (fun c => c < 256) kv.1) H.
