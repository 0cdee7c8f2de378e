(** Specification of the concurrent store (C30, C31, C61). *)
From Coq Require Import Ascii String NArith ZArith.
From stdpp Require Import base gmap strings list.
From Verif Require Import ModelStr ModelStore ModelConc.

(** What a type, cluster, namespace and name have in the store. *)
Notation okey := (gvr * gostr * gostr * gostr)%type.
Definition value (s : csys) (k : okey) : option entry :=
  let '(g, c, ns, n) := k in
  match c_map s !! g with
  | Some cs => match cs !! c with
               | Some nss => match nss !! ns with Some os => os !! n | None => None end
               | None => None
               end
  | None => None
  end.

(** The calls in progress in a state, by what they were called with. *)
Definition putting (s : csys) (i : nat) (k : okey) (v : option entry) : Prop :=
  exists a, c_pcs s !! i = Some (TPut a k.1.1.1 k.1.1.2 k.1.2 k.2 v).
Definition cleaning (s : csys) (i : nat) (g : gvr) (c : gostr) : Prop :=
  exists a, c_pcs s !! i = Some (TClean a g c).
Definition finished (s : csys) (i : nat) : Prop := exists r, c_pcs s !! i = Some (TDone r).

(** All goroutines are about to make a call for a configured type (Get may ask for any type). *)
Definition configured (s : csys) (p : pc) : Prop :=
  match p with
  | TPut _ g _ _ _ _ | TClean _ g _ | TQuery _ g _ _ => is_Some (c_map s !! g)
  | _ => True
  end.
Definition initial (s : csys) : Prop := Forall (fun p => starting p /\ configured s p) (c_pcs s).

(** The value of a key after a step, by what the goroutine does in that step: the only steps that change anything are the
    write of a put to its own key and the wiping of a namespace by a clean. *)
Definition effect (k : okey) (x : csys * nat * csys) (old : option entry) : option entry :=
  match c_pcs x.1.1 !! x.1.2 with
  | Some (TPut (ASet true) g c ns n v) => if decide (k = (g, c, ns, n)) then v else old
  | Some (TClean (BWipe (ns :: _) true) g c) => if decide (k.1 = (g, c, ns)) then None else old
  | _ => old
  end.
Definition quiet_step (x : csys * nat * csys) : Prop := forall k, value x.2 k = value x.1.1 k.
(** A namespace is in the scope of a query. *)
Definition in_scope (qns ns : gostr) : Prop := qns = [] \/ qns = ns.
Global Instance in_scope_dec qns ns : Decision (in_scope qns ns).
Proof. unfold in_scope. apply _. Defined.
