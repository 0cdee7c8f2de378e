(** C75: what the streams of a fake server have, in terms of what happened. *)
From Coq Require Import Ascii String NArith.
From stdpp Require Import base gmap strings list.
From Verif Require Import ModelStr ModelPage ModelStore ModelProxy ModelFake ModelStream.

(** The requests whose events a watch received, in order, and the requests in the order of their changes; traces
    have the last step first. *)
Definition took (i : nat) (l : flabel) : option nat := match l with LTake j _ k => if (k =? i)%nat then Some j else None | _ => None end.
Definition takes (i : nat) (tr : list flabel) : list nat := rev (omap (took i) tr).
Definition change (l : flabel) : option nat := match l with LApply j => Some j | _ => None end.
Definition applied (tr : list flabel) : list nat := rev (omap change tr).
Definition events_of (y : fsys) (js : list nat) : list event := omap (fun j => rv_event <$> f_requests y !! j) js.
(** No two watches that are not over have the same address. *)
Definition over (p : wpc) : Prop := match p with WDone | WPanic => True | _ => False end.
Definition apart (y : fsys) : Prop := forall i k v u, f_watches y !! i = Some v -> f_watches y !! k = Some u ->
  ~ over (wv_pc v) -> ~ over (wv_pc u) -> wt_addr (wv_watch v) = wt_addr (wv_watch u) -> i = k.
(** A request that is being worked on. *)
Definition busy (r : rstate) : Prop := rv_pc r <> RBegin /\ rv_pc r <> RDone.
Definition quiet (y : fsys) : Prop := forall j r, f_requests y !! j = Some r -> ~ busy r.
(** All states of a run. *)
Definition throughout (P : fsys -> Prop) (y0 : fsys) (tr : list flabel) : Prop :=
  forall tb ta y, tr = tb ++ ta -> fruns y0 ta y -> P y.
(** The requests come one after the other: each begins when the one before is answered. *)
Definition serial (y0 : fsys) (tr : list flabel) : Prop :=
  forall tb ta j y, tr = tb ++ LApply j :: ta -> fruns y0 ta y -> quiet y.
(** The steps of a request. *)
Definition step_of (j : nat) (l : flabel) : Prop :=
  match l with LApply k | LLock k _ | LTake k _ _ | LDrop k _ | LClosed k | LUnlock k => k = j | _ => False end.
Definition waiting (v : wstate) : Prop := exists o, wv_pc v = WSelect o.
(** A watch waits for an event whenever a request begins. *)
Definition patient (i : nat) (y0 : fsys) (tr : list flabel) : Prop :=
  forall tb ta j y v, tr = tb ++ LApply j :: ta -> fruns y0 ta y -> f_watches y !! i = Some v -> waiting v.
