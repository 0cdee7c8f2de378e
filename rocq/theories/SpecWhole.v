(** Specification of what the running process does in the long run (C78). *)
From Coq Require Import Ascii String NArith ZArith.
From stdpp Require Import base gmap strings list.
From Verif Require Import ModelStr ModelStore ModelProxy ModelServer ModelServe ModelWatcher ModelReload ModelLive ModelFollow ModelWhole
  SpecStore SpecWatcher SpecServer SpecServe SpecReload SpecFollow.

(** Infinite executions; [None]: nothing happens. *)
Definition whole_execution (E : env) (cf : bool) (kube file : gostr) (ld0 : loaded) (xs : nat -> whole) (ls : nat -> option hlabel) : Prop :=
  hstart E ld0 (xs 0) /\
  forall t, match ls t with Some l => hstep E cf kube file (xs t) l (xs (S t)) | None => xs (S t) = xs t end.
(** The steps of the process before [t], the last one first. *)
Fixpoint history (ls : nat -> option hlabel) (t : nat) : list slabel :=
  match t with
  | 0 => []
  | S t' => match ls t' with Some (HDo l) => l :: history ls t' | _ => history ls t' end
  end.
(** From [T] on no change of the files is noticed. *)
Definition files_rest (ls : nat -> option hlabel) (T : nat) : Prop := forall t W, T <= t -> ls t <> Some (HDo (SBegin W)).
(** The goroutine that reloads is never left alone for ever in the middle of a reload. *)
Definition reload_fair (xs : nat -> whole) (ls : nat -> option hlabel) : Prop :=
  forall t, exists t', t <= t' /\ (s_reload (wh_sys (xs t')) = None \/
    ls t' = Some (HDo SFail) \/ ls t' = Some (HDo SDone) \/ exists i, ls t' = Some (HDo (SDo i))).
(** The goroutine of a load and its stream. *)
Definition at_watch (n i : nat) (x : whole) (ph : phase) (f : feed) : Prop :=
  exists w fs, p_systems (s_proc (wh_sys x)) !! n = Some w /\ wh_feeds x !! n = Some fs /\ ws_phases w !! i = Some ph /\ fs !! i = Some f.
(** The goroutine is never left alone for ever when it could go on. *)
Definition watch_fair (n i : nat) (xs : nat -> whole) (ls : nat -> option hlabel) : Prop :=
  forall t, exists t', t <= t' /\ ((exists l, ls t' = Some (HDo (SWatch n (WAct i l)))) \/
    exists b f, at_watch n i (xs t') (PStream b) f /\ fd_rest f ++ fd_behind f = []).
(** From [T] on nothing changes in the cluster, connections succeed and are not closed, and there are no errors
    or bookmarks. *)
Definition watch_calm (n i : nat) (ls : nat -> option hlabel) (T : nat) : Prop :=
  forall t, T <= t -> match ls t with
    | Some (HChange m j _) => m = n -> j <> i
    | Some (HDo (SWatch m (WAct j LFail))) => m = n -> j <> i
    | Some (HDo (SWatch m (WAct j (LRecv it)))) => m = n -> j = i -> is_change it = true
    | _ => True
    end.
(** All objects that a load receives are kubernetes objects. *)
Definition watch_kube (n : nat) (ls : nat -> option hlabel) : Prop :=
  forall t j ty o, ls t = Some (HDo (SWatch n (WAct j (LRecv (IEvent ty o))))) -> ty <> EvOther -> exists k, o = OKube k.
(** A request that arrives at [ta] is answered at [t]. *)
Definition answered_at (E : env) (sv : servers) (xs : nat -> whole) (ls : nat -> option hlabel) (hr : http_req) (ta t : nat) (r : option reply) : Prop :=
  ta < t /\ ls ta = Some (HDo (SArrive (required hr) (h_auth hr))) /\
  replied E sv (wh_sys (xs t)) (length (s_reqs (wh_sys (xs ta)))) hr r.
