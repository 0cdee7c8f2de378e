(** Specification of how the cache follows the clusters (C77). *)
From Coq Require Import Ascii String NArith ZArith.
From stdpp Require Import base gmap strings list.
From Verif Require Import ModelStr ModelStore ModelProxy ModelServer ModelServe ModelWatcher ModelFollow SpecPage SpecStore SpecWatcher SpecServer SpecServe.

(** A GET of one object of the default cluster. *)
Definition asks_for (cf : config) (g : gvr) (ns : option gostr) (name : gostr) (hr : http_req) : Prop :=
  authorised cf hr /\ api_addr g ns (Some name) /\ rq_method (h_req hr) = str "GET" /\
  rq_path (h_req hr) = api_path g ns (Some name) /\ rq_raw (h_req hr) = [].
(** The reply is right for a cluster in which exactly these changes were made. *)
Definition tells (E : env) (conf : gmap gvr (gmap gostr gostr)) (g : gvr) (c : gostr) (ns : option gostr) (name : gostr)
    (changes : list item) (r : option reply) : Prop :=
  let put := last_put E (default ∅ (conf !! g)) changes (default [] ns) name in
  (forall o, put o -> exists o', r = Some (Reply 200 [BObject o']) /\ stored_as c o o') /\
  ((forall o, ~ put o) -> r = Some (Reply 404 [BStatus 404 (str "resource not found")])).
(** A GET of all objects of a type in the default cluster, in one namespace or in all. *)
Definition asks_for_list (cf : config) (g : gvr) (ns : option gostr) (hr : http_req) : Prop :=
  authorised cf hr /\ api_addr g ns None /\ rq_method (h_req hr) = str "GET" /\
  rq_path (h_req hr) = api_path g ns None /\ rq_raw (h_req hr) = [] /\
  ~ occurs (str "application/json;as=Table") (rq_accept (h_req hr)).
(** The list is right for a cluster in which exactly these changes were made: the objects that were put last, each once. *)
Definition lists (E : env) (conf : gmap gvr (gmap gostr gostr)) (cf : config) (g : gvr) (c : gostr) (ns : option gostr)
    (changes : list item) (r : option reply) : Prop :=
  let put := last_put E (default ∅ (conf !! g)) changes in
  exists ks os, NoDup ks /\
    Forall2 (fun k o => put k.1 k.2 o /\ forall m, ns = Some m -> k.1 = m) ks os /\
    (forall k o, put k.1 k.2 o -> (forall m, ns = Some m -> k.1 = m) -> k ∈ ks) /\
    ((Z.of_nat (length os) < 2 ^ 63)%Z -> exists api kind xs, list_head cf g api kind /\
       r = Some (Reply 200 [BList api kind (api_path g ns None) 0 xs]) /\ Forall2 (stored_as c) os xs).
(** How many of the changes the goroutine has dealt with. *)
Definition position (f : feed) : nat := length (fd_log f) - length (fd_behind f).
(** The goroutine has dealt with all objects the server sends first: not with a new connection that has not
    brought anything yet, and not while some of the first objects are missing. *)
Definition in_step (ph : phase) (f : feed) : Prop :=
  fd_rest f = [] /\ match ph with PStream true | PGot true _ | PDone => False | _ => True end.
(** The same, but some of the first objects are missing. *)
Definition filling (ph : phase) (f : feed) : Prop :=
  fd_rest f <> [] /\ match ph with PStream true | PGot true _ | PDone => False | _ => True end.

(** ** Infinite executions *)
(** [None]: nothing of this happens. *)
Definition execution (E : env) (ws : list (gvr * gostr)) (conf : gmap gvr (gmap gostr gostr)) (ys : nat -> fsys) (ls : nat -> option flabel) : Prop :=
  fstart E ws conf (ys 0) /\
  forall t, match ls t with Some l => fstep E ws conf (ys t) l (ys (S t)) | None => ys (S t) = ys t end.
(** The goroutine waits for its stream, and there is nothing to come. *)
Definition waiting (i : nat) (y : fsys) : Prop :=
  exists b f, ws_phases (fs_w y) !! i = Some (PStream b) /\ fs_feeds y !! i = Some f /\ fd_rest f ++ fd_behind f = [].
(** The goroutine is never left alone for ever when it could go on. *)
Definition fair (i : nat) (ys : nat -> fsys) (ls : nat -> option flabel) : Prop :=
  forall t, exists t', t <= t' /\ ((exists l, ls t' = Some (FAct i l)) \/ waiting i (ys t')).
(** From [T] on nothing changes in the cluster, connections succeed and are not closed, and there are no errors
    or bookmarks. *)
Definition calm (i : nat) (ls : nat -> option flabel) (T : nat) : Prop :=
  forall t, T <= t -> match ls t with
    | Some (FChange j _) => j <> i
    | Some (FAct j LFail) => j <> i
    | Some (FAct j (LRecv it)) => j = i -> is_change it = true
    | _ => True
    end.
Definition not_stopped (ls : nat -> option flabel) : Prop := forall t, ls t <> Some FStop.
(** All objects are kubernetes objects. *)
Definition only_kube (ls : nat -> option flabel) : Prop :=
  forall t j ty o, ls t = Some (FAct j (LRecv (IEvent ty o))) -> ty <> EvOther -> exists k, o = OKube k.
