(** store/memory/memory.go with its locks: any number of goroutines in the store at the same time. *)
From Coq Require Import Ascii String NArith ZArith.
From stdpp Require Import base gmap strings list.
From Verif Require Import ModelStr ModelStore.

(** The content of the store.  The maps of one level are reached through pointers of the level above; they
    are created once and never replaced or removed (Init keeps what is there, memory.go:39-49, and Clean
    empties the innermost map in place, 51-55), so a pointer is the same thing as a path. *)
Notation tree := (gmap gvr typemap).
(** The mutex of the clusters of a type, of the namespaces of a cluster, of the objects of a namespace
    (memory.go:25-28, 102-112).  The map of the types is only written when the store is created
    (116-124), so its mutex never blocks and is left out. *)
Inductive lk := LkG (g : gvr) | LkC (g : gvr) (c : gostr) | LkN (g : gvr) (c ns : gostr).
Global Instance lk_dec : EqDecision lk.
Proof. solve_decision. Defined.

(** Keys and results. *)
Notation key := (gostr * gostr * gostr)%type.
Inductive ret := RNone | RObj (o : option entry) | RList (l : list (key * entry)).

(** Where a goroutine is.  Set, Init, Clean and Delete take the mutex for writing, first announcing it
    ([w] = false: before Lock, or waiting for another writer; true: waiting in Lock for the readers to leave,
    which already keeps new readers and other writers out), then change the map and unlock in one step.  Get, Exists, Values and Len read under the mutex in one step. *)
Inductive put_at :=
| AInitC (w : bool) (* 127 Init(cluster) *)
| AGetC1 | AInitN (w : bool) (* 128 Get(cluster), Init(namespace) *)
| AGetC2 | AGetN2 | ASet (w : bool) (* 148, 157: Set; 166: Delete *)
| AGetC3 | AGetN3 | ALen. (* 150, 159, 168: Len; the gauge itself is not part of this model *)
Inductive clean_at :=
| BExists (* 136 *) | BGet | BValues (* 139 *) | BWipe (nss : list gostr) (w : bool). (* 140 *)
Inductive get_at :=
| GExC (* 276 *) | GGetC1 | GExN (* 279 *) | GGetC2 | GGetN | GGet. (* 282 *)
(** Query holds the mutexes of the maps it iterates over (68-74, 292-308). *)
Inductive query_at :=
| QStart
| QClus (cs : list gostr)
| QNss (c : gostr) (nss cs : list gostr)
| QObjs (c ns : gostr) (names nss cs : list gostr).
Inductive pc :=
| TPut (a : put_at) (g : gvr) (c ns n : gostr) (v : option entry) (* [None] deletes *)
| TClean (a : clean_at) (g : gvr) (c : gostr)
| TGet (a : get_at) (g : gvr) (c ns n : gostr)
| TQuery (a : query_at) (g : gvr) (ns : gostr) (acc : list (key * entry))
| TPanic
| TDone (r : ret).

(** The mutexes held for reading, and the one announced for writing. *)
Definition holds (p : pc) (k : lk) : Prop :=
  match p with
  | TQuery (QClus _) g _ _ => k = LkG g
  | TQuery (QNss c _ _) g _ _ => k = LkG g \/ k = LkC g c
  | TQuery (QObjs c ns _ _ _) g _ _ => k = LkG g \/ k = LkC g c \/ k = LkN g c ns
  | _ => False
  end.
Definition announced (p : pc) (k : lk) : Prop :=
  match p with
  | TPut (AInitC true) g _ _ _ _ => k = LkG g
  | TPut (AInitN true) g c _ _ _ => k = LkC g c
  | TPut (ASet true) g c ns _ _ => k = LkN g c ns
  | TClean (BWipe (ns :: _) true) g c => k = LkN g c ns
  | _ => False
  end.

(** Reading and changing the maps. *)
Definition clusters (m : tree) (g : gvr) : option typemap := m !! g.
Definition namespaces (m : tree) (g : gvr) (c : gostr) : option clmap := m !! g ≫= fun cs => cs !! c.
Definition objects (m : tree) (g : gvr) (c ns : gostr) : option nsmap := namespaces m g c ≫= fun nss => nss !! ns.
Definition init_cluster (m : tree) (g : gvr) (c : gostr) : tree :=
  alter (fun cs : typemap => match cs !! c with Some _ => cs | None => <[c := (∅ : clmap)]> cs end) g m.
Definition alter_nss (f : clmap -> clmap) (m : tree) (g : gvr) (c : gostr) : tree :=
  alter (fun cs : typemap => alter f c cs) g m.
Definition init_ns (m : tree) (g : gvr) (c ns : gostr) : tree :=
  alter_nss (fun nss => match nss !! ns with Some _ => nss | None => <[ns := (∅ : nsmap)]> nss end) m g c.
Definition alter_objs (f : nsmap -> nsmap) (m : tree) (g : gvr) (c ns : gostr) : tree :=
  alter_nss (fun nss => alter f ns nss) m g c.
Definition set_obj (n : gostr) (v : option entry) (os : nsmap) : nsmap :=
  match v with Some e => <[n := e]> os | None => delete n os end.

(** One step of a goroutine: [rd k] says that no other goroutine has announced a write of [k], [wr k] that no
    other goroutine holds [k] for reading.  A method call on a nil pointer panics. *)
Definition found {A} (o : option A) (p : pc) : pc := match o with Some _ => p | None => TPanic end.
Inductive tstep (rd wr : lk -> Prop) (m : tree) : pc -> tree -> pc -> Prop :=
(* memory.go:126-129 and the body of the event methods *)
| p_initc g c ns n v : rd (LkG g) -> tstep rd wr m (TPut (AInitC false) g c ns n v) m (found (clusters m g) (TPut (AInitC true) g c ns n v))
| p_initc' g c ns n v : wr (LkG g) -> tstep rd wr m (TPut (AInitC true) g c ns n v) (init_cluster m g c) (TPut AGetC1 g c ns n v)
| p_getc1 g c ns n v : rd (LkG g) -> tstep rd wr m (TPut AGetC1 g c ns n v) m (found (namespaces m g c) (TPut (AInitN false) g c ns n v))
| p_initn g c ns n v : rd (LkC g c) -> tstep rd wr m (TPut (AInitN false) g c ns n v) m (TPut (AInitN true) g c ns n v)
| p_initn' g c ns n v : wr (LkC g c) -> tstep rd wr m (TPut (AInitN true) g c ns n v) (init_ns m g c ns) (TPut AGetC2 g c ns n v)
| p_getc2 g c ns n v : rd (LkG g) -> tstep rd wr m (TPut AGetC2 g c ns n v) m (found (namespaces m g c) (TPut AGetN2 g c ns n v))
| p_getn2 g c ns n v : rd (LkC g c) -> tstep rd wr m (TPut AGetN2 g c ns n v) m (found (objects m g c ns) (TPut (ASet false) g c ns n v))
| p_set g c ns n v : rd (LkN g c ns) -> tstep rd wr m (TPut (ASet false) g c ns n v) m (TPut (ASet true) g c ns n v)
| p_set' g c ns n v : wr (LkN g c ns) -> tstep rd wr m (TPut (ASet true) g c ns n v) (alter_objs (set_obj n v) m g c ns) (TPut AGetC3 g c ns n v)
| p_getc3 g c ns n v : rd (LkG g) -> tstep rd wr m (TPut AGetC3 g c ns n v) m (found (namespaces m g c) (TPut AGetN3 g c ns n v))
| p_getn3 g c ns n v : rd (LkC g c) -> tstep rd wr m (TPut AGetN3 g c ns n v) m (found (objects m g c ns) (TPut ALen g c ns n v))
| p_len g c ns n v : rd (LkN g c ns) -> tstep rd wr m (TPut ALen g c ns n v) m (TDone RNone)
(* memory.go:135-143 *)
| b_exists g c : rd (LkG g) -> tstep rd wr m (TClean BExists g c) m
    (match clusters m g with
     | None => TPanic
     | Some cs => match cs !! c with Some _ => TClean BGet g c | None => TDone RNone end
     end)
| b_get g c : rd (LkG g) -> tstep rd wr m (TClean BGet g c) m (found (namespaces m g c) (TClean BValues g c))
| b_values g c nss order : rd (LkC g c) -> namespaces m g c = Some nss -> order ≡ₚ map fst (map_to_list nss) ->
    tstep rd wr m (TClean BValues g c) m (TClean (BWipe order false) g c)
| b_wipe g c ns nss : rd (LkN g c ns) -> tstep rd wr m (TClean (BWipe (ns :: nss) false) g c) m (TClean (BWipe (ns :: nss) true) g c)
| b_wipe' g c ns nss : wr (LkN g c ns) ->
    tstep rd wr m (TClean (BWipe (ns :: nss) true) g c) (alter_objs (fun _ => ∅) m g c ns) (TClean (BWipe nss false) g c)
| b_done g c w : tstep rd wr m (TClean (BWipe [] w) g c) m (TDone RNone)
(* memory.go:274-287 *)
| g_exc g c ns n : rd (LkG g) -> tstep rd wr m (TGet GExC g c ns n) m
    (match namespaces m g c with Some _ => TGet GGetC1 g c ns n | None => TDone (RObj None) end)
| g_getc1 g c ns n : rd (LkG g) -> tstep rd wr m (TGet GGetC1 g c ns n) m (found (namespaces m g c) (TGet GExN g c ns n))
| g_exn g c ns n : rd (LkC g c) -> tstep rd wr m (TGet GExN g c ns n) m
    (match objects m g c ns with Some _ => TGet GGetC2 g c ns n | None => TDone (RObj None) end)
| g_getc2 g c ns n : rd (LkG g) -> tstep rd wr m (TGet GGetC2 g c ns n) m (found (namespaces m g c) (TGet GGetN g c ns n))
| g_getn g c ns n : rd (LkC g c) -> tstep rd wr m (TGet GGetN g c ns n) m (found (objects m g c ns) (TGet GGet g c ns n))
| g_get g c ns n : rd (LkN g c ns) -> tstep rd wr m (TGet GGet g c ns n) m (TDone (RObj (objects m g c ns ≫= fun os => os !! n)))
(* memory.go:292-308; the order of each loop over a map is arbitrary *)
| q_panic g ns acc : clusters m g = None -> tstep rd wr m (TQuery QStart g ns acc) m TPanic
| q_start g ns acc cs order : rd (LkG g) -> clusters m g = Some cs -> order ≡ₚ map fst (map_to_list cs) ->
    tstep rd wr m (TQuery QStart g ns acc) m (TQuery (QClus order) g ns acc)
| q_clus g ns acc c cs nss order : rd (LkC g c) -> namespaces m g c = Some nss -> order ≡ₚ map fst (map_to_list nss) ->
    tstep rd wr m (TQuery (QClus (c :: cs)) g ns acc) m (TQuery (QNss c order cs) g ns acc)
| q_end g ns acc : tstep rd wr m (TQuery (QClus []) g ns acc) m (TDone (RList acc))
| q_skip g ns acc c n nss cs : ns <> [] -> ns <> n ->
    tstep rd wr m (TQuery (QNss c (n :: nss) cs) g ns acc) m (TQuery (QNss c nss cs) g ns acc)
| q_ns g ns acc c n nss cs os order : ns = [] \/ ns = n -> rd (LkN g c n) -> objects m g c n = Some os -> order ≡ₚ map fst (map_to_list os) ->
    tstep rd wr m (TQuery (QNss c (n :: nss) cs) g ns acc) m (TQuery (QObjs c n order nss cs) g ns acc)
| q_nss_end g ns acc c cs : tstep rd wr m (TQuery (QNss c [] cs) g ns acc) m (TQuery (QClus cs) g ns acc)
| q_obj g ns acc c n name names nss cs e : (objects m g c n ≫= fun os => os !! name) = Some e ->
    tstep rd wr m (TQuery (QObjs c n (name :: names) nss cs) g ns acc) m (TQuery (QObjs c n names nss cs) g ns (acc ++ [((c, n, name), e)]))
| q_objs_end g ns acc c n nss cs : tstep rd wr m (TQuery (QObjs c n [] nss cs) g ns acc) m (TQuery (QNss c nss cs) g ns acc).

(** The whole system.  A goroutine that makes several calls is a sequence of the goroutines of this model, each of
    which takes its first step after the last step of the one before; the schedules include these. *)
Record csys := CSys { c_map : tree; c_pcs : list pc }.
Definition others (s : csys) (i : nat) (P : pc -> Prop) : Prop := forall j p, c_pcs s !! j = Some p -> j <> i -> P p.
Inductive cstep : csys -> nat -> csys -> Prop :=
| cstep_one s i p m' p' : c_pcs s !! i = Some p ->
    tstep (fun k => others s i (fun q => ~ announced q k)) (fun k => others s i (fun q => ~ holds q k)) (c_map s) p m' p' ->
    cstep s i (CSys m' (<[i := p']> (c_pcs s))).
(** An execution from [s0] with its steps, the last one first: the state before, the goroutine, the state after. *)
Notation trace := (list (csys * nat * csys)).
Inductive cruns (s0 : csys) : trace -> csys -> Prop :=
| cruns_nil : cruns s0 [] s0
| cruns_cons tr s i s' : cruns s0 tr s -> cstep s i s' -> cruns s0 ((s, i, s') :: tr) s'.
(** The calls of the store: OnResourceAdded, OnResourceModified and OnResourceDeleted after
    buildResourceWithIndex (which touches no shared map), Clean, Get and Query. *)
Inductive starting : pc -> Prop :=
| st_put g c ns n v : starting (TPut (AInitC false) g c ns n v)
| st_clean g c : starting (TClean BExists g c)
| st_get g c ns n : starting (TGet GExC g c ns n)
| st_query g ns : starting (TQuery QStart g ns []).
