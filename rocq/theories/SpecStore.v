(** Specification vocabulary for the cache. *)
From Coq Require Import Ascii String NArith ZArith.
From stdpp Require Import base gmap strings list sorting.
From Verif Require Import ModelStr ModelLabels ModelPage ModelJson ModelStore.

(** The key of an object: its metadata; for a value without metadata the configured index entries. *)
Definition obj_key (E : env) (conf : gmap gostr gostr) (o : obj) : gostr * gostr :=
  match o with
  | OKube k => (k_ns k, k_name k)
  | ORaw _ => (match conf !! str "namespace" with Some x => index_value E o x | None => [] end,
               match conf !! str "name" with Some x => index_value E o x | None => [] end)
  end.
(** [o'] is [o] with only the two ckube annotations added. *)
Definition stored_as (c : gostr) (o o' : obj) : Prop :=
  match o, o' with
  | OKube k, OKube k' =>
      k_ns k' = k_ns k /\ k_name k' = k_name k /\ k_deleted k' = k_deleted k /\ k_labels k' = k_labels k /\
      k_owners k' = k_owners k /\ k_data k' = k_data k /\
      k_annos k' !! str "ckube.doacloud.io/cluster" = Some c /\
      (forall a, a <> str "ckube.doacloud.io/cluster" -> a <> str "ckube.daocloud.io/indexes" ->
         k_annos k' !! a = k_annos k !! a)
  | ORaw j, ORaw j' => j' = j
  | _, _ => False
  end.
(** A call that stores [o] under a key, and a call after which the key is something else. *)
Definition stores_key (E : env) (conf : gmap gvr (gmap gostr gostr)) (k : call) (g : gvr) (c ns n : gostr) (o : obj) : Prop :=
  (k = CAdd g c o \/ k = CMod g c o) /\ obj_key E (default ∅ (conf !! g)) o = (ns, n).
Definition touches_key (E : env) (conf : gmap gvr (gmap gostr gostr)) (k : call) (g : gvr) (c ns n : gostr) : Prop :=
  k = CClean g c \/
  exists o, (k = CAdd g c o \/ k = CMod g c o \/ k = CDel g c o) /\ obj_key E (default ∅ (conf !! g)) o = (ns, n).
Definition call_gvr (k : call) : gvr :=
  match k with CAdd g _ _ | CMod g _ _ | CDel g _ _ | CClean g _ => g end.
Definition call_cluster (k : call) : gostr :=
  match k with CAdd _ c _ | CMod _ c _ | CDel _ c _ | CClean _ c => c end.
(** Calls with Kubernetes objects only, as the watcher makes them. *)
Definition kube_call (k : call) : Prop :=
  match k with CAdd _ _ o | CMod _ _ o | CDel _ _ o => exists x, o = OKube x | CClean _ _ => True end.

(** An object in the scope of a list request: any cluster, the namespace or all. *)
Definition in_scope (st : store) (g : gvr) (ns : gostr) (k : gostr * gostr * gostr) (e : entry) : Prop :=
  lookup_entry st g k.1.1 k.1.2 k.2 = Some e /\ (ns = [] \/ ns = k.1.2).
(** [ks] lists exactly once the keys of the objects in scope that match the search. *)
Definition matches_listed (E : env) (st : store) (g : gvr) (ns search : gostr)
    (ks : list (gostr * gostr * gostr)) (es : list entry) : Prop :=
  NoDup ks /\ Forall2 (fun k e => in_scope st g ns k e /\ entry_match E search e = Some true) ks es /\
  (forall k e, in_scope st g ns k e -> entry_match E search e = Some true -> k ∈ ks).

(** ** Order *)
(** The value of a sort key: a rank for numbers (0 for non-numbers), the bytes for strings. *)
Section order.
  Context (E : env) (rank : e_num E -> Z).
  Definition num_val (v : gostr) : Z := match e_parse E v with Some x => rank x | None => 0 end.
  Definition value (s : isort) (i : gmap gostr gostr) : gostr := default [] (i !! is_key s).
  Definition before (s : isort) (a b : gmap gostr gostr) : Prop :=
    let lt x y := if is_int s then (num_val x < num_val y)%Z else str_ltb x y = true in
    if is_rev s then lt (value s b) (value s a) else lt (value s a) (value s b).
  Definition tie (s : isort) (a b : gmap gostr gostr) : Prop :=
    if is_int s then num_val (value s a) = num_val (value s b) else value s a = value s b.
  (** Lexicographic order by the keys. *)
  Fixpoint lex_le (sorts : list isort) (a b : gmap gostr gostr) : Prop :=
    match sorts with
    | [] => True
    | s :: ss => before s a b \/ (tie s a b /\ lex_le ss a b)
    end.
  (** The ranks are those of the float64 comparison, for the numbers in [P] (in Go: not NaN). *)
  Definition rank_ok (P : e_num E -> Prop) : Prop :=
    forall x y, P x -> P y -> (e_lt E x y = true <-> (rank x < rank y)%Z) /\ (e_eq E x y = true <-> rank x = rank y).
  (** The values of the numeric sort keys are such numbers. *)
  Definition numeric (P : e_num E -> Prop) (sorts : list isort) (i : gmap gostr gostr) : Prop :=
    Forall (fun s => is_int s = true -> exists x, e_parse E (value s i) = Some x /\ P x) sorts.
End order.

(** The documented sort syntax (PAGINATE_SPEC.md): "key!type order" separated by commas. *)
Definition plain_key (k : gostr) : Prop := k <> [] /\ Forall (fun c => (33 < code c < 127)%N /\ c <> ","%char) k.
Definition sort_item (s : isort) : gostr :=
  is_key s ++ str (if is_int s then "!int" else "!str") ++ str (if is_rev s then " desc" else " asc").
Fixpoint sort_text (l : list isort) : gostr :=
  match l with
  | [] => []
  | [s] => sort_item s
  | s :: l' => sort_item s ++ str ", " ++ sort_text l'
  end.

(** ** Clean and gauge *)
Definition event_of (k : call) (g : gvr) (c : gostr) : Prop := exists o, k = CAdd g c o \/ k = CMod g c o \/ k = CDel g c o.
(** The names of the cached objects of a namespace, each once. *)
Definition cached_names (st : store) (g : gvr) (c ns : gostr) (names : list gostr) : Prop :=
  NoDup names /\ forall n, n ∈ names <-> is_Some (lookup_entry st g c ns n).
