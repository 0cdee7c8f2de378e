(** store/memory/memory.go: the cache. *)
From Coq Require Import Ascii String NArith ZArith.
From stdpp Require Import base gmap strings list.
From Verif Require Import ModelStr ModelSort ModelLabels ModelPage ModelJson.

(** common/constants/ckube.go *)
Definition cluster_anno : gostr := str "ckube.doacloud.io/cluster".
Definition index_anno : gostr := str "ckube.daocloud.io/indexes".

(** store/model.go:3-7 *)
Definition gvr : Type := gostr * gostr * gostr.

(** A cached Go value.  [OKube] is a value that implements metav1.Object (every typed Kubernetes
    object and watcher.ObjType); the metadata that ckube reads or writes is explicit, the rest is
    [k_data].  [ORaw] is any other value.  Objects are values: the sharing of the stored pointer with
    readers is not modelled. *)
Record kobj := KObj {
  k_ns : gostr; k_name : gostr; k_deleted : bool;
  k_annos : gmap gostr gostr; k_labels : gmap gostr gostr;
  k_owners : list (gostr * gostr); (* kind and name *)
  k_data : json }.
Inductive obj := OKube (k : kobj) | ORaw (j : json).

(** A run-time panic is a separate outcome. *)
Inductive result (A : Type) := Ok (a : A) | Panics.
Arguments Ok {A} _.
Arguments Panics {A}.

(** What the model does not define: unicode.IsPrint above 0x7f, the text/template and jsonpath
    engines (an index expression and an object give a string; both engines are run with errors
    ignored, memory.go:369-390), and strconv.ParseFloat with the comparisons of float64. *)
Record env := Env {
  e_print : N -> bool;
  e_eval : gostr -> obj -> gostr;
  e_num : Type;
  e_parse : gostr -> option e_num;
  e_lt : e_num -> e_num -> bool;
  e_eq : e_num -> e_num -> bool }.

(** store/model.go:15-18 *)
Record entry := Entry { en_index : gmap gostr gostr; en_obj : obj }.
(** memory.go:100-114 with the gauge of utils/prommonitor.  A lazily created inner map is the empty
    map; locks are modelled in ModelConc.v. *)
Notation nsmap := (gmap gostr entry).
Notation clmap := (gmap gostr nsmap).
Notation typemap := (gmap gostr clmap).
Record store := Store {
  st_conf : gmap gvr (gmap gostr gostr);
  st_map : gmap gvr typemap;
  st_gauge : gmap (gostr * gvr * gostr) N }.
(** memory.go:116-124 *)
Definition new_store (conf : gmap gvr (gmap gostr gostr)) : store :=
  Store conf ((fun _ => ∅) <$> conf) ∅.

(** encoding/json.Marshal of a map[string]string: keys in sorted order. *)
Definition marshal_map (m : gmap gostr gostr) : gostr :=
  str "{" ++ join (str ",")
    (map (fun kv : gostr * gostr => json_str kv.1 ++ str ":" ++ json_str kv.2)
       (gosort (fun a b : gostr * gostr => str_ltb a.1 b.1) (map_to_list m))) ++ str "}".

(** memory.go:408-416: annotate with the cluster. *)
Definition set_anno (k : kobj) (key v : gostr) : kobj :=
  KObj (k_ns k) (k_name k) (k_deleted k) (<[key := v]> (k_annos k)) (k_labels k) (k_owners k) (k_data k).

Section store.
  Context (E : env).

  (** memory.go:363-391, for each configured entry; an expression without brace is itself. *)
  Definition index_value (o : obj) (expr : gostr) : gostr :=
    if contains expr (str "{") then e_eval E expr o else expr.
  Definition index_base (conf : gmap gostr gostr) (o : obj) : gmap gostr gostr :=
    index_value o <$> conf.
  (** memory.go:354-429 buildResourceWithIndex: namespace, name and the entry to store. *)
  Definition build (conf : gmap gostr gostr) (cluster : gostr) (o : obj) : gostr * gostr * entry :=
    let idx := index_base conf o in
    let ns := default [] (idx !! str "namespace") in
    let name := default [] (idx !! str "name") in
    let idx := <[str "cluster" := cluster]> idx in
    match o with
    | ORaw _ => (ns, name, Entry idx o)
    | OKube k =>
        let idx := <[str "is_deleted" := if k_deleted k then str "true" else str "false"]> idx in
        let k := set_anno k cluster_anno cluster in
        let k := set_anno k index_anno (marshal_map idx) in
        (k_ns k, k_name k,
         Entry (<[str "name" := k_name k]> (<[str "namespace" := k_ns k]> idx)) (OKube k))
    end.
  Definition conf_of (st : store) (g : gvr) : gmap gostr gostr := default ∅ (st_conf st !! g).

  (** memory.go:126-129 initResourceNamespace followed by [f] on the innermost map
      (memory.go:148, 157, 166).  Get of an unconfigured type gives a nil pointer, on which Init
      panics. *)
  Definition at_ns (m : gmap gvr typemap) (g : gvr) (c ns : gostr) (f : nsmap -> nsmap)
      : result (gmap gvr typemap) :=
    match m !! g with
    | None => Panics
    | Some cs =>
        let nss := default ∅ (cs !! c) in
        Ok (<[g := <[c := <[ns := f (default ∅ (nss !! ns))]> nss]> cs]> m)
    end.
  Definition ns_len (m : gmap gvr typemap) (g : gvr) (c ns : gostr) : N :=
    match m !! g with
    | Some cs => match cs !! c with
                 | Some nss => match nss !! ns with Some os => N.of_nat (size os) | None => 0 end
                 | None => 0
                 end
    | None => 0
    end.
  (** memory.go:145-170: an event: change the map, then set the gauge. *)
  Definition on_event (st : store) (g : gvr) (c : gostr) (o : obj) (f : gostr -> entry -> nsmap -> nsmap)
      : result store :=
    let '(ns, name, e) := build (conf_of st g) c o in
    match at_ns (st_map st) g c ns (f name e) with
    | Panics => Panics
    | Ok m => Ok (Store (st_conf st) m (<[(c, g, ns) := ns_len m g c ns]> (st_gauge st)))
    end.
  (** memory.go:145-152 *)
  Definition on_added st g c o : result store := on_event st g c o (fun name e m => <[name := e]> m).
  (** memory.go:154-161 *)
  Definition on_modified st g c o : result store := on_event st g c o (fun name e m => <[name := e]> m).
  (** memory.go:163-170 *)
  Definition on_deleted st g c o : result store := on_event st g c o (fun name _ m => delete name m).
  (** memory.go:131-133 *)
  Definition is_store_gvr (st : store) (g : gvr) : bool :=
    match st_map st !! g with Some _ => true | None => false end.
  (** memory.go:135-143: the error and the new store. *)
  Definition clean (st : store) (g : gvr) (c : gostr) : result (bool * store) :=
    match st_map st !! g with
    | None => Panics
    | Some cs =>
        match cs !! c with
        | None => Ok (true, st)
        | Some nss =>
            Ok (false, Store (st_conf st) (<[g := <[c := (fun _ => ∅) <$> nss]> cs]> (st_map st)) (st_gauge st))
        end
    end.
  (** memory.go:274-287 *)
  Definition lookup_entry (st : store) (g : gvr) (c ns name : gostr) : option entry :=
    cs ← st_map st !! g; nss ← cs !! c; os ← nss !! ns; os !! name.
  Definition store_get (st : store) (g : gvr) (c ns name : gostr) : option obj :=
    en_obj <$> lookup_entry st g c ns name.

  (** The calls of the watcher. *)
  Inductive call :=
  | CAdd (g : gvr) (c : gostr) (o : obj)
  | CMod (g : gvr) (c : gostr) (o : obj)
  | CDel (g : gvr) (c : gostr) (o : obj)
  | CClean (g : gvr) (c : gostr).
  Definition do_call (st : store) (k : call) : result store :=
    match k with
    | CAdd g c o => on_added st g c o
    | CMod g c o => on_modified st g c o
    | CDel g c o => on_deleted st g c o
    | CClean g c => match clean st g c with Ok (_, st') => Ok st' | Panics => Panics end
    end.
  Fixpoint run_calls (st : store) (h : list call) : result store :=
    match h with
    | [] => Ok st
    | k :: h' => match do_call st k with Ok st' => run_calls st' h' | Panics => Panics end
    end.

  (** ** Sorting *)
  (** memory.go:172-176 *)
  Record isort := ISort { is_key : gostr; is_int : bool; is_rev : bool }.
  (** memory.go:188-235, one turn of the loop. *)
  Inductive spart := PSkip | PStop | PErr | PKey (s : isort).
  (** memory.go:215-233: key and type. *)
  Definition sort_typ (keys : gmap gostr gostr) (s : gostr) (rev : bool) : spart :=
    if contains s (str "!") then
      match split_on "!"%char s with
      | [k; t] => if str_eqb t (str "int") then
                    match keys !! k with Some _ => PKey (ISort k true rev) | None => PErr end
                  else if str_eqb t (str "str") then
                    match keys !! k with Some _ => PKey (ISort k false rev) | None => PErr end
                  else PErr
      | _ => PErr
      end
    else match keys !! s with Some _ => PKey (ISort s false rev) | None => PErr end.
  Definition sort_part (keys : gmap gostr gostr) (part : gostr) : spart :=
    let s := trim_space part in
    if str_eqb s [] then PSkip
    else if contains s (str " ") then
      match split_on " "%char s with
      | [k; d] => if str_eqb d (str "desc") then sort_typ keys k true
                  else if str_eqb d (str "asc") then sort_typ keys k false else PErr
      | _ => PStop
      end
    else sort_typ keys s false.
  (** memory.go:186-235: the list of sort keys, [None] for an error; [Some None] when the loop
      returns the objects unsorted without error (line 200). *)
  Fixpoint sort_keys (keys : gmap gostr gostr) (parts : list gostr) : option (option (list isort)) :=
    match parts with
    | [] => Some (Some [])
    | p :: ps =>
        match sort_part keys p with
        | PErr => None
        | PStop => Some None
        | PSkip => sort_keys keys ps
        | PKey s => match sort_keys keys ps with
                    | Some (Some l) => Some (Some (s :: l))
                    | r => r
                    end
        end
    end.
  (** memory.go:237-270: the comparison and whether it sets sortErr.  The [break] statements leave
      the loop over the keys, so the answer is then true. *)
  Fixpoint sort_less (sorts : list isort) (a b : gmap gostr gostr) : bool * bool :=
    match sorts with
    | [] => (true, false)
    | s :: ss =>
        let va := default [] (a !! is_key s) in
        let vb := default [] (b !! is_key s) in
        if is_int s then
          match e_parse E va, e_parse E vb with
          | Some x, Some y =>
              if e_eq E x y then sort_less ss a b
              else (if is_rev s then negb (e_lt E x y) else e_lt E x y, false)
          | _, _ => (true, true)
          end
        else if str_eqb va vb then sort_less ss a b
        else (if is_rev s then negb (str_ltb va vb) else str_ltb va vb, false)
    end.
  Definition entry_less (sorts : list isort) (a b : entry) : bool := (sort_less sorts (en_index a) (en_index b)).1.
  Definition entry_bad (sorts : list isort) (a b : entry) : bool := (sort_less sorts (en_index a) (en_index b)).2.
  Definition default_sort : gostr := str "cluster, namespace, name".
  (** memory.go:178-272: the sorted objects, [None] for an error. *)
  Definition sort_objs (objs : list entry) (s : gostr) : option (list entry) :=
    match objs with
    | [] => Some objs
    | o :: _ =>
        match sort_keys (en_index o) (split_on ","%char (if str_eqb s [] then default_sort else s)) with
        | None => None
        | Some None => Some objs
        | Some (Some sorts) =>
            if existsb (fun p : entry * entry => entry_bad sorts p.1 p.2) (gosort_log (entry_less sorts) objs) then None
            else Some (gosort (entry_less sorts) objs)
        end
    end.

  (** ** Query *)
  Definition wrap64 (z : Z) : Z := ((z + 9223372036854775808) mod 18446744073709551616 - 9223372036854775808)%Z.
  (** Go's s[lo:hi] for hi not above the length. *)
  Definition slice {A} (l : list A) (lo hi : Z) : option (list A) :=
    if ((0 <=? lo) && (lo <=? hi))%Z then Some (take (Z.to_nat (hi - lo)) (drop (Z.to_nat lo) l)) else None.
  (** memory.go:318-332 (and api/proxy.go:268-282): bounds of the page. *)
  Definition page_bounds (page psize l : Z) : Z * Z :=
    let start := wrap64 (wrap64 (page - 1) * psize) in
    let end_ := wrap64 (start + psize) in
    (if (l <=? start)%Z then l else start, if (l <=? end_)%Z then l else end_).
  (** store/model.go:9-13 *)
  Record qres := QRes { q_err : bool; q_total : Z; q_items : list obj }.
  Definition entry_match (search : gostr) (e : entry) : option bool :=
    paginate_match (e_print E) search (en_index e).
  (** memory.go:308-336, after the scan has seen the entries [seen] in this order. *)
  Definition query_seen (p : paginate) (seen : list entry) : result qres :=
    let resources := List.filter (fun e => match entry_match (pg_search p) e with Some true => true | _ => false end) seen in
    let err := existsb (fun e => match entry_match (pg_search p) e with None => true | _ => false end) seen in
    let l := Z.of_nat (length resources) in
    match resources with
    | [] => Ok (QRes err 0 [])
    | _ =>
        match sort_objs resources (pg_sort p) with
        | None => Ok (QRes true 0 [])
        | Some sorted =>
            let '(start, end_) := if (pg_size p =? 0)%Z then (0%Z, l) else page_bounds (pg_page p) (pg_size p) l in
            match slice sorted start end_ with
            | None => Panics
            | Some items => Ok (QRes err l (map en_obj items))
            end
        end
    end.
  (** Iteration over a Go map: the entries in any order. *)
  Definition iter {V} (m : gmap gostr V) (l : list (gostr * V)) : Prop := l ≡ₚ map_to_list m.
  (** memory.go:298-304 and 296-306 and 292-307: the entries in the order of the nested loops. *)
  Definition scan_objs (os : nsmap) (l : list entry) : Prop := exists es, iter os es /\ l = map snd es.
  Inductive scan_nss (ns : gostr) : list (gostr * nsmap) -> list entry -> Prop :=
  | scan_nss_nil : scan_nss ns [] []
  | scan_nss_skip n os nss l : ns <> [] -> ns <> n -> scan_nss ns nss l -> scan_nss ns ((n, os) :: nss) l
  | scan_nss_take n os nss l l' : ns = [] \/ ns = n -> scan_objs os l -> scan_nss ns nss l' ->
      scan_nss ns ((n, os) :: nss) (l ++ l').
  Inductive scan_cls (ns : gostr) : list (gostr * clmap) -> list entry -> Prop :=
  | scan_cls_nil : scan_cls ns [] []
  | scan_cls_cons c nss order cls l l' : iter nss order -> scan_nss ns order l -> scan_cls ns cls l' ->
      scan_cls ns ((c, nss) :: cls) (l ++ l').
  Definition scan (ns : gostr) (cs : typemap) (l : list entry) : Prop := exists order, iter cs order /\ scan_cls ns order l.
  (** memory.go:289-337 Query: a possible result. *)
  Definition query (st : store) (g : gvr) (ns : gostr) (p : paginate) (r : result qres) : Prop :=
    match st_map st !! g with
    | None => r = Panics
    | Some cs => exists seen, scan ns cs seen /\ r = query_seen p seen
    end.
End store.
