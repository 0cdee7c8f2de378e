(** Specification vocabulary for the fake server: an object store. *)
From Coq Require Import Ascii String NArith ZArith.
From stdpp Require Import base gmap strings list.
From Verif Require Import ModelStr ModelPage ModelJson ModelStore ModelUrl ModelProxy ModelObjType ModelFake SpecStore.

Notation okey := (gvr * gostr * gostr * gostr)%type.
(** An abstract state: which objects exist. *)
Notation ostate := (okey -> option objtype).
Inductive oop := OCreate (k : okey) (o : objtype) | OUpdate (k : okey) (o : objtype) | ODelete (k : okey) | OWipe.
Definition op_key (op : oop) : option okey :=
  match op with OCreate k _ | OUpdate k _ | ODelete k => Some k | OWipe => None end.
(** What an operation does: the status and the next state. *)
Definition set_at (A : ostate) (k : okey) (x : option objtype) : ostate := fun k' => if decide (k' = k) then x else A k'.
Definition perform (A : ostate) (op : oop) : N * ostate :=
  match op with
  | OCreate k o => if A k then (400%N, A) else (200%N, set_at A k (Some o))
  | OUpdate k o => if A k then (200%N, set_at A k (Some o)) else (404%N, A)
  | ODelete k => if A k then (200%N, set_at A k None) else (404%N, A)
  | OWipe => (200%N, fun _ => None)
  end.

(** The cluster named by the query: by fieldManager or resourceVersion, or the default cluster. *)
Definition tagged (c : gostr) (kv : gostr * list gostr) : Prop :=
  (kv.1 = str "fieldManager" \/ kv.1 = str "resourceVersion") /\ exists rest, kv.2 = (str "dsm-cluster-" ++ c) :: rest.
Definition query_cluster (cf : config) (query : list (gostr * list gostr)) (c : gostr) : Prop :=
  (exists kv, kv ∈ query /\ tagged c kv /\ forall kv' c', kv' ∈ query -> tagged c' kv' -> c' = c) \/
  ((forall kv' c', kv' ∈ query -> ~ tagged c' kv') /\ c = cf_default cf).
(** No watch parameter asking for a watch. *)
Definition no_watch (query : list (gostr * list gostr)) : Prop :=
  forall kv, kv ∈ query -> kv.1 = str "watch" -> to_lower (hd [] kv.2) <> str "true" /\ to_lower (hd [] kv.2) <> str "1".

Definition url_gvr (r : request) : gvr := (var r (str "group"), var r (str "version"), var r (str "resourceType")).
(** The query parameters of the URL; the server goes through them in some order. *)
Definition url_query (r : request) : list (gostr * list gostr) := map_to_list (query_parse (rq_raw r)).
(** What a request with the given query parameters asks for, when the names in the URL (if any) and in the body agree. *)
Inductive asks (JE : jenv) (cf : config) (order : list (gostr * list gostr)) (r : request) : oop -> Prop :=
  | asks_create c bs o :
      rq_method r = str "POST" -> no_watch order -> query_cluster cf order c -> rq_body r = Some bs -> decode_obj JE bs = Ok o ->
      (var r (str "resourceName") = [] \/ var r (str "resourceName") = me_name (t_meta o)) ->
      asks JE cf order r (OCreate (url_gvr r, c, var r (str "namespace"), me_name (t_meta o)) (with_ns o (var r (str "namespace"))))
  | asks_update c bs o :
      rq_method r = str "PUT" -> no_watch order -> query_cluster cf order c -> rq_body r = Some bs -> decode_obj JE bs = Ok o ->
      (var r (str "resourceName") = [] \/ var r (str "resourceName") = me_name (t_meta o)) ->
      asks JE cf order r (OUpdate (url_gvr r, c, var r (str "namespace"), me_name (t_meta o)) (with_ns o (var r (str "namespace"))))
  | asks_delete c bs o n :
      rq_method r = str "DELETE" -> no_watch order -> rq_body r = Some bs -> decode_obj JE bs = Ok o ->
      do_dry (decode_opts bs) = [str "dsm-cluster-" ++ c] \/
      ((forall c', do_dry (decode_opts bs) <> [str "dsm-cluster-" ++ c']) /\ query_cluster cf order c) ->
      n = (if decide (var r (str "resourceName") = []) then me_name (t_meta o) else var r (str "resourceName")) ->
      asks JE cf order r (ODelete (url_gvr r, c, var r (str "namespace"), n)).

(** The cache holds exactly the objects of the abstract state, each as created or last updated up to the
    two annotations ckube adds. *)
Definition holds (st : store) (A : ostate) : Prop :=
  forall g c ns n, match A (g, c, ns, n), store_get st g c ns n with
                   | Some o, Some x => stored_as c (to_obj o) x
                   | None, None => True
                   | _, _ => False
                   end.
(** The answer has the status; a success carries the object sent, annotated. *)
Definition status (a : fanswer) : option N := match a with FErr n => Some n | FObj _ => Some 200%N | FWatch => None end.
(** The event a successful operation announces. *)
Definition announces (op : oop) (e : event) : Prop :=
  match op with
  | OCreate (g, c, ns, n) _ => ev_action e = AAdd /\ (ev_gvr e, ev_cluster e, ev_ns e, ev_name e) = (g, c, ns, n)
  | OUpdate (g, c, ns, n) _ => ev_action e = AUpdate /\ (ev_gvr e, ev_cluster e, ev_ns e, ev_name e) = (g, c, ns, n)
  | ODelete (g, c, ns, n) => ev_action e = ADelete /\ (ev_gvr e, ev_cluster e, ev_ns e, ev_name e) = (g, c, ns, n)
  | OWipe => False
  end.

(** A sequence of operations: the statuses (a wipe has none), the announced operations, the final state. *)
Fixpoint perform_all (A : ostate) (ops : list oop) : list N * list oop * ostate :=
  match ops with
  | [] => ([], [], A)
  | OWipe :: ops' => perform_all (fun _ => None) ops'
  | op :: ops' =>
      let '(s, A1) := perform A op in
      let '(ss, es, A2) := perform_all A1 ops' in
      (s :: ss, if (s =? 200)%N then op :: es else es, A2)
  end.
Inductive asks_in (JE : jenv) (cf : config) (configured : gvr -> Prop) : finput -> oop -> Prop :=
  | ask_req order r op : order ≡ₚ url_query r -> asks JE cf (url_query r) r op -> configured (url_gvr r) ->
      asks_in JE cf configured (FReq order r) op
  | ask_clean : asks_in JE cf configured FClean OWipe.

(** ** Watching *)
(** The events a watch is for: the type of the URL, its namespace unless it has none, and one of the
    selected clusters unless none is selected. *)
Definition wanted (g : gvr) (ns : gostr) (clusters : list gostr) (e : event) : Prop :=
  ev_gvr e = g /\ (ns = [] \/ ev_ns e = ns) /\ (clusters = [] \/ ev_cluster e ∈ clusters).
Global Instance wanted_dec g ns cs e : Decision (wanted g ns cs e).
Proof. apply _. Defined.
(** A text that is a sequence of JSON values, as the client's decoder reads it. *)
Inductive json_stream : gostr -> list json -> Prop :=
  | js_end s : skip_ws s = [] -> json_stream s []
  | js_value s f j r l : jval f max_nesting s = Some (j, r) -> json_stream r l -> json_stream s (j :: l).
(** The name of the kind of event. *)
Definition event_type (a : action) : gostr :=
  str (match a with AAdd => "ADDED" | AUpdate => "MODIFIED" | ADelete => "DELETED" | AError => "ERROR" end).
