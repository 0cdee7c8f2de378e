(** Specification vocabulary for the fake server seen through HTTP. *)
From Coq Require Import Ascii String NArith ZArith.
From stdpp Require Import base gmap strings list.
From Verif Require Import ModelStr ModelPage ModelJson ModelJsonText ModelStore ModelUrl ModelProxy ModelObjType ModelReload ModelFake
  ModelServer ModelServe ModelFakeServer SpecStore SpecFake SpecServer.

(** ** Objects *)
(** What a request asks of an object store: a change, or reading one object. *)
Inductive hop := HDo (op : oop) | HGet (k : okey).
Definition hop_gvr (op : hop) : option gvr :=
  match op with
  | HDo op => (fun k : okey => k.1.1.1) <$> op_key op
  | HGet k => Some k.1.1.1
  end.
(** The request in the syntax of the Kubernetes API.  A cluster is named by fieldManager or resourceVersion, or
    in the options of a delete. *)
Definition url_params (hr : http_req) : list (gostr * list gostr) := map_to_list (query_parse (rq_raw (h_req hr))).
Inductive http_asks (JE : jenv) (cf : config) (hr : http_req) : hop -> Prop :=
| ha_create g ns name c bs o :
    rq_method (h_req hr) = str "POST" -> api_addr g ns name -> rq_path (h_req hr) = api_path g ns name ->
    no_watch (url_params hr) -> query_cluster cf (url_params hr) c -> rq_body (h_req hr) = Some bs -> decode_obj JE bs = Ok o ->
    (name = None \/ name = Some (me_name (t_meta o))) ->
    http_asks JE cf hr (HDo (OCreate (g, c, default [] ns, me_name (t_meta o)) (with_ns o (default [] ns))))
| ha_update g ns name c bs o :
    rq_method (h_req hr) = str "PUT" -> api_addr g ns name -> rq_path (h_req hr) = api_path g ns name ->
    no_watch (url_params hr) -> query_cluster cf (url_params hr) c -> rq_body (h_req hr) = Some bs -> decode_obj JE bs = Ok o ->
    (name = None \/ name = Some (me_name (t_meta o))) ->
    http_asks JE cf hr (HDo (OUpdate (g, c, default [] ns, me_name (t_meta o)) (with_ns o (default [] ns))))
| ha_delete g ns name c bs o :
    rq_method (h_req hr) = str "DELETE" -> api_addr g ns (Some name) -> rq_path (h_req hr) = api_path g ns (Some name) ->
    no_watch (url_params hr) -> rq_body (h_req hr) = Some bs -> decode_obj JE bs = Ok o ->
    do_dry (decode_opts bs) = [str "dsm-cluster-" ++ c] \/
    ((forall c', do_dry (decode_opts bs) <> [str "dsm-cluster-" ++ c']) /\ query_cluster cf (url_params hr) c) ->
    http_asks JE cf hr (HDo (ODelete (g, c, default [] ns, name)))
| ha_get g ns name c :
    rq_method (h_req hr) = str "GET" -> api_addr g ns (Some name) -> rq_path (h_req hr) = api_path g ns (Some name) ->
    g.2 <> str "watch" ->
    (rq_raw (h_req hr) = [] /\ c = cf_default cf \/
     query_parse (rq_raw (h_req hr)) = {[ str "resourceVersion" := [str "dsm-cluster-" ++ c] ]} /\ c <> []) ->
    http_asks JE cf hr (HGet (g, c, default [] ns, name)).
(** The outcome: the status of the object store; a get returns the object as created or last updated, up to the
    two annotations. *)
Definition answered (A : ostate) (op : hop) (o : outcome) : Prop :=
  match op with
  | HDo op => exists rp, o = OReply rp /\ rp_status rp = Z.of_N (perform A op).1
  | HGet (g, c, ns, n) =>
      match A (g, c, ns, n) with
      | Some ob => exists x, o = OReply (Reply 200 [BObject x]) /\ stored_as c (to_obj ob) x
      | None => o = OReply (Reply 404 [BStatus 404 (str "resource not found")])
      end
  end.
Definition next (A : ostate) (op : hop) : ostate := match op with HDo op => (perform A op).2 | HGet _ => A end.
(** The inputs for another server than the i-th. *)
Definition elsewhere (i : nat) (x : pinput) : Prop := exists j, j <> i /\ (x = PClean j \/ exists hr, x = PRequest j hr).
(** The i-th server, among others, behaves as an object store. *)
Inductive behaves (JE : jenv) (cf : config) (i : nat) : ostate -> list pinput -> list poutput -> ostate -> Prop :=
| behaves_end A : behaves JE cf i A [] [] A
| behaves_elsewhere A x o is os A' : elsewhere i x -> behaves JE cf i A is os A' -> behaves JE cf i A (x :: is) (o :: os) A'
| behaves_clean A is os A' : behaves JE cf i (fun _ => None) is os A' ->
    behaves JE cf i A (PClean i :: is) (POCleaned :: os) A'
| behaves_request A hr op o is os A' : http_asks JE cf hr op -> answered A op o -> behaves JE cf i (next A op) is os A' ->
    behaves JE cf i A (PRequest i hr :: is) (POAnswer o :: os) A'.
(** Inputs of which those to the i-th server are about configured types. *)
Definition proper (JE : jenv) (cf : config) (configured : gvr -> Prop) (i : nat) (x : pinput) : Prop :=
  elsewhere i x \/ x = PClean i \/
  exists hr op g, x = PRequest i hr /\ http_asks JE cf hr op /\ hop_gvr op = Some g /\ configured g.
(** The types of a configuration. *)
Definition configured (fc : file_conf) (g : gvr) : Prop := exists p, p ∈ fc_proxies fc /\ pc_gvr p = g.

(** ** Discovery *)
(** Each element once, in the order of first occurrences. *)
Fixpoint firsts (l : list gostr) : list gostr :=
  match l with
  | [] => []
  | x :: l' => x :: filter (fun y => y <> x) (firsts l')
  end.
(** Members of a JSON object, and the texts of an array. *)
Definition member (j : json) (k : gostr) (v : json) : Prop := exists l, j = JObj l /\ (k, v) ∈ l /\ forall v', (k, v') ∈ l -> v' = v.
Definition elements (j : json) (l : list json) : Prop := j = JArr l \/ j = JNull /\ l = [].
