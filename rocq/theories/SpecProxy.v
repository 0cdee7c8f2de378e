(** Specifications for the proxy, independent of its functions.  Shared with the model: the shape of
    requests and answers, decoding of query strings, and the reading of label selectors. *)
From Coq Require Import Ascii String NArith ZArith.
From stdpp Require Import base gmap strings list.
From Verif Require Import ModelStr ModelLabels ModelPage ModelJson ModelQuery ModelStore ModelUrl ModelProxy SpecPage.

Definition params (r : request) : values := query_parse (rq_raw r).
(** First value of a parameter. *)
Definition param (q : values) (k v : gostr) : Prop := exists vs, q !! k = Some (v :: vs).
(** A parameter that carries a cluster tag. *)
Definition tagged (q : values) (k c : gostr) : Prop :=
  (k = str "fieldManager" \/ k = str "resourceVersion") /\ param q k (str "dsm-cluster-" ++ c).
(** A parameter that names a cluster. *)
Definition names_cluster (q : values) (c : gostr) : Prop :=
  param q (str "cluster") c \/ exists k, tagged q k c.
(** The text of the label selector. *)
Definition selector_text (q : values) (s : gostr) : Prop :=
  param q (str "labelSelector") s \/ q !! str "labelSelector" = None /\ s = [].
(** Parameters that do not prevent an answer from the cache. *)
Definition harmless (k : gostr) : Prop :=
  k = str "labelSelector" \/ k = str "timeoutSeconds" \/ k = str "timeout" \/ k = str "limit".

(** A request that the cache may answer, for the configured types [conf]. *)
Definition cacheable (conf : gmap gvr (gmap gostr gostr)) (r : request) : Prop :=
  rq_method r = str "GET" /\ is_Some (conf !! req_gvr r) /\
  (forall k, is_Some (params r !! k) -> harmless k \/ exists c, tagged (params r) k c) /\
  (forall s, selector_text (params r) s -> exists pl, parse_list_selector s = Some pl).

(** A request for a stream. *)
Definition watch_req (r : request) : Prop :=
  (exists w, param (params r) (str "watch") w /\ (to_lower w = str "1" \/ to_lower w = str "y" \/ to_lower w = str "true")) \/
  occurs (str "/watch/") (rq_path r).
(** [r'] asks the same of an API server as [r]; a GET carries no body. *)
Definition same_request (r r' : request) : Prop :=
  rq_method r' = rq_method r /\ rq_path r' = rq_path r /\ rq_ctype r' = rq_ctype r /\
  (rq_method r <> str "GET" -> rq_body r' = rq_body r).
Definition methods : list gostr := [str "GET"; str "POST"; str "DELETE"; str "PUT"; str "PATCH"].
(** The request [r] handed to cluster [c]. *)
Inductive relayed (clients : gset gostr) (c : gostr) (r : request) : answer -> Prop :=
| relayed_unknown : c ∉ clients -> relayed clients c r (AStatus 404 (str "cluster not found"))
| relayed_plain r' : c ∈ clients -> rq_method r ∈ methods -> ~ watch_req r ->
    same_request r r' -> params r' = params r -> relayed clients c r (AForward c r')
| relayed_watch r' : c ∈ clients -> rq_method r ∈ methods -> watch_req r ->
    same_request r r' -> params r' !! str "timeout" = Some [str "30m"] ->
    (forall k, k <> str "timeout" -> params r' !! k = params r !! k \/
       k = str "labelSelector" /\ params r !! k = Some [str "<none>"] /\ params r' !! k = None) ->
    relayed clients c r (AWatch c r')
| relayed_panic : c ∈ clients -> rq_method r ∉ methods -> relayed clients c r APanic.

(** A DELETE whose body is tagged with cluster [c]; [o] are the other options. *)
Definition body_tag (r : request) (c : gostr) (o : delopts) : Prop :=
  rq_method r = str "DELETE" /\ exists b ds,
    rq_body r = Some b /\ do_dry (decode_opts b) = (str "dsm-cluster-" ++ c) :: ds /\ o = set_dry (decode_opts b) ds.
(** The cluster that the tags of a request choose, [] for none.  Several parameters may name clusters;
    then any of them is possible. *)
Inductive picked (r : request) : gostr -> Prop :=
| picked_body c o : body_tag r c o -> picked r c
| picked_param c : (forall c' o, ~ body_tag r c' o) -> names_cluster (params r) c -> picked r c
| picked_none : (forall c' o, ~ body_tag r c' o) -> (forall c, ~ names_cluster (params r) c) -> picked r [].
(** The cluster of a request: its tag, else the first cluster of the query, else the default. *)
Definition target (cf : config) (r : request) (c : gostr) : Prop :=
  c <> [] /\ picked r c \/
  picked r [] /\ exists s, selector_text (params r) s /\
    match parse_list_selector s with
    | Some (p, _) => c = match get_clusters (pg_search p) with [] | [] :: _ => cf_default cf | x :: _ => x end
    | None => c = cf_default cf
    end.
(** What is sent for [r]: [r1] with the tags removed. *)
Definition untagged (r r1 : request) : Prop :=
  rq_method r1 = rq_method r /\ rq_path r1 = rq_path r /\ rq_ctype r1 = rq_ctype r /\
  (rq_method r <> str "DELETE" -> rq_body r1 = rq_body r) /\
  (rq_method r = str "DELETE" -> rq_body r = None -> rq_body r1 = None) /\
  (rq_method r = str "DELETE" -> rq_body r <> None -> (forall c o, ~ body_tag r c o) -> rq_body r1 = Some []) /\
  (forall c o, body_tag r c o -> rq_body r1 = Some (encode_opts o)) /\
  exists s, selector_text (params r) s /\
    match parse_list_selector s with
    | Some (_, labels) =>
        params r1 !! str "labelSelector" =
          match labels with
          | Some ls => if is_empty_sel ls then params r !! str "labelSelector" else Some [format_text ls]
          | None => params r !! str "labelSelector"
          end /\
        (forall k c, tagged (params r) k c -> params r1 !! k = None) /\
        (forall k, k <> str "labelSelector" -> (forall c, ~ tagged (params r) k c) -> params r1 !! k = params r !! k)
    | None => params r1 = params r
    end.
(** Options that JSON can represent. *)
Definition valid_opt (s : option gostr) : Prop := match s with Some s => valid_utf8 s = true | None => True end.
Definition valid_opts (o : delopts) : Prop :=
  valid_utf8 (do_kind o) = true /\ valid_utf8 (do_api o) = true /\
  match do_grace o with Some z => (- 2 ^ 63 <= z < 2 ^ 63)%Z | None => True end /\
  match do_pre o with Some (u, v) => valid_opt u /\ valid_opt v | None => True end /\
  valid_opt (do_policy o) /\ Forall (fun s => valid_utf8 s = true) (do_dry o).
