(** Specifications for list requests answered from the cache. *)
From Coq Require Import Ascii String NArith ZArith.
From stdpp Require Import base gmap strings list.
From Verif Require Import ModelStr ModelLabels SpecLabels ModelPage ModelJson ModelQuery ModelStore ModelUrl ModelProxy SpecPage SpecStore SpecProxy.

(** A list request that the cache answers, with the Paginate and the label selector it carries. *)
Definition list_request (conf : gmap gvr (gmap gostr gostr)) (r : request) (p : paginate) (labels : option lsel) : Prop :=
  cacheable conf r /\ rq_vars r !! str "resource" = None /\
  exists s, selector_text (params r) s /\ parse_list_selector s = Some (p, labels).

(** The labels of an object satisfy the selector. *)
Definition labels_hold (labels : option lsel) (o : obj) : Prop :=
  match labels, o with
  | None, _ => True
  | Some ls, OKube k => sel_holds (k_labels k) ls
  | Some _, ORaw _ => False
  end.
(** [ks] lists exactly once the keys of the objects in scope that match search and labels. *)
Definition listed (E : env) (st : store) (g : gvr) (ns search : gostr) (labels : option lsel)
    (ks : list (gostr * gostr * gostr)) (es : list entry) : Prop :=
  NoDup ks /\
  Forall2 (fun k e => in_scope st g ns k e /\ entry_match E search e = Some true /\ labels_hold labels (en_obj e)) ks es /\
  (forall k e, in_scope st g ns k e -> entry_match E search e = Some true -> labels_hold labels (en_obj e) -> k ∈ ks).
(** [es] keeps the order that the cache gives to the matching objects for this sort text. *)
Definition in_cache_order (E : env) (st : store) (g : gvr) (ns sort search : gostr) (es : list entry) : Prop :=
  exists all n, query E st g ns (Paginate 0 0 0 sort search) (Ok (QRes false n (map en_obj all))) /\ sublist es all.

(** The search that is run: the default cluster is added when the request selects none. *)
Inductive effective (cf : config) (p : paginate) : paginate -> Prop :=
| effective_chosen : get_clusters (pg_search p) <> [] -> effective cf p p
| effective_default : get_clusters (pg_search p) = [] -> effective cf p (set_clusters p [cf_default cf]).2.

(** No part of the search chooses clusters: no expression on the key "cluster" with values in the first advanced part. *)
Definition chooses_no_cluster (parts : list gostr) : Prop :=
  forall pre text post ls, parts = pre ++ (str "__ckube_as__:" ++ text) :: post -> (forall q, q ∈ pre -> ~ is_adv q) ->
    parse_to_label_selector text = Some ls -> forall e, e ∈ mexprs ls -> lkey e = str "cluster" -> lvals e = [].
