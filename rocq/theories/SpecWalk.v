(** Specification for reading a list page by page while the cache changes (C76). *)
From Coq Require Import Ascii String NArith ZArith.
From stdpp Require Import base gmap strings list.
From Verif Require Import ModelStr ModelLabels SpecLabels ModelPage ModelJson ModelQuery ModelStore ModelUrl ModelProxy ModelServer ModelServe
  SpecPage SpecStore SpecProxy SpecList SpecServer SpecServe ProofsJson.

(** Cluster, namespace and name, compared in this order. *)
Definition name3 : Type := gostr * gostr * gostr.
Definition sorts_before (a b : name3) : Prop :=
  str_ltb a.1.1 b.1.1 = true \/ a.1.1 = b.1.1 /\
    (str_ltb a.1.2 b.1.2 = true \/ a.1.2 = b.1.2 /\ str_ltb a.2 b.2 = true).
(** What a client reads off an item of a list. *)
Definition named (k : name3) (o : obj) : Prop :=
  exists x, o = OKube x /\ k_annos x !! str "ckube.doacloud.io/cluster" = Some k.1.1 /\ k_ns x = k.1.2 /\ k_name x = k.2.
(** The list that is read: resource, namespace, label selector, search, and objects per page. *)
Record asked := Asked { a_gvr : gvr; a_ns : option gostr; a_sel : gostr; a_search : gostr; a_size : Z }.
Definition asked_page (a : asked) (i : nat) : paginate := Paginate (Z.of_nat i + 1) (a_size a) 0 [] (a_search a).
(** The object of this name is cached, is in the namespace, and fits the search ([full]: with the default cluster
    if the client chose none) and the labels. *)
Definition in_list (E : env) (a : asked) (ls : lsel) (full : gostr) (st : store) (k : name3) : Prop :=
  exists e, in_scope st (a_gvr a) (default [] (a_ns a)) k e /\ entry_match E full e = Some true /\ labels_hold (Some ls) (en_obj e).
(** A list that can be asked for. *)
Definition askable (conf : gmap gvr (gmap gostr gostr)) (a : asked) (ls : lsel) : Prop :=
  is_Some (conf !! a_gvr a) /\ api_addr (a_gvr a) (a_ns a) None /\
  parse_to_label_selector (a_sel a) = Some ls /\ mlabels ls !! str "ckube.daocloud.io/query" = None /\
  (forall e, e ∈ mexprs ls -> lkey e <> str "ckube.daocloud.io/query") /\
  valid_utf8 (a_search a) = true /\ (1 <= a_size a)%Z.
(** Page [i] (from 0), asked for with QueryListOptions while the cache is [st], was answered with [items], and
    MakeupResPaginate then gives [total]. *)
Definition page_read (E : env) (cf : config) (conf : gmap gvr (gmap gostr gostr)) (a : asked) (ls : lsel) (full : gostr)
    (i : nat) (st : store) (items : list obj) (total : Z) : Prop :=
  let p := asked_page a i in
  exists h clients up hr p1 s api kind rem,
    Forall kube_call h /\ run_calls E (new_store conf) h = Ok st /\
    (forall ks, NoDup ks -> Forall (in_list E a ls full st) ks -> (Z.of_nat (length ks) < 2 ^ 63)%Z) /\
    query_list_options (a_sel a) p = Some s /\ page_in_range p /\ (N.of_nat (length (marshal_page p)) <= 7518)%N /\
    (pg_page p * pg_size p < 2 ^ 63)%Z /\ effective cf p p1 /\ pg_search p1 = full /\
    authorised cf hr /\ rq_method (h_req hr) = str "GET" /\ rq_path (h_req hr) = api_path (a_gvr a) (a_ns a) None /\
    rq_raw (h_req hr) = query_encode {[ str "labelSelector" := [s] ]} /\
    ~ occurs (str "application/json;as=Table") (rq_accept (h_req hr)) /\
    serve E cf clients st up hr (Some (Reply 200 [BList api kind (api_path (a_gvr a) (a_ns a) None) rem items])) /\
    total = pg_total (makeup_total (Some rem) (length items) p).
(** Pages 0, 1, ... read one after the other: what the cache was, the items and the total. *)
Definition walk (E : env) (cf : config) (conf : gmap gvr (gmap gostr gostr)) (a : asked) (ls : lsel) (full : gostr)
    (w : list (store * list obj * Z)) : Prop :=
  forall i st items total, w !! i = Some (st, items, total) -> page_read E cf conf a ls full i st items total.
(** Between two pages, nothing before [k] leaves the list, and nothing before [k] comes into it. *)
Definition none_leaves (E : env) (a : asked) (ls : lsel) (full : gostr) (k : name3) (w : list (store * list obj * Z)) : Prop :=
  forall i v v', w !! i = Some v -> w !! S i = Some v' ->
    forall x, sorts_before x k -> in_list E a ls full v.1.1 x -> in_list E a ls full v'.1.1 x.
Definition none_comes (E : env) (a : asked) (ls : lsel) (full : gostr) (k : name3) (w : list (store * list obj * Z)) : Prop :=
  forall i v v', w !! i = Some v -> w !! S i = Some v' ->
    forall x, sorts_before x k -> in_list E a ls full v'.1.1 x -> in_list E a ls full v.1.1 x.
(** Between two pages the watchers only report objects after [k] (or other resources). *)
Definition changes_after (E : env) (conf : gmap gvr (gmap gostr gostr)) (a : asked) (k : name3) (w : list (store * list obj * Z)) : Prop :=
  forall i v v', w !! i = Some v -> w !! S i = Some v' ->
    exists calls, run_calls E v.1.1 calls = Ok v'.1.1 /\
      Forall (fun c => forall x : name3, sorts_before x k \/ x = k -> ~ touches_key E conf c (a_gvr a) x.1.1 x.1.2 x.2) calls.
(** The last page read ends the list: the total is not more than what the pages hold. *)
Definition to_the_end (a : asked) (w : list (store * list obj * Z)) : Prop :=
  exists v, last w = Some v /\ (v.2 <= Z.of_nat (length w) * a_size a)%Z.
