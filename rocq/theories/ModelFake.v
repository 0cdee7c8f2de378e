(** pkg/client/fake/fake_ckube.go: the fake server used by tests of clients. *)
From Coq Require Import Ascii String NArith ZArith.
From stdpp Require Import base gmap strings list.
From Verif Require Import ModelStr ModelSort ModelLabels ModelPage ModelJson ModelJsonText ModelQuery ModelStore ModelUrl ModelProxy ModelObjType.

(** An ObjType seen as a cached value; [k_data] is the whole object. *)
Definition to_obj (o : objtype) : obj :=
  let m := t_meta o in
  OKube (KObj (me_namespace m) (me_name m) (match me_deleted m with Some _ => true | None => false end)
    (me_annos m) (me_labels m) (map (fun w => (ow_kind w, ow_name w)) (me_owners m))
    (JObj (t_data o ++ match head_json o with JObj l => l | _ => [] end))).
Definition with_ns (o : objtype) (ns : gostr) : objtype :=
  let m := t_meta o in
  ObjType (t_api o) (t_kind o)
    (Meta (me_name m) (me_generate m) ns (me_self m) (me_uid m) (me_version m) (me_generation m) (me_created m) (me_deleted m)
       (me_grace m) (me_labels m) (me_annos m) (me_owners m) (me_finalizers m) (me_cluster m)) (t_data o).
Definition with_name (o : objtype) (n : gostr) : objtype :=
  let m := t_meta o in
  ObjType (t_api o) (t_kind o)
    (Meta n (me_generate m) (me_namespace m) (me_self m) (me_uid m) (me_version m) (me_generation m) (me_created m) (me_deleted m)
       (me_grace m) (me_labels m) (me_annos m) (me_owners m) (me_finalizers m) (me_cluster m)) (t_data o).
Definition with_annos (o : objtype) (a : gmap gostr gostr) : objtype :=
  let m := t_meta o in
  ObjType (t_api o) (t_kind o)
    (Meta (me_name m) (me_generate m) (me_namespace m) (me_self m) (me_uid m) (me_version m) (me_generation m) (me_created m) (me_deleted m)
       (me_grace m) (me_labels m) a (me_owners m) (me_finalizers m) (me_cluster m)) (t_data o).

(** interface.go:5-23 *)
Inductive action := AError | AAdd | AUpdate | ADelete.
Record event := Event {
  ev_action : action; ev_gvr : gvr; ev_cluster : gostr; ev_ns : gostr; ev_name : gostr; ev_raw : gostr }.

(** What a handler does: an error status (the message is not modelled), an object with status 200, or
    it becomes a watch. *)
Inductive fanswer := FErr (code : N) | FObj (o : objtype) | FWatch.

(** jsonResp of an ObjType value (fake_ckube.go:154-159 and 478).  MarshalJSON has a pointer receiver and
    the value in the interface is not addressable, so json.Marshal prints the plain struct, with the data
    under the field name Data.  (A nil map prints as null; that case is not distinguished.) *)
Definition plain_text (o : objtype) : gostr :=
  json_text (JObj (match head_json o with JObj l => l | _ => [] end ++ [(str "Data", JObj (t_data o))])).

Section fake.
  Context (E : env) (JE : jenv) (marshal : obj -> gostr) (cf : config).

  (** fake_ckube.go:383-398: the loop over the query, in the order [order]: the cluster so far, or that
      the request turned into a watch. *)
  Definition fake_param (acc : option gostr) (kv : gostr * list gostr) : option gostr :=
    match acc with
    | None => None
    | Some cl =>
        let v0 := hd [] kv.2 in
        if str_eqb kv.1 (str "fieldManager") || str_eqb kv.1 (str "resourceVersion") then
          if has_prefix cluster_prefix v0 then Some (drop (length cluster_prefix) v0) else acc
        else if str_eqb kv.1 (str "watch") then
          if str_eqb (to_lower v0) (str "true") || str_eqb (to_lower v0) (str "1") then None else acc
        else acc
    end.
  Definition fake_params (order : list (gostr * list gostr)) : option gostr :=
    fold_left fake_param order (Some (cf_default cf)).

  (** The object after the store has annotated it (memory.go:405-422); the store keeps and changes the
      pointer it was given. *)
  Definition annotated (st : store) (g : gvr) (c : gostr) (o : objtype) : objtype :=
    match (build E (conf_of st g) c (to_obj o)).2 with
    | Entry _ (OKube k) => with_annos o (k_annos k)
    | _ => o
    end.
  (** fake_ckube.go:371-479 proxy.  The result: store, answer and the event sent to the watchers. *)
  Definition fake_proxy (order : list (gostr * list gostr)) (st : store) (r : request)
      : result (store * fanswer * option event) :=
    let g := (var r (str "group"), var r (str "version"), var r (str "resourceType")) in
    let ns := var r (str "namespace") in
    match fake_params order with
    | None => Ok (st, FWatch, None)
    | Some cl =>
      match rq_body r with
      | None => Ok (st, FErr 500, None)
      | Some bs =>
        match decode_obj JE bs with
        | Panics => Panics
        | Ok o =>
          let o := with_ns o ns in
          let name := match var r (str "resourceName") with [] => me_name (t_meta o) | n => n end in
          let finish st' o' a c raw :=
            match st' with
            | Panics => Panics
            | Ok st' => Ok (st', FObj (annotated st g c o'), Some (Event a g c ns name raw))
            end in
          if str_eqb (rq_method r) (str "POST") then
            match store_get st g cl ns name with
            | Some _ => Ok (st, FErr 400, None)
            | None => finish (on_added E st g cl (to_obj o)) o AAdd cl bs
            end
          else if str_eqb (rq_method r) (str "PUT") then
            match store_get st g cl ns name with
            | None => Ok (st, FErr 404, None)
            | Some _ => finish (on_modified E st g cl (to_obj o)) o AUpdate cl bs
            end
          else if str_eqb (rq_method r) (str "DELETE") then
            let cl := match do_dry (decode_opts bs) with
                      | [d] => if has_prefix cluster_prefix d then drop (length cluster_prefix) d else cl
                      | _ => cl
                      end in
            match store_get st g cl ns name with
            | None => Ok (st, FErr 404, None)
            | Some old =>
                let o := with_ns (with_name o name) ns in
                finish (on_deleted E st g cl (to_obj o)) o ADelete cl (marshal old)
            end
          else Ok (st, FObj o, Some (Event AError g cl ns name bs))
        end
      end
    end.
  (** fake_ckube.go:96-108 Clean: a new empty store. *)
  Definition fake_clean (st : store) : store := new_store (st_conf st).

  (** ** watch (fake_ckube.go:259-369) *)
  (** 275-318: the Paginate; a selector that does not parse gives a nil *LabelSelector, which is then
      dereferenced. [Ok None] is a 400. *)
  Definition watch_page (sel : gostr) : result (option paginate) :=
    match sel with
    | [] => Ok (Some zero_page)
    | _ => match parse_to_label_selector sel with
           | None => Panics
           | Some ls =>
               match extract_query ls with
               | None => Ok None
               | Some (q, _) => Ok (decode_query q)
               end
           end
    end.
  (** 342-361: what is written for one received event. *)
  Definition action_text (a : action) : gostr :=
    match a with AAdd => str "ADDED" | ADelete => str "DELETED" | AUpdate => str "MODIFIED" | AError => str "ERROR" end.
  Definition watch_line (g : gvr) (ns : gostr) (p : paginate) (e : event) : option gostr :=
    if bool_decide (ev_gvr e = g) && (str_eqb (ev_ns e) ns || str_eqb ns []) then
      if (negb (length (get_clusters (pg_search p)) =? 0)%nat) && negb (existsb (str_eqb (ev_cluster e)) (get_clusters (pg_search p))) then None
      else Some (str "{""type"": " ++ dquote :: action_text (ev_action e) ++ dquote :: str ", ""object"": " ++ ev_raw e ++ str "}" ++ [byte 10])
    else None.
  (** The handler on the events it receives, until the time-out; [Ok None] is the 400. *)
  Definition fake_watch (r : request) (events : list event) : result (option (list gostr)) :=
    let g := (var r (str "group"), var r (str "version"), var r (str "resourceType")) in
    let sel := match query_parse (rq_raw r) !! str "labelSelector" with Some (v :: _) => v | _ => [] end in
    match watch_page sel with
    | Panics => Panics
    | Ok None => Ok None
    | Ok (Some p) => Ok (Some (omap (watch_line g (var r (str "namespace")) p) events))
    end.
End fake.

(** The server on a sequence of requests (each with the order of its query loop) and of calls of Clean;
    the answers and the events sent.  Requests run one after the other. *)
Inductive finput := FReq (order : list (gostr * list gostr)) (r : request) | FClean.
Fixpoint fake_run (E : env) (JE : jenv) (marshal : obj -> gostr) (cf : config) (st : store) (h : list finput)
    : result (store * list fanswer * list event) :=
  match h with
  | [] => Ok (st, [], [])
  | FClean :: h' => fake_run E JE marshal cf (fake_clean st) h'
  | FReq order r :: h' =>
      match fake_proxy E JE marshal cf order st r with
      | Panics => Panics
      | Ok (st', a, e) =>
          match fake_run E JE marshal cf st' h' with
          | Panics => Panics
          | Ok (st'', al, el) => Ok (st'', a :: al, match e with Some e => e :: el | None => el end)
          end
      end
  end.
