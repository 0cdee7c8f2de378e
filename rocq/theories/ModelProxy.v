(** api/proxy.go: the proxy handler, and the client-side helpers of page/page.go:256-349. *)
From Coq Require Import Ascii String NArith ZArith.
From stdpp Require Import base gmap strings list.
From Verif Require Import ModelStr ModelSort ModelLabels ModelPage ModelJson ModelJsonText ModelQuery ModelStore ModelUrl.

(** The parts of an *http.Request that the handler uses.  [rq_vars] is mux.Vars, [rq_raw] URL.RawQuery,
    [rq_body] the bytes of the body, [None] when reading it fails. *)
Record request := Request {
  rq_method : gostr; rq_path : gostr; rq_vars : gmap gostr gostr; rq_raw : gostr;
  rq_body : option gostr; rq_accept : gostr; rq_ctype : gostr }.
Definition with_raw (r : request) (raw : gostr) : request :=
  Request (rq_method r) (rq_path r) (rq_vars r) raw (rq_body r) (rq_accept r) (rq_ctype r).
Definition with_body (r : request) (b : option gostr) : request :=
  Request (rq_method r) (rq_path r) (rq_vars r) (rq_raw r) b (rq_accept r) (rq_ctype r).
Definition var (r : request) (k : gostr) : gostr := default [] (rq_vars r !! k).

(** common/config.go:15-20; the proxies as (type, list kind).  InitConfig (24-29) replaces an empty
    default cluster. *)
Record config := Config { cf_default : gostr; cf_token : gostr; cf_proxies : list (gvr * gostr) }.
Definition init_config (c : config) : config :=
  match cf_default c with
  | [] => Config (str "default") (cf_token c) (cf_proxies c)
  | _ => c
  end.
(** common/config.go:35-42 GetGVRKind *)
Fixpoint kind_in (ps : list (gvr * gostr)) (g : gvr) : gostr :=
  match ps with
  | [] => []
  | (g', k) :: ps' => if bool_decide (g' = g) then k else kind_in ps' g
  end.
Definition gvr_kind (cf : config) (g : gvr) : gostr := kind_in (cf_proxies cf) g.

(** ** metav1.DeleteOptions and its JSON form (k8s 0.21, not in /repo) *)
Record delopts := DelOpts {
  do_kind : gostr; do_api : gostr; do_grace : option Z;
  do_pre : option (option gostr * option gostr); (* uid, resourceVersion *)
  do_orphan : option bool; do_policy : option gostr; do_dry : list gostr }.
Definition zero_opts : delopts := DelOpts [] [] None None None None [].
Definition set_dry (o : delopts) (l : list gostr) : delopts :=
  DelOpts (do_kind o) (do_api o) (do_grace o) (do_pre o) (do_orphan o) (do_policy o) l.
(** Decoding into a pointer field: null gives nil, anything else allocates (also when the value then
    has the wrong type). *)
Definition set_ptr {A} (zero : A) (f : A -> json -> A) (old : option A) (v : json) : option A :=
  match v with JNull => None | _ => Some (f (default zero old) v) end.
Definition set_bool (old : bool) (v : json) : bool := match v with JBool b => b | _ => old end.
(** Decoding into a []string: elements are decoded over the old ones; null gives nil. *)
Fixpoint set_elems (old : list gostr) (l : list json) : list gostr :=
  match l with
  | [] => []
  | v :: l' => set_str (hd [] old) v :: set_elems (tl old) l'
  end.
Definition set_strs (old : list gostr) (v : json) : list gostr :=
  match v with JArr l => set_elems old l | JNull => [] | _ => old end.
(** As [fold_key]; equalFoldRight also folds U+212A to 'k'. *)
Definition fold_key2 (k : gostr) : gostr := fold_key (replace_all k (map byte [226; 132; 170]%N) (str "k")).
Definition set_pre_field (p : option gostr * option gostr) (kv : gostr * json) : option gostr * option gostr :=
  let k := fold_key2 kv.1 in
  if str_eqb k (str "uid") then (set_ptr [] set_str p.1 kv.2, p.2)
  else if str_eqb k (str "resourceversion") then (p.1, set_ptr [] set_str p.2 kv.2)
  else p.
Definition set_pre (p : option gostr * option gostr) (v : json) : option gostr * option gostr :=
  match v with JObj l => fold_left set_pre_field l p | _ => p end.
Definition set_opt_field (o : delopts) (kv : gostr * json) : delopts :=
  let '(k, v) := kv in
  let k := fold_key2 k in
  let '(DelOpts kind api grace pre orphan policy dry) := o in
  if str_eqb k (str "kind") then DelOpts (set_str kind v) api grace pre orphan policy dry
  else if str_eqb k (str "apiversion") then DelOpts kind (set_str api v) grace pre orphan policy dry
  else if str_eqb k (str "graceperiodseconds") then DelOpts kind api (set_ptr 0%Z set_int grace v) pre orphan policy dry
  else if str_eqb k (str "preconditions") then DelOpts kind api grace (set_ptr (None, None) set_pre pre v) orphan policy dry
  else if str_eqb k (str "orphandependents") then DelOpts kind api grace pre (set_ptr false set_bool orphan v) policy dry
  else if str_eqb k (str "propagationpolicy") then DelOpts kind api grace pre orphan (set_ptr [] set_str policy v) dry
  else if str_eqb k (str "dryrun") then DelOpts kind api grace pre orphan policy (set_strs dry v)
  else o.
(** json.Unmarshal into a zero DeleteOptions, error ignored (proxy.go:122-123). *)
Definition decode_opts (s : gostr) : delopts :=
  match json_parse s with
  | Some (JObj l) => fold_left set_opt_field l zero_opts
  | _ => zero_opts
  end.
Definition opt_mem {A} (name : gostr) (f : A -> json) (v : option A) : list (gostr * json) :=
  match v with Some x => [(name, f x)] | None => [] end.
Definition str_memb (name s : gostr) : list (gostr * json) :=
  match s with [] => [] | _ => [(name, JStr s)] end.
Definition pre_json (p : option gostr * option gostr) : json :=
  JObj (opt_mem (str "uid") JStr p.1 ++ opt_mem (str "resourceVersion") JStr p.2).
Definition opts_json (o : delopts) : json :=
  JObj (str_memb (str "kind") (do_kind o) ++ str_memb (str "apiVersion") (do_api o) ++
        opt_mem (str "gracePeriodSeconds") (fun z => JNum (itoa z)) (do_grace o) ++
        opt_mem (str "preconditions") pre_json (do_pre o) ++
        opt_mem (str "orphanDependents") JBool (do_orphan o) ++
        opt_mem (str "propagationPolicy") JStr (do_policy o) ++
        match do_dry o with [] => [] | l => [(str "dryRun", JArr (map JStr l))] end).
(** json.Marshal(options) *)
Definition encode_opts (o : delopts) : gostr := json_text (opts_json o).

(** ** Tagging options with a cluster: page.go:256-294.  Get, create, update and patch options are
    represented by the one string field that is used; [None] is an error. *)
Definition tag_field (field cluster : gostr) : option gostr :=
  match field with [] => Some (cluster_prefix ++ cluster) | _ => None end.
Definition tag_delete (o : delopts) (cluster : gostr) : option delopts :=
  match do_dry o with [] => Some (set_dry o [cluster_prefix ++ cluster]) | _ => None end.

(** ** parsePaginateAndLabelsAndClean (proxy.go:98-184) *)
(** proxy.go:105-117: one round of the loop over the query; state: label selector text, cluster and
    the remaining query. *)
Definition tag_step (st : gostr * gostr * values) (kv : gostr * list gostr) : gostr * gostr * values :=
  let '(sel, cl, q) := st in
  let v0 := hd [] kv.2 in
  if str_eqb kv.1 (str "labelSelector") then (v0, cl, q)
  else if str_eqb kv.1 (str "cluster") then (sel, v0, q)
  else if str_eqb kv.1 (str "fieldManager") || str_eqb kv.1 (str "resourceVersion") then
    if has_prefix cluster_prefix v0 then (sel, drop (length cluster_prefix) v0, delete kv.1 q) else st
  else st.
(** proxy.go:118-133: cluster and body after reading a DELETE body. *)
Definition delete_body (method cluster : gostr) (body : option gostr) : gostr * option gostr :=
  if str_eqb method (str "DELETE") then
    match body with
    | None => (cluster, None)
    | Some b =>
        let o := decode_opts b in
        match do_dry o with
        | d :: ds =>
            if has_prefix cluster_prefix d then (drop (length cluster_prefix) d, Some (encode_opts (set_dry o ds)))
            else (cluster, Some [])
        | [] => (cluster, Some [])
        end
    end
  else (cluster, body).
(** The result: [inl] the cluster and the request for an error (138, 154, 166), where the query string
    is not rewritten; [inr] Paginate, labels, cluster and the cleaned request.  [order] is the order of
    the range loop. *)
Definition parse_clean (cf : config) (order : list (gostr * list gostr)) (r : request)
    : gostr * request + paginate * option lsel * gostr * request :=
  let '(sel, cl, q) := fold_left tag_step order ([], [], query_parse (rq_raw r)) in
  let '(cl, body) := delete_body (rq_method r) cl (rq_body r) in
  let r := with_body r body in
  match parse_list_selector sel with
  | None => inl (cl, r)
  | Some (p, labels) =>
      let q := match labels with
               | Some ls => if is_empty_sel ls then q else <[str "labelSelector" := [format_text ls]]> q
               | None => q
               end in
      let cl := match cl with [] => hd [] (get_clusters (pg_search p)) | _ => cl end in
      let cl := match cl with [] => cf_default cf | _ => cl end in
      inr (p, labels, cl, with_raw r (query_encode q))
  end.

(** ** Answers *)
Record table := Table { t_cols : list gostr; t_rows : list (list (option gostr)) }.
(** [AForward c r] and [AWatch c r]: the request [r] is sent to the API server of cluster [c] and the
    reply, or the stream, is returned.  [AStatus] is errorProxy (64-70). *)
Inductive answer :=
| AObject (o : obj)
| AStatus (code : Z) (msg : gostr)
| AList (api kind path : gostr) (remain : Z) (items : list obj)
| ATable (t : table)
| AForward (cluster : gostr) (r : request)
| AWatch (cluster : gostr) (r : request)
| APanic.

(** proxy.go:405-417.  (No other rune than the ASCII capitals has a letter of these words as its lower case.) *)
Definition is_watch (r : request) : bool :=
  match query_parse (rq_raw r) !! str "watch" with
  | Some w => existsb (str_eqb (to_lower (hd [] w))) [str "1"; str "y"; str "true"]
  | None => false
  end || contains (rq_path r) (str "/watch/").
(** proxy.go:464-490: the request of the REST client; the body of a GET is not sent, other methods give
    a nil request, whose use panics. *)
Definition known_method (m : gostr) : bool :=
  existsb (str_eqb m) [str "GET"; str "POST"; str "DELETE"; str "PUT"; str "PATCH"].
Definition sent_body (r : request) : request :=
  if str_eqb (rq_method r) (str "GET") then with_body r (Some []) else r.
(** proxy.go:419-427: the query of a watch. *)
Definition watch_query (q : values) : values :=
  let q := <[str "timeout" := [str "30m"]]> q in
  match q !! str "labelSelector" with
  | Some [v] => if str_eqb v (str "<none>") then delete (str "labelSelector") q else q
  | _ => q
  end.
(** proxy.go:492-521 *)
Definition proxy_pass (cf : config) (clients : gset gostr) (r : request) (cluster : gostr) : answer :=
  let cluster := match cluster with [] => cf_default cf | _ => cluster end in
  if bool_decide (cluster ∈ clients) then
    if known_method (rq_method r) then
      if is_watch r then AWatch cluster (sent_body (with_raw r (query_encode (watch_query (query_parse (rq_raw r))))))
      else AForward cluster (sent_body r)
    else APanic
  else AStatus 404 (str "cluster not found").

(** ** serverPrint (proxy.go:339-403) *)
(** json.Unmarshal into a map[string]string, error ignored: a member that is not a string gives "". *)
Definition unmarshal_map (s : gostr) : gmap gostr gostr :=
  match json_parse s with
  | Some (JObj l) => fold_left (fun m kv => <[kv.1 := set_str [] kv.2]> m) l ∅
  | _ => ∅
  end.
(** 356-374: the columns; [es] are the entries of the index of the first item in loop order. *)
Definition table_cols (idx : gmap gostr gostr) (es : list (gostr * gostr)) : list gostr :=
  (match idx !! str "namespace" with
   | Some _ => [str "cluster"; str "namespace"; str "name"]
   | None => [str "cluster"; str "name"]
   end) ++
  gosort str_ltb (List.filter (fun k => negb (existsb (str_eqb k) [str "cluster"; str "namespace"; str "name"])) (map fst es)).
(** 375-390: indexMap *)
Fixpoint col_map (j : nat) (cols : list gostr) (m : gmap gostr nat) : gmap gostr nat :=
  match cols with
  | [] => m
  | c :: cs => col_map (S j) cs (<[c := j]> m)
  end.
(** 392-395: the cells; an unknown key goes to cell 0. *)
Fixpoint fill (imap : gmap gostr nat) (es : list (gostr * gostr)) (cells : list (option gostr)) : result (list (option gostr)) :=
  match es with
  | [] => Ok cells
  | (k, v) :: es' =>
      let i := default 0 (imap !! k) in
      if (i <? length cells)%nat then fill imap es' (<[i := Some v]> cells) else Panics
  end.
(** 347-401: the loop; [ord n m] is the order of the n-th range loop over a map with entries [m]. *)
Section print.
  Context (ord : nat -> gmap gostr gostr -> list (gostr * gostr)).
  Fixpoint print_rows (i : nat) (items : list obj) (cols : list gostr) (imap : gmap gostr nat) : result table :=
    match items with
    | [] => Ok (Table cols [])
    | o :: items' =>
        match o with
        | ORaw _ => print_rows (S i) items' cols imap
        | OKube k =>
            let text := default [] (k_annos k !! index_anno) in
            match text with
            | [] => print_rows (S i) items' cols imap
            | _ =>
                let idx := unmarshal_map text in
                let cols := if (i =? 0)%nat then table_cols idx (ord 0 idx) else cols in
                let imap := if (i =? 0)%nat then col_map 0 cols ∅ else imap in
                match fill imap (ord (S i) idx) (replicate (size imap) None) with
                | Panics => Panics
                | Ok row =>
                    match print_rows (S i) items' cols imap with
                    | Panics => Panics
                    | Ok t => Ok (Table (t_cols t) (row :: t_rows t))
                    end
                end
            end
        end
    end.
  Definition server_print (items : list obj) : result table := print_rows 0 items [] ∅.
End print.

(** ** Proxy (proxy.go:186-337) *)
Section proxy.
  Context (E : env) (cf : config).

  (** 198-208: keys that do not force forwarding. *)
  Definition allowed_key (k : gostr) : bool :=
    existsb (str_eqb k) [str "labelSelector"; str "timeoutSeconds"; str "timeout"; str "limit"].
  Definition only_allowed (q : values) : bool := forallb (fun kv : gostr * list gostr => allowed_key kv.1) (map_to_list q).
  (** 222-227 *)
  Definition add_default_cluster (p : paginate) : paginate :=
    match get_clusters (pg_search p) with
    | [] => (set_clusters p [cf_default cf]).2
    | _ => p
    end.
  (** 44-62: reflection finds the labels of every metav1.Object here; anything else panics. *)
  Fixpoint filter_labels (rs : list req) (items : list obj) : result (list obj) :=
    match items with
    | [] => Ok []
    | ORaw _ :: _ => Panics
    | OKube k :: items' =>
        match filter_labels rs items' with
        | Panics => Panics
        | Ok l => Ok (if match_reqs rs (k_labels k) then OKube k :: l else l)
        end
    end.
  (** 230-300: the items and the total; [None] is the answer 400. *)
  Definition has_labels (labels : option lsel) : bool :=
    match labels with Some ls => negb (is_empty_sel ls) | None => false end.
  Definition store_page (p : paginate) (labels : option lsel) : paginate :=
    if has_labels labels then Paginate 0 0 0 (pg_sort p) (pg_search p) else p.
  Definition label_bounds (p : paginate) (l : Z) : Z * Z :=
    if ((pg_size p =? 0) || (pg_page p =? 0))%Z then (0%Z, l) else page_bounds (pg_page p) (pg_size p) l.
  Definition list_items (p : paginate) (labels : option lsel) (r : qres) : result (option (list obj * Z)) :=
    if q_err r then Ok None
    else match labels with
         | Some ls =>
             if is_empty_sel ls then Ok (Some (q_items r, q_total r))
             else match as_selector ls with
                  | None => Ok None
                  | Some rs =>
                      match filter_labels rs (q_items r) with
                      | Panics => Panics
                      | Ok items =>
                          let l := Z.of_nat (length items) in
                          let '(start, end_) := label_bounds p l in
                          match slice items start end_ with
                          | None => Panics
                          | Some items => Ok (Some (items, l))
                          end
                      end
                  end
         | None => Ok (Some (q_items r, q_total r))
         end.
  (** 307-324: the remaining count, [None] for "out of page". *)
  Definition remaining (p : paginate) (total : Z) (n : nat) : option Z :=
    if ((pg_page p =? 0) && (pg_size p =? 0))%Z then Some 0%Z
    else let rem := wrap64 (total - wrap64 (pg_size p * pg_page p)) in
         if ((rem <? 0) && (n =? 0)%nat && negb (pg_page p =? 1))%Z then None
         else Some (if rem <? 0 then 0 else rem)%Z.
  Definition api_version (g : gvr) : gostr :=
    match g.1.1 with [] => g.1.2 | gr => gr ++ str "/" ++ g.1.2 end.
  Definition list_answer (ord : nat -> gmap gostr gostr -> list (gostr * gostr)) (rq : request) (g : gvr)
      (p : paginate) (labels : option lsel) (r : result qres) : answer :=
    match r with
    | Panics => APanic
    | Ok r =>
        match list_items p labels r with
        | Panics => APanic
        | Ok None => AStatus 400 (str "query error")
        | Ok (Some (items, total)) =>
            match remaining p total (length items) with
            | None => AStatus 400 (str "out of page")
            | Some rem =>
                if contains (rq_accept rq) (str "application/json;as=Table") then
                  match server_print ord items with Ok t => ATable t | Panics => APanic end
                else AList (api_version g) (gvr_kind cf g) (rq_path rq) rem items
            end
        end
    end.
  (** 31-42 *)
  Definition req_gvr (r : request) : gvr := (var r (str "group"), var r (str "version"), var r (str "resourceType")).
  (** Any order of the loops over maps may happen: [order] for proxy.go:105, [ord] in serverPrint and
      the order of the scan inside [query]. *)
  Inductive proxy (clients : gset gostr) (st : store) (r : request) : answer -> Prop :=
  | proxy_error order cl r' :
      order ≡ₚ map_to_list (query_parse (rq_raw r)) -> parse_clean cf order r = inl (cl, r') ->
      proxy clients st r (proxy_pass cf clients r' cl)
  | proxy_forward order p labels cl r' :
      order ≡ₚ map_to_list (query_parse (rq_raw r)) -> parse_clean cf order r = inr (p, labels, cl, r') ->
      only_allowed (query_parse (rq_raw r')) && is_store_gvr st (req_gvr r) && str_eqb (rq_method r) (str "GET") = false ->
      proxy clients st r (proxy_pass cf clients r' cl)
  | proxy_get order p labels cl r' :
      order ≡ₚ map_to_list (query_parse (rq_raw r)) -> parse_clean cf order r = inr (p, labels, cl, r') ->
      only_allowed (query_parse (rq_raw r')) && is_store_gvr st (req_gvr r) && str_eqb (rq_method r) (str "GET") = true ->
      var r (str "resource") <> [] ->
      proxy clients st r
        match store_get st (req_gvr r) cl (var r (str "namespace")) (var r (str "resource")) with
        | Some o => AObject o
        | None => AStatus 404 (str "resource not found")
        end
  | proxy_list order ord p labels cl r' q :
      order ≡ₚ map_to_list (query_parse (rq_raw r)) -> parse_clean cf order r = inr (p, labels, cl, r') ->
      only_allowed (query_parse (rq_raw r')) && is_store_gvr st (req_gvr r) && str_eqb (rq_method r) (str "GET") = true ->
      var r (str "resource") = [] ->
      (forall n m, ord n m ≡ₚ map_to_list m) ->
      query E st (req_gvr r) (var r (str "namespace")) (store_page (add_default_cluster p) labels) q ->
      proxy clients st r (list_answer ord r (req_gvr r) (add_default_cluster p) labels q).
End proxy.

(** ** MakeupResPaginate (page.go:329-349): [remain] is RemainingItemCount, [None] for nil. *)
Definition makeup_total (remain : option Z) (items : nat) (p : paginate) : paginate :=
  Paginate (pg_page p) (pg_size p)
    (wrap64 (wrap64 (default 0%Z remain + wrap64 (wrap64 (pg_page p - 1) * pg_size p)) + Z.of_nat items))
    (pg_sort p) (pg_search p).

(** ** proxyPassWatch: the copy loop (proxy.go:443-461) *)
(** One result of Read on a buffer of one byte: a number of bytes ([None] for 0) and whether an error
    came with it; then whether the client is gone. *)
Record read := Read { rd_byte : option ascii; rd_err : bool; rd_done : bool }.
(** The chunks written, given the buffered bytes.  A read of no byte without error appends the zero byte
    of the fresh buffer. *)
Fixpoint copy_watch (buf : gostr) (rs : list read) : list gostr :=
  match rs with
  | [] => []
  | r :: rs' =>
      if rd_err r then [buf]
      else
        let b := match rd_byte r with Some b => b | None => byte 0 end in
        let buf := buf ++ [b] in
        let nl := ch_eqb b (byte 10) in
        (if nl then [buf] else []) ++
        (if rd_done r then [] else copy_watch (if nl then [] else buf) rs')
  end.
