(** pkg/client/fake/fake_ckube.go: the fake server as a process that serves HTTP: construction, routes,
    discovery pages, Clean. *)
From Coq Require Import Ascii String NArith ZArith.
From stdpp Require Import base gmap strings list.
From Verif Require Import ModelStr ModelSort ModelLabels ModelPage ModelJson ModelJsonText ModelQuery ModelStore ModelUrl ModelProxy
  ModelObjType ModelWatcher ModelReload ModelFake ModelServer ModelServe.

(** ** Construction *)
(** fake_ckube.go:57-63: the address that clients are given; parts[1] of a text without ':' panics. *)
Definition fake_host (listen : gostr) : result gostr :=
  match split_on ":"%char listen with
  | [] :: _ => Ok (str "http://" ++ listen)
  | _ :: port :: _ => Ok (str "http://127.0.0.1:" ++ port)
  | _ => Panics
  end.
(** fake_ckube.go:39-55: the configuration, without token; common/config.go:24-29. *)
Definition fake_conf (text : gostr) : option file_conf :=
  match decode_conf text with
  | None => None
  | Some fc => Some (FileConf (fc_proxies fc) (match fc_default fc with [] => str "default" | d => d end) [])
  end.
(** What the handlers read of the configuration. *)
Definition conf_of_file (fc : file_conf) : config :=
  Config (fc_default fc) (fc_token fc) (map (fun p => (pc_gvr p, pc_kind p)) (fc_proxies fc)).

(** ** Discovery *)
(** metav1 of apimachinery 0.21: members in the order of the Go struct; an absent slice is null. *)
Definition jstrs (l : list gostr) : json := JArr (map JStr l).
Definition nil_slice (l : list json) : json := match l with [] => JNull | _ => JArr l end.
Definition omit_empty (k v : gostr) : list (gostr * json) := match v with [] => [] | _ => [(k, JStr v)] end.
(** strings.TrimSuffix *)
Definition trim_suffix (s suf : gostr) : gostr :=
  if has_prefix (reverse suf) (reverse s) then take (length s - length suf) s else s.
(** fake_ckube.go:176-206 resources *)
Definition verbs : list gostr :=
  [str "create"; str "delete"; str "deletecollection"; str "get"; str "list"; str "patch"; str "update"; str "watch"].
Definition api_resource (group version : gostr) (p : proxy_conf) : json :=
  JObj ([(str "name", JStr (pc_gvr p).2); (str "singularName", JStr []); (str "namespaced", JBool true)]
        ++ omit_empty (str "group") group ++ omit_empty (str "version") version
        ++ [(str "kind", JStr (trim_suffix (pc_kind p) (str "List"))); (str "verbs", jstrs verbs)]).
Definition resources_page (fc : file_conf) (group version : gostr) : json :=
  JObj [(str "groupVersion", JStr (match group with [] => version | _ => group ++ str "/" ++ version end));
        (str "resources", nil_slice (map (api_resource group version) (fc_proxies fc)))].
(** fake_ckube.go:208-213 api *)
Definition api_page : json := JObj [(str "versions", jstrs [str "v1"]); (str "serverAddressByClientCIDRs", JNull)].
(** fake_ckube.go:215-240 apis: the names of the groups so far.  The versions found later are appended to the
    copy [g] of the loop and lost, so every group has none. *)
Definition add_group (groups : list gostr) (p : proxy_conf) : list gostr :=
  if existsb (str_eqb (pc_gvr p).1.1) groups then groups else groups ++ [(pc_gvr p).1.1].
Definition api_group (name : gostr) : json :=
  JObj [(str "name", JStr name); (str "versions", JNull);
        (str "preferredVersion", JObj [(str "groupVersion", JStr []); (str "version", JStr [])])].
Definition apis_page (fc : file_conf) : json :=
  JObj [(str "groups", nil_slice (map api_group (fold_left add_group (fc_proxies fc) [])))].
(** fake_ckube.go:242-256 version; the keys of a Go map are printed in order. *)
Definition version_page : json :=
  JObj [(str "buildDate", JStr (str "2022-03-16T15:52:18Z")); (str "compiler", JStr (str "gc"));
        (str "gitCommit", JStr (str "c285e781331a3785a7f436042c65c5641ce8a9e9")); (str "gitTreeState", JStr (str "clean"));
        (str "gitVersion", JStr (str "v1.23.5")); (str "goVersion", JStr (str "go1.17.8")); (str "major", JStr (str "1"));
        (str "minor", JStr (str "23")); (str "platform", JStr (str "linux/amd64"))].

(** ** Routes *)
(** fake_ckube.go:128-156; these routes precede those of the server (server.go:88-91). *)
Inductive fhandler := KWrite | KWatch | KVersion | KApi | KApis | KResources.
Record froute := FRoute { fr_path : gostr; fr_methods : list gostr; fr_handler : fhandler }.
Definition write_methods : list gostr := [str "POST"; str "PUT"; str "DELETE"].
Definition fake_routes : list froute :=
  map (fun p => FRoute p write_methods KWrite)
    [ str "/apis/{group}/{version}/{resourceType}";
      str "/api/{version}/{resourceType}";
      str "/apis/{group}/{version}/{resourceType}/{resourceName}";
      str "/api/{version}/{resourceType}/{resourceName}";
      str "/apis/{group}/{version}/namespaces/{namespace}/{resourceType}";
      str "/api/{version}/namespaces/{namespace}/{resourceType}";
      str "/apis/{group}/{version}/namespaces/{namespace}/{resourceType}/{resourceName}";
      str "/api/{version}/namespaces/{namespace}/{resourceType}/{resourceName}" ] ++
  map (fun p => FRoute p [str "GET"] KWatch)
    [ str "/apis/{group}/{version}/watch/{resourceType}";
      str "/api/{version}/watch/{resourceType}";
      str "/apis/{group}/{version}/watch/namespaces/{namespace}/{resourceType}";
      str "/api/{version}/watch/namespaces/{namespace}/{resourceType}" ] ++
  [ FRoute (str "/version") [str "GET"] KVersion;
    FRoute (str "/api") [str "GET"] KApi;
    FRoute (str "/apis") [str "GET"] KApis;
    FRoute (str "/apis/{group}/{version}") [str "GET"] KResources;
    FRoute (str "/api/{version}") [str "GET"] KResources ].
Fixpoint find_froute (rs : list froute) (method path : gostr) : option (fhandler * gmap gostr gostr) :=
  match rs with
  | [] => None
  | r :: rs' =>
      match (if existsb (str_eqb method) (fr_methods r) then match_segs (template (fr_path r)) (split_on "/"%char path) else None) with
      | Some vars => Some (fr_handler r, vars)
      | None => find_froute rs' method path
      end
  end.
(** fake_ckube.go:116-127: the middleware; it is run for every request that some route matches. *)
Definition watch_param (r : request) : bool :=
  match query_parse (rq_raw r) !! str "watch" with
  | Some [v] => str_eqb v (str "true") || str_eqb v (str "1")
  | _ => false
  end.

(** ** One request *)
(** A reply; no reply, because of a panic that nothing recovers (net/http closes the connection); or a stream
    of the events that the request (with its variables) asks for, see [fake_watch]. *)
Inductive outcome := OReply (r : reply) | OAborted | OStream (r : request).
Definition page_reply (j : json) : outcome := OReply (Reply 200 [BBytes (json_text j)]).
(** fake_ckube.go:259-328: a watch request until the header is flushed.  The texts of errors are not modelled. *)
Definition begin_watch (r : request) : outcome :=
  match watch_page (match query_parse (rq_raw r) !! str "labelSelector" with Some (v :: _) => v | _ => [] end) with
  | Panics => OAborted
  | Ok None => OReply (Reply 400 [BStatus 400 []])
  | Ok (Some _) => OStream r
  end.
(** The answer of [fake_proxy] as a reply (fake_ckube.go:158-167). *)
Definition write_outcome (r : request) (a : fanswer) : outcome :=
  match a with
  | FErr c => OReply (Reply (Z.of_N c) [BStatus (Z.of_N c) []])
  | FObj o => OReply (Reply 200 [BBytes (plain_text o)])
  | FWatch => begin_watch r
  end.
(** There is no API server: the server is created without clients (fake_ckube.go:72). *)
Definition no_apis : apis := Apis (fun _ _ => None) (fun _ _ => None).
Definition froute_vars (m p : gostr) : gmap gostr gostr :=
  match find_froute fake_routes m p with
  | Some (_, vars) => vars
  | None => match find_route route_handles m p with Some (_, vars) => vars | None => ∅ end
  end.
Inductive fserve (E : env) (JE : jenv) (marshal : obj -> gostr) (fc : file_conf) (st : store) (hr : http_req)
    : outcome -> store -> option event -> Prop :=
| fs_moved : clean_path (rq_path (h_req hr)) <> rq_path (h_req hr) ->
    fserve E JE marshal fc st hr (OReply (Reply 301 [])) st None
| fs_watch_param : clean_path (rq_path (h_req hr)) = rq_path (h_req hr) -> watch_param (h_req hr) = true ->
    fserve E JE marshal fc st hr
      (begin_watch (with_vars (h_req hr) (froute_vars (rq_method (h_req hr)) (rq_path (h_req hr))))) st None
| fs_watch_path vars : clean_path (rq_path (h_req hr)) = rq_path (h_req hr) -> watch_param (h_req hr) = false ->
    find_froute fake_routes (rq_method (h_req hr)) (rq_path (h_req hr)) = Some (KWatch, vars) ->
    fserve E JE marshal fc st hr (begin_watch (with_vars (h_req hr) vars)) st None
| fs_page k vars : clean_path (rq_path (h_req hr)) = rq_path (h_req hr) -> watch_param (h_req hr) = false ->
    find_froute fake_routes (rq_method (h_req hr)) (rq_path (h_req hr)) = Some (k, vars) -> k <> KWrite -> k <> KWatch ->
    fserve E JE marshal fc st hr
      (page_reply (match k with
                   | KVersion => version_page | KApi => api_page | KApis => apis_page fc
                   | _ => resources_page fc (default [] (vars !! str "group")) (default [] (vars !! str "version"))
                   end)) st None
| fs_write vars order st' a e : clean_path (rq_path (h_req hr)) = rq_path (h_req hr) -> watch_param (h_req hr) = false ->
    find_froute fake_routes (rq_method (h_req hr)) (rq_path (h_req hr)) = Some (KWrite, vars) ->
    order ≡ₚ map_to_list (query_parse (rq_raw (h_req hr))) ->
    fake_proxy E JE marshal (conf_of_file fc) order st (with_vars (h_req hr) vars) = Ok (st', a, e) ->
    fserve E JE marshal fc st hr (write_outcome (with_vars (h_req hr) vars) a) st' e
| fs_write_panic vars order : clean_path (rq_path (h_req hr)) = rq_path (h_req hr) -> watch_param (h_req hr) = false ->
    find_froute fake_routes (rq_method (h_req hr)) (rq_path (h_req hr)) = Some (KWrite, vars) ->
    order ≡ₚ map_to_list (query_parse (rq_raw (h_req hr))) ->
    fake_proxy E JE marshal (conf_of_file fc) order st (with_vars (h_req hr) vars) = Panics ->
    fserve E JE marshal fc st hr OAborted st None
| fs_server o : clean_path (rq_path (h_req hr)) = rq_path (h_req hr) -> watch_param (h_req hr) = false ->
    find_froute fake_routes (rq_method (h_req hr)) (rq_path (h_req hr)) = None ->
    serve E (conf_of_file fc) ∅ st no_apis hr o ->
    fserve E JE marshal fc st hr (match o with Some rp => OReply rp | None => OAborted end) st None.

(** ** The process *)
(** common.cfg is a variable of the process: the configuration of the server created last.  Every server has
    its own store and its own listener. *)
Record process := Process { pr_conf : file_conf; pr_servers : list store }.
Inductive pinput := PNew (listen text : gostr) | PRequest (i : nat) (hr : http_req) | PClean (i : nat).
Inductive poutput := POCreated (host : gostr) | POFailed | POPanic | POAnswer (o : outcome) | POCleaned.
(** NewFakeCKubeServer (39-84; the server is taken to start in time), a request to the i-th server, Clean (96-108). *)
Inductive pstep (E : env) (JE : jenv) (marshal : obj -> gostr) : process -> pinput -> poutput -> process -> Prop :=
| ps_bad p listen text : fake_conf text = None -> pstep E JE marshal p (PNew listen text) POFailed p
| ps_addr p listen text fc : fake_conf text = Some fc -> fake_host listen = Panics ->
    pstep E JE marshal p (PNew listen text) POPanic (Process fc (pr_servers p))
| ps_new p listen text fc host : fake_conf text = Some fc -> fake_host listen = Ok host ->
    pstep E JE marshal p (PNew listen text) (POCreated host) (Process fc (pr_servers p ++ [new_store (index_conf (fc_proxies fc))]))
| ps_request p i st hr o st' e : pr_servers p !! i = Some st -> fserve E JE marshal (pr_conf p) st hr o st' e ->
    pstep E JE marshal p (PRequest i hr) (POAnswer o) (Process (pr_conf p) (<[i := st']> (pr_servers p)))
| ps_clean p i st : pr_servers p !! i = Some st ->
    pstep E JE marshal p (PClean i) POCleaned (Process (pr_conf p) (<[i := new_store (index_conf (fc_proxies (pr_conf p)))]> (pr_servers p))).
Inductive pruns (E : env) (JE : jenv) (marshal : obj -> gostr) : process -> list pinput -> list poutput -> process -> Prop :=
| pruns_nil p : pruns E JE marshal p [] [] p
| pruns_cons p i o p1 is os p2 : pstep E JE marshal p i o p1 -> pruns E JE marshal p1 is os p2 ->
    pruns E JE marshal p (i :: is) (o :: os) p2.
