(** The running process: what a request is answered while configurations are reloaded.  ModelReload says what a
    request reads, ModelServe what is made of it. *)
From Coq Require Import Ascii String NArith ZArith.
From stdpp Require Import base gmap strings list.
From Verif Require Import ModelStr ModelJson ModelStore ModelProxy ModelServer ModelExtend ModelWatcher ModelReload ModelServe.

(** The API servers behind the clients of all loads. *)
Record servers := Servers {
  sv_raw : client -> request -> option (Z * gostr);
  sv_stream : client -> request -> option (Z * list read) }.
(** api/proxy.go:425, 496: the client of a cluster, from the map that the request read. *)
Definition apis_of (cs : gmap gostr client) (sv : servers) : apis :=
  Apis (fun c r => match cs !! c with Some cl => sv_raw sv cl r | None => None end)
       (fun c r => match cs !! c with Some cl => sv_stream sv cl r | None => None end).
(** server/server.go:154: authRequired of the route that takes the request. *)
Definition required (hr : http_req) : bool :=
  match find_route route_handles (rq_method (h_req hr)) (rq_path (h_req hr)) with Some (rt, _) => r_auth rt | None => false end.
(** server/server.go:145-192: the reply to request number [i], which is [hr], in this state.  Redirects are made
    by the router and are no requests of ModelReload.  The handler reads the configuration and the store in one
    step, after the clients and the store have been read as variables. *)
Inductive replied (E : env) (sv : servers) (y : sys) (i : nat) (hr : http_req) : option reply -> Prop :=
| replied_redirect p : dispatch route_handles [] hr = DRedirect p -> replied E sv y i hr (Some (Reply 301 []))
| replied_missing : dispatch route_handles [] hr = DNotFound ->
    replied E sv y i hr (Some (Reply 404 [BBytes (str "404 page not found")]))
| replied_refused q h r s : dispatch route_handles [] hr = DRun h r s -> s_reqs y !! i = Some q -> turned_away (s_proc y) q = true ->
    replied E sv y i hr (sent <$> json_resp 401 (BStatus 401 (str "token missing or error")) fresh)
| replied_run q h r s c n ldf ldc w p : dispatch route_handles [] hr = DRun h r s -> s_reqs y !! i = Some q ->
    q_clients q = Some c -> q_store q = Some n ->
    p_loads (s_proc y) !! p_conf (s_proc y) = Some ldf -> p_loads (s_proc y) !! c = Some ldc -> p_systems (s_proc y) !! n = Some w ->
    handle E (ld_conf ldf) (dom (ld_clients ldc)) (ws_store w) (apis_of (ld_clients ldc) sv) h r p ->
    replied E sv y i hr (sent <$> finish s p).
