(** server/server.go and server/route.go: routing, authentication and replies.  The router is gorilla/mux
    v1.8.0, which is not in /repo and is modelled from its sources. *)
From Coq Require Import Ascii String NArith ZArith.
From stdpp Require Import base gmap strings list.
From Verif Require Import ModelStr ModelJson ModelStore ModelProxy.

(** ** The router *)
(** path.Clean on a rooted path: the segments that stay. *)
Definition clean_seg (acc : list gostr) (s : gostr) : list gostr :=
  if str_eqb s [] || str_eqb s (str ".") then acc
  else if str_eqb s (str "..") then tl acc
  else s :: acc.
Definition path_clean (p : gostr) : gostr :=
  str "/" ++ join (str "/") (reverse (fold_left clean_seg (split_on "/"%char p) [])).
(** mux cleanPath: keeps a trailing slash. *)
Definition clean_path (p : gostr) : gostr :=
  match p with
  | [] => str "/"
  | c :: _ =>
      let p := if ch_eqb c "/"%char then p else "/"%char :: p in
      let np := path_clean p in
      if match last p with Some d => ch_eqb d "/"%char | None => false end && negb (str_eqb np (str "/"))
      then np ++ str "/" else np
  end.

(** A segment of a template: a variable stands for [^/]+, a non-empty segment. *)
Inductive tseg := TLit (s : gostr) | TVar (name : gostr).
Definition parse_seg (s : gostr) : tseg :=
  match s with
  | c :: r => if ch_eqb c "{"%char then TVar (removelast r) else TLit s
  | [] => TLit s
  end.
Definition template (path : gostr) : list tseg := map parse_seg (split_on "/"%char path).
Fixpoint match_segs (ts : list tseg) (ps : list gostr) : option (gmap gostr gostr) :=
  match ts, ps with
  | [], [] => Some ∅
  | TLit s :: ts', p :: ps' => if str_eqb s p then match_segs ts' ps' else None
  | TVar n :: ts', p :: ps' =>
      match p with [] => None | _ => (fun m : gmap gostr gostr => <[n := p]> m) <$> match_segs ts' ps' end
  | _, _ => None
  end.

(** server/route.go:21-110: the handlers and the table.  [r_method] [] stands for no method. *)
Inductive handler := HHealthy | HMetrics | HServices | HProxy.
Record route := Route {
  r_path : gostr; r_method : gostr; r_handler : handler; r_auth : bool; r_status : Z; r_prefix : bool }.
Definition route_handles : list route :=
  [ Route (str "/healthy") (str "GET") HHealthy false 0 false;
    Route (str "/metrics") (str "GET") HMetrics false 0 false;
    Route (str "/custom/v1/namespaces/{namespace}/deployments/{deployment}/services") (str "GET") HServices true 200 false;
    Route (str "/custom/v1/clusters/{cluster}/namespaces/{namespace}/deployments/{deployment}/services") (str "GET") HServices true 200 false;
    Route (str "/apis/{group}/{version}/namespaces/{namespace}/{resourceType}") (str "GET") HProxy true 200 false;
    Route (str "/apis/{group}/{version}/{resourceType}") [] HProxy true 200 false;
    Route (str "/api/{version}/{resourceType}") [] HProxy true 200 false;
    Route (str "/api/{version}/namespaces/{namespace}/{resourceType}") [] HProxy true 200 false;
    Route (str "/apis/{group}/{version}/namespaces/{namespace}/{resourceType}/{resource}") [] HProxy true 200 false;
    Route (str "/apis/{group}/{version}/{resourceType}/{resource}") [] HProxy true 200 false;
    Route (str "/api/{version}/{resourceType}/{resource}") [] HProxy true 200 false;
    Route (str "/api/{version}/namespaces/{namespace}/{resourceType}/{resource}") [] HProxy true 200 false;
    Route (str "/") [] HProxy true 200 true ].
(** server.go:131-144: methods of a route without method. *)
Definition any_methods : list gostr :=
  [str "GET"; str "POST"; str "PUT"; str "DELETE"; str "PATCH"; str "OPTIONS"; str "HEAD"].
Definition method_ok (r : route) (m : gostr) : bool :=
  match r_method r with [] => existsb (str_eqb m) any_methods | rm => str_eqb rm m end.
(** Route.Match: the variables.  A route whose path matches but not its method is passed over; the
    "/" prefix, which every cleaned path has, ends the search, so there is neither a 404 nor a 405. *)
Definition route_match (r : route) (method path : gostr) : option (gmap gostr gostr) :=
  if r_prefix r then (if has_prefix (r_path r) path then Some ∅ else None)
  else if method_ok r method then match_segs (template (r_path r)) (split_on "/"%char path) else None.
Fixpoint find_route (rs : list route) (method path : gostr) : option (route * gmap gostr gostr) :=
  match rs with
  | [] => None
  | r :: rs' =>
      match route_match r method path with
      | Some vars => Some (r, vars)
      | None => find_route rs' method path
      end
  end.

(** ** Dispatch (Router.ServeHTTP and server.go:145-169).  [h_auth] is the Authorization header, [] when
    absent; [h_req] has no variables yet. *)
Record http_req := HttpReq { h_auth : gostr; h_req : request }.
Definition with_vars (r : request) (vars : gmap gostr gostr) : request :=
  Request (rq_method r) (rq_path r) vars (rq_raw r) (rq_body r) (rq_accept r) (rq_ctype r).
Inductive dispatched :=
| DRedirect (path : gostr)                        (* 301 *)
| DNotFound                                       (* 404 *)
| DUnauthorized                                   (* 401 *)
| DRun (h : handler) (r : request) (success : Z).
Definition dispatch (rs : list route) (token : gostr) (hr : http_req) : dispatched :=
  let r := h_req hr in
  let p := clean_path (rq_path r) in
  if negb (str_eqb p (rq_path r)) then DRedirect p
  else match find_route rs (rq_method r) (rq_path r) with
       | None => DNotFound
       | Some (rt, vars) =>
           if r_auth rt && negb (str_eqb token []) && negb (contains (h_auth hr) token) then DUnauthorized
           else DRun (r_handler rt) (with_vars r vars) (r_status rt)
       end.
