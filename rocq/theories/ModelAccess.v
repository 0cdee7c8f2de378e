(** server/server.go:40-80: loggingMiddleware and the lines of the access log. *)
From Coq Require Import Ascii String NArith ZArith.
From stdpp Require Import base gmap strings list.
From Verif Require Import ModelStr ModelJson ModelStore ModelProxy ModelServer ModelExtend ModelServe.

(** server.go:71-78: the fields of a line.  RequestURI, which no handler changes, is the path and the query as
    they came; "type" is constant, and "req_time" is left out. *)
Record logline := LogLine { lg_method : gostr; lg_path : gostr; lg_raw : gostr; lg_status : Z; lg_length : N }.
Section access.
  (** The number of bytes of what is written (encoding/json, promhttp). *)
  Context (size : body -> N).
  Definition total (bs : list body) : N := foldr N.add 0%N (map size bs).
  (** server.go:64-78 *)
  Definition log_line (hr : http_req) (w : writer) : logline :=
    LogLine (rq_method (h_req hr)) (rq_path (h_req hr)) (rq_raw (h_req hr)) (wr_logged w) (total (wr_body w)).
  (** One request with the lines that it leaves.  The middleware of a mux router runs for matched routes only;
      a panic that is not recovered would skip the line. *)
  Definition ended (hr : http_req) (w : option writer) : option reply * list logline :=
    match w with
    | Some w => (Some (sent w), [log_line hr w])
    | None => (None, [])
    end.
  Inductive access (E : env) (cf : config) (clients : gset gostr) (st : store) (up : apis) (hr : http_req)
      : option reply * list logline -> Prop :=
  | access_redirect p : dispatch route_handles (cf_token cf) hr = DRedirect p ->
      access E cf clients st up hr (Some (Reply 301 []), [])
  | access_missing : dispatch route_handles (cf_token cf) hr = DNotFound ->
      access E cf clients st up hr (Some (Reply 404 [BBytes (str "404 page not found")]), [])
  | access_refused : dispatch route_handles (cf_token cf) hr = DUnauthorized ->
      access E cf clients st up hr (ended hr (json_resp 401 (BStatus 401 (str "token missing or error")) fresh))
  | access_run h r success p : dispatch route_handles (cf_token cf) hr = DRun h r success ->
      handle E cf clients st up h r p -> access E cf clients st up hr (ended hr (finish success p)).
  (** net/http does not send the body of a reply to HEAD, though Write accepts it. *)
  Definition received (hr : http_req) (rp : reply) : N :=
    if str_eqb (rq_method (h_req hr)) (str "HEAD") then 0%N else total (rp_body rp).
  (** The requests of one process with their lines, in the order in which the handlers return. *)
  Inductive accesses (E : env) (cf : config) (clients : gset gostr) (up : apis)
      : list (store * http_req) -> list (option reply) -> list logline -> Prop :=
  | accesses_nil : accesses E cf clients up [] [] []
  | accesses_cons st hr o l rs os ls : access E cf clients st up hr (o, l) -> accesses E cf clients up rs os ls ->
      accesses E cf clients up ((st, hr) :: rs) (o :: os) (l ++ ls).
End access.
