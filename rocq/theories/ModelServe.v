(** server/server.go:40-60, 124-193 and api/proxy.go:64-70, 419-521: from a request to the reply that the
    client reads.  net/http (the ResponseWriter) and client-go 0.21 (DoRaw and Stream) are not in /repo and are
    modelled from their sources. *)
From Coq Require Import Ascii String NArith ZArith.
From stdpp Require Import base gmap strings list.
From Verif Require Import ModelStr ModelJson ModelStore ModelProxy ModelServer ModelExtend.

(** What is written: bytes, or the JSON text of a value.  [BError] is a recovered panic or a returned error,
    [BMetrics] the page of promhttp; their texts are not modelled. *)
Inductive body :=
| BBytes (s : gostr)
| BObject (o : obj)
| BList (api kind path : gostr) (remain : Z) (items : list obj)
| BTable (t : table)
| BServices (l : list obj)
| BStatus (code : Z) (msg : gostr)
| BError
| BMetrics.
(** The http.ResponseWriter of one request inside the wrapper statusWriter (server.go:40-60): the status that
    was sent, what Write has accepted (statusWriter.length is its size), and statusWriter.status.  Headers other
    than the status are left out. *)
Record writer := Writer { wr_status : option Z; wr_body : list body; wr_logged : Z }.
Definition fresh : writer := Writer None [] 0.
(** WriteHeader: only the first one counts for the client; [None] is the panic for a status that has not three
    digits, which is always followed by [recovered], so that the status noted before it does not matter.  A
    status 1xx is final here: none comes from an API server, since the transport of net/http drops them. *)
Definition write_header (c : Z) (w : writer) : option writer :=
  match wr_status w with
  | Some _ => Some (Writer (wr_status w) (wr_body w) c)
  | None => if ((c <? 100) || (999 <? c))%Z then None else Some (Writer (Some c) (wr_body w) c)
  end.
(** Write: an implicit WriteHeader(200); refused (ErrBodyNotAllowed) after a status that has no body. *)
Definition bodiless (c : Z) : bool := ((100 <=? c) && (c <=? 199) || (c =? 204) || (c =? 304))%Z.
Definition write (b : body) (w : writer) : writer :=
  let c := default 200%Z (wr_status w) in
  Writer (Some c) (if bodiless c then wr_body w else wr_body w ++ [b]) (if (wr_logged w =? 0)%Z then 200%Z else wr_logged w).
(** server.go:124-129 jsonResp *)
Definition json_resp (c : Z) (b : body) (w : writer) : option writer := write b <$> write_header c w.

(** How a handler ends: with a panic, nil, an error, a v1.Status, a string or []byte, another value. *)
Inductive hend := EPanic | ENil | EError | EStatus (c : Z) (msg : gostr) | EText (s : gostr) | EValue (b : body).
(** proxy.go:64-70 errorProxy *)
Definition error_proxy (c : Z) (msg : gostr) (w : writer) : writer * hend :=
  match write_header c w with
  | None => (w, EPanic)
  | Some w' => (w', EStatus c msg)
  end.

(** The API servers of the clusters: the status and body of the reply to a request; for a watch the status and
    the results of Read on the body.  [None] when there is no reply. *)
Record apis := Apis {
  ap_raw : gostr -> request -> option (Z * gostr);
  ap_stream : gostr -> request -> option (Z * list read) }.
(** client-go DoRaw: a status from 200 to 206 gives the bytes, any other a StatusError with this code, whose
    message is not modelled; Stream: 200 to 299.  Retries are not modelled. *)
Definition raw_ok (c : Z) : bool := ((200 <=? c) && (c <=? 206))%Z.
Definition stream_ok (c : Z) : bool := ((200 <=? c) && (c <? 300))%Z.
(** proxy.go:506-520 *)
Definition pass_reply (u : option (Z * gostr)) (w : writer) : writer * hend :=
  match u with
  | None => (w, EError)
  | Some (c, b) => if raw_ok c then (w, EText b) else error_proxy c [] w
  end.
(** proxy.go:431-461 *)
Definition watch_reply (u : option (Z * list read)) (w : writer) : writer * hend :=
  match u with
  | None => (w, EError)
  | Some (c, rs) =>
      if stream_ok c then (fold_left (fun w s => write (BBytes s) w) (copy_watch [] rs) w, ENil)
      else error_proxy c [] w
  end.
(** api.Proxy *)
Definition proxy_reply (up : apis) (a : answer) (w : writer) : writer * hend :=
  match a with
  | AObject o => (w, EValue (BObject o))
  | AList api kind path rem items => (w, EValue (BList api kind path rem items))
  | ATable t => (w, EValue (BTable t))
  | AStatus c msg => error_proxy c msg w
  | AForward c r => pass_reply (ap_raw up c r) w
  | AWatch c r => watch_reply (ap_stream up c r) w
  | APanic => (w, EPanic)
  end.
(** The handlers of route.go. *)
Inductive handle (E : env) (cf : config) (clients : gset gostr) (st : store) (up : apis)
    : handler -> request -> writer * hend -> Prop :=
| handle_healthy r :
    handle E cf clients st up HHealthy r (match write_header 200 (write (BBytes (str "1")) fresh) with
                                           | Some w => (w, ENil)
                                           | None => (fresh, EPanic)
                                           end)
| handle_metrics r : handle E cf clients st up HMetrics r (write BMetrics fresh, ENil)
| handle_services r s : services E cf st r s ->
    handle E cf clients st up HServices r
      (fresh, match s with Panics => EPanic | Ok None => EError | Ok (Some l) => EValue (BServices l) end)
| handle_proxy r a : proxy E cf clients st r a -> handle E cf clients st up HProxy r (proxy_reply up a fresh).

(** server.go:146-153, 170-192: the end of the handler function; a panic is answered in the deferred function. *)
Definition recovered (w : writer) : option writer := json_resp 500 BError w.
Definition finish (success : Z) (p : writer * hend) : option writer :=
  let '(w, e) := p in
  match e with
  | EPanic | EError => recovered w
  | ENil => Some w
  | EStatus c msg => match json_resp c (BStatus c msg) w with Some w' => Some w' | None => recovered w end
  | EText s => Some (write (BBytes s) w)
  | EValue b => match json_resp success b w with Some w' => Some w' | None => recovered w end
  end.
(** The reply: net/http sends the status 200 if nothing was written.  The body of a HEAD is not sent, which
    is left out. *)
Record reply := Reply { rp_status : Z; rp_body : list body }.
Definition sent (w : writer) : reply := Reply (default 200%Z (wr_status w)) (wr_body w).
(** One request: the router, the token, the handler.  A panic that is not recovered would leave the client
    without reply. *)
Inductive serve (E : env) (cf : config) (clients : gset gostr) (st : store) (up : apis) (hr : http_req)
    : option reply -> Prop :=
| serve_redirect p : dispatch route_handles (cf_token cf) hr = DRedirect p -> serve E cf clients st up hr (Some (Reply 301 []))
| serve_missing : dispatch route_handles (cf_token cf) hr = DNotFound ->
    serve E cf clients st up hr (Some (Reply 404 [BBytes (str "404 page not found")]))
| serve_refused : dispatch route_handles (cf_token cf) hr = DUnauthorized ->
    serve E cf clients st up hr (sent <$> json_resp 401 (BStatus 401 (str "token missing or error")) fresh)
| serve_run h r success p : dispatch route_handles (cf_token cf) hr = DRun h r success ->
    handle E cf clients st up h r p -> serve E cf clients st up hr (sent <$> finish success p).
