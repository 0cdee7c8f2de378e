(** nginx.conf and entrypoint.sh: the gateway in front of ckube in the image.  nginx and PCRE are not in /repo and
    are modelled from their documentation. *)
From Coq Require Import Ascii String NArith ZArith.
From stdpp Require Import base gmap strings list.
From Verif Require Import ModelStr ModelLabels ModelStore ModelProxy ModelServer.

(** ** Regular expressions *)
Inductive re := RChr (p : ascii -> bool) | RLit (s : gostr) | RCat (a b : re) | RAlt (a b : re) | RPlus (a : re) | ROpt (a : re).
Inductive re_in : re -> gostr -> Prop :=
| in_chr p c : p c = true -> re_in (RChr p) [c]
| in_lit s : re_in (RLit s) s
| in_cat a b s t : re_in a s -> re_in b t -> re_in (RCat a b) (s ++ t)
| in_alt_l a b s : re_in a s -> re_in (RAlt a b) s
| in_alt_r a b s : re_in b s -> re_in (RAlt a b) s
| in_plus_one a s : re_in a s -> re_in (RPlus a) s
| in_plus_more a s t : re_in a s -> re_in (RPlus a) t -> re_in (RPlus a) (s ++ t)
| in_opt_none a : re_in (ROpt a) []
| in_opt_some a s : re_in a s -> re_in (ROpt a) s.
(** nginx.conf:72: [0-9a-zA-Z\.\-\_]+ and [^/]+. *)
Definition wchar (c : ascii) : bool := is_alnum c || ch_eqb c "."%char || ch_eqb c "-"%char || ch_eqb c "_"%char.
Definition word_re : re := RPlus (RChr wchar).
Definition rest_re : re := RPlus (RChr (fun c => negb (ch_eqb c "/"%char))).
(** nginx.conf:72: both alternatives at the front begin with ^, so the expression is tied to both ends. *)
Definition api_re : re :=
  RCat (RAlt (RLit (str "/api")) (RCat (RLit (str "/apis/")) word_re))
  (RCat (RLit (str "/")) (RCat word_re (RCat (RLit (str "/"))
  (RCat (ROpt (RCat (RLit (str "namespaces/")) (RCat word_re (RLit (str "/")))))
  (RCat word_re (ROpt (RCat (RLit (str "/")) rest_re))))))).
(** PCRE: $ is also before a line end that is the last character. *)
Definition api_location (p : gostr) : Prop := re_in api_re p \/ exists p', p = p' ++ [ascii_of_N 10] /\ re_in api_re p'.

(** ** Choice of the backend *)
(** ngx_http_arg for $arg_watch: the value of the first argument of this name, letters of either case, as it is
    written in the address; empty if there is none. *)
Fixpoint first_arg (name : gostr) (args : list gostr) : gostr :=
  match args with
  | [] => []
  | a :: args' => if has_prefix (name ++ str "=") (to_lower a) then drop (S (length name)) a else first_arg name args'
  end.
Definition arg_watch (raw : gostr) : gostr := first_arg (str "watch") (split_on "&"%char raw).
(** nginx.conf:63: !~* (1)|(true). *)
Definition no_watch (raw : gostr) : bool :=
  negb (contains (to_lower (arg_watch raw)) (str "1") || contains (to_lower (arg_watch raw)) (str "true")).
(** nginx.conf:59-69. *)
Inductive dest := ToKube | ToCkube.
Definition act (m raw : gostr) : gostr :=
  (if str_eqb m (str "GET") then str "G" else []) ++ (if no_watch raw then str "N" else []).
Definition backend (m raw : gostr) : dest := if str_eqb (act m raw) (str "GN") then ToCkube else ToKube.
(** nginx.conf:28-58, 72-84: a location with an expression comes before those with a prefix; [token] is the token
    of the service account (entrypoint.sh:5, 8).  The path is the decoded one, without "." and ".." and with single
    slashes; the address itself is sent on as it came. *)
Definition bearer (token : gostr) (hr : http_req) : http_req := HttpReq (str "Bearer " ++ token) (h_req hr).
Definition own_pages : list gostr := [str "/custom"; str "/metrics"; str "/healthy"].
Inductive gateway (token : gostr) (hr : http_req) : dest -> http_req -> Prop :=
| gw_api : api_location (rq_path (h_req hr)) -> gateway token hr (backend (rq_method (h_req hr)) (rq_raw (h_req hr))) (bearer token hr)
| gw_own x : ~ api_location (rq_path (h_req hr)) -> x ∈ own_pages -> has_prefix x (rq_path (h_req hr)) = true -> gateway token hr ToCkube hr
| gw_root : ~ api_location (rq_path (h_req hr)) -> (forall x, x ∈ own_pages -> has_prefix x (rq_path (h_req hr)) = false) ->
    gateway token hr ToKube (bearer token hr).
