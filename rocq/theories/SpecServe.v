(** Specification of the replies that a client may see. *)
From Coq Require Import Ascii String NArith ZArith.
From stdpp Require Import base gmap strings list.
From Verif Require Import ModelStr ModelStore ModelProxy ModelServer ModelServe SpecPage.

(** The request carries the token, if there is one. *)
Definition authorised (cf : config) (hr : http_req) : Prop := cf_token cf = [] \/ occurs (cf_token cf) (h_auth hr).
(** The status that goes with what is written. *)
Definition fits (status : Z) (b : body) : Prop :=
  match b with
  | BStatus c _ => status = c
  | BError => status = 500%Z
  | _ => status = 200%Z
  end.
(** Statuses whose reply has no body (RFC 9110). *)
Definition no_body (c : Z) : Prop := (100 <= c <= 199 \/ c = 204 \/ c = 304)%Z.
(** The reply for the answer of an API server: success is passed on with status 200, a failure with its own
    status; without an answer it is 500. *)
Inductive relays {A} (ok : Z -> Prop) (content : A -> list body) : option (Z * A) -> reply -> Prop :=
| relays_ok c x : ok c -> relays ok content (Some (c, x)) (Reply 200 (content x))
| relays_failure c x : ~ ok c -> (100 <= c <= 999)%Z -> ~ no_body c -> relays ok content (Some (c, x)) (Reply c [BStatus c []])
| relays_empty c x : ~ ok c -> (100 <= c <= 999)%Z -> no_body c -> relays ok content (Some (c, x)) (Reply c [])
| relays_odd c x : ~ ok c -> ~ (100 <= c <= 999)%Z -> relays ok content (Some (c, x)) (Reply 500 [BError])
| relays_none : relays ok content None (Reply 500 [BError]).
(** DoRaw and Stream of client-go accept different statuses. *)
Definition relays_raw : option (Z * gostr) -> reply -> Prop :=
  relays (fun c => 200 <= c <= 206)%Z (fun s => [BBytes s]).
Definition relays_stream : option (Z * list read) -> reply -> Prop :=
  relays (fun c => 200 <= c <= 299)%Z (fun rs => map BBytes (copy_watch [] rs)).
(** The apiVersion and the kind of a list: group and version of the type, and the kind of the first configured
    entry for it. *)
Definition list_head (cf : config) (g : gvr) (api kind : gostr) : Prop :=
  (g.1.1 = [] /\ api = g.1.2 \/ g.1.1 <> [] /\ api = g.1.1 ++ str "/" ++ g.1.2) /\
  ((exists before after, cf_proxies cf = before ++ (g, kind) :: after /\ forall k, (g, k) ∉ before) \/
   (forall k, (g, k) ∉ cf_proxies cf) /\ kind = []).
