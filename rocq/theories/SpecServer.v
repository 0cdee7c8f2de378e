(** Specification of the public routes and of the paths of the Kubernetes API. *)
From Coq Require Import Ascii String NArith ZArith.
From stdpp Require Import base gmap strings list.
From Verif Require Import ModelStr ModelStore ModelProxy ModelServer.

(** The two requests that need no token. *)
Definition public (r : request) : Prop :=
  rq_method r = str "GET" /\ (rq_path r = str "/healthy" \/ rq_path r = str "/metrics").
(** A path in canonical form: slash-separated segments of which none is "." or ".." and only the last may
    be empty. *)
Definition plain_seg (s : gostr) : Prop := s <> [] /\ "/"%char ∉ s /\ s <> str "." /\ s <> str "..".
Definition seg_path (l : list gostr) : gostr := flat_map (fun s => "/"%char :: s) l.
Definition canonical (p : gostr) : Prop :=
  exists l, Forall plain_seg l /\ (l <> [] /\ p = seg_path l \/ p = seg_path l ++ str "/").

(** The path of a type, a namespace and a name in the Kubernetes API; [None] for no namespace or name. *)
Definition api_path (g : gvr) (ns name : option gostr) : gostr :=
  seg_path ((match g.1.1 with [] => [str "api"] | gr => [str "apis"; gr] end) ++ [g.1.2] ++
            (match ns with Some n => [str "namespaces"; n] | None => [] end) ++ [g.2] ++
            (match name with Some n => [n] | None => [] end)).
Definition api_addr (g : gvr) (ns name : option gostr) : Prop :=
  (g.1.1 = [] \/ plain_seg g.1.1) /\ plain_seg g.1.2 /\ plain_seg g.2 /\
  (forall n, ns = Some n -> plain_seg n) /\ (forall n, name = Some n -> plain_seg n).
