(** Specification: documents of a kind, and the last document that was sent for a name. *)
From Coq Require Import Ascii String NArith ZArith.
From stdpp Require Import base gmap strings list.
From Verif Require Import ModelStr ModelJson ModelStore ModelProxy ModelObjType ModelCodec.

(** apiVersion of a group and version. *)
Definition api_text (g v api : gostr) : Prop := g = [] /\ api = v \/ g <> [] /\ api = g ++ str "/" ++ v.
(** A proper group and version. *)
Definition proper (g : gvr) : Prop := "/"%char ∉ g.1.1 /\ "/"%char ∉ g.1.2 /\ g.1.2 <> [].
(** A JSON object that says it has this kind, in the group and version of the type, and says nothing else about
    it, not even in a name written in other letters. *)
Definition document (g : gvr) (kind s : gostr) : Prop :=
  kind <> [] /\ exists api l, json_parse s = Some (JObj l) /\ api_text g.1.1 g.1.2 api /\
    (str "apiVersion", JStr api) ∈ l /\ (str "kind", JStr kind) ∈ l /\
    forall k v, (k, v) ∈ l ->
      (fold_key2 k = str "apiversion" -> k = str "apiVersion" /\ v = JStr api) /\
      (fold_key2 k = str "kind" -> k = str "kind" /\ v = JStr kind).
Definition changes : list gostr := [str "ADDED"; str "MODIFIED"; str "DELETED"].
(** An event with a document of the kind. *)
Definition about (g : gvr) (kind : gostr) (e : raw_event) : Prop :=
  (re_type e ∈ changes \/ re_type e = str "BOOKMARK") /\ document g kind (re_text e).
(** The kind is registered when the event is decoded. *)
Definition readable (g : gvr) (kind : gostr) (e : raw_event) : Prop := (g.1.1, g.1.2, kind) ∈ re_reg e.
(** The last event about a name put the object [o]. *)
Definition last_sent (JE : jenv) (evs : list raw_event) (ns n : gostr) (o : objtype) : Prop :=
  exists before e after, evs = before ++ e :: after /\ (re_type e = str "ADDED" \/ re_type e = str "MODIFIED") /\
    decode_obj JE (re_text e) = Ok o /\ (me_namespace (t_meta o), me_name (t_meta o)) = (ns, n) /\
    forall e' o', e' ∈ after -> re_type e' ∈ changes -> decode_obj JE (re_text e') = Ok o' ->
      (me_namespace (t_meta o'), me_name (t_meta o')) <> (ns, n).
(** The object with the annotations of ckube added and nothing else changed. *)
Definition annotated_as (c : gostr) (o o' : objtype) : Prop :=
  t_api o' = t_api o /\ t_kind o' = t_kind o /\ t_data o' = t_data o /\
  (exists a, t_meta o' = Meta (me_name (t_meta o)) (me_generate (t_meta o)) (me_namespace (t_meta o)) (me_self (t_meta o))
     (me_uid (t_meta o)) (me_version (t_meta o)) (me_generation (t_meta o)) (me_created (t_meta o)) (me_deleted (t_meta o))
     (me_grace (t_meta o)) (me_labels (t_meta o)) a (me_owners (t_meta o)) (me_finalizers (t_meta o)) (me_cluster (t_meta o))) /\
  me_annos (t_meta o') !! str "ckube.doacloud.io/cluster" = Some c /\
  is_Some (me_annos (t_meta o') !! str "ckube.daocloud.io/indexes") /\
  forall a, a <> str "ckube.doacloud.io/cluster" -> a <> str "ckube.daocloud.io/indexes" ->
    me_annos (t_meta o') !! a = me_annos (t_meta o) !! a.
