(** What a generic object is and when a text describes one; independent of how it is encoded. *)
From Coq Require Import Ascii String NArith ZArith.
From stdpp Require Import base gmap strings list sorting.
From Verif Require Import ModelStr ModelJson ModelJsonText ProofsJsonText ModelStore ModelObjType.

(** What is assumed of the Go library: printing a float64 gives a JSON number that reads back as the
    same float64, an integral float64 is also read back when printed as an integer, and a printed time
    reads back as the same time. *)
Record lawful (E : jenv) : Prop := Lawful {
  law_num : forall l l', je_norm E l = Some l' -> num_lit l' /\ je_norm E l' = Some l';
  law_zero : je_norm E (str "0") = Some (str "0");
  law_int : forall l z, je_norm E l = Some l -> parse_int l = Some z -> je_norm E (itoa z) = Some (itoa z);
  law_time : forall s t, je_time E s = Some (Some t) -> je_time E t = Some (Some t) /\ valid_utf8 t = true }.

(** Go values behind interface{}. *)
Definition key_lt {A} (a b : gostr * A) : Prop := str_ltb a.1 b.1 = true.
Inductive value (E : jenv) : json -> Prop :=
| v_null : value E JNull
| v_bool b : value E (JBool b)
| v_num l : je_norm E l = Some l -> value E (JNum l)
| v_str s : valid_utf8 s = true -> value E (JStr s)
| v_arr l : Forall (value E) l -> value E (JArr l)
| v_obj l : StronglySorted key_lt l -> Forall (fun kv => valid_utf8 kv.1 = true /\ value E kv.2) l -> value E (JObj l).

Definition number (E : jenv) (z : Z) : Prop := in_int64 z = true /\ je_norm E (itoa z) = Some (itoa z).
Definition time (E : jenv) (t : gostr) : Prop := je_time E t = Some (Some t) /\ valid_utf8 t = true.
Definition valid_map (m : gmap gostr gostr) : Prop := map_Forall (fun k v => valid_utf8 k = true /\ valid_utf8 v = true) m.
Record good_owner (o : owner) : Prop := GoodOwner {
  go_api : valid_utf8 (ow_api o) = true; go_kind : valid_utf8 (ow_kind o) = true;
  go_name : valid_utf8 (ow_name o) = true; go_uid : valid_utf8 (ow_uid o) = true }.
(** Metadata whose strings are valid UTF-8, whose numbers are exact in float64 and whose times are
    printable; a deletion time is not the zero time. *)
Record good_meta (E : jenv) (m : meta) : Prop := GoodMeta {
  gm_name : valid_utf8 (me_name m) = true; gm_generate : valid_utf8 (me_generate m) = true;
  gm_namespace : valid_utf8 (me_namespace m) = true; gm_self : valid_utf8 (me_self m) = true;
  gm_uid : valid_utf8 (me_uid m) = true; gm_version : valid_utf8 (me_version m) = true;
  gm_generation : number E (me_generation m);
  gm_created : forall t, me_created m = Some t -> time E t;
  gm_deleted : me_deleted m = None \/ exists t, me_deleted m = Some (Some t) /\ time E t;
  gm_grace : forall z, me_grace m = Some z -> number E z;
  gm_labels : valid_map (me_labels m); gm_annos : valid_map (me_annos m);
  gm_owners : Forall good_owner (me_owners m);
  gm_finalizers : Forall (fun s => valid_utf8 s = true) (me_finalizers m);
  gm_cluster : valid_utf8 (me_cluster m) = true }.
Definition reserved : list gostr := [str "apiVersion"; str "kind"; str "metadata"].
Record good_obj (E : jenv) (o : objtype) : Prop := GoodObj {
  gd_api : valid_utf8 (t_api o) = true; gd_kind : valid_utf8 (t_kind o) = true;
  gd_meta : good_meta E (t_meta o);
  gd_data : value E (JObj (t_data o));
  gd_depth : jdepth (JObj (t_data o)) <= max_nesting;
  gd_reserved : forall k, k ∈ reserved -> k ∉ (t_data o).*1 }.

(** The member a key denotes in a JSON object: the last one. *)
Definition denotes {A} (l : list (gostr * A)) (k : gostr) (v : A) : Prop :=
  exists l1 l2, l = l1 ++ (k, v) :: l2 /\ k ∉ l2.*1.
