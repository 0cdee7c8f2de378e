(** watcher/watcher.go:46-94: the generic object ObjType and its JSON form. *)
From Coq Require Import Ascii String NArith ZArith.
From stdpp Require Import base gmap strings list.
From Verif Require Import ModelStr ModelSort ModelLabels ModelPage ModelJson ModelJsonText ModelQuery ModelStore ModelUrl ModelProxy.

(** What is taken from the Go library as a parameter.  [je_norm l] is the text json.Marshal prints for
    the float64 that strconv.ParseFloat(l, 64) gives, [None] when that is out of range.  [je_time s] is
    time.Parse(time.RFC3339, s): [None] for an error, [Some None] for the zero time, else the UTC text
    that metav1.Time prints for it. *)
Record jenv := JEnv { je_norm : gostr -> option gostr; je_time : gostr -> option (option gostr) }.

(** ** interface{} values.  A value decoded into interface{} is kept as a [json] whose objects are
    sorted by key without duplicates (a Go map, printed by json.Marshal in that order) and whose numbers
    are the text of a float64. *)
(** m[k] = v *)
Fixpoint put {A} (k : gostr) (v : A) (l : list (gostr * A)) : list (gostr * A) :=
  match l with
  | [] => [(k, v)]
  | (k', v') :: l' =>
      if str_eqb k k' then (k, v) :: l'
      else if str_ltb k k' then (k, v) :: l
      else (k', v') :: put k v l'
  end.
(** v, ok := m[k] *)
Fixpoint get {A} (k : gostr) (l : list (gostr * A)) : option A :=
  match l with
  | [] => None
  | (k', v') :: l' => if str_eqb k k' then Some v' else get k l'
  end.
(** delete(m, k) *)
Definition del {A} (k : gostr) (l : list (gostr * A)) : list (gostr * A) :=
  List.filter (fun kv : gostr * A => negb (str_eqb k kv.1)) l.
(** Decoding a parsed text into interface{}: later members replace earlier ones; a number out of range
    is an (ignored) error that leaves nil. *)
Fixpoint iface (E : jenv) (j : json) : json :=
  match j with
  | JNum l => match je_norm E l with Some l' => JNum l' | None => JNull end
  | JArr l => JArr (map (iface E) l)
  | JObj l => JObj (fold_left (fun m kv => put kv.1 (iface E kv.2) m) l [])
  | j => j
  end.
(** json.Unmarshal(s, &m) for m map[string]interface{}, error ignored (watcher.go:53-54). *)
Definition decode_map (E : jenv) (s : gostr) : list (gostr * json) :=
  match json_parse s with
  | Some j => match iface E j with JObj l => l | _ => [] end
  | None => []
  end.

(** ** metav1.ObjectMeta of k8s 0.21 (not in /repo), without managedFields.  A time is [None] for the
    zero time, else its UTC text; an empty and a nil map or slice are the same. *)
Record owner := Owner {
  ow_api : gostr; ow_kind : gostr; ow_name : gostr; ow_uid : gostr;
  ow_controller : option bool; ow_block : option bool }.
Record meta := Meta {
  me_name : gostr; me_generate : gostr; me_namespace : gostr; me_self : gostr; me_uid : gostr;
  me_version : gostr; me_generation : Z; me_created : option gostr; me_deleted : option (option gostr);
  me_grace : option Z; me_labels : gmap gostr gostr; me_annos : gmap gostr gostr;
  me_owners : list owner; me_finalizers : list gostr; me_cluster : gostr }.
Definition zero_owner : owner := Owner [] [] [] [] None None.
Definition zero_meta : meta := Meta [] [] [] [] [] [] 0 None None None ∅ ∅ [] [] [].

(** Marshalling.  Each field is its name and its value, [None] when omitted. *)
Definition members (fs : list (gostr * option json)) : list (gostr * json) :=
  flat_map (fun f : gostr * option json => match f.2 with Some v => [(f.1, v)] | None => [] end) fs.
Definition ne_str (s : gostr) : option json := match s with [] => None | _ => Some (JStr s) end.
Definition ne_int (z : Z) : option json := if (z =? 0)%Z then None else Some (JNum (itoa z)).
Definition ne_list {A} (f : A -> json) (l : list A) : option json :=
  match l with [] => None | _ => Some (JArr (map f l)) end.
Definition time_json (t : option gostr) : json := match t with Some s => JStr s | None => JNull end.
(** A map[string]string is printed sorted by key. *)
Definition sorted_map (m : gmap gostr gostr) : list (gostr * gostr) :=
  fold_left (fun l kv => put kv.1 kv.2 l) (map_to_list m) [].
Definition ne_map (m : gmap gostr gostr) : option json :=
  match sorted_map m with
  | [] => None
  | l => Some (JObj (map (fun kv : gostr * gostr => (kv.1, JStr kv.2)) l))
  end.
Definition owner_json (o : owner) : json :=
  JObj (members [
    (str "apiVersion", Some (JStr (ow_api o))); (str "kind", Some (JStr (ow_kind o)));
    (str "name", Some (JStr (ow_name o))); (str "uid", Some (JStr (ow_uid o)));
    (str "controller", JBool <$> ow_controller o); (str "blockOwnerDeletion", JBool <$> ow_block o)]).
Definition meta_fields (m : meta) : list (gostr * option json) := [
  (str "name", ne_str (me_name m)); (str "generateName", ne_str (me_generate m));
  (str "namespace", ne_str (me_namespace m)); (str "selfLink", ne_str (me_self m));
  (str "uid", ne_str (me_uid m)); (str "resourceVersion", ne_str (me_version m));
  (str "generation", ne_int (me_generation m)); (str "creationTimestamp", Some (time_json (me_created m)));
  (str "deletionTimestamp", time_json <$> me_deleted m);
  (str "deletionGracePeriodSeconds", (fun z => JNum (itoa z)) <$> me_grace m);
  (str "labels", ne_map (me_labels m)); (str "annotations", ne_map (me_annos m));
  (str "ownerReferences", ne_list owner_json (me_owners m));
  (str "finalizers", ne_list JStr (me_finalizers m)); (str "clusterName", ne_str (me_cluster m))].
Definition meta_json (m : meta) : json := JObj (members (meta_fields m)).

(** Unmarshalling.  A value of the wrong type leaves the field unchanged and decoding goes on, but an
    error of Time.UnmarshalJSON ends it. *)
Definition set_map (old : gmap gostr gostr) (v : json) : gmap gostr gostr :=
  match v with
  | JObj l => fold_left (fun m kv => <[kv.1 := set_str [] kv.2]> m) l old
  | JNull => ∅
  | _ => old
  end.
Fixpoint set_slice {A} (zero : A) (f : A -> json -> A) (old : list A) (l : list json) : list A :=
  match l with
  | [] => []
  | v :: l' => f (hd zero old) v :: set_slice zero f (tl old) l'
  end.
Definition set_list {A} (zero : A) (f : A -> json -> A) (old : list A) (v : json) : list A :=
  match v with JArr l => set_slice zero f old l | JNull => [] | _ => old end.
Definition set_owner_field (o : owner) (kv : gostr * json) : owner :=
  let '(k, v) := kv in
  let k := fold_key2 k in
  let '(Owner api kind name uid con blk) := o in
  if str_eqb k (str "apiversion") then Owner (set_str api v) kind name uid con blk
  else if str_eqb k (str "kind") then Owner api (set_str kind v) name uid con blk
  else if str_eqb k (str "name") then Owner api kind (set_str name v) uid con blk
  else if str_eqb k (str "uid") then Owner api kind name (set_str uid v) con blk
  else if str_eqb k (str "controller") then Owner api kind name uid (set_ptr false set_bool con v) blk
  else if str_eqb k (str "blockownerdeletion") then Owner api kind name uid con (set_ptr false set_bool blk v)
  else o.
Definition set_owner (o : owner) (v : json) : owner :=
  match v with JObj l => fold_left set_owner_field l o | _ => o end.
(** Time.UnmarshalJSON; [None] is an error. *)
Definition set_time (E : jenv) (v : json) : option (option gostr) :=
  match v with JNull => Some None | JStr s => je_time E s | _ => None end.
Definition set_meta_field (E : jenv) (m : meta) (kv : gostr * json) : meta + meta :=
  let '(k, v) := kv in
  let k := fold_key2 k in
  let '(Meta name gen ns self uid ver num cre dele grace labels annos owners fins clus) := m in
  if str_eqb k (str "name") then inr (Meta (set_str name v) gen ns self uid ver num cre dele grace labels annos owners fins clus)
  else if str_eqb k (str "generatename") then inr (Meta name (set_str gen v) ns self uid ver num cre dele grace labels annos owners fins clus)
  else if str_eqb k (str "namespace") then inr (Meta name gen (set_str ns v) self uid ver num cre dele grace labels annos owners fins clus)
  else if str_eqb k (str "selflink") then inr (Meta name gen ns (set_str self v) uid ver num cre dele grace labels annos owners fins clus)
  else if str_eqb k (str "uid") then inr (Meta name gen ns self (set_str uid v) ver num cre dele grace labels annos owners fins clus)
  else if str_eqb k (str "resourceversion") then inr (Meta name gen ns self uid (set_str ver v) num cre dele grace labels annos owners fins clus)
  else if str_eqb k (str "generation") then inr (Meta name gen ns self uid ver (set_int num v) cre dele grace labels annos owners fins clus)
  else if str_eqb k (str "creationtimestamp") then
    match set_time E v with
    | Some t => inr (Meta name gen ns self uid ver num t dele grace labels annos owners fins clus)
    | None => inl m
    end
  else if str_eqb k (str "deletiontimestamp") then
    match v with
    | JNull => inr (Meta name gen ns self uid ver num cre None grace labels annos owners fins clus)
    | _ =>
        match set_time E v with
        | Some t => inr (Meta name gen ns self uid ver num cre (Some t) grace labels annos owners fins clus)
        | None => inl (Meta name gen ns self uid ver num cre (Some (default None dele)) grace labels annos owners fins clus)
        end
    end
  else if str_eqb k (str "deletiongraceperiodseconds") then inr (Meta name gen ns self uid ver num cre dele (set_ptr 0%Z set_int grace v) labels annos owners fins clus)
  else if str_eqb k (str "labels") then inr (Meta name gen ns self uid ver num cre dele grace (set_map labels v) annos owners fins clus)
  else if str_eqb k (str "annotations") then inr (Meta name gen ns self uid ver num cre dele grace labels (set_map annos v) owners fins clus)
  else if str_eqb k (str "ownerreferences") then inr (Meta name gen ns self uid ver num cre dele grace labels annos (set_list zero_owner set_owner owners v) fins clus)
  else if str_eqb k (str "finalizers") then inr (Meta name gen ns self uid ver num cre dele grace labels annos owners (set_list [] set_str fins v) clus)
  else if str_eqb k (str "clustername") then inr (Meta name gen ns self uid ver num cre dele grace labels annos owners fins (set_str clus v))
  else inr m.
Fixpoint set_fields (E : jenv) (m : meta) (l : list (gostr * json)) : meta :=
  match l with
  | [] => m
  | kv :: l' => match set_meta_field E m kv with inl m' => m' | inr m' => set_fields E m' l' end
  end.
(** json.Unmarshal(s, &o.ObjectMeta) into a zero ObjectMeta, error ignored (watcher.go:63). *)
Definition decode_meta (E : jenv) (s : gostr) : meta :=
  match json_parse s with
  | Some (JObj l) => set_fields E zero_meta l
  | _ => zero_meta
  end.

(** ** ObjType (watcher.go:46-50) *)
Record objtype := ObjType { t_api : gostr; t_kind : gostr; t_meta : meta; t_data : list (gostr * json) }.
(** v.(string) of a member that may be absent. *)
Definition str_member (k : gostr) (m : list (gostr * json)) : result gostr :=
  match get k m with None => Ok [] | Some (JStr s) => Ok s | Some _ => Panics end.
(** UnmarshalJSON into a zero ObjType (watcher.go:52-70). *)
Definition decode_obj (E : jenv) (s : gostr) : result objtype :=
  let m := decode_map E s in
  match str_member (str "apiVersion") m with
  | Panics => Panics
  | Ok api =>
      match str_member (str "kind") m with
      | Panics => Panics
      | Ok kind =>
          let me := match get (str "metadata") m with
                    | Some v => decode_meta E (json_text v)
                    | None => zero_meta
                    end in
          Ok (ObjType api kind me (del (str "metadata") (del (str "kind") (del (str "apiVersion") m))))
      end
  end.
(** 74-80: the struct of type and metadata; metadata is a struct and so never omitted. *)
Definition head_json (o : objtype) : json :=
  JObj (members [(str "kind", ne_str (t_kind o)); (str "apiVersion", ne_str (t_api o)); (str "metadata", Some (meta_json (t_meta o)))]).
(** MarshalJSON (watcher.go:72-94).  The data of an object that was never decoded is nil and prints as
    null; that is the same answer as for the empty map. *)
Definition encode_obj (o : objtype) : gostr :=
  let bsm := json_text (JObj (t_data o)) in
  let bso := json_text (head_json o) in
  if str_eqb bsm (str "{}") || str_eqb bsm (str "null") then bso
  else if str_eqb bso (str "{}") then bsm
  else removelast bsm ++ str "," ++ drop 1 bso.
