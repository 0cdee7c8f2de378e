(** watcher/watcher.go:114-132, 150-176 and server/server.go:124-129: from the events of a watch to cached objects, and
    from cached objects to the bytes of a reply.  The decoding is that of client-go and apimachinery 0.21
    (codec_factory.go, json.go, streamwatcher.go), which are not in /repo and are modelled from their sources. *)
From Coq Require Import Ascii String NArith ZArith.
From stdpp Require Import base gmap strings list.
From Verif Require Import ModelStr ModelLabels ModelJson ModelJsonText ModelStore ModelProxy ModelObjType ModelFake ModelWatcher.

(** Group, version and kind. *)
Notation gvk := (gostr * gostr * gostr)%type.
(** schema.ParseGroupVersion *)
Definition parse_gv (s : gostr) : option (gostr * gostr) :=
  if str_eqb s [] || str_eqb s (str "/") then Some ([], [])
  else match split_on "/"%char s with
       | [v] => Some ([], v)
       | [g; v] => Some (g, v)
       | _ => None
       end.
(** SimpleMetaFactory.Interpret: json.Unmarshal into a struct with the strings apiVersion and kind; a member of
    another type is an error, null changes nothing. *)
Definition type_field (acc : option (gostr * gostr)) (kv : gostr * json) : option (gostr * gostr) :=
  match acc with
  | None => None
  | Some (api, kind) =>
      let k := fold_key2 kv.1 in
      if str_eqb k (str "apiversion") then match kv.2 with JStr s => Some (s, kind) | JNull => acc | _ => None end
      else if str_eqb k (str "kind") then match kv.2 with JStr s => Some (api, s) | JNull => acc | _ => None end
      else acc
  end.
Definition interpret (s : gostr) : option gvk :=
  match json_parse s with
  | Some (JObj l) =>
      match fold_left type_field l (Some ([], [])) with
      | Some (api, kind) => (fun gv => (gv.1, gv.2, kind)) <$> parse_gv api
      | None => None
      end
  | Some JNull => Some ([], [], [])
  | _ => None
  end.

(** The types that client-go's scheme has from the start, and the decoding of a text into the Go struct of
    such a type, given as its metadata and its other members; [None] is an error. *)
Record codec := Codec { cd_known : gvk -> bool; cd_typed : gvk -> gostr -> option objtype }.
(** watcher.go:115-119 *)
Definition watch_gvk (proxies : list (gvr * gostr)) (g : gvr) : gvk := (g.1.1, g.1.2, watch_kind proxies g).
(** watcher.go:124-128: the kinds registered for ObjType.  AddKnownTypeWithName panics without a version; a
    kind that is already registered is not registered again. *)
Definition register (cd : codec) (reg : gset gvk) (proxies : list (gvr * gostr)) (g : gvr) : result (gset gvk) :=
  let k := watch_gvk proxies g in
  if cd_known cd k || bool_decide (k ∈ reg) then Ok reg
  else match g.1.2 with [] => Panics | _ => Ok ({[k]} ∪ reg) end.
(** The scheme is a variable of the process: what the goroutines of all watchers so far have registered.  Each
    has the configured kinds (common.GetGVRKind) at its start. *)
Fixpoint registered (cd : codec) (reg : gset gvk) (started : list (list (gvr * gostr) * gvr)) : result (gset gvk) :=
  match started with
  | [] => Ok reg
  | (px, g) :: rest => match register cd reg px g with Ok reg' => registered cd reg' rest | Panics => Panics end
  end.

(** The result of decoding an object. *)
Inductive decoded := DObj (o : objtype) | DError | DPanic.
(** WithoutVersionDecoder empties apiVersion and kind of what was decoded (the codec of
    scheme.Codecs.WithoutConversion, watcher.go:136).  ObjType.GetObjectKind has a value receiver (96-98) and
    returns a copy, so an ObjType keeps them. *)
Definition clear_type (o : objtype) : objtype := ObjType [] [] (t_meta o) (t_data o).
(** json.Serializer.Decode without defaults and target: kind and version must be there and registered. *)
Definition decode_any (JE : jenv) (cd : codec) (reg : gset gvk) (s : gostr) : decoded :=
  match interpret s with
  | None => DError
  | Some (g, v, k) =>
      match k, v with
      | [], _ | _, [] => DError
      | _, _ =>
          if cd_known cd (g, v, k) then
            match cd_typed cd (g, v, k) s with Some o => DObj (clear_type o) | None => DError end
          else if bool_decide ((g, v, k) ∈ reg) then
            match decode_obj JE s with Ok o => DObj o | Panics => DPanic end
          else DError
      end
  end.

(** One event of the stream: its type, the text of its object and what is registered when it is decoded.  How
    the bytes are split into events is not modelled. *)
Record raw_event := Raw { re_reg : gset gvk; re_type : gostr; re_text : gostr }.
(** rest/watch/decoder.go: any other type is an error.  Errors and bookmarks are alike here. *)
Definition watch_type (t : gostr) : option ev_type :=
  if str_eqb t (str "ADDED") then Some EvAdded
  else if str_eqb t (str "MODIFIED") then Some EvModified
  else if str_eqb t (str "DELETED") then Some EvDeleted
  else if str_eqb t (str "BOOKMARK") || str_eqb t (str "ERROR") then Some EvOther
  else None.
(** StreamWatcher.receive: what ResultChan gives for a stream that ends after these events.  An event that
    cannot be decoded becomes an error event (whose object is never used) and ends the stream.  [true] is a
    panic, which ends the process. *)
Definition undecodable : list item := [IEvent EvOther (ORaw JNull); IClosed].
Fixpoint deliver (JE : jenv) (cd : codec) (evs : list raw_event) : list item * bool :=
  match evs with
  | [] => ([IClosed], false)
  | e :: evs' =>
      match watch_type (re_type e), decode_any JE cd (re_reg e) (re_text e) with
      | None, _ | _, DError => (undecodable, false)
      | Some _, DPanic => ([], true)
      | Some t, DObj o => let '(l, b) := deliver JE cd evs' in (IEvent t (to_obj o) :: l, b)
      end
  end.

(** ** The text of a cached object.  The store keeps the pointer it was given and has changed only the
    annotations (memory.go:405-422). *)
Definition put_annos (x : obj) (a : gmap gostr gostr) : obj :=
  match x with
  | OKube k => OKube (KObj (k_ns k) (k_name k) (k_deleted k) a (k_labels k) (k_owners k) (k_data k))
  | ORaw j => ORaw j
  end.
(** json.Marshal of a pointer to an ObjType: MarshalJSON (watcher.go:72-94); its text is compact already. *)
Inductive prints : obj -> gostr -> Prop :=
| prints_generic o a : prints (put_annos (to_obj o) a) (encode_obj (with_annos o a)).
(** json.Marshal of the Go struct of a known type: type and metadata come first. *)
Inductive prints_typed : obj -> gostr -> Prop :=
| prints_struct o a : prints_typed (put_annos (to_obj o) a)
    (json_text (JObj (match head_json (with_annos o a) with JObj l => l | _ => [] end ++ t_data o))).
(** proxy.go:328-336: the map that is answered to a list, its keys in sorted order; the slice of no items is
    nil. *)
Definition list_text (api kind path : gostr) (remain : Z) (items : list gostr) : gostr :=
  str "{""apiVersion"":" ++ json_str api ++
  str ",""items"":" ++ match items with [] => str "null" | _ => str "[" ++ join (str ",") items ++ str "]" end ++
  str ",""kind"":" ++ json_str kind ++
  str ",""metadata"":{""remainingItemCount"":" ++ itoa remain ++ str ",""selfLink"":" ++ json_str path ++ str "}}".
