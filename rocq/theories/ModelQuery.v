(** Sending a Paginate in list options and reading it on the server. *)
From Coq Require Import Ascii String NArith ZArith.
From stdpp Require Import base gmap strings list.
From Verif Require Import ModelStr ModelSort ModelLabels ModelPage ModelJson.

(** page.go:310-319: the query as a "notin" requirement, first; other expressions on the key dropped. *)
Definition add_query (q : gostr) (ls : lsel) : lsel :=
  LSel (mlabels ls)
       (LReq paginate_key LNotIn (splitting_value q)
          :: List.filter (fun e => negb (str_eqb (lkey e) paginate_key)) (mexprs ls)).
(** page.go:296-327 QueryListOptions.  Only LabelSelector changes, so the options are that string;
    [None] is an error (the options are then returned unchanged). *)
Definition query_list_options (sel : gostr) (p : paginate) : option gostr :=
  let bs := marshal_page p in
  if str_eqb bs (str "{}") then Some sel
  else match parse_to_label_selector sel with
       | None => None
       | Some ls => format_selector (add_query (b64_encode bs) ls)
       end.

(** api/proxy.go:147-160: the loop over the expressions: the query text ([cur] so far) and the
    expressions kept. *)
Fixpoint take_query (cur : gostr) (es : list lreq) : option (gostr * list lreq) :=
  match es with
  | [] => Some (cur, [])
  | e :: es' =>
      if str_eqb (lkey e) paginate_key then
        match lvals e with
        | [] => take_query cur es'
        | vs => match merge_values vs with
                | None => None
                | Some q => take_query q es'
                end
        end
      else match take_query cur es' with
           | None => None
           | Some (q, l) => Some (q, e :: l)
           end
  end.
(** api/proxy.go:138-163 *)
Definition extract_query (ls : lsel) : option (gostr * lsel) :=
  match mlabels ls !! paginate_key with
  | Some q => Some (q, LSel (delete paginate_key (mlabels ls)) (mexprs ls))
  | None => match take_query [] (mexprs ls) with
            | None => None
            | Some (q, es) => Some (q, LSel (mlabels ls) es)
            end
  end.
(** api/proxy.go:164-171 *)
Definition decode_query (q : gostr) : option paginate :=
  match q with
  | [] => Some zero_page
  | _ => match b64_decode q with None => None | Some bs => Some (unmarshal_page bs) end
  end.
(** api/proxy.go:130-176: the label selector part of parsePaginateAndLabelsAndClean: the Paginate and
    the remaining selector ([None] for a nil *LabelSelector); [None] is an error. *)
Definition parse_list_selector (sel : gostr) : option (paginate * option lsel) :=
  match sel with
  | [] => Some (zero_page, None)
  | _ => match parse_to_label_selector sel with
         | None => None
         | Some ls =>
           match extract_query ls with
           | None => None
           | Some (q, ls') => match decode_query q with
                              | None => None
                              | Some p => Some (p, Some ls')
                              end
           end
         end
  end.
(** api/proxy.go:172-175: the label selector left in the query string. *)
Definition format_text (ls : lsel) : gostr :=
  match format_selector ls with Some s => s | None => str "<error>" end.
Definition is_empty_sel (ls : lsel) : bool :=
  bool_decide (mlabels ls = ∅) && match mexprs ls with [] => true | _ => false end.
Definition clean_selector (sel : gostr) (labels : option lsel) : gostr :=
  match labels with
  | Some ls => if is_empty_sel ls then sel else format_text ls
  | None => sel
  end.
