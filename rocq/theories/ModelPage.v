(** page/page.go: pagination parameters and the search language. *)
From Coq Require Import Ascii String NArith ZArith.
From stdpp Require Import base gmap strings list.
From Verif Require Import ModelStr ModelSort ModelLabels.

(** common/constants/ckube.go *)
Definition paginate_key : gostr := str "ckube.daocloud.io/query".
Definition adv_prefix : gostr := str "__ckube_as__:".
Definition sep : ascii := ";"%char.
Definition cluster_prefix : gostr := str "dsm-cluster-".

(** page.go:17-23 *)
Record paginate := Paginate {
  pg_page : Z; pg_size : Z; pg_total : Z; pg_sort : gostr; pg_search : gostr }.
Definition set_search (p : paginate) (s : gostr) : paginate :=
  Paginate (pg_page p) (pg_size p) (pg_total p) (pg_sort p) s.

(** page.go:38-51, the scanning loop: [cur] is the reversed text since [start], [s] the rest.
    The loop stops one byte before the end (i < l-1), so a last lone separator is not split. *)
Fixpoint raw_parts (cur s : gostr) : list gostr :=
  match s with
  | [] => [reverse cur]
  | c :: s' =>
      match s' with
      | [] => [reverse (c :: cur)]
      | d :: s'' =>
          if ch_eqb c sep then
            if ch_eqb d sep then raw_parts (d :: c :: cur) s''
            else reverse cur :: raw_parts [] s'
          else raw_parts (c :: cur) s'
      end
  end.
(** page.go:35-37 *)
Definition trim_part (s : gostr) : gostr := replace_all s (str ";;") (str ";").
(** page.go:30-59 SearchParts *)
Definition search_parts (search : gostr) : list gostr :=
  List.filter (fun p => negb (str_eqb p [])) (map trim_part (raw_parts [] search)).

(** page.go:179-188 SetSearchWithParts; the new search string. *)
Definition join_parts (parts : list gostr) : gostr :=
  join (str ";") (map (fun p => replace_all p (str ";") (str ";;")) parts).

(** page.go:61-66 *)
Definition parse_value (v : gostr) : gostr * bool :=
  match v with c :: v' => if ch_eqb c "!"%char then (v', true) else (v, false) | [] => ([], false) end.

Section matching.
  Context (uprint : N -> bool).

  (** page.go:126-138: the fuzzy loop, over the entries of the index in iteration order. *)
  Fixpoint fuzzy (value : gostr) (rev : bool) (vs : list gostr) : bool :=
    match vs with
    | [] => rev
    | v :: vs' => if contains (quote uprint v) value then negb rev else fuzzy value rev vs'
    end.
  (** page.go:82-138: Match for exactly one part; [None] is an error.  [vals] are the index values
      in the order of the range loop. *)
  Definition match_one_from (m : gmap gostr gostr) (vals : list gostr) (part : gostr) : option bool :=
    let search := trim_space part in
    if str_eqb search [] then Some true
    else if has_prefix adv_prefix search then
      let sel := drop (length adv_prefix) search in
      if str_eqb sel [] then None
      else match parse_to_label_selector sel with
           | None => None
           | Some ls => match as_selector ls with
                        | None => None
                        | Some rs => Some (match_reqs rs m)
                        end
           end
    else
      let '(key, value) :=
        match index_of (str "=") search with
        | None => ([], search)
        | Some i => (take i search, drop (S i) search)
        end in
      let '(value, rev) := parse_value value in
      if str_eqb key [] then Some (fuzzy value rev vals)
      else match m !! key with
           | None => None
           | Some v => Some (xorb rev (contains (quote uprint v) value))
           end.
  Definition match_one (m : gmap gostr gostr) (part : gostr) : option bool :=
    match_one_from m (map snd (map_to_list m)) part.
  (** page.go:70-80: the conjunction loop, [n] parts matched so far. *)
  Fixpoint match_loop (m : gmap gostr gostr) (n : nat) (parts : list gostr) : option nat :=
    match parts with
    | [] => Some n
    | p :: ps => match match_one m p with
                 | None => None
                 | Some r => match_loop m (if r then S n else n) ps
                 end
    end.
  (** page.go:68-139 Match. *)
  Definition match_parts (m : gmap gostr gostr) (parts : list gostr) : option bool :=
    match parts with
    | [p] => match_one m p
    | _ => match match_loop m 0 parts with
           | None => None
           | Some n => Some (Nat.eqb n (length parts))
           end
    end.
  (** page.go:25-28 *)
  Definition paginate_match (search : gostr) (m : gmap gostr gostr) : option bool :=
    match_parts m (search_parts search).
End matching.

(** page.go:141-161 SearchSelector; [None] is an error. *)
Fixpoint first_adv (parts : list gostr) : gostr :=
  match parts with
  | [] => []
  | p :: ps => if has_prefix adv_prefix p then p else first_adv ps
  end.
Definition search_selector (search : gostr) : option lsel :=
  let part := first_adv (search_parts search) in
  if str_eqb part [] then Some empty_sel
  else match drop (length adv_prefix) part with
       | [] => Some empty_sel
       | sel => parse_to_label_selector sel
       end.

(** page.go:163-177 SetSearchSelector. *)
Definition set_search_selector (p : paginate) (ls : lsel) : option paginate :=
  match format_selector ls with
  | None => None
  | Some s =>
      Some (set_search p (join_parts ((adv_prefix ++ s) ::
        List.filter (fun part => negb (has_prefix adv_prefix part)) (search_parts (pg_search p)))))
  end.

(** page.go:195-209 and 222-236: put a requirement "key in (vals)" first and drop the other
    expressions on the key. *)
Definition restrict (key : gostr) (vals : list gostr) (ls : lsel) : lsel :=
  LSel (mlabels ls)
       (LReq key LIn vals :: List.filter (fun r => negb (str_eqb (lkey r) key)) (mexprs ls)).
(** page.go:190-210 Namespaces: the error, and the Paginate after the call. *)
Definition set_namespaces (p : paginate) (nss : list gostr) : bool * paginate :=
  match search_selector (pg_search p) with
  | None => (true, p)
  | Some ls =>
      match set_search_selector p (restrict (str "namespace") nss ls) with
      | None => (true, p)
      | Some p' => (false, p')
      end
  end.
(** page.go:212-237 Clusters. *)
Definition set_clusters (p : paginate) (css : list gostr) : bool * paginate :=
  match search_selector (pg_search p) with
  | None => (true, p)
  | Some ls =>
      if existsb (fun c => str_eqb c []) css then (true, p)
      else match set_search_selector p (restrict (str "cluster") css ls) with
           | None => (true, p)
           | Some p' => (false, p')
           end
  end.
(** page.go:239-254 GetClusters. *)
Fixpoint first_expr (key : gostr) (es : list lreq) : list gostr :=
  match es with
  | [] => []
  | e :: es' => if str_eqb (lkey e) key then lvals e else first_expr key es'
  end.
Definition get_clusters (search : gostr) : list gostr :=
  match search_selector search with
  | None => []
  | Some ls => first_expr (str "cluster") (mexprs ls)
  end.
