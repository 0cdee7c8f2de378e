(** Kubernetes label selectors (k8s.io/apimachinery v0.21.0, pkg/labels/selector.go,
    pkg/util/validation, pkg/apis/meta/v1/helpers.go; see /repo/go.mod) and kube/label.go.
    The Kubernetes sources are not in /repo; they are modelled from version 0.21. *)
From Coq Require Import Ascii String NArith ZArith.
From stdpp Require Import base gmap strings list.
From Verif Require Import ModelStr ModelSort.

(** ** Lexer (selector.go: Lexer) *)
Inductive token :=
  TEnd | TClosed | TComma | TNot | TDEq | TEq | TGt | TId | TIn | TLt | TNe | TNotIn | TOpen.
Definition item : Type := token * gostr.

Definition is_ws (c : ascii) : bool :=
  ((code c =? 32) || (code c =? 9) || (code c =? 13) || (code c =? 10))%N.
Definition is_nul (c : ascii) : bool := (code c =? 0)%N.
(** Token of a single special symbol: = ! ( ) , > <. *)
Definition special1 (c : ascii) : option token :=
  if ch_eqb c "="%char then Some TEq else if ch_eqb c "!"%char then Some TNot
  else if ch_eqb c "("%char then Some TOpen else if ch_eqb c ")"%char then Some TClosed
  else if ch_eqb c ","%char then Some TComma else if ch_eqb c ">"%char then Some TGt
  else if ch_eqb c "<"%char then Some TLt else None.
Definition special2 (c d : ascii) : option token :=
  if ch_eqb d "="%char then
    if ch_eqb c "="%char then Some TDEq else if ch_eqb c "!"%char then Some TNe else None
  else None.
Definition is_special (c : ascii) : bool :=
  match special1 c with Some _ => true | None => false end.
(** read() returns 0 both at the end and for a NUL byte; a NUL byte inside a token ends it and is
    consumed. *)
Definition drop_nul (s : gostr) : gostr :=
  match s with c :: s' => if is_nul c then s' else s | [] => [] end.
(** scanSpecialSymbol, with the first symbol [c] already read.  Every single symbol is a token, so
    the error token cannot arise. *)
Definition scan_special (c : ascii) (t : token) (s : gostr) : item * gostr :=
  match s with
  | d :: s' => match special2 c d with
               | Some t2 => ((t2, [c; d]), drop_nul s')
               | None => ((t, [c]), drop_nul s)
               end
  | [] => ((t, [c]), [])
  end.
(** scanIDOrKeyword. *)
Fixpoint scan_ident (s : gostr) : gostr * gostr :=
  match s with
  | [] => ([], [])
  | c :: s' =>
      if is_nul c then ([], s')
      else if is_special c || is_ws c then ([], s)
      else let '(b, r) := scan_ident s' in (c :: b, r)
  end.
Definition keyword (s : gostr) : token :=
  if str_eqb s (str "in") then TIn else if str_eqb s (str "notin") then TNotIn else TId.
Fixpoint skip_ws (s : gostr) : gostr :=
  match s with c :: s' => if is_ws c then skip_ws s' else s | [] => [] end.
(** Parser.scan: all tokens up to and including the end token. *)
Fixpoint lex (fuel : nat) (s : gostr) : list item :=
  match fuel with
  | O => [(TEnd, [])]
  | S f =>
      match skip_ws s with
      | [] => [(TEnd, [])]
      | c :: s' =>
          if is_nul c then [(TEnd, [])]
          else match special1 c with
               | Some t => let '(it, r) := scan_special c t s' in it :: lex f r
               | None => let '(b, r) := scan_ident (c :: s') in (keyword b, b) :: lex f r
               end
      end
  end.
Definition lex_all (s : gostr) : list item := lex (S (length s)) s.

(** ** Validation (util/validation: IsQualifiedName, IsDNS1123Subdomain, IsValidLabelValue) *)
Definition between (lo hi : N) (c : ascii) : bool := ((lo <=? code c) && (code c <=? hi))%N.
Definition is_digit (c : ascii) : bool := between 48 57 c.
Definition is_lower (c : ascii) : bool := between 97 122 c.
Definition is_upper (c : ascii) : bool := between 65 90 c.
Definition is_alnum (c : ascii) : bool := is_digit c || is_lower c || is_upper c.
(** [-A-Za-z0-9_.] *)
Definition is_ext (c : ascii) : bool :=
  is_alnum c || ch_eqb c "-"%char || ch_eqb c "_"%char || ch_eqb c "."%char.
Definition last_is (p : ascii -> bool) (s : gostr) : bool :=
  match last s with Some c => p c | None => false end.
Definition head_is (p : ascii -> bool) (s : gostr) : bool :=
  match s with c :: _ => p c | [] => false end.
(** ^([A-Za-z0-9][-A-Za-z0-9_.]* )?[A-Za-z0-9]$ *)
Definition qname_re (s : gostr) : bool :=
  head_is is_alnum s && last_is is_alnum s && forallb is_ext s.
Definition valid_value (s : gostr) : bool :=
  (length s <=? 63) && (match s with [] => true | _ => qname_re s end).
(** [a-z0-9]([-a-z0-9]*[a-z0-9])? between dots, at most 253 bytes. *)
Definition is_lowdig (c : ascii) : bool := is_digit c || is_lower c.
Definition dns_label (s : gostr) : bool :=
  head_is is_lowdig s && last_is is_lowdig s &&
  forallb (fun c => is_lowdig c || ch_eqb c "-"%char) s.
Definition dns1123 (s : gostr) : bool :=
  (length s <=? 253) && forallb dns_label (split_on "."%char s).
Definition valid_name (s : gostr) : bool := (length s <=? 63) && qname_re s.
Definition valid_key (s : gostr) : bool :=
  match split_on "/"%char s with
  | [name] => valid_name name
  | [prefix; name] => dns1123 prefix && valid_name name
  | _ => false
  end.

(** ** Requirements *)
Inductive selop := OIn | OEq | ODEq | OGt | OLt | ONotIn | ONe | OExists | ONotExists.
Global Instance selop_eq_dec : EqDecision selop.
Proof. solve_decision. Defined.
Record req := Req { rkey : gostr; rop : selop; rvals : list gostr }.

(** NewRequirement.  For > and < Kubernetes additionally requires an integer; ckube rejects both
    operators anyway (kube/label.go:78-80), so the check is left out. *)
Definition new_requirement (key : gostr) (op : selop) (vals : list gostr) : option req :=
  let arity := match op with
               | OIn | ONotIn => negb (Nat.eqb (length vals) 0)
               | OEq | ODEq | ONe | OGt | OLt => Nat.eqb (length vals) 1
               | OExists | ONotExists => Nat.eqb (length vals) 0
               end in
  if valid_key key && arity && forallb valid_value vals then Some (Req key op vals) else None.

(** sets.String.List(): sorted, without duplicates. *)
Definition set_list (l : list gostr) : list gostr := gosort str_ltb (remove_dups l).

(** ** Parser *)
(** The Values context turns the keywords in/notin into identifiers. *)
Definition vtok (t : token) : token := match t with TIn | TNotIn => TId | _ => t end.
(** lookahead: token at the current position. *)
Definition look (toks : list item) : token :=
  match toks with (t, _) :: _ => t | [] => TEnd end.
Definition is_tok (t u : token) : bool :=
  match t, u with
  | TEnd, TEnd | TClosed, TClosed | TComma, TComma | TNot, TNot | TDEq, TDEq | TEq, TEq
  | TGt, TGt | TId, TId | TIn, TIn | TLt, TLt | TNe, TNe | TNotIn, TNotIn | TOpen, TOpen => true
  | _, _ => false
  end.

(** parseIdentifiersList; the closing parenthesis is left in the input. *)
Fixpoint parse_idents (acc : list gostr) (toks : list item) : option (list gostr * list item) :=
  match toks with
  | [] => None
  | (t, lit) :: rest =>
      match vtok t with
      | TId => match look rest with
               | TComma => parse_idents (acc ++ [lit]) rest
               | TClosed => Some (acc ++ [lit], rest)
               | _ => None
               end
      | TComma =>
          let acc := match acc with [] => [[]] | _ => acc end in
          match rest with
          | (TClosed, _) :: _ => Some (acc ++ [[]], rest)
          | (TComma, _) :: rest' => parse_idents (acc ++ [[]]) rest'
          | _ => parse_idents acc rest
          end
      | _ => None
      end
  end.
(** parseValues. *)
Definition parse_values (toks : list item) : option (list gostr * list item) :=
  match toks with
  | (TOpen, _) :: rest =>
      match vtok (look rest) with
      | TId | TComma =>
          match parse_idents [] rest with
          | Some (vs, (TClosed, _) :: rest') => Some (vs, rest')
          | _ => None
          end
      | TClosed => Some ([[]], drop 1 rest)
      | _ => None
      end
  | _ => None
  end.
(** parseExactValue. *)
Definition parse_exact (toks : list item) : option (list gostr * list item) :=
  match look toks with
  | TEnd | TComma => Some ([[]], toks)
  | _ => match toks with
         | (t, lit) :: rest => match vtok t with TId => Some ([lit], rest) | _ => None end
         | [] => None
         end
  end.
(** parseOperator. *)
Definition parse_op (toks : list item) : option (selop * list item) :=
  match toks with
  | (t, _) :: rest =>
      match t with
      | TIn => Some (OIn, rest) | TEq => Some (OEq, rest) | TDEq => Some (ODEq, rest)
      | TGt => Some (OGt, rest) | TLt => Some (OLt, rest) | TNotIn => Some (ONotIn, rest)
      | TNe => Some (ONe, rest) | _ => None
      end
  | [] => None
  end.
(** parseRequirement with parseKeyAndInferOperator. *)
Definition parse_req (toks : list item) : option (req * list item) :=
  let '(neg, toks) := match toks with (TNot, _) :: r => (true, r) | _ => (false, toks) end in
  match toks with
  | (t, key) :: rest =>
      match vtok t with
      | TId =>
          if valid_key key then
            if neg then option_map (fun r => (r, rest)) (new_requirement key ONotExists [])
            else match look rest with
                 | TEnd | TComma => option_map (fun r => (r, rest)) (new_requirement key OExists [])
                 | _ =>
                     match parse_op rest with
                     | Some (op, rest) =>
                         match (match op with
                                | OIn | ONotIn => parse_values rest
                                | _ => parse_exact rest
                                end) with
                         | Some (vs, rest) =>
                             option_map (fun r => (r, rest)) (new_requirement key op (set_list vs))
                         | None => None
                         end
                     | None => None
                     end
                 end
          else None
      | _ => None
      end
  | [] => None
  end.
(** Parser.parse. *)
Fixpoint parse_reqs (fuel : nat) (toks : list item) : option (list req) :=
  match fuel with
  | O => None
  | S f =>
      match vtok (look toks) with
      | TId | TNot =>
          match parse_req toks with
          | Some (r, (t, _) :: rest) =>
              match t with
              | TEnd => Some [r]
              | TComma =>
                  match vtok (look rest) with
                  | TId | TNot => option_map (cons r) (parse_reqs f rest)
                  | _ => None
                  end
              | _ => None
              end
          | _ => None
          end
      | TEnd => Some []
      | _ => None
      end
  end.
Definition by_key (a b : req) : bool := str_ltb (rkey a) (rkey b).
(** ParseToRequirements: parse, then sort.Sort(ByKey(items)). *)
Definition parse_to_requirements (s : gostr) : option (list req) :=
  let toks := lex_all s in
  option_map (gosort by_key) (parse_reqs (S (length toks)) toks).

(** ** meta/v1 LabelSelector *)
Inductive lsop := LIn | LNotIn | LExists | LNotExists.
Global Instance lsop_eq_dec : EqDecision lsop.
Proof. solve_decision. Defined.
Record lreq := LReq { lkey : gostr; lop : lsop; lvals : list gostr }.
Global Instance lreq_eq_dec : EqDecision lreq.
Proof. solve_decision. Defined.
Record lsel := LSel { mlabels : gmap gostr gostr; mexprs : list lreq }.
Definition empty_sel : lsel := LSel ∅ [].

(** kube/label.go:56-89, the loop over the requirements.  Values().List() of a requirement sorts
    and removes duplicates; for = the only value is taken. *)
Fixpoint sel_of_reqs (ls : lsel) (rs : list req) : option lsel :=
  match rs with
  | [] => Some ls
  | r :: rs' =>
      let expr op := sel_of_reqs (LSel (mlabels ls) (mexprs ls ++ [LReq (rkey r) op (set_list (rvals r))])) rs' in
      match rop r with
      | OEq | ODEq =>
          match set_list (rvals r) with
          | [v] => sel_of_reqs (LSel (<[rkey r := v]> (mlabels ls)) (mexprs ls)) rs'
          | _ => None
          end
      | OIn => expr LIn
      | ONotIn | ONe => expr LNotIn
      | OExists => expr LExists
      | ONotExists => expr LNotExists
      | OGt | OLt => None
      end
  end.
(** kube/label.go:46-91 ParseToLabelSelector; the error text is not modelled. *)
Definition parse_to_label_selector (s : gostr) : option lsel :=
  match parse_to_requirements s with
  | Some rs => sel_of_reqs empty_sel rs
  | None => None
  end.

(** internalSelector.Add with one requirement. *)
Definition add_req (sel : list req) (r : req) : list req := gosort by_key (sel ++ [r]).
Definition op_of_lsop (o : lsop) : selop :=
  match o with LIn => OIn | LNotIn => ONotIn | LExists => OExists | LNotExists => ONotExists end.
Fixpoint add_all (sel : list req) (rs : list (option req)) : option (list req) :=
  match rs with
  | [] => Some sel
  | Some r :: rs' => add_all (add_req sel r) rs'
  | None :: _ => None
  end.
(** LabelSelectorAsSelector for a non-nil selector, with the order [ml] in which the range loop
    sees the entries of MatchLabels.  An empty selector gives Everything(), the empty list. *)
Definition as_selector_from (ml : list (gostr * gostr)) (me : list lreq) : option (list req) :=
  add_all [] (map (fun kv => new_requirement kv.1 OEq [kv.2]) ml ++
              map (fun e => new_requirement (lkey e) (op_of_lsop (lop e)) (lvals e)) me).
Definition as_selector (ls : lsel) : option (list req) :=
  as_selector_from (map_to_list (mlabels ls)) (mexprs ls).

(** Requirement.String(). *)
Definition fmt_vals (vs : list gostr) : gostr :=
  match vs with [v] => v | _ => join (str ",") (gosort str_ltb vs) end.
Definition fmt_req (r : req) : gostr :=
  match rop r with
  | ONotExists => str "!" ++ rkey r
  | OExists => rkey r
  | OIn => rkey r ++ str " in (" ++ fmt_vals (rvals r) ++ str ")"
  | ONotIn => rkey r ++ str " notin (" ++ fmt_vals (rvals r) ++ str ")"
  | OEq => rkey r ++ str "=" ++ fmt_vals (rvals r)
  | ODEq => rkey r ++ str "==" ++ fmt_vals (rvals r)
  | ONe => rkey r ++ str "!=" ++ fmt_vals (rvals r)
  | OGt => rkey r ++ str ">" ++ fmt_vals (rvals r)
  | OLt => rkey r ++ str "<" ++ fmt_vals (rvals r)
  end.
Definition fmt_reqs (rs : list req) : gostr := join (str ",") (map fmt_req rs).
(** FormatLabelSelector; [None] stands for "<error>". *)
Definition format_selector (ls : lsel) : option gostr :=
  match as_selector ls with
  | None => None
  | Some rs => Some (match fmt_reqs rs with [] => str "<none>" | s => s end)
  end.

(** Requirement.Matches and internalSelector.Matches on a label set. *)
Definition has_value (vs : list gostr) (v : gostr) : bool := existsb (str_eqb v) vs.
Definition match_req (m : gmap gostr gostr) (r : req) : bool :=
  match rop r with
  | OIn | OEq | ODEq => match m !! rkey r with Some v => has_value (rvals r) v | None => false end
  | ONotIn | ONe => match m !! rkey r with Some v => negb (has_value (rvals r) v) | None => true end
  | OExists => match m !! rkey r with Some _ => true | None => false end
  | ONotExists => match m !! rkey r with Some _ => false | None => true end
  | OGt | OLt => false (* unreachable, see new_requirement *)
  end.
Definition match_reqs (rs : list req) (m : gmap gostr gostr) : bool := forallb (match_req m) rs.

(** ** kube/label.go:12-44 *)
Definition each_part_len : nat := 56.
(** fmt.Sprintf("%04d.%s", i, part). *)
Definition split_part (i : nat) (part : gostr) : gostr := pad4 (N.of_nat i) ++ str "." ++ part.
(** kube/label.go:19-26, the loop from offset [i] with the remaining text. *)
Fixpoint split_parts (fuel i : nat) (rest : gostr) : list gostr :=
  match fuel with
  | O => []
  | S f =>
      if length rest <=? each_part_len then [split_part i rest]
      else split_part i (take each_part_len rest)
             :: split_parts f (i + each_part_len) (drop each_part_len rest)
  end.
(** kube/label.go:14-28 SplittingValue. *)
Definition splitting_value (v : gostr) : list gostr :=
  if length v <=? each_part_len then [v] else split_parts (length v) 0 v.
(** kube/label.go:36-42. *)
Fixpoint merge_parts (vs : list gostr) : option gostr :=
  match vs with
  | [] => Some []
  | v :: vs' =>
      match split_on "."%char v with
      | [_; p] => option_map (app p) (merge_parts vs')
      | _ => None
      end
  end.
(** kube/label.go:30-44 MergeValues. *)
Definition merge_values (vs : list gostr) : option gostr :=
  match vs with [v] => Some v | _ => merge_parts (gosort str_ltb vs) end.
