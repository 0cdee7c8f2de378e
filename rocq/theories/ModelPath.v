(** Index expressions: store/memory/memory.go:354-391 with utils/utils.go:5-10, for the jsonpath expressions
    that the configurations in /repo use (config/example.json, README.md, store/memory/memory_test.go):
    text, fields and [*].  The jsonpath package of client-go 0.21 is not in /repo; this is its behaviour for
    these expressions.  Every other expression (ranges, filters, indices, unions, recursion, functions, and
    all Go templates, for which see ModelTmpl) is left to [e_eval]. *)
From Coq Require Import Ascii String NArith ZArith.
From stdpp Require Import base gmap strings list.
From Verif Require Import ModelStr ModelSort ModelLabels ModelPage ModelJson ModelJsonText ModelQuery ModelStore ModelUrl ModelProxy ModelObjType.

(** jsonpath/node.go: a field, and an array selection without bounds. *)
Inductive step := SField (f : gostr) | SAll.
Inductive part := PText (t : gostr) | PPath (l : list step).

(** ** jsonpath/parser.go *)
(** A rune of a name that is neither escaped nor a terminator; a rune below ! or above ~ is not modelled. *)
Definition name_char (c : ascii) : bool :=
  let n := N_of_ascii c in
  (33 <=? n)%N && (n <=? 126)%N &&
  negb (existsb (ch_eqb c) [".";",";"[";"]";"$";"@";"{";"}";"\"]%char).
(** What a backslash may precede here. *)
Definition escapable (c : ascii) : bool := existsb (ch_eqb c) [".";",";"[";"]";"$";"@"]%char.
Definition cons_text (t : gostr) (l : list part) : list part := match t with [] => l | _ => PText t :: l end.
(** Where the parser is: in text, after a step of an action, or in a name; what was read is reversed. *)
Inductive pstate := InText (t : gostr) | InAction (l : list step) | InName (l : list step) (n : gostr).
(** A name ends; the name * is a wildcard, which is not modelled. *)
Definition end_name (l : list step) (n : gostr) : option (list step) :=
  match n with
  | [] => None
  | _ => if str_eqb n (str "*") then None else Some (SField (rev n) :: l)
  end.
(** parseText, parseLeftDelim, parseInsideAction, parseField, parseArray, parseRightDelim. *)
Fixpoint jp_go (st : pstate) (s : gostr) : option (list part) :=
  match s with
  | [] => match st with InText t => Some (cons_text (rev t) []) | _ => None end
  | c :: s' =>
      match st with
      | InText t =>
          if ch_eqb c "{"%char then cons_text (rev t) <$> jp_go (InAction []) s' else jp_go (InText (c :: t)) s'
      | InAction l =>
          if ch_eqb c "."%char then jp_go (InName l []) s'
          else if ch_eqb c "["%char then
            match s' with
            | c1 :: c2 :: s'' => if ch_eqb c1 "*"%char && ch_eqb c2 "]"%char then jp_go (InAction (SAll :: l)) s'' else None
            | _ => None
            end
          else if ch_eqb c "}"%char then
            match l with [] => None | _ => cons (PPath (rev l)) <$> jp_go (InText []) s' end
          else None
      | InName l n =>
          if ch_eqb c "\"%char then
            match s' with
            | c1 :: s'' => if escapable c1 then jp_go (InName l (c1 :: n)) s'' else None
            | [] => None
            end
          else if name_char c then jp_go (InName l (c :: n)) s'
          else
            match end_name l n with
            | None => None
            | Some l' =>
                if ch_eqb c "."%char then jp_go (InName l' []) s'
                else if ch_eqb c "["%char then
                  match s' with
                  | c1 :: c2 :: s'' => if ch_eqb c1 "*"%char && ch_eqb c2 "]"%char then jp_go (InAction (SAll :: l')) s'' else None
                  | _ => None
                  end
                else if ch_eqb c "}"%char then cons (PPath (rev l')) <$> jp_go (InText []) s'
                else None
            end
      end
  end.
(** jp.Parse(v) (memory.go:377). *)
Definition jp_parse (s : gostr) : option (list part) := jp_go (InText []) s.

(** ** Printing a value *)
(** Digits without the zeros at the end. *)
Fixpoint drop_zeros (ds : gostr) : gostr :=
  match ds with
  | [] => []
  | c :: r => match drop_zeros r with [] => if ch_eqb c "0"%char then [] else [c] | r' => c :: r' end
  end.
(** fmt.Fprint of the float64 [n], an integer of at most 53 bits: %v is %g with the fewest digits, which is
    the exponent form from 10^6 on (strconv/ftoa.go %e: at least two digits of exponent). *)
Definition fmt_nat (n : N) : gostr :=
  let ds := itoa_N n in
  if (n <? 1000000)%N then ds
  else
    let x := length ds - 1 in
    match drop_zeros ds with
    | [] => []
    | d :: r => d :: (match r with [] => [] | _ => "."%char :: r end)
                  ++ str "e+" ++ (if x <? 10 then str "0" else []) ++ itoa_N (N.of_nat x)
    end.
Definition fmt_int (z : Z) : gostr := (if (z <? 0)%Z then str "-" else []) ++ fmt_nat (Z.abs_N z).
(** What is not modelled: fmt.Fprint of other numbers (given as the text of json.Marshal), and what is
    printed for nil. *)
Record jpenv := JpEnv { jp_num : gostr -> gostr; jp_null : gostr }.
Definition num_text (P : jpenv) (l : gostr) : gostr :=
  match parse_int l with
  | Some z => if str_eqb (itoa z) l && (Z.abs z <=? 2 ^ 53)%Z then fmt_int z else jp_num P l
  | None => jp_num P l
  end.
(** jsonpath.go PrintResults and evalToText: maps and slices are printed by json.Marshal. *)
Definition value_text (P : jpenv) (v : json) : gostr :=
  match v with
  | JStr s => s
  | JBool b => if b then str "true" else str "false"
  | JNum l => num_text P l
  | JNull => jp_null P
  | JArr _ | JObj _ => json_text v
  end.

(** ** jsonpath.go FindResults *)
(** evalField with AllowMissingKeys: what is not a map, or lacks the field, gives nothing. *)
Definition field_of (f : gostr) (v : json) : list json :=
  match v with JObj l => match get f l with Some w => [w] | None => [] end | _ => [] end.
(** evalArray: nil is skipped; what is not a slice is an error. *)
Definition items_of (v : json) : option (list json) :=
  match v with JArr l => Some l | JNull => Some [] | _ => None end.
Fixpoint find_path (l : list step) (vs : list json) : option (list json) :=
  match l with
  | [] => Some vs
  | SField f :: l' => find_path l' (mjoin (map (field_of f) vs))
  | SAll :: l' => match mapM items_of vs with Some vss => find_path l' (mjoin vss) | None => None end
  end.
Definition find_part (P : jpenv) (root : json) (p : part) : option gostr :=
  match p with
  | PText t => Some t
  | PPath l => (fun vs => join (str " ") (map (value_text P) vs)) <$> find_path l [root]
  end.
(** Execute: all results are found before the first is printed, so an error leaves the buffer empty
    (memory.go:385-390). *)
Definition jp_exec (P : jpenv) (ps : list part) (root : json) : gostr :=
  match mapM (find_part P root) ps with Some ts => mjoin ts | None => [] end.

(** utils.go:5-10, of an object whose JSON is [j]; what is not a JSON object leaves the map empty. *)
Definition json_map (JE : jenv) (j : json) : json := match iface JE j with JObj l => JObj l | _ => JObj [] end.
(** memory.go:359, 369-390 *)
Definition path_eval (JE : jenv) (P : jpenv) (base : gostr -> obj -> gostr) (expr : gostr) (o : obj) : gostr :=
  match o with
  | OKube k =>
      if contains expr (str "{{") then base expr o
      else match jp_parse expr with
           | Some ps => jp_exec P ps (json_map JE (k_data k))
           | None => base expr o
           end
  | ORaw _ => base expr o
  end.
Definition path_env (JE : jenv) (P : jpenv) (E : env) : env :=
  Env (e_print E) (path_eval JE P (e_eval E)) (e_num E) (e_parse E) (e_lt E) (e_eq E).
