(** Index expressions that are Go templates: store/memory/memory.go:338-352, 365-390.  text/template of Go 1.19 is not
    in /repo; this is its behaviour for text, fields, string constants without escapes, the three functions of
    funMap, pipelines of these, and if, else, end.  Every other template (trim markers, comments, variables, range,
    with, other functions, numbers, parentheses, dot, methods, and what does not parse) is left to [base]. *)
From Coq Require Import Ascii String NArith ZArith.
From stdpp Require Import base gmap strings list.
From Verif Require Import ModelStr ModelSort ModelLabels ModelPage ModelJson ModelJsonText ModelQuery ModelStore ModelUrl ModelProxy ModelObjType ModelPath.

(** ** parse/node.go *)
Inductive fn := FDefault | FQuote | FJoin.
Inductive targ := TField (p : list gostr) | TConst (s : gostr).
Inductive tcmd := CArg (a : targ) | CCall (f : fn) (args : list targ).
(** PipeNode: the first command and the calls that follow. *)
Notation tpipe := (tcmd * list (fn * list targ))%type.
Inductive tnode := NText (t : gostr) | NPipe (p : tpipe) | NIf (p : tpipe) (yes no : list tnode).

(** ** parse/lex.go *)
Inductive tok := KField (p : list gostr) | KStr (s : gostr) | KWord (w : gostr) | KPipe.
Inductive titem := ItText (t : gostr) | ItAct (l : list tok).
Definition letter (c : ascii) : bool :=
  let n := N_of_ascii c in ((65 <=? n) && (n <=? 90) || (97 <=? n) && (n <=? 122) || (n =? 95))%N.
Definition alnum (c : ascii) : bool := letter c || is_digit c.
(** isSpace: space, tab, return and newline. *)
Definition tspace (c : ascii) : bool := existsb (N.eqb (N_of_ascii c)) [32; 9; 13; 10]%N.
(** A byte of a constant that stands for itself. *)
Definition plain_byte (c : ascii) : bool :=
  let n := N_of_ascii c in (n <? 128)%N && negb (existsb (N.eqb n) [34; 92; 10]%N).
(** Where the lexer is: in text; between the tokens of an action (with whether one may start here); in a field,
    a word or a constant.  What was read is reversed. *)
Inductive lstate :=
| LText (t : gostr)
| LGap (l : list tok) (may : bool)
| LField (l : list tok) (p : list gostr) (n : gostr)
| LWord (l : list tok) (n : gostr)
| LStr (l : list tok) (n : gostr).
Definition cons_item (t : gostr) (l : list titem) : list titem := match t with [] => l | _ => ItText t :: l end.
(** lexInsideAction: the character after a token, or between tokens.  [None] as the state is the end of the
    action; the outer [None] is what is not modelled. *)
Definition gap_step (l : list tok) (may : bool) (c : ascii) (next : option ascii) : option (option lstate) :=
  if tspace c then Some (Some (LGap l true))
  else if ch_eqb c "|" then Some (Some (LGap (KPipe :: l) true))
  else if ch_eqb c "}" then match next with Some d => if ch_eqb d "}" then Some None else None | None => None end
  else if may then
    if ch_eqb c "." then Some (Some (LField l [] []))
    else if N.eqb (N_of_ascii c) 34 then Some (Some (LStr l []))
    else if letter c then Some (Some (LWord l [c]))
    else None
  else None.
(** One character, with the one after it. *)
Definition lex_step (st : lstate) (c : ascii) (next : option ascii) : option (option lstate) :=
  match st with
  | LText t => Some (Some (LText (c :: t)))
  | LGap l may => gap_step l may c next
  | LField l p n =>
      if alnum c && (letter c || negb (str_eqb n [])) then Some (Some (LField l p (c :: n)))
      else match n with
           | [] => None
           | _ => if ch_eqb c "." then Some (Some (LField l (rev n :: p) []))
                  else gap_step (KField (rev (rev n :: p)) :: l) false c next
           end
  | LWord l n => if alnum c then Some (Some (LWord l (c :: n))) else gap_step (KWord (rev n) :: l) false c next
  | LStr l n =>
      if N.eqb (N_of_ascii c) 34 then Some (Some (LGap (KStr (rev n) :: l) false))
      else if plain_byte c then Some (Some (LStr l (c :: n))) else None
  end.
(** The tokens that are complete when the action ends in this state. *)
Definition toks_of (st : lstate) : list tok :=
  match st with
  | LText _ => []
  | LGap l _ => l
  | LField l p n => KField (rev (rev n :: p)) :: l
  | LWord l n => KWord (rev n) :: l
  | LStr l n => l
  end.
(** [skip] is set after the first of two braces. *)
Fixpoint lex (st : lstate) (skip : bool) (s : gostr) : option (list titem) :=
  match s with
  | [] => match st with LText t => Some (cons_item (rev t) []) | _ => None end
  | c :: s' =>
      if skip then lex st false s'
      else
        match st with
        | LText t =>
            if has_prefix (str "{{") s then cons_item (rev t) <$> lex (LGap [] true) true s' else lex (LText (c :: t)) false s'
        | _ =>
            match lex_step st c (hd_error s') with
            | None => None
            | Some None => cons (ItAct (rev (toks_of st))) <$> lex (LText []) true s'
            | Some (Some st') => lex st' false s'
            end
        end
  end.

(** ** parse/parse.go *)
Definition fn_of (w : gostr) : option fn :=
  if str_eqb w (str "default") then Some FDefault
  else if str_eqb w (str "quote") then Some FQuote
  else if str_eqb w (str "join") then Some FJoin else None.
Definition arg_of (k : tok) : option targ :=
  match k with KField p => Some (TField p) | KStr s => Some (TConst s) | _ => None end.
(** The commands between the pipes. *)
Fixpoint segments (cur : list tok) (l : list tok) : list (list tok) :=
  match l with
  | [] => [rev cur]
  | KPipe :: l' => rev cur :: segments [] l'
  | k :: l' => segments (k :: cur) l'
  end.
Definition call_of (l : list tok) : option (fn * list targ) :=
  match l with
  | KWord w :: args => match fn_of w, mapM arg_of args with Some f, Some a => Some (f, a) | _, _ => None end
  | _ => None
  end.
Definition cmd_of (l : list tok) : option tcmd :=
  match l with
  | [k] => match arg_of k with Some a => Some (CArg a) | None => (fun c => CCall c.1 c.2) <$> call_of l end
  | _ => (fun c => CCall c.1 c.2) <$> call_of l
  end.
Definition pipe_of (l : list tok) : option tpipe :=
  match segments [] l with
  | s :: rest => match cmd_of s, mapM call_of rest with Some c, Some cs => Some (c, cs) | _, _ => None end
  | [] => None
  end.
(** The open ifs: pipeline, the nodes before it (reversed), and the yes branch once else was seen. *)
Notation frame := (tpipe * list tnode * option (list tnode))%type.
Fixpoint parse_nodes (stack : list frame) (cur : list tnode) (l : list titem) : option (list tnode) :=
  match l with
  | [] => match stack with [] => Some (rev cur) | _ => None end
  | ItText t :: l' => parse_nodes stack (NText t :: cur) l'
  | ItAct ks :: l' =>
      match ks with
      | [KWord w] =>
          if str_eqb w (str "else") then
            match stack with (p, saved, None) :: st => parse_nodes ((p, saved, Some (rev cur)) :: st) [] l' | _ => None end
          else if str_eqb w (str "end") then
            match stack with
            | (p, saved, None) :: st => parse_nodes st (NIf p (rev cur) [] :: saved) l'
            | (p, saved, Some yes) :: st => parse_nodes st (NIf p yes (rev cur) :: saved) l'
            | [] => None
            end
          else match pipe_of ks with Some p => parse_nodes stack (NPipe p :: cur) l' | None => None end
      | KWord w :: ks' =>
          if str_eqb w (str "if") then
            match pipe_of ks' with Some p => parse_nodes ((p, cur, None) :: stack) [] l' | None => None end
          else match pipe_of ks with Some p => parse_nodes stack (NPipe p :: cur) l' | None => None end
      | _ => match pipe_of ks with Some p => parse_nodes stack (NPipe p :: cur) l' | None => None end
      end
  end.
(** gotmpl.Parse(v) (memory.go:371).  The template is shared by the keys of one object; a parsed text of this
    kind replaces what was there, as it has an action. *)
Definition tmpl_parse (s : gostr) : option (list tnode) :=
  match lex (LText []) false s with Some l => parse_nodes [] [] l | None => None end.

(** ** exec.go *)
(** A value: [None] for no value and for nil. *)
Notation tval := (option json).
(** evalField: nothing from nothing; a field of nil, or of what is not a map, is an error.  Here [None] is an
    error, [Some None] no value, [Some (Some JNull)] nil. *)
Definition tfield (v : option tval) (f : gostr) : option tval :=
  match v with
  | None => None
  | Some None => Some None
  | Some (Some (JObj l)) => Some (get f l)
  | Some (Some _) => None
  end.
Definition nonnull (v : tval) : tval := match v with Some JNull => None | _ => v end.
Definition eval_arg (root : json) (a : targ) : option tval :=
  match a with
  | TField p => nonnull <$> fold_left tfield p (Some (Some root))
  | TConst s => Some (Some (JStr s))
  end.
Section exec.
  Context (P : jpenv) (uprint : N -> bool).
  (** fmt (print.go badVerb): a verb that does not fit the type. *)
  Definition bad_verb (verb ty text : gostr) : gostr := str "%!" ++ verb ++ str "(" ++ ty ++ str "=" ++ text ++ str ")".
  (** fmt (print.go printValue) with a verb: strings by [qs], and %v only knows booleans and numbers. *)
  Fixpoint fmt_any (verb : gostr) (qs : gostr -> gostr) (v : json) : gostr :=
    match v with
    | JNull => str "<nil>"
    | JStr s => qs s
    | JBool _ => if str_eqb verb (str "v") then value_text P v else bad_verb verb (str "bool") (value_text P v)
    | JNum _ => if str_eqb verb (str "v") then value_text P v else bad_verb verb (str "float64") (value_text P v)
    | JArr l => str "[" ++ join (str " ") (map (fmt_any verb qs) l) ++ str "]"
    | JObj l => str "map[" ++ join (str " ") (map (fun kv => match kv with (k, w) => qs k ++ str ":" ++ fmt_any verb qs w end) l) ++ str "]"
    end.
  (** printValue (exec.go): fmt.Fprint. *)
  Definition tprint (v : tval) : gostr :=
    match v with None => str "<no value>" | Some j => fmt_any (str "v") (fun s => s) j end.
  (** memory.go:343 *)
  Definition sprint_s (j : json) : gostr := fmt_any (str "s") (fun s => s) j.
  (** memory.go:346; nil as the argument itself is a bad verb. *)
  Definition sprint_q (v : tval) : gostr :=
    match v with None => str "%!q(<nil>)" | Some j => fmt_any (str "q") (quote uprint) j end.
  (** validateType for a parameter of type string. *)
  Definition as_str (v : tval) : option gostr := match v with Some (JStr s) => Some s | _ => None end.
  (** evalCall of a function of funMap (memory.go:338-352); a wrong number or type of arguments is an error. *)
  Definition call (f : fn) (vs : list tval) : option gostr :=
    match f, vs with
    | FDefault, [d; p] => match as_str d with Some s => Some (match p with None => s | Some j => sprint_s j end) | None => None end
    | FQuote, [p] => Some (sprint_q p)
    | FJoin, sep :: ins => match as_str sep, mapM as_str ins with Some s, Some l => Some (join s l) | _, _ => None end
    | _, _ => None
    end.
  (** evalPipeline: the value of a command is the last argument of the next. *)
  Definition eval_call (root : json) (f : fn) (args : list targ) (final : list tval) : option tval :=
    match mapM (eval_arg root) args with
    | Some vs => (fun s => Some (JStr s)) <$> call f (vs ++ final)
    | None => None
    end.
  Definition eval_cmd (root : json) (c : tcmd) : option tval :=
    match c with CArg a => eval_arg root a | CCall f args => eval_call root f args [] end.
  Fixpoint eval_calls (root : json) (v : tval) (cs : list (fn * list targ)) : option tval :=
    match cs with
    | [] => Some v
    | (f, args) :: cs' => match eval_call root f args [v] with Some v' => eval_calls root v' cs' | None => None end
    end.
  Definition eval_pipe (root : json) (p : tpipe) : option tval :=
    match eval_cmd root p.1 with Some v => eval_calls root v p.2 | None => None end.
  (** isTrue *)
  Definition truth (v : tval) : bool :=
    match v with
    | None | Some JNull => false
    | Some (JStr s) => negb (str_eqb s [])
    | Some (JBool b) => b
    | Some (JNum l) => negb (str_eqb l (str "0") || str_eqb l (str "-0"))
    | Some (JArr l) => match l with [] => false | _ => true end
    | Some (JObj l) => match l with [] => false | _ => true end
    end.
  (** walk: what is written, and whether it came to the end without an error. *)
  Definition run_all (f : tnode -> gostr * bool) : list tnode -> gostr * bool :=
    fix go (l : list tnode) : gostr * bool :=
      match l with
      | [] => ([], true)
      | n :: l' => let '(t, ok) := f n in if ok then let '(t', ok') := go l' in (t ++ t', ok') else (t, false)
      end.
  Fixpoint exec_node (root : json) (n : tnode) : gostr * bool :=
    match n with
    | NText t => (t, true)
    | NPipe p => match eval_pipe root p with Some v => (tprint v, true) | None => ([], false) end
    | NIf p yes no =>
        match eval_pipe root p with
        | None => ([], false)
        | Some v => if truth v then run_all (exec_node root) yes else run_all (exec_node root) no
        end
    end.
  Definition exec_nodes (root : json) (l : list tnode) : gostr * bool := run_all (exec_node root) l.
End exec.
(** memory.go:369-390: after an error the buffer, with what was written before it, is the index. *)
Definition tmpl_eval (JE : jenv) (P : jpenv) (uprint : N -> bool) (base : gostr -> obj -> gostr) (expr : gostr) (o : obj) : gostr :=
  match o with
  | OKube k =>
      if contains expr (str "{{") then
        match tmpl_parse expr with
        | Some ns => fst (exec_nodes P uprint (json_map JE (k_data k)) ns)
        | None => base expr o
        end
      else base expr o
  | ORaw _ => base expr o
  end.
Definition tmpl_env (JE : jenv) (P : jpenv) (E : env) : env :=
  Env (e_print E) (tmpl_eval JE P (e_print E) (e_eval E)) (e_num E) (e_parse E) (e_lt E) (e_eq E).
(** Templates, paths and plain text (memory.go:369-378; plain text is [index_value]). *)
Definition index_env (JE : jenv) (P : jpenv) (E : env) : env := path_env JE P (tmpl_env JE P E).
