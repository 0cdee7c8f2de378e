(** Specification: how a Go template is spelled, and what it writes for a document. *)
From Coq Require Import Ascii String NArith ZArith.
From stdpp Require Import base gmap strings list sorting.
From Verif Require Import ModelStr ModelJson ModelJsonText ModelStore ModelObjType ModelCodec ModelTmpl SpecObjType SpecPage SpecPath.

(** ** Spelling *)
Definition blanks (w : gostr) : Prop := Forall (fun c => N_of_ascii c ∈ [32; 9; 13; 10]%N) w.
(** A letter or underscore, and these or digits. *)
Definition first_char (c : ascii) : Prop := let n := N_of_ascii c in (65 <= n <= 90 \/ 97 <= n <= 122 \/ n = 95)%N.
Definition later_char (c : ascii) : Prop := first_char c \/ (48 <= N_of_ascii c <= 57)%N.
Definition ident (f : gostr) : Prop := match f with [] => False | c :: r => first_char c /\ Forall later_char r end.
Definition quotable (s : gostr) : Prop := Forall (fun c => (N_of_ascii c < 128)%N /\ N_of_ascii c ∉ [34; 92; 10]%N) s.
Definition dq1 : gostr := [ascii_of_N 34].
Definition arg_text (a : targ) : gostr :=
  match a with TField p => mjoin (map (fun f => str "." ++ f) p) | TConst s => dq1 ++ s ++ dq1 end.
Definition good_arg (a : targ) : Prop := match a with TField p => p <> [] /\ Forall ident p | TConst s => quotable s end.
Definition fn_name (f : fn) : gostr := match f with FDefault => str "default" | FQuote => str "quote" | FJoin => str "join" end.
Inductive spells_args : list targ -> gostr -> Prop :=
| sa_nil : spells_args [] []
| sa_cons w a l s : blanks w -> w <> [] -> good_arg a -> spells_args l s -> spells_args (a :: l) (w ++ arg_text a ++ s).
Inductive spells_cmd : tcmd -> gostr -> Prop :=
| sc_arg a : good_arg a -> spells_cmd (CArg a) (arg_text a)
| sc_call f l s : spells_args l s -> spells_cmd (CCall f l) (fn_name f ++ s).
Inductive spells_calls : list (fn * list targ) -> gostr -> Prop :=
| sl_nil : spells_calls [] []
| sl_cons w w' f l u cs s : blanks w -> blanks w' -> spells_args l u -> spells_calls cs s ->
    spells_calls ((f, l) :: cs) (w ++ str "|" ++ w' ++ (fn_name f ++ u) ++ s).
Definition spells_pipe (p : tpipe) (s : gostr) : Prop := exists a b, s = a ++ b /\ spells_cmd p.1 a /\ spells_calls p.2 b.
Definition action (w u w' : gostr) : gostr := str "{{" ++ w ++ u ++ w' ++ str "}}".
Inductive spells : list tnode -> gostr -> Prop :=
| sp_nil : spells [] []
| sp_text t l s : t <> [] -> "{"%char ∉ t -> (forall u m, l <> NText u :: m) -> spells l s -> spells (NText t :: l) (t ++ s)
| sp_pipe p w u w' l s : blanks w -> spells_pipe p u -> blanks w' -> spells l s -> spells (NPipe p :: l) (action w u w' ++ s)
| sp_if p w w1 u w' yes y w2 w3 l s : blanks w -> blanks w1 -> w1 <> [] -> spells_pipe p u -> blanks w' -> spells yes y ->
    blanks w2 -> blanks w3 -> spells l s ->
    spells (NIf p yes [] :: l) (action w (str "if" ++ w1 ++ u) w' ++ y ++ action w2 (str "end") w3 ++ s)
| sp_if_else p w w1 u w' yes y w4 w5 no n w2 w3 l s : blanks w -> blanks w1 -> w1 <> [] -> spells_pipe p u -> blanks w' -> spells yes y ->
    blanks w4 -> blanks w5 -> spells no n -> blanks w2 -> blanks w3 -> spells l s ->
    spells (NIf p yes no :: l) (action w (str "if" ++ w1 ++ u) w' ++ y ++ action w4 (str "else") w5 ++ n ++ action w2 (str "end") w3 ++ s).

(** ** Meaning *)
Section meaning.
  Context (JE : jenv) (uprint : N -> bool) (j : json).
  (** Not null; and a number that fits. *)
  Definition valued (v : json) : Prop := match v with JNull => False | JNum l => je_norm JE l <> None | _ => True end.
  (** What a field is: the member, or no value when an object on the way lacks the name or the member is null. *)
  Inductive look (p : list gostr) : option json -> Prop :=
  | look_found v : at_path j p v -> valued v -> look p (Some v)
  | look_null : at_path j p JNull -> look p None
  | look_none p1 k p2 l : p = p1 ++ k :: p2 -> at_path j p1 (JObj l) -> k ∉ l.*1 -> look p None.
  (** A name asked of what is no object is an error. *)
  Definition stuck (p : list gostr) : Prop :=
    exists p1 k p2 v, p = p1 ++ k :: p2 /\ at_path j p1 v /\ forall l, v <> JObj l.
  Inductive operand : targ -> option json -> Prop :=
  | op_field p v : look p v -> operand (TField p) v
  | op_const s : operand (TConst s) (Some (JStr s)).
  Definition bad_operand (a : targ) : Prop := match a with TField p => stuck p | TConst _ => False end.
  (** Values that have no parts. *)
  Definition scalar (v : json) : Prop := match v with JArr _ | JObj _ | JNull => False | _ => True end.
  Definition mistyped (verb ty t : gostr) : gostr := str "%!" ++ verb ++ str "(" ++ ty ++ str "=" ++ t ++ str ")".
  (** %s and %q of a value. *)
  Inductive formats (verb : gostr) : json -> gostr -> Prop :=
  | fm_s s : verb = str "s" -> formats verb (JStr s) s
  | fm_q s : verb = str "q" -> Forall plain s -> formats verb (JStr s) (dq1 ++ s ++ dq1)
  | fm_bool b t : shows JE (JBool b) t -> formats verb (JBool b) (mistyped verb (str "bool") t)
  | fm_num l t : shows JE (JNum l) t -> formats verb (JNum l) (mistyped verb (str "float64") t).
  (** default, quote and join. *)
  Inductive result : fn -> list (option json) -> gostr -> Prop :=
  | re_default d : result FDefault [Some (JStr d); None] d
  | re_given d v t : formats (str "s") v t -> result FDefault [Some (JStr d); Some v] t
  | re_quote v t : formats (str "q") v t -> result FQuote [Some v] t
  | re_quote_none : result FQuote [None] (str "%!q(<nil>)")
  | re_join sep l : result FJoin (map (fun s => Some (JStr s)) (sep :: l)) (join sep l).
  Definition is_text (v : option json) : Prop := exists s, v = Some (JStr s).
  Definition misused (f : fn) (vs : list (option json)) : Prop :=
    match f with
    | FDefault => length vs <> 2 \/ exists d r, vs = d :: r /\ ~ is_text d
    | FQuote => length vs <> 1
    | FJoin => vs = [] \/ Exists (fun v => ~ is_text v) vs
    end.
  Inductive applied (f : fn) (l : list targ) (last : list (option json)) : option json -> Prop :=
  | ap vs t : Forall2 operand l vs -> result f (vs ++ last) t -> applied f l last (Some (JStr t)).
  Definition misapplied (f : fn) (l : list targ) (last : list (option json)) : Prop :=
    Exists bad_operand l \/ exists vs, Forall2 operand l vs /\ misused f (vs ++ last).
  Inductive begins : tcmd -> option json -> Prop :=
  | be_arg a v : operand a v -> begins (CArg a) v
  | be_call f l v : applied f l [] v -> begins (CCall f l) v.
  Inductive goes : option json -> list (fn * list targ) -> option json -> Prop :=
  | go_done v : goes v [] v
  | go_next v f l v' cs v'' : applied f l [v] v' -> goes v' cs v'' -> goes v ((f, l) :: cs) v''.
  Inductive breaks : option json -> list (fn * list targ) -> Prop :=
  | br_here v f l cs : misapplied f l [v] -> breaks v ((f, l) :: cs)
  | br_next v f l v' cs : applied f l [v] v' -> breaks v' cs -> breaks v ((f, l) :: cs).
  (** The value of a pipeline, and when it has none. *)
  Definition yields (p : tpipe) (v : option json) : Prop := exists u, begins p.1 u /\ goes u p.2 v.
  Definition fails (p : tpipe) : Prop :=
    match p.1 with CArg a => bad_operand a | CCall f l => misapplied f l [] end \/ exists u, begins p.1 u /\ breaks u p.2.
  (** The text of a value: arrays and objects in brackets, objects by their names in order. *)
  Inductive shown : json -> gostr -> Prop :=
  | sh_null : shown JNull (str "<nil>")
  | sh_scalar v t : scalar v -> shows JE v t -> shown v t
  | sh_arr l ts : Forall2 shown l ts -> shown (JArr l) (str "[" ++ join (str " ") ts ++ str "]")
  | sh_obj l l' ts : l ≡ₚ l' -> StronglySorted (fun a b => str_ltb a.1 b.1 = true) l' -> Forall2 shown l'.*2 ts ->
      shown (JObj l) (str "map[" ++ join (str " ") (zip_with (fun k t => k ++ str ":" ++ t) l'.*1 ts) ++ str "]").
  Inductive displays : option json -> gostr -> Prop :=
  | di_none : displays None (str "<no value>")
  | di_some v t : v <> JNull -> shown v t -> displays (Some v) t.
  Definition holds (v : option json) : Prop :=
    match v with
    | None | Some JNull => False
    | Some (JStr s) => s <> []
    | Some (JBool b) => b = true
    | Some (JNum l) => exists t, je_norm JE l = Some t /\ t <> str "0" /\ t <> str "-0"
    | Some (JArr l) => l <> []
    | Some (JObj l) => l <> []
    end.
  Definition chosen (v : option json) (yes no ns : list tnode) : Prop := holds v /\ ns = yes \/ ~ holds v /\ ns = no.
  (** What the nodes write, and whether they come to the end; after an error nothing more is written. *)
  Inductive writes : list tnode -> gostr -> bool -> Prop :=
  | wr_end : writes [] [] true
  | wr_text t l s b : writes l s b -> writes (NText t :: l) (t ++ s) b
  | wr_value p v t l s b : yields p v -> displays v t -> writes l s b -> writes (NPipe p :: l) (t ++ s) b
  | wr_error p l : fails p -> writes (NPipe p :: l) [] false
  | wr_branch p v yes no ns s1 l s2 b : yields p v -> chosen v yes no ns -> writes ns s1 true -> writes l s2 b ->
      writes (NIf p yes no :: l) (s1 ++ s2) b
  | wr_branch_error p v yes no ns s1 l : yields p v -> chosen v yes no ns -> writes ns s1 false ->
      writes (NIf p yes no :: l) s1 false
  | wr_cond_error p yes no l : fails p -> writes (NIf p yes no :: l) [] false.
End meaning.
(** A document as a cached custom object keeps it: its members, with kind, apiVersion and metadata as they were
    understood. *)
Definition kept (l : list (gostr * json)) (o : objtype) : json :=
  JObj (filter (fun kv => kv.1 ∉ reserved) l ++ match head_json o with JObj h => h | _ => [] end).
