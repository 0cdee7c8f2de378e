(** What a label selector text says: the grammar of Kubernetes label selectors (the operators that
    ckube accepts), written down without the lexer or the parser. *)
From Coq Require Import Ascii String NArith ZArith.
From stdpp Require Import base gmap strings list.
From Verif Require Import ModelStr ModelLabels SpecLabels.

(** ** Lexemes *)
(** White space: space, tab, carriage return, line feed. *)
Definition blank (c : ascii) : Prop := (code c = 32 \/ code c = 9 \/ code c = 13 \/ code c = 10)%N.
Definition nul (c : ascii) : Prop := code c = 0%N.
Definition symbols : list gostr :=
  [str "="; str "=="; str "!="; str "!"; str "("; str ")"; str ","; str "<"; str ">"].
Definition word_char (c : ascii) : Prop := ~ blank c /\ ~ nul c /\ c ∉ str "=!(),<>".
(** The text [s] consists of the lexemes [l], each as long as possible, with any white space
    before, between and after them. *)
Inductive laid : gostr -> list gostr -> Prop :=
| laid_end : laid [] []
| laid_blank c t l : blank c -> laid t l -> laid (c :: t) l
| laid_symbol x t l : x ∈ symbols ->
    ((x = str "=" \/ x = str "!") -> head t <> Some "="%char) ->
    laid t l -> laid (x ++ t) (x :: l)
| laid_word x t l : x <> [] -> Forall word_char x ->
    (forall c, head t = Some c -> ~ word_char c) ->
    laid t l -> laid (x ++ t) (x :: l).

(** ** Legal keys: a name of 1 to 63 characters, perhaps after a DNS subdomain of at most 253
    characters and a slash. *)
Definition low_digit (c : ascii) : Prop := (48 <= code c <= 57 \/ 97 <= code c <= 122)%N.
Definition dns_part (x : gostr) : Prop :=
  x <> [] /\ Forall (fun c => low_digit c \/ c = "-"%char) x /\
  (forall c r, x = c :: r -> low_digit c) /\ (forall c r, x = r ++ [c] -> low_digit c).
Inductive dotted : gostr -> Prop :=
| dotted_one x : dns_part x -> dotted x
| dotted_more x y : dns_part x -> dotted y -> dotted (x ++ "."%char :: y).
Definition legal_name (x : gostr) : Prop := x <> [] /\ legal_value x.
Definition legal_key (k : gostr) : Prop :=
  legal_name k \/
  exists p n, k = p ++ "/"%char :: n /\ dotted p /\ length p <= 253 /\ legal_name n.

(** ** Requirements *)
(** The values between two parentheses: separated by commas, each a word or left out. *)
Inductive pieces : list gostr -> list gostr -> Prop :=
| piece_none : pieces [] [[]]
| piece_word w : w ∉ symbols -> w <> [] -> pieces [w] [w]
| piece_skip l vs : pieces l vs -> pieces (str "," :: l) ([] :: vs)
| piece_more w l vs : w ∉ symbols -> w <> [] -> pieces l vs -> pieces (w :: str "," :: l) (w :: vs).
Inductive says_req : list gostr -> req -> Prop :=
| says_exists k : legal_key k -> says_req [k] (Req k OExists [])
| says_absent k : legal_key k -> says_req [str "!"; k] (Req k ONotExists [])
| says_compare k x o v : legal_key k ->
    (x, o) ∈ [(str "=", OEq); (str "==", ODEq); (str "!=", ONe)] ->
    v <> [] -> legal_value v -> says_req [k; x; v] (Req k o [v])
| says_compare_empty k x o : legal_key k ->
    (x, o) ∈ [(str "=", OEq); (str "==", ODEq); (str "!=", ONe)] -> says_req [k; x] (Req k o [[]])
| says_member k x o l vs : legal_key k -> (x, o) ∈ [(str "in", OIn); (str "notin", ONotIn)] ->
    pieces l vs -> Forall legal_value vs ->
    says_req (k :: x :: str "(" :: l ++ [str ")"]) (Req k o vs).
(** One or more requirements, separated by commas. *)
Inductive says_some : list gostr -> list req -> Prop :=
| says_one l r : says_req l r -> says_some l [r]
| says_more l r l' rs : says_req l r -> says_some l' rs -> says_some (l ++ str "," :: l') (r :: rs).
Definition says (l : list gostr) (rs : list req) : Prop := l = [] /\ rs = [] \/ says_some l rs.
(** The text [s] asks for the requirements [rs]. *)
Definition asks (s : gostr) (rs : list req) : Prop := exists l, laid s l /\ says l rs.
(** Two empty values at the end of a list of values: Kubernetes refuses some of these. *)
Definition gap (l : list gostr) : Prop :=
  exists a b, l = a ++ str "," :: str "," :: str ")" :: b.
Definition asks_plainly (s : gostr) (rs : list req) : Prop :=
  exists l, laid s l /\ says l rs /\ ~ gap l.
