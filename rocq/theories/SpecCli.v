(** Specification vocabulary for ckubecli: integers as in Go source and flags on a command line. *)
From Coq Require Import Ascii String NArith ZArith.
From stdpp Require Import base gmap strings list.
From Verif Require Import ModelStr.

(** ** Integers *)
Definition digit (base : N) (c : ascii) (d : N) : Prop :=
  (d < base)%N /\ (str "0123456789abcdef" !! N.to_nat d = Some c \/ str "0123456789ABCDEF" !! N.to_nat d = Some c).
(** Digits, with single underscores between them. *)
Inductive numeral (base : N) : gostr -> N -> Prop :=
  | num_digit c d : digit base c d -> numeral base [c] d
  | num_more s n c d : numeral base s n -> digit base c d -> numeral base (s ++ [c]) (n * base + d)
  | num_under s n c d : numeral base s n -> digit base c d -> numeral base (s ++ ["_"%char; c]) (n * base + d).
Inductive base_letter : ascii -> N -> Prop :=
  | bl_b : base_letter "b" 2 | bl_B : base_letter "B" 2
  | bl_o : base_letter "o" 8 | bl_O : base_letter "O" 8
  | bl_x : base_letter "x" 16 | bl_X : base_letter "X" 16.
Inductive unsigned : gostr -> N -> Prop :=
  | u_decimal c s n : c <> "0"%char -> numeral 10 (c :: s) n -> unsigned (c :: s) n
  | u_octal s n : numeral 8 ("0"%char :: s) n -> unsigned ("0"%char :: s) n
  | u_prefix x b s n : base_letter x b -> numeral b s n -> unsigned ("0"%char :: x :: s) n
  | u_prefix_under x b s n : base_letter x b -> numeral b s n -> unsigned ("0"%char :: x :: "_"%char :: s) n.
Inductive signed : gostr -> Z -> Prop :=
  | s_plain s n : unsigned s n -> signed s (Z.of_N n)
  | s_plus s n : unsigned s n -> signed ("+"%char :: s) (Z.of_N n)
  | s_minus s n : unsigned s n -> signed ("-"%char :: s) (- Z.of_N n).
(** A text that denotes an int64. *)
Definition int64_text (s : gostr) (z : Z) : Prop := signed s z /\ (- 2 ^ 63 <= z < 2 ^ 63)%Z.

(** ** Flags *)
Definition flag_name (n : gostr) : Prop := n = str "p" \/ n = str "s" \/ n = str "sort" \/ n = str "search" \/ n = str "c".
Definition value_ok (n v : gostr) : Prop := n = str "p" \/ n = str "s" -> exists z, int64_text v z.
Definition dashes (d : gostr) : Prop := d = str "-" \/ d = str "--".
(** The flags set, in order, and whether help was asked for.  Flags end at "--", at the first argument that does
    not start with a dash, and at a single dash. *)
Inductive given : list gostr -> list (gostr * gostr) -> bool -> Prop :=
  | given_nil : given [] [] false
  | given_end l : given (str "--" :: l) [] false
  | given_dash l : given (str "-" :: l) [] false
  | given_operand a l : (forall t, a <> "-"%char :: t) -> given (a :: l) [] false
  | given_eq d n v l k h : dashes d -> flag_name n -> value_ok n v -> given l k h -> given ((d ++ n ++ str "=" ++ v) :: l) ((n, v) :: k) h
  | given_next d n v l k h : dashes d -> flag_name n -> value_ok n v -> given l k h -> given ((d ++ n) :: v :: l) ((n, v) :: k) h
  | given_help d n l : dashes d -> n = str "h" \/ n = str "help" -> given ((d ++ n) :: l) [] true
  | given_help_eq d n v l : dashes d -> n = str "h" \/ n = str "help" -> given ((d ++ n ++ str "=" ++ v) :: l) [] true.
(** The last value given counts. *)
Definition last_value (k : list (gostr * gostr)) (n : gostr) : option gostr :=
  last (map snd (filter (fun nv : gostr * gostr => nv.1 = n) k)).
Definition text_is (k : list (gostr * gostr)) (n v : gostr) : Prop := v = default [] (last_value k n).
Definition number_is (k : list (gostr * gostr)) (n : gostr) (z : Z) : Prop :=
  match last_value k n with None => z = 0%Z | Some v => int64_text v z end.
