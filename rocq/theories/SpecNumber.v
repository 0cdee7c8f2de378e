(** Specification: decimal numbers as text, and the float64 nearest to a number. *)
From Coq Require Import Ascii String NArith ZArith.
From stdpp Require Import base gmap strings list.
From Verif Require Import ModelStr SpecPath.

(** ** Text *)
Definition all_digits (t : gostr) : Prop := Forall (fun c => 48 <= N_of_ascii c <= 57)%N t.
Definition signed (neg : bool) (s : gostr) : Prop := if neg then s = str "-" else s = [] \/ s = str "+".
Definition with_sign (neg : bool) (n : N) : Z := if neg then (- Z.of_N n)%Z else Z.of_N n.
Definition exponent (t : gostr) (x : Z) : Prop :=
  t = [] /\ x = 0%Z \/
  exists e neg sg xs, (e = "e"%char \/ e = "E"%char) /\ signed neg sg /\ all_digits xs /\ xs <> [] /\
    t = e :: sg ++ xs /\ x = with_sign neg (dec xs).
(** The text is a decimal number whose value is n * 10^x. *)
Definition decimal (t : gostr) (n x : Z) : Prop :=
  exists neg sg i f d ex xt, signed neg sg /\ all_digits i /\ all_digits f /\ i ++ f <> [] /\
    (d = i /\ f = [] \/ d = i ++ str "." ++ f) /\ exponent xt ex /\
    t = sg ++ d ++ xt /\ n = with_sign neg (dec (i ++ f)) /\ x = (ex - Z.of_nat (length f))%Z.

(** ** Values *)
(** In units of 2^-1074: the numbers with 53 bits and a power of two.  The finite float64 are those below 2^1024. *)
Definition is_double (z : Z) : Prop := exists m e, (Z.abs m < 2 ^ 53)%Z /\ (0 <= e)%Z /\ z = (m * 2 ^ e)%Z.
Definition in_range (z : Z) : Prop := (Z.abs z < 2 ^ 1024 * 2 ^ 1074)%Z.
(** How far z is from n * 10^x, times 10^-x when x is negative. *)
Definition gap (n x z : Z) : Z := Z.abs (n * 10 ^ Z.max 0 x * 2 ^ 1074 - z * 10 ^ Z.max 0 (- x)).
(** No other such number is nearer, and of two that are equally near it is the even one. *)
Definition nearest (n x z : Z) : Prop :=
  is_double z /\ forall y, is_double y -> (gap n x z <= gap n x y)%Z /\ (gap n x z = gap n x y -> y <> z -> (2 * (y - z) | z)%Z).

(** Sizes within which the text is read exactly: strconv skips digits of the exponent from 10000 on. *)
Definition modest (t : gostr) (x : Z) : Prop := (Z.of_nat (length t) < 10000)%Z /\ (Z.abs x < 90000)%Z.
(** Without separators of digits and hexadecimal. *)
Definition plain_text (t : gostr) : Prop := Forall (fun c => c ∉ ["_"; "x"; "X"]%char) t.
(** The texts Inf and Infinity, with or without sign, in any case. *)
Definition infinite (t : gostr) : Prop :=
  exists neg sg r, signed neg sg /\ (r = str "inf" \/ r = str "infinity") /\ to_lower t = sg ++ r.
Definition not_a_number (t : gostr) : Prop := to_lower t = str "nan".
Definition number (t : gostr) : Prop :=
  (exists n x z, decimal t n x /\ nearest n x z /\ in_range z) \/ infinite t \/ not_a_number t.
