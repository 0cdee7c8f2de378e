(** Numbers in index texts: strconv.ParseFloat(s, 64) as it is called in store/memory/memory.go:244-253, and the
    comparisons < and == of float64 (254-255).  strconv of Go 1.19 is not in /repo; this is its documented
    behaviour: decimal texts are read as strconv/atof.go readFloat does, and the value is the nearest float64,
    ties to even.  Texts with '_', 'x' or 'X' (digit separators, hexadecimal) are left to a parameter. *)
From Coq Require Import Ascii String NArith ZArith.
From stdpp Require Import base gmap strings list.
From Verif Require Import ModelStr ModelSort ModelLabels ModelStore.

(** A float64.  Every finite one is a multiple of 2^-1074; [FFin z] is z times that.  The two zeros, which
    compare equal, are one value. *)
Inductive fnum := FFin (z : Z) | FInf (neg : bool) | FNaN.
(** The smallest multiple that is out of range: 2^1024. *)
Definition out_of_range : Z := 2 ^ 2098.
Definition f_rank (x : fnum) : option Z :=
  match x with
  | FFin z => Some z
  | FInf false => Some out_of_range
  | FInf true => Some (- out_of_range)%Z
  | FNaN => None
  end.
(** Go's < and == of float64: false when one is NaN. *)
Definition f_lt (x y : fnum) : bool := match f_rank x, f_rank y with Some a, Some b => (a <? b)%Z | _, _ => false end.
Definition f_eq (x y : fnum) : bool := match f_rank x, f_rank y with Some a, Some b => (a =? b)%Z | _, _ => false end.

(** ** Rounding *)
(** The integer nearest to a/b, ties to even. *)
Definition half_even (a b : N) : N :=
  let q := (a / b)%N in let r := (a mod b)%N in
  if (2 * r <? b)%N then q else if (b <? 2 * r)%N then (q + 1)%N else if N.even q then q else (q + 1)%N.
(** The float64 nearest to a/b, both in multiples of 2^-1074, without the bound of the exponent: above 53 bits
    the last bits are 0. *)
Definition round_pos (a b : N) : N :=
  let k := (N.log2 (a / b) - 52)%N in (half_even a (b * 2 ^ k) * 2 ^ k)%N.
(** m * 10^x; strconv.ErrRange above the largest float64. *)
Definition to_double (neg : bool) (m : N) (x : Z) : option fnum :=
  let a := (m * 10 ^ Z.to_N x * 2 ^ 1074)%N in
  let z := Z.of_N (round_pos a (10 ^ Z.to_N (- x))) in
  if (out_of_range <=? z)%Z then None else Some (FFin (if neg then - z else z)%Z).

(** ** Reading *)
Definition digit_num (c : ascii) : N := (N_of_ascii c - 48)%N.
(** Digits after those read so far: the number, how many, and what follows. *)
Fixpoint read_digits (n : N) (k : nat) (s : gostr) : N * nat * gostr :=
  match s with
  | c :: s' => if is_digit c then read_digits (10 * n + digit_num c)%N (S k) s' else (n, k, s)
  | [] => (n, k, [])
  end.
(** atof.go readFloat: from 10000 on, further digits of the exponent are skipped. *)
Fixpoint read_exp (e : N) (s : gostr) : N * gostr :=
  match s with
  | c :: s' => if is_digit c then read_exp (if (e <? 10000)%N then 10 * e + digit_num c else e)%N s' else (e, s)
  | [] => (e, [])
  end.
Definition read_sign (s : gostr) : bool * gostr :=
  match s with
  | c :: s' => if ch_eqb c "+"%char then (false, s') else if ch_eqb c "-"%char then (true, s') else (false, s)
  | [] => (false, [])
  end.
(** atof.go readFloat in base 10: sign, mantissa without the dot, and exponent; [None] for a syntax error. *)
Definition read_float (s : gostr) : option (bool * N * Z) :=
  let '(neg, s) := read_sign s in
  let '(n1, k1, s) := read_digits 0 0 s in
  let '(n, k, f, s) :=
    match s with
    | c :: s' => if ch_eqb c "."%char then let '(n2, k2, r) := read_digits n1 0 s' in (n2, k1 + k2, k2, r) else (n1, k1, 0, s)
    | [] => (n1, k1, 0, s)
    end in
  if k =? 0 then None
  else
    match s with
    | [] => Some (neg, n, - Z.of_nat f)%Z
    | c :: s' =>
        if ch_eqb c "e"%char || ch_eqb c "E"%char then
          let '(eneg, s'') := read_sign s' in
          match s'' with
          | [] => None
          | _ => match read_exp 0 s'' with
                 | (e, []) => Some (neg, n, (if eneg then - Z.of_N e else Z.of_N e) - Z.of_nat f)%Z
                 | _ => None
                 end
          end
        else None
    end.
(** atof.go special, with the test of ParseFloat that nothing follows. *)
Definition read_special (s : gostr) : option fnum :=
  let l := to_lower s in
  let '(neg, r) := read_sign l in
  if str_eqb r (str "inf") || str_eqb r (str "infinity") then Some (FInf neg)
  else if str_eqb l (str "nan") then Some FNaN else None.
Definition parse_float (other : gostr -> option fnum) (s : gostr) : option fnum :=
  if existsb (fun c => existsb (ch_eqb c) ["_"; "x"; "X"]%char) s then other s
  else match read_special s with
       | Some v => Some v
       | None => match read_float s with Some (neg, n, x) => to_double neg n x | None => None end
       end.
(** The environment of the store with this ParseFloat. *)
Definition float_env (other : gostr -> option fnum) (E : env) : env :=
  Env (e_print E) (e_eval E) fnum (parse_float other) f_lt f_eq.
