(** Specification: index expressions made of text and fields, what a path leads to, and how a value is written. *)
From Coq Require Import Ascii String NArith ZArith.
From stdpp Require Import base gmap strings list.
From Verif Require Import ModelStr ModelJson ModelJsonText ModelStore ModelObjType ModelCodec SpecObjType SpecCodec.

(** ** Expressions *)
(** In a name, these characters are written with a backslash before them. *)
Definition special : list ascii := ["."; ","; "["; "]"; "$"; "@"]%char.
Definition escaped (f : gostr) : gostr := mjoin (map (fun c => if decide (c ∈ special) then ["\"%char; c] else [c]) f).
(** A name that can be written: visible ASCII characters without braces and backslash. *)
Definition good_name (f : gostr) : Prop :=
  f <> [] /\ f <> str "*" /\ Forall (fun c => (33 <= N_of_ascii c <= 126)%N /\ c <> "{"%char /\ c <> "}"%char /\ c <> "\"%char) f.
Definition dots (p : list gostr) : gostr := mjoin (map (fun f => str "." ++ escaped f) p).
(** {.a.b.c} and {.a.b[*].c} *)
Definition field_expr (p : list gostr) : gostr := str "{" ++ dots p ++ str "}".
Definition items_expr (p q : list gostr) : gostr := str "{" ++ dots p ++ str "[*]" ++ dots q ++ str "}".
(** An expression of text, fields and arrays. *)
Inductive piece := Lit (t : gostr) | Fld (p : list gostr) | All (p q : list gostr).
Definition good_piece (x : piece) : Prop :=
  match x with Lit t => "{"%char ∉ t | Fld p => p <> [] /\ Forall good_name p | All p q => p <> [] /\ Forall good_name p /\ Forall good_name q end.
Definition piece_expr (x : piece) : gostr := match x with Lit t => t | Fld p => field_expr p | All p q => items_expr p q end.

(** ** Values *)
(** Following member names from a value; of several members with a name the last counts. *)
Inductive at_path : json -> list gostr -> json -> Prop :=
| at_here j : at_path j [] j
| at_member l k v p w : denotes l k v -> at_path v p w -> at_path (JObj l) (k :: p) w.
(** A value that is there and is neither an array nor null; a number beyond float64 counts as null. *)
Definition no_array (JE : jenv) (v : json) : Prop :=
  match v with JArr _ | JNull => False | JNum l => je_norm JE l <> None | _ => True end.
Definition piece_fails (JE : jenv) (j : json) (x : piece) : Prop :=
  match x with All p _ => exists v, at_path j p v /\ no_array JE v | _ => False end.
Definition missing (j : json) (p : list gostr) : Prop := forall v, ~ at_path j p v.

(** The number that digits stand for. *)
Definition dec (ds : gostr) : N := fold_left (fun n c => 10 * n + (N_of_ascii c - 48))%N ds 0%N.
(** The integer in the form d.ddde+xx: no zero ends the digits, and the exponent has two digits. *)
Definition scientific (z : Z) (t : gostr) : Prop :=
  exists d r x xs, Forall (fun c => 48 <= N_of_ascii c <= 57)%N (d :: r ++ xs) /\
    t = (if decide (z < 0)%Z then str "-" else []) ++ d :: (match r with [] => [] | _ => str "." ++ r end) ++ str "e+" ++ xs /\
    d <> "0"%char /\ (forall r', r <> r' ++ str "0") /\ dec xs = N.of_nat x /\ length xs = 2 /\
    length r <= x /\ Z.to_N (Z.abs z) = (dec (d :: r) * 10 ^ N.of_nat (x - length r))%N.
(** How a value is written as index: a string as it is, an integer below a million by its digits, a larger one
    in scientific form, and objects and arrays as JSON. *)
Inductive shows (JE : jenv) : json -> gostr -> Prop :=
| shows_str s : shows JE (JStr s) s
| shows_true : shows JE (JBool true) (str "true")
| shows_false : shows JE (JBool false) (str "false")
| shows_int l z : je_norm JE l = Some (itoa z) -> (Z.abs z < 1000000)%Z -> shows JE (JNum l) (itoa z)
| shows_large l z t : je_norm JE l = Some (itoa z) -> (1000000 <= Z.abs z <= 2 ^ 53)%Z -> scientific z t -> shows JE (JNum l) t
| shows_arr l : shows JE (JArr l) (json_text (iface JE (JArr l)))
| shows_obj l : shows JE (JObj l) (json_text (iface JE (JObj l))).
(** The text of a field of a document; without the field it is empty. *)
Inductive field_text (JE : jenv) (j : json) (p : list gostr) : gostr -> Prop :=
| ft_found v t : at_path j p v -> shows JE v t -> field_text JE j p t
| ft_missing : missing j p -> field_text JE j p [].
(** The texts of a field of the elements of an array, those without it left out. *)
Inductive gathers (JE : jenv) (q : list gostr) : list json -> list gostr -> Prop :=
| ga_nil : gathers JE q [] []
| ga_hit v w t vs ts : at_path v q w -> shows JE w t -> gathers JE q vs ts -> gathers JE q (v :: vs) (t :: ts)
| ga_miss v vs ts : missing v q -> gathers JE q vs ts -> gathers JE q (v :: vs) ts.

(** The last event about a name carried this text. *)
Definition last_text (JE : jenv) (evs : list raw_event) (ns n s : gostr) : Prop :=
  exists before e after o, evs = before ++ e :: after /\ (re_type e = str "ADDED" \/ re_type e = str "MODIFIED") /\ re_text e = s /\
    decode_obj JE s = Ok o /\ (me_namespace (t_meta o), me_name (t_meta o)) = (ns, n) /\
    forall e' o', e' ∈ after -> re_type e' ∈ changes -> decode_obj JE (re_text e') = Ok o' ->
      (me_namespace (t_meta o'), me_name (t_meta o')) <> (ns, n).
(** Entries of the index that ckube writes itself. *)
Definition own_keys : list gostr := [str "name"; str "namespace"; str "cluster"; str "is_deleted"].
