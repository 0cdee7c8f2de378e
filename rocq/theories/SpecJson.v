(** Specification of JSON texts (RFC 8259) and what they mean (C80). *)
From Coq Require Import Ascii String NArith ZArith.
From stdpp Require Import base list.
From Verif Require Import ModelStr ModelJson SpecBody.

(** UTF-8 (RFC 3629): a code point and its bytes. *)
Inductive utf8 : N -> gostr -> Prop :=
| u_one r : (r < 128)%N -> utf8 r [ascii_of_N r]
| u_two a b : (2 <= a < 32)%N -> (b < 64)%N -> utf8 (a * 64 + b) [ascii_of_N (192 + a); ascii_of_N (128 + b)]
| u_three a b c r : (a < 16)%N -> (b < 64)%N -> (c < 64)%N -> r = ((a * 64 + b) * 64 + c)%N -> (2048 <= r)%N -> (r < 55296 \/ 57343 < r)%N ->
    utf8 r [ascii_of_N (224 + a); ascii_of_N (128 + b); ascii_of_N (128 + c)]
| u_four a b c d r : (a < 8)%N -> (b < 64)%N -> (c < 64)%N -> (d < 64)%N -> r = (((a * 64 + b) * 64 + c) * 64 + d)%N -> (65536 <= r <= 1114111)%N ->
    utf8 r [ascii_of_N (240 + a); ascii_of_N (128 + b); ascii_of_N (128 + c); ascii_of_N (128 + d)].
(** U+FFFD *)
Definition replacement : gostr := [ascii_of_N 239; ascii_of_N 191; ascii_of_N 189].
Definition quotation : ascii := ascii_of_N 34.

(** ** Strings *)
Definition hex_digit (c : ascii) (n : N) : Prop :=
  str "0123456789abcdef" !! N.to_nat n = Some c \/ str "0123456789ABCDEF" !! N.to_nat n = Some c.
Inductive hex_code : gostr -> N -> Prop :=
| hex_digits a b c d na nb nc nd : hex_digit a na -> hex_digit b nb -> hex_digit c nc -> hex_digit d nd ->
    hex_code [a; b; c; d] (((na * 16 + nb) * 16 + nc) * 16 + nd).
(** A backslash and one of these letters. *)
Definition short_escapes : list (ascii * ascii) :=
  [(quotation, quotation); ("\"%char, "\"%char); ("/"%char, "/"%char); ("b"%char, ascii_of_N 8); ("f"%char, ascii_of_N 12);
   ("n"%char, ascii_of_N 10); ("r"%char, ascii_of_N 13); ("t"%char, ascii_of_N 9)].
Definition high (r : N) : Prop := (55296 <= r < 56320)%N.
Definition low (r : N) : Prop := (56320 <= r < 57344)%N.
(** The text between the quotation marks and the string it stands for.  A byte at which no code point begins, and
    one half of a surrogate pair, stand for U+FFFD (RFC 8259 leaves both open). *)
Inductive chars : gostr -> gostr -> Prop :=
| c_nil : chars [] []
| c_raw r u t v : utf8 r u -> (32 <= r)%N -> r <> 34%N -> r <> 92%N -> chars t v -> chars (u ++ t) (u ++ v)
| c_bad b t v : (forall r u t', utf8 r u -> b :: t <> u ++ t') -> chars t v -> chars (b :: t) (replacement ++ v)
| c_short e x t v : (e, x) ∈ short_escapes -> chars t v -> chars ("\"%char :: e :: t) (x :: v)
| c_code h r u t v : hex_code h r -> utf8 r u -> chars t v -> chars ("\"%char :: "u"%char :: h ++ t) (u ++ v)
| c_pair h l hi lo u t v : hex_code h hi -> high hi -> hex_code l lo -> low lo -> utf8 (65536 + (hi - 55296) * 1024 + (lo - 56320)) u -> chars t v ->
    chars ("\"%char :: "u"%char :: h ++ "\"%char :: "u"%char :: l ++ t) (u ++ v)
| c_half h r t v : hex_code h r -> (high r \/ low r) -> (high r -> forall l lo t', hex_code l lo -> low lo -> t <> "\"%char :: "u"%char :: l ++ t') -> chars t v ->
    chars ("\"%char :: "u"%char :: h ++ t) (replacement ++ v).

(** ** Numbers *)
Definition a_digit (c : ascii) : Prop := c ∈ str "0123456789".
Definition digit_list (d : gostr) : Prop := d <> [] /\ Forall a_digit d.
Definition number (l : gostr) : Prop := exists sign i frac ex, l = sign ++ i ++ frac ++ ex /\
  (sign = [] \/ sign = str "-") /\
  (i = str "0" \/ digit_list i /\ head i <> Some "0"%char) /\
  (frac = [] \/ exists d, frac = "."%char :: d /\ digit_list d) /\
  (ex = [] \/ exists e sg d, ex = e :: sg ++ d /\ (e = "e"%char \/ e = "E"%char) /\ (sg = [] \/ sg = str "+" \/ sg = str "-") /\ digit_list d).

(** ** Values *)
Definition space (w : gostr) : Prop := Forall (fun c => c ∈ map ascii_of_N [32; 9; 10; 13]%N) w.
(** [value n t v]: the text [t] means [v] and at most [n] arrays and objects are inside each other. *)
Inductive value : nat -> gostr -> json -> Prop :=
| v_null n : value n (str "null") JNull
| v_true n : value n (str "true") (JBool true)
| v_false n : value n (str "false") (JBool false)
| v_number n l : number l -> value n l (JNum l)
| v_string n t v : chars t v -> value n (quotation :: t ++ [quotation]) (JStr v)
| v_empty_array n w : space w -> value (S n) ("["%char :: w ++ ["]"%char]) (JArr [])
| v_array n t l : elements n t l -> value (S n) ("["%char :: t ++ ["]"%char]) (JArr l)
| v_empty_object n w : space w -> value (S n) ("{"%char :: w ++ ["}"%char]) (JObj [])
| v_object n t l : members n t l -> value (S n) ("{"%char :: t ++ ["}"%char]) (JObj l)
with elements : nat -> gostr -> list json -> Prop :=
| e_one n w1 t w2 v : space w1 -> space w2 -> value n t v -> elements n (w1 ++ t ++ w2) [v]
| e_more n w1 t w2 v t' l : space w1 -> space w2 -> value n t v -> elements n t' l -> elements n (w1 ++ t ++ w2 ++ ","%char :: t') (v :: l)
with members : nat -> gostr -> list (gostr * json) -> Prop :=
| m_one n w1 k name w2 w3 t w4 v : space w1 -> space w2 -> space w3 -> space w4 -> chars k name -> value n t v ->
    members n (w1 ++ quotation :: k ++ quotation :: w2 ++ ":"%char :: w3 ++ t ++ w4) [(name, v)]
| m_more n w1 k name w2 w3 t w4 v t' l : space w1 -> space w2 -> space w3 -> space w4 -> chars k name -> value n t v -> members n t' l ->
    members n (w1 ++ quotation :: k ++ quotation :: w2 ++ ":"%char :: w3 ++ t ++ w4 ++ ","%char :: t') ((name, v) :: l).
(** A JSON text; encoding/json allows 10000 arrays and objects inside each other. *)
Definition json_means (s : gostr) (v : json) : Prop := exists w1 t w2, s = w1 ++ t ++ w2 /\ space w1 /\ space w2 /\ value (N.to_nat 10000) t v.

(** ** Members of an object *)
(** The last member with a name, in any spelling. *)
Definition last_member (l : list (gostr * json)) (name : string) (v : json) : Prop :=
  exists l1 k l2, l = l1 ++ (k, v) :: l2 /\ spells k (str name) /\ forall k' v', (k', v') ∈ l2 -> ~ spells k' (str name).
Definition without (l : list (gostr * json)) (name : string) : Prop := forall k v, (k, v) ∈ l -> ~ spells k (str name).
(** [int_says l name z]: the object with the members [l] gives the number [z] for a field, 0 if the field is not there. *)
Definition int_says (l : list (gostr * json)) (name : string) (z : Z) : Prop :=
  (last_member l name (JNum (itoa z)) /\ (- 2 ^ 63 <= z < 2 ^ 63)%Z) \/ (without l name /\ z = 0%Z).
Definition str_says (l : list (gostr * json)) (name : string) (s : gostr) : Prop :=
  last_member l name (JStr s) \/ (without l name /\ s = []).
