(** Specification of how names of members are matched in the body of a DELETE (C34). *)
From Coq Require Import Ascii String NArith.
From stdpp Require Import base list.
From Verif Require Import ModelStr.

(** [spells w n]: the text [w] is a spelling of the name that is [n] in lower case.  Letters may be capitals,
    and for s and k also U+017F (long s) and U+212A (Kelvin sign), in UTF-8. *)
Inductive spells : gostr -> gostr -> Prop :=
| sp_nil : spells [] []
| sp_same a w n : spells w n -> spells (a :: w) (a :: n)
| sp_capital u a w n : (65 <= N_of_ascii u <= 90)%N -> N_of_ascii a = (N_of_ascii u + 32)%N -> spells w n -> spells (u :: w) (a :: n)
| sp_long w n : spells w n -> spells (ascii_of_N 197 :: ascii_of_N 191 :: w) ("s"%char :: n)
| sp_kelvin w n : spells w n -> spells (ascii_of_N 226 :: ascii_of_N 132 :: ascii_of_N 170 :: w) ("k"%char :: n).
