(** Specifications for the search language, independent of the model's functions.  Only the
    representation of strings and Go's quoting function are shared with the model. *)
From Coq Require Import Ascii String NArith ZArith.
From stdpp Require Import base gmap strings list.
From Verif Require Import ModelStr.

(** [sub] occurs somewhere in [s]. *)
Definition occurs (sub s : gostr) : Prop := exists a b, s = a ++ sub ++ b.

(** The documented grammar of a search string, as a reading of the whole string into parts (empty
    ones included).  [reads_last] is the exception: a single ';' as the very last byte. *)
Inductive reads : gostr -> list gostr -> Prop :=
| reads_nil : reads [] [[]]
| reads_lit c s p ps : c <> ";"%char -> reads s (p :: ps) -> reads (c :: s) ((c :: p) :: ps)
| reads_semi s p ps :
    reads s (p :: ps) -> reads (";"%char :: ";"%char :: s) ((";"%char :: p) :: ps)
| reads_sep c s ps : c <> ";"%char -> reads (c :: s) ps -> reads (";"%char :: c :: s) ([] :: ps)
| reads_last : reads [";"%char] [[";"%char]].

(** What the value of a search part asks of one quoted index value: a leading '!' negates. *)
Definition wants (uprint : N -> bool) (q w : gostr) : Prop :=
  match q with
  | "!"%char :: x => ~ occurs x (quote uprint w)
  | _ => occurs q (quote uprint w)
  end.
(** The same for a search without key, over all values of the index. *)
Definition wants_any (uprint : N -> bool) (q : gostr) (m : gmap gostr gostr) : Prop :=
  match q with
  | "!"%char :: x => forall k w, m !! k = Some w -> ~ occurs x (quote uprint w)
  | _ => exists k w, m !! k = Some w /\ occurs q (quote uprint w)
  end.

(** Visible ASCII characters, and those that Go quoting leaves alone. *)
Definition visible (c : ascii) : Prop := (33 <= code c <= 126)%N.
Definition plain (c : ascii) : Prop := (32 <= code c <= 126)%N /\ code c <> 34%N /\ code c <> 92%N.
(** Starts and ends with a visible character. *)
Definition tight (s : gostr) : Prop :=
  (exists c r, s = c :: r /\ visible c) /\ (exists c r, s = r ++ [c] /\ visible c).

(** An advanced search part. *)
Definition is_adv (q : gostr) : Prop := exists sel, q = str "__ckube_as__:" ++ sel.
