(** Meaning of label requirements, independent of the matching code. *)
From Coq Require Import Ascii String NArith ZArith.
From stdpp Require Import base gmap strings list.
From Verif Require Import ModelStr ModelLabels.

(** Kubernetes meaning of one requirement on a label set. *)
Definition req_holds (m : gmap gostr gostr) (r : req) : Prop :=
  match rop r with
  | OIn | OEq | ODEq => exists v, m !! rkey r = Some v /\ v ∈ rvals r
  | ONotIn | ONe => forall v, m !! rkey r = Some v -> v ∉ rvals r
  | OExists => exists v, m !! rkey r = Some v
  | ONotExists => m !! rkey r = None
  | OGt | OLt => False
  end.
(** ... of one expression of a structured selector *)
Definition lreq_holds (m : gmap gostr gostr) (e : lreq) : Prop :=
  match lop e with
  | LIn => exists v, m !! lkey e = Some v /\ v ∈ lvals e
  | LNotIn => forall v, m !! lkey e = Some v -> v ∉ lvals e
  | LExists => exists v, m !! lkey e = Some v
  | LNotExists => m !! lkey e = None
  end.
(** ... and of a structured selector. *)
Definition sel_holds (m : gmap gostr gostr) (ls : lsel) : Prop :=
  (forall k v, mlabels ls !! k = Some v -> m !! k = Some v) /\
  (forall e, e ∈ mexprs ls -> lreq_holds m e).

(** Same set of values. *)
Definition same_set (a b : list gostr) : Prop := forall x, x ∈ a <-> x ∈ b.
(** Two expressions that differ only in order and repetition of values. *)
Definition same_lreq (a b : lreq) : Prop :=
  lkey a = lkey b /\ lop a = lop b /\ same_set (lvals a) (lvals b).
(** Two structured selectors that differ only in the order of the expressions and the order and
    repetition of values. *)
Definition same_sel (a b : lsel) : Prop :=
  mlabels a = mlabels b /\
  exists es, es ≡ₚ mexprs b /\ Forall2 same_lreq (mexprs a) es.
(** An expression whose values are an odd number, three or more, of empty strings: its printed
    form "k in (,,)" is not accepted by the Kubernetes parser. *)
Definition odd_empties (vs : list gostr) : Prop :=
  exists n, vs = replicate (3 + 2 * n) [].
(** Two '=' requirements on one key. *)
Definition eq_keys_distinct (rs : list req) : Prop :=
  forall i j a b, rs !! i = Some a -> rs !! j = Some b -> i <> j ->
    (rop a = OEq \/ rop a = ODEq) -> (rop b = OEq \/ rop b = ODEq) -> rkey a <> rkey b.

(** Legal Kubernetes label values: at most 63 bytes, empty or letters, digits, '-', '_', '.' with a
    letter or digit at both ends. *)
Definition letter_digit (c : ascii) : Prop :=
  (48 <= code c <= 57 \/ 65 <= code c <= 90 \/ 97 <= code c <= 122)%N.
Definition label_char (c : ascii) : Prop :=
  letter_digit c \/ c = "-"%char \/ c = "_"%char \/ c = "."%char.
Definition legal_value (v : gostr) : Prop :=
  length v <= 63 /\ Forall label_char v /\
  (forall c r, v = c :: r -> letter_digit c) /\ (forall c r, v = r ++ [c] -> letter_digit c).
