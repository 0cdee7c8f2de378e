(** Specification vocabulary for the plugin: the command line without "--clusters value". *)
From Coq Require Import Ascii String NArith ZArith.
From stdpp Require Import base gmap strings list.
From Verif Require Import ModelStr.

(** The arguments kept, each with its position on the command line (from 1); a "--clusters" takes the next
    argument with it. *)
Inductive keeps : nat -> list gostr -> list (nat * gostr) -> Prop :=
  | keeps_nil i : keeps i [] []
  | keeps_pair i v l k : keeps (i + 2) l k -> keeps i (str "--clusters" :: v :: l) k
  | keeps_last i : keeps i [str "--clusters"] []
  | keeps_arg i a l k : a <> str "--clusters" -> keeps (i + 1) l k -> keeps i (a :: l) ((i, a) :: k).
(** The values given to "--clusters", in order. *)
Inductive cluster_values : list gostr -> list gostr -> Prop :=
  | cv_nil : cluster_values [] []
  | cv_pair v l k : cluster_values l k -> cluster_values (str "--clusters" :: v :: l) (v :: k)
  | cv_last : cluster_values [str "--clusters"] []
  | cv_arg a l k : a <> str "--clusters" -> cluster_values l k -> cluster_values (a :: l) k.
(** The last one counts. *)
Definition chosen (argv : list gostr) (v : gostr) : Prop :=
  exists vs, cluster_values argv vs /\ v = default [] (last vs).
Definition is_selector (a : gostr) : Prop := a = str "-l" \/ a = str "--selector".
(** The last selector flag that has something after it stands at position [i]. *)
Definition last_selector (n : nat) (kept : list (nat * gostr)) (i : nat) : Prop :=
  exists k1 a k2, kept = k1 ++ (i, a) :: k2 /\ is_selector a /\ i < n /\
    forall j b, (j, b) ∈ k2 -> is_selector b -> n <= j.
Definition no_selector (n : nat) (kept : list (nat * gostr)) : Prop :=
  forall j b, (j, b) ∈ kept -> is_selector b -> n <= j.
(** The subcommand is named by the last kept argument that is get or create. *)
Definition subcommand_is (kept : list (nat * gostr)) (w : gostr) : Prop :=
  exists k1 i k2, kept = k1 ++ (i, w) :: k2 /\ (w = str "get" \/ w = str "create") /\
    forall j b, (j, b) ∈ k2 -> b <> str "get" /\ b <> str "create".
