(** Specifications for table output. *)
From Coq Require Import Ascii String NArith ZArith.
From stdpp Require Import base gmap strings list sorting.
From Verif Require Import ModelStr ModelLabels ModelPage ModelJson ModelStore ModelProxy SpecPage SpecStore.

(** The value under [col] that the index of object [k] of cluster [c] has when the annotation is
    written: the metadata are not in it yet. *)
Definition annotated (E : env) (conf : gmap gostr gostr) (c : gostr) (k : kobj) (col : gostr) : option gostr :=
  if decide (col = str "is_deleted") then Some (if k_deleted k then str "true" else str "false")
  else if decide (col = str "cluster") then Some c
  else index_value E (OKube k) <$> conf !! col.
(** The columns for the configured indexes [conf]: cluster, namespace if configured, name; then the
    others in byte order. *)
Definition columns (conf : gmap gostr gostr) (cols : list gostr) : Prop :=
  exists rest,
    cols = str "cluster" :: (if decide (is_Some (conf !! str "namespace")) then [str "namespace"] else []) ++ str "name" :: rest /\
    StronglySorted (fun a b => str_ltb a b = true) rest /\
    forall x, x ∈ rest <-> x ∉ [str "cluster"; str "namespace"; str "name"] /\ (x = str "is_deleted" \/ is_Some (conf !! x)).
