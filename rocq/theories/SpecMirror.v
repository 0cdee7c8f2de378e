(** Specification of a cache that mirrors the clusters (C79). *)
From Coq Require Import Ascii String NArith ZArith.
From stdpp Require Import base gmap strings list.
From Verif Require Import ModelStr ModelStore ModelWatcher ModelFollow SpecStore SpecWatcher SpecFollow.

(** A new cache to which every object is added that there is after these changes, in any order and nothing
    else: [changes] has the changes of each pair of a type and a cluster. *)
Definition mirrors (E : env) (conf : gmap gvr (gmap gostr gostr)) (ws : list (gvr * gostr)) (changes : list (list item)) (st : store) : Prop :=
  exists calls, run_calls E (new_store conf) calls = Ok st /\
    forall k, k ∈ calls <-> exists i g c log ns n o, ws !! i = Some (g, c) /\ changes !! i = Some log /\
      last_put E (default ∅ (conf !! g)) log ns n o /\ k = CAdd g c o.
(** The watches of a type are in step, after these changes. *)
Definition type_in_step (ws : list (gvr * gostr)) (y : fsys) (changes : list (list item)) (g : gvr) : Prop :=
  forall i c, ws !! i = Some (g, c) -> exists ph f, ws_phases (fs_w y) !! i = Some ph /\ fs_feeds y !! i = Some f /\ in_step ph f /\
    changes !! i = Some (take (position f) (fd_log f)).
