(** Specification of what a watch leaves in the cache. *)
From Coq Require Import Ascii String NArith ZArith.
From stdpp Require Import base gmap strings list.
From Verif Require Import ModelStr ModelStore ModelWatcher SpecStore.

(** The items the goroutine [i] received from its latest stream, in order; the trace has the last step first. *)
Fixpoint latest (i : nat) (tr : list wlabel) : list item :=
  match tr with
  | [] => []
  | WAct j l :: tr' =>
      if bool_decide (j = i) then
        match l with LConnect => [] | LRecv x => latest i tr' ++ [x] | _ => latest i tr' end
      else latest i tr'
  | WStop :: tr' => latest i tr'
  end.
(** The last event about an object named [n] in [ns] put [o] there. *)
Definition last_put (E : env) (conf : gmap gostr gostr) (items : list item) (ns n : gostr) (o : obj) : Prop :=
  exists before t after, items = before ++ IEvent t o :: after /\ (t = EvAdded \/ t = EvModified) /\ obj_key E conf o = (ns, n) /\
    forall t' o', IEvent t' o' ∈ after -> t' <> EvOther -> obj_key E conf o' <> (ns, n).
(** The cached objects of a type in a cluster are those the items put there. *)
Definition cache_is (E : env) (conf : gmap gvr (gmap gostr gostr)) (st : store) (g : gvr) (c : gostr) (items : list item) : Prop :=
  forall ns n,
    (forall o', store_get st g c ns n = Some o' -> exists o, last_put E (default ∅ (conf !! g)) items ns n o /\ stored_as c o o') /\
    (forall o, last_put E (default ∅ (conf !! g)) items ns n o -> exists o', store_get st g c ns n = Some o' /\ stored_as c o o').
(** Only one goroutine watches this type in this cluster. *)
Definition alone (ws : list (gvr * gostr)) (i : nat) (g : gvr) (c : gostr) : Prop :=
  ws !! i = Some (g, c) /\ forall j, ws !! j = Some (g, c) -> j = i.
