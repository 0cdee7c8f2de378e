(** The gauge ckube_resources_total of utils/prommonitor/metrics.go:28-31 while configurations are reloaded: one
    gauge for all stores, set after each event (memory.go:149, 158, 167) and reset by main (main.go:214). *)
From Coq Require Import Ascii String NArith ZArith.
From stdpp Require Import base gmap strings list.
From Verif Require Import ModelStr ModelStore ModelProxy ModelWatcher ModelReload.

Notation gauge := (gmap (gostr * gvr * gostr) N).
(** memory.go:149-150, 158-159, 167-168: what goroutine [i] of a watcher sets when it deals with an event; [w'] is
    the state after the event.  Counting and setting are one step: only this goroutine changes what is counted. *)
Definition sets (E : env) (ws : list (gvr * gostr)) (w w' : wsys) (i : nat) : option (gostr * gvr * gostr * N) :=
  match ws !! i, ws_phases w !! i with
  | Some (g, c), Some (PGot _ (IEvent t o)) =>
      match t with
      | EvOther => None
      | _ => let ns := (build E (conf_of (ws_store w) g) c o).1.1 in
             Some (c, g, ns, ns_len (st_map (ws_store w')) g c ns)
      end
  | _, _ => None
  end.
Definition set_gauge (E : env) (y y' : sys) (l : slabel) (m : gauge) : gauge :=
  match l with
  | SWatch n (WAct i LApply) =>
      match p_loads (s_proc y) !! n, p_systems (s_proc y) !! n, p_systems (s_proc y') !! n with
      | Some ld, Some w, Some w' => match sets E (ld_watch ld) w w' i with Some (k, v) => <[k := v]> m | None => m end
      | _, _, _ => m
      end
  | _ => m
  end.
(** The system of ModelReload with the gauge; [gs_reset] says that Reset was called in this round, right before
    the old watcher is stopped (main.go:214-215). *)
Record gsys := GSys { gs_sys : sys; gs_gauge : gauge; gs_reset : bool }.
Inductive glabel := GReset | GStep (l : slabel).
Section gauge.
  Context (E : env) (cf : bool) (kube file : gostr).
  Inductive gstep : gsys -> glabel -> gsys -> Prop :=
  | gs_do_reset y p m : s_reload y = Some (Do IStop p) -> gstep (GSys y m false) GReset (GSys y ∅ true)
  | gs_stop y y' m : sstep E cf kube file y (SDo IStop) y' -> gstep (GSys y m true) (GStep (SDo IStop)) (GSys y' m false)
  | gs_other y l y' m b : sstep E cf kube file y l y' -> l <> SDo IStop ->
      gstep (GSys y m b) (GStep l) (GSys y' (set_gauge E y y' l m) b).
  (** An execution with its trace, the last step first. *)
  Inductive gruns (x : gsys) : list glabel -> gsys -> Prop :=
  | gruns_nil : gruns x [] x
  | gruns_cons tr x1 l x2 : gruns x tr x1 -> gstep x1 l x2 -> gruns x (l :: tr) x2.
End gauge.
