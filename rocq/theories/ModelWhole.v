(** The running process together with the clusters: the process of cmd/cacheproxy/main.go with all its watchers,
    old and new (ModelReload), and the API servers they watch (ModelFollow). *)
From Coq Require Import Ascii String NArith ZArith.
From stdpp Require Import base gmap strings list.
From Verif Require Import ModelStr ModelStore ModelWatcher ModelReload ModelFollow.

(** [wh_feeds]: for each load and each type and cluster it watches, what the API server has for this goroutine.
    Watches of the same cluster have feeds of their own; that their changes are the same is not required. *)
Record whole := Whole { wh_sys : sys; wh_feeds : list (list feed) }.
Inductive hlabel := HDo (l : slabel) | HChange (n i : nat) (it : item).
(** Steps in which the watchers and the API servers have no part. *)
Definition ordinary (l : slabel) : Prop := match l with SWatch _ _ | SDo (IBuild _) => False | _ => True end.
Section whole.
  Context (E : env) (cf : bool) (kube file : gostr).
  (** A new watcher (watcher.go:195-202, main.go:158-160) meets the clusters as they are; a step of a goroutine of
      the n-th load (watcher.go:131-193) is one with the API server it watches. *)
  Inductive hstep : whole -> hlabel -> whole -> Prop :=
  | hs_other y l y' fs : sstep E cf kube file y l y' -> ordinary l -> hstep (Whole y fs) (HDo l) (Whole y' fs)
  | hs_build y ld y' fs new : sstep E cf kube file y (SDo (IBuild ld)) y' ->
      fstart E (ld_watch ld) (ld_index ld) (FSys (wstart (ld_watch ld) (ld_index ld)) new) ->
      hstep (Whole y fs) (HDo (SDo (IBuild ld))) (Whole y' (fs ++ [new]))
  | hs_watch y n i l y' fs ld w w' f f' : sstep E cf kube file y (SWatch n (WAct i l)) y' ->
      p_loads (s_proc y) !! n = Some ld -> p_systems (s_proc y) !! n = Some w -> p_systems (s_proc y') !! n = Some w' -> fs !! n = Some f ->
      fstep E (ld_watch ld) (ld_index ld) (FSys w f) (FAct i l) (FSys w' f') ->
      hstep (Whole y fs) (HDo (SWatch n (WAct i l))) (Whole y' (<[n := f']> fs))
  | hs_change y fs n i it f d : fs !! n = Some f -> f !! i = Some d -> change it ->
      hstep (Whole y fs) (HChange n i it) (Whole y (<[n := <[i := Feed (fd_log d ++ [it]) (fd_rest d) (fd_behind d ++ [it])]> f]> fs)).
  (** The process once main has loaded for the first time (main.go:178-183). *)
  Definition hstart (ld : loaded) (x : whole) : Prop :=
    wh_sys x = Sys (started ld) None [] /\
    exists f, wh_feeds x = [f] /\ fstart E (ld_watch ld) (ld_index ld) (FSys (wstart (ld_watch ld) (ld_index ld)) f).
End whole.
