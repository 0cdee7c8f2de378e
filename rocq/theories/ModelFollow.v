(** The clusters behind the watch streams: what an API server sends to the goroutines of watcher/watcher.go. *)
From Coq Require Import Ascii String NArith ZArith.
From stdpp Require Import base gmap strings list.
From Verif Require Import ModelStr ModelStore ModelWatcher SpecStore SpecWatcher.

(** Not code of /repo: the API server at the other end of watcher.go:142-152.  The watch request has no
    resourceVersion, so the server first sends every object there is as ADDED, in any order, and then every later
    change.  A stream may be closed at any moment, and errors or bookmarks may come in between.
    [fd_log]: all changes of this type in this cluster so far, the oldest first.  For the latest connection:
    [fd_rest] is what is left of the first part, [fd_behind] the changes after it that the goroutine has not
    dealt with; without a connection it goes on collecting. *)
Record feed := Feed { fd_log : list item; fd_rest : list item; fd_behind : list item }.
Definition change (it : item) : Prop := exists t o, it = IEvent t o /\ t <> EvOther.
Definition is_change (it : item) : bool := match it with IEvent EvOther _ | IClosed => false | _ => true end.
Definition drop_first (f : feed) : feed :=
  match fd_rest f with
  | _ :: r => Feed (fd_log f) r (fd_behind f)
  | [] => Feed (fd_log f) [] (tail (fd_behind f))
  end.
Section follow.
  Context (E : env).
  (** The objects that exist after the changes, each once. *)
  Definition snapshot (cf : gmap gostr gostr) (log init : list item) : Prop :=
    exists os, init = map (IEvent EvAdded) os /\ NoDup (map (obj_key E cf) os) /\
      forall ns n o, last_put E cf log ns n o <-> o ∈ os /\ obj_key E cf o = (ns, n).
  (** What the server does in a step of the goroutine (watcher.go:151-190) that is at [ph]. *)
  Inductive serves (cf : gmap gostr gostr) (f : feed) : phase -> label -> feed -> Prop :=
  | sv_connect init : snapshot cf (fd_log f) init -> serves cf f PConn LConnect (Feed (fd_log f) init [])
  | sv_recv b it : is_change it = false \/ head (fd_rest f ++ fd_behind f) = Some it -> serves cf f (PStream b) (LRecv it) f
  | sv_apply it : serves cf f (PGot false it) LApply (if is_change it then drop_first f else f)
  | sv_other ph l : (l = LCheck \/ l = LFail \/ l = LClean \/ l = LQuit) -> serves cf f ph l f.
  Record fsys := FSys { fs_w : wsys; fs_feeds : list feed }.
  Inductive flabel := FAct (i : nat) (l : label) | FChange (i : nat) (it : item) | FStop.
  Inductive fstep (ws : list (gvr * gostr)) (conf : gmap gvr (gmap gostr gostr)) : fsys -> flabel -> fsys -> Prop :=
  | fstep_act y i g c ph l w' f f' : ws !! i = Some (g, c) -> ws_phases (fs_w y) !! i = Some ph -> fs_feeds y !! i = Some f ->
      wstep E ws (fs_w y) (WAct i l) w' -> serves (default ∅ (conf !! g)) f ph l f' ->
      fstep ws conf y (FAct i l) (FSys w' (<[i := f']> (fs_feeds y)))
  | fstep_change y i f it : fs_feeds y !! i = Some f -> change it ->
      fstep ws conf y (FChange i it) (FSys (fs_w y) (<[i := Feed (fd_log f ++ [it]) (fd_rest f) (fd_behind f ++ [it])]> (fs_feeds y)))
  | fstep_stop y w' : wstep E ws (fs_w y) WStop w' -> fstep ws conf y FStop (FSys w' (fs_feeds y)).
  (** At the start the cache is empty and the clusters are as they are. *)
  Definition fstart (ws : list (gvr * gostr)) (conf : gmap gvr (gmap gostr gostr)) (y : fsys) : Prop :=
    fs_w y = wstart ws conf /\ length (fs_feeds y) = length ws /\
    forall i g c f, ws !! i = Some (g, c) -> fs_feeds y !! i = Some f ->
      Forall change (fd_log f) /\ snapshot (default ∅ (conf !! g)) (fd_log f) (fd_rest f) /\ fd_behind f = [].
  Inductive fruns (ws : list (gvr * gostr)) (conf : gmap gvr (gmap gostr gostr)) (y0 : fsys) : list flabel -> fsys -> Prop :=
  | fruns_nil : fruns ws conf y0 [] y0
  | fruns_cons tr y l y' : fruns ws conf y0 tr y -> fstep ws conf y l y' -> fruns ws conf y0 (l :: tr) y'.
End follow.
