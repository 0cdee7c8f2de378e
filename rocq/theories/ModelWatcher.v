(** watcher/watcher.go: the goroutines that fill the cache from watch streams. *)
From Coq Require Import Ascii String NArith ZArith.
From stdpp Require Import base gmap strings list.
From Verif Require Import ModelStr ModelStore ModelProxy.

(** strings.TrimRight: the cutset is a set of characters, not a suffix (ASCII cutsets only). *)
Fixpoint trim_right (cutset s : gostr) : gostr :=
  match s with
  | [] => []
  | c :: s' => match trim_right cutset s' with
               | [] => if existsb (ch_eqb c) cutset then [] else [c]
               | t => c :: t
               end
  end.
(** watcher.go:115-119: the kind under which generic objects are decoded. *)
Definition watch_kind (proxies : list (gvr * gostr)) (g : gvr) : gostr := trim_right (str "List") (kind_in proxies g).

(** What a watch stream delivers; [EvOther] stands for errors and bookmarks, which are only logged or ignored. *)
Inductive ev_type := EvAdded | EvModified | EvDeleted | EvOther.
Inductive item := IEvent (t : ev_type) (o : obj) | IClosed.
(** Where the goroutine of one type and cluster is (watcher.go:137-192).  [PIdle]: before the test of [stop];
    [PConn]: before Watch; [PStream first]: at the select; [PGot first i]: an item was received, and with
    [first] the Clean is still to be done; [PDone]: returned. *)
Inductive phase := PIdle | PConn | PStream (first : bool) | PGot (first : bool) (i : item) | PDone.
Inductive label := LCheck | LConnect | LFail | LRecv (i : item) | LClean | LApply | LQuit.
Definition event_call (g : gvr) (c : gostr) (i : item) : list call :=
  match i with
  | IEvent EvAdded o => [CAdd g c o]
  | IEvent EvModified o => [CMod g c o]
  | IEvent EvDeleted o => [CDel g c o]
  | IEvent EvOther _ | IClosed => []
  end.
Section watcher.
  Context (E : env).
  (** One step of a goroutine; [stop] says whether the channel is closed.  Connecting can fail or succeed and
      a stream delivers anything.  Sleeping (watcher.go:156, 181) and the one hour timeout, which closes the
      stream, have no state.  Each call of the store is one step here; see ModelConc for its locks. *)
  Inductive wact (g : gvr) (c : gostr) (stop : bool) : store -> phase -> label -> store -> phase -> Prop :=
  | w_check st : stop = false -> wact g c stop st PIdle LCheck st PConn
  | w_quit st : stop = true -> wact g c stop st PIdle LQuit st PDone
  | w_connect st : wact g c stop st PConn LConnect st (PStream true)
  | w_fail st : wact g c stop st PConn LFail st PIdle
  | w_recv st f i : wact g c stop st (PStream f) (LRecv i) st (PGot f i)
  | w_quit_stream st f : stop = true -> wact g c stop st (PStream f) LQuit st PDone
  | w_clean st st' i : run_calls E st [CClean g c] = Ok st' -> wact g c stop st (PGot true i) LClean st' (PGot false i)
  | w_apply st st' i : run_calls E st (event_call g c i) = Ok st' ->
      wact g c stop st (PGot false i) LApply st' (match i with IClosed => PIdle | _ => PStream false end).
  (** All goroutines (watcher.go:195-202), the store they share, and Stop (41-44). *)
  Record wsys := WSys { ws_store : store; ws_phases : list phase; ws_stop : bool }.
  Inductive wlabel := WAct (i : nat) (l : label) | WStop.
  Inductive wstep (ws : list (gvr * gostr)) : wsys -> wlabel -> wsys -> Prop :=
  | wstep_act w i g c ph l st' ph' :
      ws !! i = Some (g, c) -> ws_phases w !! i = Some ph -> wact g c (ws_stop w) (ws_store w) ph l st' ph' ->
      wstep ws w (WAct i l) (WSys st' (<[i := ph']> (ws_phases w)) (ws_stop w))
  | wstep_stop w : wstep ws w WStop (WSys (ws_store w) (ws_phases w) true).
  (** An execution, with its trace, the last step first. *)
  Inductive wruns (ws : list (gvr * gostr)) (w0 : wsys) : list wlabel -> wsys -> Prop :=
  | wruns_nil : wruns ws w0 [] w0
  | wruns_cons tr w l w' : wruns ws w0 tr w -> wstep ws w l w' -> wruns ws w0 (l :: tr) w'.
  Definition wstart (ws : list (gvr * gostr)) (conf : gmap gvr (gmap gostr gostr)) : wsys :=
    WSys (new_store conf) (map (fun _ => PIdle) ws) false.
End watcher.
