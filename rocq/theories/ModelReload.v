(** cmd/cacheproxy/main.go, common/config.go, server/server.go (ResetStore and the reads of the handler):
    loading the configuration and replacing it while requests are served. *)
From Coq Require Import Ascii String NArith ZArith.
From stdpp Require Import base gmap strings list.
From Verif Require Import ModelStr ModelJson ModelStore ModelProxy ModelObjType ModelWatcher.

(** ** The configuration file *)
(** common/config.go:3-9, 15-20. *)
Record proxy_conf := ProxyConf { pc_gvr : gvr; pc_kind : gostr; pc_index : gmap gostr gostr }.
Record file_conf := FileConf { fc_proxies : list proxy_conf; fc_default : gostr; fc_token : gostr }.
Definition zero_proxy : proxy_conf := ProxyConf ([], [], []) [] ∅.
Definition zero_conf : file_conf := FileConf [] [] [].
(** json.Unmarshal stores what fits and reports the first value that does not; null fits everywhere and
    changes nothing (a map element it leaves empty).  Field names match as in [fold_key]. *)
Definition str_fits (v : json) : bool := match v with JStr _ | JNull => true | _ => false end.
Definition map_fits (v : json) : bool :=
  match v with JObj l => forallb (fun kv : gostr * json => str_fits kv.2) l | JNull => true | _ => false end.
Definition proxy_field_fits (kv : gostr * json) : bool :=
  let k := fold_key kv.1 in
  if str_eqb k (str "group") || str_eqb k (str "version") || str_eqb k (str "resource") || str_eqb k (str "list_kind")
  then str_fits kv.2
  else if str_eqb k (str "index") then map_fits kv.2 else true.
Definition proxy_fits (v : json) : bool :=
  match v with JObj l => forallb proxy_field_fits l | JNull => true | _ => false end.
Definition conf_field_fits (kv : gostr * json) : bool :=
  let k := fold_key kv.1 in
  if str_eqb k (str "proxies") then match kv.2 with JArr l => forallb proxy_fits l | JNull => true | _ => false end
  else if str_eqb k (str "default_cluster") || str_eqb k (str "token") then str_fits kv.2 else true.
Definition conf_fits (v : json) : bool :=
  match v with JObj l => forallb conf_field_fits l | JNull => true | _ => false end.
Definition set_proxy_field (p : proxy_conf) (kv : gostr * json) : proxy_conf :=
  let '(k, v) := kv in
  let '(ProxyConf (g, ver, r) kind idx) := p in
  let k := fold_key k in
  if str_eqb k (str "group") then ProxyConf (set_str g v, ver, r) kind idx
  else if str_eqb k (str "version") then ProxyConf (g, set_str ver v, r) kind idx
  else if str_eqb k (str "resource") then ProxyConf (g, ver, set_str r v) kind idx
  else if str_eqb k (str "list_kind") then ProxyConf (g, ver, r) (set_str kind v) idx
  else if str_eqb k (str "index") then ProxyConf (g, ver, r) kind (set_map idx v)
  else p.
Definition set_proxy (p : proxy_conf) (v : json) : proxy_conf :=
  match v with JObj l => fold_left set_proxy_field l p | _ => p end.
(** A second list of proxies is stored over the elements of the first, as encoding/json does. *)
Definition set_conf_field (c : file_conf) (kv : gostr * json) : file_conf :=
  let '(k, v) := kv in
  let k := fold_key k in
  if str_eqb k (str "proxies") then FileConf (set_list zero_proxy set_proxy (fc_proxies c) v) (fc_default c) (fc_token c)
  else if str_eqb k (str "default_cluster") then FileConf (fc_proxies c) (set_str (fc_default c) v) (fc_token c)
  else if str_eqb k (str "token") then FileConf (fc_proxies c) (fc_default c) (set_str (fc_token c) v)
  else c.
(** main.go:71-80: json.Unmarshal(bs, &cfg); [None] is an error. *)
Definition decode_conf (bs : gostr) : option file_conf :=
  match json_parse bs with
  | None => None
  | Some v => if conf_fits v then
                Some (match v with JObj l => fold_left set_conf_field l zero_conf | _ => zero_conf end)
              else None
  end.

(** ** Loading *)
(** A client of the Kubernetes API; only its identity matters. *)
Definition client := N.
(** The fields of the kubeconfig used: current-context and the names of the contexts. *)
Record kube_conf := KubeConf { kc_current : gostr; kc_contexts : list gostr }.
(** What the load reads: files, os.Stat, $HOME, the parser of kubeconfig texts (yaml.Unmarshal, then
    json.Unmarshal) and client-go: the configuration and client of (kubeconfig, context).  They do not change
    during one load. *)
Record world := World {
  w_read : gostr -> option gostr;
  w_stat : gostr -> bool;
  w_home : gostr;
  w_kube : gostr -> option kube_conf;
  w_rest : gostr -> gostr -> bool;
  w_client : gostr -> gostr -> option client }.
(** The result of a load: the configuration, the clients, the configuration of the indexes and the types and
    clusters to watch. *)
Record loaded := Loaded {
  ld_conf : config; ld_clients : gmap gostr client; ld_index : gmap gvr (gmap gostr gostr); ld_watch : list (gvr * gostr) }.
(** path.Join($HOME, ".kube/config"); $HOME is taken to be a clean path. *)
Definition default_kube (W : world) : gostr := w_home W ++ str "/.kube/config".
(** main.go:121-136: the loop over the contexts. *)
Fixpoint add_contexts (W : world) (k : gostr) (l : list gostr) (cs : gmap gostr client) : option (gmap gostr client) :=
  match l with
  | [] => Some cs
  | x :: l' => if w_rest W k x then match w_client W k x with
                                    | None => None
                                    | Some cl => add_contexts W k l' (<[x := cl]> cs)
                                    end
               else None
  end.
(** main.go:81-138: the default cluster and the clients. *)
Definition load_clusters (W : world) (kube : gostr) (fc : file_conf) : option (gostr * gmap gostr client) :=
  let from_file k := match w_read W k with
                     | None => None
                     | Some bs => match w_kube W bs with
                                  | None => None
                                  | Some kc => match add_contexts W k (kc_contexts kc) ∅ with
                                               | None => None
                                               | Some cs => Some (kc_current kc, cs)
                                               end
                                  end
                     end in
  match kube with
  | [] => if w_stat W (default_kube W) then from_file (default_kube W)
          else if w_rest W [] [] then
                 let d := match fc_default fc with [] => str "default" | d => d end in
                 match w_client W [] [] with
                 | None => None
                 | Some cl => Some (d, {[ d := cl ]})
                 end
               else None
  | _ => from_file kube
  end.
(** main.go:144-160: later proxies of the same type override the index of earlier ones; every type is
    watched in every cluster (watcher.go:195-202). *)
Definition index_conf (ps : list proxy_conf) : gmap gvr (gmap gostr gostr) :=
  fold_left (fun m p => <[pc_gvr p := pc_index p]> m) ps ∅.
Definition watch_list (ps : list proxy_conf) (cs : gmap gostr client) : list (gvr * gostr) :=
  concat (map (fun p => map (fun kv : gostr * client => (pc_gvr p, kv.1)) (map_to_list cs)) ps).

(** What the goroutine that reloads does, one visible effect after the other: the global configuration
    (common.InitConfig), the new store with its watcher started, the old watcher stopped, the variable [w],
    and the two assignments of ResetStore. *)
Inductive instr := IConf (ld : loaded) | IBuild (ld : loaded) | IStop | ISetWatcher | ISetStore | ISetClients.
(** A program that fails, returns a value, or has an effect and goes on. *)
Inductive prog (A : Type) := Fail | Ret (a : A) | Do (i : instr) (p : prog A).
Arguments Fail {A}.
Arguments Ret {A} a.
Arguments Do {A} i p.
Fixpoint bind {A B} (p : prog A) (f : A -> prog B) : prog B :=
  match p with Fail => Fail | Ret a => f a | Do i p' => Do i (bind p' f) end.
(** main.go:68-162 loadFromConfig. *)
Definition load (W : world) (kube file : gostr) : prog loaded :=
  match w_read W file with
  | None => Fail
  | Some bs =>
      match decode_conf bs with
      | None => Fail
      | Some fc =>
          match load_clusters W kube fc with
          | None => Fail
          | Some (d, cs) =>
              let cf := init_config (Config d (fc_token fc) (map (fun p => (pc_gvr p, pc_kind p)) (fc_proxies fc))) in
              let ld := Loaded cf cs (index_conf (fc_proxies fc)) (watch_list (fc_proxies fc) cs) in
              Do (IConf ld) (Do (IBuild ld) (Ret ld))
          end
      end
  end.
(** main.go:196-218: one round of the loop; for the reset of the gauge see ModelGauge. *)
Definition reload (W : world) (kube file : gostr) : prog loaded :=
  bind (load W kube file) (fun ld => Do IStop (Do ISetWatcher (Do ISetStore (Do ISetClients (Ret ld))))).

(** ** The process *)
(** Everything allocated by the n-th successful load is named n: its configuration, clients and index
    configuration, its store and watcher. *)
Record proc := Proc {
  p_loads : list loaded;          (* configurations and clients allocated *)
  p_systems : list wsys;          (* stores and watchers allocated *)
  p_conf : nat;                   (* common.cfg *)
  p_watcher : nat;                (* the variable w of main *)
  p_store : nat;                  (* muxServer.store *)
  p_clients : nat }.              (* muxServer.clusterClients *)
(** The effect of one instruction; new objects get the next number. *)
Definition newest {A} (l : list A) : nat := Nat.pred (length l).
Definition do_instr (i : instr) (s : proc) : proc :=
  match i with
  | IConf ld => Proc (p_loads s ++ [ld]) (p_systems s) (length (p_loads s)) (p_watcher s) (p_store s) (p_clients s)
  | IBuild ld => Proc (p_loads s) (p_systems s ++ [wstart (ld_watch ld) (ld_index ld)]) (p_conf s) (p_watcher s) (p_store s) (p_clients s)
  | IStop => Proc (p_loads s) (alter (fun w => WSys (ws_store w) (ws_phases w) true) (p_watcher s) (p_systems s))
               (p_conf s) (p_watcher s) (p_store s) (p_clients s)
  | ISetWatcher => Proc (p_loads s) (p_systems s) (p_conf s) (newest (p_systems s)) (p_store s) (p_clients s)
  | ISetStore => Proc (p_loads s) (p_systems s) (p_conf s) (p_watcher s) (newest (p_systems s)) (p_clients s)
  | ISetClients => Proc (p_loads s) (p_systems s) (p_conf s) (p_watcher s) (p_store s) (newest (p_loads s))
  end.
(** The process once main has loaded for the first time (main.go:178-183). *)
Definition started (ld : loaded) : proc :=
  Proc [ld] [wstart (ld_watch ld) (ld_index ld)] 0 0 0 0.

(** A request in flight (server.go:154-169), on a route that requires the token or not, with its Authorization
    header.  The configuration is read for the token, a second time if the token is not empty; then the clients
    and the store are read, and the handler may read the configuration again (default cluster).  The Go
    specification does not fix the order of the two reads in the composite literal; [cf] says whether the
    clients are read first. *)
Record req := Req_ { q_required : bool; q_header : gostr;
  q_token1 : option nat; q_token2 : option nat; q_clients : option nat; q_store : option nat; q_later : list nat }.
Definition new_req (required : bool) (header : gostr) : req := Req_ required header None None None None [].
Inductive action := AToken1 | AToken2 | AClients | AStore | ALater.
Definition token_of (s : proc) (n : nat) : gostr := match p_loads s !! n with Some ld => cf_token (ld_conf ld) | None => [] end.
(** server.go:154-163: the handler is reached. *)
Definition admitted (s : proc) (q : req) : bool :=
  negb (q_required q) ||
  match q_token1 q with
  | None => false
  | Some n1 => str_eqb (token_of s n1) [] ||
               match q_token2 q with None => false | Some n2 => contains (q_header q) (token_of s n2) end
  end.
(** server.go:155-163: the answer is 401. *)
Definition turned_away (s : proc) (q : req) : bool :=
  match q_token2 q with None => false | Some n2 => negb (contains (q_header q) (token_of s n2)) end.
Definition req_act (cf : bool) (a : action) (s : proc) (q : req) : option req :=
  let '(Req_ rq h t1 t2 c st l) := q in
  match a, t1, t2, c, st with
  | AToken1, None, None, None, None => if rq then Some (Req_ rq h (Some (p_conf s)) t2 c st l) else None
  | AToken2, Some n1, None, None, None => if str_eqb (token_of s n1) [] then None else Some (Req_ rq h t1 (Some (p_conf s)) c st l)
  | AClients, _, _, None, None => if cf && admitted s q then Some (Req_ rq h t1 t2 (Some (p_clients s)) st l) else None
  | AStore, _, _, Some _, None => if cf then Some (Req_ rq h t1 t2 c (Some (p_store s)) l) else None
  | AStore, _, _, None, None => if negb cf && admitted s q then Some (Req_ rq h t1 t2 c (Some (p_store s)) l) else None
  | AClients, _, _, None, Some _ => if cf then None else Some (Req_ rq h t1 t2 (Some (p_clients s)) st l)
  | ALater, _, _, Some _, Some _ => Some (Req_ rq h t1 t2 c st (l ++ [p_conf s]))
  | _, _, _, _, _ => None
  end.

(** The whole system: the process, the goroutine that reloads ([None]: waiting for an event) and the requests.
    Reads and writes of a variable are single steps and seen in the order they are made. *)
Record sys := Sys { s_proc : proc; s_reload : option (prog loaded); s_reqs : list req }.
Inductive slabel := SBegin (W : world) | SFail | SDone | SDo (i : instr) | SWatch (n : nat) (l : wlabel) | SArrive (required : bool) (header : gostr) | SReq (i : nat) (a : action).
Section system.
  Context (E : env) (cf : bool) (kube file : gostr).
  Inductive sstep : sys -> slabel -> sys -> Prop :=
  | ss_begin s W qs : sstep (Sys s None qs) (SBegin W) (Sys s (Some (reload W kube file)) qs)
  | ss_fail s qs : sstep (Sys s (Some Fail) qs) SFail (Sys s None qs)
  | ss_done s ld qs : sstep (Sys s (Some (Ret ld)) qs) SDone (Sys s None qs)
  | ss_do s i p qs : sstep (Sys s (Some (Do i p)) qs) (SDo i) (Sys (do_instr i s) (Some p) qs)
  | ss_watch s r qs n ld w i l w' : p_loads s !! n = Some ld -> p_systems s !! n = Some w -> wstep E (ld_watch ld) w (WAct i l) w' ->
      sstep (Sys s r qs) (SWatch n (WAct i l))
        (Sys (Proc (p_loads s) (<[n := w']> (p_systems s)) (p_conf s) (p_watcher s) (p_store s) (p_clients s)) r qs)
  | ss_arrive s r qs rq h : sstep (Sys s r qs) (SArrive rq h) (Sys s r (qs ++ [new_req rq h]))
  | ss_req s r qs i a q q' : qs !! i = Some q -> req_act cf a s q = Some q' ->
      sstep (Sys s r qs) (SReq i a) (Sys s r (<[i := q']> qs)).
  (** An execution with its trace, the last step first. *)
  Inductive sruns (s0 : sys) : list slabel -> sys -> Prop :=
  | sruns_nil : sruns s0 [] s0
  | sruns_cons tr s l s' : sruns s0 tr s -> sstep s l s' -> sruns s0 (l :: tr) s'.
End system.

(** ** File events *)
(** utils/fs_watcher.go:66-106: the operation reported (a bit mask compared for equality; anything else than
    exactly Write or Remove is ignored), whether the watch can be added again, the files still watched. *)
Inductive fs_op := FsWrite | FsRemove | FsOther.
Inductive fs_out := FChanged (f : gostr) | FError (f : gostr).
Definition fs_event (ws : gset gostr) (f : gostr) (op : fs_op) (added : bool) : gset gostr * option fs_out :=
  match op with
  | FsWrite => (ws, Some (FChanged f))
  | FsRemove => if added then (ws ∖ {[ f ]} ∪ {[ f ]}, Some (FChanged f)) else (ws ∖ {[ f ]}, Some (FError f))
  | FsOther => (ws, None)
  end.
(** A sequence of changes to files; those of files not watched are not reported. *)
Fixpoint fs_run (ws : gset gostr) (evs : list (gostr * fs_op * bool)) : gset gostr * list fs_out :=
  match evs with
  | [] => (ws, [])
  | (f, op, added) :: evs' =>
      if decide (f ∈ ws) then
        let '(ws1, o) := fs_event ws f op added in
        let '(ws2, os) := fs_run ws1 evs' in
        (ws2, match o with Some x => x :: os | None => os end)
      else fs_run ws evs'
  end.
(** utils/fs_watcher.go:37-53, main.go:184-190: the files watched; every one has to exist, or nothing is
    watched and there is no reload. *)
Definition watched_files (W : world) (kube file : gostr) : gset gostr :=
  let files := [file; match kube with [] => default_kube W | _ => kube end] in
  if forallb (w_stat W) files then list_to_set files else ∅.
