(** Specification vocabulary for loads and reloads. *)
From Coq Require Import Ascii String NArith ZArith.
From stdpp Require Import base gmap strings list.
From Verif Require Import ModelStr ModelJson ModelObjType ModelStore ModelProxy ModelWatcher ModelReload.

(** The number of reloads that begin in a trace, and of those under way in a state. *)
Definition begins (tr : list slabel) : nat := length (List.filter (fun l => match l with SBegin _ => true | _ => false end) tr).
Definition busy (y : sys) : nat := match s_reload y with None => 0 | Some _ => 1 end.
(** No reload ends or begins in a trace. *)
Definition same_round (tr : list slabel) : Prop :=
  forall l, l ∈ tr -> match l with SBegin _ | SFail | SDone => False | _ => True end.
(** What the process works with: configuration, watcher, store and clients. *)
Definition handles (y : sys) : nat * nat * nat * nat :=
  (p_conf (s_proc y), p_watcher (s_proc y), p_store (s_proc y), p_clients (s_proc y)).
(** The server as it is once started, before any request. *)
Definition begun (ld : loaded) : sys := Sys (started ld) None [].
(** The token of the n-th configuration lets a header in. *)
Definition lets_in (y : sys) (n : nat) (header : gostr) : Prop :=
  exists ld, p_loads (s_proc y) !! n = Some ld /\
    (cf_token (ld_conf ld) = [] \/ exists a b, header = a ++ cf_token (ld_conf ld) ++ b).

(** ** Loading *)
(** The kubeconfig in use: the one given, or the one below $HOME if it exists. *)
Inductive kube_path (W : world) : gostr -> gostr -> Prop :=
  | kp_given k : k <> [] -> kube_path W k k
  | kp_home : w_stat W (w_home W ++ str "/.kube/config") = true -> kube_path W [] (w_home W ++ str "/.kube/config").
(** Default cluster and clients: from the kubeconfig, or the service account as the only cluster. *)
Inductive clusters_are (W : world) (kube : gostr) (fc : file_conf) : gostr -> gmap gostr client -> Prop :=
  | ca_file k bs kc cs :
      kube_path W kube k -> w_read W k = Some bs -> w_kube W bs = Some kc ->
      (forall x, x ∈ kc_contexts kc -> w_rest W k x = true) ->
      (forall x, cs !! x = None <-> x ∉ kc_contexts kc) ->
      (forall x, x ∈ kc_contexts kc -> cs !! x = w_client W k x) ->
      clusters_are W kube fc (kc_current kc) cs
  | ca_account cl cs d :
      kube = [] -> w_stat W (w_home W ++ str "/.kube/config") = false -> w_rest W [] [] = true -> w_client W [] [] = Some cl ->
      (fc_default fc = [] /\ d = str "default" \/ fc_default fc <> [] /\ d = fc_default fc) ->
      (forall x, cs !! x = if decide (x = d) then Some cl else None) ->
      clusters_are W kube fc d cs.
(** The result of a load. *)
Definition loads_as (W : world) (kube file : gostr) (ld : loaded) : Prop :=
  exists bs fc d cs, w_read W file = Some bs /\ decode_conf bs = Some fc /\ clusters_are W kube fc d cs /\
    (d = [] /\ cf_default (ld_conf ld) = str "default" \/ d <> [] /\ cf_default (ld_conf ld) = d) /\
    cf_token (ld_conf ld) = fc_token fc /\
    cf_proxies (ld_conf ld) = map (fun p => (pc_gvr p, pc_kind p)) (fc_proxies fc) /\
    ld_clients ld = cs /\
    (forall g c, (g, c) ∈ ld_watch ld <-> (exists p, p ∈ fc_proxies fc /\ pc_gvr p = g) /\ is_Some (cs !! c)) /\
    (forall g m, ld_index ld !! g = Some m <->
       exists a p b, fc_proxies fc = a ++ p :: b /\ pc_gvr p = g /\ pc_index p = m /\ forall p', p' ∈ b -> pc_gvr p' <> g).

(** ** The configuration file as JSON, one way to write it *)
Definition proxy_json (p : proxy_conf) : json :=
  JObj [(str "group", JStr (pc_gvr p).1.1); (str "version", JStr (pc_gvr p).1.2); (str "resource", JStr (pc_gvr p).2);
        (str "list_kind", JStr (pc_kind p)); (str "index", JObj (map (fun kv : gostr * gostr => (kv.1, JStr kv.2)) (sorted_map (pc_index p))))].
Definition conf_json (fc : file_conf) : json :=
  JObj [(str "proxies", JArr (map proxy_json (fc_proxies fc))); (str "default_cluster", JStr (fc_default fc)); (str "token", JStr (fc_token fc))].
(** All its texts are UTF-8. *)
Definition proxy_utf8 (p : proxy_conf) : Prop :=
  (forall s, s ∈ [(pc_gvr p).1.1; (pc_gvr p).1.2; (pc_gvr p).2; pc_kind p] -> valid_utf8 s = true) /\
  (forall k v, pc_index p !! k = Some v -> valid_utf8 k = true /\ valid_utf8 v = true).
Definition conf_utf8 (fc : file_conf) : Prop :=
  valid_utf8 (fc_default fc) = true /\ valid_utf8 (fc_token fc) = true /\ forall p, p ∈ fc_proxies fc -> proxy_utf8 p.
