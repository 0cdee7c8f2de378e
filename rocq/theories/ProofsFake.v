(** Lemmas about the fake server. *)
From Coq Require Import Ascii String NArith ZArith Lia.
From stdpp Require Import base gmap strings list.
From Verif Require Import ModelStr ProofsStr ModelPage ModelJson ModelStore SpecStore ProofsStore ModelUrl ModelProxy ModelObjType ModelFake SpecFake.

(** ** The query loop *)
Lemma param_tagged cl c kv : tagged c kv -> fake_param (Some cl) kv = Some c.
Proof.
  intros [Hk [rest Hv]]. unfold fake_param. rewrite Hv. cbn [hd].
  assert (str_eqb kv.1 (str "fieldManager") || str_eqb kv.1 (str "resourceVersion") = true) as ->.
  { apply orb_true_iff. destruct Hk as [-> | ->]; [left|right]; apply str_eqb_refl. }
  change (str "dsm-cluster-") with cluster_prefix. rewrite has_prefix_app. by rewrite drop_app.
Qed.
Lemma param_untagged cl kv : (forall c, ~ tagged c kv) ->
  (kv.1 = str "watch" -> to_lower (hd [] kv.2) <> str "true" /\ to_lower (hd [] kv.2) <> str "1") ->
  fake_param (Some cl) kv = Some cl.
Proof.
  intros Ht Hw. unfold fake_param. destruct (str_eqb kv.1 (str "fieldManager") || str_eqb kv.1 (str "resourceVersion")) eqn:Hk.
  - destruct (has_prefix cluster_prefix (hd [] kv.2)) eqn:Hp; [|done]. exfalso.
    apply has_prefix_true in Hp as [c Hc]. apply (Ht c). split.
    + apply orb_true_iff in Hk as [Hk|Hk]; apply str_eqb_eq in Hk; auto.
    + destruct (kv.2) as [|v rest]; cbn [hd] in Hc; [discriminate Hc|]. exists rest. by rewrite Hc.
  - destruct (str_eqb_spec kv.1 (str "watch")) as [Hk'|]; [|done]. destruct (Hw Hk') as [H1 H2].
    apply str_eqb_neq in H1, H2. by rewrite H1, H2.
Qed.
Lemma tagged_dec kv : (exists c, tagged c kv) \/ (forall c, ~ tagged c kv).
Proof.
  destruct (has_prefix cluster_prefix (hd [] kv.2)) eqn:Hp.
  - apply has_prefix_true in Hp as [c Hc].
    destruct (decide (kv.1 = str "fieldManager" \/ kv.1 = str "resourceVersion")) as [Hk|Hk].
    + left. exists c. split; [done|]. destruct (kv.2) as [|v rest]; cbn [hd] in Hc; [discriminate Hc|]. exists rest. by rewrite Hc.
    + right. intros c' [H _]. done.
  - right. intros c [_ [rest Hv]]. rewrite Hv in Hp. cbn [hd] in Hp. change (str "dsm-cluster-") with cluster_prefix in Hp.
    by rewrite has_prefix_app in Hp.
Qed.
Lemma no_watch_cons kv q : no_watch (kv :: q) -> no_watch q.
Proof. intros H kv' Hin. apply H. by right. Qed.
Lemma params_untagged q cl : no_watch q -> (forall kv c, kv ∈ q -> ~ tagged c kv) -> fold_left fake_param q (Some cl) = Some cl.
Proof.
  revert cl. induction q as [|kv q IH]; intros cl Hw Ht; [done|]. cbn [fold_left].
  rewrite param_untagged; [|intros c; apply Ht; left|apply Hw; left].
  apply IH; [by eapply no_watch_cons|]. intros kv' c Hin. apply Ht. by right.
Qed.
Lemma params_tagged q cl c : no_watch q -> (cl = c \/ exists kv, kv ∈ q /\ tagged c kv) ->
  (forall kv c', kv ∈ q -> tagged c' kv -> c' = c) -> fold_left fake_param q (Some cl) = Some c.
Proof.
  revert cl. induction q as [|kv q IH]; intros cl Hw Hex Hall.
  { destruct Hex as [->|(kv & Hin & _)]; [done|]. by apply elem_of_nil in Hin. }
  cbn [fold_left].
  assert (forall kv' c', kv' ∈ q -> tagged c' kv' -> c' = c) as Hall' by (intros kv' c' Hin; apply Hall; by right).
  destruct (tagged_dec kv) as [[c' Ht]|Hn].
  - rewrite (param_tagged _ _ _ Ht). apply IH; [by eapply no_watch_cons| |done]. left. eapply Hall; [left|done].
  - rewrite param_untagged; [|done|apply Hw; left]. apply IH; [by eapply no_watch_cons| |done].
    destruct Hex as [->|(kv' & Hin & Ht)]; [by left|]. apply elem_of_cons in Hin as [->|Hin]; [by destruct (Hn c)|eauto].
Qed.
Lemma params_cluster cf q c : no_watch q -> query_cluster cf q c -> fake_params cf q = Some c.
Proof.
  intros Hw [(kv & Hin & Ht & Hall)|[Hn ->]]; unfold fake_params.
  - apply params_tagged; [done|eauto|done].
  - by apply params_untagged.
Qed.

Lemma no_watch_perm q q' : q ≡ₚ q' -> no_watch q -> no_watch q'.
Proof. intros Hp H kv Hin. apply H. by rewrite Hp. Qed.
Lemma query_cluster_perm cf q q' c : q ≡ₚ q' -> query_cluster cf q c -> query_cluster cf q' c.
Proof.
  intros Hp [(kv & Hin & Ht & Hall)|[Hn ->]].
  - left. exists kv. split; [by rewrite <- Hp|]. split; [done|]. intros kv' c' Hin'. apply Hall. by rewrite Hp.
  - right. split; [|done]. intros kv' c' Hin'. apply Hn. by rewrite Hp.
Qed.
Lemma asks_perm JE cf q q' r op : q ≡ₚ q' -> asks JE cf q r op -> asks JE cf q' r op.
Proof.
  intros Hp []; econstructor; eauto using no_watch_perm, query_cluster_perm.
  match goal with H : _ \/ _ |- _ => destruct H as [?|[? ?]] end; [by left|right]. eauto using query_cluster_perm.
Qed.

(** ** One request *)
Lemma to_obj_key E conf o : obj_key E conf (to_obj o) = (me_namespace (t_meta o), me_name (t_meta o)).
Proof. done. Qed.
Lemma holds_get st A g c ns n : holds st A -> (if A (g, c, ns, n) then is_Some (store_get st g c ns n) else store_get st g c ns n = None).
Proof. intros H. specialize (H g c ns n). destruct (A _), (store_get _ _ _ _ _); try done; by eexists. Qed.
Lemma on_event_get (E : env) st k st' g c ns n : do_call E st k = Ok st' ->
  store_get st' g c ns n = en_obj <$> after E (conf_of st g) k g c ns n (lookup_entry st g c ns n).
Proof. intros H. unfold store_get. by rewrite (call_lookup E _ _ _ g c ns n H). Qed.
Lemma holds_put (E : env) st A g c (o : objtype) k st' : k = CAdd g c (to_obj o) \/ k = CMod g c (to_obj o) -> do_call E st k = Ok st' ->
  holds st A -> holds st' (set_at A (g, c, me_namespace (t_meta o), me_name (t_meta o)) (Some o)).
Proof.
  intros Hk Hd HA g' c' ns n. rewrite (on_event_get _ _ _ _ _ _ _ _ Hd). unfold set_at, after.
  specialize (HA g' c' ns n).
  assert (call_gvr k = g /\ call_cluster k = c) as [-> ->] by (by destruct Hk as [-> | ->]).
  destruct (decide ((g', c', ns, n) = (g, c, me_namespace (t_meta o), me_name (t_meta o)))) as [[= -> -> -> ->]|Hne].
  - rewrite decide_True by done. destruct Hk as [-> | ->]; rewrite to_obj_key, decide_True by done; apply build_stored.
  - destruct (decide (g = g' /\ c = c')) as [[-> ->]|]; [|done].
    destruct Hk as [-> | ->]; rewrite to_obj_key, decide_False by naive_solver; done.
Qed.
Lemma holds_del (E : env) st A g c (o : objtype) st' : do_call E st (CDel g c (to_obj o)) = Ok st' ->
  holds st A -> holds st' (set_at A (g, c, me_namespace (t_meta o), me_name (t_meta o)) None).
Proof.
  intros Hd HA g' c' ns n. rewrite (on_event_get _ _ _ _ _ _ _ _ Hd). unfold set_at, after. cbn [call_gvr call_cluster].
  specialize (HA g' c' ns n).
  destruct (decide ((g', c', ns, n) = (g, c, me_namespace (t_meta o), me_name (t_meta o)))) as [[= -> -> -> ->]|Hne].
  - rewrite decide_True by done. by rewrite to_obj_key, decide_True by done.
  - destruct (decide (g = g' /\ c = c')) as [[-> ->]|]; [|done]. by rewrite to_obj_key, decide_False by naive_solver.
Qed.
Lemma call_runs (E : env) st k : is_Some (st_map st !! call_gvr k) -> exists st', do_call E st k = Ok st' /\ st_conf st' = st_conf st /\
  forall g, is_Some (st_map st' !! g) <-> is_Some (st_map st !! g).
Proof.
  intros [m Hm]. destruct (do_call E st k) as [st'|] eqn:Hd; [|apply call_panics in Hd; congruence]. exists st'. split; [done|].
  split; [by eapply call_conf|]. intros g. apply (run_dom E st [k]). cbn [run_calls]. by rewrite Hd.
Qed.

(** What the handler does for a request that asks for an operation. *)
Definition do_op (E : env) (marshal : obj -> gostr) (st : store) (bs : gostr) (op : oop) : objtype -> result (store * fanswer * option event) := fun od =>
  let go a k g c ns n o raw :=
    match do_call E st k with
    | Panics => Panics
    | Ok st' => Ok (st', FObj (annotated E st g c o), Some (Event a g c ns n raw))
    end in
  match op with
  | OCreate (g, c, ns, n) o =>
      match store_get st g c ns n with Some _ => Ok (st, FErr 400, None) | None => go AAdd (CAdd g c (to_obj o)) g c ns n o bs end
  | OUpdate (g, c, ns, n) o =>
      match store_get st g c ns n with Some _ => go AUpdate (CMod g c (to_obj o)) g c ns n o bs | None => Ok (st, FErr 404, None) end
  | ODelete (g, c, ns, n) =>
      match store_get st g c ns n with Some old => go ADelete (CDel g c (to_obj od)) g c ns n od (marshal old) | None => Ok (st, FErr 404, None) end
  | OWipe => Panics
  end.
Definition names (o : objtype) (ns n : gostr) : Prop := me_namespace (t_meta o) = ns /\ me_name (t_meta o) = n.
Lemma proxy_op (E : env) (JE : jenv) marshal cf order st r op : asks JE cf order r op ->
  exists bs od, rq_body r = Some bs /\ fake_proxy E JE marshal cf order st r = do_op E marshal st bs op od /\
    match op with
    | OCreate (g, c, ns, n) o | OUpdate (g, c, ns, n) o => g = url_gvr r /\ names o ns n
    | ODelete (g, c, ns, n) => g = url_gvr r /\ names od ns n
    | OWipe => False
    end.
Proof.
  intros Ha. destruct Ha as [c bs o Hm Hw Hc Hb Hd Hn|c bs o Hm Hw Hc Hb Hd Hn|c bs o n Hm Hw Hb Hd Hdry Hn].
  - exists bs, o. split; [done|]. split; [|done]. unfold fake_proxy. rewrite (params_cluster _ _ _ Hw Hc), Hb, Hd. cbv zeta.
    assert (match var r (str "resourceName") with [] => me_name (t_meta (with_ns o (var r (str "namespace")))) | n => n end = me_name (t_meta o)) as ->.
    { destruct Hn as [->|Hn]; [done|]. rewrite Hn. cbn [with_ns t_meta me_name]. by destruct (me_name (t_meta o)). }
    rewrite Hm, str_eqb_refl. reflexivity.
  - exists bs, o. split; [done|]. split; [|done]. unfold fake_proxy. rewrite (params_cluster _ _ _ Hw Hc), Hb, Hd. cbv zeta.
    assert (match var r (str "resourceName") with [] => me_name (t_meta (with_ns o (var r (str "namespace")))) | n => n end = me_name (t_meta o)) as ->.
    { destruct Hn as [->|Hn]; [done|]. rewrite Hn. cbn [with_ns t_meta me_name]. by destruct (me_name (t_meta o)). }
    rewrite Hm, str_eqb_refl. change (str_eqb (str "PUT") (str "POST")) with false. cbv iota.
    fold (url_gvr r). unfold do_op. by destruct (store_get st (url_gvr r) c (var r (str "namespace")) (me_name (t_meta o))).
  - exists bs, (with_ns (with_name (with_ns o (var r (str "namespace"))) n) (var r (str "namespace"))). split; [done|]. split; [|done]. unfold fake_proxy.
    assert (exists c0, fake_params cf order = Some c0 /\ 
      match do_dry (decode_opts bs) with
      | [d] => if has_prefix cluster_prefix d then drop (length cluster_prefix) d else c0
      | _ => c0 end = c) as (c0 & -> & Hcl).
    { destruct Hdry as [Hdry|[Hno Hc]].
      - rewrite Hdry. change (str "dsm-cluster-") with cluster_prefix. rewrite has_prefix_app, drop_app.
        assert (exists c0, fake_params cf order = Some c0) as [c0 ->]; [|eauto].
        unfold fake_params. generalize (cf_default cf). revert Hw. clear. induction order as [|kv q IH]; intros Hw cl; [cbn; eauto|].
        cbn [fold_left]. destruct (tagged_dec kv) as [[c' Ht]|Hn]; [rewrite (param_tagged _ _ _ Ht)|rewrite param_untagged; [|done|apply Hw; left]];
          apply IH; by eapply no_watch_cons.
      - exists c. split; [by apply params_cluster|]. destruct (do_dry (decode_opts bs)) as [|d [|? ?]]; [done| |done].
        destruct (has_prefix cluster_prefix d) eqn:Hp; [|done]. apply has_prefix_true in Hp as [t ->]. by destruct (Hno t). }
    rewrite Hb, Hd. cbv zeta.
    assert (match var r (str "resourceName") with [] => me_name (t_meta (with_ns o (var r (str "namespace")))) | n => n end = n) as ->.
    { rewrite Hn. by destruct (var r (str "resourceName")). }
    rewrite Hm, str_eqb_refl. change (str_eqb (str "DELETE") (str "POST")) with false. change (str_eqb (str "DELETE") (str "PUT")) with false. cbv iota.
    rewrite Hcl. fold (url_gvr r). unfold do_op. by destruct (store_get st (url_gvr r) c (var r (str "namespace")) n).
Qed.

Lemma perform_step (E : env) (JE : jenv) marshal cf order st r op A :
  asks JE cf order r op -> is_Some (st_map st !! url_gvr r) -> holds st A ->
  exists st' a e, fake_proxy E JE marshal cf order st r = Ok (st', a, e) /\
    status a = Some (perform A op).1 /\ holds st' (perform A op).2 /\ st_conf st' = st_conf st /\
    (forall g, is_Some (st_map st' !! g) <-> is_Some (st_map st !! g)) /\
    ((perform A op).1 = 200%N -> exists e', e = Some e' /\ announces op e') /\
    ((perform A op).1 <> 200%N -> e = None /\ st' = st).
Proof.
  intros Ha Hg HA. destruct (proxy_op E JE marshal cf order st r op Ha) as (bs & od & _ & -> & Hop).
  destruct op as [[[[g c] ns] n] o|[[[g c] ns] n] o|[[[g c] ns] n]|]; [..|done]; destruct Hop as (-> & <- & <-);
    unfold do_op; cbn [perform].
  1: pose proof (holds_get _ _ (url_gvr r) c (me_namespace (t_meta o)) (me_name (t_meta o)) HA) as Hget; destruct (A _);
     [destruct Hget as [x ->]|rewrite Hget; destruct (call_runs E st (CAdd (url_gvr r) c (to_obj o)) Hg) as (st' & Hr & Hcf & Hdom); rewrite Hr].
  3: pose proof (holds_get _ _ (url_gvr r) c (me_namespace (t_meta o)) (me_name (t_meta o)) HA) as Hget; destruct (A _);
     [destruct Hget as [x ->]; destruct (call_runs E st (CMod (url_gvr r) c (to_obj o)) Hg) as (st' & Hr & Hcf & Hdom); rewrite Hr|rewrite Hget].
  5: pose proof (holds_get _ _ (url_gvr r) c (me_namespace (t_meta od)) (me_name (t_meta od)) HA) as Hget; destruct (A _);
     [destruct Hget as [x ->]; destruct (call_runs E st (CDel (url_gvr r) c (to_obj od)) Hg) as (st' & Hr & Hcf & Hdom); rewrite Hr|rewrite Hget].
  all: eexists _, _, _; split; [reflexivity|]; cbn [fst snd status]; split; [done|].
  1, 4, 6: split; [done|]; split; [done|]; split; [done|]; split; [discriminate|done].
  all: split; [|split; [done|]; split; [done|]; split; [intros _; eexists; split; [reflexivity|split; reflexivity]|intros Hx; by destruct Hx]].
  - eapply holds_put; [left|..]; done.
  - eapply holds_put; [right|..]; done.
  - by eapply holds_del.
Qed.

(** ** Sequences *)
Lemma perform_run (E : env) (JE : jenv) marshal cf conf h ops A st :
  Forall2 (asks_in JE cf (fun g => is_Some (conf !! g))) h ops -> st_conf st = conf ->
  (forall g, is_Some (st_map st !! g) <-> is_Some (conf !! g)) -> holds st A ->
  exists st' al el, fake_run E JE marshal cf st h = Ok (st', al, el) /\
    status <$> al = Some <$> (perform_all A ops).1.1 /\
    Forall2 announces (perform_all A ops).1.2 el /\ holds st' (perform_all A ops).2.
Proof.
  intros HF. revert A st. induction HF as [|i op h ops Hi HF IH]; intros A st Hcf Hdom HA.
  { exists st, [], []. cbn. auto. }
  destruct Hi as [order r op Hperm Ha Hg|].
  1: apply (asks_perm _ _ _ order) in Ha; [|by symmetry].
  - destruct (perform_step E JE marshal cf order st r op A Ha) as (st1 & a & e & Hp & Hs & HA1 & Hcf1 & Hdom1 & Hev & Hno); [by apply Hdom|done|].
    cbn [fake_run]. rewrite Hp.
    destruct (IH (perform A op).2 st1) as (st2 & al & el & Hr & Hst & Han & HA2); [congruence|intros g; by rewrite Hdom1|done|].
    rewrite Hr. eexists _, _, _. split; [reflexivity|].
    assert (perform_all A (op :: ops) =
      let '(s, A1) := perform A op in let '(ss, es, A2) := perform_all A1 ops in (s :: ss, if (s =? 200)%N then op :: es else es, A2)) as ->.
    { destruct Ha; done. }
    destruct (perform A op) as [s A1]. cbn [fst snd] in *. destruct (perform_all A1 ops) as [[ss es] A2]. cbn [fst snd] in *.
    split; [cbn; by rewrite Hs, Hst|]. split; [|done].
    destruct (s =? 200)%N eqn:Es.
    + apply N.eqb_eq in Es as ->. destruct (Hev eq_refl) as (e' & -> & He'). by constructor.
    + apply N.eqb_neq in Es. destruct (Hno Es) as [-> _]. done.
  - cbn [fake_run perform_all]. apply IH.
    + done.
    + intros g. rewrite <- Hcf. apply new_dom.
    + intros g c ns n. unfold store_get, lookup_entry, fake_clean, new_store. cbn [st_map].
      rewrite lookup_fmap. destruct (st_conf st !! g); cbn; [by rewrite lookup_empty|done].
Qed.
