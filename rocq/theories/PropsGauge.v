(** C66: the gauge of cached resources while configurations are reloaded. *)
From Coq Require Import Ascii String NArith ZArith Lia.
From stdpp Require Import base gmap strings list.
From Verif Require Import ModelStr ModelJson ModelStore ModelProxy ModelObjType ModelWatcher ModelReload ModelGauge SpecStore SpecWatcher SpecReload
  ProofsStr ProofsStore ProofsIndex ProofsGauge ProofsWatcher ProofsReload PropsStore PropsStore3 PropsWatcher PropsReload.

(** ** Lemmas *)
Definition counted (st : store) (g : gvr) (c ns : gostr) : N := ns_len (st_map st) g c ns.
Lemma counted_names st g c ns names : cached_names st g c ns names -> counted st g c ns = N.of_nat (length names).
Proof.
  intros Hn. destruct (names_of st g c ns) as (names' & Hn' & Hl). rewrite (names_unique st g c ns names names' Hn Hn'), Hl.
  unfold counted, ns_len, nss_of. destruct (st_map st !! g) as [cs|]; [|done]. cbn [mbind option_bind]. destruct (cs !! c) as [nss|]; [|done].
  cbn [mbind option_bind]. by destruct (nss !! ns).
Qed.
Lemma counted_ext st st' g c ns : (forall n, lookup_entry st' g c ns n = lookup_entry st g c ns n) -> counted st' g c ns = counted st g c ns.
Proof.
  intros H. destruct (names_of st g c ns) as (names & Hn & _). rewrite (counted_names st g c ns names Hn). apply counted_names.
  destruct Hn as [N1 N2]. split; [done|]. intros n. by rewrite H.
Qed.
Lemma act_other_count E g c stop st ph l st' ph' g' c' ns : wact E g c stop st ph l st' ph' -> (g, c) <> (g', c') ->
  counted st' g' c' ns = counted st g' c' ns.
Proof. intros Ha Hne. apply counted_ext. intros n. by eapply act_other. Qed.
Lemma apply_other_ns E g c st t o st' ns : run_calls E st (ModelWatcher.event_call g c (IEvent t o)) = Ok st' ->
  (build E (conf_of st g) c o).1.1 <> ns -> counted st' g c ns = counted st g c ns.
Proof.
  intros H Hne. apply counted_ext. intros n. destruct (item_lookup E _ _ _ _ _ g c ns n H) as [_ ->]. rewrite decide_True by done.
  rewrite build_key in Hne. unfold item_after. destruct t; try done. all: rewrite decide_False; [done|]; intros Hk; apply Hne; by rewrite Hk.
Qed.
Lemma label_apply (a : label) : a = LApply \/ a <> LApply.
Proof. destruct a; first [by left|by right]. Qed.
Lemma other_event (t : ev_type) : t = EvOther \/ t <> EvOther.
Proof. destruct t; first [by left|by right]. Qed.
(** What dealing with an item does to the store: an event sets one number of its own gauge. *)
Lemma apply_gauge E g c st i st' : run_calls E st (ModelWatcher.event_call g c i) = Ok st' ->
  match i with
  | IEvent t o => if match t with EvOther => true | _ => false end then st' = st
                  else let ns := (build E (conf_of st g) c o).1.1 in st_gauge st' = <[(c, g, ns) := counted st' g c ns]> (st_gauge st)
  | IClosed => st' = st
  end.
Proof.
  assert (forall f o, (match on_event E st g c o f with Ok s => Ok s | Panics => Panics end = Ok st') ->
    let ns := (build E (conf_of st g) c o).1.1 in st_gauge st' = <[(c, g, ns) := counted st' g c ns]> (st_gauge st)) as Hev.
  { intros f o H. destruct (on_event E st g c o f) as [s|] eqn:Ho; [|done]. injection H as ->.
    apply event_ok in Ho as (ns & n & e & m & Hb & Ha & _ & Hm & Hg). rewrite Hb. cbn [fst]. unfold counted. by rewrite Hm. }
  destruct i as [[] o|]; cbn [ModelWatcher.event_call run_calls do_call]; intros H.
  - by apply (Hev (fun name e m => <[name := e]> m) o).
  - by apply (Hev (fun name e m => <[name := e]> m) o).
  - by apply (Hev (fun name _ m => delete name m) o).
  - by injection H as ->.
  - by injection H as ->.
Qed.
Lemma act_gauge E g c stop st ph l st' ph' : wact E g c stop st ph l st' ph' -> l <> LApply -> st_gauge st' = st_gauge st.
Proof.
  intros Ha Hl. destruct Ha as [| | | | | |st st' i Hr|st st' i Hr]; try done. cbn [run_calls do_call] in Hr. unfold clean in Hr.
  destruct (st_map st !! g) as [cs|]; [|done]. destruct (cs !! c); by injection Hr as <-.
Qed.
Lemma system_kept E cf k f y l y' n w : sstep E cf k f y l y' -> p_systems (s_proc y) !! n = Some w ->
  exists w', p_systems (s_proc y') !! n = Some w' /\
    ((ws_store w' = ws_store w /\ ws_phases w' = ws_phases w /\ (forall i a, l <> SWatch n (WAct i a))) \/
     exists i a ld, l = SWatch n (WAct i a) /\ p_loads (s_proc y) !! n = Some ld /\ wstep E (ld_watch ld) w (WAct i a) w').
Proof.
  intros Hs Hw. destruct Hs as [s W qs|s qs|s ld qs|s i p qs|s r qs m ld w0 i l w' Hl Hw0 Hact|s r qs rq h|s r qs i a q q' Hq Ha]; cbn [s_proc] in *;
    try (exists w; split; [done|]; by left).
  - destruct i; cbn [do_instr p_systems].
    1,4,5,6: exists w; split; [done|]; by left.
    + exists w. split; [by apply lookup_app_l_Some|]. by left.
    + destruct (decide (p_watcher s = n)) as [->|Hne].
      * exists (WSys (ws_store w) (ws_phases w) true). split; [by rewrite list_lookup_alter, Hw|]. by left.
      * exists w. split; [by rewrite list_lookup_alter_ne|]. by left.
  - cbn [p_systems]. destruct (decide (m = n)) as [->|Hne].
    + rewrite Hw in Hw0. injection Hw0 as <-. exists w'. split; [apply list_lookup_insert; by eapply lookup_lt_Some|]. right. by exists i, l, ld.
    + exists w. split; [by rewrite list_lookup_insert_ne|]. left. split; [done|]. split; [done|]. intros i' a' [= ? _ _]. done.
Qed.
Lemma loads_step E cf k f y l y' n ld : sstep E cf k f y l y' -> p_loads (s_proc y) !! n = Some ld -> p_loads (s_proc y') !! n = Some ld.
Proof.
  intros Hs Hl. destruct Hs as [s W qs|s qs|s ld0 qs|s i p qs|s r qs m ld0 w0 i l w' Hl0 Hw0 Hact|s r qs rq h|s r qs i a q q' Hq Ha]; cbn [s_proc] in *; try done.
  destruct i; cbn [do_instr p_loads]; try done. by apply lookup_app_l_Some.
Qed.
Lemma gstep_sys E cf k f x l x' : gstep E cf k f x l x' -> match l with GReset => gs_sys x' = gs_sys x | GStep l => sstep E cf k f (gs_sys x) l (gs_sys x') end.
Proof. by destruct 1. Qed.

(** ** C66 *)
Section c66.
  Context (E : env) (cf : bool) (kube file : gostr).
  Local Notation gstep := (gstep E cf kube file).
  Local Notation gruns := (gruns E cf kube file).

  (** Until the first reload begins, the gauge is that of the only store, for which C28 holds. *)
  Theorem C66_before_reload ld tr y m b : gruns (GSys (begun ld) ∅ false) tr (GSys y m b) -> (forall W, GStep (SBegin W) ∉ tr) ->
    exists w, p_systems (s_proc y) = [w] /\ m = st_gauge (ws_store w).
  Proof.
    intros Hr Hb. enough (exists w, p_loads (s_proc y) = [ld] /\ p_systems (s_proc y) = [w] /\ s_reload y = None /\ m = st_gauge (ws_store w)) as (w & _ & H1 & _ & H2) by eauto.
    remember (GSys (begun ld) ∅ false) as x0 eqn:Hx0. remember (GSys y m b) as x eqn:Hx. revert y m b Hx.
    induction Hr as [|tr x1 l x2 Hr IH Hst]; intros y m b Hx; [|destruct x1 as [y1 m1 b1]].
    - rewrite Hx in Hx0. injection Hx0 as -> -> _. eexists. split; [reflexivity|]. split; [reflexivity|]. split; [done|]. done.
    - destruct (IH ltac:(intros W Hin; apply (Hb W); by right) y1 m1 b1 eq_refl) as (w & L & S & N & ->). clear IH Hr. subst x2.
      inversion Hst as [y0 p m0 Hp|y0 y0' m0 Hs|y0 l0 y0' m0 b0 Hs Hne]; subst.
      + congruence.
      + inversion Hs; subst. discriminate N.
      + destruct y1 as [s r qs]. cbn [s_proc s_reload] in *. subst r.
        inversion Hs as [s0 W qs0| | | |s0 r0 qs0 n ld0 w0 i a w1 Hl Hw Hact|s0 r0 qs0 rq h|s0 r0 qs0 i a q q' Hq Ha]; subst; cbn [s_proc s_reload set_gauge].
        * destruct (Hb W). left.
        * rewrite L in Hl. destruct n as [|n]; [|by rewrite lookup_nil in Hl || destruct n]. injection Hl as <-. rewrite S in Hw. injection Hw as <-.
          exists w1. cbn [p_loads p_systems]. rewrite S. cbn [insert list_insert]. split; [done|]. split; [done|]. split; [done|].
          inversion Hact as [w' i' g c ph a' st' ph' Hi Hph Ha|]; subst. cbn [ws_store].
          destruct (label_apply a) as [->|Hna].
          -- rewrite L. cbn [lookup list_lookup]. unfold sets. rewrite Hi, Hph. inversion Ha as [| | | | | | |st st1 x Hrun]; subst.
             pose proof (apply_gauge _ _ _ _ _ _ Hrun) as Hg. destruct x as [t o|]; [|by subst]. destruct t; cbn [ws_store]; [| | |by subst].
             all: rewrite Hg; reflexivity.
          -- rewrite <- (act_gauge _ _ _ _ _ _ _ _ _ Ha Hna). by destruct a.
        * by exists w.
        * by exists w.
  Qed.
  (** Whenever a watcher deals with an event, the number of its namespace becomes the number of objects that
      this watcher's store has there, and no other number changes. *)
  Theorem C66_event y m b n i y' m' b' ld w g c f t o names :
    gstep (GSys y m b) (GStep (SWatch n (WAct i LApply))) (GSys y' m' b') ->
    p_loads (s_proc y) !! n = Some ld -> p_systems (s_proc y) !! n = Some w ->
    ld_watch ld !! i = Some (g, c) -> ws_phases w !! i = Some (PGot f (IEvent t o)) -> t <> EvOther ->
    let ns := (obj_key E (conf_of (ws_store w) g) o).1 in
    exists w', p_systems (s_proc y') !! n = Some w' /\
      (cached_names (ws_store w') g c ns names -> m' !! (c, g, ns) = Some (N.of_nat (length names))) /\
      forall k, k <> (c, g, ns) -> m' !! k = m !! k.
  Proof.
    intros Hs Hld Hw Hi Hph Ht ns. inversion Hs as [|y0 y0' m0 Hst|y0 l0 y0' m0 b0 Hst Hne]; subst.
    destruct (system_kept _ _ _ _ _ _ _ n w Hst Hw) as (w' & Hw' & [(_ & _ & Hno)|(i' & a & ld' & [= <- <-] & Hl & Hws)]); [by destruct (Hno i LApply)|].
    exists w'. split; [done|]. cbn [set_gauge]. rewrite Hld, Hw, Hw'. unfold sets. rewrite Hi, Hph.
    assert (ns = (build E (conf_of (ws_store w) g) c o).1.1) as ->.
    { unfold ns. by rewrite <- (build_key E (conf_of (ws_store w) g) c o). }
    destruct t; [| | |done]. all: split; [intros Hn; rewrite lookup_insert; f_equal; by apply counted_names|intros k Hk; by rewrite lookup_insert_ne].
  Qed.
  (** What can spoil the number of a type in a cluster that the store [n] counts: a reset, another watcher's
      event, or a clean. *)
  Definition spoils (y : sys) (n : nat) (g : gvr) (c : gostr) (l : glabel) : Prop :=
    match l with
    | GReset => True
    | GStep (SWatch k (WAct i a)) => exists ld, p_loads (s_proc y) !! k = Some ld /\ ld_watch ld !! i = Some (g, c) /\
        (k <> n /\ a = LApply \/ k = n /\ a = LClean)
    | _ => False
    end.
  (** A number that is right stays right as long as nothing of this happens. *)
  Theorem C66_stays_right x tr y m b n w w' g c ns names : gruns x tr (GSys y m b) ->
    (forall l, l ∈ tr -> ~ spoils y n g c l) ->
    p_systems (s_proc (gs_sys x)) !! n = Some w -> (exists names, cached_names (ws_store w) g c ns names /\ gs_gauge x !! (c, g, ns) = Some (N.of_nat (length names))) ->
    p_systems (s_proc y) !! n = Some w' -> cached_names (ws_store w') g c ns names -> m !! (c, g, ns) = Some (N.of_nat (length names)).
  Proof.
    intros Hr Hsp Hw (names0 & Hn0 & Hg0) Hw' Hn. rewrite <- (counted_names _ _ _ _ _ Hn). rewrite <- (counted_names _ _ _ _ _ Hn0) in Hg0. clear Hn Hn0 names0 names.
    enough (exists w1, p_systems (s_proc y) !! n = Some w1 /\ m !! (c, g, ns) = Some (counted (ws_store w1) g c ns)) as (w1 & H1 & H2) by congruence. clear Hw' w'.
    change m with (gs_gauge (GSys y m b)). change (s_proc y) with (s_proc (gs_sys (GSys y m b))).
    change y with (gs_sys (GSys y m b)) in Hsp. revert Hr Hsp. generalize (GSys y m b) as x'. clear y m b. intros x' Hr.
    induction Hr as [|tr x1 l x2 Hr IH Hst]; intros Hsp; [by exists w|].
    assert (forall n0 ld0, p_loads (s_proc (gs_sys x1)) !! n0 = Some ld0 -> p_loads (s_proc (gs_sys x2)) !! n0 = Some ld0) as Hlm.
    { intros n0 ld0 Hl0. pose proof (gstep_sys _ _ _ _ _ _ _ Hst) as Hss. destruct l as [|l]; [by rewrite Hss|]. by eapply loads_step. }
    destruct IH as (w1 & Hw1 & Hg1).
    { intros l' Hin Hs'. apply (Hsp l'); [by right|]. destruct l' as [|[| | | |k [i a|]| |]]; try done. destruct Hs' as (ld & Hl & H). exists ld. split; [by apply Hlm|done]. }
    pose proof (Hsp l ltac:(left)) as Hl. clear Hsp Hr.
    destruct Hst as [y p m Hp|y y' m Hs|y l y' m b Hs Hne]; cbn [gs_sys gs_gauge] in *.
    - by destruct Hl.
    - destruct (system_kept _ _ _ _ _ _ _ n w1 Hs Hw1) as (w2 & Hw2 & [(Hst & _)|(i & a & ld & ? & _)]); [|done]. exists w2. split; [done|]. by rewrite Hst.
    - destruct (system_kept _ _ _ _ _ _ _ n w1 Hs Hw1) as (w2 & Hw2 & [(Hst & _ & Hno)|(i & a & ld & -> & Hld & Hws)]); exists w2; (split; [done|]).
      + rewrite Hst. destruct l as [| | | |k [i a|]| |]; try done. destruct a; try done. cbn [set_gauge].
        destruct (p_loads (s_proc y) !! k) as [ldk|] eqn:Elk; [|done]. destruct (p_systems (s_proc y) !! k) as [wk|] eqn:Esk; [|done].
        destruct (p_systems (s_proc y') !! k) as [wk'|]; [|done]. unfold sets. destruct (ld_watch ldk !! i) as [[g' c']|] eqn:Ei; [|done].
        destruct (ws_phases wk !! i) as [[| | |? [t o|]|]|]; try done.
        assert (k <> n) as Hkn by (intros ->; by destruct (Hno i LApply)).
        assert ((g', c') <> (g, c)) as Hgc.
        { intros [= -> ->]. apply Hl. exists ldk. split; [by apply Hlm|]. split; [done|]. by left. }
        destruct t; try done. all: rewrite lookup_insert_ne; [done|]. all: intros [= -> -> _]; done.
      + inversion Hws as [w0 i' g' c' ph a' st' ph' Hi Hph Ha|]; subst. cbn [ws_store] in *.
        destruct (decide ((g', c') = (g, c))) as [Heq|Hgc].
        * injection Heq as -> ->. destruct (label_apply a) as [->|Hna].
          -- cbn [set_gauge]. rewrite Hld, Hw1, Hw2. unfold sets. rewrite Hi, Hph. inversion Ha as [| | | | | | |st st1 x0 Hrun]; subst. cbn [ws_store].
             destruct x0 as [t o|]; [|pose proof (apply_gauge _ _ _ _ _ _ Hrun) as ->; done].
             destruct (other_event t) as [->|Ht]; [pose proof (apply_gauge _ _ _ _ _ _ Hrun) as Hx; cbn in Hx; by subst|].
             assert (match t with EvOther => None | _ => Some (c, g, (build E (conf_of (ws_store w1) g) c o).1.1, ns_len (st_map st') g c (build E (conf_of (ws_store w1) g) c o).1.1) end =
                     Some (c, g, (build E (conf_of (ws_store w1) g) c o).1.1, ns_len (st_map st') g c (build E (conf_of (ws_store w1) g) c o).1.1)) as -> by (by destruct t).
             destruct (decide ((build E (conf_of (ws_store w1) g) c o).1.1 = ns)) as [<-|Hns]; [by rewrite lookup_insert|].
             rewrite lookup_insert_ne by congruence. rewrite Hg1. f_equal. symmetry. by eapply (apply_other_ns E g c (ws_store w1) t o).
          -- assert (m !! (c, g, ns) = set_gauge E y y' (SWatch n (WAct i a)) m !! (c, g, ns)) as <- by (by destruct a).
             rewrite Hg1. f_equal. inversion Ha; subst; try done.
             exfalso. apply Hl. exists ld. split; [by apply Hlm|]. split; [done|]. by right.
        * assert (set_gauge E y y' (SWatch n (WAct i a)) m !! (c, g, ns) = m !! (c, g, ns)) as ->.
          { destruct a; try done. cbn [set_gauge]. rewrite Hld, Hw1, Hw2. unfold sets. rewrite Hi, Hph. destruct ph as [| | |? [t o|]|]; try done.
            destruct t; try done. all: rewrite lookup_insert_ne; [done|]. all: intros [= -> -> _]; done. }
          rewrite Hg1. f_equal. symmetry. by eapply act_other_count.
  Qed.
End c66.

(** ** Findings *)
(** The reload of a service account with one type or none. *)
Definition pods_text : gostr := str "{""proxies"": [{""version"": ""v1"", ""resource"": ""pods"", ""list_kind"": ""PodList""}]}".
Definition dflt : gostr := str "default".
Lemma reload_watch text fc : decode_conf text = Some fc -> fc_default fc = [] -> exists ld, reload (account_world text) [] (str "conf") = Do (IConf ld) (Do (IBuild ld) (tail4 ld)) /\
  ld_watch ld = map (fun p => (pc_gvr p, dflt)) (fc_proxies fc) /\ ld_index ld = index_conf (fc_proxies fc).
Proof.
  intros H Hd. unfold reload, load. change (w_read (account_world text) (str "conf")) with (Some text). cbv iota. rewrite H.
  unfold load_clusters. change (w_stat (account_world text) (default_kube (account_world text))) with false.
  change (w_rest (account_world text) [] []) with true. change (w_client (account_world text) [] []) with (Some 7%N). cbv iota zeta. rewrite Hd. cbv iota.
  eexists. split; [reflexivity|]. cbn [ld_watch ld_index]. split; [|reflexivity].
  unfold watch_list. rewrite map_to_list_singleton. induction (fc_proxies fc) as [|p ps IH]; [done|]. cbn [map concat app fst]. f_equal. exact IH.
Qed.
Lemma pods_conf : decode_conf pods_text = Some (FileConf [ProxyConf pods (str "PodList") ∅] [] []).
Proof. vm_compute. reflexivity. Qed.
Lemma none_conf : decode_conf (str "{}") = Some (FileConf [] [] []).
Proof. vm_compute. reflexivity. Qed.
Lemma gruns_app E cf k f x tr x1 tr2 x2 : gruns E cf k f x tr x1 -> gruns E cf k f x1 tr2 x2 -> gruns E cf k f x (tr2 ++ tr) x2.
Proof. intros H1. induction 1; [done|]. cbn [app]. by econstructor. Qed.
Definition put_system (n : nat) (w : wsys) (y : sys) : sys :=
  let s := s_proc y in Sys (Proc (p_loads s) (<[n := w]> (p_systems s)) (p_conf s) (p_watcher s) (p_store s) (p_clients s)) (s_reload y) (s_reqs y).
(** An execution of one watcher is one of the whole system. *)
Lemma lift_run E cf k f y m b n ld w tr w' : p_loads (s_proc y) !! n = Some ld -> p_systems (s_proc y) !! n = Some w -> wruns E (ld_watch ld) w tr w' -> WStop ∉ tr ->
  exists m', gruns E cf k f (GSys y m b) (map (fun l => GStep (SWatch n l)) tr) (GSys (put_system n w' y) m' b).
Proof.
  intros Hl Hw. induction 1 as [|tr w1 l w2 Hr IH Hst]; intros Hno.
  - exists m. assert (put_system n w y = y) as ->; [|constructor]. unfold put_system. rewrite list_insert_id by done. by destruct y as [[]].
  - destruct IH as [m1 IH]; [intros Hin; apply Hno; by right|]. destruct l as [i a|]; [|destruct Hno; left].
    exists (set_gauge E (put_system n w1 y) (put_system n w2 y) (SWatch n (WAct i a)) m1). cbn [map]. econstructor; [exact IH|]. apply gs_other; [|done].
    replace (put_system n w2 y) with (put_system n w2 (put_system n w1 y)) by (unfold put_system; cbn [s_proc p_loads p_systems p_conf p_watcher p_store p_clients s_reload s_reqs]; by rewrite list_insert_insert).
    apply (ss_watch E cf k f (s_proc (put_system n w1 y)) _ _ n ld w1 i a w2); [done| |done]. cbn. apply list_lookup_insert. by eapply lookup_lt_Some.
Qed.
Local Ltac gdo := first [apply gruns_nil|eapply gruns_cons; [gdo|first [eapply gs_do_reset; reflexivity|apply gs_stop; apply ss_do|apply gs_other; [first [apply ss_do|apply ss_done|apply ss_begin'; eassumption]|discriminate]]]].
(** The new watcher is started before the gauge is reset: what it has set is lost.  Here the reload is over,
    the watcher has dealt with all it has received, a pod is cached and there is no number. *)
Theorem C66_lost_refuted : exists E kube file ld tr y m w names, gruns E true kube file (GSys (begun ld) ∅ false) tr (GSys y m false) /\
  s_reload y = None /\ p_store (s_proc y) = p_watcher (s_proc y) /\ p_systems (s_proc y) !! p_watcher (s_proc y) = Some w /\
  Forall (fun ph => exists f, ph = PStream f) (ws_phases w) /\ cached_names (ws_store w) pods dflt dflt names /\ names <> [] /\ m !! (dflt, pods, dflt) = None.
Proof.
  destruct (reload_watch _ _ pods_conf eq_refl) as (ld & Hld & Hw & Hi). cbn [fc_proxies map] in Hw, Hi. change (pc_gvr (ProxyConf pods (str "PodList") ∅)) with pods in Hw.
  pose (tr := rev [WAct 0 LCheck; WAct 0 LConnect; WAct 0 (LRecv (put "a")); WAct 0 LClean; WAct 0 LApply]).
  assert (exists w, exec ex_env (ld_watch ld) (wstart (ld_watch ld) (ld_index ld)) tr = Some w /\ ws_phases w = [PStream false] /\ counted (ws_store w) pods dflt dflt = 1%N) as (w & Hx & Hph & Hc).
  { rewrite Hw, Hi. set (o := exec _ _ _ _).
    assert (match o with Some w => match ws_phases w with [PStream false] => N.eqb (counted (ws_store w) pods dflt dflt) 1 | _ => false end | None => false end = true) as H by (by vm_compute).
    clearbody o. destruct o as [w|]; [|discriminate H]. exists w. split; [done|]. destruct (ws_phases w) as [|[| |[]| |] []]; try discriminate H. split; [done|]. by apply N.eqb_eq. }
  apply exec_ok in Hx. unfold tail4 in Hld.
  pose (y1 := Sys (do_instr (IBuild ld) (do_instr (IConf ld) (started ld0))) (Some (tail4 ld)) []).
  destruct (lift_run ex_env true [] (str "conf") y1 ∅ false 1 ld _ tr w eq_refl eq_refl Hx) as (m1 & Hm1).
  { intros Hin. unfold tr in Hin. cbn in Hin. rewrite !elem_of_cons, elem_of_nil in Hin. by destruct Hin as [?|[?|[?|[?|[?|[]]]]]]. }
  destruct (names_of (ws_store w) pods dflt dflt) as (names & Hn & _).
  exists ex_env, [], (str "conf"), ld0.
  exists ([GStep SDone; GStep (SDo ISetClients); GStep (SDo ISetStore); GStep (SDo ISetWatcher); GStep (SDo IStop); GReset] ++
    map (fun l => GStep (SWatch 1 l)) tr ++ [GStep (SDo (IBuild ld)); GStep (SDo (IConf ld)); GStep (SBegin (account_world pods_text))]).
  eexists. exists ∅, w, names. split.
  - eapply gruns_app; [eapply gruns_app; [|exact Hm1]|].
    + unfold begun, y1. change (∅ : gauge) with (set_gauge ex_env (Sys (do_instr (IConf ld) (started ld0)) (Some (Do (IBuild ld) (tail4 ld))) []) y1 (SDo (IBuild ld)) ∅). unfold y1, tail4. gdo.
    + unfold put_system, y1, tail4. cbn [s_reload s_reqs]. gdo.
  - split; [reflexivity|]. split; [reflexivity|]. split; [reflexivity|]. split; [rewrite Hph; constructor; [by exists false|constructor]|]. split; [done|].
    split; [intros ->; rewrite (counted_names _ _ _ _ _ Hn) in Hc; discriminate|]. apply lookup_empty.
Qed.
(** An old goroutine that has received an event before Stop deals with it after the reset: here the reload is
    over, all old goroutines have ended, pods are not configured any more, and the gauge still has a pod. *)
Theorem C66_stale_refuted : exists E kube file ld tr y m w0 ld' w1, gruns E true kube file (GSys (begun ld) ∅ false) tr (GSys y m false) /\
  s_reload y = None /\ p_watcher (s_proc y) = 1 /\ p_loads (s_proc y) !! 1 = Some ld' /\ p_systems (s_proc y) = [w0; w1] /\
  Forall (fun ph => ph = PDone) (ws_phases w0) /\ ld_watch ld' = [] /\ m !! (dflt, pods, dflt) = Some 1%N.
Proof.
  destruct (reload_watch _ _ none_conf eq_refl) as (ld & Hld & Hw & Hi). cbn [fc_proxies map] in Hw, Hi.
  pose (ldp := Loaded (Config dflt [] [(pods, str "PodList")]) {[ dflt := 7%N ]} {[ pods := ∅ ]} [(pods, dflt)]).
  pose (tr := rev [WAct 0 LCheck; WAct 0 LConnect; WAct 0 (LRecv (put "a")); WAct 0 LClean]).
  pose (stopped := fun w => WSys (ws_store w) (ws_phases w) true).
  assert (exists w st2, exec ex_env (ld_watch ldp) (wstart (ld_watch ldp) (ld_index ldp)) tr = Some w /\ ws_phases w = [PGot false (put "a")] /\
    run_calls ex_env (ws_store w) (ModelWatcher.event_call pods dflt (put "a")) = Ok st2 /\ (build ex_env (conf_of (ws_store w) pods) dflt (pod "default" "a" "1")).1.1 = dflt /\
    counted st2 pods dflt dflt = 1%N) as (w & st2 & Hx & Hph & Hr & Hb & Hc).
  { set (o := exec _ _ _ _).
    assert (match o with Some w => phases_of o = [PGot false (put "a")] /\ match run_calls ex_env (ws_store w) (ModelWatcher.event_call pods dflt (put "a")) with Ok st2 => counted st2 pods dflt dflt = 1%N | Panics => False end /\
      (build ex_env (conf_of (ws_store w) pods) dflt (pod "default" "a" "1")).1.1 = dflt | None => False end) as H.
    { unfold o. vm_compute. split; [reflexivity|]. split; reflexivity. }
    clearbody o. destruct o as [w|]; [|destruct H]. destruct H as (H1 & H2 & H3). destruct (run_calls _ _ _) as [st2|] eqn:Hr; [|destruct H2]. by exists w, st2. }
  apply exec_ok in Hx. unfold tail4 in Hld.
  destruct (lift_run ex_env true [] (str "conf") (begun ldp) ∅ false 0 ldp _ tr w eq_refl eq_refl Hx) as (m1 & Hm1).
  { intros Hin. unfold tr in Hin. cbn in Hin. rewrite !elem_of_cons, elem_of_nil in Hin. by destruct Hin as [?|[?|[?|[?|[]]]]]. }
  pose (w2 := WSys st2 [PStream false] true). pose (w3 := WSys st2 [PDone] true). pose (wn := wstart (ld_watch ld) (ld_index ld)).
  pose (y a := Sys (Proc [ldp; ld] [a; wn] 1 1 1 1) None []).
  exists ex_env, [], (str "conf"), ldp.
  exists ([GStep (SWatch 0 (WAct 0 LQuit)); GStep (SWatch 0 (WAct 0 LApply))] ++
    [GStep SDone; GStep (SDo ISetClients); GStep (SDo ISetStore); GStep (SDo ISetWatcher); GStep (SDo IStop); GReset; GStep (SDo (IBuild ld)); GStep (SDo (IConf ld));
    GStep (SBegin (account_world (str "{}")))] ++ map (fun l => GStep (SWatch 0 l)) tr).
  exists (y w3), {[ (dflt, pods, dflt) := 1%N ]}, w3, ld, wn. split.
  - eapply gruns_app; [eapply (gruns_app _ _ _ _ _ _ _ _ (GSys (y (stopped w)) ∅ false)); [exact Hm1|]|].
    + unfold put_system, begun. cbn [s_reload s_reqs]. unfold y, stopped, wn. gdo.
    + eapply gruns_cons; [eapply gruns_cons; [apply gruns_nil|apply (gs_other _ _ _ _ _ _ (y w2)); [|discriminate]]|].
      * apply (ss_watch _ _ _ _ (Proc [ldp; ld] [stopped w; wn] 1 1 1 1) None [] 0 ldp (stopped w) 0 LApply w2); [reflexivity|reflexivity|].
        unfold w2. change [PStream false] with (<[0 := PStream false]> [PGot false (put "a")]). rewrite <- Hph.
        apply (wstep_act _ _ (stopped w) 0 pods dflt (PGot false (put "a")) LApply st2 (PStream false)); [reflexivity|cbn; by rewrite Hph|]. by apply (w_apply _ _ _ _ (ws_store w) st2 (put "a")).
      * cbn [set_gauge]. change (p_loads (s_proc (y (stopped w))) !! 0) with (Some ldp). change (p_systems (s_proc (y (stopped w))) !! 0) with (Some (stopped w)).
        change (p_systems (s_proc (y w2)) !! 0) with (Some w2). cbv iota. unfold sets. change (ld_watch ldp !! 0) with (Some (pods, dflt)).
        unfold stopped at 1. cbn [ws_phases]. rewrite Hph. cbn [lookup list_lookup put]. unfold stopped. cbn [ws_store]. rewrite Hb. change (ws_store w2) with st2.
        change (ns_len (st_map st2) pods dflt dflt) with (counted st2 pods dflt dflt). rewrite Hc.
        change ({[ (dflt, pods, dflt) := 1%N ]} : gauge) with (set_gauge ex_env (y w2) (y w3) (SWatch 0 (WAct 0 LQuit)) (<[ (dflt, pods, dflt) := 1%N ]> ∅)).
        apply gs_other; [|discriminate].
        apply (ss_watch _ _ _ _ (Proc [ldp; ld] [w2; wn] 1 1 1 1) None [] 0 ldp w2 0 LQuit w3); [reflexivity|reflexivity|].
        apply (wstep_act _ _ w2 0 pods dflt (PStream false) LQuit st2 PDone); [reflexivity|reflexivity|]. by apply w_quit_stream.
  - split; [reflexivity|]. split; [reflexivity|]. split; [reflexivity|]. split; [reflexivity|]. split; [constructor; [done|constructor]|]. split; [exact Hw|]. apply lookup_singleton.
Qed.
(** A run before any reload in two parts: after the first the gauge says one pod, after the second, which has
    nothing that spoils the number, two. *)
Definition ld_pods : loaded := Loaded (Config dflt [] [(pods, str "PodList")]) {[ dflt := 7%N ]} {[ pods := ∅ ]} [(pods, dflt)].
Example C66_ex : exists tr1 x tr2 y m w w', gruns ex_env true [] (str "conf") (GSys (begun ld_pods) ∅ false) tr1 x /\
  gruns ex_env true [] (str "conf") x tr2 (GSys y m false) /\ (forall W, GStep (SBegin W) ∉ tr2 ++ tr1) /\ (forall l, l ∈ tr2 -> ~ spoils y 0 pods dflt l) /\
  p_systems (s_proc (gs_sys x)) !! 0 = Some w /\ cached_names (ws_store w) pods dflt dflt [str "a"] /\ gs_gauge x !! (dflt, pods, dflt) = Some 1%N /\
  p_systems (s_proc y) !! 0 = Some w' /\ counted (ws_store w') pods dflt dflt = 2%N /\ m !! (dflt, pods, dflt) = Some 2%N.
Proof.
  pose (tr := rev [WAct 0 LCheck; WAct 0 LConnect; WAct 0 (LRecv (put "a")); WAct 0 LClean; WAct 0 LApply]). pose (tr' := rev [WAct 0 (LRecv (put "b")); WAct 0 LApply]).
  assert (exists w w', exec ex_env (ld_watch ld_pods) (wstart (ld_watch ld_pods) (ld_index ld_pods)) tr = Some w /\ exec ex_env (ld_watch ld_pods) w tr' = Some w' /\
    counted (ws_store w) pods dflt dflt = 1%N /\ counted (ws_store w') pods dflt dflt = 2%N /\ is_Some (lookup_entry (ws_store w) pods dflt dflt (str "a")) /\
    st_gauge (ws_store w) !! (dflt, pods, dflt) = Some 1%N /\ st_gauge (ws_store w') !! (dflt, pods, dflt) = Some 2%N) as (w & w' & Hx & Hx' & Hc & Hc' & Ha & G1 & G2).
  { set (o := exec _ _ _ tr).
    assert (match o with Some w => match exec ex_env (ld_watch ld_pods) w tr' with Some w' => N.eqb (counted (ws_store w) pods dflt dflt) 1 && N.eqb (counted (ws_store w') pods dflt dflt) 2 &&
      match lookup_entry (ws_store w) pods dflt dflt (str "a"), st_gauge (ws_store w) !! (dflt, pods, dflt), st_gauge (ws_store w') !! (dflt, pods, dflt) with Some _, Some 1%N, Some 2%N => true | _, _, _ => false end
      | None => false end | None => false end = true) as H by (by vm_compute).
    clearbody o. destruct o as [w|]; [|discriminate H]. destruct (exec _ _ w tr') as [w'|] eqn:Hw'; [|discriminate H]. exists w, w'. split; [done|]. split; [exact Hw'|].
    apply andb_true_iff in H as [H H3]. apply andb_true_iff in H as [H1 H2]. apply N.eqb_eq in H1, H2. split; [done|]. split; [done|]. destruct (lookup_entry _ _ _ _ _); [|done]. split; [by eexists|].
    destruct (st_gauge (ws_store w) !! _) as [[|[]]|]; try done. destruct (st_gauge (ws_store w') !! _) as [[|[|[]|]]|]; done. }
  apply exec_ok in Hx, Hx'.
  assert (WStop ∉ tr /\ WStop ∉ tr') as [Hn1 Hn2].
  { split; intros Hin; [unfold tr in Hin|unfold tr' in Hin]; cbn in Hin; rewrite !elem_of_cons, elem_of_nil in Hin; destruct_or?; done. }
  destruct (lift_run ex_env true [] (str "conf") (begun ld_pods) ∅ false 0 ld_pods _ tr w eq_refl eq_refl Hx Hn1) as (m1 & Hm1).
  destruct (lift_run ex_env true [] (str "conf") (put_system 0 w (begun ld_pods)) m1 false 0 ld_pods _ tr' w' eq_refl eq_refl Hx' Hn2) as (m2 & Hm2).
  assert (forall W, GStep (SBegin W) ∉ map (fun l => GStep (SWatch 0 l)) tr' ++ map (fun l => GStep (SWatch 0 l)) tr) as Hnb.
  { intros W. rewrite <- map_app. intros Hin. apply elem_of_list_In, in_map_iff in Hin as (l & Hl & _). discriminate Hl. }
  assert (cached_names (ws_store w) pods dflt dflt [str "a"]) as Hcn.
  { destruct (names_of (ws_store w) pods dflt dflt) as (names & Hn & _). rewrite (counted_names _ _ _ _ _ Hn) in Hc. destruct Hn as [N1 N2].
    apply N2 in Ha. destruct names as [|z [|z' names]]; cbn [length] in Hc; try lia. apply elem_of_list_singleton in Ha as <-. by split. }
  destruct (C66_before_reload ex_env true [] (str "conf") _ _ _ _ _ Hm1) as (w0 & Hs0 & Hm0); [intros W Hin; apply (Hnb W); apply elem_of_app; by right|].
  destruct (C66_before_reload ex_env true [] (str "conf") _ _ _ _ _ (gruns_app _ _ _ _ _ _ _ _ _ Hm1 Hm2) Hnb) as (w1 & Hs1 & Hm1').
  assert (w0 = w) as -> by (by injection Hs0). assert (w1 = w') as -> by (by injection Hs1).
  exists (map (fun l => GStep (SWatch 0 l)) tr). eexists. exists (map (fun l => GStep (SWatch 0 l)) tr'). eexists _, m2, w, w'.
  split; [exact Hm1|]. split; [exact Hm2|]. split; [exact Hnb|]. split.
  { intros l Hin. apply elem_of_list_In, in_map_iff in Hin as (l' & <- & Hin). unfold tr' in Hin. cbn in Hin. destruct Hin as [<-|[<-|[]]]; intros (ld & _ & _ & [[? _]|[_ ?]]); done. }
  split; [reflexivity|]. split; [exact Hcn|]. cbn [gs_gauge]. rewrite Hm0, Hm1'. split; [exact G1|]. split; [reflexivity|]. split; [exact Hc'|exact G2].
Qed.
Print Assumptions C66_before_reload.
Print Assumptions C66_event.
Print Assumptions C66_stays_right.
Print Assumptions C66_lost_refuted.
Print Assumptions C66_stale_refuted.
