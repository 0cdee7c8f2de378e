(** C68: the fake server as an HTTP server, and several of them in one process. *)
From Coq Require Import Ascii String NArith ZArith Lia.
From stdpp Require Import base gmap strings list.
From Verif Require Import ModelStr ProofsStr ModelLabels ModelPage SpecPage ModelJson ModelJsonText ProofsJson ProofsJsonText ModelQuery ModelStore SpecStore ProofsStore
  ModelUrl ModelProxy SpecProxy ProofsProxy ModelObjType SpecObjType ModelWatcher ModelReload ModelFake SpecFake ProofsFake ModelServer SpecServer ProofsServer ModelServe SpecServe
  ModelFakeServer SpecFakeServer ProofsFakeServer PropsStore PropsServer PropsServe PropsProxy SpecLabels SpecList.

(** ** The object store over HTTP *)
Section run.
  Context (E : env) (JE : jenv) (marshal : obj -> gostr).
  Definition reached (conf : gmap gvr (gmap gostr gostr)) (st : store) : Prop :=
    exists h, Forall kube_call h /\ run_calls E (new_store conf) h = Ok st.
  Lemma reached_new conf : reached conf (new_store conf).
  Proof. exists []. split; [constructor|done]. Qed.
  Lemma reached_dom conf st g : reached conf st -> is_Some (st_map st !! g) <-> is_Some (conf !! g).
  Proof. intros (h & _ & Hr). rewrite (run_dom E _ _ _ g Hr). apply new_dom. Qed.
  Lemma reached_write conf cf order st r st' a e : reached conf st -> fake_proxy E JE marshal cf order st r = Ok (st', a, e) -> reached conf st'.
  Proof.
    intros (h & Hk & Hr) Hp. destruct (write_call E JE marshal cf order st r st' a e Hp) as [->|(k & Hkk & Hd)]; [by exists h|].
    exists (h ++ [k]). split; [apply Forall_app; split; [done|by constructor]|]. apply run_snoc. by exists st.
  Qed.
  Lemma reached_serve conf fc st hr o st' e : reached conf st -> fserve E JE marshal fc st hr o st' e -> reached conf st'.
  Proof. intros H Hs. destruct Hs; try done. by eapply reached_write. Qed.
  Lemma holds_new conf : holds (new_store conf) (fun _ => None).
  Proof.
    intros g c ns n. unfold store_get, lookup_entry, new_store. cbn [st_map].
    rewrite lookup_fmap. destruct (conf !! g); cbn; [by rewrite lookup_empty|done].
  Qed.
  Lemma index_dom ps g : is_Some (index_conf ps !! g) <-> exists p, p ∈ ps /\ pc_gvr p = g.
  Proof.
    unfold index_conf. assert (forall m : gmap gvr (gmap gostr gostr), is_Some (fold_left (fun m p => <[pc_gvr p := pc_index p]> m) ps m !! g) <->
      is_Some (m !! g) \/ exists p, p ∈ ps /\ pc_gvr p = g) as H.
    { induction ps as [|p ps IH]; intros m.
      - cbn [fold_left]. split; [by left|]. intros [?|(p & Hp & _)]; [done|]. by apply elem_of_nil in Hp.
      - cbn [fold_left]. rewrite IH. split.
        + intros [Hm|(p' & Hp & Hg)]; [|right; exists p'; split; [by right|done]].
          destruct (decide (pc_gvr p = g)) as [Hg|Hg]; [right; exists p; split; [left|done]|]. rewrite lookup_insert_ne in Hm by done. by left.
        + intros [Hm|(p' & Hp & Hg)].
          * left. destruct (decide (pc_gvr p = g)) as [<-|Hg]; [rewrite lookup_insert; by eexists|]. by rewrite lookup_insert_ne.
          * apply elem_of_cons in Hp as [->|Hp]; [left; rewrite Hg, lookup_insert; by eexists|]. right. by exists p'. }
    rewrite H. split; [intros [[x Hx]|?]; [by rewrite (lookup_empty (M:=gmap gvr)) in Hx|done]|by right].
  Qed.
  (** One request to a server in a state that holds the objects of [A]. *)
  Lemma serve_asked fc st A hr op g o st' e : fc_token fc = [] -> reached (index_conf (fc_proxies fc)) st -> holds st A ->
    http_asks JE (conf_of_file fc) hr op -> hop_gvr op = Some g -> configured fc g ->
    fserve E JE marshal fc st hr o st' e -> answered A op o /\ holds st' (next A op).
  Proof.
    intros Htok Hre HA Hask Hg Hcf Hs. apply index_dom in Hcf. destruct op as [op|k].
    - destruct (http_write JE _ hr op Hask) as (Hcl & Hwp & vars & Hf & Hasks & Hop). rewrite Hop in Hg. injection Hg as Hu.
      destruct Hs as [Hn|_ Hn|? _ _ Hf'|k vars' _ _ Hf' Hk1 Hk2|vars' order st' a e _ _ Hf' Hord Hp|vars' order _ _ Hf' Hord Hp|o _ _ Hf' _]; try congruence.
      + rewrite Hf in Hf'. injection Hf' as <-.
        assert (asks JE (conf_of_file fc) order (with_vars (h_req hr) vars) op) as Ha' by (eapply asks_perm; [symmetry; exact Hord|exact Hasks]).
        destruct (perform_step E JE marshal _ order st _ op A Ha') as (st1 & a1 & e1 & Hp1 & Hst & Hh & _).
        { rewrite Hu. by apply (reached_dom _ _ _ Hre). }
        { done. }
        rewrite Hp in Hp1. injection Hp1 as <- <- <-. cbn [answered next]. split; [|done].
        unfold write_outcome. destruct a as [code|x|]; cbn [status] in Hst; [| |done].
        * eexists. split; [reflexivity|]. cbn [rp_status]. by injection Hst as ->.
        * eexists. split; [reflexivity|]. cbn [rp_status]. by injection Hst as <-.
      + exfalso. rewrite Hf in Hf'. injection Hf' as <-.
        assert (asks JE (conf_of_file fc) order (with_vars (h_req hr) vars) op) as Ha' by (eapply asks_perm; [symmetry; exact Hord|exact Hasks]).
        destruct (perform_step E JE marshal _ order st _ op A Ha') as (st1 & a1 & e1 & Hp1 & _).
        { rewrite Hu. by apply (reached_dom _ _ _ Hre). }
        { done. }
        congruence.
    - inversion Hask as [| | |g' ns name c Hm Ha Hp Hnw Hc]; subst. cbn [hop_gvr fst snd] in Hg. injection Hg as ->.
      assert (watch_param (h_req hr) = false) as Hwp.
      { unfold watch_param. destruct Hc as [[Hr _]|[Hr _]].
        - rewrite (no_params _ Hr). by rewrite (lookup_empty (M:=gmap gostr)).
        - rewrite Hr. by rewrite lookup_singleton_ne. }
      assert (find_froute fake_routes (rq_method (h_req hr)) (rq_path (h_req hr)) = None) as Hf by (rewrite Hm, Hp; by apply get_route).
      assert (clean_path (rq_path (h_req hr)) = rq_path (h_req hr)) as Hcl by (rewrite Hp; apply canonical_clean; by eapply path_canonical).
      destruct Hs as [Hn|_ Hn|? _ _ Hf'|k vars' _ _ Hf' Hk1 Hk2|vars' order st' a e _ _ Hf' Hord Hpx|vars' order _ _ Hf' Hord Hpx|o _ _ Hf' Hs]; try congruence.
      destruct Hre as (h & Hk & Hrun).
      assert (o = get_outcome (store_get st g c (default [] ns) name)) as ->.
      { destruct Hc as [[Hr ->]|[Hr Hne]].
        - eapply get_reply; try done. by left.
        - eapply get_reply_tagged; try done. by left. }
      cbn [next]. split; [|done]. cbn [answered]. specialize (HA g c (default [] ns) name).
      destruct (A _) as [ob|], (store_get _ _ _ _ _) as [x|]; try done. cbn [get_outcome]. by exists x.
  Qed.

  (** The i-th server from a state on, while others run. *)
  Lemma runs_behave fc i p is os p' : pruns E JE marshal p is os p' -> forall st A, pr_conf p = fc -> fc_token fc = [] ->
    pr_servers p !! i = Some st -> reached (index_conf (fc_proxies fc)) st -> holds st A ->
    Forall (proper JE (conf_of_file fc) (configured fc) i) is ->
    pr_conf p' = fc /\ exists st' A', behaves JE (conf_of_file fc) i A is os A' /\ pr_servers p' !! i = Some st' /\
      reached (index_conf (fc_proxies fc)) st' /\ holds st' A'.
  Proof.
    induction 1 as [p|p x o p1 is os p2 Hstep Hruns IH]; intros st A Hfc Htok Hst Hre HA Hpr.
    { split; [done|]. exists st, A. split; [constructor|]. done. }
    inversion Hpr as [|? ? Hx Hpr']; subst x0 l. clear Hpr. destruct Hx as [Hx|[->|(hr & op & g & -> & Hask & Hg & Hcf)]].
    - assert (pr_conf p1 = fc /\ pr_servers p1 !! i = Some st) as [Hfc1 Hst1].
      { destruct Hx as (j & Hj & [->|[hr ->]]).
        - inversion Hstep; subst. cbn [pr_conf pr_servers]. split; [done|]. by rewrite list_lookup_insert_ne.
        - inversion Hstep; subst. cbn [pr_conf pr_servers]. split; [done|]. by rewrite list_lookup_insert_ne. }
      destruct (IH st A Hfc1 Htok Hst1 Hre HA Hpr') as (Hc2 & st' & A' & Hb & H). split; [done|]. exists st', A'. split; [|done]. by constructor.
    - inversion Hstep as [| | | |? ? st0 Hi]; subst. rewrite Hst in Hi. injection Hi as <-.
      destruct (IH (new_store (index_conf (fc_proxies (pr_conf p)))) (fun _ => None)) as (Hc2 & st' & A' & Hb & H); [done|done| | | |done|].
      { cbn [pr_servers]. apply list_lookup_insert. by eapply lookup_lt_Some. }
      { apply reached_new. }
      { apply holds_new. }
      split; [done|]. exists st', A'. split; [|done]. by constructor.
    - inversion Hstep as [| | |? ? st0 ? out st1 e Hi Hs|]; subst. rewrite Hst in Hi. injection Hi as <-.
      destruct (serve_asked _ _ _ _ _ _ _ _ _ Htok Hre HA Hask Hg Hcf Hs) as [Hans HA1].
      destruct (IH st1 (next A op)) as (Hc2 & st' & A' & Hb & H); [done|done| | |done|done|].
      { cbn [pr_servers]. apply list_lookup_insert. by eapply lookup_lt_Some. }
      { by eapply reached_serve. }
      split; [done|]. exists st', A'. split; [|done]. by econstructor.
  Qed.
  Lemma fake_conf_token text fc : fake_conf text = Some fc -> fc_token fc = [].
  Proof. unfold fake_conf. destruct (decode_conf text); [|done]. by intros [= <-]. Qed.
  Lemma created_at p listen text host p1 : pstep E JE marshal p (PNew listen text) (POCreated host) p1 ->
    exists fc, fake_conf text = Some fc /\ fake_host listen = Ok host /\ pr_conf p1 = fc /\ fc_token fc = [] /\
      pr_servers p1 = pr_servers p ++ [new_store (index_conf (fc_proxies fc))].
  Proof. intros H. inversion H; subst. eexists. split; [done|]. split; [done|]. split; [done|]. split; [by eapply fake_conf_token|done]. Qed.

  (** Every new server is an object store: whatever is asked of it over HTTP, and whatever is asked of other
      servers of the process meanwhile, every create, update, delete and get has the status of the object store and
      a get returns the object as created or last updated. *)
  Theorem C68_object_store p listen text host p1 fc is os p2 :
    pstep E JE marshal p (PNew listen text) (POCreated host) p1 -> fake_conf text = Some fc ->
    let i := length (pr_servers p) in
    Forall (proper JE (conf_of_file fc) (configured fc) i) is -> pruns E JE marshal p1 is os p2 ->
    exists st A, behaves JE (conf_of_file fc) i (fun _ => None) is os A /\ pr_servers p2 !! i = Some st /\ holds st A.
  Proof.
    intros Hnew Hfc i Hpr Hruns. destruct (created_at _ _ _ _ _ Hnew) as (fc' & Hfc' & _ & Hc & Htok & Hsv). rewrite Hfc in Hfc'. injection Hfc' as <-.
    destruct (runs_behave fc i p1 is os p2 Hruns (new_store (index_conf (fc_proxies fc))) (fun _ => None)) as (_ & st & A & Hb & Hst & _ & Hh); [done|done| | | |done|].
    { rewrite Hsv. apply list_lookup_middle. done. }
    { apply reached_new. }
    { apply holds_new. }
    by exists st, A.
  Qed.
  (** A list of the default cluster shows exactly its objects, each once. *)
  Theorem C68_list p listen text host p1 fc is os p2 hr o p3 g ns :
    pstep E JE marshal p (PNew listen text) (POCreated host) p1 -> fake_conf text = Some fc ->
    let i := length (pr_servers p) in let c := fc_default fc in
    Forall (proper JE (conf_of_file fc) (configured fc) i) is -> pruns E JE marshal p1 is os p2 ->
    pstep E JE marshal p2 (PRequest i hr) (POAnswer o) p3 ->
    configured fc g -> g.2 <> str "watch" -> api_addr g ns None -> legal_value c ->
    rq_method (h_req hr) = str "GET" -> rq_path (h_req hr) = api_path g ns None -> rq_raw (h_req hr) = [] ->
    ~ occurs (str "application/json;as=Table") (rq_accept (h_req hr)) ->
    exists A, behaves JE (conf_of_file fc) i (fun _ => None) is os A /\
    exists ks items, NoDup ks /\
      (forall n x, (n, x) ∈ ks <-> is_Some (A (g, c, n, x)) /\ (forall m, ns = Some m -> n = m)) /\
      Forall2 (fun k y => exists ob, A (g, c, k.1, k.2) = Some ob /\ stored_as c (to_obj ob) y) ks items /\
      ((Z.of_nat (length items) < 2 ^ 63)%Z ->
       exists api kind, list_head (conf_of_file fc) g api kind /\ o = OReply (Reply 200 [BList api kind (api_path g ns None) 0 items])).
  Proof.
    intros Hnew Hfc i c Hpr Hruns Hreq Hcf Hnw Ha Hleg Hm Hp Hr Hacc.
    destruct (created_at _ _ _ _ _ Hnew) as (fc' & Hfc' & _ & Hc & Htok & Hsv). rewrite Hfc in Hfc'. injection Hfc' as <-.
    destruct (runs_behave fc i p1 is os p2 Hruns (new_store (index_conf (fc_proxies fc))) (fun _ => None)) as (Hc2 & st & A & Hb & Hst & Hre & Hh); [done|done| | | |done|].
    { rewrite Hsv. apply list_lookup_middle. done. }
    { apply reached_new. }
    { apply holds_new. }
    exists A. split; [done|]. inversion Hreq as [| | |? ? st0 ? out st1 e Hi Hs|]; subst p0 i0 hr0 out p3. rewrite Hst in Hi. injection Hi as <-. rewrite Hc2 in Hs.
    assert (watch_param (h_req hr) = false) as Hwp.
    { unfold watch_param. rewrite (no_params _ Hr). by rewrite (lookup_empty (M:=gmap gostr)). }
    assert (find_froute fake_routes (rq_method (h_req hr)) (rq_path (h_req hr)) = None) as Hf by (rewrite Hm, Hp; by apply get_route).
    assert (clean_path (rq_path (h_req hr)) = rq_path (h_req hr)) as Hcl by (rewrite Hp; apply canonical_clean; by eapply path_canonical).
    clear Hreq. destruct Hs as [Hn|_ Hn|? _ _ Hf'|k vars' _ _ Hf' Hk1 Hk2|vars' order st' a e' _ _ Hf' Hord Hpx|vars' order _ _ Hf' Hord Hpx|o' _ _ Hf' Hsv']; try congruence.
    destruct Hre as (h & Hk & Hrun). assert (cf_default (conf_of_file fc) <> []) as Hd.
    { revert Hfc. unfold fake_conf. destruct (decode_conf text) as [f|]; [|done]. intros [= <-]. cbn. by destruct (fc_default f). }
    destruct (C60_list E (conf_of_file fc) (index_conf (fc_proxies fc)) h st ∅ no_apis hr g ns o' Hk Hrun (proj2 (index_dom _ g) Hcf) (or_introl Htok) Ha Hm Hp Hr Hacc Hd Hleg Hsv') as (ks & es & Hnd & Hin & Hall & Hrep).
    change (cf_default (conf_of_file fc)) with c in *.
    exists (map (fun k : gostr * gostr * gostr => (k.1.2, k.2)) ks), (map en_obj es). split_and!.
    - apply NoDup_fmap_2_strong; [|done]. intros [[c1 n1] x1] [[c2 n2] x2] H1 H2 [= -> ->].
      apply elem_of_list_lookup in H1 as [i1 H1]. apply elem_of_list_lookup in H2 as [i2 H2].
      destruct (Forall2_lookup_l _ _ _ _ _ Hin H1) as (? & _ & E1 & _). destruct (Forall2_lookup_l _ _ _ _ _ Hin H2) as (? & _ & E2 & _).
      cbn [fst snd] in E1, E2. by rewrite E1, E2.
    - intros n x. rewrite elem_of_list_fmap. split.
      + intros ([[c1 n1] x1] & [= -> ->] & H1). apply elem_of_list_lookup in H1 as [i1 H1].
        destruct (Forall2_lookup_l _ _ _ _ _ Hin H1) as (e1 & _ & E1 & He & Hns). cbn [fst snd] in E1, He, Hns. split; [|done].
        specialize (Hh g c n1 x1). unfold store_get in Hh. rewrite He in Hh. cbn [fmap option_fmap option_map] in Hh. destruct (A _); [by eexists|done].
      + intros [[ob Hob] Hns]. specialize (Hh g c n x) as Hh'. rewrite Hob in Hh'. unfold store_get in Hh'.
        destruct (lookup_entry st g c n x) as [e1|] eqn:He; [|done]. exists (c, n, x). split; [done|]. by eapply Hall.
    - clear Hall Hrep Hnd. induction Hin as [|[[c1 n1] x1] e1 ks es (E1 & He & Hns) Hin IH]; [constructor|]. cbn [map]. constructor; [|done].
      cbn [fst snd] in *. specialize (Hh g c n1 x1). unfold store_get in Hh. rewrite He in Hh. cbn [fmap option_fmap option_map] in Hh.
      destruct (A _) as [ob|]; [|done]. by exists ob.
    - intros Hlen. rewrite map_length in Hlen. destruct (Hrep Hlen) as (api & kind & Hlh & ->). by exists api, kind.
  Qed.
  (** Every request to a server is answered or begins a stream, or the connection is closed. *)
  Theorem C68_every_request p i st hr : pr_servers p !! i = Some st -> exists o p', pstep E JE marshal p (PRequest i hr) (POAnswer o) p'.
  Proof.
    intros Hi. assert (exists o st' e, fserve E JE marshal (pr_conf p) st hr o st' e) as (o & st' & e & Hs).
    2:{ eexists _, _. by econstructor. }
    destruct (decide (clean_path (rq_path (h_req hr)) = rq_path (h_req hr))) as [Hc|Hc]; [|eexists _, _, _; by apply fs_moved].
    destruct (watch_param (h_req hr)) eqn:Hw; [eexists _, _, _; by apply fs_watch_param|].
    destruct (find_froute fake_routes (rq_method (h_req hr)) (rq_path (h_req hr))) as [[k vars]|] eqn:Hf.
    2:{ destruct (C60_every_request_answered E (conf_of_file (pr_conf p)) ∅ st no_apis hr) as [rp Hs]. eexists _, _, _. by eapply fs_server. }
    assert (forall k', k = k' -> k' <> KWrite -> k' <> KWatch -> exists o st' e, fserve E JE marshal (pr_conf p) st hr o st' e) as Hpage.
    { intros k' -> H1 H2. eexists _, _, _. by eapply fs_page. }
    destruct k; try (by eapply Hpage).
    - destruct (fake_proxy E JE marshal (conf_of_file (pr_conf p)) (map_to_list (query_parse (rq_raw (h_req hr)))) st (with_vars (h_req hr) vars)) as [[[st' a] e]|] eqn:Hp.
      + eexists _, _, _. by eapply fs_write.
      + eexists _, _, _. by eapply fs_write_panic.
    - eexists _, _, _. by eapply fs_watch_path.
  Qed.
End run.
Print Assumptions C68_object_store.
Print Assumptions C68_list.
Print Assumptions C68_every_request.
