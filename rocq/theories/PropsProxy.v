(** C32-C34, C39, C40: routing of requests. *)
From Coq Require Import Ascii String NArith ZArith Lia.
From stdpp Require Import base gmap strings list.
From Verif Require Import ModelStr ModelLabels ModelPage ModelJson ModelJsonText ModelQuery ModelStore ModelUrl ModelProxy
  SpecPage SpecStore SpecProxy ProofsStr ProofsStore ProofsListing ProofsProxy PropsStore.

(** ** C32 *)
Section c32.
  Context (E : env) (cf : config) (conf : gmap gvr (gmap gostr gostr)) (h : list call) (st : store).
  Hypothesis (Hrun : run_calls E (new_store conf) h = Ok st).

  Lemma store_gvr g : is_store_gvr st g = true <-> is_Some (conf !! g).
  Proof. rewrite <- new_dom, <- (run_dom E _ _ _ g Hrun). unfold is_store_gvr. destruct (st_map st !! g); [split; [by eexists|done]|split; [done|by intros [? ?]]]. Qed.
  (** What the handler tests is [cacheable]. *)
  Lemma test_cacheable r order p labels cl r' : order ≡ₚ map_to_list (query_parse (rq_raw r)) ->
    parse_clean cf order r = inr (p, labels, cl, r') ->
    only_allowed (query_parse (rq_raw r')) && is_store_gvr st (req_gvr r) && str_eqb (rq_method r) (str "GET") = true <-> cacheable conf r.
  Proof.
    intros Hord Hp. destruct (parse_clean_spec cf order r Hord) as (s & cl0 & body & Hs & Hd & Hpc). rewrite Hp in Hpc.
    destruct (parse_list_selector s) as [[p0 l0]|] eqn:Ep; [|done]. injection Hpc as -> -> -> ->. cbn [with_raw rq_raw].
    rewrite clean_params_lookup by done. rewrite !andb_true_iff, (allowed_cleaned r order l0 Hord), store_gvr, str_eqb_eq. unfold cacheable.
    assert (forall s', selector_text (params r) s' -> exists pl, parse_list_selector s' = Some pl) as Hsel.
    { intros s' Hs'. rewrite (selector_text_fun _ _ _ Hs' Hs). eauto. }
    naive_solver.
  Qed.
  Lemma error_not_cacheable r order x : order ≡ₚ map_to_list (query_parse (rq_raw r)) ->
    parse_clean cf order r = inl x -> ~ cacheable conf r.
  Proof.
    intros Hord Hp (_ & _ & _ & Hc). destruct (parse_clean_spec cf order r Hord) as (s & cl0 & body & Hs & Hd & Hpc). rewrite Hp in Hpc.
    destruct (Hc s Hs) as [[p l] Hpl]. by rewrite Hpl in Hpc.
  Qed.
  (** A cacheable request is answered without any API server. *)
  Theorem C32_answered_from_cache clients r a : cacheable conf r -> proxy E cf clients st r a ->
    (forall clients', proxy E cf clients' st r a) /\ forall c r', a <> AForward c r' /\ a <> AWatch c r'.
  Proof.
    intros Hc Hp. destruct Hp as [order cl r' Hord Hpc|order p labels cl r' Hord Hpc Ht|order p labels cl r' Hord Hpc Ht Hv|order ord p labels cl r' q Hord Hpc Ht Hv Ho Hq].
    - by destruct (error_not_cacheable _ _ _ Hord Hpc).
    - apply (test_cacheable r order p labels cl r' Hord Hpc) in Hc. congruence.
    - split; [intros clients'; by eapply proxy_get|]. intros c r0. by destruct (store_get _ _ _ _ _).
    - split; [intros clients'; by eapply proxy_list|]. intros c r0. unfold list_answer. destruct q as [q|]; [|done].
      destruct (list_items _ _ _) as [[[items total]|]|]; try done. destruct (remaining _ _ _); [|done].
      destruct (contains _ _); [|done]. by destruct (server_print _ _).
  Qed.
  (** Every other request goes to one cluster, whatever is cached. *)
  Theorem C32_others_forwarded clients r a : ~ cacheable conf r -> proxy E cf clients st r a ->
    (exists c r1, target cf r c /\ untagged r r1 /\ relayed clients c r1 a) /\
    forall h' st', run_calls E (new_store conf) h' = Ok st' -> proxy E cf clients st' r a.
  Proof.
    intros Hc Hp. destruct Hp as [order cl r' Hord Hpc|order p labels cl r' Hord Hpc Ht|order p labels cl r' Hord Hpc Ht Hv|order ord p labels cl r' q Hord Hpc Ht Hv Ho Hq].
    - split; [|intros h' st' _; by eapply proxy_error]. pose proof (target_ok cf r order Hord) as H1. pose proof (untagged_ok cf r order Hord) as H2.
      rewrite Hpc in H1, H2. eexists _, r'. split; [exact H1|]. split; [done|]. by apply pass_relayed.
    - split.
      + pose proof (target_ok cf r order Hord) as H1. pose proof (untagged_ok cf r order Hord) as H2.
        rewrite Hpc in H1, H2. eexists _, r'. split; [exact H1|]. split; [done|]. by apply pass_relayed.
      + intros h' st' Hr'. eapply proxy_forward; [done|done|].
        assert (is_store_gvr st' (req_gvr r) = is_store_gvr st (req_gvr r)) as ->; [|done]. apply eq_true_iff_eq. rewrite store_gvr. rewrite <- new_dom, <- (run_dom E _ _ _ (req_gvr r) Hr'). unfold is_store_gvr.
        destruct (st_map st' !! req_gvr r); [split; [by eexists|done]|split; [done|by intros [? ?]]].
    - apply (test_cacheable r order p labels cl r' Hord Hpc) in Ht. done.
    - apply (test_cacheable r order p labels cl r' Hord Hpc) in Ht. done.
  Qed.
  (** Every request has an answer. *)
  Theorem C32_some_answer clients r : exists a, proxy E cf clients st r a.
  Proof.
    set (order := map_to_list (query_parse (rq_raw r))). assert (order ≡ₚ map_to_list (query_parse (rq_raw r))) as Hord by done.
    destruct (parse_clean cf order r) as [[cl r']|[[[p labels] cl] r']] eqn:Hpc; [eexists; by eapply proxy_error|].
    destruct (only_allowed (query_parse (rq_raw r')) && is_store_gvr st (req_gvr r) && str_eqb (rq_method r) (str "GET")) eqn:Ht;
      [|eexists; by eapply proxy_forward].
    destruct (decide (var r (str "resource") = [])) as [Hv|Hv]; [|eexists; by eapply proxy_get].
    eexists. eapply (proxy_list E cf clients st r order (fun _ m => map_to_list m)); try done. apply (query_with_ok E false).
  Qed.
End c32.
Print Assumptions C32_answered_from_cache.
Print Assumptions C32_others_forwarded.
Print Assumptions C32_some_answer.

(** ** C33 *)
Theorem C33_writes_reach_one_cluster E cf conf h st clients r a :
  run_calls E (new_store conf) h = Ok st -> rq_method r <> str "GET" -> proxy E cf clients st r a ->
  (exists c r', c ∈ clients /\ target cf r c /\ (a = AForward c r' \/ a = AWatch c r') /\
     rq_method r' = rq_method r /\ rq_path r' = rq_path r /\ rq_ctype r' = rq_ctype r /\
     (rq_method r <> str "DELETE" -> rq_body r' = rq_body r)) \/
  (exists c, target cf r c /\ c ∉ clients /\ a = AStatus 404 (str "cluster not found")) \/
  rq_method r ∉ methods /\ a = APanic.
Proof.
  intros Hrun Hm Hp. assert (~ cacheable conf r) as Hc by (by intros [? _]).
  destruct (C32_others_forwarded E cf conf h st Hrun clients r a Hc Hp) as [(c & r1 & Ht & Hu & Hrel) _].
  destruct Hu as (U1 & U2 & U3 & U4 & _). destruct Hrel as [Hn|r' Hin Hme Hw (S1 & S2 & S3 & S4) Hpar|r' Hin Hme Hw (S1 & S2 & S3 & S4) _ _|Hin Hme].
  - right. left. by exists c.
  - left. exists c, r'. rewrite U1 in *. rewrite S1, S2, S3, S4 by done. eauto 10.
  - left. exists c, r'. rewrite U1 in *. rewrite S1, S2, S3, S4 by done. eauto 10.
  - right. right. by rewrite U1 in Hme.
Qed.
Print Assumptions C33_writes_reach_one_cluster.

(** ** C39 *)
Theorem C39_sent_to_its_cluster E cf conf h st clients r a c r' :
  run_calls E (new_store conf) h = Ok st -> proxy E cf clients st r a -> a = AForward c r' \/ a = AWatch c r' ->
  c ∈ clients /\ target cf r c.
Proof.
  intros Hrun Hp Ha.
  assert (cacheable conf r \/ exists order cl r0, order ≡ₚ map_to_list (query_parse (rq_raw r)) /\
     (parse_clean cf order r = inl (cl, r0) \/ exists p l, parse_clean cf order r = inr (p, l, cl, r0)) /\ a = proxy_pass cf clients r0 cl) as H.
  { destruct Hp as [order cl r0 Hord Hpc|order p labels cl r0 Hord Hpc Ht|order p labels cl r0 Hord Hpc Ht Hv|order ord p labels cl r0 q Hord Hpc Ht Hv Ho Hq].
    - right. exists order, cl, r0. eauto.
    - right. exists order, cl, r0. eauto 10.
    - left. by apply (test_cacheable E cf conf h st Hrun r order p labels cl r0 Hord Hpc).
    - left. by apply (test_cacheable E cf conf h st Hrun r order p labels cl r0 Hord Hpc). }
  destruct H as [Hc|(order & cl & r0 & Hord & Hpc & Hpp)].
  - destruct (C32_answered_from_cache E cf conf h st Hrun clients r a Hc Hp) as [_ H]. destruct (H c r'). naive_solver.
  - pose proof (target_ok cf r order Hord) as H1.
    assert (target cf r (match cl with [] => cf_default cf | _ => cl end)) as Ht.
    { destruct Hpc as [Hpc|(p & l & Hpc)]; by rewrite Hpc in H1. }
    symmetry in Hpp. apply pass_relayed in Hpp. destruct Ha as [-> | ->]; inversion Hpp; subst; done.
Qed.
Print Assumptions C39_sent_to_its_cluster.
Theorem C39_unknown_cluster E cf conf h st clients r a :
  run_calls E (new_store conf) h = Ok st -> proxy E cf clients st r a -> ~ cacheable conf r ->
  (forall c, target cf r c -> c ∉ clients) -> a = AStatus 404 (str "cluster not found").
Proof.
  intros Hrun Hp Hc Hno. destruct (C32_others_forwarded E cf conf h st Hrun clients r a Hc Hp) as [(c & r1 & Ht & _ & Hrel) _].
  specialize (Hno c Ht). by destruct Hrel.
Qed.
Print Assumptions C39_unknown_cluster.
(** Without tag and selector: the default cluster. *)
Theorem C39_default_cluster cf r c : (forall c' o, ~ body_tag r c' o) -> (forall c', ~ names_cluster (params r) c') ->
  params r !! str "labelSelector" = None -> target cf r c <-> c = cf_default cf.
Proof.
  intros Hb Hn Hs. split.
  - intros [[Hne Hp]|[Hp (s & Hsel & H)]].
    + destruct Hp as [c o Ht|c _ Ht|]; [by destruct (Hb _ _ Ht)|by destruct (Hn _ Ht)|done].
    + destruct Hsel as [[vs Hv]|[_ ->]]; [by rewrite Hs in Hv|]. cbn in H. done.
  - intros ->. right. split; [by apply picked_none|]. exists []. split; [by right|]. done.
Qed.
Print Assumptions C39_default_cluster.

(** ** C34 *)
(** A tagged get, create, update or patch: the one tag decides. *)
Lemma tag_names q k c : (k = str "fieldManager" \/ k = str "resourceVersion") -> (forall c', ~ names_cluster q c') ->
  forall c', names_cluster (<[k := [str "dsm-cluster-" ++ c]]> q) c' <-> c' = c.
Proof.
  intros Hk Hq c'. split.
  - intros [[vs H]|(k' & Hk' & vs & H)].
    + rewrite lookup_insert_ne in H by (destruct Hk as [-> | ->]; done). destruct (Hq c'). left. by exists vs.
    + destruct (decide (k = k')) as [<-|Hne].
      * rewrite lookup_insert in H. injection H as H _. done.
      * rewrite lookup_insert_ne in H by done. destruct (Hq c'). right. exists k'. split; [done|]. by exists vs.
  - intros ->. right. exists k. split; [done|]. exists []. by rewrite lookup_insert.
Qed.
Theorem C34_tagged_request (E : env) (cf : config) (conf : gmap gvr (gmap gostr gostr)) (h : list call) (st : store) (clients : gset gostr) (r : request) (a : answer) (k c : gostr) (q : values) :
  run_calls E (new_store conf) h = Ok st -> proxy E cf clients st r a ->
  (k = str "fieldManager" \/ k = str "resourceVersion") -> c <> [] -> rq_method r <> str "DELETE" ->
  Some (params r) = (fun v => <[k := [v]]> q) <$> tag_field [] c ->
  q !! k = None -> (forall c', ~ names_cluster q c') -> q !! str "labelSelector" = None ->
  (cacheable conf r -> var r (str "resource") <> [] ->
     a = match store_get st (req_gvr r) c (var r (str "namespace")) (var r (str "resource")) with
         | Some o => AObject o
         | None => AStatus 404 (str "resource not found")
         end) /\
  (~ cacheable conf r -> exists r1, relayed clients c r1 a /\ params r1 = q /\ rq_method r1 = rq_method r /\
     rq_path r1 = rq_path r /\ rq_ctype r1 = rq_ctype r /\ rq_body r1 = rq_body r).
Proof.
  intros Hrun Hp Hk Hne Hm Hpar Hqk Hq Hqs. cbn [tag_field fmap option_fmap option_map] in Hpar. apply (f_equal (default ∅)) in Hpar.
  change (params r = <[k := [str "dsm-cluster-" ++ c]]> q) in Hpar.
  assert (forall c' o, ~ body_tag r c' o) as Hnb by (by intros c' o [? _]).
  pose proof (tag_names q k c Hk Hq) as Hnames. rewrite <- Hpar in Hnames.
  assert (forall c', picked r c' -> c' = c) as Hpick.
  { intros c' [c0 o Ht|c0 _ Ht|_ Hno]; [by destruct (Hnb _ _ Ht)|by apply Hnames|]. by destruct (Hno c), (Hnames c); auto. }
  assert (forall c', target cf r c' -> c' = c) as Htar.
  { intros c' [[_ Hpc]|[Hpc _]]; [by apply Hpick|]. apply Hpick in Hpc. congruence. }
  split.
  - intros Hc Hv. destruct Hp as [order cl r' Hord Hpc|order p labels cl r' Hord Hpc Ht|order p labels cl r' Hord Hpc Ht Hv'|order ord p labels cl r' q0 Hord Hpc Ht Hv' Ho Hq0].
    + by destruct (error_not_cacheable cf conf _ _ _ Hord Hpc).
    + apply (test_cacheable E cf conf h st Hrun r order p labels cl r' Hord Hpc) in Hc. congruence.
    + pose proof (target_ok cf r order Hord) as H1. rewrite Hpc in H1.
      destruct (parse_clean_spec cf order r Hord) as (s & cl0 & body & Hs & Hd & Hpc'). rewrite Hpc in Hpc'.
      apply picked_last, Hpick in Hd; [|done]. subst cl0. destruct (parse_list_selector s) as [[p0 l0]|]; [|done].
      assert (cl = c) as ->; [|done]. destruct c as [|c0 c]; [done|]. by injection Hpc' as _ _ -> _.
    + done.
  - intros Hc. destruct (C32_others_forwarded E cf conf h st Hrun clients r a Hc Hp) as [(c' & r1 & Ht & Hu & Hrel) _].
    apply Htar in Ht. subst c'. exists r1. split; [done|]. destruct Hu as (U1 & U2 & U3 & U4 & _ & _ & _ & s & Hs & U5).
    split; [|split; [done|split; [done|split; [done|by apply U4]]]].
    assert (k <> str "labelSelector") as Hkl by (destruct Hk as [-> | ->]; done).
    destruct Hs as [[vs Hs]|[_ ->]]; [rewrite Hpar, lookup_insert_ne, Hqs in Hs by done; done|]. cbn [parse_list_selector] in U5.
    destruct U5 as (L1 & L2 & L3). apply map_eq. intros x. destruct (decide (x = k)) as [->|Hxk].
    + rewrite Hqk. apply (L2 k c). split; [done|]. exists []. by rewrite Hpar, lookup_insert.
    + destruct (decide (x = str "labelSelector")) as [->|Hxl].
      * rewrite L1, Hpar, lookup_insert_ne by done. done.
      * rewrite L3, Hpar, lookup_insert_ne; [done|done|done|]. intros c' (Hx & vs & Hv). rewrite Hpar, lookup_insert_ne in Hv by done.
        destruct (Hq c'). right. exists x. split; [done|]. by exists vs.
Qed.
Print Assumptions C34_tagged_request.
Lemma valid_prefix c : valid_utf8 (cluster_prefix ++ c) = valid_utf8 c.
Proof. done. Qed.
(** A tagged delete: the other options arrive unchanged. *)
Theorem C34_tagged_delete E cf conf h st clients r a (c : gostr) (o o' : delopts) :
  run_calls E (new_store conf) h = Ok st -> proxy E cf clients st r a ->
  c <> [] -> rq_method r = str "DELETE" -> tag_delete o c = Some o' -> rq_body r = Some (encode_opts o') ->
  valid_opts o -> valid_utf8 c = true ->
  exists r1 b, relayed clients c r1 a /\ rq_body r1 = Some b /\ decode_opts b = o /\ rq_path r1 = rq_path r /\ rq_ctype r1 = rq_ctype r /\
    rq_method r1 = str "DELETE" /\ (params r !! str "labelSelector" = None -> (forall k c', ~ tagged (params r) k c') -> params r1 = params r).
Proof.
  intros Hrun Hp Hne Hm Htag Hb Hv Hvc. unfold tag_delete in Htag. destruct (do_dry o) as [|] eqn:Ed; [|done]. injection Htag as <-.
  assert (valid_opts (set_dry o [cluster_prefix ++ c])) as Hv'.
  { destruct Hv as (V1 & V2 & V3 & V4 & V5 & V6). unfold valid_opts. cbn [set_dry do_kind do_api do_grace do_pre do_policy do_dry].
    repeat (split; [done|]). constructor; [|done]. by rewrite valid_prefix. }
  assert (body_tag r c o) as Hbt.
  { split; [done|]. exists (encode_opts (set_dry o [cluster_prefix ++ c])), []. rewrite (decode_encode _ Hv').
    split; [done|]. split; [done|]. destruct o. cbn in *. by subst. }
  assert (~ cacheable conf r) as Hc by (intros [Hg _]; by rewrite Hm in Hg).
  destruct (C32_others_forwarded E cf conf h st Hrun clients r a Hc Hp) as [(c' & r1 & Ht & Hu & Hrel) _].
  assert (forall c', picked r c' -> c' = c) as Hpick.
  { intros c0 [c1 o1 Ht1|c1 Hn _|Hn _]; [by destruct (body_tag_fun _ _ _ _ _ Ht1 Hbt)|by destruct (Hn _ _ Hbt)|by destruct (Hn _ _ Hbt)]. }
  assert (c' = c) as -> by (destruct Ht as [[_ Hpc]|[Hpc _]]; apply Hpick in Hpc; congruence).
  destruct Hu as (U1 & U2 & U3 & _ & _ & _ & U4 & s & Hs & U5).
  exists r1, (encode_opts o). split; [done|]. split; [by apply (U4 c)|]. split; [by apply decode_encode|].
  split; [done|]. split; [done|]. split; [congruence|]. intros Hls Hnt.
  destruct Hs as [[vs Hs]|[_ ->]]; [congruence|]. cbn [parse_list_selector] in U5. destruct U5 as (L1 & L2 & L3). apply map_eq. intros x.
  destruct (decide (x = str "labelSelector")) as [->|Hxl]; [done|]. by apply L3.
Qed.
Print Assumptions C34_tagged_delete.
(** Options that already use the field are refused. *)
Theorem C34_used_options_refused (f c : gostr) (o : delopts) :
  (tag_field f c = None <-> f <> []) /\ (tag_delete o c = None <-> do_dry o <> []).
Proof. unfold tag_field, tag_delete. split; [by destruct f|]. by destruct (do_dry o). Qed.

(** Requests for the examples. *)
Definition ex_cf : config := Config c1 [] [(pods, str "PodList")].
Definition ex_vars (name : string) : gmap gostr gostr :=
  list_to_map [(str "version", str "v1"); (str "namespace", str "default"); (str "resourceType", str "pods"); (str "resource", str name)].
Definition ex_req (method path name raw : string) (body : gostr) : request :=
  Request (str method) (str path) (ex_vars name) (str raw) (Some body) [] (str "application/json").
Lemma no_params r : rq_raw r = [] -> query_parse (rq_raw r) = ∅.
Proof. by intros ->. Qed.
Lemma one_param r k v : query_parse (rq_raw r) = {[ k := v ]} -> map_to_list (query_parse (rq_raw r)) = [(k, v)].
Proof. intros ->. apply map_to_list_singleton. Qed.

(** ** C40 *)
Theorem C40_untagged_options_lost E cf conf h st clients r a b c r' :
  run_calls E (new_store conf) h = Ok st -> proxy E cf clients st r a ->
  rq_method r = str "DELETE" -> rq_body r = Some b -> (forall c o, ~ body_tag r c o) ->
  a = AForward c r' \/ a = AWatch c r' -> rq_method r' = str "DELETE" /\ rq_path r' = rq_path r /\ rq_body r' = Some [].
Proof.
  intros Hrun Hp Hm Hb Hnb Ha. assert (~ cacheable conf r) as Hc by (intros [Hg _]; by rewrite Hm in Hg).
  destruct (C32_others_forwarded E cf conf h st Hrun clients r a Hc Hp) as [(c' & r1 & _ & Hu & Hrel) _].
  destruct Hu as (U1 & U2 & U3 & _ & _ & U4 & _). specialize (U4 Hm ltac:(by rewrite Hb) Hnb).
  assert (same_request r1 r') as (S1 & S2 & S3 & S4) by (destruct Ha as [-> | ->]; by inversion Hrel).
  rewrite S1, S2, S4 by (rewrite U1, Hm; done). rewrite U1, U2, Hm, U4. done.
Qed.
Print Assumptions C40_untagged_options_lost.
Definition dry_delete : request :=
  ex_req "DELETE" "/api/v1/namespaces/default/pods/a" "a" "" (encode_opts (set_dry zero_opts [str "All"])).
(** Finding: a dry run becomes a real deletion. *)
Theorem C40_dry_run_refuted : exists r o r',
  rq_method r = str "DELETE" /\ rq_body r = Some (encode_opts o) /\ do_dry o = [str "All"] /\
  proxy ex_env ex_cf {[ c1 ]} ex_store r (AForward c1 r') /\ rq_method r' = str "DELETE" /\ rq_path r' = rq_path r /\ rq_body r' = Some [].
Proof.
  exists dry_delete, (set_dry zero_opts [str "All"]), (with_body (with_raw dry_delete (query_encode ∅)) (Some [])).
  split; [done|]. split; [done|]. split; [done|]. split; [|done].
  assert (parse_clean ex_cf [] dry_delete = inr (zero_page, None, c1, with_body (with_raw dry_delete (query_encode ∅)) (Some []))) as Hpc by reflexivity.
  pose proof (proxy_forward ex_env ex_cf {[ c1 ]} ex_store dry_delete [] _ _ _ _ (reflexivity _) Hpc) as H.
  assert (proxy_pass ex_cf {[c1]} (with_body (with_raw dry_delete (query_encode ∅)) (Some [])) c1 = AForward c1 (with_body (with_raw dry_delete (query_encode ∅)) (Some []))) as E; [|rewrite E in H; apply H].
  - unfold proxy_pass. cbn [c1 str]. by rewrite bool_decide_eq_true_2 by set_solver.
  - rewrite andb_false_r. done.
Qed.

(** ** Examples *)
(** A get tagged with c2: hypotheses of C34_tagged_request and C32_answered_from_cache. *)
Definition tagged_get : request := ex_req "GET" "/api/v1/namespaces/default/pods/a" "a" "resourceVersion=dsm-cluster-c2" [].
Lemma tagged_get_params : params tagged_get = <[str "resourceVersion" := [str "dsm-cluster-c2"]]> ∅.
Proof. reflexivity. Qed.
Example C32_ex : cacheable ex_conf tagged_get /\
  Some (params tagged_get) = (fun v => <[str "resourceVersion" := [v]]> (∅ : values)) <$> tag_field [] c2 /\
  obj_id <$> store_get ex_store (req_gvr tagged_get) c2 (var tagged_get (str "namespace")) (var tagged_get (str "resource")) = Some (str "default/a").
Proof.
  split; [|split; [by rewrite tagged_get_params|by vm_compute]]. unfold cacheable. rewrite tagged_get_params. split; [done|]. split; [|split].
  - change (req_gvr tagged_get) with pods. rewrite ex_conf_pods. by eexists.
  - intros k [v Hk]. right. exists c2. destruct (decide (str "resourceVersion" = k)) as [<-|Hne]; [|by rewrite lookup_insert_ne in Hk].
    split; [by right|]. exists []. by rewrite lookup_insert.
  - intros s [[vs Hs]|[_ ->]]; [by rewrite lookup_insert_ne in Hs|]. by exists (zero_page, None).
Qed.
(** The same get with a watch parameter is forwarded to c2, without the tag. *)
Definition tagged_watch : request := ex_req "GET" "/api/v1/namespaces/default/pods/a" "a" "resourceVersion=dsm-cluster-c2&watch=1" [].
Example C34_ex : ~ cacheable ex_conf tagged_watch /\ params tagged_watch = <[str "resourceVersion" := [str "dsm-cluster-c2"]]> {[ str "watch" := [str "1"] ]} /\
  watch_req tagged_watch.
Proof.
  assert (params tagged_watch = <[str "resourceVersion" := [str "dsm-cluster-c2"]]> {[ str "watch" := [str "1"] ]}) as Hp.
  { transitivity (<[str "watch" := [str "1"]]> (<[str "resourceVersion" := [str "dsm-cluster-c2"]]> (∅ : values))); [reflexivity|]. by rewrite insert_commute. }
  split; [|split; [done|]].
  - intros (_ & _ & H & _). rewrite Hp in H. destruct (H (str "watch")) as [[?|[?|[?|?]]]|[c [[?|?] _]]]; try done.
  - left. exists (str "1"). rewrite Hp. split; [|by left]. exists []. rewrite lookup_insert_ne by done. apply lookup_singleton.
Qed.
(** A delete tagged with c2. *)
Definition tagged_del : request :=
  ex_req "DELETE" "/api/v1/namespaces/default/pods/a" "a" "" (encode_opts (set_dry (DelOpts [] [] (Some 5%Z) None None (Some (str "Orphan")) []) [str "dsm-cluster-c2"])).
Example C34_ex_delete :
  tag_delete (DelOpts [] [] (Some 5%Z) None None (Some (str "Orphan")) []) c2 = Some (set_dry (DelOpts [] [] (Some 5%Z) None None (Some (str "Orphan")) []) [str "dsm-cluster-c2"]) /\
  valid_opts (DelOpts [] [] (Some 5%Z) None None (Some (str "Orphan")) []) /\
  rq_body tagged_del = Some (str "{""gracePeriodSeconds"":5,""propagationPolicy"":""Orphan"",""dryRun"":[""dsm-cluster-c2""]}").
Proof. split; [done|]. split; [|by vm_compute]. unfold valid_opts. cbn. repeat split; done || lia. Qed.
(** Unknown cluster. *)
Example C39_ex cf : target cf (ex_req "POST" "/api/v1/namespaces/default/pods" "" "" []) (cf_default cf).
Proof. apply C39_default_cluster; [by intros c' o [? _]| |done|done]. intros c' [[vs H]|(k & _ & vs & H)]; done. Qed.
Example C33_ex : str "HEAD" ∉ methods /\ str "PATCH" ∈ methods.
Proof. unfold methods. split; set_solver. Qed.
