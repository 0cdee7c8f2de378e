(** C43, C59: authentication and routing of HTTP requests. *)
From Coq Require Import Ascii String NArith ZArith Lia.
From stdpp Require Import base gmap strings list.
From Verif Require Import ModelStr ModelPage ModelJson ModelStore ModelUrl ModelProxy ModelServer SpecPage SpecServer
  SpecProxy ProofsStr ProofsServer PropsProxy.

(** ** C43 *)
(** With a token, a request that is neither public nor carries the token is refused: 401, or 301 to the
    canonical form of its path.  No handler runs. *)
Theorem C43_refused tok hr : tok <> [] -> ~ public (h_req hr) -> ~ occurs tok (h_auth hr) ->
  dispatch route_handles tok hr = DUnauthorized \/
  exists p, dispatch route_handles tok hr = DRedirect p /\ ~ canonical (rq_path (h_req hr)) /\ canonical p.
Proof.
  intros Ht Hp Ha. destruct (decide (str_eqb (clean_path (rq_path (h_req hr))) (rq_path (h_req hr)) = true)) as [Hc|Hc].
  - left. apply canonical_iff in Hc. destruct (dispatch_canonical tok hr Hc) as (rt & vars & Hr & Hm & _ & ->).
    rewrite (private_auth _ _ _ Hp Hr Hm). apply str_eqb_neq in Ht as ->.
    destruct (contains (h_auth hr) tok) eqn:E; [|done]. by apply contains_true in E.
  - right. eexists. rewrite canonical_iff in Hc. split; [by apply dispatch_moved|]. split; [done|apply clean_path_canonical].
Qed.
Theorem C43_refused_canonical tok hr : tok <> [] -> ~ public (h_req hr) -> ~ occurs tok (h_auth hr) ->
  canonical (rq_path (h_req hr)) -> dispatch route_handles tok hr = DUnauthorized.
Proof. intros Ht Hp Ha Hc. destruct (C43_refused tok hr Ht Hp Ha) as [|(p & _ & H & _)]; done. Qed.
(** A refusal has no other cause: without a token, with the token anywhere in the header, or for the two
    public requests, the handler runs. *)
Theorem C43_accepted tok hr : canonical (rq_path (h_req hr)) ->
  tok = [] \/ occurs tok (h_auth hr) \/ public (h_req hr) ->
  exists h vars s, dispatch route_handles tok hr = DRun h (with_vars (h_req hr) vars) s.
Proof.
  intros Hc H. destruct (dispatch_canonical tok hr Hc) as (rt & vars & Hr & Hm & Hf & ->).
  destruct H as [->|[H|H]].
  - rewrite andb_false_r. eauto.
  - apply contains_true in H. rewrite H, !andb_false_r. eauto.
  - destruct (public_find _ H) as (h & Hf' & Ha & _). rewrite Hf in Hf'. injection Hf' as -> ->. rewrite Ha. eauto.
Qed.
(** The answer depends on the header only through the presence of the token. *)
Theorem C43_public tok hr : public (h_req hr) ->
  exists s, dispatch route_handles tok hr =
    DRun (if str_eqb (rq_path (h_req hr)) (str "/healthy") then HHealthy else HMetrics) (with_vars (h_req hr) ∅) s.
Proof.
  intros H. destruct (public_find _ H) as (h & Hf & Ha & Hh).
  destruct (dispatch_canonical tok hr (public_canonical _ H)) as (rt & vars & _ & _ & Hf' & ->).
  rewrite Hf in Hf'. injection Hf' as <- <-. rewrite Ha, Hh. cbn [andb]. eauto.
Qed.
(** Neither list, get nor write is reached without authorisation: whatever the table says, a handler that
    reads the cache or an API server runs only with the token. *)
Theorem C43_data_needs_token tok hr h r s : dispatch route_handles tok hr = DRun h r s ->
  h = HServices \/ h = HProxy -> tok = [] \/ occurs tok (h_auth hr).
Proof.
  intros Hd Hh. destruct (decide (str_eqb (clean_path (rq_path (h_req hr))) (rq_path (h_req hr)) = true)) as [Hc|Hc].
  - apply canonical_iff in Hc. destruct (dispatch_canonical tok hr Hc) as (rt & vars & Hr & Hm & _ & Hd'). rewrite Hd in Hd'.
    destruct (r_auth rt) eqn:Ea.
    + destruct (str_eqb_spec tok []) as [|_]; [by left|]. destruct (contains (h_auth hr) tok) eqn:E; [|done]. right. by apply contains_true.
    + cbn [andb] in Hd'. destruct (table_auth rt Hr Ea) as [-> | ->]; injection Hd' as -> _ _; naive_solver.
  - rewrite canonical_iff in Hc. by rewrite (dispatch_moved tok hr Hc) in Hd.
Qed.
Print Assumptions C43_refused.
Print Assumptions C43_refused_canonical.
Print Assumptions C43_accepted.
Print Assumptions C43_public.
Print Assumptions C43_data_needs_token.
Definition ex_http (m p auth : gostr) : http_req := HttpReq auth (Request m p ∅ [] (Some []) [] []).
Example C43_ex :
  dispatch route_handles (str "s3cret") (ex_http (str "POST") (str "/api/v1/pods") (str "Bearer other")) = DUnauthorized /\
  dispatch route_handles (str "s3cret") (ex_http (str "TRACE") (str "/healthy") []) = DUnauthorized /\
  dispatch route_handles (str "s3cret") (ex_http (str "GET") (str "/healthy/../api/v1/pods") []) = DRedirect (str "/api/v1/pods") /\
  (exists r, dispatch route_handles (str "s3cret") (ex_http (str "GET") (str "/healthy") []) = DRun HHealthy r 0) /\
  (exists r, dispatch route_handles (str "s3cret") (ex_http (str "GET") (str "/api/v1/pods") (str "Bearer xxs3cretxx")) = DRun HProxy r 200).
Proof. split_and!; try (vm_compute; reflexivity); eexists; vm_compute; reflexivity. Qed.
(** The token need not be the whole credential: any header that merely contains it is accepted. *)
Theorem C43_exact_token_refuted : exists tok auth, auth <> tok /\ auth <> str "Bearer " ++ tok /\ tok <> [] /\
  dispatch route_handles tok (ex_http (str "DELETE") (str "/api/v1/nodes/n") auth) <> DUnauthorized.
Proof. exists (str "a"), (str "Basic"). split_and!; vm_compute; discriminate. Qed.
Print Assumptions C43_exact_token_refuted.

(** ** C59 *)
Lemma api_segs g ns name : api_addr g ns name -> api_path g ns name <> [] /\
  exists l, Forall plain_seg l /\ l <> [] /\ api_path g ns name = seg_path l.
Proof.
  destruct g as [[gr v] rt]. intros (Hg & Hv & Hr & Hn & Hm). cbn [fst snd] in *.
  assert (forall w, parse_seg w = TLit w -> True) as _ by done.
  assert (plain_seg (str "api") /\ plain_seg (str "apis") /\ plain_seg (str "namespaces")) as (Pa & Ps & Pn).
  { assert (forall w, str_eqb w [] = false -> existsb (ch_eqb "/"%char) w = false -> str_eqb w (str ".") = false -> str_eqb w (str "..") = false -> plain_seg w) as H.
    { intros w H1 H2 H3 H4. apply str_eqb_neq in H1, H3, H4. split_and!; try done. intros Hin. enough (existsb (ch_eqb "/"%char) w = true) by congruence.
      apply existsb_exists. exists "/"%char. split; [by apply elem_of_list_In|done]. }
    split_and!; by apply H. }
  split.
  - unfold api_path. cbn [fst snd]. by destruct gr.
  - eexists. split; [|split; [|reflexivity]].
    + cbn [fst snd]. repeat apply Forall_app_2.
      * destruct gr; [by constructor|]. destruct Hg as [|Hg]; [done|]. constructor; [done|]. by constructor.
      * by constructor.
      * destruct ns as [n|]; [|done]. constructor; [done|]. constructor; [by apply Hn|done].
      * by constructor.
      * destruct name as [n|]; [|done]. constructor; [by apply Hm|done].
    + cbn [fst snd]. by destruct gr.
Qed.
Lemma templates :
  template (str "/healthy") = [TLit []; TLit (str "healthy")] /\
  template (str "/metrics") = [TLit []; TLit (str "metrics")] /\
  template (str "/custom/v1/namespaces/{namespace}/deployments/{deployment}/services") =
    [TLit []; TLit (str "custom"); TLit (str "v1"); TLit (str "namespaces"); TVar (str "namespace"); TLit (str "deployments"); TVar (str "deployment"); TLit (str "services")] /\
  template (str "/custom/v1/clusters/{cluster}/namespaces/{namespace}/deployments/{deployment}/services") =
    [TLit []; TLit (str "custom"); TLit (str "v1"); TLit (str "clusters"); TVar (str "cluster"); TLit (str "namespaces"); TVar (str "namespace"); TLit (str "deployments"); TVar (str "deployment"); TLit (str "services")] /\
  template (str "/apis/{group}/{version}/namespaces/{namespace}/{resourceType}") =
    [TLit []; TLit (str "apis"); TVar (str "group"); TVar (str "version"); TLit (str "namespaces"); TVar (str "namespace"); TVar (str "resourceType")] /\
  template (str "/apis/{group}/{version}/{resourceType}") =
    [TLit []; TLit (str "apis"); TVar (str "group"); TVar (str "version"); TVar (str "resourceType")] /\
  template (str "/api/{version}/{resourceType}") = [TLit []; TLit (str "api"); TVar (str "version"); TVar (str "resourceType")] /\
  template (str "/api/{version}/namespaces/{namespace}/{resourceType}") =
    [TLit []; TLit (str "api"); TVar (str "version"); TLit (str "namespaces"); TVar (str "namespace"); TVar (str "resourceType")] /\
  template (str "/apis/{group}/{version}/namespaces/{namespace}/{resourceType}/{resource}") =
    [TLit []; TLit (str "apis"); TVar (str "group"); TVar (str "version"); TLit (str "namespaces"); TVar (str "namespace"); TVar (str "resourceType"); TVar (str "resource")] /\
  template (str "/apis/{group}/{version}/{resourceType}/{resource}") =
    [TLit []; TLit (str "apis"); TVar (str "group"); TVar (str "version"); TVar (str "resourceType"); TVar (str "resource")] /\
  template (str "/api/{version}/{resourceType}/{resource}") =
    [TLit []; TLit (str "api"); TVar (str "version"); TVar (str "resourceType"); TVar (str "resource")] /\
  template (str "/api/{version}/namespaces/{namespace}/{resourceType}/{resource}") =
    [TLit []; TLit (str "api"); TVar (str "version"); TLit (str "namespaces"); TVar (str "namespace"); TVar (str "resourceType"); TVar (str "resource")].
Proof. split_and!; vm_compute; reflexivity. Qed.
Lemma match_segs_length ts ps vars : match_segs ts ps = Some vars -> length ts = length ps.
Proof.
  revert ps vars. induction ts as [|t ts IH]; intros [|q ps] vars; cbn [match_segs]; [done|done|by destruct t|].
  destruct t as [s|n].
  - destruct (str_eqb s q); [|done]. intros H. cbn. by rewrite (IH _ _ H).
  - destruct q; [done|]. destruct (match_segs ts ps) eqn:E; [|done]. intros _. cbn. by rewrite (IH _ _ E).
Qed.
Lemma match_segs_len ts ps : length ts <> length ps -> match_segs ts ps = None.
Proof. intros H. destruct (match_segs ts ps) eqn:E; [|done]. by apply match_segs_length in E. Qed.
Lemma match_segs_lit a b ts ps : a <> b -> match_segs (TLit [] :: TLit a :: ts) ([] :: b :: ps) = None.
Proof. intros H. cbn [match_segs]. apply str_eqb_neq in H. by rewrite H. Qed.
Lemma match_var n s ts ps : s <> [] -> match_segs (TVar n :: ts) (s :: ps) = (fun m : gmap gostr gostr => <[n := s]> m) <$> match_segs ts ps.
Proof. by destruct s. Qed.
Lemma match_lit s ts ps : match_segs (TLit s :: ts) (s :: ps) = match_segs ts ps.
Proof. cbn [match_segs]. by rewrite str_eqb_refl. Qed.
Ltac skip_route := match goal with
  | |- context [if ?b then match_segs ?ts ?ps else None] =>
      first [ rewrite (match_segs_len ts ps) by (cbn [length]; discriminate) | rewrite match_segs_lit by discriminate ];
      replace (if b then @None (gmap gostr gostr) else None) with (@None (gmap gostr gostr)) by (by destruct b)
  end.
(** The path of every type, namespace and name of the Kubernetes API reaches the proxy with exactly that
    type, namespace and name; the one exception is a write to a namespaced collection of a named group,
    which reaches the proxy without them and is then forwarded like any write. *)
Theorem C59_api_paths tok hr g ns name : tok = [] \/ occurs tok (h_auth hr) -> api_addr g ns name ->
  rq_path (h_req hr) = api_path g ns name -> rq_method (h_req hr) ∈ any_methods ->
  (rq_method (h_req hr) <> str "GET" -> g.1.1 <> [] -> ns <> None -> name <> None) ->
  exists vars, dispatch route_handles tok hr = DRun HProxy (with_vars (h_req hr) vars) 200 /\
    req_gvr (with_vars (h_req hr) vars) = g /\
    vars !! str "namespace" = ns /\ vars !! str "resource" = name.
Proof.
  intros Ht Ha Hp Hm Hx. destruct (api_segs g ns name Ha) as [_ (l & Hl & Hne & El)].
  assert (canonical (rq_path (h_req hr))) as Hc by (exists l; split; [done|]; left; by rewrite Hp, El).
  destruct (dispatch_canonical tok hr Hc) as (rt & vars & _ & _ & Hf & Hd).
  assert (dispatch route_handles tok hr = DRun (r_handler rt) (with_vars (h_req hr) vars) (r_status rt)) as Hd'.
  { rewrite Hd. destruct Ht as [->|Ho]; [by rewrite andb_false_r|]. apply contains_true in Ho. by rewrite Ho, andb_false_r. }
  clear Hd. exists vars. rewrite Hd'. clear Hd' Ht tok Hc l Hl Hne El. rewrite Hp in Hf. destruct (h_req hr) as [m pa vs raw body acc ct]. cbn [rq_method rq_path] in *. clear Hp.
  unfold with_vars, var, req_gvr. cbn [rq_vars rq_method rq_path rq_raw rq_body rq_accept rq_ctype]. unfold var. cbn [rq_vars].
  assert (forall h s, method_ok (Route s [] h true 200 false) m = true) as Hok.
  { intros h s. unfold method_ok. cbn [r_method]. apply existsb_exists. exists m. split; [by apply elem_of_list_In|apply str_eqb_refl]. }
  assert (forall h s, m = str "GET" -> method_ok (Route s (str "GET") h true 200 false) m = true) as Hok'.
  { intros h s ->. unfold method_ok. done. }
  clear Hm. destruct templates as (T1 & T2 & T3 & T4 & T5 & T6 & T7 & T8 & T9 & T10 & T11 & T12).
  destruct g as [[gr v] rtp]. destruct Ha as (Hg & Hv & Hr & Hn & Hna). cbn [fst snd] in *.
  assert (v <> [] /\ rtp <> []) as [Hv0 Hr0] by (split; [apply Hv|apply Hr]).
  assert (forall n, ns = Some n -> n <> []) as Hn0 by (intros n E; by apply Hn).
  assert (forall n, name = Some n -> n <> []) as Hna0 by (intros n E; by apply Hna).
  revert Hf. unfold api_path, route_handles. cbn [fst snd find_route]. unfold route_match. cbn [r_prefix r_path].
  rewrite split_seg_path.
  2:{ repeat apply Forall_app_2.
    - destruct gr; [repeat constructor; cbn; set_solver|]. destruct Hg as [|(_ & Hg & _)]; [done|]. constructor; [cbn; set_solver|]. by constructor.
    - constructor; [apply Hv|constructor].
    - destruct ns as [n|]; [|done]. constructor; [cbn; set_solver|]. constructor; [by apply Hn|constructor].
    - constructor; [apply Hr|constructor].
    - destruct name as [n|]; [|done]. constructor; [by apply Hna|constructor]. }
  rewrite T1, T2, T3, T4, T5, T6, T7, T8, T9, T10, T11, T12. clear T1 T2 T3 T4 T5 T6 T7 T8 T9 T10 T11 T12.
  destruct gr as [|gc gr].
  - clear Hg. destruct ns as [n|]; destruct name as [x|]; cbn [app]; repeat skip_route; rewrite Hok;
      rewrite !match_lit, ?match_var, ?match_lit, ?match_var by (first [done|by apply Hn0|by apply Hna0]); cbn [match_segs fmap option_fmap option_map];
      intros [= <- <-]; split_and!; first [done|by simplify_map_eq].
  - set (G := gc :: gr) in *. assert (G <> []) as HG by done. clearbody G.
    destruct ns as [n|]; destruct name as [x|]; cbn [app]; repeat skip_route; rewrite ?Hok, ?Hok' by (destruct (decide (m = str "GET")) as [|Hmn]; [done|]; by destruct (Hx Hmn));
      rewrite !match_lit, ?match_var, ?match_lit, ?match_var by (first [done|by apply Hn0|by apply Hna0]); cbn [match_segs fmap option_fmap option_map];
      intros [= <- <-]; split_and!; first [done|by simplify_map_eq].
Qed.
Print Assumptions C59_api_paths.
Theorem C59_group_collection_write tok hr g ns : tok = [] \/ occurs tok (h_auth hr) -> api_addr g (Some ns) None -> g.1.1 <> [] ->
  rq_path (h_req hr) = api_path g (Some ns) None -> rq_method (h_req hr) <> str "GET" ->
  dispatch route_handles tok hr = DRun HProxy (with_vars (h_req hr) ∅) 200.
Proof.
  intros Ht Ha Hgr Hp Hm. destruct (api_segs g (Some ns) None Ha) as [_ (l & Hl & Hne & El)].
  assert (canonical (rq_path (h_req hr))) as Hc by (exists l; split; [done|]; left; by rewrite Hp, El).
  destruct (dispatch_canonical tok hr Hc) as (rt & vars & _ & _ & Hf & Hd).
  assert (dispatch route_handles tok hr = DRun (r_handler rt) (with_vars (h_req hr) vars) (r_status rt)) as Hd'.
  { rewrite Hd. destruct Ht as [->|Ho]; [by rewrite andb_false_r|]. apply contains_true in Ho. by rewrite Ho, andb_false_r. }
  clear Hd. rewrite Hd'. clear Hd' Ht tok l Hl Hne El. apply canonical_slash in Hc. rewrite Hp in Hf, Hc.
  assert (forall h s, method_ok (Route s (str "GET") h true 200 false) (rq_method (h_req hr)) = false) as Hok'.
  { intros h s. unfold method_ok. cbn [r_method]. change (str_eqb (str "GET") (rq_method (h_req hr)) = false). apply str_eqb_neq. intros He. by apply Hm. }
  destruct templates as (T1 & T2 & T3 & T4 & T5 & T6 & T7 & T8 & T9 & T10 & T11 & T12).
  destruct g as [[gr v] rtp]. destruct Ha as (Hg & Hv & Hr & Hn & Hna). cbn [fst snd] in *.
  destruct Hg as [|Hg]; [done|]. specialize (Hn ns eq_refl).
  revert Hf. unfold route_handles. cbn [find_route]. unfold route_match. cbn [r_prefix r_path]. rewrite Hc.
  unfold api_path. cbn [fst snd]. rewrite split_seg_path.
  2:{ destruct gr; [done|]. cbn [app]. constructor; [cbn; set_solver|]. constructor; [apply Hg|]. constructor; [apply Hv|].
      constructor; [cbn; set_solver|]. constructor; [apply Hn|]. constructor; [apply Hr|constructor]. }
  rewrite T1, T2, T3, T4, T5, T6, T7, T8, T9, T10, T11, T12. clear T1 T2 T3 T4 T5 T6 T7 T8 T9 T10 T11 T12.
  destruct gr as [|gc gr]; [done|]. cbn [app]. do 4 skip_route. rewrite Hok'. repeat skip_route. intros [= <- <-]. done.
Qed.
Print Assumptions C59_group_collection_write.
(** Deployments of a namespace, one node, and a sub-resource, which is not an object of the cache. *)
Example C59_ex : let deploys := (str "apps", str "v1", str "deployments") in
  api_path deploys (Some (str "default")) (Some (str "web")) = str "/apis/apps/v1/namespaces/default/deployments/web" /\
  (exists vars, dispatch route_handles [] (ex_http (str "PATCH") (api_path deploys (Some (str "default")) (Some (str "web"))) []) = DRun HProxy (Request (str "PATCH") (str "/apis/apps/v1/namespaces/default/deployments/web") vars [] (Some []) [] []) 200 /\
     vars !! str "resourceType" = Some (str "deployments") /\ vars !! str "resource" = Some (str "web")) /\
  (exists vars, dispatch route_handles [] (ex_http (str "GET") (api_path (([], str "v1"), str "nodes") None (Some (str "n1"))) []) = DRun HProxy (Request (str "GET") (str "/api/v1/nodes/n1") vars [] (Some []) [] []) 200 /\
     vars !! str "resourceType" = Some (str "nodes") /\ vars !! str "namespace" = None) /\
  dispatch route_handles [] (ex_http (str "GET") (str "/api/v1/namespaces/default/pods/p/log") []) =
    DRun HProxy (Request (str "GET") (str "/api/v1/namespaces/default/pods/p/log") ∅ [] (Some []) [] []) 200.
Proof.
  cbv zeta. split_and!; [vm_compute; reflexivity| | |vm_compute; reflexivity].
  - eexists. split; [vm_compute; reflexivity|]. split; vm_compute; reflexivity.
  - eexists. split; [vm_compute; reflexivity|]. split; vm_compute; reflexivity.
Qed.
