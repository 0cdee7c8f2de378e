(** C68: what the fake server serves besides objects: discovery, its address, watching, and what it refuses. *)
From Coq Require Import Ascii String NArith ZArith Lia.
From stdpp Require Import base gmap strings list.
From Verif Require Import ModelStr ProofsStr ModelLabels ModelPage SpecPage ModelJson ModelJsonText ProofsJson ProofsJsonText ModelQuery ModelStore SpecStore ProofsStore
  ModelUrl ModelProxy SpecProxy ProofsProxy ModelObjType SpecObjType ModelWatcher ModelReload SpecReload ModelFake SpecFake ProofsFake ModelServer SpecServer ProofsServer ModelServe SpecServe
  ModelFakeServer SpecFakeServer ProofsFakeServer ProofsFakePages PropsStore PropsServer PropsServe PropsProxy PropsFake PropsFakeServer PropsObjType.

Section pages.
  Context (E : env) (JE : jenv) (marshal : obj -> gostr).
  (** A request that changes no store. *)
  Lemma request_step p i hr o p' st : pr_servers p !! i = Some st -> pstep E JE marshal p (PRequest i hr) (POAnswer o) p' ->
    exists st' e, fserve E JE marshal (pr_conf p) st hr o st' e /\ p' = Process (pr_conf p) (<[i := st']> (pr_servers p)).
  Proof. intros Hi H. inversion H as [| | |? ? st0 ? ? st' e Hi' Hs|]; subst. rewrite Hi in Hi'. injection Hi' as <-. by exists st', e. Qed.
  Lemma unchanged p i st : pr_servers p !! i = Some st -> Process (pr_conf p) (<[i := st]> (pr_servers p)) = p.
  Proof. intros Hi. rewrite list_insert_id by done. by destruct p. Qed.
  Lemma page_served fc st hr k vars o st' e : canonical (rq_path (h_req hr)) -> rq_raw (h_req hr) = [] ->
    find_froute fake_routes (rq_method (h_req hr)) (rq_path (h_req hr)) = Some (k, vars) -> k <> KWrite -> k <> KWatch ->
    fserve E JE marshal fc st hr o st' e -> st' = st /\ o = page_reply (match k with
                   | KVersion => version_page | KApi => api_page | KApis => apis_page fc
                   | _ => resources_page fc (default [] (vars !! str "group")) (default [] (vars !! str "version"))
                   end).
  Proof.
    intros Hc Hr Hf Hk1 Hk2 Hs. apply canonical_clean in Hc.
    assert (watch_param (h_req hr) = false) as Hwp.
    { unfold watch_param. rewrite (no_params _ Hr). by rewrite (lookup_empty (M:=gmap gostr)). }
    destruct Hs as [Hn|_ Hn|? _ _ Hf'|k' vars' _ _ Hf' Hk1' Hk2'|vars' order st' a e _ _ Hf' Hord Hp|vars' order _ _ Hf' Hord Hp|o _ _ Hf' _]; try congruence.
    rewrite Hf in Hf'. injection Hf' as <- <-. done.
  Qed.

  (** ** Discovery *)
  (** GET /apis lists the groups of the configuration, each once, and changes nothing. *)
  Theorem C68_groups p i st hr o p' text : fake_conf text = Some (pr_conf p) -> pr_servers p !! i = Some st ->
    rq_method (h_req hr) = str "GET" -> rq_path (h_req hr) = str "/apis" -> rq_raw (h_req hr) = [] ->
    pstep E JE marshal p (PRequest i hr) (POAnswer o) p' ->
    p' = p /\ exists t j v gs, o = OReply (Reply 200 [BBytes t]) /\ json_parse t = Some j /\ member j (str "groups") v /\ elements v gs /\
      Forall2 (fun name e => member e (str "name") (JStr name)) (firsts (map (fun q => (pc_gvr q).1.1) (fc_proxies (pr_conf p)))) gs.
  Proof.
    intros Hfc Hi Hm Hp Hr Hs. destruct (request_step _ _ _ _ _ _ Hi Hs) as (st' & e & Hsv & ->). clear Hs.
    destruct (page_served (pr_conf p) st hr KApis ∅ o st' e) as [-> ->]; [|done| |done|done|done|].
    { rewrite Hp. apply canonical_iff. vm_compute. reflexivity. }
    { rewrite Hm, Hp. vm_compute. reflexivity. }
    split; [by apply unchanged|]. cbv iota. set (names := firsts _).
    exists (json_text (apis_page (pr_conf p))), (apis_page (pr_conf p)), (nil_slice (map api_group names)), (map api_group names).
    split; [done|]. split; [eapply clean_parse; [apply clean_apis; by eapply fake_conf_utf8|lia]|]. split; [|split; [apply nil_elements|]].
    - unfold apis_page. rewrite groups_firsts. fold names. eexists. split; [reflexivity|]. split; [left|]. intros v0 Hv0%elem_of_list_singleton. by injection Hv0.
    - clearbody names. induction names as [|n l IH]; [constructor|]. constructor; [|done]. eexists. split; [reflexivity|]. split; [left|].
      intros v' Hv. apply elem_of_cons in Hv as [[= ->]|Hv]; [done|]. exfalso. rewrite !elem_of_cons, elem_of_nil in Hv. by destruct Hv as [Hv|[Hv|Hv]].
  Qed.
  (** No version of any group is shown, whatever the configuration. *)
  Theorem C68_no_versions p i st hr o p' text : fake_conf text = Some (pr_conf p) -> pr_servers p !! i = Some st ->
    rq_method (h_req hr) = str "GET" -> rq_path (h_req hr) = str "/apis" -> rq_raw (h_req hr) = [] ->
    pstep E JE marshal p (PRequest i hr) (POAnswer o) p' ->
    exists t j v gs, o = OReply (Reply 200 [BBytes t]) /\ json_parse t = Some j /\ member j (str "groups") v /\ elements v gs /\
      Forall (fun e => member e (str "versions") JNull) gs.
  Proof.
    intros Hfc Hi Hm Hp Hr Hs. destruct (request_step _ _ _ _ _ _ Hi Hs) as (st' & e & Hsv & ->). clear Hs.
    destruct (page_served (pr_conf p) st hr KApis ∅ o st' e) as [-> ->]; [|done| |done|done|done|].
    { rewrite Hp. apply canonical_iff. vm_compute. reflexivity. }
    { rewrite Hm, Hp. vm_compute. reflexivity. }
    cbv iota. set (names := fold_left add_group (fc_proxies (pr_conf p)) []).
    exists (json_text (apis_page (pr_conf p))), (apis_page (pr_conf p)), (nil_slice (map api_group names)), (map api_group names).
    split; [done|]. split; [eapply clean_parse; [apply clean_apis; by eapply fake_conf_utf8|lia]|]. split; [|split; [apply nil_elements|]].
    - eexists. split; [reflexivity|]. split; [left|]. intros v0 Hv0%elem_of_list_singleton. by injection Hv0.
    - apply Forall_forall. intros x Hx. apply elem_of_list_fmap in Hx as (n & -> & _). eexists. split; [reflexivity|]. split; [right; left|].
      intros v' Hv. rewrite !elem_of_cons, elem_of_nil in Hv. destruct Hv as [Hv|[Hv|[Hv|[]]]]; first [discriminate Hv|by injection Hv].
  Qed.
  (** What a page says about one configured type. *)
  Definition describes (q : proxy_conf) (e : json) : Prop :=
    member e (str "name") (JStr (pc_gvr q).2) /\ member e (str "namespaced") (JBool true) /\
    (exists k, (pc_kind q = k ++ str "List" \/ pc_kind q = k /\ forall t, k <> t ++ str "List") /\ member e (str "kind") (JStr k)) /\
    exists v, member e (str "verbs") v /\
      elements v (map (fun x => JStr (str x)) ["create"; "delete"; "deletecollection"; "get"; "list"; "patch"; "update"; "watch"]%string).
  Lemma resource_member g v q k x : k ∉ [str "group"; str "version"] ->
    (forall y, (k, y) ∈ [(str "name", JStr (pc_gvr q).2); (str "singularName", JStr []); (str "namespaced", JBool true);
                         (str "kind", JStr (trim_suffix (pc_kind q) (str "List"))); (str "verbs", jstrs verbs)] <-> y = x) ->
    member (api_resource g v q) k x.
  Proof.
    intros Hk Hx. assert (forall y, (k, y) ∉ omit_empty (str "group") g /\ (k, y) ∉ omit_empty (str "version") v) as Hno.
    { intros y. split.
      - destruct g; [apply not_elem_of_nil|]. intros [= -> ->]%elem_of_list_singleton. apply Hk. left.
      - destruct v; [apply not_elem_of_nil|]. intros [= -> ->]%elem_of_list_singleton. apply Hk. right. left. }
    assert (forall y, (k, y) ∈ [(str "name", JStr (pc_gvr q).2); (str "singularName", JStr []); (str "namespaced", JBool true)]
        ++ omit_empty (str "group") g ++ omit_empty (str "version") v
        ++ [(str "kind", JStr (trim_suffix (pc_kind q) (str "List"))); (str "verbs", jstrs verbs)] <-> y = x) as H.
    { intros y. rewrite <- Hx. destruct (Hno y) as [H1 H2]. rewrite !elem_of_app, !elem_of_cons, !elem_of_nil. tauto. }
    eexists. split; [reflexivity|]. split; [by apply H|]. intros y. apply H.
  Qed.
  Lemma resource_describes g v q : describes q (api_resource g v q).
  Proof.
    split_and!.
    - apply resource_member; [rewrite !elem_of_cons, elem_of_nil; intros [H|[H|[]]]; discriminate H|].
      intros y. rewrite !elem_of_cons, elem_of_nil. split; [intros [H|[H|[H|[H|[H|[]]]]]]; first [discriminate H|by injection H]|intros ->; by left].
    - apply resource_member; [rewrite !elem_of_cons, elem_of_nil; intros [H|[H|[]]]; discriminate H|].
      intros y. rewrite !elem_of_cons, elem_of_nil. split; [intros [H|[H|[H|[H|[H|[]]]]]]; first [discriminate H|by injection H]|intros ->; right; right; by left].
    - exists (trim_suffix (pc_kind q) (str "List")). split.
      + unfold trim_suffix. destruct (has_prefix _ _) eqn:Hp.
        * left. apply has_prefix_true in Hp as [t Ht]. assert (pc_kind q = reverse t ++ str "List") as ->.
          { apply (inj reverse). by rewrite reverse_app, reverse_involutive. }
          rewrite app_length. replace (length (reverse t) + length (str "List") - length (str "List")) with (length (reverse t)) by lia. by rewrite take_app.
        * right. split; [done|]. intros t Ht. rewrite Ht, reverse_app, ProofsStr.has_prefix_app in Hp. done.
      + apply resource_member; [rewrite !elem_of_cons, elem_of_nil; intros [H|[H|[]]]; discriminate H|].
        intros y. rewrite !elem_of_cons, elem_of_nil. split; [intros [H|[H|[H|[H|[H|[]]]]]]; first [discriminate H|by injection H]|intros ->; right; right; right; by left].
    - exists (jstrs verbs). split; [|by left]. apply resource_member; [rewrite !elem_of_cons, elem_of_nil; intros [H|[H|[]]]; discriminate H|].
      intros y. rewrite !elem_of_cons, elem_of_nil. split; [intros [H|[H|[H|[H|[H|[]]]]]]; first [discriminate H|by injection H]|intros ->; right; right; right; right; by left].
  Qed.
  (** GET of a group and version, or of a version of the core group, lists every configured type in order. *)
  Definition group_path (g v : gostr) : gostr := seg_path (match g with [] => [str "api"; v] | _ => [str "apis"; g; v] end).
  Lemma group_route g v : (g = [] \/ plain_seg g) -> plain_seg v -> exists vars : gmap gostr gostr,
    find_froute fake_routes (str "GET") (group_path g v) = Some (KResources, vars) /\
    default [] (vars !! str "group") = g /\ default [] (vars !! str "version") = v.
  Proof.
    intros Hg (Hv & Hvs & _). rewrite fake_table. unfold group_path. destruct g as [|c g].
    - rewrite split_seg_path by (constructor; [cbn; set_solver|by constructor]). do 8 (rewrite templ_drop by reflexivity).
      repeat (rewrite templ_miss by no_match). cbn [find_templ]. change (existsb (str_eqb (str "GET")) G) with true. cbv iota.
      eexists. split; [rewrite !match_lit, !match_var by done; reflexivity|]. split; by simplify_map_eq.
    - destruct Hg as [|(Hg & Hgs & _)]; [done|]. set (G' := c :: g) in *. clearbody G'.
      rewrite split_seg_path by (constructor; [cbn; set_solver|constructor; [done|by constructor]]). do 8 (rewrite templ_drop by reflexivity).
      repeat (rewrite templ_miss by no_match). cbn [find_templ]. change (existsb (str_eqb (str "GET")) G) with true. cbv iota.
      eexists. split; [rewrite !match_lit, !match_var by done; reflexivity|]. split; by simplify_map_eq.
  Qed.
  Theorem C68_resources p i st hr o p' text g v : fake_conf text = Some (pr_conf p) -> pr_servers p !! i = Some st ->
    (g = [] \/ plain_seg g) -> plain_seg v -> valid_utf8 g = true -> valid_utf8 v = true ->
    rq_method (h_req hr) = str "GET" -> rq_path (h_req hr) = group_path g v -> rq_raw (h_req hr) = [] ->
    pstep E JE marshal p (PRequest i hr) (POAnswer o) p' ->
    p' = p /\ exists t j x rs, o = OReply (Reply 200 [BBytes t]) /\ json_parse t = Some j /\
      member j (str "groupVersion") (JStr (match g with [] => v | _ => g ++ str "/" ++ v end)) /\
      member j (str "resources") x /\ elements x rs /\ Forall2 describes (fc_proxies (pr_conf p)) rs.
  Proof.
    intros Hfc Hi Hg Hv Hgu Hvu Hm Hp Hr Hs. destruct (request_step _ _ _ _ _ _ Hi Hs) as (st' & e & Hsv & ->). clear Hs.
    destruct (group_route g v Hg Hv) as (vars & Hf & Evg & Evv).
    destruct (page_served (pr_conf p) st hr KResources vars o st' e) as [-> ->]; [|done| |done|done|done|].
    { rewrite Hp. unfold group_path. destruct g as [|c g].
      - eexists. split; [|left; split; [|reflexivity]; done]. constructor; [|by constructor]. split_and!; [done|set_solver|done|done].
      - destruct Hg as [|Hg]; [done|]. eexists. split; [|left; split; [|reflexivity]; done]. constructor; [|constructor; [done|by constructor]]. split_and!; [done|set_solver|done|done]. }
    { by rewrite Hm, Hp. }
    split; [by apply unchanged|]. cbv iota. rewrite Evg, Evv. set (page := resources_page (pr_conf p) g v).
    eexists _, page, _, _. split; [reflexivity|]. split; [eapply clean_parse; [apply clean_resources; [by eapply fake_conf_utf8|done|done]|lia]|]. split_and!.
    - eexists. split; [reflexivity|]. split; [left|]. intros y Hy. rewrite !elem_of_cons, elem_of_nil in Hy. destruct Hy as [Hy|[Hy|[]]]; [|discriminate Hy].
      by injection Hy.
    - eexists. split; [reflexivity|]. split; [right; left|]. intros y Hy. rewrite !elem_of_cons, elem_of_nil in Hy. destruct Hy as [Hy|[Hy|[]]]; [discriminate Hy|].
      by injection Hy.
    - apply nil_elements.
    - induction (fc_proxies (pr_conf p)) as [|q l IH]; [constructor|]. constructor; [apply resource_describes|done].
  Qed.

  (** GET /api names the one version v1, and GET /version the release 1.23, whatever is configured; neither
      changes anything. *)
  Theorem C68_version p i st hr o p' : pr_servers p !! i = Some st ->
    rq_method (h_req hr) = str "GET" -> rq_raw (h_req hr) = [] ->
    pstep E JE marshal p (PRequest i hr) (POAnswer o) p' ->
    (rq_path (h_req hr) = str "/api" -> p' = p /\ exists t j v, o = OReply (Reply 200 [BBytes t]) /\ json_parse t = Some j /\
       member j (str "versions") v /\ elements v [JStr (str "v1")]) /\
    (rq_path (h_req hr) = str "/version" -> p' = p /\ exists t j, o = OReply (Reply 200 [BBytes t]) /\ json_parse t = Some j /\
       member j (str "major") (JStr (str "1")) /\ member j (str "minor") (JStr (str "23")) /\ member j (str "gitVersion") (JStr (str "v1.23.5"))).
  Proof.
    intros Hi Hm Hr Hs. destruct (request_step _ _ _ _ _ _ Hi Hs) as (st' & e & Hsv & ->). clear Hs. split; intros Hp.
    - destruct (page_served (pr_conf p) st hr KApi ∅ o st' e) as [-> ->]; [|done| |done|done|done|].
      { rewrite Hp. apply canonical_iff. vm_compute. reflexivity. }
      { rewrite Hm, Hp. vm_compute. reflexivity. }
      split; [by apply unchanged|]. exists (json_text api_page), api_page, (JArr [JStr (str "v1")]). split; [done|]. split; [vm_compute; reflexivity|].
      split; [|by left]. eexists. split; [reflexivity|]. split; [left|]. intros v Hv. rewrite !elem_of_cons, elem_of_nil in Hv. destruct Hv as [Hv|[Hv|[]]]; [by injection Hv|discriminate Hv].
    - destruct (page_served (pr_conf p) st hr KVersion ∅ o st' e) as [-> ->]; [|done| |done|done|done|].
      { rewrite Hp. apply canonical_iff. vm_compute. reflexivity. }
      { rewrite Hm, Hp. vm_compute. reflexivity. }
      split; [by apply unchanged|]. exists (json_text version_page), version_page. split; [done|]. split; [vm_compute; reflexivity|].
      split_and!; eexists; (split; [reflexivity|]); (split; [set_solver|]); intros v Hv; rewrite !elem_of_cons, elem_of_nil in Hv;
        repeat destruct Hv as [Hv|Hv]; solve [by injection Hv|discriminate Hv|destruct Hv].
  Qed.

  (** ** The address *)
  (** A listen address with one colon: the client is given the same port, on the loopback address if a host is named. *)
  Theorem C68_address p h port text host p' : ":"%char ∉ h -> ":"%char ∉ port ->
    pstep E JE marshal p (PNew (h ++ ":"%char :: port) text) (POCreated host) p' ->
    host = str "http://" ++ (match h with [] => [] | _ => str "127.0.0.1" end) ++ ":"%char :: port.
  Proof.
    intros Hh Hp H. destruct (created_at _ _ _ _ _ _ _ _ H) as (fc & _ & Hhost & _). unfold fake_host in Hhost.
    rewrite split_on_app, (split_on_nosep _ port) in Hhost by done. destruct h; by injection Hhost as <-.
  Qed.

  (** ** Watching *)
  (** A request with watch=true or watch=1 changes nothing, whatever its method and path, and begins a stream; a
      selector that is no selector closes the connection, one with a bad query is refused. *)
  Theorem C68_watch_param p i st hr o p' w : pr_servers p !! i = Some st -> canonical (rq_path (h_req hr)) ->
    query_parse (rq_raw (h_req hr)) !! str "watch" = Some [w] -> (w = str "true" \/ w = str "1") ->
    pstep E JE marshal p (PRequest i hr) (POAnswer o) p' ->
    p' = p /\ ((exists r, same_request (h_req hr) r /\ o = OStream r) \/ o = OReply (Reply 400 [BStatus 400 []]) \/
      o = OAborted /\ exists sel vs, query_parse (rq_raw (h_req hr)) !! str "labelSelector" = Some (sel :: vs) /\ parse_to_label_selector sel = None).
  Proof.
    intros Hi Hc Hw Hv Hs. destruct (request_step _ _ _ _ _ _ Hi Hs) as (st' & e & Hsv & ->). clear Hs. apply canonical_clean in Hc.
    assert (watch_param (h_req hr) = true) as Hwp.
    { unfold watch_param. rewrite Hw. destruct Hv as [-> | ->]; done. }
    destruct Hsv as [Hn|_ Hn|? _ Hn|k' vars' _ Hn|vars' order st' a e _ Hn|vars' order _ Hn|o _ Hn]; try congruence.
    split; [by apply unchanged|]. unfold begin_watch. set (r := with_vars _ _).
    change (rq_raw r) with (rq_raw (h_req hr)). set (sel := match query_parse (rq_raw (h_req hr)) !! str "labelSelector" with Some (v :: _) => v | _ => [] end).
    destruct (watch_page sel) as [[q|]|] eqn:Hq; [left; exists r; by split|right; by left|]. right. right. split; [done|].
    unfold watch_page in Hq. destruct sel as [|c s0] eqn:Es; [done|].
    destruct (parse_to_label_selector (c :: s0)) as [ls|] eqn:Ep; [destruct (extract_query ls) as [[? ?]|]; done|].
    unfold sel in Es. destruct (query_parse (rq_raw (h_req hr)) !! str "labelSelector") as [[|x vs]|]; [done| |done]. subst x. by exists (c :: s0), vs.
  Qed.

  (** ** What is not served *)
  (** A write of a sub-resource of a namespaced object. *)
  Definition subresource (hr : http_req) : Prop := exists g ns name sub,
    rq_method (h_req hr) ∈ write_methods /\ api_addr g (Some ns) (Some name) /\ plain_seg sub /\
    rq_path (h_req hr) = api_path g (Some ns) (Some name) ++ "/"%char :: sub.
  Lemma sub_split g ns name sub : api_addr g (Some ns) (Some name) -> plain_seg sub ->
    split_on "/"%char (api_path g (Some ns) (Some name) ++ "/"%char :: sub) =
      [] :: (match g.1.1 with [] => [str "api"] | gr => [str "apis"; gr] end) ++ [g.1.2; str "namespaces"; ns; g.2; name; sub] /\
    canonical (api_path g (Some ns) (Some name) ++ "/"%char :: sub).
  Proof.
    intros Ha Hs. destruct (api_segs g (Some ns) (Some name) Ha) as [_ (l & Hl & Hne & El)].
    assert (api_path g (Some ns) (Some name) ++ "/"%char :: sub = seg_path (l ++ [sub])) as E1.
    { rewrite El, seg_path_app. cbn [seg_path flat_map]. by rewrite app_nil_r. }
    assert (Forall plain_seg (l ++ [sub])) as Hl' by (apply Forall_app; split; [done|by constructor]).
    split.
    - rewrite E1, split_seg_path by (eapply Forall_impl; [exact Hl'|]; intros x Hx; apply Hx). f_equal.
      pose proof (path_split _ _ _ Ha) as Hsp. rewrite El, split_seg_path in Hsp by (eapply Forall_impl; [exact Hl|]; intros x Hx; apply Hx).
      injection Hsp as ->. rewrite <- !app_assoc. reflexivity.
    - exists (l ++ [sub]). split; [done|]. left. split; [by destruct l|done].
  Qed.
  Lemma sub_route m g ns name sub : api_addr g (Some ns) (Some name) -> plain_seg sub -> m ∈ write_methods ->
    find_froute fake_routes m (api_path g (Some ns) (Some name) ++ "/"%char :: sub) = None.
  Proof.
    intros Ha Hs Hm. rewrite fake_table, (proj1 (sub_split _ _ _ _ Ha Hs)). destruct g as [[gr v] rtp]. cbn [fst snd] in *. clear Ha.
    destruct gr as [|gc gr]; [|generalize (gc :: gr); intros gr']; cbn [app]; repeat (rewrite templ_miss by no_match); reflexivity.
  Qed.
  Lemma patch_route pa : find_froute fake_routes (str "PATCH") pa = None.
  Proof. rewrite fake_table. repeat (rewrite templ_drop by reflexivity). reflexivity. Qed.
  Lemma not_served p i st hr o p' : fc_token (pr_conf p) = [] -> reached E (index_conf (fc_proxies (pr_conf p))) st -> pr_servers p !! i = Some st ->
    (rq_method (h_req hr) = str "PATCH" /\ canonical (rq_path (h_req hr)) \/ subresource hr) -> watch_param (h_req hr) = false ->
    pstep E JE marshal p (PRequest i hr) (POAnswer o) p' ->
    p' = p /\ o = OReply (Reply 404 [BStatus 404 (str "cluster not found")]).
  Proof.
    intros Htok (h & Hk & Hrun) Hi Hreq Hwp Hs. destruct (request_step _ _ _ _ _ _ Hi Hs) as (st' & e & Hsv & ->). clear Hs.
    assert (canonical (rq_path (h_req hr)) /\ find_froute fake_routes (rq_method (h_req hr)) (rq_path (h_req hr)) = None /\
      rq_method (h_req hr) <> str "GET" /\ rq_method (h_req hr) ∈ methods) as (Hc & Hf & Hg & Hm).
    { destruct Hreq as [[-> Hc]|(g & ns & name & sub & Hm & Ha & Hsub & ->)].
      - split; [done|]. split; [apply patch_route|]. split; [by apply str_eqb_neq|]. unfold methods. set_solver.
      - split; [by apply sub_split|]. split; [by apply sub_route|]. unfold write_methods, methods in *. rewrite !elem_of_cons, elem_of_nil in *.
        destruct Hm as [->|[->|[->|[]]]]; (split; [by apply str_eqb_neq|tauto]). }
    destruct Hsv as [Hn|_ Hn|? _ _ Hf'|k vars' _ _ Hf' Hk1 Hk2|vars' order st' a e' _ _ Hf' Hord Hpx|vars' order _ _ Hf' Hord Hpx|o' _ _ Hf' Hsv']; try congruence.
    { apply canonical_clean in Hc. congruence. }
    destruct (C60_write E (conf_of_file (pr_conf p)) _ h st ∅ no_apis hr o' Hrun (or_introl Htok) Hc Hg Hsv') as (vars & rp & -> & H).
    split; [by apply unchanged|]. f_equal. cbn zeta in H. destruct H as [(c & r1 & r' & Hin & _)|[(c & _ & _ & ->)|[Hn _]]]; [set_solver|done|]. by destruct Hn.
  Qed.
  Lemma unconfigured_type p i st hr o p' k ob : reached E (index_conf (fc_proxies (pr_conf p))) st -> pr_servers p !! i = Some st ->
    http_asks JE (conf_of_file (pr_conf p)) hr (HDo (OCreate k ob)) -> ~ configured (pr_conf p) k.1.1.1 ->
    pstep E JE marshal p (PRequest i hr) (POAnswer o) p' -> p' = p /\ o = OAborted.
  Proof.
    intros Hre Hi Hask Hncf Hs. destruct (request_step _ _ _ _ _ _ Hi Hs) as (st' & e & Hsv & ->). clear Hs.
    destruct (http_write JE _ hr _ Hask) as (Hcl & Hwp & vars & Hf & Hasks & Hop). cbn zeta in *. cbn [hop_gvr op_key fmap option_fmap option_map] in Hop. injection Hop as Hu.
    assert (st_map st !! k.1.1.1 = None) as Hnone.
    { apply eq_None_not_Some. intros Hsome. apply (reached_dom E _ _ _ Hre) in Hsome. apply Hncf. by apply index_dom. }
    assert (forall order, order ≡ₚ map_to_list (query_parse (rq_raw (h_req hr))) ->
      fake_proxy E JE marshal (conf_of_file (pr_conf p)) order st (with_vars (h_req hr) vars) = Panics) as Hpan.
    { intros order Hord. assert (asks JE (conf_of_file (pr_conf p)) order (with_vars (h_req hr) vars) (OCreate k ob)) as Ha' by (eapply asks_perm; [symmetry; exact Hord|exact Hasks]).
      destruct (proxy_op E JE marshal _ order st _ _ Ha') as (bs & od & _ & -> & _). destruct k as [[[g c] ns] n]. cbn [fst snd] in *. unfold do_op.
      assert (store_get st g c ns n = None) as ->. { unfold store_get, lookup_entry. by rewrite Hnone. }
      by rewrite (proj2 (call_panics E st (CAdd g c (to_obj ob))) Hnone). }
    destruct Hsv as [Hn|_ Hn|? _ _ Hf'|k' vars' _ _ Hf' Hk1 Hk2|vars' order st' a e' _ _ Hf' Hord Hpx|vars' order _ _ Hf' Hord Hpx|o' _ _ Hf' Hsv']; try congruence.
    - rewrite Hf in Hf'. injection Hf' as <-. rewrite (Hpan _ Hord) in Hpx. done.
    - split; [by apply unchanged|done].
  Qed.
  (** The i-th server after its creation with a configuration and any use of the process that creates no server. *)
  Inductive serving (p : process) (i : nat) (fc : file_conf) : Prop :=
  | serving_intro p0 listen text host p1 is os : pstep E JE marshal p0 (PNew listen text) (POCreated host) p1 -> fake_conf text = Some fc ->
      i = length (pr_servers p0) -> Forall (fun x => forall l t, x <> PNew l t) is -> pruns E JE marshal p1 is os p -> serving p i fc.
  Lemma kept_run p is os p' : pruns E JE marshal p is os p' -> Forall (fun x => forall l t, x <> PNew l t) is -> forall i fc st,
    pr_conf p = fc -> pr_servers p !! i = Some st -> reached E (index_conf (fc_proxies fc)) st ->
    pr_conf p' = fc /\ exists st', pr_servers p' !! i = Some st' /\ reached E (index_conf (fc_proxies fc)) st'.
  Proof.
    induction 1 as [p|p x o p1 is os p2 Hstep Hruns IH]; intros Hn i fc st Hfc Hi Hre; [split; [done|]; by exists st|].
    inversion Hn as [|? ? Hx Hn']; subst x0 l. destruct Hstep as [| | |p j st0 hr o st1 e Hj Hs|p j st0 Hj]; try (by destruct (Hx listen text)).
    - destruct (decide (j = i)) as [->|Hne].
      + rewrite Hi in Hj. injection Hj as <-. eapply (IH Hn' i fc st1); [done| |by eapply reached_serve]. cbn [pr_servers]. apply list_lookup_insert. by eapply lookup_lt_Some.
      + eapply (IH Hn' i fc st); [done| |done]. cbn [pr_servers]. by rewrite list_lookup_insert_ne.
    - destruct (decide (j = i)) as [->|Hne].
      + eapply (IH Hn' i fc (new_store (index_conf (fc_proxies (pr_conf p))))); [done| |rewrite Hfc; apply reached_new]. cbn [pr_servers]. apply list_lookup_insert. by eapply lookup_lt_Some.
      + eapply (IH Hn' i fc st); [done| |done]. cbn [pr_servers]. by rewrite list_lookup_insert_ne.
  Qed.
  Lemma serving_inv p i fc : serving p i fc -> pr_conf p = fc /\ fc_token fc = [] /\
    exists st, pr_servers p !! i = Some st /\ reached E (index_conf (fc_proxies fc)) st.
  Proof.
    intros [p0 listen text host p1 is os Hnew Hfc -> Hn Hruns].
    destruct (created_at _ _ _ _ _ _ _ _ Hnew) as (fc' & Hfc' & _ & Hc & Htok & Hsv). rewrite Hfc in Hfc'. injection Hfc' as <-.
    destruct (kept_run _ _ _ _ Hruns Hn (length (pr_servers p0)) fc (new_store (index_conf (fc_proxies fc)))) as [H1 H2]; [done| |apply reached_new|done].
    rewrite Hsv. by apply list_lookup_middle.
  Qed.
  (** A patch, and a write of a sub-resource, is answered as by a server without clusters, and changes nothing. *)
  Theorem C68_not_served p i fc hr o p' : serving p i fc ->
    (rq_method (h_req hr) = str "PATCH" /\ canonical (rq_path (h_req hr)) \/ subresource hr) -> rq_raw (h_req hr) = [] ->
    pstep E JE marshal p (PRequest i hr) (POAnswer o) p' ->
    p' = p /\ o = OReply (Reply 404 [BStatus 404 (str "cluster not found")]).
  Proof.
    intros Hsv Hreq Hr Hs. destruct (serving_inv _ _ _ Hsv) as (Hc & Htok & st & Hi & Hre). subst fc. eapply not_served; try done.
    unfold watch_param. rewrite (no_params _ Hr). by rewrite (lookup_empty (M:=gmap gostr)).
  Qed.
  (** Creating an object of a type that is not configured closes the connection. *)
  Theorem C68_unconfigured_type p i fc hr o p' k ob : serving p i fc ->
    http_asks JE (conf_of_file fc) hr (HDo (OCreate k ob)) -> ~ configured fc k.1.1.1 ->
    pstep E JE marshal p (PRequest i hr) (POAnswer o) p' -> p' = p /\ o = OAborted.
  Proof. intros Hsv Hask Hncf Hs. destruct (serving_inv _ _ _ Hsv) as (Hc & Htok & st & Hi & Hre). subst fc. by eapply unconfigured_type. Qed.
  (** Every sequence of requests and cleanings can run. *)
  Theorem C68_runs_exist is : forall p, Forall (fun x => exists i, i < length (pr_servers p) /\ (x = PClean i \/ exists hr, x = PRequest i hr)) is ->
    exists os p', pruns E JE marshal p is os p'.
  Proof.
    induction is as [|x is IH]; intros p H; [eexists _, _; constructor|]. inversion H as [|? ? (i & Hlt & Hx) H']; subst x0 l.
    apply lookup_lt_is_Some in Hlt as [st Hi].
    assert (exists o p1, pstep E JE marshal p x o p1 /\ length (pr_servers p1) = length (pr_servers p)) as (o & p1 & Hs & Hlen).
    { destruct Hx as [->|[hr ->]].
      - eexists _, _. split; [by eapply ps_clean|]. cbn [pr_servers]. by rewrite insert_length.
      - destruct (C68_every_request E JE marshal p i st hr Hi) as (o & p1 & Hs). exists (POAnswer o), p1. split; [done|].
        destruct (request_step _ _ _ _ _ _ Hi Hs) as (st' & e & _ & ->). cbn [pr_servers]. by rewrite insert_length. }
    destruct (IH p1) as (os & p2 & Hr). { by rewrite Hlen. } eexists _, _. by econstructor.
  Qed.
End pages.
Print Assumptions C68_groups.
Print Assumptions C68_no_versions.
Print Assumptions C68_resources.
Print Assumptions C68_version.
Print Assumptions C68_address.
Print Assumptions C68_watch_param.
Print Assumptions C68_not_served.
Print Assumptions C68_unconfigured_type.
Print Assumptions C68_runs_exist.

(** ** Examples *)
Definition fs_text : gostr := str "{""proxies"":[{""version"":""v1"",""resource"":""pods"",""list_kind"":""PodList""}],""default_cluster"":""c1"",""token"":""t""}".
Definition fs_fc : file_conf := FileConf [ProxyConf pods (str "PodList") ∅] c1 [].
Definition fs_text2 : gostr := str "{""proxies"":[{""group"":""apps"",""version"":""v1"",""resource"":""deployments"",""list_kind"":""DeploymentList""}]}".
Definition fs_fc2 : file_conf := FileConf [ProxyConf (str "apps", str "v1", str "deployments") (str "DeploymentList") ∅] (str "default") [].
Lemma fs_conf1 : fake_conf fs_text = Some fs_fc.
Proof. vm_compute. reflexivity. Qed.
Lemma fs_conf2 : fake_conf fs_text2 = Some fs_fc2.
Proof. vm_compute. reflexivity. Qed.
Definition fs_req (method : string) (path : gostr) (body : gostr) : http_req :=
  HttpReq [] (Request (str method) path ∅ [] (Some body) [] []).
Definition fs_post : http_req := fs_req "POST" (api_path pods (Some (str "default")) None) fk_body.
Definition fs_get : http_req := fs_req "GET" (api_path pods (Some (str "default")) (Some (str "a"))) [].
Definition fs_p0 : process := Process zero_conf [].
Definition fs_p1 : process := Process fs_fc [new_store (index_conf (fc_proxies fs_fc))].
Lemma fs_plain s : existsb (fun c => Ascii.eqb c "/"%char) s = false -> s <> [] -> s <> str "." -> s <> str ".." -> plain_seg s.
Proof.
  intros Hs H0 H1 H2. split_and!; [done| |done|done]. intros Hi. assert (existsb (fun c => Ascii.eqb c "/"%char) s = true); [|congruence].
  apply existsb_exists. exists "/"%char. by rewrite <- elem_of_list_In.
Qed.
Lemma fs_addr name : (forall n, name = Some n -> plain_seg n) -> api_addr pods (Some (str "default")) name.
Proof.
  intros H. split; [by left|]. split; [by apply fs_plain|]. split; [by apply fs_plain|]. split; [|done]. intros n [= <-]. by apply fs_plain.
Qed.
Lemma fs_params m p b : url_params (fs_req m p b) = [].
Proof. unfold url_params. rewrite (no_params (h_req (fs_req m p b)) eq_refl). apply map_to_list_empty. Qed.
Lemma fs_asks_post cf : cf_default cf = c1 -> http_asks ex_jenv cf fs_post (HDo (OCreate (pods, c1, str "default", str "a") (fk_obj fk_body))).
Proof.
  intros Hd. assert (me_name (t_meta (fk_raw fk_body)) = str "a") as Hn by (vm_compute; reflexivity).
  pose proof (ha_create ex_jenv cf fs_post pods (Some (str "default")) None c1 fk_body (fk_raw fk_body)) as H.
  rewrite Hn in H. apply H; [done|by apply fs_addr|done| | |done|apply fk_decode; vm_compute; reflexivity|by left].
  - unfold fs_post. rewrite fs_params. intros kv Hin. by apply elem_of_nil in Hin.
  - unfold fs_post. rewrite fs_params. right. split; [|done]. intros kv c' Hin. by apply elem_of_nil in Hin.
Qed.
Lemma fs_asks_get cf : cf_default cf = c1 -> http_asks ex_jenv cf fs_get (HGet (pods, c1, str "default", str "a")).
Proof.
  intros Hd. apply (ha_get ex_jenv cf fs_get pods (Some (str "default")) (str "a") c1); [done| |done|by apply str_eqb_neq|by left].
  apply fs_addr. intros n [= <-]. by apply fs_plain.
Qed.
Lemma fs_new : pstep ex_env ex_jenv (fun _ => []) fs_p0 (PNew (str "localhost:3033") fs_text) (POCreated (str "http://127.0.0.1:3033")) fs_p1.
Proof. apply (ps_new ex_env ex_jenv (fun _ => []) fs_p0 _ _ fs_fc); [apply fs_conf1|]. vm_compute. reflexivity. Qed.
Lemma fs_configured : configured fs_fc pods.
Proof. eexists. split; [left|done]. Qed.
Lemma fs_step st A hr op : reached ex_env (index_conf (fc_proxies fs_fc)) st -> holds st A ->
  http_asks ex_jenv (conf_of_file fs_fc) hr op -> hop_gvr op = Some pods ->
  exists o st', pstep ex_env ex_jenv (fun _ => []) (Process fs_fc [st]) (PRequest 0 hr) (POAnswer o) (Process fs_fc [st']) /\
    answered A op o /\ reached ex_env (index_conf (fc_proxies fs_fc)) st' /\ holds st' (next A op).
Proof.
  intros Hre HA Hask Hg. destruct (C68_every_request ex_env ex_jenv (fun _ => []) (Process fs_fc [st]) 0 st hr eq_refl) as (o & p' & Hs).
  destruct (request_step _ _ _ (Process fs_fc [st]) 0 hr o p' st eq_refl Hs) as (st' & e & Hsv & ->). exists o, st'. split; [exact Hs|].
  destruct (serve_asked _ _ _ fs_fc st A hr op pods o st' e eq_refl Hre HA Hask Hg fs_configured Hsv) as [H1 H2]. split; [done|]. split; [|done].
  by eapply reached_serve.
Qed.
Definition fs_inputs : list pinput := [PRequest 0 fs_post; PRequest 0 fs_post; PRequest 0 fs_get; PClean 0; PRequest 0 fs_get].
Definition fs_key : okey := (pods, c1, str "default", str "a").
(** A created object is read back; a second create is refused; cleaning removes it. *)
Example C68_ex_store : Forall (proper ex_jenv (conf_of_file fs_fc) (configured fs_fc) 0) fs_inputs /\
  exists p o1 o2 o3 o4, pruns ex_env ex_jenv (fun _ => []) fs_p1 fs_inputs
    [POAnswer (OReply o1); POAnswer (OReply o2); POAnswer (OReply o3); POCleaned; POAnswer (OReply o4)] p /\
  rp_status <$> [o1; o2; o3; o4] = [200; 400; 200; 404]%Z.
Proof.
  pose proof (fs_asks_post (conf_of_file fs_fc) eq_refl) as Hpost. pose proof (fs_asks_get (conf_of_file fs_fc) eq_refl) as Hget. fold fs_key in Hpost, Hget. split.
  { unfold fs_inputs. assert (proper ex_jenv (conf_of_file fs_fc) (configured fs_fc) 0 (PRequest 0 fs_post)) as H1.
    { right. right. eexists _, _, pods. split; [reflexivity|]. split; [exact Hpost|]. split; [done|apply fs_configured]. }
    assert (proper ex_jenv (conf_of_file fs_fc) (configured fs_fc) 0 (PRequest 0 fs_get)) as H2.
    { right. right. eexists _, _, pods. split; [reflexivity|]. split; [exact Hget|]. split; [done|apply fs_configured]. }
    repeat (apply Forall_cons_2; [first [exact H1|exact H2|by right; left]|]). constructor. }
  set (cr := HDo (OCreate fs_key (fk_obj fk_body))) in *.
  destruct (fs_step _ _ _ _ (reached_new ex_env _) (holds_new _) Hpost eq_refl) as (o1 & s1 & S1 & (r1 & -> & E1) & Hre1 & HA1).
  destruct (fs_step _ _ _ _ Hre1 HA1 Hpost eq_refl) as (o2 & s2 & S2 & (r2 & -> & E2) & Hre2 & HA2).
  destruct (fs_step _ _ _ _ Hre2 HA2 Hget eq_refl) as (o3 & s3 & S3 & E3 & Hre3 & _).
  destruct (fs_step _ _ _ _ (reached_new ex_env _) (holds_new _) Hget eq_refl) as (o4 & s4 & S4 & E4 & _ & _).
  assert (exists ob, next (next (fun _ => None) cr) cr fs_key = Some ob) as [ob Hob] by (eexists; vm_compute; reflexivity).
  cbn [answered fs_key] in E3, E4. fold fs_key in E3, E4. rewrite Hob in E3. destruct E3 as (x & -> & _). subst o4.
  eexists _, r1, r2, _, _. split.
  - econstructor; [exact S1|]. econstructor; [exact S2|]. econstructor; [exact S3|]. econstructor; [by eapply ps_clean|]. econstructor; [exact S4|]. constructor.
  - cbn [fmap list_fmap rp_status]. rewrite E1, E2. vm_compute. reflexivity.
Qed.
(** The type of a group is found under another group, and its version under none. *)
Definition fs_page (path : string) : http_req := fs_req "GET" (str path) [].
Definition fs_p2 : process := Process fs_fc2 [new_store (index_conf (fc_proxies fs_fc2))].
Lemma fs_answer p i st hr : pr_servers p !! i = Some st -> exists o p', pstep ex_env ex_jenv (fun _ => []) p (PRequest i hr) (POAnswer o) p'.
Proof. apply C68_every_request. Qed.
(** The claim that discovery shows the configured versions is false. *)
Theorem C68_versions_refuted : exists text fc g v r o p', fake_conf text = Some fc /\ configured fc (g, v, r) /\
  pstep ex_env ex_jenv (fun _ => []) (Process fc [new_store (index_conf (fc_proxies fc))]) (PRequest 0 (fs_page "/apis")) (POAnswer o) p' /\
  exists t j x e, o = OReply (Reply 200 [BBytes t]) /\ json_parse t = Some j /\ member j (str "groups") x /\ elements x [e] /\
    member e (str "name") (JStr g) /\ member e (str "versions") JNull.
Proof.
  destruct (fs_answer fs_p2 0 _ (fs_page "/apis") eq_refl) as (o & p' & Hs).
  exists fs_text2, fs_fc2, (str "apps"), (str "v1"), (str "deployments"), o, p'. split; [apply fs_conf2|]. split; [eexists; split; [left|done]|]. split; [exact Hs|].
  destruct (C68_groups _ _ _ fs_p2 0 _ (fs_page "/apis") o p' fs_text2 fs_conf2 eq_refl eq_refl eq_refl eq_refl Hs) as (_ & t & j & x & gs & -> & Hj & Hx & Hgs & Hn).
  destruct (C68_no_versions _ _ _ fs_p2 0 _ (fs_page "/apis") _ p' fs_text2 fs_conf2 eq_refl eq_refl eq_refl eq_refl Hs) as (t' & j' & x' & gs' & [= <-] & Hj' & Hx' & Hgs' & Hv).
  rewrite Hj in Hj'. injection Hj' as <-. assert (x' = x) as ->.
  { destruct Hx as (l & -> & Hin & Hu), Hx' as (l' & [= <-] & Hin' & _). by apply Hu. }
  assert (gs' = gs) as ->. { destruct Hgs as [->|[-> ->]], Hgs' as [H|[H ->]]; congruence. }
  change (firsts (map (fun q => (pc_gvr q).1.1) (fc_proxies (pr_conf fs_p2)))) with [str "apps"] in Hn.
  inversion Hn as [|? e ? gs0 He Hn']; subst. inversion Hn'; subst. exists t, j, x, e. split_and!; try done. by inversion Hv.
Qed.
Print Assumptions C68_versions_refuted.
(** The claim that a group lists only types of that group is false. *)
Theorem C68_groups_listed_refuted : exists text fc g v o p', fake_conf text = Some fc /\ (forall r, ~ configured fc (g, v, r)) /\
  pstep ex_env ex_jenv (fun _ => []) (Process fc [new_store (index_conf (fc_proxies fc))]) (PRequest 0 (fs_page "/apis/batch/v2")) (POAnswer o) p' /\
  g = str "batch" /\ v = str "v2" /\
  exists t j x e, o = OReply (Reply 200 [BBytes t]) /\ json_parse t = Some j /\
    member j (str "groupVersion") (JStr (str "batch/v2")) /\ member j (str "resources") x /\ elements x [e] /\
    member e (str "name") (JStr (str "deployments")) /\ member e (str "kind") (JStr (str "Deployment")).
Proof.
  destruct (fs_answer fs_p2 0 _ (fs_page "/apis/batch/v2") eq_refl) as (o & p' & Hs).
  exists fs_text2, fs_fc2, (str "batch"), (str "v2"), o, p'. split; [apply fs_conf2|]. split.
  { intros r (q & Hq & E). apply elem_of_list_singleton in Hq as ->. discriminate E. }
  split; [exact Hs|]. split; [done|]. split; [done|].
  destruct (C68_resources ex_env ex_jenv (fun _ => []) fs_p2 0 _ (fs_page "/apis/batch/v2") o p' fs_text2 (str "batch") (str "v2") fs_conf2 eq_refl) as (_ & t & j & x & rs & -> & Hj & Hgv & Hx & Hrs & Hd);
    [right; by apply fs_plain|by apply fs_plain|reflexivity|reflexivity|reflexivity|reflexivity|reflexivity|exact Hs|].
  inversion Hd as [|? e ? rs0 He Hd']; subst. inversion Hd'; subst. exists t, j, x, e. split_and!; try done; [by destruct He|].
  destruct He as (_ & _ & (k & [Hk|[Hk Hno]] & Hm) & _).
  - change (pc_kind _) with (str "Deployment" ++ str "List") in Hk. apply app_inj_2 in Hk as [<- _]; [done|done].
  - exfalso. apply (Hno (str "Deployment")). by rewrite <- Hk.
Qed.
Print Assumptions C68_groups_listed_refuted.
(** The claim that a client can be given the address of every listening server is false: no colon is a panic, an
    IPv6 address loses its port, and another address than the loopback address is replaced by it. *)
Theorem C68_address_refuted :
  (exists p', pstep ex_env ex_jenv (fun _ => []) fs_p0 (PNew (str "3033") fs_text) POPanic p') /\
  (exists p', pstep ex_env ex_jenv (fun _ => []) fs_p0 (PNew (str "[::1]:3033") fs_text) (POCreated (str "http://127.0.0.1:")) p') /\
  (exists p', pstep ex_env ex_jenv (fun _ => []) fs_p0 (PNew (str "10.0.0.1:3033") fs_text) (POCreated (str "http://127.0.0.1:3033")) p').
Proof.
  split_and!; eexists.
  - eapply ps_addr; [apply fs_conf1|vm_compute; reflexivity].
  - eapply ps_new; [apply fs_conf1|vm_compute; reflexivity].
  - eapply ps_new; [apply fs_conf1|vm_compute; reflexivity].
Qed.
Print Assumptions C68_address_refuted.
(** The claim that a cleaned server serves what it was created for is false: after another server was created, the
    store is rebuilt for the types of that one, and creating an object closes the connection. *)
Theorem C68_clean_refuted : exists text1 text2 fc1 hr k ob p,
  fake_conf text1 = Some fc1 /\ configured fc1 k.1.1.1 /\
  (forall cf, cf_default cf = c1 -> http_asks ex_jenv cf hr (HDo (OCreate k ob))) /\
  pruns ex_env ex_jenv (fun _ => []) fs_p0
    [PNew (str ":3033") text1; PNew (str ":3034") text2; PClean 0; PRequest 0 hr]
    [POCreated (str "http://:3033"); POCreated (str "http://:3034"); POCleaned; POAnswer OAborted] p.
Proof.
  set (text2 := str "{""default_cluster"":""c1""}"). set (fc2 := FileConf [] c1 []).
  assert (fake_conf text2 = Some fc2) as Hf2 by (vm_compute; reflexivity).
  set (p3 := Process fc2 [new_store (index_conf []); new_store (index_conf [])]).
  destruct (fs_answer p3 0 _ fs_post eq_refl) as (o & p' & Hs).
  destruct (unconfigured_type ex_env ex_jenv (fun _ => []) p3 0 _ fs_post o p' fs_key (fk_obj fk_body) (reached_new _ _) eq_refl (fs_asks_post (conf_of_file fc2) eq_refl)) as [-> ->]; [|exact Hs|].
  { intros (q & Hq & _). by apply elem_of_nil in Hq. }
  exists fs_text, text2, fs_fc, fs_post, fs_key, (fk_obj fk_body), p3. split; [apply fs_conf1|]. split; [apply fs_configured|]. split; [apply fs_asks_post|].
  econstructor; [eapply ps_new; [apply fs_conf1|vm_compute; reflexivity]|].
  econstructor; [eapply ps_new; [exact Hf2|vm_compute; reflexivity]|].
  econstructor; [eapply ps_clean; reflexivity|]. econstructor; [exact Hs|]. constructor.
Qed.
Print Assumptions C68_clean_refuted.
(** A watch with a selector that is none. *)
Example C68_ex_bad_watch : exists p', pstep ex_env ex_jenv (fun _ => []) fs_p1
  (PRequest 0 (HttpReq [] (Request (str "GET") (str "/api/v1/pods") ∅ (str "watch=true&labelSelector=a+in+(") None [] []))) (POAnswer OAborted) p'.
Proof.
  eexists. eapply ps_request; [reflexivity|]. set (hr := HttpReq _ _).
  assert (OAborted = begin_watch (with_vars (h_req hr) (froute_vars (rq_method (h_req hr)) (rq_path (h_req hr))))) as -> by (vm_compute; reflexivity).
  apply fs_watch_param; vm_compute; reflexivity.
Qed.
Example C68_ex_watch : exists p' r, pstep ex_env ex_jenv (fun _ => []) fs_p1
  (PRequest 0 (HttpReq [] (Request (str "POST") (str "/api/v1/pods") ∅ (str "watch=1") None [] []))) (POAnswer (OStream r)) p'.
Proof.
  set (hr := HttpReq [] _). exists fs_p1, (with_vars (h_req hr) (froute_vars (rq_method (h_req hr)) (rq_path (h_req hr)))).
  apply (ps_request ex_env ex_jenv (fun _ => []) fs_p1 0 _ hr _ (new_store (index_conf (fc_proxies fs_fc))) None eq_refl).
  assert (OStream (with_vars (h_req hr) (froute_vars (rq_method (h_req hr)) (rq_path (h_req hr)))) = begin_watch (with_vars (h_req hr) (froute_vars (rq_method (h_req hr)) (rq_path (h_req hr))))) as -> by reflexivity.
  apply fs_watch_param; vm_compute; reflexivity.
Qed.
(** A patch and a write of a status, on a new server. *)
Example C68_ex_not_served : serving ex_env ex_jenv (fun _ => []) fs_p1 0 fs_fc /\
  canonical (rq_path (h_req (fs_req "PATCH" (api_path pods (Some (str "default")) (Some (str "a"))) []))) /\
  subresource (fs_req "PUT" (api_path pods (Some (str "default")) (Some (str "a")) ++ str "/status") []).
Proof.
  split; [eapply serving_intro; [apply fs_new|apply fs_conf1|done|constructor|constructor]|].
  assert (api_addr pods (Some (str "default")) (Some (str "a"))) as Ha by (apply fs_addr; intros n [= <-]; by apply fs_plain).
  split; [by eapply path_canonical|]. exists pods, (str "default"), (str "a"), (str "status"). split_and!; [right; left|done|by apply fs_plain|reflexivity].
Qed.
