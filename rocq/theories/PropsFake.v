(** C47 and C48: the fake server. *)
From Coq Require Import Ascii String NArith ZArith Lia.
From stdpp Require Import base gmap strings list.
From Verif Require Import ModelStr ProofsStr ModelLabels ModelPage SpecPage ProofsPage PropsSelector ModelJson ModelJsonText ProofsJson ProofsJsonText ProofsJsonExt ModelQuery ModelStore SpecStore ProofsStore
  ModelUrl ModelProxy ModelObjType SpecObjType ModelFake SpecFake ProofsFake PropsStore PropsObjType PropsQuery.

(** ** C47 *)
(** Every sequence of requests (whose URL and body names agree, for configured types) and calls of Clean:
    the server answers with the statuses of the object store, announces exactly the successful operations,
    and afterwards holds exactly its objects. *)
Theorem C47_object_store (E : env) (JE : jenv) (marshal : obj -> gostr) (cf : config) (conf : gmap gvr (gmap gostr gostr))
    (h : list finput) (ops : list oop) :
  Forall2 (asks_in JE cf (fun g => is_Some (conf !! g))) h ops ->
  exists st al el, fake_run E JE marshal cf (new_store conf) h = Ok (st, al, el) /\
    status <$> al = Some <$> (perform_all (fun _ => None) ops).1.1 /\
    Forall2 announces (perform_all (fun _ => None) ops).1.2 el /\
    holds st (perform_all (fun _ => None) ops).2.
Proof.
  intros HF. apply (perform_run E JE marshal cf conf h ops); [done|done|intros g; apply new_dom|].
  intros g c ns n. unfold store_get, lookup_entry, new_store. cbn [st_map].
  rewrite lookup_fmap. destruct (conf !! g); cbn; [by rewrite lookup_empty|done].
Qed.
Print Assumptions C47_object_store.

(** One request in any state: it fails exactly when the object exists (create) or does not (update, delete),
    then changes nothing, and otherwise changes only the addressed object. *)
Theorem C47_request (E : env) (JE : jenv) (marshal : obj -> gostr) (cf : config) order st r op g c ns n :
  order ≡ₚ url_query r -> asks JE cf (url_query r) r op -> op_key op = Some (g, c, ns, n) -> is_Some (st_map st !! g) ->
  exists st' a e, fake_proxy E JE marshal cf order st r = Ok (st', a, e) /\
    match op with
    | OCreate _ o => if store_get st g c ns n then a = FErr 400 else
        (exists o', a = FObj o') /\ exists x, store_get st' g c ns n = Some x /\ stored_as c (to_obj o) x
    | OUpdate _ o => if store_get st g c ns n then
        (exists o', a = FObj o') /\ exists x, store_get st' g c ns n = Some x /\ stored_as c (to_obj o) x else a = FErr 404
    | ODelete _ => if store_get st g c ns n then (exists o', a = FObj o') /\ store_get st' g c ns n = None else a = FErr 404
    | OWipe => False
    end /\
    ((exists code, a = FErr code) -> st' = st /\ e = None) /\
    (forall g' c' ns' n', (g', c', ns', n') <> (g, c, ns, n) -> store_get st' g' c' ns' n' = store_get st g' c' ns' n').
Proof.
  intros Hperm Ha Hk Hg. apply (asks_perm _ _ _ order) in Ha; [|by symmetry]. destruct (proxy_op E JE marshal cf order st r op Ha) as (bs & od & _ & -> & Hop).
  assert (forall k, call_gvr k = g -> exists st', do_call E st k = Ok st') as Hrun.
  { intros k <-. destruct (call_runs E st k Hg) as (st' & Hr & _). eauto. }
  destruct op as [k o|k o|k|]; [..|done]; injection Hk as ->; destruct Hop as (-> & <- & <-); unfold do_op.
  - destruct (store_get st (url_gvr r) c (me_namespace (t_meta o)) (me_name (t_meta o))) eqn:Eg.
    { eexists _, _, _. split; [reflexivity|]. split; [done|]. split; done. }
    destruct (Hrun (CAdd (url_gvr r) c (to_obj o)) eq_refl) as [st' Hr]. rewrite Hr. eexists _, _, _. split; [reflexivity|].
    split; [split; [by eexists|]|split; [intros [? ?]; done|]].
    + rewrite (on_event_get _ _ _ _ _ _ _ _ Hr). unfold after. cbn [call_gvr call_cluster]. rewrite decide_True by done.
      rewrite to_obj_key, decide_True by done. eexists. split; [reflexivity|]. apply build_stored.
    + intros g' c' ns' n' Hne. rewrite (on_event_get _ _ _ _ _ _ _ _ Hr). unfold after. cbn [call_gvr call_cluster].
      destruct (decide (url_gvr r = g' /\ c = c')) as [[<- <-]|]; [|done]. by rewrite to_obj_key, decide_False by naive_solver.
  - destruct (store_get st (url_gvr r) c (me_namespace (t_meta o)) (me_name (t_meta o))) eqn:Eg;
      [|eexists _, _, _; split; [reflexivity|]; split; [done|]; split; done].
    destruct (Hrun (CMod (url_gvr r) c (to_obj o)) eq_refl) as [st' Hr]. rewrite Hr. eexists _, _, _. split; [reflexivity|].
    split; [split; [by eexists|]|split; [intros [? ?]; done|]].
    + rewrite (on_event_get _ _ _ _ _ _ _ _ Hr). unfold after. cbn [call_gvr call_cluster]. rewrite decide_True by done.
      rewrite to_obj_key, decide_True by done. eexists. split; [reflexivity|]. apply build_stored.
    + intros g' c' ns' n' Hne. rewrite (on_event_get _ _ _ _ _ _ _ _ Hr). unfold after. cbn [call_gvr call_cluster].
      destruct (decide (url_gvr r = g' /\ c = c')) as [[<- <-]|]; [|done]. by rewrite to_obj_key, decide_False by naive_solver.
  - destruct (store_get st (url_gvr r) c (me_namespace (t_meta od)) (me_name (t_meta od))) eqn:Eg;
      [|eexists _, _, _; split; [reflexivity|]; split; [done|]; split; done].
    destruct (Hrun (CDel (url_gvr r) c (to_obj od)) eq_refl) as [st' Hr]. rewrite Hr. eexists _, _, _. split; [reflexivity|].
    split; [split; [by eexists|]|split; [intros [? ?]; done|]].
    + rewrite (on_event_get _ _ _ _ _ _ _ _ Hr). unfold after. cbn [call_gvr call_cluster]. rewrite decide_True by done.
      by rewrite to_obj_key, decide_True by done.
    + intros g' c' ns' n' Hne. rewrite (on_event_get _ _ _ _ _ _ _ _ Hr). unfold after. cbn [call_gvr call_cluster].
      destruct (decide (url_gvr r = g' /\ c = c')) as [[<- <-]|]; [|done]. by rewrite to_obj_key, decide_False by naive_solver.
Qed.
Print Assumptions C47_request.

(** A create, the same create again, an update and a delete of something else, all in cluster c2. *)
Definition fk_body : gostr := str "{""kind"":""Pod"",""metadata"":{""name"":""a"",""labels"":{""x"":""1""}},""spec"":{""n"":1}}".
Definition fk_body2 : gostr := str "{""kind"":""Pod"",""metadata"":{""name"":""a"",""labels"":{""x"":""2""}},""spec"":{""n"":1}}".
Definition fk_conf : config := Config c1 [] [].
Definition fk_req (method name raw : string) (body : gostr) : request :=
  Request (str method) [] (<[str "version" := str "v1"]> (<[str "resourceType" := str "pods"]> (<[str "namespace" := str "default"]> {[str "resourceName" := str name]})))
    (str raw) (Some body) [] [].
Definition fk_history : list finput :=
  [FReq [(str "fieldManager", [str "dsm-cluster-c2"])] (fk_req "POST" "" "fieldManager=dsm-cluster-c2" fk_body);
   FReq [(str "fieldManager", [str "dsm-cluster-c2"])] (fk_req "POST" "" "fieldManager=dsm-cluster-c2" fk_body);
   FReq [(str "fieldManager", [str "dsm-cluster-c2"])] (fk_req "PUT" "a" "fieldManager=dsm-cluster-c2" fk_body2);
   FReq [] (fk_req "DELETE" "b" "" (str "{""dryRun"":[""dsm-cluster-c2""]}"));
   FReq [] (fk_req "DELETE" "a" "" (str "{""dryRun"":[""dsm-cluster-c2""]}"))].
Definition fk_raw (body : gostr) : objtype :=
  match decode_obj ex_jenv body with Ok o => o | Panics => ObjType [] [] zero_meta [] end.
Definition fk_obj (body : gostr) : objtype := with_ns (fk_raw body) (str "default").
Definition fk_ops : list oop :=
  [OCreate (pods, c2, str "default", str "a") (fk_obj fk_body); OCreate (pods, c2, str "default", str "a") (fk_obj fk_body);
   OUpdate (pods, c2, str "default", str "a") (fk_obj fk_body2); ODelete (pods, c2, str "default", str "b"); ODelete (pods, c2, str "default", str "a")].
Lemma fk_tag : query_cluster fk_conf [(str "fieldManager", [str "dsm-cluster-c2"])] c2.
Proof.
  left. exists (str "fieldManager", [str "dsm-cluster-c2"]). split; [left|]. split; [split; [by left|by exists []]|].
  intros kv c' ->%elem_of_list_singleton [_ [rest Hr]]. injection Hr as H _. exact (eq_sym H).
Qed.
Lemma fk_nowatch : no_watch [(str "fieldManager", [str "dsm-cluster-c2"])].
Proof. intros kv ->%elem_of_list_singleton Hk. discriminate Hk. Qed.
Lemma fk_decode body : match decode_obj ex_jenv body with Ok _ => true | Panics => false end = true -> decode_obj ex_jenv body = Ok (fk_raw body).
Proof. unfold fk_raw. by destruct (decode_obj ex_jenv body). Qed.
Lemma fk_ask (create : bool) (q : list (gostr * list gostr)) r body k :
  rq_method r = str (if create then "POST" else "PUT") -> no_watch q -> query_cluster fk_conf q c2 -> rq_body r = Some body ->
  match decode_obj ex_jenv body with Ok _ => true | Panics => false end = true -> var r (str "namespace") = str "default" ->
  (var r (str "resourceName") = [] \/ var r (str "resourceName") = me_name (t_meta (fk_raw body))) ->
  k = (url_gvr r, c2, str "default", me_name (t_meta (fk_raw body))) ->
  asks ex_jenv fk_conf q r (if create then OCreate k (fk_obj body) else OUpdate k (fk_obj body)).
Proof.
  intros Hm Hw Hc Hb Hd Hns Hn ->. apply fk_decode in Hd. unfold fk_obj. rewrite <- Hns. destruct create; by econstructor.
Qed.
Lemma fk_ask_del (q : list (gostr * list gostr)) r body k :
  rq_method r = str "DELETE" -> no_watch q -> rq_body r = Some body ->
  match decode_obj ex_jenv body with Ok _ => true | Panics => false end = true -> do_dry (decode_opts body) = [str "dsm-cluster-c2"] ->
  var r (str "resourceName") <> [] -> k = (url_gvr r, c2, var r (str "namespace"), var r (str "resourceName")) ->
  asks ex_jenv fk_conf q r (ODelete k).
Proof.
  intros Hm Hw Hb Hd Hdry Hn ->. apply fk_decode in Hd. econstructor; [done|done|done|exact Hd|left; exact Hdry|]. by rewrite decide_False.
Qed.
Lemma fk_asks : Forall2 (asks_in ex_jenv fk_conf (fun g => is_Some (ex_conf !! g))) fk_history fk_ops.
Proof.
  assert (forall r, url_gvr r = pods -> is_Some (ex_conf !! url_gvr r)) as Hc by (intros r ->; rewrite ex_conf_pods; by eexists).
  assert (no_watch []) as Hw by (intros kv Hin; by apply elem_of_nil in Hin).
  unfold fk_history, fk_ops.
  repeat (constructor; [constructor; [apply Permutation_refl'; vm_compute; reflexivity| |apply Hc; vm_compute; reflexivity]|]); [..|constructor].
  - apply (fk_ask true); [reflexivity|exact fk_nowatch|exact fk_tag|reflexivity|vm_compute; reflexivity..| |vm_compute; reflexivity]. left. vm_compute. reflexivity.
  - apply (fk_ask true); [reflexivity|exact fk_nowatch|exact fk_tag|reflexivity|vm_compute; reflexivity..| |vm_compute; reflexivity]. left. vm_compute. reflexivity.
  - apply (fk_ask false); [reflexivity|exact fk_nowatch|exact fk_tag|reflexivity|vm_compute; reflexivity..| |vm_compute; reflexivity]. right. vm_compute. reflexivity.
  - apply (fk_ask_del _ _ (str "{""dryRun"":[""dsm-cluster-c2""]}")); [reflexivity|exact Hw|reflexivity|vm_compute; reflexivity..| |vm_compute; reflexivity]. vm_compute. discriminate.
  - apply (fk_ask_del _ _ (str "{""dryRun"":[""dsm-cluster-c2""]}")); [reflexivity|exact Hw|reflexivity|vm_compute; reflexivity..| |vm_compute; reflexivity]. vm_compute. discriminate.
Qed.
Lemma fk_perform : (perform_all (fun _ => None) fk_ops).1.1 = [200; 400; 200; 404; 200]%N.
Proof. vm_compute. reflexivity. Qed.
Example C47_example : exists st al el, fake_run ex_env ex_jenv (fun _ => []) fk_conf (new_store ex_conf) fk_history = Ok (st, al, el) /\
  status <$> al = Some <$> [200; 400; 200; 404; 200]%N /\ ev_action <$> el = [AAdd; AUpdate; ADelete].
Proof.
  destruct (C47_object_store ex_env ex_jenv (fun _ => []) fk_conf ex_conf _ _ fk_asks) as (st & al & el & Hr & Hs & Ha & _).
  exists st, al, el. split; [exact Hr|]. rewrite fk_perform in Hs. split; [exact Hs|]. clear Hr Hs.
  assert ((perform_all (fun _ => None) fk_ops).1.2 = [OCreate (pods, c2, str "default", str "a") (fk_obj fk_body);
    OUpdate (pods, c2, str "default", str "a") (fk_obj fk_body2); ODelete (pods, c2, str "default", str "a")]) as He by reflexivity.
  rewrite He in Ha. clear He. inversion Ha as [|? e1 ? l1 H1 Ha1]; subst. inversion Ha1 as [|? e2 ? l2 H2 Ha2]; subst.
  inversion Ha2 as [|? e3 ? l3 H3 Ha3]; subst. inversion Ha3; subst. destruct H1 as [H1 _], H2 as [H2 _], H3 as [H3 _]. cbn [fmap list_fmap].
  by rewrite H1, H2, H3.
Qed.

(** When the names differ the object of the URL is checked but the object of the body is written: updating
    a with a body named b creates b and leaves a as it was, while the event names a. *)
Definition fk_body_b : gostr := str "{""metadata"":{""name"":""b""}}".
Theorem C47_other_name (E : env) (st : store) (x : obj) :
  store_get st pods c1 (str "default") (str "a") = Some x -> store_get st pods c1 (str "default") (str "b") = None ->
  is_Some (st_map st !! pods) ->
  exists r st' a e, fake_proxy E ex_jenv (fun _ => []) fk_conf (url_query r) st r = Ok (st', FObj a, Some e) /\
    rq_method r = str "PUT" /\ var r (str "resourceName") = str "a" /\ url_gvr r = pods /\ ev_name e = str "a" /\
    store_get st' pods c1 (str "default") (str "a") = Some x /\ is_Some (store_get st' pods c1 (str "default") (str "b")).
Proof.
  intros Ha Hb Hg. destruct (call_runs E st (CMod pods c1 (to_obj (fk_obj fk_body_b))) Hg) as (st' & Hr & _).
  exists (fk_req "PUT" "a" "" fk_body_b), st'. eexists _, _.
  assert (to_obj (fk_obj fk_body_b) = OKube (KObj (str "default") (str "b") false ∅ ∅ [] (JObj (t_data (fk_raw fk_body_b) ++
    match head_json (fk_obj fk_body_b) with JObj l => l | _ => [] end)))) as Hk by reflexivity.
  split; [|split; [reflexivity|]; split; [vm_compute; reflexivity|]; split; [vm_compute; reflexivity|]; split].
  - unfold fake_proxy.
    assert (fake_params fk_conf (url_query (fk_req "PUT" "a" "" fk_body_b)) = Some c1) as -> by (vm_compute; reflexivity).
    change (rq_body (fk_req "PUT" "a" "" fk_body_b)) with (Some fk_body_b). cbv iota. rewrite (fk_decode fk_body_b) by (vm_compute; reflexivity). cbv zeta.
    change (rq_method (fk_req "PUT" "a" "" fk_body_b)) with (str "PUT"). change (str_eqb (str "PUT") (str "POST")) with false. rewrite str_eqb_refl. cbv iota.
    assert (forall k v, var (fk_req "PUT" "a" "" fk_body_b) k = v -> var (fk_req "PUT" "a" "" fk_body_b) k = v) as _ by auto.
    assert (var (fk_req "PUT" "a" "" fk_body_b) (str "resourceName") = str "a") as -> by (vm_compute; reflexivity).
    assert (var (fk_req "PUT" "a" "" fk_body_b) (str "namespace") = str "default") as -> by (vm_compute; reflexivity).
    assert ((var (fk_req "PUT" "a" "" fk_body_b) (str "group"), var (fk_req "PUT" "a" "" fk_body_b) (str "version"), var (fk_req "PUT" "a" "" fk_body_b) (str "resourceType")) = pods) as -> by (vm_compute; reflexivity).
    change (match str "a" with [] => me_name (t_meta (with_ns (fk_raw fk_body_b) (str "default"))) | n => n end) with (str "a").
    rewrite Ha. cbn [do_call] in Hr. unfold fk_obj in Hr. rewrite Hr. reflexivity.
  - reflexivity.
  - rewrite !(on_event_get _ _ _ _ _ _ _ _ Hr). unfold after. cbn [call_gvr call_cluster]. rewrite !decide_True by done. rewrite Hk. cbn [obj_key k_ns k_name].
    split.
    + rewrite decide_False; [exact Ha|]. intros H. apply (f_equal snd) in H. discriminate H.
    + rewrite decide_True by done. by eexists.
Qed.
Print Assumptions C47_other_name.
Definition fk_store : store := ok_store (do_call ex_env (new_store ex_conf) (CAdd pods c1 (pod "default" "a" "1"))).
Lemma fk_store_a : exists x, store_get fk_store pods c1 (str "default") (str "a") = Some x.
Proof. vm_compute. eexists. reflexivity. Qed.
Lemma fk_store_b : store_get fk_store pods c1 (str "default") (str "b") = None.
Proof. vm_compute. reflexivity. Qed.
Lemma fk_store_pods : is_Some (st_map fk_store !! pods).
Proof.
  assert (is_Some (st_map (new_store ex_conf) !! pods)) as Hn by (apply new_dom; rewrite ex_conf_pods; by eexists).
  destruct (call_runs ex_env (new_store ex_conf) (CAdd pods c1 (pod "default" "a" "1")) Hn) as (st' & Hr & _ & Hd).
  unfold fk_store. rewrite Hr. by apply Hd.
Qed.
Theorem C47_other_name_refuted : exists E JE marshal cf st r st' o e,
  fake_proxy E JE marshal cf (url_query r) st r = Ok (st', FObj o, Some e) /\ rq_method r = str "PUT" /\
  var r (str "resourceName") = str "a" /\ url_gvr r = pods /\
  store_get st pods c1 (str "default") (str "b") = None /\ is_Some (store_get st' pods c1 (str "default") (str "b")) /\
  store_get st' pods c1 (str "default") (str "a") = store_get st pods c1 (str "default") (str "a").
Proof.
  destruct fk_store_a as [x Hx].
  destruct (C47_other_name ex_env fk_store x) as (r & st' & o & e & H1 & H2 & H3 & H4 & _ & H5 & H6).
  - exact Hx.
  - exact fk_store_b.
  - exact fk_store_pods.
  - exists ex_env, ex_jenv, (fun _ => []), fk_conf, fk_store, r, st', o, e. split; [exact H1|]. split; [exact H2|]. split; [exact H3|]. split; [exact H4|]. split; [exact fk_store_b|]. split; [exact H6|].
    rewrite H5. symmetry. exact Hx.
Qed.
Print Assumptions C47_other_name_refuted.

(** The object of a successful answer is the one sent, in the namespace of the URL, with the annotations
    of the cache. *)
Theorem C47_answer (E : env) (JE : jenv) (marshal : obj -> gostr) (cf : config) order st r st' a e c bs o :
  order ≡ₚ url_query r -> no_watch (url_query r) -> query_cluster cf (url_query r) c -> rq_body r = Some bs -> decode_obj JE bs = Ok o ->
  rq_method r = str "POST" \/ rq_method r = str "PUT" ->
  fake_proxy E JE marshal cf order st r = Ok (st', FObj a, e) ->
  t_api a = t_api o /\ t_kind a = t_kind o /\ t_data a = t_data o /\ me_name (t_meta a) = me_name (t_meta o) /\
  me_namespace (t_meta a) = var r (str "namespace") /\ me_labels (t_meta a) = me_labels (t_meta o) /\
  me_annos (t_meta a) !! str "ckube.doacloud.io/cluster" = Some c /\
  (forall k, k <> str "ckube.doacloud.io/cluster" -> k <> str "ckube.daocloud.io/indexes" -> me_annos (t_meta a) !! k = me_annos (t_meta o) !! k).
Proof.
  intros Hp Hw Hc Hb Hd Hm. unfold fake_proxy.
  rewrite (params_cluster cf order c), Hb, Hd; [|by eapply no_watch_perm; [symmetry|]|by eapply query_cluster_perm; [symmetry|]]. cbv zeta.
  assert (forall st1 b ra, match st1 : result store with Panics => Panics | Ok st2 => Ok (st2, FObj (annotated E st (url_gvr r) c (with_ns o (var r (str "namespace")))), b) end
    = Ok (st', FObj a, ra : option event) -> a = annotated E st (url_gvr r) c (with_ns o (var r (str "namespace")))) as Hfin.
  { intros [st1|] b ra; [|done]. intros H. by injection H. }
  fold (url_gvr r). intros H.
  assert (a = annotated E st (url_gvr r) c (with_ns o (var r (str "namespace")))) as ->.
  { destruct Hm as [Hm|Hm]; rewrite Hm in H.
    - rewrite str_eqb_refl in H. destruct (store_get st (url_gvr r) c _ _); [discriminate H|]. by eapply Hfin.
    - change (str_eqb (str "PUT") (str "POST")) with false in H. rewrite str_eqb_refl in H.
      destruct (store_get st (url_gvr r) c _ _); [|discriminate H]. by eapply Hfin. }
  clear H Hfin. pose proof (build_stored E (conf_of st (url_gvr r)) c (to_obj (with_ns o (var r (str "namespace"))))) as Hs.
  unfold annotated. destruct (build E _ c _).2 as [i [k|j]]; cbn [en_obj] in Hs; [|done].
  destruct Hs as (_ & _ & _ & _ & _ & _ & H1 & H2). repeat split; [exact H1|]. intros k0 Hk1 Hk2. by apply H2.
Qed.
Print Assumptions C47_answer.
(** But its text keeps the data under a member named Data, so that reading it does not give the object back. *)
Theorem C47_answer_text_refuted : exists JE o, lawful JE /\ good_obj JE o /\ decode_obj JE (plain_text o) <> Ok o.
Proof.
  exists ex_jenv, ex_object. split; [apply ex_lawful|]. split; [apply C45_ex_good|]. intros H.
  assert (fst <$> t_data (match decode_obj ex_jenv (plain_text ex_object) with Ok o => o | Panics => ex_object end) = [str "Data"]) as H1 by (vm_compute; reflexivity).
  rewrite H in H1. vm_compute in H1. discriminate H1.
Qed.
Print Assumptions C47_answer_text_refuted.

(** ** C48 *)
(** The label selector of a watch request; the selected clusters are those of the search it carries. *)
Definition watch_selector (r : request) : gostr :=
  match query_parse (rq_raw r) !! str "labelSelector" with Some (v :: _) => v | _ => [] end.
Lemma watch_page_parse sel p : watch_page sel = Ok (Some p) <-> exists ls, parse_list_selector sel = Some (p, ls).
Proof.
  unfold watch_page, parse_list_selector. destruct sel as [|c sel].
  { split; [intros [= <-]; eauto|]. intros [ls [= <- _]]. done. }
  destruct (parse_to_label_selector (c :: sel)) as [ls|]; [|naive_solver]. destruct (extract_query ls) as [[q ls']|]; [|naive_solver].
  destruct (decode_query q); naive_solver.
Qed.
(** What a watch sends: one line for each wanted event received, in order, and nothing else. *)
Definition event_line (e : event) : gostr :=
  str "{""type"": """ ++ event_type (ev_action e) ++ str """, ""object"": " ++ ev_raw e ++ str "}" ++ [byte 10].
Lemma watch_line_ok (g : gvr) (ns : gostr) (p : paginate) (e : event) :
  watch_line g ns p e = if decide (wanted g ns (get_clusters (pg_search p)) e) then Some (event_line e) else None.
Proof.
  unfold watch_line. 
  assert (Some (event_line e) = Some (str "{""type"": " ++ dquote :: action_text (ev_action e) ++ dquote :: str ", ""object"": " ++ ev_raw e ++ str "}" ++ [byte 10])) as <-.
  { unfold event_line. by destruct (ev_action e). }
  destruct (bool_decide_reflect (ev_gvr e = g)) as [Hg|Hg]; cbn [andb]; [|by rewrite decide_False by (intros [? _]; done)].
  destruct (str_eqb (ev_ns e) ns || str_eqb ns []) eqn:Hn; cbn [andb].
  2:{ apply orb_false_iff in Hn as [H1%str_eqb_neq H2%str_eqb_neq]. rewrite decide_False; [done|]. intros (_ & [?|?] & _); done. }
  assert (ns = [] \/ ev_ns e = ns) as Hn' by (apply orb_true_iff in Hn as [?%str_eqb_eq|?%str_eqb_eq]; auto).
  destruct (get_clusters (pg_search p)) as [|c cs] eqn:Ec.
  - cbn [length Nat.eqb negb andb]. rewrite decide_True; [done|]. split; [done|]. split; [done|]. by left.
  - cbn [length Nat.eqb negb andb]. destruct (existsb (str_eqb (ev_cluster e)) (c :: cs)) eqn:Ex.
    + cbn [negb]. rewrite decide_True; [done|]. split; [done|]. split; [done|]. right.
      apply existsb_exists in Ex as (x & Hx & ->%str_eqb_eq). by apply elem_of_list_In.
    + cbn [negb]. rewrite decide_False; [done|]. intros (_ & _ & [?|Hin]); [done|].
      apply not_true_iff_false in Ex. apply Ex, existsb_exists. exists (ev_cluster e). split; [by apply elem_of_list_In|apply str_eqb_refl].
Qed.
Theorem C48_watch (r : request) (events : list event) (p : paginate) (ls : option lsel) :
  parse_list_selector (watch_selector r) = Some (p, ls) ->
  fake_watch r events = Ok (Some
    (event_line <$> filter (wanted (url_gvr r) (var r (str "namespace")) (get_clusters (pg_search p))) events)).
Proof.
  intros H. assert (watch_page (watch_selector r) = Ok (Some p)) as Hp by (apply watch_page_parse; eauto).
  unfold fake_watch. fold (watch_selector r). rewrite Hp. do 2 f_equal. clear H Hp. fold (url_gvr r).
  generalize (url_gvr r) (var r (str "namespace")). intros g ns. induction events as [|e events IH]; [done|].
  cbn [omap list_omap]. rewrite watch_line_ok, IH, filter_cons. by destruct (decide _).
Qed.
Print Assumptions C48_watch.
(** The bytes sent are a sequence of JSON values, which a client reads back as the kind of event and the object
    of each wanted event, provided the objects are JSON texts. *)
Definition event_value (e : event) (j : json) : json := JObj [(str "type", JStr (event_type (ev_action e))); (str "object", j)].
Lemma jval_ws f d s s' : ModelJson.skip_ws s = ModelJson.skip_ws s' -> jval f d s = jval f d s'.
Proof. destruct f as [|f]; [done|]. intros H. cbn [jval]. by rewrite H. Qed.
Lemma members_last f m s q s1 k s2 s3 v r r' : ModelJson.skip_ws s = q :: s1 -> (code q =? 34)%N = true -> jstr 0 s1 = Some (k, s2) ->
  ModelJson.skip_ws s2 = ":"%char :: s3 -> jval f m s3 = Some (v, r) -> ModelJson.skip_ws r = "}"%char :: r' ->
  jmembers (S f) m s = Some ([(k, v)], r').
Proof. intros H1 H2 H3 H4 H5 H6. cbn [jmembers]. by rewrite H1, H2, H3, H4, H5, H6. Qed.
Lemma members_more f m s q s1 k s2 s3 v r r' l r'' : ModelJson.skip_ws s = q :: s1 -> (code q =? 34)%N = true -> jstr 0 s1 = Some (k, s2) ->
  ModelJson.skip_ws s2 = ":"%char :: s3 -> jval f m s3 = Some (v, r) -> ModelJson.skip_ws r = ","%char :: r' ->
  jmembers f m r' = Some (l, r'') -> jmembers (S f) m s = Some ((k, v) :: l, r'').
Proof. intros H1 H2 H3 H4 H5 H6 H7. cbn [jmembers]. by rewrite H1, H2, H3, H4, H5, H6, H7. Qed.
Lemma val_obj f m s e s' l r : ModelJson.skip_ws s = e :: s' -> ch_eqb e "}" = false -> jmembers f m (e :: s') = Some (l, r) ->
  jval (S f) (S m) ("{"%char :: s) = Some (JObj l, r).
Proof. intros H1 H2 H3. cbn [jval]. change (ModelJson.skip_ws ("{"%char :: s)) with ("{"%char :: s). cbn. by rewrite H1, H2, H3. Qed.
Lemma event_prefix a f m T j r r' : jval (S f) m T = Some (j, r) -> ModelJson.skip_ws r = "}"%char :: r' ->
  jval (S (S (S (S f)))) (S m) (str "{""type"": """ ++ event_type a ++ str """, ""object"": " ++ T) =
    Some (JObj [(str "type", JStr (event_type a)); (str "object", j)], r').
Proof.
  intros Hj Hr.
  assert (jval (S f) m (" "%char :: T) = Some (j, r)) as Hj' by (rewrite <- Hj; by apply jval_ws).
  assert (jmembers (S (S f)) m (str " ""object"": " ++ T) = Some ([(str "object", j)], r')) as Hm.
  { eapply members_last; [reflexivity..|exact Hj'|exact Hr]. }
  eapply val_obj; [reflexivity|reflexivity|].
  destruct a; (eapply members_more; [reflexivity..|exact Hm]).
Qed.
Lemma event_line_value e j rest : json_parse (ev_raw e) = Some j -> jdepth j < max_nesting ->
  exists f, jval f max_nesting (event_line e ++ rest) = Some (event_value e j, byte 10 :: rest).
Proof.
  unfold json_parse. destruct (jval _ _ _) as [[v r]|] eqn:E; [|done]. destruct (ModelJson.skip_ws r) eqn:Er; [|done]. intros [= ->] Hd.
  assert (exists m, max_nesting = S m) as [m Hm] by (exists (N.to_nat 9999); unfold max_nesting; by rewrite <- N2Nat.inj_succ).
  destruct (jval_ext (2 * length (ev_raw e) + 2) (S (2 * length (ev_raw e) + 2)) max_nesting m (ev_raw e) (str "}" ++ [byte 10] ++ rest) ltac:(lia) ltac:(cbn; auto)) as (Hv & _).
  specialize (Hv _ _ E ltac:(lia)). eexists. rewrite Hm. unfold event_line. rewrite <- !app_assoc. eapply event_prefix; [exact Hv|].
  rewrite skip_ws_all by exact Er. reflexivity.
Qed.
Theorem C48_stream (r : request) (events : list event) (p : paginate) (ls : option lsel) (lines : list gostr) (values : list json) :
  parse_list_selector (watch_selector r) = Some (p, ls) -> fake_watch r events = Ok (Some lines) ->
  Forall2 (fun e j => json_parse (ev_raw e) = Some j /\ jdepth j < max_nesting)
    (filter (wanted (url_gvr r) (var r (str "namespace")) (get_clusters (pg_search p))) events) values ->
  json_stream (concat lines)
    (zip_with event_value (filter (wanted (url_gvr r) (var r (str "namespace")) (get_clusters (pg_search p))) events) values).
Proof.
  intros Hp Hw. rewrite (C48_watch _ _ _ _ Hp) in Hw.
  match type of Hw with Ok (Some ?x) = Ok (Some ?y) => assert (x = y) as <- by congruence end. clear Hw.
  generalize (filter (wanted (url_gvr r) (var r (str "namespace")) (get_clusters (pg_search p))) events). intros l HF.
  assert (forall s, ModelJson.skip_ws s = ModelJson.skip_ws (concat (event_line <$> l)) -> json_stream s (zip_with event_value l values)) as H; [|by apply H].
  induction HF as [|e j l values [Hj Hd] HF IH]; intros s Hs.
  { constructor. exact Hs. }
  cbn [zip_with]. cbn [fmap list_fmap concat] in Hs. destruct (event_line_value e j (concat (event_line <$> l)) Hj Hd) as (f & Hv).
  rewrite <- (jval_ws f _ _ _ Hs) in Hv. econstructor; [exact Hv|apply IH]. reflexivity.
Qed.
Print Assumptions C48_stream.
(** Clusters chosen with the paginate API: the watch sends the events of exactly these clusters. *)
Theorem C48_chosen_clusters (r : request) (sel : gostr) (lsel0 ls : lsel) (p p' : paginate) (css : list gostr) (events : list event) :
  parse_to_label_selector sel = Some lsel0 -> mlabels lsel0 !! str "ckube.daocloud.io/query" = None ->
  old_selector (search_parts (pg_search p)) ls -> (forall q r, q ∈ search_parts (pg_search p) -> q <> ";"%char :: r) ->
  set_clusters p css = (false, p') -> css <> [] ->
  query_list_options sel p' = Some (watch_selector r) -> page_in_range p' -> valid_utf8 (pg_sort p') = true -> valid_utf8 (pg_search p') = true ->
  (N.of_nat (length (marshal_page p')) <= 7518)%N ->
  fake_watch r events = Ok (Some (event_line <$> filter (wanted (url_gvr r) (var r (str "namespace")) css) events)).
Proof.
  intros Hsel Hpk Hold Hsemi Hset Hcs Hopt Hr Hu1 Hu2 Hlen.
  destruct (C07_clusters (fun _ => true) p p' ls css Hold Hsemi Hset) as (_ & _ & _ & Hsame).
  assert (p' <> Paginate 0 0 0 [] []) as Hne.
  { intros ->. destruct css as [|c css]; [done|]. assert (c ∈ get_clusters []) as Hin by (apply Hsame; left). by apply elem_of_nil in Hin. }
  destruct (C13_list_options_reach_the_server sel (watch_selector r) p' lsel0 Hsel Hpk Hopt Hne Hr Hu1 Hu2 Hlen) as (ls' & Hp & _ & _).
  rewrite (C48_watch r events p' _ Hp). do 3 f_equal. apply list_filter_iff. intros e. unfold wanted.
  assert (get_clusters (pg_search p') = [] <-> css = []) as He.
  { split; intros Hx; [|by destruct Hcs]. destruct css as [|c css]; [done|]. assert (c ∈ get_clusters (pg_search p')) as Hin by (apply Hsame; left). rewrite Hx in Hin. by apply elem_of_nil in Hin. }
  rewrite He. by rewrite (Hsame (ev_cluster e)).
Qed.
Print Assumptions C48_chosen_clusters.
(** A selector that does not parse makes the handler panic instead of answering with an error. *)
Theorem C48_bad_selector (r : request) (events : list event) :
  watch_selector r <> [] -> parse_to_label_selector (watch_selector r) = None -> fake_watch r events = Panics.
Proof.
  intros Hne H. unfold fake_watch. fold (watch_selector r). unfold watch_page. destruct (watch_selector r); [done|]. by rewrite H.
Qed.
(** The event of a successful request: its kind, the object addressed, and the text sent, or for a delete the
    text of the deleted object. *)
Theorem C48_event (E : env) (JE : jenv) (marshal : obj -> gostr) (cf : config) order st r op st' o e :
  order ≡ₚ url_query r -> asks JE cf (url_query r) r op ->
  fake_proxy E JE marshal cf order st r = Ok (st', FObj o, Some e) ->
  announces op e /\
  match op with
  | OCreate _ _ | OUpdate _ _ => rq_body r = Some (ev_raw e)
  | ODelete (g, c, ns, n) => exists x, store_get st g c ns n = Some x /\ ev_raw e = marshal x
  | OWipe => False
  end.
Proof.
  intros Hp Ha. apply (asks_perm _ _ _ order) in Ha; [|by symmetry]. destruct (proxy_op E JE marshal cf order st r op Ha) as (bs & od & Hb & -> & Hop).
  destruct op as [[[[g c] ns] n] o0|[[[g c] ns] n] o0|[[[g c] ns] n]|]; [..|done]; destruct Hop as (-> & <- & <-); unfold do_op.
  - destruct (store_get st _ c _ _); [discriminate|]. destruct (do_call E st _); [|discriminate]. intros H. apply (f_equal (fun x => match x with Ok (_, _, Some e) => Some e | _ => None end)) in H.
    injection H as <-. done.
  - destruct (store_get st _ c _ _); [|discriminate]. destruct (do_call E st _); [|discriminate]. intros H. apply (f_equal (fun x => match x with Ok (_, _, Some e) => Some e | _ => None end)) in H.
    injection H as <-. done.
  - destruct (store_get st _ c _ _) as [x|] eqn:Ex; [|discriminate]. destruct (do_call E st _); [|discriminate]. intros H. apply (f_equal (fun x => match x with Ok (_, _, Some e) => Some e | _ => None end)) in H.
    injection H as <-. split; [done|]. cbn [ev_raw]. by exists x.
Qed.
Print Assumptions C48_event.

(** A watch of cluster c2 in namespace default, over five events. *)
Definition fk_page : paginate := (set_clusters (Paginate 0 0 0 [] []) [c2]).2.
Definition fk_sel : gostr := default [] (query_list_options [] fk_page).
Definition fk_watch : request :=
  Request (str "GET") [] (<[str "version" := str "v1"]> (<[str "resourceType" := str "pods"]> {[str "namespace" := str "default"]}))
    (query_encode {[str "labelSelector" := [fk_sel]]}) None [] [].
Definition fk_events : list event :=
  [Event AAdd pods c2 (str "default") (str "a") (str " {""a"":1} "); Event AAdd pods c1 (str "default") (str "a") (str "{}");
   Event AUpdate pods c2 (str "kube") (str "a") (str "{}"); Event AUpdate nodes c2 (str "default") (str "a") (str "{}");
   Event ADelete pods c2 (str "default") (str "a") (str "{""a"":2}")].
Example C48_ex_sent : fake_watch fk_watch fk_events = Ok (Some
  [str "{""type"": ""ADDED"", ""object"":  {""a"":1} }" ++ [byte 10]; str "{""type"": ""DELETED"", ""object"": {""a"":2}}" ++ [byte 10]]).
Proof. vm_compute. reflexivity. Qed.
Example C48_ex_chosen : set_clusters (Paginate 0 0 0 [] []) [c2] = (false, fk_page) /\ query_list_options [] fk_page = Some (watch_selector fk_watch) /\
  (N.of_nat (length (marshal_page fk_page)) <= 7518)%N /\ valid_utf8 (pg_search fk_page) = true /\ get_clusters (pg_search fk_page) = [c2].
Proof. vm_compute. repeat split. discriminate. Qed.
Example C48_ex_stream : exists p ls lines, parse_list_selector (watch_selector fk_watch) = Some (p, ls) /\ fake_watch fk_watch fk_events = Ok (Some lines) /\
  Forall2 (fun e j => json_parse (ev_raw e) = Some j /\ jdepth j < max_nesting)
    (filter (wanted (url_gvr fk_watch) (var fk_watch (str "namespace")) (get_clusters (pg_search p))) fk_events)
    [JObj [(str "a", JNum (str "1"))]; JObj [(str "a", JNum (str "2"))]].
Proof.
  exists fk_page. eexists _, _. split; [vm_compute; reflexivity|]. split; [apply C48_ex_sent|].
  assert (filter (wanted (url_gvr fk_watch) (var fk_watch (str "namespace")) (get_clusters (pg_search fk_page))) fk_events =
    [Event AAdd pods c2 (str "default") (str "a") (str " {""a"":1} "); Event ADelete pods c2 (str "default") (str "a") (str "{""a"":2}")]) as -> by (vm_compute; reflexivity).
  assert (1 < max_nesting) by (unfold max_nesting; lia).
  constructor; [|constructor; [|constructor]]; (split; [vm_compute; reflexivity|]); cbn; lia.
Qed.
Example C48_ex_panics : fake_watch (Request (str "GET") [] ∅ (str "labelSelector=a+in+(") None [] []) fk_events = Panics.
Proof. apply C48_bad_selector; vm_compute; [discriminate|reflexivity]. Qed.
