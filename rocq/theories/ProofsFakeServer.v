(** Lemmas about the fake server as an HTTP server. *)
From Coq Require Import Ascii String NArith ZArith Lia.
From stdpp Require Import base gmap strings list.
From Verif Require Import ModelStr ProofsStr ModelPage ModelJson ModelJsonText ModelStore SpecStore ProofsStore ModelUrl ModelProxy ModelObjType
  ModelReload ModelFake SpecFake ProofsFake ModelServer SpecServer ProofsServer ModelServe ModelFakeServer SpecFakeServer PropsServer.

Lemma fake_templates : map (fun r => template (fr_path r)) fake_routes =
  [ [TLit []; TLit (str "apis"); TVar (str "group"); TVar (str "version"); TVar (str "resourceType")];
    [TLit []; TLit (str "api"); TVar (str "version"); TVar (str "resourceType")];
    [TLit []; TLit (str "apis"); TVar (str "group"); TVar (str "version"); TVar (str "resourceType"); TVar (str "resourceName")];
    [TLit []; TLit (str "api"); TVar (str "version"); TVar (str "resourceType"); TVar (str "resourceName")];
    [TLit []; TLit (str "apis"); TVar (str "group"); TVar (str "version"); TLit (str "namespaces"); TVar (str "namespace"); TVar (str "resourceType")];
    [TLit []; TLit (str "api"); TVar (str "version"); TLit (str "namespaces"); TVar (str "namespace"); TVar (str "resourceType")];
    [TLit []; TLit (str "apis"); TVar (str "group"); TVar (str "version"); TLit (str "namespaces"); TVar (str "namespace"); TVar (str "resourceType"); TVar (str "resourceName")];
    [TLit []; TLit (str "api"); TVar (str "version"); TLit (str "namespaces"); TVar (str "namespace"); TVar (str "resourceType"); TVar (str "resourceName")];
    [TLit []; TLit (str "apis"); TVar (str "group"); TVar (str "version"); TLit (str "watch"); TVar (str "resourceType")];
    [TLit []; TLit (str "api"); TVar (str "version"); TLit (str "watch"); TVar (str "resourceType")];
    [TLit []; TLit (str "apis"); TVar (str "group"); TVar (str "version"); TLit (str "watch"); TLit (str "namespaces"); TVar (str "namespace"); TVar (str "resourceType")];
    [TLit []; TLit (str "api"); TVar (str "version"); TLit (str "watch"); TLit (str "namespaces"); TVar (str "namespace"); TVar (str "resourceType")];
    [TLit []; TLit (str "version")];
    [TLit []; TLit (str "api")];
    [TLit []; TLit (str "apis")];
    [TLit []; TLit (str "apis"); TVar (str "group"); TVar (str "version")];
    [TLit []; TLit (str "api"); TVar (str "version")] ].
Proof. vm_compute. reflexivity. Qed.
(** The table as templates with methods and handlers. *)
Fixpoint find_templ (rs : list (list tseg * list gostr * fhandler)) (m : gostr) (ps : list gostr) : option (fhandler * gmap gostr gostr) :=
  match rs with
  | [] => None
  | (t, ms, h) :: rs' =>
      match (if existsb (str_eqb m) ms then match_segs t ps else None) with
      | Some vars => Some (h, vars)
      | None => find_templ rs' m ps
      end
  end.
Lemma find_templ_eq rs m p : find_froute rs m p = find_templ (map (fun r => (template (fr_path r), fr_methods r, fr_handler r)) rs) m (split_on "/"%char p).
Proof. induction rs as [|r rs IH]; [done|]. cbn [find_froute map find_templ]. by rewrite IH. Qed.
Definition W := write_methods.
Definition G := [str "GET"].
Lemma fake_table m p : find_froute fake_routes m p = find_templ
  [ ([TLit []; TLit (str "apis"); TVar (str "group"); TVar (str "version"); TVar (str "resourceType")], W, KWrite);
    ([TLit []; TLit (str "api"); TVar (str "version"); TVar (str "resourceType")], W, KWrite);
    ([TLit []; TLit (str "apis"); TVar (str "group"); TVar (str "version"); TVar (str "resourceType"); TVar (str "resourceName")], W, KWrite);
    ([TLit []; TLit (str "api"); TVar (str "version"); TVar (str "resourceType"); TVar (str "resourceName")], W, KWrite);
    ([TLit []; TLit (str "apis"); TVar (str "group"); TVar (str "version"); TLit (str "namespaces"); TVar (str "namespace"); TVar (str "resourceType")], W, KWrite);
    ([TLit []; TLit (str "api"); TVar (str "version"); TLit (str "namespaces"); TVar (str "namespace"); TVar (str "resourceType")], W, KWrite);
    ([TLit []; TLit (str "apis"); TVar (str "group"); TVar (str "version"); TLit (str "namespaces"); TVar (str "namespace"); TVar (str "resourceType"); TVar (str "resourceName")], W, KWrite);
    ([TLit []; TLit (str "api"); TVar (str "version"); TLit (str "namespaces"); TVar (str "namespace"); TVar (str "resourceType"); TVar (str "resourceName")], W, KWrite);
    ([TLit []; TLit (str "apis"); TVar (str "group"); TVar (str "version"); TLit (str "watch"); TVar (str "resourceType")], G, KWatch);
    ([TLit []; TLit (str "api"); TVar (str "version"); TLit (str "watch"); TVar (str "resourceType")], G, KWatch);
    ([TLit []; TLit (str "apis"); TVar (str "group"); TVar (str "version"); TLit (str "watch"); TLit (str "namespaces"); TVar (str "namespace"); TVar (str "resourceType")], G, KWatch);
    ([TLit []; TLit (str "api"); TVar (str "version"); TLit (str "watch"); TLit (str "namespaces"); TVar (str "namespace"); TVar (str "resourceType")], G, KWatch);
    ([TLit []; TLit (str "version")], G, KVersion);
    ([TLit []; TLit (str "api")], G, KApi);
    ([TLit []; TLit (str "apis")], G, KApis);
    ([TLit []; TLit (str "apis"); TVar (str "group"); TVar (str "version")], G, KResources);
    ([TLit []; TLit (str "api"); TVar (str "version")], G, KResources) ] m (split_on "/"%char p).
Proof. rewrite find_templ_eq. reflexivity. Qed.
Lemma path_split g ns name : api_addr g ns name ->
  split_on "/"%char (api_path g ns name) = [] :: (match g.1.1 with [] => [str "api"] | gr => [str "apis"; gr] end) ++ [g.1.2] ++
            (match ns with Some n => [str "namespaces"; n] | None => [] end) ++ [g.2] ++
            (match name with Some n => [n] | None => [] end).
Proof.
  destruct g as [[gr v] rtp]. intros (Hg & Hv & Hr & Hn & Hna). cbn [fst snd] in *. unfold api_path. cbn [fst snd].
  apply split_seg_path. repeat apply Forall_app_2.
  - destruct gr; [repeat constructor; cbn; set_solver|]. destruct Hg as [|(_ & Hg & _)]; [done|]. constructor; [cbn; set_solver|]. by constructor.
  - constructor; [apply Hv|constructor].
  - destruct ns as [n|]; [|done]. constructor; [cbn; set_solver|]. constructor; [by apply Hn|constructor].
  - constructor; [apply Hr|constructor].
  - destruct name as [n|]; [|done]. constructor; [by apply Hna|constructor].
Qed.
Lemma path_canonical g ns name : api_addr g ns name -> canonical (api_path g ns name).
Proof. intros Ha. destruct (api_segs g ns name Ha) as [_ (l & Hl & Hne & El)]. exists l. split; [done|]. left. by rewrite El. Qed.
Lemma canonical_clean p : canonical p -> clean_path p = p.
Proof. intros H. apply canonical_iff in H. by apply str_eqb_eq in H. Qed.
Ltac skip_templ := match goal with
  | |- context [if ?b then match_segs ?ts ?ps else None] =>
      first [ rewrite (match_segs_len ts ps) by (cbn [length]; discriminate) | rewrite (match_segs_lit _ _ _ _) by discriminate ];
      replace (if b then @None (gmap gostr gostr) else None) with (@None (gmap gostr gostr)) by (by destruct b)
  end.
Lemma write_route m g ns name : m ∈ write_methods -> api_addr g ns name ->
  exists vars : gmap gostr gostr, find_froute fake_routes m (api_path g ns name) = Some (KWrite, vars) /\
    (default [] (vars !! str "group"), default [] (vars !! str "version"), default [] (vars !! str "resourceType")) = g /\
    vars !! str "namespace" = ns /\ vars !! str "resourceName" = name.
Proof.
  intros Hm Ha. rewrite fake_table, (path_split _ _ _ Ha). destruct g as [[gr v] rtp]. destruct Ha as (Hg & Hv & Hr & Hn & Hna). cbn [fst snd] in *.
  assert (existsb (str_eqb m) W = true) as Hok.
  { apply existsb_exists. exists m. split; [by apply elem_of_list_In|apply str_eqb_refl]. }
  assert (v <> [] /\ rtp <> []) as [Hv0 Hr0] by (split; [apply Hv|apply Hr]).
  assert (forall n, ns = Some n -> n <> []) as Hn0 by (intros n E; by apply Hn).
  assert (forall n, name = Some n -> n <> []) as Hna0 by (intros n E; by apply Hna).
  destruct gr as [|gc gr].
  - destruct ns as [n|]; destruct name as [x|]; cbn [app find_templ]; repeat skip_templ; rewrite Hok;
      rewrite !match_lit, ?match_var, ?match_lit, ?match_var by (first [done|by apply Hn0|by apply Hna0]); cbn [match_segs fmap option_fmap option_map];
      eexists; (split; [reflexivity|]); split_and!; first [done|by simplify_map_eq].
  - set (GR := gc :: gr) in *. assert (GR <> []) as HG by done. clearbody GR.
    destruct ns as [n|]; destruct name as [x|]; cbn [app find_templ]; repeat skip_templ; rewrite Hok;
      rewrite !match_lit, ?match_var, ?match_lit, ?match_var by (first [done|by apply Hn0|by apply Hna0]); cbn [match_segs fmap option_fmap option_map];
      eexists; (split; [reflexivity|]); split_and!; first [done|by simplify_map_eq].
Qed.
Lemma templ_drop t ms h rs m ps : existsb (str_eqb m) ms = false -> find_templ ((t, ms, h) :: rs) m ps = find_templ rs m ps.
Proof. intros H. cbn [find_templ]. by rewrite H. Qed.
Lemma templ_miss t ms h rs m ps : match_segs t ps = None -> find_templ ((t, ms, h) :: rs) m ps = find_templ rs m ps.
Proof. intros H. cbn [find_templ]. rewrite H. by destruct (existsb _ _). Qed.
Lemma match_var_none n s ts ps : match_segs ts ps = None -> match_segs (TVar n :: ts) (s :: ps) = None.
Proof. intros H. destruct s; [done|]. rewrite match_var by done. by rewrite H. Qed.
Lemma match_lit_none a b ts ps : a <> b \/ match_segs ts ps = None -> match_segs (TLit a :: ts) (b :: ps) = None.
Proof. intros [H|H]; cbn [match_segs]; [apply str_eqb_neq in H; by rewrite H|]. destruct (str_eqb a b); done. Qed.
Ltac no_match := first [ apply match_segs_len; cbn [length]; discriminate | apply match_var_none; no_match
  | apply match_lit_none; first [ left; first [discriminate|done|by apply not_eq_sym] | right; no_match ] ].
Lemma get_route g ns name : api_addr g ns name -> g.2 <> str "watch" -> find_froute fake_routes (str "GET") (api_path g ns name) = None.
Proof.
  intros Ha Hw. rewrite fake_table, (path_split _ _ _ Ha). destruct g as [[gr v] rtp]. cbn [fst snd] in *. clear Ha.
  do 8 (rewrite templ_drop by reflexivity). destruct gr as [|gc gr].
  - destruct ns as [n|]; destruct name as [x|]; cbn [app]; repeat (rewrite templ_miss by no_match); reflexivity.
  - generalize (gc :: gr). intros gr'. destruct ns as [n|]; destruct name as [x|]; cbn [app]; repeat (rewrite templ_miss by no_match); reflexivity.
Qed.
(** ** One request *)
Lemma no_watch_param hr : no_watch (url_params hr) -> watch_param (h_req hr) = false.
Proof.
  intros H. unfold watch_param. destruct (query_parse (rq_raw (h_req hr)) !! str "watch") as [vs|] eqn:Hq; [|done].
  destruct vs as [|v [|? ?]]; [done| |done]. destruct (H (str "watch", [v])) as [H1 H2]; [by apply elem_of_map_to_list|done|]. cbn [snd hd] in H1, H2.
  destruct (str_eqb_spec v (str "true")) as [->|_]; [by destruct H1|]. destruct (str_eqb_spec v (str "1")) as [->|_]; [by destruct H2|done].
Qed.
Lemma http_write JE cf hr op : http_asks JE cf hr (HDo op) ->
  clean_path (rq_path (h_req hr)) = rq_path (h_req hr) /\ watch_param (h_req hr) = false /\
  exists vars, find_froute fake_routes (rq_method (h_req hr)) (rq_path (h_req hr)) = Some (KWrite, vars) /\
    let r := with_vars (h_req hr) vars in asks JE cf (url_query r) r op /\ hop_gvr (HDo op) = Some (url_gvr r).
Proof.
  intros H. inversion H as [g ns name c bs o Hm Ha Hp Hw Hc Hb Hd Hn|g ns name c bs o Hm Ha Hp Hw Hc Hb Hd Hn|g ns name c bs o Hm Ha Hp Hw Hb Hd Hc|]; subst.
  all: split; [rewrite Hp; apply canonical_clean; by eapply path_canonical|].
  all: split; [by apply no_watch_param|].
  all: rewrite Hp.
  all: match goal with |- context [find_froute _ ?m (api_path ?g ?ns ?n)] => destruct (write_route m g ns n) as (vars & Hf & Hg & Hns & Hna); [rewrite Hm; set_solver|done|] end.
  all: exists vars; rewrite Hf; split; [done|]; cbv zeta.
  all: set (r := with_vars (h_req hr) vars).
  all: assert (url_gvr r = g) as Hu by exact Hg.
  all: assert (var r (str "namespace") = default [] ns) as Hvn by (unfold var, r; cbn [with_vars rq_vars]; by rewrite Hns).
  all: rewrite Hu; split; [|done].
  - rewrite <- Hu, <- Hvn. apply (asks_create JE cf (url_query r) r c bs o); try done. unfold var, r. cbn [with_vars rq_vars]. rewrite Hna. destruct Hn as [-> | ->]; [by left|by right].
  - rewrite <- Hu, <- Hvn. apply (asks_update JE cf (url_query r) r c bs o); try done. unfold var, r. cbn [with_vars rq_vars]. rewrite Hna. destruct Hn as [-> | ->]; [by left|by right].
  - assert (var r (str "resourceName") = name) as Hr by (unfold var, r; cbn [with_vars rq_vars]; by rewrite Hna).
    rewrite <- Hu, <- Hvn. apply (asks_delete JE cf (url_query r) r c bs o name); try done. rewrite Hr. rewrite decide_False; [done|].
    destruct Ha as (_ & _ & _ & _ & Ha). apply (Ha name eq_refl).
Qed.
(** Every write is one call of the cache, or none. *)
Lemma write_call (E : env) JE marshal cf order st r st' a e : fake_proxy E JE marshal cf order st r = Ok (st', a, e) ->
  st' = st \/ exists k, kube_call k /\ do_call E st k = Ok st'.
Proof.
  unfold fake_proxy. destruct (fake_params cf order) as [cl|]; [|intros [= <- _ _]; by left]. destruct (rq_body r) as [bs|]; [|intros [= <- _ _]; by left].
  destruct (decode_obj JE bs) as [o|]; [|done]. cbv zeta.
  assert (forall k (x : result store) (f : store -> fanswer) (ev : option event), x = do_call E st k -> kube_call k ->
    match x with Panics => Panics | Ok s => Ok (s, f s, ev) end = Ok (st', a, e) -> st' = st \/ exists k, kube_call k /\ do_call E st k = Ok st') as Hf.
  { intros k x f ev Hx Hk. destruct x as [s|]; [|done]. intros [= <- _ _]. right. exists k. by split. }
  destruct (str_eqb (rq_method r) (str "POST")).
  { destruct (store_get _ _ _ _ _); [intros [= <- _ _]; by left|]. eapply (Hf (CAdd _ _ _)); [reflexivity|by eexists]. }
  destruct (str_eqb (rq_method r) (str "PUT")).
  { destruct (store_get _ _ _ _ _); [|intros [= <- _ _]; by left]. eapply (Hf (CMod _ _ _)); [reflexivity|by eexists]. }
  destruct (str_eqb (rq_method r) (str "DELETE")); [|intros [= <- _ _]; by left].
  set (c := match do_dry (decode_opts bs) with [d] => _ | _ => cl end).
  destruct (store_get st _ c _ _); [|intros [= <- _ _]; by left].
  eapply (Hf (CDel _ _ _)); [reflexivity|by eexists].
Qed.
