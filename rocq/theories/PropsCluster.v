(** C35, C52, C53, C58: the default cluster in lists answered from the cache. *)
From Coq Require Import Ascii String NArith ZArith Lia.
From stdpp Require Import base gmap strings list sorting.
From Verif Require Import ModelStr ModelSort ModelLabels SpecLabels ModelPage ModelJson ModelJsonText ModelQuery ModelStore ModelUrl ModelProxy
  SpecPage SpecStore SpecProxy SpecList ProofsStr ProofsLabels ProofsParse ProofsPage ProofsSel ProofsSemi ProofsJson ProofsQuery ProofsStore ProofsQueryStore ProofsIndex ProofsListing ProofsUrl ProofsProxy
  PropsSelector PropsQuery PropsStore PropsStore3 PropsProxy ProofsList PropsList.

Lemma no_cluster_get search : chooses_no_cluster (search_parts search) -> get_clusters search = [].
Proof.
  intros H. unfold get_clusters. destruct (search_selector search) as [ls|] eqn:E; [|done].
  assert (forall e, e ∈ mexprs ls -> lkey e = str "cluster" -> lvals e = []) as He.
  { rewrite search_selector_spec in E. revert H E. unfold chooses_no_cluster. generalize (search_parts search). intros l.
    assert (forall pre0, (forall q, q ∈ pre0 -> ~ is_adv q) ->
      (forall pre text post ls0, pre0 ++ l = pre ++ (str "__ckube_as__:" ++ text) :: post -> (forall q, q ∈ pre -> ~ is_adv q) ->
        parse_to_label_selector text = Some ls0 -> forall e, e ∈ mexprs ls0 -> lkey e = str "cluster" -> lvals e = []) ->
      match adv_parts l with [] => Some empty_sel | p :: _ => match drop (length adv_prefix) p with [] => Some empty_sel | sel => parse_to_label_selector sel end end = Some ls ->
      forall e, e ∈ mexprs ls -> lkey e = str "cluster" -> lvals e = []) as Hx; [|by apply (Hx [] (fun q Hq => match not_elem_of_nil q Hq with end))].
    induction l as [|q l IH]; intros pre0 Hpre H.
    - cbn. intros [= <-] e He. by apply elem_of_nil in He.
    - unfold adv_parts. cbn [List.filter]. destruct (has_prefix adv_prefix q) eqn:Eq.
      + apply has_prefix_true in Eq as [text ->]. rewrite drop_app. destruct text as [|c text].
        * intros [= <-] e He. by apply elem_of_nil in He.
        * intros Hp. by eapply (H pre0 (c :: text) l ls).
      + intros Hp. apply (IH (pre0 ++ [q])); [| |done].
        * intros x [Hx|Hx%elem_of_list_singleton]%elem_of_app; [by apply Hpre|]. subst x. rewrite is_adv_prefix. congruence.
        * intros pre text post ls0 Ex. rewrite <- app_assoc in Ex. exact (H pre text post ls0 Ex). }
  induction (mexprs ls) as [|e es IH]; [done|]. cbn [first_expr]. destruct (str_eqb (lkey e) (str "cluster")) eqn:Ee.
  - apply str_eqb_eq in Ee. apply He; [left|done].
  - apply IH. intros e' He'. apply He. by right.
Qed.

(** Every item of a list is an object in scope that matches the search that was run. *)
Lemma filter_labels_sub rs : forall l l', filter_labels rs l = Ok l' -> forall o, o ∈ l' -> o ∈ l.
Proof.
  induction l as [|o l IH]; intros l' H x Hx; cbn [filter_labels] in H; [injection H as <-; done|].
  destruct o as [k|]; [|done]. destruct (filter_labels rs l) as [l0|]; [|done].
  destruct (match_reqs rs (k_labels k)); injection H as <-; [apply elem_of_cons in Hx as [->|Hx]; [left|right; by eapply IH]|right; by eapply IH].
Qed.
Lemma slice_sub {A} (l : list A) lo hi l' : slice l lo hi = Some l' -> forall x, x ∈ l' -> x ∈ l.
Proof.
  unfold slice. destruct (_ && _); [|done]. intros [= <-] x Hx. eapply elem_of_list_lookup in Hx as [i Hi].
  rewrite lookup_take_Some, lookup_drop in Hi. destruct Hi as [Hi _]. by eapply elem_of_list_lookup_2.
Qed.
Lemma items_from E cf conf h st clients r p p1 labels api kind path rem items : run_calls E (new_store conf) h = Ok st ->
  list_request conf r p labels -> effective cf p p1 -> proxy E cf clients st r (AList api kind path rem items) ->
  forall o, o ∈ items -> exists k e, in_scope st (req_gvr r) (var r (str "namespace")) k e /\
    entry_match E (pg_search p1) e = Some true /\ en_obj e = o.
Proof.
  intros Hrun Hreq Heff Ha o Ho.
  destruct (list_inv E cf conf h st Hrun clients r p labels _ Hreq Ha) as (ord & p2 & q & Hord & He2 & _ & Hq & Ea).
  assert (p2 = p1) as -> by (by eapply effective_fun). destruct q as [q|]; [|done]. unfold list_answer in Ea.
  destruct (list_items p1 labels q) as [[[its tot]|]|] eqn:Eit; [|done|done]. destruct (remaining _ _ _); [|done].
  destruct (contains _ _); [by destruct (server_print _ _)|].
  assert (items = its) as -> by congruence. clear Ea.
  assert (o ∈ q_items q /\ q_err q = false) as [Hin Her].
  { unfold list_items in Eit. destruct (q_err q); [done|]. split; [|done]. destruct labels as [ls|]; [|by injection Eit as -> _].
    destruct (is_empty_sel ls); [by injection Eit as -> _|]. destruct (as_selector ls) as [rs|]; [|done].
    destruct (filter_labels rs (q_items q)) as [l|] eqn:Ef; [|done]. cbv zeta in Eit. destruct (label_bounds _ _). destruct (slice l _ _) as [l'|] eqn:Es; [|done].
    injection Eit as <- _. eapply filter_labels_sub; [exact Ef|]. by eapply slice_sub. }
  destruct (query_ok E st _ _ _ q Hq Her) as (ks & es & m & (_ & HF & _) & _ & _ & _ & Hi & _).
  destruct Hi as [[_ Hi]|(_ & its' & Hsl & Hi)]; [rewrite Hi in Hin; by apply elem_of_nil in Hin|].
  rewrite Hi in Hin. apply elem_of_list_fmap in Hin as (e & -> & He). eapply slice_sub in He; [|exact Hsl].
  apply elem_of_list_lookup in He as [i He]. destruct (Forall2_lookup_r _ _ _ _ _ HF He) as (k & _ & Hs & Hm).
  exists k, e. split; [done|]. split; [|done]. unfold store_page in Hm. by destruct (has_labels labels).
Qed.

(** The search with the default cluster. *)
Section default.
  Context (cf : config) (p : paginate).
  Hypothesis (Hno : chooses_no_cluster (search_parts (pg_search p))) (Hgood : ~ bad_advanced (search_parts (pg_search p)))
    (Hd : cf_default cf <> []) (Hleg : legal_value (cf_default cf)).
  Lemma default_set : exists p1 ls, effective cf p p1 /\ search_selector (pg_search p) = Some ls /\
    set_search_selector p (restrict (str "cluster") [cf_default cf] ls) = Some p1.
  Proof.
    destruct (search_selector (pg_search p)) as [ls|] eqn:Els; [|by apply bad_advanced_spec in Els].
    pose proof (effective_default cf p (no_cluster_get _ Hno)) as He. unfold set_clusters in He. rewrite Els in He.
    assert (existsb (fun c => str_eqb c []) [cf_default cf] = false) as Ee. { cbn. destruct (cf_default cf); done. }
    rewrite Ee in He. destruct (set_search_selector p _) as [p1|] eqn:Es; [by eauto|].
    apply restrict_fails in Es; [|by vm_compute|done]. destruct Es as [?|(v & Hv & Hn)]; [done|].
    apply elem_of_list_singleton in Hv as ->. done.
  Qed.
  Lemma default_safe uprint p1 ls m : effective cf p p1 -> search_selector (pg_search p) = Some ls ->
    paginate_match uprint (pg_search p1) m = Some true -> sel_holds m (restrict (str "cluster") [cf_default cf] ls).
  Proof.
    intros He Hls Hm. destruct default_set as (p2 & ls2 & He2 & Hls2 & Hset). assert (p2 = p1) as -> by (by eapply effective_fun).
    assert (ls2 = ls) as -> by congruence.
    eapply (restrict_safe uprint p (str "cluster") [cf_default cf] ls p1); [by vm_compute|done|done| |by intros [n ?]|done|done].
    constructor; [by apply valid_value_legal|constructor].
  Qed.
End default.

(** ** C35 *)
Theorem C35_default_cluster_only E cf conf h st clients r p labels api kind path rem items :
  Forall kube_call h -> run_calls E (new_store conf) h = Ok st ->
  list_request conf r p labels -> proxy E cf clients st r (AList api kind path rem items) ->
  chooses_no_cluster (search_parts (pg_search p)) -> ~ bad_advanced (search_parts (pg_search p)) ->
  cf_default cf <> [] -> legal_value (cf_default cf) ->
  forall o, o ∈ items -> exists ns n e, lookup_entry st (req_gvr r) (cf_default cf) ns n = Some e /\ en_obj e = o /\
    (var r (str "namespace") = [] \/ var r (str "namespace") = ns).
Proof.
  intros Hk Hr Hreq Ha Hno Hgood Hd Hleg o Ho. destruct (default_set cf p Hno Hgood Hd Hleg) as (p1 & ls & He & Hls & _).
  destruct (items_from E cf conf h st clients r p p1 labels _ _ _ _ _ Hr Hreq He Ha o Ho) as (k & e & [Hl Hs] & Hm & Heo).
  pose proof (default_safe cf p Hno Hgood Hd Hleg _ p1 ls _ He Hls Hm) as Hsel.
  apply restrict_holds in Hsel as [(v & Hv & ->%elem_of_list_singleton) _].
  destruct (C26_builtin_index E conf h st _ _ _ _ _ Hk Hr Hl) as (_ & _ & _ & _ & _ & Hc & _).
  rewrite Hv in Hc. injection Hc as Hc. rewrite <- Hc in Hl. eauto 10.
Qed.
Print Assumptions C35_default_cluster_only.
(** With the default order a list fails only when matching an object fails. *)
Lemma default_order_fails E conf h st r p1 : Forall kube_call h -> run_calls E (new_store conf) h = Ok st ->
  pg_sort p1 = [] -> query_fails E st r p1 ->
  exists k e, in_scope st (req_gvr r) (var r (str "namespace")) k e /\ entry_match E (pg_search p1) e = None.
Proof.
  intros Hk Hr Hs (q & Hq & He). unfold query in Hq. destruct (st_map st !! req_gvr r) as [cs|] eqn:Eg; [|done].
  destruct Hq as (seen & Hscan & Hq). rewrite query_seen_eq in Hq. cbn [pg_search pg_sort] in Hq.
  pose proof (fun e => seen_scope st _ _ cs seen e Eg Hscan) as Hseen.
  assert (seen_err E (pg_search p1) seen = true -> exists k e, in_scope st (req_gvr r) (var r (str "namespace")) k e /\ entry_match E (pg_search p1) e = None) as Hx.
  { intros Hse. apply existsb_exists in Hse as (x & Hx & Hxe). apply elem_of_list_In, Hseen in Hx as [k Hx].
    exists k, x. split; [done|]. by destruct (entry_match E (pg_search p1) x). }
  destruct (matched E (pg_search p1) seen) as [|x m] eqn:Em; [by injection Hq as ->; apply Hx|]. rewrite <- Em in *. rewrite Hs in Hq.
  rewrite (default_sort_objs E conf h st (req_gvr r) (var r (str "namespace")) _ Hk Hr) in Hq.
  - cbv zeta in Hq. destruct (slice _ _ _); [|done]. injection Hq as ->. by apply Hx.
  - intros e [He' _]%elem_of_matched. by apply Hseen.
Qed.
Lemma empty_search uprint m : paginate_match uprint [] m = Some true.
Proof. done. Qed.
Lemma empty_search_parts : search_parts [] = [].
Proof. done. Qed.
Lemma no_parts_none : chooses_no_cluster [] /\ ~ bad_advanced [].
Proof.
  split; [intros pre text post ls H|intros (pre & text & post & H & _)]; by destruct pre.
Qed.

(** A plain list is exactly the objects of the default cluster with the requested labels. *)
Theorem C35_plain_list E cf conf h st clients r p labels a :
  Forall kube_call h -> run_calls E (new_store conf) h = Ok st ->
  list_request conf r p labels -> proxy E cf clients st r a ->
  pg_search p = [] -> pg_sort p = [] -> pg_size p = 0%Z -> pg_page p = 0%Z ->
  cf_default cf <> [] -> legal_value (cf_default cf) ->
  exists ks es, NoDup ks /\
    Forall2 (fun k e => in_scope st (req_gvr r) (var r (str "namespace")) k e /\ k.1.1 = cf_default cf /\ labels_hold labels (en_obj e)) ks es /\
    (forall ns n e, in_scope st (req_gvr r) (var r (str "namespace")) (cf_default cf, ns, n) e -> labels_hold labels (en_obj e) ->
       (cf_default cf, ns, n) ∈ ks) /\
    ((Z.of_nat (length es) < 2 ^ 63)%Z -> shows cf r a (map en_obj es) 0).
Proof.
  intros Hk Hr Hreq Ha Hse Hso Hsz Hpg Hd Hleg.
  destruct no_parts_none as [Hno Hgood].
  assert (chooses_no_cluster (search_parts (pg_search p))) as Hno' by (by rewrite Hse).
  assert (~ bad_advanced (search_parts (pg_search p))) as Hgood' by (by rewrite Hse).
  destruct (default_set cf p Hno' Hgood' Hd Hleg) as (p1 & ls & He & Hls & Hset).
  assert (ls = empty_sel) as ->. { rewrite Hse in Hls. by injection Hls as <-. }
  assert (forall m, (paginate_match (e_print E) (pg_search p1) m = Some true <-> m !! str "cluster" = Some (cf_default cf)) /\
    paginate_match (e_print E) (pg_search p1) m <> None) as Hm.
  { intros m. destruct (restrict_match (e_print E) p (str "cluster") [cf_default cf] empty_sel p1 m) as [H1 H2]; [by vm_compute|done|done| |by intros [n ?]| |done|].
    - constructor; [by apply valid_value_legal|constructor].
    - rewrite Hse. intros q r0 Hq. by apply elem_of_nil in Hq.
    - rewrite H1, H2, Hse, restrict_holds. split.
      + split; [intros [[(v & Hv & ->%elem_of_list_singleton) _] _]; done|].
        intros Hc. split; [split; [exists (cf_default cf); split; [done|set_solver]|split; [|by intros e ?%elem_of_nil]]|by intros q ?%elem_of_nil].
        intros k v. cbn [empty_sel mlabels]. by rewrite lookup_empty.
      + intros (q & Hq & _). by apply elem_of_nil in Hq. }
  assert (forall k e, in_scope st (req_gvr r) (var r (str "namespace")) k e -> entry_match E (pg_search p1) e = Some true <-> k.1.1 = cf_default cf) as Hem.
  { intros k e [Hl _]. destruct (C26_builtin_index E conf h st _ _ _ _ _ Hk Hr Hl) as (_ & _ & _ & _ & _ & Hc & _).
    unfold entry_match. rewrite (proj1 (Hm _)), Hc. split; [by intros [= ->]|by intros ->]. }
  destruct (effective_page cf p p1 He) as (E1 & E2 & E3).
  destruct (all_shape E cf conf h st clients Hk Hr r p p1 labels a Hreq He Ha Hsz) as [[Hf _]|(ks & es & (Hnd & HF & Hc) & _ & Hsh)].
  - exfalso. destruct (default_order_fails E conf h st r p1 Hk Hr ltac:(congruence) Hf) as (k & e & _ & Hx). by destruct (Hm (en_index e)).
  - exists ks, es. split; [done|]. split; [|split].
    + eapply Forall2_impl; [exact HF|]. intros k e (Hs & Hx & Hl). split; [done|]. split; [by eapply Hem|done].
    + intros ns n e Hs Hl. apply (Hc _ e Hs); [by eapply Hem|done].
    + intros Hl. specialize (Hsh Hl). by rewrite decide_True in Hsh.
Qed.
Print Assumptions C35_plain_list.
(** Finding: with an illegal default cluster name the objects of all clusters are listed. *)
Theorem C35_illegal_default_lists_all E cf conf h st clients r p labels a :
  Forall kube_call h -> run_calls E (new_store conf) h = Ok st ->
  list_request conf r p labels -> proxy E cf clients st r a ->
  pg_search p = [] -> pg_sort p = [] -> pg_size p = 0%Z -> pg_page p = 0%Z ->
  ~ legal_value (cf_default cf) ->
  exists ks es, NoDup ks /\
    Forall2 (fun k e => in_scope st (req_gvr r) (var r (str "namespace")) k e /\ labels_hold labels (en_obj e)) ks es /\
    (forall k e, in_scope st (req_gvr r) (var r (str "namespace")) k e -> labels_hold labels (en_obj e) -> k ∈ ks) /\
    ((Z.of_nat (length es) < 2 ^ 63)%Z -> shows cf r a (map en_obj es) 0).
Proof.
  intros Hk Hr Hreq Ha Hse Hso Hsz Hpg Hleg.
  assert (effective cf p p) as He.
  { assert (get_clusters (pg_search p) = []) as Hg by (by rewrite Hse). pose proof (effective_default cf p Hg) as He.
    destruct (C09_clusters_fail p [cf_default cf]) as [H1 H2]. rewrite H2 in He; [done|]. apply H1. right. right.
    exists (cf_default cf). split; [set_solver|]. by right. }
  destruct (all_shape E cf conf h st clients Hk Hr r p p labels a Hreq He Ha Hsz) as [[Hf _]|(ks & es & (Hnd & HF & Hc) & _ & Hsh)].
  - exfalso. destruct (default_order_fails E conf h st r p Hk Hr Hso Hf) as (k & e & _ & Hx). unfold entry_match in Hx. by rewrite Hse in Hx.
  - exists ks, es. split; [done|]. split; [|split].
    + eapply Forall2_impl; [exact HF|]. naive_solver.
    + intros k e Hs Hl. apply (Hc _ e Hs); [|done]. unfold entry_match. by rewrite Hse.
    + intros Hl. specialize (Hsh Hl). by rewrite decide_True in Hsh.
Qed.
Print Assumptions C35_illegal_default_lists_all.

(** ** C52 *)
(** Finding: a first plain part that starts with a literal ';' makes every such list fail. *)
Theorem C52_leading_semicolon_fails E cf conf h st clients r p labels a k0 e0 pre q post :
  Forall kube_call h -> run_calls E (new_store conf) h = Ok st ->
  list_request conf r p labels -> proxy E cf clients st r a ->
  chooses_no_cluster (search_parts (pg_search p)) -> ~ bad_advanced (search_parts (pg_search p)) ->
  cf_default cf <> [] -> legal_value (cf_default cf) ->
  search_parts (pg_search p) = pre ++ (";"%char :: q) :: post -> (forall x, x ∈ pre -> is_adv x) ->
  in_scope st (req_gvr r) (var r (str "namespace")) k0 e0 ->
  a = AStatus 400 (str "query error").
Proof.
  intros Hk Hr Hreq Ha Hno Hgood Hd Hleg Hparts Hpre H0.
  destruct (default_set cf p Hno Hgood Hd Hleg) as (p1 & ls & He & Hls & Hset).
  assert (forall m, paginate_match (e_print E) (pg_search p1) m = None) as Hm.
  { intros m. eapply (restrict_semi (e_print E) p (str "cluster") [cf_default cf] ls p1); [by vm_compute|done|done| |by intros [n ?]|done| |done].
    - constructor; [by apply valid_value_legal|constructor].
    - unfold other_parts. rewrite Hparts, List.filter_app. assert (List.filter (fun q => negb (has_prefix adv_prefix q)) pre = []) as ->.
      { clear -Hpre. induction pre as [|x pre IH]; [done|]. cbn [List.filter]. assert (is_adv x) as Hx%is_adv_prefix by (apply Hpre; left). rewrite Hx. cbn [negb].
        apply IH. intros y Hy. apply Hpre. by right. }
      reflexivity. }
  destruct (list_inv E cf conf h st Hr clients r p labels a Hreq Ha) as (ord & p2 & q0 & Hord & He2 & _ & Hq & Ea).
  assert (p2 = p1) as -> by (by eapply effective_fun).
  assert (pg_search (store_page p1 labels) = pg_search p1) as Esp by (unfold store_page; by destruct (has_labels labels)).
  unfold query in Hq. destruct (st_map st !! req_gvr r) as [cs|] eqn:Eg.
  2:{ destruct H0 as [H0 _]. unfold lookup_entry in H0. by rewrite Eg in H0. }
  destruct Hq as (seen & Hscan & Hq). rewrite query_seen_eq, Esp in Hq.
  assert (matched E (pg_search p1) seen = []) as Em.
  { destruct (matched E (pg_search p1) seen) as [|x m] eqn:Em; [done|]. assert (x ∈ matched E (pg_search p1) seen) as Hx by (rewrite Em; left).
    apply elem_of_matched in Hx as [_ Hx]. unfold entry_match in Hx. by rewrite Hm in Hx. }
  assert (seen_err E (pg_search p1) seen = true) as Es.
  { apply existsb_exists. exists e0. split; [apply elem_of_list_In; apply (seen_scope st _ _ cs seen e0 Eg Hscan); by exists k0|].
    unfold entry_match. by rewrite Hm. }
  rewrite Em, Es in Hq. subst q0. by rewrite Ea.
Qed.
Print Assumptions C52_leading_semicolon_fails.

(** ** C53 *)
(** What a search means once the default cluster is added: later advanced parts are dropped. *)
Theorem C53_meaning_with_default E cf p p1 ls m :
  chooses_no_cluster (search_parts (pg_search p)) -> effective cf p p1 ->
  cf_default cf <> [] -> legal_value (cf_default cf) ->
  (forall q r, q ∈ search_parts (pg_search p) -> q <> ";"%char :: r) ->
  search_selector (pg_search p) = Some ls ->
  paginate_match (e_print E) (pg_search p1) m = Some true <->
    m !! str "cluster" = Some (cf_default cf) /\
    (forall k v, mlabels ls !! k = Some v -> m !! k = Some v) /\
    (forall e, e ∈ mexprs ls -> lkey e <> str "cluster" -> lreq_holds m e) /\
    (forall q, q ∈ search_parts (pg_search p) -> ~ is_adv q -> match_one (e_print E) m q = Some true).
Proof.
  intros Hno He Hd Hleg Hsemi Hls.
  assert (~ bad_advanced (search_parts (pg_search p))) as Hgood by (rewrite bad_advanced_spec; congruence).
  destruct (default_set cf p Hno Hgood Hd Hleg) as (p2 & ls2 & He2 & Hls2 & Hset).
  assert (p2 = p1) as -> by (by eapply effective_fun). assert (ls2 = ls) as -> by congruence.
  destruct (restrict_match (e_print E) p (str "cluster") [cf_default cf] ls p1 m) as [-> _]; [by vm_compute|done|done| |by intros [n ?]| |done|].
  - constructor; [by apply valid_value_legal|constructor].
  - intros q r [Hq _]%elem_of_other. by apply Hsemi.
  - rewrite restrict_holds. setoid_rewrite elem_of_other. split.
    + intros [[(v & Hv & ->%elem_of_list_singleton) [H1 H2]] H3]. split; [done|]. split; [done|]. split; [done|]. intros q Hq Ha. by apply H3.
    + intros (H1 & H2 & H3 & H4). split; [|intros q [Hq Ha]; by apply H4]. split; [|done]. exists (cf_default cf). split; [done|set_solver].
Qed.
Print Assumptions C53_meaning_with_default.
Lemma no_items E cf conf h st clients r p p1 labels api kind path rem items : run_calls E (new_store conf) h = Ok st ->
  list_request conf r p labels -> effective cf p p1 -> proxy E cf clients st r (AList api kind path rem items) ->
  (forall m, paginate_match (e_print E) (pg_search p1) m <> Some true) -> items = [].
Proof.
  intros Hr Hreq He Ha Hm. destruct items as [|o items]; [done|].
  destruct (items_from E cf conf h st clients r p p1 labels _ _ _ _ _ Hr Hreq He Ha o ltac:(left)) as (k & e & _ & Hx & _).
  by destruct (Hm (en_index e)).
Qed.
(** Finding: selecting another cluster by equality in the advanced part lists nothing. *)
Theorem C53_equality_lists_nothing E cf conf h st clients r p labels ls c api kind path rem items :
  run_calls E (new_store conf) h = Ok st ->
  list_request conf r p labels -> proxy E cf clients st r (AList api kind path rem items) ->
  chooses_no_cluster (search_parts (pg_search p)) -> cf_default cf <> [] -> legal_value (cf_default cf) ->
  search_selector (pg_search p) = Some ls -> mlabels ls !! str "cluster" = Some c -> c <> cf_default cf ->
  items = [].
Proof.
  intros Hr Hreq Ha Hno Hd Hleg Hls Hc Hne.
  assert (~ bad_advanced (search_parts (pg_search p))) as Hgood by (rewrite bad_advanced_spec; congruence).
  destruct (default_set cf p Hno Hgood Hd Hleg) as (p1 & ls2 & He & Hls2 & Hset).
  eapply no_items; [done|done|done|done|]. intros m Hm.
  pose proof (default_safe cf p Hno Hgood Hd Hleg _ p1 ls _ He Hls Hm) as Hsel.
  apply restrict_holds in Hsel as [(v & Hv & ->%elem_of_list_singleton) [H1 _]]. apply H1 in Hc. congruence.
Qed.
Print Assumptions C53_equality_lists_nothing.
(** Finding: an advanced part after a space is applied by the match but not seen by the cluster choice. *)
Theorem C53_space_lists_nothing E cf conf h st clients r p labels q text ls c api kind path rem items :
  run_calls E (new_store conf) h = Ok st ->
  list_request conf r p labels -> proxy E cf clients st r (AList api kind path rem items) ->
  chooses_no_cluster (search_parts (pg_search p)) -> ~ bad_advanced (search_parts (pg_search p)) ->
  cf_default cf <> [] -> legal_value (cf_default cf) ->
  (forall q r, q ∈ search_parts (pg_search p) -> q <> ";"%char :: r) ->
  q ∈ search_parts (pg_search p) -> ~ is_adv q -> trim_space q = str "__ckube_as__:" ++ text -> text <> [] ->
  parse_to_label_selector text = Some ls ->
  (LReq (str "cluster") LIn [c] ∈ mexprs ls \/ mlabels ls !! str "cluster" = Some c) -> c <> cf_default cf ->
  items = [].
Proof.
  intros Hr Hreq Ha Hno Hgood Hd Hleg Hsemi Hq Hadv Ht Hne Hp Hc Hcd.
  destruct (default_set cf p Hno Hgood Hd Hleg) as (p1 & ls2 & He & Hls2 & Hset).
  eapply no_items; [done|done|done|done|]. intros m Hm.
  apply (C53_meaning_with_default E cf p p1 ls2 m Hno He Hd Hleg Hsemi Hls2) in Hm as (Hm & _ & _ & H4).
  specialize (H4 q Hq Hadv). unfold match_one in H4.
  destruct (match_adv_sel (e_print E) m (map snd (map_to_list m)) q text ls Ht Hne Hp) as (b & Hb & Hbt).
  rewrite Hb in H4. injection H4 as ->. apply proj1 in Hbt. destruct (Hbt eq_refl) as [B1 B2].
  destruct Hc as [Hc|Hc]; [|apply B1 in Hc; congruence]. apply B2 in Hc. unfold lreq_holds in Hc. cbn [lop lkey lvals] in Hc. destruct Hc as (v & Hv & ->%elem_of_list_singleton). congruence.
Qed.
Print Assumptions C53_space_lists_nothing.

(** ** C58: from the client's options to the items and the total *)
Theorem C58_client_options conf r (sel s : gostr) (p : paginate) (ls : lsel) :
  parse_to_label_selector sel = Some ls -> mlabels ls !! str "ckube.daocloud.io/query" = None ->
  query_list_options sel p = Some s -> p <> Paginate 0 0 0 [] [] ->
  page_in_range p -> valid_utf8 (pg_sort p) = true -> valid_utf8 (pg_search p) = true ->
  (N.of_nat (length (marshal_page p)) <= 7518)%N ->
  rq_method r = str "GET" -> is_Some (conf !! req_gvr r) -> rq_vars r !! str "resource" = None ->
  params r !! str "labelSelector" = Some [s] -> (forall k, is_Some (params r !! k) -> harmless k) ->
  exists ls', list_request conf r p (Some ls') /\ forall m, sel_holds m ls' <-> sel_holds m (callers ls).
Proof.
  intros Hls Hpk Hs Hp Hr Hu1 Hu2 Hlen Hm Hc Hv Hsel Hharm.
  destruct (C13_list_options_reach_the_server sel s p ls Hls Hpk Hs Hp Hr Hu1 Hu2 Hlen) as (ls' & Hpar & _ & Hsame).
  assert (selector_text (params r) s) as Hst by (left; by exists []).
  exists ls'. split; [|done]. split; [|split; [done|by exists s]]. split; [done|]. split; [done|]. split.
  - intros k Hk. left. by apply Hharm.
  - intros s' Hs'. rewrite (selector_text_fun _ _ _ Hs' Hst). eauto.
Qed.
Print Assumptions C58_client_options.
Lemma labels_hold_same ls ls' : (forall m, sel_holds m ls' <-> sel_holds m ls) -> forall o, labels_hold (Some ls') o <-> labels_hold (Some ls) o.
Proof. intros H [k|]; cbn; [apply H|done]. Qed.
Lemma listed_same E st g ns search ls ls' ks es : (forall m, sel_holds m ls' <-> sel_holds m ls) ->
  listed E st g ns search (Some ls') ks es -> listed E st g ns search (Some ls) ks es.
Proof.
  intros H (H1 & H2 & H3). pose proof (labels_hold_same ls ls' H) as Hl. split; [done|]. split.
  - eapply Forall2_impl; [exact H2|]. intros k e (A & B & C). split; [done|]. split; [done|]. by apply Hl.
  - intros k e A B C. apply (H3 k e A B). by apply Hl.
Qed.
Theorem C58_client_to_items E cf conf h st clients r (sel s : gostr) (p p1 : paginate) (ls : lsel) api kind path rem items :
  Forall kube_call h -> run_calls E (new_store conf) h = Ok st ->
  parse_to_label_selector sel = Some ls -> mlabels ls !! str "ckube.daocloud.io/query" = None ->
  query_list_options sel p = Some s ->
  page_in_range p -> valid_utf8 (pg_sort p) = true -> valid_utf8 (pg_search p) = true ->
  (N.of_nat (length (marshal_page p)) <= 7518)%N ->
  rq_method r = str "GET" -> is_Some (conf !! req_gvr r) -> rq_vars r !! str "resource" = None ->
  params r !! str "labelSelector" = Some [s] -> (forall k, is_Some (params r !! k) -> harmless k) ->
  (1 <= pg_page p)%Z -> (1 <= pg_size p)%Z -> (pg_page p * pg_size p < 2 ^ 63)%Z ->
  effective cf p p1 -> proxy E cf clients st r (AList api kind path rem items) ->
  exists ks es, listed E st (req_gvr r) (var r (str "namespace")) (pg_search p1) (Some (callers ls)) ks es /\
    in_cache_order E st (req_gvr r) (var r (str "namespace")) (pg_sort p) (pg_search p1) es /\
    ((Z.of_nat (length es) < 2 ^ 63)%Z ->
     items = map en_obj (take (Z.to_nat (pg_size p)) (drop (Z.to_nat ((pg_page p - 1) * pg_size p)) es)) /\
     pg_total (makeup_total (Some rem) (length items) p) = Z.of_nat (length es)).
Proof.
  intros Hk Hr Hls Hpk Hs Hrange Hu1 Hu2 Hlen Hm Hc Hv Hsel Hharm H1 H2 H3 He Ha.
  destruct (C58_client_options conf r sel s p ls Hls Hpk Hs) as (ls' & Hreq & Hsame); try done.
  { intros ->. cbn in H1. lia. }
  destruct (C38_page_of_matching_objects E cf conf h st clients r p p1 (Some ls') _ Hk Hr Hreq He Ha H1 H2 H3) as [[_ ?]|(ks & es & Hl & Ho & Hsh)]; [done|].
  exists ks, es. split; [by eapply listed_same|]. split; [done|]. intros Ht. cbv zeta in Hsh. specialize (Hsh Ht).
  destruct (decide _) as [D|D]; [done|]. pose proof Hsh as Hsh'. apply shows_list in Hsh' as [Hit Hrem]. split; [done|].
  destruct (C36_remaining_and_total E cf conf h st clients r p p1 (Some ls') _ _ _ _ _ Hk Hr Hreq He Ha H1 H2 H3) as (ks2 & es2 & Hl2 & Ht2).
  assert (length es2 = length es) as Hlen2.
  { destruct Hl as (N1 & F1 & C1), Hl2 as (N2 & F2 & C2). rewrite <- (Forall2_length _ _ _ F1), <- (Forall2_length _ _ _ F2).
    apply Nat.le_antisymm; apply submseteq_length, NoDup_submseteq; try done.
    - intros k [i Hi]%elem_of_list_lookup. destruct (Forall2_lookup_l _ _ _ _ _ F2 Hi) as (e & _ & A & B & C). by apply (C1 k e).
    - intros k [i Hi]%elem_of_list_lookup. destruct (Forall2_lookup_l _ _ _ _ _ F1 Hi) as (e & _ & A & B & C). by apply (C2 k e). }
  cbv zeta in Ht2. rewrite Hlen2 in Ht2. by apply Ht2.
Qed.
Print Assumptions C58_client_to_items.

(** ** Examples *)
Lemma list_proxy E cf conf h st clients r p labels ord q : run_calls E (new_store conf) h = Ok st ->
  list_request conf r p labels -> (forall n m, ord n m ≡ₚ map_to_list m) ->
  query E st (req_gvr r) (var r (str "namespace")) (store_page (add_default_cluster cf p) labels) q ->
  proxy E cf clients st r (list_answer cf ord r (req_gvr r) (add_default_cluster cf p) labels q).
Proof.
  intros Hrun Hreq Hord Hq. pose proof Hreq as (Hc & Hv & s & Hs & Hps).
  set (order := map_to_list (ModelUrl.query_parse (rq_raw r))). assert (order ≡ₚ map_to_list (ModelUrl.query_parse (rq_raw r))) as Ho by done.
  destruct (parse_clean cf order r) as [[cl r']|[[[p0 l0] cl] r']] eqn:Hpc.
  { by destruct (error_not_cacheable cf conf r order _ Ho Hpc). }
  pose proof (parse_clean_spec cf order r Ho) as (s' & cl0 & body & Hs' & _ & Hpc'). rewrite Hpc in Hpc'.
  rewrite (selector_text_fun _ _ _ Hs' Hs), Hps in Hpc'. injection Hpc' as -> -> _ _.
  apply (test_cacheable E cf conf h st Hrun r order p labels cl r' Ho Hpc) in Hc.
  eapply proxy_list; [exact Ho|exact Hpc|exact Hc| |exact Hord|exact Hq]. unfold var. by rewrite Hv.
Qed.
Definition ex_lreq (sel : gostr) (p : paginate) : request :=
  Request (str "GET") (str "/api/v1/namespaces/default/pods")
    (list_to_map [(str "version", str "v1"); (str "namespace", str "default"); (str "resourceType", str "pods")])
    (query_encode {[ str "labelSelector" := [default [] (query_list_options sel p)] ]}) (Some []) [] [].
Definition ex_answer (cf : config) (sel : gostr) (p : paginate) : answer :=
  match parse_list_selector (default [] (query_list_options sel p)) with
  | Some (p', labels) =>
      list_answer cf (fun _ m => map_to_list m) (ex_lreq sel p) pods (add_default_cluster cf p') labels
        (query_with ex_env false ex_store pods (str "default") (store_page (add_default_cluster cf p') labels))
  | None => APanic
  end.
Definition answer_ids (a : answer) : option (Z * list gostr) :=
  match a with AList _ _ _ rem items => Some (rem, map obj_id items) | _ => None end.
Lemma ex_lreq_ok sel p p' labels : parse_list_selector (default [] (query_list_options sel p)) = Some (p', labels) ->
  list_request ex_conf (ex_lreq sel p) p' labels.
Proof.
  intros H. assert (params (ex_lreq sel p) = {[ str "labelSelector" := [default [] (query_list_options sel p)] ]}) as Hp.
  { unfold params. cbn [ex_lreq rq_raw]. apply parse_encode. intros k. destruct (decide (k = str "labelSelector")) as [->|?];
      [by rewrite lookup_singleton|by rewrite lookup_singleton_ne]. }
  assert (selector_text (params (ex_lreq sel p)) (default [] (query_list_options sel p))) as Hs.
  { left. exists []. by rewrite Hp, lookup_singleton. }
  split; [|split; [vm_compute; reflexivity|exact (ex_intro _ _ (conj Hs H))]]. split; [done|]. split; [|split].
  - change (req_gvr (ex_lreq sel p)) with pods. rewrite ex_conf_pods. by eexists.
  - rewrite Hp. intros k [v Hk]. apply lookup_singleton_Some in Hk as [<- _]. left. by left.
  - intros s' Hs'. rewrite (selector_text_fun _ _ _ Hs' Hs). eauto.
Qed.
Lemma ex_answer_ok cf sel p p' labels : parse_list_selector (default [] (query_list_options sel p)) = Some (p', labels) ->
  proxy ex_env cf ∅ ex_store (ex_lreq sel p) (ex_answer cf sel p).
Proof.
  intros H. unfold ex_answer. rewrite H. eapply list_proxy; [apply ex_store_ok|by apply ex_lreq_ok|done|]. apply query_with_ok.
Qed.
Definition ex_parsed (sel : gostr) (p : paginate) : Prop :=
  exists labels, parse_list_selector (default [] (query_list_options sel p)) = Some (p, labels).
Lemma ex_proxy cf sel p : ex_parsed sel p -> exists labels, list_request ex_conf (ex_lreq sel p) p labels /\
  proxy ex_env cf ∅ ex_store (ex_lreq sel p) (ex_answer cf sel p).
Proof. intros [labels H]. exists labels. split; [by apply ex_lreq_ok|by eapply ex_answer_ok]. Qed.

(** Two pages of one object; the second is the last. *)
Example C36_ex : ex_parsed [] (pg 1 1 "" "kind=pod") /\ answer_ids (ex_answer ex_cf [] (pg 1 1 "" "kind=pod")) = Some (1%Z, [str "default/a"]).
Proof. split; [eexists|]; vm_compute; reflexivity. Qed.
Example C36_ex_labels : ex_parsed (str "x!=1") (pg 2 1 "name desc" "") /\
  answer_ids (ex_answer ex_cf (str "x!=1") (pg 2 1 "name desc" "")) = Some (0%Z, [str "default/a"]).
Proof. split; [eexists|]; vm_compute; reflexivity. Qed.
Example C37_ex : ex_parsed [] (pg 3 1 "" "") /\ ex_answer ex_cf [] (pg 3 1 "" "") = AStatus 400 (str "out of page").
Proof. split; [eexists|]; vm_compute; reflexivity. Qed.
Example C38_ex : ex_parsed [] (pg 0 0 "" "size=!0") /\ answer_ids (ex_answer ex_cf [] (pg 0 0 "" "size=!0")) = Some (0%Z, [str "default/b"]).
Proof. split; [eexists|]; vm_compute; reflexivity. Qed.
(** Without a choice of clusters only objects of c1; with the illegal default name those of c2, too. *)
Definition bad_cf : config := Config (str "kubernetes-admin@kubernetes") [] [(pods, str "PodList")].
Example C35_ex : ex_parsed [] (pg 0 0 "" "name=a") /\
  chooses_no_cluster (search_parts (str "name=a")) /\ ~ bad_advanced (search_parts (str "name=a")) /\ legal_value (cf_default ex_cf) /\
  answer_ids (ex_answer ex_cf [] (pg 0 0 "" "name=a")) = Some (0%Z, [str "default/a"]) /\
  ~ legal_value (cf_default bad_cf) /\
  answer_ids (ex_answer bad_cf [] (pg 0 0 "" "")) = Some (0%Z, [str "default/a"; str "default/b"; str "default/a"]).
Proof.
  split; [eexists; vm_compute; reflexivity|]. change (search_parts (str "name=a")) with [str "name=a"].
  assert (forall pre text post, [str "name=a"] <> pre ++ (str "__ckube_as__:" ++ text) :: post) as Hn.
  { intros pre text post H. destruct pre as [|x [|]]; cbn in H; congruence. }
  split; [intros pre text post ls H; by destruct (Hn pre text post)|].
  split; [intros (pre & text & post & H & _); by destruct (Hn pre text post)|].
  split; [apply valid_value_legal; by vm_compute|]. split; [vm_compute; reflexivity|].
  split; [rewrite <- valid_value_legal; by vm_compute|vm_compute; reflexivity].
Qed.
(** Finding: an advanced part that ends in a white space which the selector syntax does not know
    is no selector for the choice of clusters, but one for the match; the default cluster is not added. *)
Definition cluster_annos (items : list obj) : list (option gostr) :=
  map (fun o => match o with OKube k => k_annos k !! str "ckube.doacloud.io/cluster" | ORaw _ => None end) items.
Theorem C35_white_space_refuted : exists r p labels api kind path rem items,
  list_request ex_conf r p labels /\ chooses_no_cluster (search_parts (pg_search p)) /\
  cf_default ex_cf = c1 /\ legal_value c1 /\
  proxy ex_env ex_cf ∅ ex_store r (AList api kind path rem items) /\ cluster_annos items = [Some c1; Some c2].
Proof.
  set (p := Paginate 0 0 0 [] (str "__ckube_as__:name=a" ++ ["011"%char])).
  destruct (ex_proxy ex_cf [] p) as (labels & Hreq & Hpr); [eexists; vm_compute; reflexivity|].
  assert (match ex_answer ex_cf [] p with AList _ _ _ _ items => cluster_annos items = [Some c1; Some c2] | _ => False end) as Hi by (vm_compute; reflexivity).
  destruct (ex_answer ex_cf [] p) as [| |api kind path rem items| | | |]; try done.
  exists (ex_lreq [] p), p, labels, api, kind, path, rem, items.
  split; [done|]. split.
  { intros pre text post ls H Hpre Hp. assert (search_parts (pg_search p) = [str "__ckube_as__:" ++ str "name=a" ++ ["011"%char]]) as Hsp by reflexivity.
    rewrite Hsp in H. destruct pre as [|x [|]]; try by (apply (f_equal length) in H; cbn in H; lia).
    apply (f_equal (hd [])) in H; cbn [app hd] in H; apply (app_inv_head (str "__ckube_as__:") (str "name=a" ++ ["011"%char]) text) in H; rewrite <- H in *; clear H. by vm_compute in Hp. }
  split; [done|]. split; [apply valid_value_legal; by vm_compute|]. done.
Qed.
Print Assumptions C35_white_space_refuted.
Example C52_ex : ex_parsed [] (pg 0 0 "" ";;x") /\ search_parts (str ";;x") = [";"%char :: str "x"] /\
  paginate_match (fun _ => true) (str ";;x") {[ str "name" := str "a;x" ]} = Some true /\
  ex_answer ex_cf [] (pg 0 0 "" ";;x") = AStatus 400 (str "query error").
Proof. split; [eexists; vm_compute; reflexivity|]. repeat split; vm_compute; reflexivity. Qed.
(** A selection of cluster c2 finds the object only when written with "in" at the start of a part. *)
Example C53_ex :
  Forall (fun s => ex_parsed [] (pg 0 0 "" s)) ["__ckube_as__:cluster in (c2)"; "__ckube_as__:cluster=c2"; "name=a; __ckube_as__:cluster in (c2)"] /\
  answer_ids (ex_answer ex_cf [] (pg 0 0 "" "__ckube_as__:cluster in (c2)")) = Some (0%Z, [str "default/a"]) /\
  answer_ids (ex_answer ex_cf [] (pg 0 0 "" "__ckube_as__:cluster=c2")) = Some (0%Z, []) /\
  answer_ids (ex_answer ex_cf [] (pg 0 0 "" "name=a; __ckube_as__:cluster in (c2)")) = Some (0%Z, []).
Proof.
  split; [repeat constructor; eexists; vm_compute; reflexivity|]. repeat split; vm_compute; reflexivity.
Qed.
(** Finding: the second advanced part is dropped with the default cluster, so b is listed. *)
Theorem C53_second_part_dropped_refuted : exists p m p1,
  chooses_no_cluster (search_parts (pg_search p)) /\ effective ex_cf p p1 /\
  paginate_match (fun _ => true) (pg_search p) m = Some false /\ paginate_match (fun _ => true) (pg_search p1) m = Some true.
Proof.
  set (p := pg 0 0 "" "__ckube_as__:kind=pod;__ckube_as__:name=a"). set (m := {[ str "name" := str "b"; str "kind" := str "pod"; str "cluster" := c1 ]} : gmap gostr gostr).
  exists p, m, (set_clusters p [c1]).2.
  assert (search_parts (pg_search p) = [str "__ckube_as__:kind=pod"; str "__ckube_as__:name=a"]) as Hsp by reflexivity.
  assert (chooses_no_cluster (search_parts (pg_search p))) as Hno.
  { rewrite Hsp. intros pre text post ls H Hpre Hp. destruct pre as [|x pre].
    - apply (f_equal (hd [])) in H; cbn [app hd] in H; apply (app_inv_head (str "__ckube_as__:") (str "kind=pod") text) in H; rewrite <- H in *; clear H. vm_compute in Hp. injection Hp as <-. by intros e ?%elem_of_nil.
    - exfalso. injection H as Hx _. apply (Hpre x); [left|]. exists (str "kind=pod"). by rewrite <- Hx. }
  split; [done|]. split; [apply effective_default; by apply no_cluster_get|]. split; vm_compute; reflexivity.
Qed.
Print Assumptions C53_second_part_dropped_refuted.
Example C58_ex : query_list_options (str "x!=1") (pg 2 1 "name desc" "") =
  Some (str "ckube.daocloud.io/query notin (0000.eyJwYWdlIjoyLCJwYWdlX3NpemUiOjEsInNvcnQiOiJuYW1lIGRlc2Mi,0056.fQ),x notin (1)") /\
  parse_to_label_selector (str "x!=1") = Some (LSel ∅ [LReq (str "x") LNotIn [str "1"]]).
Proof. split; vm_compute; reflexivity. Qed.
