(** C06-C09, C12, C16: label selectors and advanced search. *)
From Coq Require Import Ascii String NArith ZArith Lia.
From stdpp Require Import base gmap strings list sorting.
From Verif Require Import ModelStr ModelSort ProofsSort ProofsStr ModelLabels SpecLabels ProofsLabels ProofsParse
  ModelPage SpecPage ProofsPage ProofsSel PropsSearch.

(** ** C12 *)
(** [as_selector ls <> None]: Kubernetes accepts the selector. *)
Theorem C12_selector_print_parse (ls : lsel) :
  as_selector ls <> None -> (mlabels ls <> ∅ \/ mexprs ls <> []) ->
  (forall e, e ∈ mexprs ls -> ~ odd_empties (lvals e)) ->
  exists s ls', format_selector ls = Some s /\ parse_to_label_selector s = Some ls' /\
    same_sel ls' ls /\ forall m, sel_holds m ls' <-> sel_holds m ls.
Proof.
  intros Ha Hne Hodd. destruct (as_selector ls) as [rs0|] eqn:E; [|done].
  apply as_selector_some in E as [_ Hok].
  destruct (format_parse ls Hok Hodd Hne) as (rs & es & _ & _ & _ & Hf & Hp & HP).
  exists (fmt_reqs rs), (LSel (mlabels ls) es). split; [done|]. split; [done|].
  assert (same_sel (LSel (mlabels ls) es) ls) as Hs.
  { split; [done|]. destruct (perm_normE _ _ HP) as (l' & HP' & HF). exists l'. done. }
  split; [done|]. intros m. by apply same_sel_holds.
Qed.
Print Assumptions C12_selector_print_parse.
(** The order in which Go iterates over MatchLabels does not show in the printed text. *)
Theorem C12_map_order_irrelevant (ls : lsel) (ml : list (gostr * gostr)) :
  ml ≡ₚ map_to_list (mlabels ls) -> as_selector_from ml (mexprs ls) = as_selector ls.
Proof.
  intros HP. unfold as_selector. apply as_selector_order_irrelevant; [|done].
  rewrite HP. apply NoDup_fst_map_to_list.
Qed.
Example C12_ex :
  let ls := LSel {[str "app" := str "web"]} [LReq (str "tier") LNotIn [str "b"; str "a"; str "b"]; LReq (str "x.y/z") LNotExists []] in
  format_selector ls = Some (str "app=web,tier notin (a,b,b),!x.y/z") /\
  parse_to_label_selector (str "app=web,tier notin (a,b,b),!x.y/z") =
    Some (LSel {[str "app" := str "web"]} [LReq (str "tier") LNotIn [str "a"; str "b"]; LReq (str "x.y/z") LNotExists []]).
Proof. by vm_compute. Qed.
(** Finding: three empty values print as "k in (,,)", which does not parse. *)
Theorem C12_odd_empty_values_refuted : exists ls s,
  format_selector ls = Some s /\ parse_to_label_selector s = None.
Proof.
  exists (LSel ∅ [LReq (str "k") LIn [[]; []; []]]), (str "k in (,,)"). by vm_compute.
Qed.

(** ** C16 *)
Theorem C16_parse_keeps_meaning (s : gostr) (rs : list req) :
  parse_to_requirements s = Some rs ->
  (forall r, r ∈ rs -> rop r <> OGt /\ rop r <> OLt) -> eq_keys_distinct rs ->
  exists ls, parse_to_label_selector s = Some ls /\
    forall m, sel_holds m ls <-> forall r, r ∈ rs -> req_holds m r.
Proof. apply parse_meaning. Qed.
Theorem C16_parse_fails_iff (s : gostr) :
  parse_to_label_selector s = None <->
  parse_to_requirements s = None \/
  exists rs, parse_to_requirements s = Some rs /\ exists r, r ∈ rs /\ (rop r = OGt \/ rop r = OLt).
Proof. apply parse_label_none. Qed.
(** For text in the usual form the requirements are the ones written. *)
Theorem C16_written_requirements (rs : list req) :
  Forall printable_req rs -> rs <> [] ->
  exists rs', parse_to_requirements (fmt_reqs rs) = Some rs' /\
    forall m, (forall r, r ∈ rs' -> req_holds m r) <-> (forall r, r ∈ rs -> req_holds m r).
Proof.
  intros HF Hne. eexists. split; [by apply parse_fmt|]. intros m.
  setoid_rewrite gosort_elem. setoid_rewrite elem_of_list_fmap.
  assert (forall r, req_holds m (norm r) <-> req_holds m r) as Hn.
  { intros r. unfold req_holds, norm. cbn [rop rkey rvals]. destruct (rop r); try setoid_rewrite set_list_elem; done. }
  split; [intros H r Hr; apply Hn, H; eauto | intros H r (x & -> & Hx); apply Hn; auto].
Qed.
Print Assumptions C16_parse_keeps_meaning.
Print Assumptions C16_parse_fails_iff.
Print Assumptions C16_written_requirements.
Theorem C16_repeated_equality_refuted : exists s rs ls m,
  parse_to_requirements s = Some rs /\ parse_to_label_selector s = Some ls /\
  sel_holds m ls /\ ~ forall r, r ∈ rs -> req_holds m r.
Proof.
  exists (str "a=1,a=2"), [Req (str "a") OEq [str "1"]; Req (str "a") OEq [str "2"]], (LSel (<[str "a" := str "2"]> {[str "a" := str "1"]}) []),
    {[str "a" := str "2"]}.
  split; [by vm_compute|]. split; [by vm_compute|]. split.
  - rewrite insert_singleton. split; [done|]. intros e He. by apply elem_of_nil in He.
  - intros H. destruct (H (Req (str "a") OEq [str "1"])) as (v & Hv & Hin); [set_solver|].
    simpl in *. rewrite lookup_singleton in Hv. injection Hv as <-. apply elem_of_list_singleton in Hin. done.
Qed.
Example C16_ex : parse_to_requirements (str " a = 1 ,b!=2, c notin (x, y),!d,e") =
  Some [Req (str "a") OEq [str "1"]; Req (str "b") ONe [str "2"]; Req (str "c") ONotIn [str "x"; str "y"];
        Req (str "d") ONotExists []; Req (str "e") OExists []].
Proof. by vm_compute. Qed.
Example C16_ex_fail : parse_to_label_selector (str "a>1") = None /\ parse_to_label_selector (str "a in x") = None.
Proof. by vm_compute. Qed.

(** ** C06 *)
Theorem C06_advanced_search (uprint : N -> bool) m vals (part sel : gostr) (rs : list req) :
  trim_space part = str "__ckube_as__:" ++ sel -> sel <> [] ->
  parse_to_requirements sel = Some rs ->
  (forall r, r ∈ rs -> rop r <> OGt /\ rop r <> OLt) -> eq_keys_distinct rs ->
  exists b, match_one_from uprint m vals part = Some b /\ (b = true <-> forall r, r ∈ rs -> req_holds m r).
Proof.
  intros E Hne Hp Hc Hd. destruct (parse_meaning sel rs Hp Hc Hd) as (ls & Hls & Hm).
  destruct (match_adv_sel uprint m vals part sel ls E Hne Hls) as (b & Hb & Hbt).
  exists b. split; [done|]. by rewrite Hbt.
Qed.
Theorem C06_invalid_selector_is_error (uprint : N -> bool) m vals (part sel : gostr) :
  trim_space part = str "__ckube_as__:" ++ sel ->
  (match_one_from uprint m vals part = None <-> sel = [] \/ parse_to_label_selector sel = None).
Proof.
  intros E. destruct (decide (sel = [])) as [->|Hne].
  - rewrite (match_adv uprint m vals part [] E). simpl. naive_solver.
  - destruct (parse_to_label_selector sel) as [ls|] eqn:Hls.
    + destruct (match_adv_sel uprint m vals part sel ls E Hne Hls) as (b & Hb & _). rewrite Hb. naive_solver.
    + rewrite (match_adv uprint m vals part sel E), Hls.
      destruct (str_eqb sel []); naive_solver.
Qed.
Print Assumptions C06_advanced_search.
Print Assumptions C06_invalid_selector_is_error.
Theorem C06_repeated_equality_refuted : exists m,
  match_one (fun _ => true) m (str "__ckube_as__:a=1,a=2") = Some true /\ m !! str "a" <> Some (str "1").
Proof. exists {[str "a" := str "2"]}. split; [by vm_compute|]. by vm_compute. Qed.
Example C06_ex : match_one (fun _ => true) ex_index (str "__ckube_as__:cluster in (c1, c2),name!=x,!foo") = Some true /\
  match_one (fun _ => true) ex_index (str "__ckube_as__:cluster notin (c1)") = Some false /\
  match_one (fun _ => true) ex_index (str "__ckube_as__:cluster in (c1") = None.
Proof. by vm_compute. Qed.

(** ** C07, C08 *)
(** The structured selector of the old search: at most one advanced part, [ls] its meaning. *)
Definition old_selector (parts : list gostr) (ls : lsel) : Prop :=
  (forall q, q ∈ parts -> ~ is_adv q) /\ ls = empty_sel \/
  exists pre text post, parts = pre ++ (str "__ckube_as__:" ++ text) :: post /\
    (forall q, q ∈ pre ++ post -> ~ is_adv q) /\
    (text = [] /\ ls = empty_sel \/ text <> [] /\ parse_to_label_selector text = Some ls).
Lemma is_adv_prefix q : is_adv q <-> has_prefix adv_prefix q = true.
Proof. unfold is_adv. by rewrite has_prefix_true. Qed.
Lemma adv_parts_none ps : (forall q, q ∈ ps -> ~ is_adv q) -> adv_parts ps = [].
Proof.
  intros H. destruct (adv_parts ps) as [|q l] eqn:E; [done|].
  assert (In q (adv_parts ps)) as Hin by (rewrite E; by left). unfold adv_parts in Hin.
  apply filter_In in Hin as [Hin Hq]. destruct (H q); [by apply elem_of_list_In|by apply is_adv_prefix].
Qed.
Lemma old_selector_spec search ls : old_selector (search_parts search) ls -> search_selector search = Some ls.
Proof.
  intros [[H ->]|(pre & text & post & E & H & Hls)]; rewrite search_selector_spec.
  - by rewrite adv_parts_none.
  - rewrite E. unfold adv_parts. rewrite List.filter_app. cbn [List.filter].
    change (str "__ckube_as__:") with adv_prefix. rewrite has_prefix_app.
    assert (List.filter (has_prefix adv_prefix) pre = []) as ->.
    { apply adv_parts_none. intros q Hq. apply H. set_solver. }
    cbn [app]. rewrite drop_app. destruct Hls as [[-> ->]|[Hne Hp]]; [done|]. by destruct text.
Qed.
Lemma elem_of_other q parts : q ∈ other_parts parts <-> q ∈ parts /\ ~ is_adv q.
Proof.
  unfold other_parts. rewrite elem_of_list_In, filter_In, <- elem_of_list_In, negb_true_iff.
  rewrite is_adv_prefix, not_true_iff_false. done.
Qed.

(** The new search after restricting [key] to [vals]. *)
Definition restricted (uprint : N -> bool) (p p' : paginate) (ls : lsel) (key : gostr) (vals : list gostr) : Prop :=
  pg_page p' = pg_page p /\ pg_size p' = pg_size p /\ pg_total p' = pg_total p /\ pg_sort p' = pg_sort p /\
  forall m : gmap gostr gostr,
  (paginate_match uprint (pg_search p') m = Some true <->
     (exists v, m !! key = Some v /\ v ∈ vals) /\
     (forall k v, mlabels ls !! k = Some v -> m !! k = Some v) /\
     (forall e, e ∈ mexprs ls -> lkey e <> key -> lreq_holds m e) /\
     (forall q, q ∈ search_parts (pg_search p) -> ~ is_adv q ->
        paginate_match uprint (join_parts [q]) m = Some true)) /\
  (paginate_match uprint (pg_search p') m = None <->
     exists q, q ∈ search_parts (pg_search p) /\ ~ is_adv q /\ paginate_match uprint (join_parts [q]) m = None).
Lemma restricted_proof uprint p p' ls key vals :
  old_selector (search_parts (pg_search p)) ls ->
  (forall q r, q ∈ search_parts (pg_search p) -> q <> ";"%char :: r) ->
  valid_key key = true -> ~ odd_empties vals ->
  set_search_selector p (restrict key vals ls) = Some p' ->
  restricted uprint p p' ls key vals /\
  exists ls', search_selector (pg_search p') = Some ls' /\ first_expr key (mexprs ls') = set_list vals.
Proof.
  intros Hold%old_selector_spec Hsemi Hk Hodd Hset.
  destruct (search_selector_ok _ _ Hold) as [Hok _].
  assert (sel_ok (restrict key vals ls)) as Hr. { apply (set_search_some_iff p). eauto. }
  apply restrict_ok in Hr as [Hne Hv]; [|done|done].
  assert (forall q r, q ∈ other_parts (search_parts (pg_search p)) -> q <> ";"%char :: r) as Hsemi'.
  { intros q r [Hq _]%elem_of_other. by apply Hsemi. }
  split; [|by eapply get_after].
  destruct (set_search_some _ _ _ Hset) as [s Es].
  assert (forall m : gmap gostr gostr, (forall q, q ∈ other_parts (search_parts (pg_search p)) -> match_one uprint m q = Some true) <->
    forall q, q ∈ search_parts (pg_search p) -> ~ is_adv q -> paginate_match uprint (join_parts [q]) m = Some true) as Hoth.
  { intros m. setoid_rewrite elem_of_other. split; intros H q.
    - intros Hq Ha. rewrite match_alone by (by eapply search_parts_nonempty). by apply H.
    - intros [Hq Ha]. rewrite <- match_alone by (by eapply search_parts_nonempty). by apply H. }
  split; [by rewrite Es|]. split; [by rewrite Es|]. split; [by rewrite Es|]. split; [by rewrite Es|]. intros m.
  destruct (restrict_match uprint p key vals ls p' m Hk Hold Hne Hv Hodd Hsemi' Hset) as [H1 H2]. split.
  - rewrite H1, Hoth, restrict_holds, <- !(assoc and). done.
  - rewrite H2. setoid_rewrite elem_of_other. split.
    + intros (q & [Hq Ha] & H). exists q. rewrite match_alone by (by eapply search_parts_nonempty). done.
    + intros (q & Hq & Ha & H). exists q. rewrite match_alone in H by (by eapply search_parts_nonempty). done.
Qed.

Theorem C07_clusters (uprint : N -> bool) (p p' : paginate) (ls : lsel) (css : list gostr) :
  old_selector (search_parts (pg_search p)) ls ->
  (forall q r, q ∈ search_parts (pg_search p) -> q <> ";"%char :: r) ->
  set_clusters p css = (false, p') ->
  restricted uprint p p' ls (str "cluster") css /\
  StronglySorted str_le (get_clusters (pg_search p')) /\ NoDup (get_clusters (pg_search p')) /\
  same_set (get_clusters (pg_search p')) css.
Proof.
  intros Hold Hsemi Hset. unfold set_clusters in Hset. rewrite (old_selector_spec _ _ Hold) in Hset.
  destruct (existsb (fun c => str_eqb c []) css) eqn:Ee; [done|].
  destruct (set_search_selector p (restrict (str "cluster") css ls)) as [p2|] eqn:E; [|done]. injection Hset as <-.
  assert (~ odd_empties css) as Hodd.
  { intros [n ->]. done. }
  destruct (restricted_proof uprint p p2 ls (str "cluster") css Hold Hsemi ltac:(by vm_compute) Hodd E)
    as [Hr (ls' & Hls' & Hfe)].
  split; [done|]. unfold get_clusters. rewrite Hls', Hfe. split; [apply set_list_sorted|].
  split; [apply set_list_NoDup|]. intros x. apply set_list_elem.
Qed.
Print Assumptions C07_clusters.
Theorem C08_namespaces (uprint : N -> bool) (p p' : paginate) (ls : lsel) (nss : list gostr) :
  old_selector (search_parts (pg_search p)) ls ->
  (forall q r, q ∈ search_parts (pg_search p) -> q <> ";"%char :: r) ->
  ~ odd_empties nss ->
  set_namespaces p nss = (false, p') ->
  restricted uprint p p' ls (str "namespace") nss.
Proof.
  intros Hold Hsemi Hodd Hset. unfold set_namespaces in Hset. rewrite (old_selector_spec _ _ Hold) in Hset.
  destruct (set_search_selector p (restrict (str "namespace") nss ls)) as [p2|] eqn:E; [|done]. injection Hset as <-.
  by destruct (restricted_proof uprint p p2 ls (str "namespace") nss Hold Hsemi ltac:(by vm_compute) Hodd E).
Qed.
Print Assumptions C08_namespaces.
Definition ex_pg (s : gostr) : paginate := Paginate 1 10 0 (str "name") s.
Example C07_ex : set_clusters (ex_pg (str "name=ng;__ckube_as__:a=1,cluster in (z)")) [str "c2"; str "c1"; str "c2"] =
  (false, ex_pg (str "__ckube_as__:a=1,cluster in (c1,c2,c2);name=ng")) /\
  get_clusters (str "__ckube_as__:a=1,cluster in (c1,c2,c2);name=ng") = [str "c1"; str "c2"].
Proof. by vm_compute. Qed.
Example C07_ex_hyp : exists ls, old_selector (search_parts (str "name=ng;__ckube_as__:a=1,cluster in (z)")) ls.
Proof.
  exists (LSel {[str "a" := str "1"]} [LReq (str "cluster") LIn [str "z"]]). right.
  exists [str "name=ng"], (str "a=1,cluster in (z)"), []. split; [by vm_compute|]. split.
  - intros q. cbn [app]. intros ->%elem_of_list_singleton [sel E]. done.
  - right. split; [done|]. by vm_compute.
Qed.
(** Finding: a second advanced part is lost. *)
Theorem C07_second_advanced_part_lost_refuted : exists p p' m,
  set_clusters p [str "c1"] = (false, p') /\
  paginate_match (fun _ => true) (pg_search p) m = Some false /\
  paginate_match (fun _ => true) (pg_search p') m = Some true.
Proof.
  exists (ex_pg (str "__ckube_as__:a=1;__ckube_as__:b=1")), (ex_pg (str "__ckube_as__:a=1,cluster in (c1)")),
    (<[str "cluster" := str "c1"]> {[str "a" := str "1"]}). by vm_compute.
Qed.
(** Finding: a part starting with a literal ';' is torn apart. *)
Theorem C07_leading_semicolon_refuted : exists p p' m,
  set_clusters p [str "c1"] = (false, p') /\
  m !! str "cluster" = Some (str "c1") /\
  paginate_match (fun _ => true) (pg_search p) m = Some true /\
  paginate_match (fun _ => true) (pg_search p') m <> Some true.
Proof.
  exists (ex_pg (str ";;x")), (ex_pg (str "__ckube_as__:cluster in (c1);;;x")),
    (<[str "cluster" := str "c1"]> {[str "a" := str ";x"]}). by vm_compute.
Qed.
(** Finding: three empty namespaces give a search that never parses. *)
Theorem C08_odd_empty_namespaces_refuted : exists p p',
  set_namespaces p [[]; []; []] = (false, p') /\ forall m, paginate_match (fun _ => true) (pg_search p') m = None.
Proof.
  exists (ex_pg []), (ex_pg (str "__ckube_as__:namespace in (,,)")). split; [by vm_compute|].
  intros m. unfold paginate_match. assert (search_parts (str "__ckube_as__:namespace in (,,)") = [str "__ckube_as__:namespace in (,,)"]) as E by (by vm_compute).
  cbn [pg_search ex_pg]. rewrite E. cbn [match_parts]. unfold match_one.
  rewrite (match_adv _ m _ _ (str "namespace in (,,)")) by (by vm_compute). by vm_compute.
Qed.

(** ** C09 *)
Lemma valid_value_legal v : valid_value v = true <-> legal_value v.
Proof.
  assert (forall c, is_alnum c = true <-> letter_digit c) as Ha.
  { intros c. unfold is_alnum, is_digit, is_lower, is_upper, between, letter_digit.
    rewrite !orb_true_iff, !andb_true_iff, !N.leb_le. tauto. }
  assert (forall c, is_ext c = true <-> label_char c) as He.
  { intros c. unfold is_ext, label_char. rewrite !orb_true_iff, !ch_eqb_eq, Ha. tauto. }
  unfold valid_value, legal_value. rewrite andb_true_iff, Nat.leb_le.
  assert ((match v with [] => true | _ => qname_re v end) = true <->
    Forall label_char v /\ (forall c r, v = c :: r -> letter_digit c) /\ (forall c r, v = r ++ [c] -> letter_digit c)) as ->; [|tauto].
  destruct v as [|c v].
  - split; [|done]. intros _. split; [constructor|]. split; [done|]. intros c r E. by destruct r.
  - unfold qname_re. rewrite !andb_true_iff, forallb_In. cbn [head_is].
    assert (Forall (fun x => is_ext x = true) (c :: v) <-> Forall label_char (c :: v)) as ->.
    { split; intros H; (eapply Forall_impl; [exact H|]); intros x; apply He. }
    rewrite Ha.
    assert (last_is is_alnum (c :: v) = true <-> forall d r, c :: v = r ++ [d] -> letter_digit d) as ->.
    { unfold last_is. destruct (c :: v) as [|d l _] eqn:E using rev_ind; [done|]. rewrite last_snoc, Ha. split.
      - intros H d' r Hd. apply app_inj_tail in Hd as [_ <-]. done.
      - intros H. by eapply H. }
    split; [|naive_solver]. intros [[H1 H2] H3]. split; [done|]. split; [|done]. by intros ? ? [= <- <-].
Qed.
(** The first advanced part does not parse. *)
Definition bad_advanced (parts : list gostr) : Prop :=
  exists pre text post, parts = pre ++ (str "__ckube_as__:" ++ text) :: post /\
    (forall q, q ∈ pre -> ~ is_adv q) /\ text <> [] /\ parse_to_label_selector text = None.
Lemma bad_advanced_spec search : bad_advanced (search_parts search) <-> search_selector search = None.
Proof.
  rewrite search_selector_spec. split.
  - intros (pre & text & post & E & H & Hne & Hp). rewrite E. unfold adv_parts. rewrite List.filter_app. cbn [List.filter].
    change (str "__ckube_as__:") with adv_prefix. rewrite has_prefix_app.
    assert (List.filter (has_prefix adv_prefix) pre = []) as ->. { by apply adv_parts_none. }
    cbn [app]. rewrite drop_app. by destruct text.
  - generalize (search_parts search). intros l. induction l as [|q l IH]; [done|].
    unfold adv_parts. cbn [List.filter]. destruct (has_prefix adv_prefix q) eqn:Eq.
    + intros H. apply has_prefix_true in Eq as [text ->]. rewrite drop_app in H.
      exists [], text, l. split; [done|]. split; [by intros q Hq%elem_of_nil|]. by destruct text.
    + intros (pre & text & post & -> & Hpre & Hne & Hp)%IH. exists (q :: pre), text, post.
      split; [done|]. split; [|done]. intros x [->|Hx]%elem_of_cons; [|by apply Hpre].
      rewrite is_adv_prefix. congruence.
Qed.
Lemma restrict_fails p key vals ls : valid_key key = true -> search_selector (pg_search p) = Some ls ->
  set_search_selector p (restrict key vals ls) = None <-> vals = [] \/ exists v, v ∈ vals /\ ~ legal_value v.
Proof.
  intros Hk Hls. destruct (search_selector_ok _ _ Hls) as [Hok _].
  pose proof (restrict_ok key vals ls Hk Hok) as Hr. rewrite <- (set_search_some_iff p) in Hr.
  assert (Forall (fun v => valid_value v = true) vals \/ exists v, v ∈ vals /\ valid_value v = false) as Hd.
  { clear. induction vals as [|v vals [IH|(w & Hw & IH)]]; [by left| |right; exists w; set_solver].
    destruct (valid_value v) eqn:E; [left; by constructor|right; exists v; set_solver]. }
  setoid_rewrite <- valid_value_legal. split.
  - intros H. destruct vals as [|v vals]; [by left|]. right.
    destruct Hd as [Hd|(w & Hw & Hd)]; [|exists w; split; [done|congruence]].
    destruct Hr as [_ Hr]. destruct Hr as [p' Hr]; [done|]. congruence.
  - intros H. destruct (set_search_selector p (restrict key vals ls)) as [p'|] eqn:E; [|done].
    destruct Hr as [Hr _]. destruct Hr as [Hn Hf]; [eauto|]. destruct H as [?|(v & Hv & H)]; [done|].
    rewrite Forall_forall in Hf. by destruct (H (Hf v Hv)).
Qed.
Theorem C09_clusters_fail (p : paginate) (css : list gostr) :
  ((set_clusters p css).1 = true <->
     bad_advanced (search_parts (pg_search p)) \/ css = [] \/ exists c, c ∈ css /\ (c = [] \/ ~ legal_value c)) /\
  ((set_clusters p css).1 = true -> (set_clusters p css).2 = p).
Proof.
  rewrite bad_advanced_spec. unfold set_clusters.
  destruct (search_selector (pg_search p)) as [ls|] eqn:Els; [|simpl; naive_solver].
  destruct (existsb (fun c => str_eqb c []) css) eqn:Ee.
  - cbn [fst snd]. split; [|done]. split; [|done]. intros _. right. right.
    apply existsb_exists in Ee as (c & Hc & E%str_eqb_eq). exists c. rewrite elem_of_list_In. naive_solver.
  - pose proof (restrict_fails p (str "cluster") css ls ltac:(by vm_compute) Els) as Hf.
    assert (forall c, c ∈ css -> c <> []) as Hne.
    { intros c Hc ->. assert (existsb (fun c => str_eqb c []) css = true); [|congruence].
      apply existsb_exists. exists []. split; [by apply elem_of_list_In|done]. }
    destruct (set_search_selector p (restrict (str "cluster") css ls)) as [p'|] eqn:E; cbn [fst snd].
    + split; [|done]. split; [done|]. intros [?|[?|(c & Hc & [->|Hl])]]; [done| | |].
      * destruct Hf as [_ Hf]. discriminate Hf. by left.
      * by destruct (Hne [] Hc).
      * destruct Hf as [_ Hf]. discriminate Hf. right. eauto.
    + split; [|done]. split; [|done]. intros _. right. destruct Hf as [Hf _].
      destruct (Hf eq_refl) as [?|(v & ? & ?)]; [by left|]. right. exists v. auto.
Qed.
Theorem C09_namespaces_fail (p : paginate) (nss : list gostr) :
  ((set_namespaces p nss).1 = true <->
     bad_advanced (search_parts (pg_search p)) \/ nss = [] \/ exists c, c ∈ nss /\ ~ legal_value c) /\
  ((set_namespaces p nss).1 = true -> (set_namespaces p nss).2 = p).
Proof.
  rewrite bad_advanced_spec. unfold set_namespaces.
  destruct (search_selector (pg_search p)) as [ls|] eqn:Els; [|simpl; naive_solver].
  pose proof (restrict_fails p (str "namespace") nss ls ltac:(by vm_compute) Els) as Hf.
  destruct (set_search_selector p (restrict (str "namespace") nss ls)) as [p'|] eqn:E; cbn [fst snd].
  - split; [|done]. split; [done|]. intros [?|H]; [done|]. destruct Hf as [_ Hf]. discriminate (Hf H).
  - split; [|done]. split; [|done]. intros _. right. by apply Hf.
Qed.
Print Assumptions C09_clusters_fail.
Print Assumptions C09_namespaces_fail.
Example C09_ex : (set_clusters (ex_pg (str "__ckube_as__:a in (")) [str "c1"]).1 = true /\
  (set_clusters (ex_pg []) [str "kubernetes-admin@kubernetes"]).1 = true /\
  (set_clusters (ex_pg (str "a=1")) [str "c1"]).1 = false.
Proof. by vm_compute. Qed.
