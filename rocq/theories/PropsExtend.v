(** C44, C51: the services of a deployment. *)
From Coq Require Import Ascii String NArith ZArith Lia.
From stdpp Require Import base gmap strings list sorting.
From Verif Require Import ModelStr ModelSort ModelLabels SpecLabels ModelPage ModelJson ModelStore ModelProxy ModelExtend
  SpecPage SpecStore SpecExtend ProofsStr ProofsLabels ProofsParse ProofsPage ProofsQuote ProofsSel ProofsSemi ProofsB64 ProofsSort ProofsStore ProofsQueryStore ProofsIndex ProofsListing
  PropsSearch PropsSelector PropsStore PropsStore3 ProofsExtend.

Local Notation semi := ";"%char.
(** ** C51 *)
Theorem C51_subset (sub parent : gmap gostr gostr) order : order ≡ₚ map_to_list sub ->
  subset_loop order parent = true <-> forall k v, sub !! k = Some v -> parent !! k = Some v.
Proof. apply subset_map. Qed.
Print Assumptions C51_subset.
Example C51_ex : let app := {[ str "app" := str "web" ]} : gmap gostr gostr in
  let both := <[str "tier" := str "front"]> app in
  subset_loop (map_to_list app) both = true /\ subset_loop (map_to_list both) app = false /\ subset_loop [] app = true /\
  subset_loop (map_to_list app) {[ str "app" := str "db" ]} = false.
Proof. vm_compute. done. Qed.

(** ** C44 *)
(** The types pods and services of the core group. *)
Definition pods_type : gvr := ([], str "v1", str "pods").
Definition services_type : gvr := ([], str "v1", str "services").
Lemma name_char_ok c : name_char c -> okc c = true /\ visible c /\ plain c /\ c <> "!"%char.
Proof.
  intros H. assert (negb (ch_eqb c semi) && negb (is_nul c) && (33 <=? code c)%N && (code c <=? 126)%N &&
    negb (code c =? 34)%N && negb (code c =? 92)%N && negb (ch_eqb c "!"%char) = true) as Hb.
  { pose proof (all_bytes (fun c => negb (((97 <=? code c)%N && (code c <=? 122)%N) || ((48 <=? code c)%N && (code c <=? 57)%N) || ch_eqb c "-"%char || ch_eqb c "."%char) ||
      (negb (ch_eqb c semi) && negb (is_nul c) && (33 <=? code c)%N && (code c <=? 126)%N && negb (code c =? 34)%N && negb (code c =? 92)%N && negb (ch_eqb c "!"%char)))) as Ha.
    specialize (Ha ltac:(vm_compute; reflexivity) c). cbn beta in Ha.
    apply orb_true_iff in Ha as [Ha|Ha]; [|exact Ha]. exfalso. apply negb_true_iff in Ha. apply not_true_iff_false in Ha. apply Ha.
    rewrite !orb_true_iff, !andb_true_iff, !N.leb_le, !ch_eqb_eq. unfold name_char in H. tauto. }
  rewrite !andb_true_iff, !negb_true_iff, !N.leb_le, !N.eqb_neq in Hb. destruct Hb as [[[[[[H1 H2] H3] H4] H5] H6] H7].
  unfold okc, visible, plain. rewrite H1, H2. split_and!; try done; try lia. intros ->. rewrite (proj2 (ch_eqb_eq _ _) eq_refl) in H7. done.
Qed.
(** Adding one legal cluster to a search without advanced parts. *)
Lemma cluster_search (E : env) (p : paginate) (c : gostr) (P : gmap gostr gostr -> Prop) : c <> [] -> legal_value c ->
  (forall q, q ∈ search_parts (pg_search p) -> has_prefix adv_prefix q = false /\ forall r, q <> ";"%char :: r) ->
  (forall m, is_Some (m !! str "name") -> (forall q, q ∈ search_parts (pg_search p) -> match_one (e_print E) m q <> None) /\
     ((forall q, q ∈ search_parts (pg_search p) -> match_one (e_print E) m q = Some true) <-> P m)) ->
  let p' := (set_clusters p [c]).2 in pg_size p' = pg_size p /\ pg_sort p' = pg_sort p /\
  forall m, is_Some (m !! str "name") -> paginate_match (e_print E) (pg_search p') m <> None /\
    (paginate_match (e_print E) (pg_search p') m = Some true <-> m !! str "cluster" = Some c /\ P m).
Proof.
  intros Hne Hleg Hparts HP. assert (search_selector (pg_search p) = Some empty_sel) as Hls.
  { rewrite search_selector_spec. assert (adv_parts (search_parts (pg_search p)) = []) as ->; [|done].
    unfold adv_parts. clear HP. induction (search_parts (pg_search p)) as [|q l IH]; [done|]. cbn [List.filter].
    destruct (Hparts q (elem_of_list_here _ _)) as [-> _]. apply IH. intros q' Hq'. apply Hparts. by right. }
  assert (other_parts (search_parts (pg_search p)) = search_parts (pg_search p)) as Hot.
  { unfold other_parts. clear HP Hls. induction (search_parts (pg_search p)) as [|q l IH]; [done|]. cbn [List.filter].
    destruct (Hparts q (elem_of_list_here _ _)) as [-> _]. cbn [negb]. f_equal. apply IH. intros q' Hq'. apply Hparts. by right. }
  destruct (set_search_selector p (restrict (str "cluster") [c] empty_sel)) as [p1|] eqn:Es.
  2:{ exfalso. apply (restrict_fails p (str "cluster") [c] empty_sel ltac:(by vm_compute) Hls) in Es as [?|(v & ->%elem_of_list_singleton & Hv)]; done. }
  assert ((set_clusters p [c]).2 = p1) as ->.
  { unfold set_clusters. rewrite Hls. cbn [existsb]. destruct (str_eqb c []) eqn:Ec; [by apply str_eqb_eq in Ec|]. cbn [orb]. by rewrite Es. }
  cbv zeta. destruct (set_search_some _ _ _ Es) as [s Hs]. split; [by rewrite Hs|]. split; [by rewrite Hs|]. intros m Hm.
  destruct (restrict_match (e_print E) p (str "cluster") [c] empty_sel p1 m) as [H1 H2]; [by vm_compute|done|done| |by intros [n ?]| |done|].
  - constructor; [by apply valid_value_legal|constructor].
  - rewrite Hot. intros q r Hq. by apply Hparts.
  - rewrite Hot in H1, H2. destruct (HP m Hm) as [HP1 HP2]. split.
    + rewrite H2. intros (q & Hq & Hx). by apply (HP1 q Hq).
    + rewrite H1, restrict_holds, HP2. split.
      * intros [[(v & Hv & ->%elem_of_list_singleton) _] ?]. done.
      * intros [Hc ?]. split; [|done]. split; [exists c; split; [done|set_solver]|]. split; [|by intros e ?%elem_of_nil].
        intros k v. cbn [empty_sel mlabels]. by rewrite lookup_empty.
Qed.
Lemma name_parts dep : Forall name_char dep -> search_parts (str "name=" ++ dep) = [str "name=" ++ dep].
Proof.
  intros Hd. assert (esc (str "name=" ++ dep) = str "name=" ++ dep) as He.
  { apply okw_esc. apply Forall_app. split; [by apply okw_dec|]. eapply Forall_impl; [exact Hd|]. intros x Hx. by apply name_char_ok. }
  pose proof (roundtrip [str "name=" ++ dep]) as H. rewrite join_parts_esc in H. cbn [map join] in H. rewrite He in H. apply H; [|constructor].
  by repeat constructor.
Qed.
Lemma name_match (E : env) (dep : gostr) (m : gmap gostr gostr) : dep <> [] -> Forall name_char dep -> is_Some (m !! str "name") ->
  match_one (e_print E) m (str "name=" ++ dep) <> None /\
  (match_one (e_print E) m (str "name=" ++ dep) = Some true <-> exists w, m !! str "name" = Some w /\ occurs dep (quote (e_print E) w)).
Proof.
  intros Hne Hd [w Hw]. assert (trim_space (str "name=" ++ dep) = str "name" ++ str "=" ++ dep) as Ht.
  { apply trim_tight. split; [by eexists _, _|].
    destruct (snoc_case dep) as [->|(b & x & ->)]; [done|]. exists x, (str "name=" ++ b). split; [by rewrite app_assoc|].
    apply Forall_app in Hd as [_ Hd]. apply Forall_cons_1 in Hd as [Hd _]. by apply name_char_ok. }
  pose proof (C04_key_search (e_print E) m (map snd (map_to_list m)) (str "name=" ++ dep) (str "name") dep (reflexivity _) Ht) as H.
  rewrite Hw in H. destruct H as (b & Hb & H); [done|by intros Hin; repeat (apply elem_of_cons in Hin as [?|Hin]; [done|]); by apply elem_of_nil in Hin| |].
  - rewrite Ht. intros sel. done.
  - change (match_one (e_print E) m (str "name=" ++ dep)) with (match_one_from (e_print E) m (map snd (map_to_list m)) (str "name=" ++ dep)). rewrite Hb.
    split; [done|]. assert (wants (e_print E) dep w <-> occurs dep (quote (e_print E) w)) as Hwt.
    { destruct dep as [|x dep]; [done|]. apply Forall_cons_1 in Hd as [Hx _]. apply name_char_ok in Hx as (_ & _ & _ & Hx). 
      unfold wants. destruct x as [[] [] [] [] [] [] [] []]; done. }
    split.
    + intros [= ->]. exists w. split; [done|]. apply Hwt. by apply H.
    + intros (w' & Hw' & Ho). rewrite Hw in Hw'. injection Hw' as <-. f_equal. apply H. by apply Hwt.
Qed.
(** The cluster of the request, or the default one. *)
Definition wanted_cluster (cf : config) (r : request) (c : gostr) : Prop :=
  var r (str "cluster") = c /\ c <> [] \/ var r (str "cluster") = [] /\ c = cf_default cf.
(** The services are those of the namespace and cluster that select the labels of the first candidate pod, by name. *)
Theorem C44_services E cf conf h st r c ns dep a :
  Forall kube_call h -> run_calls E (new_store conf) h = Ok st ->
  is_Some (conf !! pods_type) -> is_Some (conf !! services_type) ->
  wanted_cluster cf r c -> c <> [] -> legal_value c ->
  var r (str "namespace") = ns -> ns <> [] -> var r (str "deployment") = dep -> dep <> [] -> Forall name_char dep ->
  services E cf st r a ->
  exists labels names es, labels_used E st c ns dep labels /\ a = Ok (Some (map en_obj es)) /\
    StronglySorted (fun x y => str_ltb x y = true) names /\
    Forall2 (fun n e => lookup_entry st services_type c ns n = Some e /\ selects labels (en_obj e)) names es /\
    (forall n e, lookup_entry st services_type c ns n = Some e -> selects labels (en_obj e) -> n ∈ names).
Proof.
  change pods_type with pod_gvr. change services_type with svc_gvr.
  intros Hk Hr Hpod Hsvc Hc Hcne Hleg Hns Hnsne Hdep Hdne Hd [cluster ord pods svcs Hcl Hord Hq1 Hq2].
  assert (cluster = c) as ->.
  { rewrite Hcl. destruct Hc as [[-> ?]|[-> ->]]; [by destruct c|done]. }
  rewrite Hns, Hdep in Hq1. rewrite Hns in Hq2.
  set (P1 := fun m : gmap gostr gostr => exists w, m !! str "name" = Some w /\ occurs dep (quote (e_print E) w)).
  destruct (cluster_search E (Paginate 0 0 0 [] (str "name=" ++ dep)) c P1 Hcne Hleg) as (A1 & A2 & A3).
  { cbn [pg_search]. rewrite name_parts by done. intros q ->%elem_of_list_singleton. split; [reflexivity|done]. }
  { cbn [pg_search]. rewrite name_parts by done. intros m Hm. destruct (name_match E dep m Hdne Hd Hm) as [H1 H2]. split.
    - by intros q ->%elem_of_list_singleton.
    - unfold P1. rewrite <- H2. split; [intros H; apply H; set_solver|]. by intros H q ->%elem_of_list_singleton. }
  destruct (cluster_search E (Paginate 0 0 0 [] []) c (fun _ => True) Hcne Hleg) as (B1 & B2 & B3).
  { intros q Hq. by apply elem_of_nil in Hq. }
  { intros m Hm. split; [intros q Hq; by apply elem_of_nil in Hq|]. split; [done|]. intros _ q Hq. by apply elem_of_nil in Hq. }
  destruct (named_query E conf h st Hk Hr pod_gvr c ns _ P1 Hpod Hnsne A1 A2 A3) as (pnames & pes & Hp & Hpq).
  destruct (named_query E conf h st Hk Hr svc_gvr c ns _ _ Hsvc Hnsne B1 B2 B3) as (snames & ses & Hs & Hsq).
  rewrite (Hpq _ Hq1), (Hsq _ Hq2). cbn [q_err q_items].
  set (labels := pod_labels (map en_obj pes)).
  destruct (kube_pick E conf h st Hk Hr ord labels svc_gvr c ns _ snames ses Hord Hs) as (picked & -> & _ & names & Hsub & HF & Hcomp).
  destruct Hs as (Hsorted & HsF & Hall).
  exists labels, names, picked. split_and!; [|done| |done|].
  - assert (forall n k, candidate E st c ns dep n k <-> exists e, lookup_entry st pod_gvr c ns n = Some e /\ en_obj e = OKube k /\ P1 (en_index e) /\ replica_pod k) as Hcand.
    { intros n k. unfold candidate, store_get. change ([], str "v1", str "pods") with pod_gvr. split.
      - intros (Hl & Ho & Hrp). apply fmap_Some in Hl as (e & Hl & He). exists e. split_and!; try done.
        exists n. split; [|done]. by destruct (index_of E conf h st Hk Hr _ _ _ _ _ Hl) as (_ & _ & ?).
      - intros (e & Hl & He & (w & Hw & Ho) & Hrp). destruct (index_of E conf h st Hk Hr _ _ _ _ _ Hl) as (_ & _ & Hn). rewrite Hw in Hn. injection Hn as ->.
        split_and!; try done. rewrite Hl. cbn. by rewrite He. }
    unfold labels_used. pose proof (pod_labels_first E conf h st Hk Hr pod_gvr c ns P1 pnames pes Hp) as Hfst. cbv zeta in Hfst. fold labels in Hfst.
    destruct Hfst as [(n & k & H1 & H2 & H3)|[H1 H2]].
    + left. exists n, k. split_and!; [by apply Hcand|done|]. intros n' k' Hc'%Hcand. by eapply H3.
    + right. split; [|done]. intros n k Hc'%Hcand. by eapply H1.
  - clear -Hsub Hsorted. induction Hsub as [|x a b Hsub IH|x a b Hsub IH]; [constructor| |].
    + apply StronglySorted_inv in Hsorted as [H1 H2]. constructor; [by apply IH|]. rewrite Forall_forall in H2 |- *. intros y Hy. apply H2. eapply elem_of_submseteq; [exact Hy|]. by apply sublist_submseteq.
    + apply StronglySorted_inv in Hsorted as [H1 H2]. by apply IH.
  - intros n e Hl Hsel. eapply Hcomp; [by eapply Hall|done|done].
Qed.
Print Assumptions C44_services.
(** An answer exists, and the answer is the same for all iteration orders. *)
Theorem C44_some_answer E cf st r : exists a, services E cf st r a.
Proof.
  eexists. eapply (services_intro E cf st r _ map_to_list); [done|done|apply (query_with_ok E false)|apply (query_with_ok E false)].
Qed.
Print Assumptions C44_some_answer.
Theorem C44_one_answer E cf conf h st r c ns dep a b :
  Forall kube_call h -> run_calls E (new_store conf) h = Ok st ->
  is_Some (conf !! pods_type) -> is_Some (conf !! services_type) ->
  wanted_cluster cf r c -> c <> [] -> legal_value c ->
  var r (str "namespace") = ns -> ns <> [] -> var r (str "deployment") = dep -> dep <> [] -> Forall name_char dep ->
  services E cf st r a -> services E cf st r b -> a = b.
Proof.
  change pods_type with pod_gvr. change services_type with svc_gvr.
  intros Hk Hr H1 H2 H3 H4 H5 H6 H7 H8 H9 H10 Ha Hb.
  destruct (C44_services E cf conf h st r c ns dep a Hk Hr H1 H2 H3 H4 H5 H6 H7 H8 H9 H10 Ha) as (l1 & n1 & e1 & L1 & -> & S1 & F1 & C1).
  destruct (C44_services E cf conf h st r c ns dep b Hk Hr H1 H2 H3 H4 H5 H6 H7 H8 H9 H10 Hb) as (l2 & n2 & e2 & L2 & -> & S2 & F2 & C2).
  assert (l1 = l2) as <-.
  { unfold labels_used in L1, L2. destruct L1 as [(n & k & A & -> & Hmin)|[A ->]], L2 as [(n' & k' & A' & -> & Hmin')|[A' ->]]; [| | |done].
    - assert (n = n') as <-.
      { destruct (Hmin _ _ A') as [?|Hlt]; [done|]. destruct (Hmin' _ _ A) as [?|Hlt']; [done|]. exfalso.
        pose proof (str_ltb_trans _ _ _ Hlt Hlt') as Hx. by rewrite str_ltb_irrefl in Hx. }
      destruct A as [A _], A' as [A' _]. rewrite A in A'. by injection A' as <-.
    - by destruct (A' _ _ A).
    - by destruct (A _ _ A'). }
  assert (n1 ≡ₚ n2) as HP.
  { apply NoDup_Permutation; [by apply strict_sorted_fix in S1 as [_ ?]|by apply strict_sorted_fix in S2 as [_ ?]|].
    intros n. split; intros [i Hi]%elem_of_list_lookup.
    - destruct (Forall2_lookup_l _ _ _ _ _ F1 Hi) as (e & _ & ? & ?). by eapply C2.
    - destruct (Forall2_lookup_l _ _ _ _ _ F2 Hi) as (e & _ & ? & ?). by eapply C1. }
  assert (n1 = n2) as <-.
  { clear -HP S1 S2. revert n2 HP S2. induction S1 as [|x l S1 IH Hx]; intros n2 HP S2; [by apply Permutation_nil_l in HP|].
    destruct n2 as [|y n2]; [by apply Permutation_nil_r in HP|]. apply StronglySorted_inv in S2 as [S2 Hy]. rewrite Forall_forall in Hx, Hy.
    assert (x = y) as ->.
    { assert (x ∈ y :: n2) as Hxi by (rewrite <- HP; left). assert (y ∈ x :: l) as Hyi by (rewrite HP; left).
      apply elem_of_cons in Hxi as [->|Hxi]; [done|]. apply elem_of_cons in Hyi as [->|Hyi]; [done|].
      pose proof (str_ltb_trans _ _ _ (Hy _ Hxi) (Hx _ Hyi)) as Hz. by rewrite str_ltb_irrefl in Hz. }
    f_equal. apply IH; [|done]. by apply Permutation_cons_inv in HP. }
  do 3 f_equal. clear -F1 F2. revert e2 F2. induction F1 as [|n e l es [Hl _] F1 IH]; intros e2 F2; inversion F2 as [|? e' ? es' [Hl' _] F2']; subst; [done|].
  cbn [map]. f_equal; [congruence|by apply IH].
Qed.
Print Assumptions C44_one_answer.
(** For names of ordinary characters the candidates are the pods whose name contains the text. *)
Lemma occurs_quoted dep n : dquote ∉ dep -> dep <> [] -> occurs dep (dquote :: n ++ [dquote]) <-> occurs dep n.
Proof.
  intros Hq Hne. split.
  - intros (a & b & H). destruct a as [|x a].
    { destruct dep as [|y dep]; [done|]. injection H as <- _. set_solver. }
    injection H as _ H. destruct (snoc_case b) as [->|(b' & y & ->)].
    + rewrite app_nil_r in H. destruct (snoc_case dep) as [->|(d' & y & ->)]; [done|]. rewrite app_assoc in H. apply app_inj_tail in H as [_ <-]. set_solver.
    + rewrite !app_assoc in H. apply app_inj_tail in H as [-> _]. exists a, b'. by rewrite <- app_assoc.
  - intros (a & b & ->). exists (dquote :: a), (b ++ [dquote]). cbn [app]. by rewrite <- !app_assoc.
Qed.
Theorem C44_candidates E st c ns dep n k : dep <> [] -> Forall name_char dep -> Forall plain n ->
  candidate E st c ns dep n k <-> store_get st pods_type c ns n = Some (OKube k) /\ occurs dep n /\ replica_pod k.
Proof.
  change pods_type with pod_gvr. change services_type with svc_gvr.
  intros Hne Hd Hn. unfold candidate. change ([], str "v1", str "pods") with pod_gvr.
  assert (quote (e_print E) n = dquote :: n ++ [dquote]) as -> by (unfold quote; by rewrite quote_plain).
  rewrite occurs_quoted; [done| |done]. intros Hin. rewrite Forall_forall in Hd. specialize (Hd _ Hin).
  unfold name_char in Hd. change (code dquote) with 34%N in Hd. destruct Hd as [?|[?|[?|?]]]; try lia; done.
Qed.
Print Assumptions C44_candidates.

(** The member that counts: the last one of this name. *)
Definition last_member (name : gostr) (j v : json) : Prop :=
  exists pre post, j = JObj (pre ++ (name, v) :: post) /\ forall kv, kv ∈ post -> kv.1 <> name.
(** The selector that the document of a service has at spec.selector: its members with their texts; a value that
    is no text is read as the empty one. *)
Definition selector_at (j : json) (sel : gmap gostr gostr) : Prop :=
  exists sp l, last_member (str "spec") j sp /\ last_member (str "selector") sp (JObj l) /\
    forall x s, sel !! x = Some s <-> exists v, last_member x (JObj l) v /\ (v = JStr s \/ (forall t, v <> JStr t) /\ s = []).
Lemma fold_member name l v :
  fold_left (fun acc (kv : gostr * json) => if str_eqb kv.1 name then Some kv.2 else acc) l None = Some v <-> last_member name (JObj l) v.
Proof.
  unfold last_member. induction l as [|[k w] l IH] using rev_ind.
  - split; [done|]. intros (pre & post & [= E] & _). by destruct pre.
  - rewrite fold_left_app. cbn [fold_left fst snd]. destruct (str_eqb k name) eqn:Ek.
    + apply str_eqb_eq in Ek as ->. split.
      * intros [= ->]. exists l, []. split; [done|]. by intros kv ?%elem_of_nil.
      * intros (pre & post & [= E] & Hno). destruct post as [|kv post] using rev_ind.
        -- apply app_inj_tail in E as [_ [= ->]]. done.
        -- rewrite app_comm_cons, app_assoc in E. apply app_inj_tail in E as [_ <-]. exfalso. apply (Hno (name, w)); [set_solver|done].
    + apply str_eqb_neq in Ek. rewrite IH. split.
      * intros (pre & post & [= ->] & Hno). exists pre, (post ++ [(k, w)]). split; [by rewrite <- app_assoc|].
        intros kv [Hin|Hin]%elem_of_app; [by apply Hno|]. apply elem_of_list_singleton in Hin as ->. done.
      * intros (pre & post & [= E] & Hno). destruct post as [|kv post _] using rev_ind.
        -- apply app_inj_tail in E as [_ [= -> _]]. done.
        -- rewrite app_comm_cons, app_assoc in E. apply app_inj_tail in E as [-> _]. exists pre, post. split; [done|]. intros kv' Hin. apply Hno. set_solver.
Qed.
Lemma member_last name j v : json_member name j = Some v <-> last_member name j v.
Proof.
  destruct j; cbn [json_member]; try (split; [done|]; by intros (? & ? & ? & _)). apply fold_member.
Qed.
Lemma fold_texts l x s : fold_left (fun m (kv : gostr * json) => <[kv.1 := set_str [] kv.2]> m) l (∅ : gmap gostr gostr) !! x = Some s <->
  exists v, last_member x (JObj l) v /\ (v = JStr s \/ (forall t, v <> JStr t) /\ s = []).
Proof.
  assert (forall v, (v = JStr s \/ (forall t, v <> JStr t) /\ s = []) <-> set_str [] v = s) as Hs.
  { intros v. destruct v; cbn [set_str]; split; try (by intros [?|[_ ->]]); try (by intros <-; right); try (by intros ->; left).
    intros [[= ->]|[H _]]; [done|by destruct (H s0)]. }
  setoid_rewrite Hs. setoid_rewrite <- fold_member.
  assert (fold_left (fun m (kv : gostr * json) => <[kv.1 := set_str [] kv.2]> m) l (∅ : gmap gostr gostr) !! x =
    set_str [] <$> fold_left (fun acc (kv : gostr * json) => if str_eqb kv.1 x then Some kv.2 else acc) l None) as ->.
  { induction l as [|[k w] l IH] using rev_ind; [done|]. rewrite !fold_left_app. cbn [fold_left fst snd]. destruct (str_eqb k x) eqn:Ek.
    - apply str_eqb_eq in Ek as ->. by rewrite lookup_insert.
    - apply str_eqb_neq in Ek. by rewrite lookup_insert_ne. }
  destruct (fold_left _ l None) as [v|]; cbn [fmap option_fmap option_map]; split.
  - intros [= <-]. by exists v.
  - intros (v' & [= <-] & <-). done.
  - done.
  - by intros (? & ? & _).
Qed.
(** A service selects the labels exactly if its document has a selector at spec.selector and the labels have all
    that is in it. *)
Theorem C44_selector labels k :
  selects labels (OKube k) <-> exists sel, selector_at (k_data k) sel /\ forall x v, sel !! x = Some v -> labels !! x = Some v.
Proof.
  assert (forall j sel, svc_selector j = Some sel <-> selector_at j sel) as H.
  { intros j sel. unfold svc_selector. split.
    - destruct (json_member (str "spec") j) as [sp|] eqn:E1; [|done]. cbn [mbind option_bind]. destruct (json_member (str "selector") sp) as [[| | | | |l]|] eqn:E2; try done.
      intros [= <-]. exists sp, l. split; [by apply member_last|]. split; [by apply member_last|]. intros x s. apply fold_texts.
    - intros (sp & l & ->%member_last & H2 & H3). cbn [mbind option_bind]. apply member_last in H2 as ->. f_equal. apply map_eq. intros x. apply option_eq. intros s. by rewrite fold_texts, H3. }
  unfold selects. split.
  - intros (k' & sel & [= <-] & Hs & Hl). exists sel. split; [by apply H|done].
  - intros (sel & Hs & Hl). exists k, sel. split; [done|]. split; [by apply H|done].
Qed.
Print Assumptions C44_selector.

Example C44_ex_selector : selector_at (JObj [(str "spec", JNull); (str "spec", JObj [(str "selector", JObj [(str "app", JStr (str "web")); (str "tier", JNum (str "1"))])])])
  {[ str "app" := str "web"; str "tier" := [] ]}.
Proof.
  exists (JObj [(str "selector", JObj [(str "app", JStr (str "web")); (str "tier", JNum (str "1"))])]), [(str "app", JStr (str "web")); (str "tier", JNum (str "1"))].
  split; [exists [(str "spec", JNull)], []; split; [done|by intros kv ?%elem_of_nil]|]. split; [exists [], []; split; [done|by intros kv ?%elem_of_nil]|].
  intros x s. rewrite <- fold_texts. cbn [fold_left fst snd set_str].
  by rewrite (insert_commute (∅ : gmap gostr gostr) (str "tier") (str "app")) by done.
Qed.
(** Two deployments, web and my-web, each with a pod and a service; a service without a selector. *)
Definition dep_conf : gmap gvr (gmap gostr gostr) := {[ pod_gvr := ∅; svc_gvr := ∅ ]}.
Definition dep_pod (n owner app : string) : obj :=
  OKube (KObj (str "default") (str n) false ∅ {[ str "app" := str app; str "tier" := str "x" ]} [(str "ReplicaSet", str owner)] JNull).
Definition dep_svc (n : string) (sel : option string) : obj :=
  OKube (KObj (str "default") (str n) false ∅ ∅ [] (JObj [(str "spec", JObj (match sel with Some app => [(str "selector", JObj [(str "app", JStr (str app))])] | None => [] end))])).
Definition dep_history (pods : list (string * string * string)) : list call :=
  map (fun p => CAdd pod_gvr c1 (dep_pod p.1.1 p.1.2 p.2)) pods ++
  [CAdd svc_gvr c1 (dep_svc "web" (Some "web")); CAdd svc_gvr c1 (dep_svc "my-web" (Some "my-web")); CAdd svc_gvr c1 (dep_svc "ext" None);
   CAdd svc_gvr c2 (dep_svc "far" (Some "web"))].
Definition dep_store (pods : list (string * string * string)) : store := ok_store (run_calls ex_env (new_store dep_conf) (dep_history pods)).
Lemma dep_conf_pods : dep_conf !! pod_gvr = Some ∅.
Proof. apply lookup_insert. Qed.
Lemma dep_conf_svcs : dep_conf !! svc_gvr = Some ∅.
Proof. unfold dep_conf. rewrite lookup_insert_ne by done. apply lookup_singleton. Qed.
Lemma dep_store_ok pods : run_calls ex_env (new_store dep_conf) (dep_history pods) = Ok (dep_store pods) /\ Forall kube_call (dep_history pods).
Proof.
  split.
  - unfold dep_store. destruct (run_calls ex_env (new_store dep_conf) (dep_history pods)) eqn:Hr; [done|]. exfalso.
    destruct (proj2 (run_ok_iff ex_env dep_conf (dep_history pods))) as [st Hst]; [|congruence].
    unfold dep_history. apply Forall_app. split.
    + apply Forall_forall. intros x (y & -> & _)%elem_of_list_fmap. cbn [call_gvr]. rewrite dep_conf_pods. by eexists.
    + repeat (apply Forall_cons; split; [cbn [call_gvr]; rewrite dep_conf_svcs; by eexists|]). apply Forall_nil_2.
  - unfold dep_history. apply Forall_app. split.
    + apply Forall_forall. intros x (y & -> & _)%elem_of_list_fmap. by eexists.
    + repeat (apply Forall_cons; split; [by eexists|]). apply Forall_nil_2.
Qed.
Definition dep_req (cluster : string) : request :=
  Request (str "GET") (str "/x") {[ str "cluster" := str cluster; str "namespace" := str "default"; str "deployment" := str "web" ]} [] None [] [].
Definition dep_cf : config := Config c1 [] [].
Definition dep_answer (r : request) (st : store) : result (option (list obj)) :=
  let cluster := match var r (str "cluster") with [] => cf_default dep_cf | c => c end in
  let pods := query_with ex_env false st pod_gvr (var r (str "namespace")) (set_clusters (Paginate 0 0 0 [] (str "name=" ++ var r (str "deployment"))) [cluster]).2 in
  let svcs := query_with ex_env false st svc_gvr (var r (str "namespace")) (set_clusters (Paginate 0 0 0 [] []) [cluster]).2 in
  match pods, svcs with
  | Panics, _ => Panics
  | Ok q1, _ =>
      if q_err q1 then Ok None
      else match svcs with
           | Panics => Panics
           | Ok q2 =>
               if q_err q2 then Ok None
               else match pick_services map_to_list (pod_labels (q_items q1)) (q_items q2) with
                    | Panics => Panics
                    | Ok l => Ok (Some l)
                    end
           end
  end.
Lemma dep_answer_ok r st : services ex_env dep_cf st r (dep_answer r st).
Proof. by eapply (services_intro ex_env dep_cf st r _ map_to_list); [| |apply query_with_ok|apply query_with_ok]. Qed.
Definition names_of (a : result (option (list obj))) : option (list gostr) :=
  match a with Ok (Some l) => Some (map obj_id l) | _ => None end.
Example C44_ex : let pods := [("web-7f-1", "web-7f", "web"); ("api-1", "api-9", "api")]%string in
  services ex_env dep_cf (dep_store pods) (dep_req "") (dep_answer (dep_req "") (dep_store pods)) /\
  names_of (dep_answer (dep_req "") (dep_store pods)) = Some [str "default/web"] /\
  names_of (dep_answer (dep_req "c2") (dep_store pods)) = Some [] /\
  wanted_cluster dep_cf (dep_req "") c1 /\ legal_value c1 /\ Forall name_char (str "web").
Proof.
  cbv zeta. split; [apply dep_answer_ok|]. split; [by vm_compute|]. split; [by vm_compute|]. split; [by right|]. split.
  - apply valid_value_legal. by vm_compute.
  - repeat (constructor; [left; by vm_compute|]). constructor.
Qed.
(** Finding: the pod that gives the labels need not be one of the deployment.  Here every pod of deployment
    web has the labels of service web, and service my-web is answered. *)
Theorem C44_own_pods_refuted : exists E cf conf h st r c ns dep es,
  Forall kube_call h /\ run_calls E (new_store conf) h = Ok st /\ wanted_cluster cf r c /\
  var r (str "namespace") = ns /\ var r (str "deployment") = dep /\
  services E cf st r (Ok (Some es)) /\
  (exists n k suffix, store_get st pod_gvr c ns n = Some (OKube k) /\ k_owners k = [(str "ReplicaSet", dep ++ str "-" ++ suffix)]) /\
  exists o, o ∈ es /\ forall n k suffix rest, store_get st pod_gvr c ns n = Some (OKube k) ->
    k_owners k = (str "ReplicaSet", dep ++ str "-" ++ suffix) :: rest -> ~ selects (k_labels k) o.
Proof.
  pose (pods := [("web-7f-1", "web-7f", "web"); ("my-web-1", "my-web-5", "my-web")]%string). destruct (dep_store_ok pods) as [Hr Hk].
  pose proof (dep_answer_ok (dep_req "") (dep_store pods)) as Ha.
  assert (exists o, dep_answer (dep_req "") (dep_store pods) = Ok (Some [o]) /\ obj_id o = str "default/my-web" /\ ~ selects {[ str "app" := str "web"; str "tier" := str "x" ]} o) as (o & Ho & _ & Hsel).
  { assert (names_of (dep_answer (dep_req "") (dep_store pods)) = Some [str "default/my-web"]) as Hn by (by vm_compute).
    assert (match dep_answer (dep_req "") (dep_store pods) with Ok (Some [OKube k]) => str_eqb (default [] (default ∅ (svc_selector (k_data k)) !! str "app")) (str "my-web") | _ => false end = true) as Hd by (by vm_compute).
    revert Hn Hd. generalize (dep_answer (dep_req "") (dep_store pods)). clear. intros a Hn Hd.
    destruct a as [[[|[k|] [|]]|]|]; try discriminate Hd. exists (OKube k).
    split; [done|]. split; [exact (f_equal (fun x => default [] (x ≫= hd_error)) Hn)|].
    intros (k' & sel & Hk' & Hs & Hin). injection Hk' as <-. rewrite Hs in Hd. apply str_eqb_eq in Hd.
    change (default [] (sel !! str "app") = str "my-web") in Hd. destruct (sel !! str "app") as [v|] eqn:Ev; [|discriminate Hd]. change (v = str "my-web") in Hd. subst v. specialize (Hin _ _ Ev).
    rewrite lookup_insert in Hin. discriminate Hin. }
  assert (forall n k, store_get (dep_store pods) pod_gvr c1 (str "default") n = Some (OKube k) ->
    k_owners k = [(str "ReplicaSet", str "web-7f")] /\ k_labels k = {[ str "app" := str "web"; str "tier" := str "x" ]} \/ k_owners k = [(str "ReplicaSet", str "my-web-5")]) as Hpods.
  { intros n k Hg. apply fmap_Some in Hg as (e & Hl & He).
    destruct (C26_builtin_index ex_env dep_conf _ _ _ _ _ _ _ Hk Hr Hl) as (k0 & k' & Hin & He' & Hst & _). rewrite He' in He. injection He as ->.
    assert (CAdd pod_gvr c1 (OKube k0) ∈ dep_history pods) as Hin'.
    { destruct Hin as [?|Hin]; [done|]. exfalso. unfold dep_history, pods in Hin. cbn [map app] in Hin.
      repeat (apply elem_of_cons in Hin as [Hin|Hin]; [discriminate Hin|]). by apply elem_of_nil in Hin. }
    clear Hin. destruct Hst as (_ & _ & _ & Hlab & Hown & _). unfold dep_history, pods in Hin'. cbn [map app] in Hin'.
    apply elem_of_cons in Hin' as [Hin|Hin].
    { left. assert (OKube k0 = dep_pod "web-7f-1" "web-7f" "web") as E by (exact (f_equal (fun x => match x with CAdd _ _ y => y | _ => OKube k0 end) Hin)). injection E as ->. split; [rewrite Hown; reflexivity|rewrite Hlab; reflexivity]. }
    apply elem_of_cons in Hin as [Hin|Hin].
    { right. assert (OKube k0 = dep_pod "my-web-1" "my-web-5" "my-web") as E by (exact (f_equal (fun x => match x with CAdd _ _ y => y | _ => OKube k0 end) Hin)). injection E as ->. rewrite Hown. reflexivity. }
    exfalso. repeat (apply elem_of_cons in Hin as [Hin|Hin]; [discriminate Hin|]). by apply elem_of_nil in Hin. }
  exists ex_env, dep_cf, dep_conf, (dep_history pods), (dep_store pods), (dep_req ""), c1, (str "default"), (str "web"), [o].
  rewrite Ho in Ha. split; [exact Hk|]. split; [exact Hr|]. split; [right; split; reflexivity|]. split; [reflexivity|]. split; [reflexivity|]. split; [exact Ha|]. split.
  - assert (exists k, store_get (dep_store pods) pod_gvr c1 (str "default") (str "web-7f-1") = Some (OKube k)) as [k Hg].
    { assert (match store_get (dep_store pods) pod_gvr c1 (str "default") (str "web-7f-1") with Some (OKube k) => true | _ => false end = true) as H by (by vm_compute).
      revert H. generalize (store_get (dep_store pods) pod_gvr c1 (str "default") (str "web-7f-1")). intros [[k|]|]; [by exists k|done|done]. }
    exists (str "web-7f-1"), k, (str "7f"). split; [exact Hg|]. pose proof Hg as Hg2. apply Hpods in Hg2 as [[H _]|H]; [exact H|].
    exfalso. apply fmap_Some in Hg as (e & Hl & He).
    assert (match store_get (dep_store pods) pod_gvr c1 (str "default") (str "web-7f-1") with Some (OKube k) => match k_owners k with (_, x) :: _ => str_eqb x (str "my-web-5") | _ => false end | _ => false end = false) as Hb by (by vm_compute).
    unfold store_get in Hb. rewrite Hl in Hb. cbn [fmap option_fmap option_map] in Hb. rewrite <- He, H in Hb. by vm_compute in Hb.
  - exists o. split; [left|]. intros n k suffix rest Hg Hown. apply Hpods in Hg as [[_ ->]|H]; [exact Hsel|].
    rewrite H in Hown. discriminate Hown.
Qed.
Print Assumptions C44_own_pods_refuted.
(** Finding: a cluster name that is no label value is not reported; all clusters are used instead. *)
Theorem C44_illegal_cluster_refuted : exists E cf conf h st r c ns es,
  Forall kube_call h /\ run_calls E (new_store conf) h = Ok st /\ wanted_cluster cf r c /\
  var r (str "namespace") = ns /\ services E cf st r (Ok (Some es)) /\ es <> [] /\
  forall g n, store_get st g c ns n = None.
Proof.
  pose (pods := [("web-7f-1", "web-7f", "web")]%string). destruct (dep_store_ok pods) as [Hr Hk].
  pose proof (dep_answer_ok (dep_req "a b") (dep_store pods)) as Ha.
  assert (exists es, dep_answer (dep_req "a b") (dep_store pods) = Ok (Some es) /\ es <> []) as (es & Hes & Hne).
  { assert (names_of (dep_answer (dep_req "a b") (dep_store pods)) = Some [str "default/web"; str "default/far"]) as Hn by (by vm_compute).
    revert Hn. generalize (dep_answer (dep_req "a b") (dep_store pods)). intros a Hn.
    destruct a as [[[|o l]|]|]; try discriminate Hn. exists (o :: l). split; [reflexivity|discriminate]. }
  exists ex_env, dep_cf, dep_conf, (dep_history pods), (dep_store pods), (dep_req "a b"), (str "a b"), (str "default"), es.
  rewrite Hes in Ha. split; [exact Hk|]. split; [exact Hr|]. split; [left; split; [reflexivity|discriminate]|]. split; [reflexivity|]. split; [exact Ha|]. split; [exact Hne|]. intros g n.
  destruct (store_get (dep_store pods) g (str "a b") (str "default") n) as [o|] eqn:Hg; [|reflexivity]. exfalso.
  apply fmap_Some in Hg as (e & Hl & He). destruct (C26_builtin_index ex_env dep_conf _ _ _ _ _ _ _ Hk Hr Hl) as (k0 & k' & Hin & _).
  unfold dep_history, pods in Hin. cbn [map app] in Hin. clear -Hin.
  assert (forall x, x ∈ [c1; c2] -> str "a b" <> x) as Hd by (intros x Hx; repeat (apply elem_of_cons in Hx as [->|Hx]; [done|]); by apply elem_of_nil in Hx).
  destruct Hin as [Hin|Hin]; repeat (apply elem_of_cons in Hin as [Hin|Hin]; [first [discriminate Hin|
    pose proof (f_equal (fun x => match x with CAdd _ c _ => c | _ => [] end) Hin) as Hc; cbv beta iota in Hc; eapply Hd; [|exact Hc]; set_solver]|]); by apply elem_of_nil in Hin.
Qed.
Print Assumptions C44_illegal_cluster_refuted.
