(** List requests answered from the cache. *)
From Coq Require Import Ascii String NArith ZArith Lia.
From stdpp Require Import base gmap strings list sorting.
From Verif Require Import ModelStr ModelSort ModelLabels SpecLabels ModelPage ModelJson ModelJsonText ModelQuery ModelStore ModelUrl ModelProxy
  SpecPage SpecStore SpecProxy SpecList ProofsStr ProofsLabels ProofsParse ProofsPage ProofsSel ProofsSemi ProofsQuery ProofsStore ProofsQueryStore ProofsIndex ProofsListing ProofsProxy
  PropsSelector PropsStore PropsStore3 PropsProxy.

(** ** The selector that reaches the list *)
Lemma take_query_sub es : forall cur q l, take_query cur es = Some (q, l) -> forall e, e ∈ l -> e ∈ es.
Proof.
  induction es as [|e es IH]; intros cur q l H; cbn [take_query] in H; [by injection H as _ <-|].
  assert (forall cur', take_query cur' es = Some (q, l) -> forall x, x ∈ l -> x ∈ e :: es) as Hs by (intros cur' H' x Hx; right; by eapply IH).
  destruct (str_eqb (lkey e) paginate_key).
  - destruct (lvals e); [by eapply Hs|]. destruct (merge_values _); [|done]. by eapply Hs.
  - destruct (take_query cur es) as [[q' l']|] eqn:E; [|done]. injection H as <- <-. intros x [->|Hx]%elem_of_cons; [by left|right; by eapply IH].
Qed.
Lemma list_selector_ok s p ls : parse_list_selector s = Some (p, Some ls) -> sel_ok ls.
Proof.
  unfold parse_list_selector. destruct s as [|c s]; [done|]. destruct (parse_to_label_selector (c :: s)) as [ls0|] eqn:E; [|done].
  destruct (parsed_sel_ok _ _ E) as [Hok _]. clear E. unfold extract_query.
  assert (forall ml me, (forall k v, ml !! k = Some v -> mlabels ls0 !! k = Some v) -> (forall e, e ∈ me -> e ∈ mexprs ls0) -> sel_ok (LSel ml me)) as Hsub.
  { intros ml me H1 H2. unfold sel_ok, valid_sel_from, reqs_from in *. cbn [mlabels mexprs]. rewrite Forall_app in Hok |- *. destruct Hok as [A B].
    rewrite Forall_forall in A, B. split; apply Forall_forall; intros r (x & -> & Hx)%elem_of_list_fmap.
    - apply A. apply elem_of_list_fmap. exists x. split; [done|]. destruct x. apply elem_of_map_to_list in Hx. apply elem_of_map_to_list. by apply H1.
    - apply B. apply elem_of_list_fmap. eauto. }
  destruct (mlabels ls0 !! paginate_key) as [q|].
  - destruct (decode_query q); [|done]. injection 1 as <- <-. apply Hsub; [|done]. intros k v [_ ?]%lookup_delete_Some. done.
  - destruct (take_query [] (mexprs ls0)) as [[q es]|] eqn:Et; [|done]. destruct (decode_query q); [|done]. injection 1 as <- <-.
    apply Hsub; [done|]. by eapply take_query_sub.
Qed.
Lemma empty_sel_holds ls m : is_empty_sel ls = true -> sel_holds m ls.
Proof.
  unfold is_empty_sel. rewrite andb_true_iff, bool_decide_eq_true. intros [H1 H2]. split.
  - intros k v. by rewrite H1, lookup_empty.
  - destruct (mexprs ls); [|done]. by intros e ?%elem_of_nil.
Qed.

(** ** Filtering by labels *)
Definition keeps (rs : list req) (e : entry) : bool :=
  match en_obj e with OKube k => match_reqs rs (k_labels k) | ORaw _ => false end.
Lemma filter_labels_ok rs es : Forall (fun e => exists k, en_obj e = OKube k) es ->
  filter_labels rs (map en_obj es) = Ok (map en_obj (List.filter (keeps rs) es)).
Proof.
  induction 1 as [|e es [k Hk] _ IH]; [done|]. cbn [map List.filter]. unfold keeps at 1. rewrite Hk. cbn [filter_labels]. rewrite IH.
  destruct (match_reqs rs (k_labels k)); [cbn [map]; by rewrite Hk|done].
Qed.
Lemma filter_sublist {A} (f : A -> bool) l : sublist (List.filter f l) l.
Proof. induction l as [|x l IH]; [constructor|]. cbn. destruct (f x); by constructor. Qed.

Section lists.
  Context (E : env) (cf : config) (conf : gmap gvr (gmap gostr gostr)) (h : list call) (st : store).
  Hypothesis (Hkube : Forall kube_call h) (Hrun : run_calls E (new_store conf) h = Ok st).

  Lemma scope_kube g ns k e : in_scope st g ns k e -> exists o, en_obj e = OKube o.
  Proof.
    intros [H _]. destruct (C26_builtin_index E conf h st _ _ _ _ _ Hkube Hrun H) as (o & o' & _ & H' & _). eauto.
  Qed.
  Lemma matches_kube g ns search ks es : matches_listed E st g ns search ks es -> Forall (fun e => exists k, en_obj e = OKube k) es.
  Proof.
    intros (_ & HF & _). apply Forall_forall. intros e [i Hi]%elem_of_list_lookup.
    destruct (Forall2_lookup_r _ _ _ _ _ HF Hi) as (k & _ & Hs & _). by eapply scope_kube.
  Qed.
  (** Filtering a complete list. *)
  Lemma listed_none g ns search ks es : matches_listed E st g ns search ks es -> listed E st g ns search None ks es.
  Proof.
    intros (H1 & H2 & H3). split; [done|]. split; [eapply Forall2_impl; [exact H2|]; naive_solver|]. naive_solver.
  Qed.
  Lemma listed_empty g ns search ls ks es : is_empty_sel ls = true -> matches_listed E st g ns search ks es -> listed E st g ns search (Some ls) ks es.
  Proof.
    intros He Hm. pose proof Hm as (H1 & H2 & H3). split; [done|]. split; [|naive_solver].
    apply Forall2_same_length_lookup_2; [by eapply Forall2_length|].
    intros i k e Hk He'. destruct (Forall2_lookup_lr _ _ _ _ _ _ H2 Hk He') as [Hs Hx]. split; [done|]. split; [done|].
    destruct (scope_kube _ _ _ _ Hs) as [o ->]. by apply empty_sel_holds.
  Qed.
  Lemma listed_filter g ns search ls rs ks es : as_selector ls = Some rs -> matches_listed E st g ns search ks es ->
    exists ks', listed E st g ns search (Some ls) ks' (List.filter (keeps rs) es).
  Proof.
    intros Hrs (H1 & H2 & H3).
    set (kes := zip ks es). assert (length ks = length es) as Hl by (by eapply Forall2_length).
    assert (ks = map fst kes) as Eks by (symmetry; apply fst_zip; lia). assert (es = map snd kes) as Ees by (symmetry; apply snd_zip; lia).
    assert (forall k e, (k, e) ∈ kes -> in_scope st g ns k e /\ entry_match E search e = Some true) as Hin.
    { intros k e Hke. rewrite Eks, Ees in H2. apply Forall2_fmap in H2. apply elem_of_list_lookup in Hke as [i Hi].
      by apply (Forall2_lookup_lr _ _ _ _ _ _ H2 Hi Hi). }
    assert (forall e, (exists o, en_obj e = OKube o) -> keeps rs e = true <-> labels_hold (Some ls) (en_obj e)) as Hkeep.
    { intros e [o Ho]. unfold keeps. rewrite Ho. cbn. by apply as_selector_holds. }
    exists (map fst (List.filter (fun ke => keeps rs ke.2) kes)). split; [|split].
    - rewrite Eks in H1. clear -H1. induction kes as [|[k e] kes IH]; [constructor|]. cbn [map List.filter fst snd] in *. apply NoDup_cons in H1 as [Hn H1].
      destruct (keeps rs e); [|by apply IH]. cbn [map fst]. apply NoDup_cons. split; [|by apply IH]. intros Hx. apply Hn.
      apply elem_of_list_fmap in Hx as (ke & -> & Hke). apply elem_of_list_fmap. exists ke. split; [done|].
      apply elem_of_list_In, filter_In in Hke as [Hke _]. by apply elem_of_list_In.
    - assert (List.filter (keeps rs) es = map snd (List.filter (fun ke => keeps rs ke.2) kes)) as ->.
      { rewrite Ees. clear. induction kes as [|[k e] kes IH]; [done|]. cbn [map List.filter snd]. destruct (keeps rs e); cbn [map]; by rewrite IH. }
      apply Forall2_fmap, Forall_Forall2_diag, Forall_forall. intros [k e] Hke.
      apply elem_of_list_In, filter_In in Hke as [Hke Hk]. apply elem_of_list_In in Hke. destruct (Hin _ _ Hke) as [Hs Hm]. cbn [fst snd] in *.
      split; [done|]. split; [done|]. apply Hkeep; [by eapply scope_kube|done].
    - intros k e Hs Hm Hlab. pose proof (H3 k e Hs Hm) as Hk. rewrite Eks in Hk. apply elem_of_list_fmap in Hk as ([k' e'] & -> & Hke). cbn [fst] in *.
      assert (e' = e) as ->. { destruct (Hin _ _ Hke) as [[He' _] _]. destruct Hs as [He _]. congruence. }
      apply elem_of_list_fmap. exists (k', e). split; [done|]. apply elem_of_list_In, filter_In. split; [by apply elem_of_list_In|].
      apply Hkeep; [by eapply scope_kube|done].
  Qed.

  (** The answer to a list request. *)
  Lemma list_inv clients r p labels a : list_request conf r p labels -> proxy E cf clients st r a ->
    exists ord p1 q, (forall n m, ord n m ≡ₚ map_to_list m) /\ effective cf p p1 /\ add_default_cluster cf p = p1 /\
      query E st (req_gvr r) (var r (str "namespace")) (store_page p1 labels) q /\
      a = list_answer cf ord r (req_gvr r) p1 labels q.
  Proof.
    intros (Hc & Hv & s & Hs & Hps) Hp.
    assert (var r (str "resource") = []) as Hv' by (unfold var; by rewrite Hv).
    destruct Hp as [order cl r' Hord Hpc|order p0 l0 cl r' Hord Hpc Ht|order p0 l0 cl r' Hord Hpc Ht Hv2|order ord p0 l0 cl r' q Hord Hpc Ht Hv2 Ho Hq].
    - by destruct (error_not_cacheable cf conf r order _ Hord Hpc).
    - apply (test_cacheable E cf conf h st Hrun r order p0 l0 cl r' Hord Hpc) in Hc. congruence.
    - done.
    - destruct (parse_clean_spec cf order r Hord) as (s' & cl0 & body & Hs' & Hd & Hpc'). rewrite Hpc in Hpc'.
      rewrite (selector_text_fun _ _ _ Hs' Hs), Hps in Hpc'. injection Hpc' as -> -> _ _.
      exists ord, (add_default_cluster cf p), q. split; [done|]. split; [|done].
      unfold add_default_cluster. destruct (get_clusters (pg_search p)) eqn:Eg; [by apply effective_default|].
      apply effective_chosen. by rewrite Eg.
  Qed.

  Lemma query_size0 g ns page total sort search r : query E st g ns (Paginate page 0 total sort search) r ->
    query E st g ns (Paginate 0 0 0 sort search) r.
  Proof. unfold query. by destruct (st_map st !! g). Qed.
  Definition bounds (p : paginate) (labels : option lsel) (l : Z) : Z * Z :=
    if has_labels labels then label_bounds p l else page_of p l.
  Lemma list_items_ok g ns p labels q : match labels with Some ls => sel_ok ls | None => True end ->
    query E st g ns (store_page p labels) (Ok q) -> q_err q = false ->
    exists ks es, listed E st g ns (pg_search p) labels ks es /\ in_cache_order E st g ns (pg_sort p) (pg_search p) es /\
      forall items, slice es (bounds p labels (Z.of_nat (length es))).1 (bounds p labels (Z.of_nat (length es))).2 = Some items ->
        list_items p labels q = Ok (Some (map en_obj items, Z.of_nat (length es))).
  Proof.
    intros Hok Hq He. destruct (query_ok E st g ns _ q Hq He) as (ks & es & m & Hm & Ht & Hp & Hso & Hi & Hu).
    assert (pg_search (store_page p labels) = pg_search p /\ pg_sort (store_page p labels) = pg_sort p) as [E1 E2]
      by (unfold store_page; by destruct (has_labels labels)). rewrite E1 in *. rewrite E2 in *.
    assert (query E st g ns (Paginate 0 0 0 (pg_sort p) (pg_search p)) (Ok (QRes false (q_total q) (map en_obj es)))) as Hall.
    { unfold unpaged in Hu. rewrite E1, E2 in Hu. by eapply query_size0. }
    destruct (has_labels labels) eqn:Ehl.
    - destruct labels as [ls|]; [|done]. unfold has_labels in Ehl. apply negb_true_iff in Ehl.
      destruct (as_selector_ok _ _ Hok) as [rs Hrs]. assert (as_selector ls = Some rs) as Hrs' by exact Hrs. clear Hrs.
      destruct (listed_filter g ns _ ls rs ks es Hrs' Hm) as [ks' Hl]. exists ks', (List.filter (keeps rs) es). split; [done|].
      split; [exists es, (q_total q); split; [done|apply filter_sublist]|].
      intros items Hsl. unfold list_items. rewrite He, Ehl, Hrs'.
      assert (q_items q = map en_obj es) as ->.
      { destruct Hi as [[-> Hi]|[_ (its & Hs & Hi)]]; [apply Permutation_nil in Hp as ->; by rewrite Hi|].
        unfold store_page, has_labels in Hs. rewrite Ehl in Hs. cbn in Hs. rewrite slice_all in Hs. by injection Hs as <-. }
      rewrite filter_labels_ok by (by eapply matches_kube). rewrite map_length.
      unfold bounds, has_labels in Hsl. rewrite Ehl in Hsl. cbn [negb] in Hsl.
      destruct (label_bounds p _) as [lo hi]. cbn [fst snd] in Hsl. unfold slice in *. destruct ((0 <=? lo) && (lo <=? hi))%Z; [|done].
      injection Hsl as <-. by rewrite skipn_map, firstn_map.
    - exists ks, es. assert (listed E st g ns (pg_search p) labels ks es) as Hl.
      { destruct labels as [ls|]; [|by apply listed_none]. apply listed_empty; [|done]. by apply negb_false_iff in Ehl. }
      split; [done|]. split; [by exists es, (q_total q)|]. intros items Hsl. unfold bounds in Hsl. rewrite Ehl in Hsl.
      assert (q_items q = map en_obj items) as Hit.
      { destruct Hi as [[-> Hi]|[_ (its & Hs & Hi)]].
        - apply Permutation_nil in Hp as ->. rewrite Hi. unfold slice in Hsl. destruct (_ && _); [|done]. injection Hsl as <-. by rewrite drop_nil, take_nil.
        - unfold store_page in Hs. rewrite Ehl in Hs. rewrite Hs in Hsl. by injection Hsl as <-. }
      unfold list_items. rewrite He. destruct labels as [ls|]; [|by rewrite Hit, Ht]. apply negb_false_iff in Ehl. by rewrite Ehl, Hit, Ht.
  Qed.
  Lemma request_sel_ok r p labels : list_request conf r p labels -> match labels with Some ls => sel_ok ls | None => True end.
  Proof. intros (_ & _ & s & _ & H). destruct labels; [|done]. by eapply list_selector_ok. Qed.
End lists.
Lemma effective_page cf p p1 : effective cf p p1 -> pg_page p1 = pg_page p /\ pg_size p1 = pg_size p /\ pg_sort p1 = pg_sort p.
Proof.
  destruct 1; [done|]. unfold set_clusters. destruct (search_selector _) as [ls|]; [|done]. destruct (existsb _ _); [done|].
  destruct (set_search_selector p _) as [p'|] eqn:E; [|done]. destruct (set_search_some _ _ _ E) as [s ->]. done.
Qed.
