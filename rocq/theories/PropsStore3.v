(** Properties of the cache, continued: C26-C28, C54-C57. *)
From Coq Require Import Ascii String NArith ZArith Lia.
From stdpp Require Import base gmap strings list sorting.
From Verif Require Import ModelStr ModelSort ProofsSort ProofsStr ModelLabels SpecLabels ProofsLabels ModelPage SpecPage ProofsPage ModelJson
  ModelStore SpecStore ProofsStore ProofsQueryStore ProofsIndex ProofsSortText ProofsGauge ProofsListing PropsStore.

Local Notation key := (gostr * gostr * gostr)%type.

(** ** C26 *)
Theorem C26_builtin_index E conf h st g c ns n e : Forall kube_call h -> run_calls E (new_store conf) h = Ok st ->
  lookup_entry st g c ns n = Some e ->
  exists k k', (CAdd g c (OKube k) ∈ h \/ CMod g c (OKube k) ∈ h) /\ en_obj e = OKube k' /\ stored_as c (OKube k) (OKube k') /\
    en_index e !! str "cluster" = Some c /\
    en_index e !! str "namespace" = Some (k_ns k) /\ k_ns k = ns /\
    en_index e !! str "name" = Some (k_name k) /\ k_name k = n /\
    en_index e !! str "is_deleted" = Some (if k_deleted k then str "true" else str "false") /\
    (forall x, x ∉ [str "cluster"; str "namespace"; str "name"; str "is_deleted"] ->
       en_index e !! x = index_value E (OKube k) <$> default ∅ (conf !! g) !! x).
Proof.
  intros Hk Hr He. pose proof He as Hh.
  apply (history_some E conf h st g c ns n e Hr) in Hh as (h1 & kk & h2 & o & -> & [Hs Hkey] & _ & ->).
  apply Forall_app in Hk as [_ Hk]. apply Forall_cons_1 in Hk as [Hk _].
  assert (exists x, o = OKube x) as [x ->] by (by destruct Hs as [->| ->]). cbn in Hkey. injection Hkey as Hns Hn.
  destruct (build_index E (default ∅ (conf !! g)) c x) as (A & B & C & D & F).
  pose proof (build_stored E (default ∅ (conf !! g)) c (OKube x)) as Hst.
  destruct (en_obj (build E (default ∅ (conf !! g)) c (OKube x)).2) as [k'|] eqn:Eo; [|done].
  exists x, k'. split; [destruct Hs as [->| ->]; [left|right]; set_solver|]. repeat (split; [done|]). done.
Qed.
Print Assumptions C26_builtin_index.
Theorem C26_same_index_keys E conf h st g c1 ns1 n1 e1 c2 ns2 n2 e2 : Forall kube_call h -> run_calls E (new_store conf) h = Ok st ->
  lookup_entry st g c1 ns1 n1 = Some e1 -> lookup_entry st g c2 ns2 n2 = Some e2 ->
  forall x, is_Some (en_index e1 !! x) <-> is_Some (en_index e2 !! x).
Proof.
  intros Hk Hr H1 H2. apply (entries_same_keys E conf h st h st g (c1, ns1, n1) e1 (c2, ns2, n2) e2 [] []); auto; split; auto.
Qed.
Print Assumptions C26_same_index_keys.
(** A configured entry "cluster" is overridden; the text of the annotation is made before the
    metadata are put into the index (finding: configured name and namespace may differ there). *)
Definition anno_conf : gmap gvr (gmap gostr gostr) := {[ pods := {[ str "name" := str "x"; str "cluster" := str "y" ]} ]}.
Example C26_example :
  (fun e => (en_index e !! str "name", en_index e !! str "cluster",
     match en_obj e with OKube k => k_annos k !! str "ckube.daocloud.io/indexes" | ORaw _ => None end)) <$>
    lookup_entry (ok_store (run_calls ex_env (new_store anno_conf) [CAdd pods c1 (pod "default" "a" "")])) pods c1 (str "default") (str "a") =
  Some (Some (str "a"), Some c1,
    Some (str "{" ++ json_str (str "cluster") ++ str ":" ++ json_str c1 ++ str "," ++ json_str (str "is_deleted") ++ str ":" ++ json_str (str "false") ++
          str "," ++ json_str (str "name") ++ str ":" ++ json_str (str "x") ++ str "}")).
Proof. vm_compute. reflexivity. Qed.

(** ** C27 *)
Theorem C27_clean E conf h st g c err st' : run_calls E (new_store conf) h = Ok st -> clean st g c = Ok (err, st') ->
  (err = true <-> ~ Exists (fun k => event_of k g c) h) /\ (err = true -> st' = st) /\
  (forall ns n, store_get st' g c ns n = None) /\
  (forall g' c' ns n, g' <> g \/ c' <> c -> store_get st' g' c' ns n = store_get st g' c' ns n).
Proof.
  intros Hr Hc. pose proof (seen_iff E conf h st g c Hr) as Hseen.
  assert (do_call E st (CClean g c) = Ok st') as Hd by (cbn; by rewrite Hc).
  split; [|split; [|split]].
  - rewrite <- Hseen. unfold clean in Hc. unfold nss_of. destruct (st_map st !! g) as [cs|] eqn:Eg; [|done]. cbn [mbind option_bind].
    destruct (cs !! c) eqn:Ec; injection Hc as <- <-; (split; [intros H1 H2|intros H1]); try done.
    + exfalso. apply H1. by eexists.
    + by destruct H2.
  - unfold clean in Hc. destruct (st_map st !! g) as [cs|]; [|done]. destruct (cs !! c); injection Hc as <- <-; done.
  - intros ns n. unfold store_get. rewrite (call_lookup E _ _ _ g c ns n Hd). unfold after. cbn [call_gvr call_cluster].
    by rewrite decide_True by done.
  - intros g' c' ns n Hne. unfold store_get. rewrite (call_lookup E _ _ _ g' c' ns n Hd). unfold after. cbn [call_gvr call_cluster].
    by rewrite decide_False by naive_solver.
Qed.
Print Assumptions C27_clean.
Theorem C27_clean_panics E conf h st g c : run_calls E (new_store conf) h = Ok st ->
  clean st g c = Panics <-> conf !! g = None.
Proof.
  intros Hr. rewrite !eq_None_not_Some, <- (new_dom conf g), <- (run_dom E _ _ _ g Hr). unfold clean.
  destruct (st_map st !! g) as [cs|].
  - split; [destruct (cs !! c); done|]. intros H. exfalso. apply H. by eexists.
  - split; [by intros _ []|done].
Qed.
Print Assumptions C27_clean_panics.
Example C27_example :
  match clean ex_store pods c1 with
  | Ok (err, st') => err = false /\ ids (query_with ex_env false st' pods [] (pg 0 0 "" "")) = Some (false, 1%Z, [str "default/a"])
  | Panics => False
  end /\
  match clean ex_store pods (str "c9") with Ok (err, _) => err = true | Panics => False end /\
  match clean ex_store nodes c1 with Ok _ => False | Panics => True end.
Proof. vm_compute. auto. Qed.

(** ** C28 *)
Theorem C28_gauge_after_event E conf h k st g c o names : run_calls E (new_store conf) (h ++ [k]) = Ok st ->
  k = CAdd g c o \/ k = CMod g c o \/ k = CDel g c o ->
  let ns := (obj_key E (default ∅ (conf !! g)) o).1 in
  cached_names st g c ns names -> st_gauge st !! (c, g, ns) = Some (N.of_nat (length names)).
Proof.
  intros Hr Hk ns Hn. apply run_snoc in Hr as (st1 & H1 & H2).
  assert (exists f, on_event E st1 g c o f = Ok st) as [f Hf] by (destruct Hk as [->|[->| ->]]; by eexists).
  pose proof (event_gauge E _ _ _ _ _ _ (c, g, ns) Hf) as Hg.
  assert (conf_of st1 g = default ∅ (conf !! g)) as Hc by (unfold conf_of; by rewrite (run_conf E _ _ _ H1)). rewrite Hc in Hg.
  rewrite decide_True in Hg by done. rewrite Hg. do 2 f_equal. destruct (names_of st g c ns) as (names' & Hn' & Hl).
  rewrite (names_unique st g c ns names names' Hn Hn'). by rewrite Hl.
Qed.
Print Assumptions C28_gauge_after_event.
(** Without a clean of the pair all its gauges are right; a missing gauge means no object. *)
Theorem C28_gauge_without_clean E conf h st g c ns names : run_calls E (new_store conf) h = Ok st -> CClean g c ∉ h ->
  cached_names st g c ns names -> default 0%N (st_gauge st !! (c, g, ns)) = N.of_nat (length names).
Proof.
  intros Hr Hc Hn. rewrite (gauge_inv E conf h st g c ns Hr Hc). destruct (names_of st g c ns) as (names' & Hn' & Hl).
  rewrite (names_unique st g c ns names names' Hn Hn'), Hl. by destruct (nss ← nss_of st g c; nss !! ns).
Qed.
Print Assumptions C28_gauge_without_clean.
(** Every namespace has such a list of names. *)
Theorem C28_names_exist st g c ns : exists names, cached_names st g c ns names.
Proof. destruct (names_of st g c ns) as (names & H & _). by exists names. Qed.
Theorem C28_stale_after_clean_refuted : exists st,
  run_calls ex_env (new_store ex_conf) [CAdd pods c1 (pod "default" "a" ""); CClean pods c1] = Ok st /\
  cached_names st pods c1 (str "default") [] /\ st_gauge st !! (c1, pods, str "default") = Some 1%N.
Proof.
  set (h := [CAdd pods c1 (pod "default" "a" ""); CClean pods c1]).
  exists (ok_store (run_calls ex_env (new_store ex_conf) h)). split; [|split; [|vm_compute; reflexivity]].
  - destruct (run_calls ex_env (new_store ex_conf) h) eqn:Hr; [done|]. exfalso.
    destruct (proj2 (run_ok_iff ex_env ex_conf h)) as [st Hst]; [|congruence].
    unfold h. repeat (apply Forall_cons; split; [cbn [call_gvr]; rewrite ex_conf_pods; by eexists|]). apply Forall_nil_2.
  - assert (exists st1, run_calls ex_env (new_store ex_conf) h = Ok st1) as [st1 H1].
    { apply run_ok_iff. unfold h. repeat (apply Forall_cons; split; [cbn [call_gvr]; rewrite ex_conf_pods; by eexists|]). apply Forall_nil_2. }
    rewrite H1. cbn [ok_store]. split; [constructor|]. intros n. split; [by intros ?%elem_of_nil|].
    change h with ([CAdd pods c1 (pod "default" "a" "")] ++ [CClean pods c1]) in H1. apply run_snoc in H1 as (st0 & _ & H2).
    rewrite (call_lookup _ _ _ _ _ _ _ _ H2). unfold after. cbn [call_gvr call_cluster]. rewrite decide_True by done. by intros [].
Qed.
Print Assumptions C28_stale_after_clean_refuted.
Example C28_example : st_gauge ex_store !! (c1, pods, str "default") = Some 2%N /\ st_gauge ex_store !! (c2, pods, str "default") = Some 1%N /\
  st_gauge ex_store !! (c2, pods, str "kube") = None.
Proof. split; [|split]; vm_compute; reflexivity. Qed.

(** ** C54 *)
Theorem C54_errors_do_not_depend_on_chance E conf h1 st1 h2 st2 g ns1 ns2 page1 size1 total1 page2 size2 total2 sort search k1 e1 k2 e2 r1 r2 :
  Forall kube_call h1 -> run_calls E (new_store conf) h1 = Ok st1 ->
  Forall kube_call h2 -> run_calls E (new_store conf) h2 = Ok st2 ->
  in_scope st1 g ns1 k1 e1 -> entry_match E search e1 <> Some false ->
  in_scope st2 g ns2 k2 e2 -> entry_match E search e2 <> Some false ->
  (forall a b, sort <> a ++ str "!int" ++ b) ->
  query E st1 g ns1 (Paginate page1 size1 total1 sort search) (Ok r1) ->
  query E st2 g ns2 (Paginate page2 size2 total2 sort search) (Ok r2) -> q_err r1 = q_err r2.
Proof.
  intros Hk1 Hr1 Hk2 Hr2 H1 M1 H2 M2 Hs Q1 Q2.
  assert (~ infix_of (str "!int") sort) as Hs' by (intros (a & b & ?); by eapply Hs).
  pose proof (query_err E conf h1 st1 g ns1 _ r1 k1 e1 Hk1 Hr1 Q1 H1 M1 Hs') as A1.
  pose proof (query_err E conf h2 st2 g ns2 _ r2 k2 e2 Hk2 Hr2 Q2 H2 M2 Hs') as A2. cbn [pg_search pg_sort] in A1, A2.
  pose proof (entries_same_keys E conf h1 st1 h2 st2 g k1 e1 k2 e2 ns1 ns2 Hk1 Hr1 Hk2 Hr2 H1 H2) as Hsk.
  assert (same_keys (en_index e2) (en_index e1)) as Hsk' by (intros x; symmetry; apply Hsk).
  rewrite (sort_keys_same _ _ _ Hsk') in A2.
  assert (entry_match E search e1 = None <-> entry_match E search e2 = None) as HM by (split; by apply entry_match_err).
  rewrite HM, <- A2 in A1. by apply eq_true_iff_eq.
Qed.
Print Assumptions C54_errors_do_not_depend_on_chance.
(** When only non-matching objects are in scope the search does not fail, whatever the sort. *)
Example C54_example :
  ids (query_with ex_env false ex_store pods [] (pg 0 0 "nokey" "")) = Some (true, 0%Z, []) /\
  ids (query_with ex_env true ex_store pods (str "kube") (pg 1 1 "nokey" "")) = Some (true, 0%Z, []) /\
  ids (query_with ex_env true ex_store pods [] (pg 0 0 "" "nokey=1; size=1")) = Some (true, 0%Z, []) /\
  ids (query_with ex_env true ex_store pods [] (pg 0 0 "nokey" "size=88")) = Some (false, 0%Z, []).
Proof. repeat split; vm_compute; reflexivity. Qed.

(** ** C55 *)
Lemma sort_single_int E objs k rev : plain_key k -> (forall o, o ∈ objs -> is_Some (en_index o !! k)) ->
  sort_objs E objs (sort_text [ISort k true rev]) = None <->
  2 <= length objs /\ exists o, o ∈ objs /\ e_parse E (default [] (en_index o !! k)) = None.
Proof.
  intros Hk Hidx. unfold sort_objs.
  assert (Forall (fun s => plain_key (is_key s)) [ISort k true rev]) as Hpl by (by constructor).
  destruct objs as [|o0 objs]; [split; [done|intros [? _]; cbn in *; lia]|]. set (l := o0 :: objs) in *.
  rewrite sort_text_nonempty by done. rewrite sort_keys_text by done.
  cbn [forallb is_key]. destruct (Hidx o0 ltac:(left)) as [v0 ->]. cbn [andb].
  assert (forall a b, entry_bad E [ISort k true rev] a b = true <->
    e_parse E (default [] (en_index a !! k)) = None \/ e_parse E (default [] (en_index b !! k)) = None) as Hbad.
  { intros a b. unfold entry_bad. cbn [sort_less is_int is_key].
    destruct (e_parse E (default [] (en_index a !! k))) as [x|], (e_parse E (default [] (en_index b !! k))) as [y|]; cbn; try naive_solver.
    destruct (e_eq E x y); cbn; naive_solver. }
  destruct (existsb _ _) eqn:Hex.
  - split; [|done]. intros _. apply existsb_exists in Hex as ([a b] & Hin & Hb). apply elem_of_list_In in Hin.
    cbn in Hb. apply Hbad in Hb. split.
    + destruct objs as [|o1 objs]; [|cbn; lia]. exfalso. assert (gosort_log (entry_less E [ISort k true rev]) l = []) as Hl by reflexivity.
      rewrite Hl in Hin. by apply elem_of_nil in Hin.
    + apply gosort_log_in in Hin as [Ha Hb']. destruct Hb; eauto.
  - split; [done|]. intros [Hlen (o & Ho & Hn)]. exfalso.
    destruct (gosort_covers (entry_less E [ISort k true rev]) l Hlen o Ho) as (y & Hy).
    assert (existsb (fun p : entry * entry => entry_bad E [ISort k true rev] p.1 p.2) (gosort_log (entry_less E [ISort k true rev]) l) = true); [|congruence].
    apply existsb_exists. destruct Hy as [Hy|Hy].
    + exists (o, y). split; [by apply elem_of_list_In|]. apply Hbad. by left.
    + exists (y, o). split; [by apply elem_of_list_In|]. apply Hbad. by right.
Qed.
Theorem C55_numeric_sort_fails_iff E conf h st g ns page total k rev r :
  Forall kube_call h -> run_calls E (new_store conf) h = Ok st -> is_Some (conf !! g) ->
  plain_key k -> k ∈ [str "cluster"; str "namespace"; str "name"; str "is_deleted"] \/ is_Some (default ∅ (conf !! g) !! k) ->
  query E st g ns (Paginate page 0 total (sort_text [ISort k true rev]) []) r ->
  exists q, r = Ok q /\
    (q_err q = true <->
     (exists k1 e1 k2 e2, k1 <> k2 /\ in_scope st g ns k1 e1 /\ in_scope st g ns k2 e2) /\
     (exists k1 e1, in_scope st g ns k1 e1 /\ e_parse E (default [] (en_index e1 !! k)) = None)).
Proof.
  intros Hk Hr Hg Hpl Hidx Hq. apply new_dom in Hg. rewrite <- (run_dom E _ _ _ g Hr) in Hg. destruct Hg as [cs Hg].
  pose proof Hq as Hq'. unfold query in Hq. rewrite Hg in Hq. destruct Hq as (seen & Hs & ->).
  assert (forall e, entry_match E [] e = Some true) as Hall by done.
  assert (matched E [] seen = seen) as Hm.
  { unfold matched. clear -Hall. induction seen as [|e seen IH]; [done|]. cbn [List.filter]. by rewrite Hall, IH. }
  assert (seen_err E [] seen = false) as Hse.
  { unfold seen_err. clear -Hall. induction seen as [|e seen IH]; [done|]. cbn [existsb]. by rewrite Hall, IH. }
  assert (forall e, e ∈ seen <-> exists k, in_scope st g ns k e) as Hsc by (intros e; by apply (seen_scope st g ns cs)).
  destruct (scan_matches E st g ns cs [] seen seen Hg Hs) as (ks & Hnd & HF & Hks); [by rewrite Hm|].
  pose proof (Forall2_length _ _ _ HF) as Hlen.
  assert (2 <= length seen <-> exists k1 e1 k2 e2, k1 <> k2 /\ in_scope st g ns k1 e1 /\ in_scope st g ns k2 e2) as Htwo.
  { rewrite <- Hlen. split.
    - intros H2. destruct ks as [|k1 [|k2 ks]]; cbn in H2; [lia|lia|]. inversion HF as [|? e1 ? ? [S1 _] HF']; subst.
      inversion HF' as [|? e2 ? ? [S2 _] HF'']; subst. exists k1, e1, k2, e2. split; [|done].
      apply NoDup_cons in Hnd as [Hni _]. set_solver.
    - intros (k1 & e1 & k2 & e2 & Hne & S1 & S2). pose proof (Hks k1 e1 S1 (Hall e1)) as I1. pose proof (Hks k2 e2 S2 (Hall e2)) as I2.
      destruct ks as [|a [|b ks]]; [by apply elem_of_nil in I1| |cbn; lia]. exfalso.
      apply elem_of_list_singleton in I1, I2. congruence. }
  assert (forall o, o ∈ seen -> is_Some (en_index o !! k)) as Hidx'.
  { intros o (k0 & [Hlk _])%Hsc. destruct (kube_entry E conf h st g _ _ _ _ Hk Hr Hlk) as (ko & _ & _ & ->).
    by apply (build_keys E (default ∅ (conf !! g)) k0.1.1 ko k). }
  pose proof (sort_single_int E seen k rev Hpl Hidx') as Hsort.
  assert ((exists k1 e1, in_scope st g ns k1 e1 /\ e_parse E (default [] (en_index e1 !! k)) = None) <->
    exists o, o ∈ seen /\ e_parse E (default [] (en_index o !! k)) = None) as Hbad.
  { setoid_rewrite Hsc. naive_solver. }
  enough (exists q, query_seen E (Paginate page 0 total (sort_text [ISort k true rev]) []) seen = Ok q /\
    (q_err q = true <-> sort_objs E seen (sort_text [ISort k true rev]) = None)) as (q & Hq & He).
  { exists q. split; [done|]. by rewrite Hbad, <- Htwo, <- Hsort. }
  rewrite query_seen_eq. cbn [pg_search pg_sort]. rewrite Hm, Hse.
  destruct seen as [|e0 seen0] eqn:Es; [eexists; split; [done|]; split; done|]. rewrite <- Es in *.
  destruct (sort_objs E seen (sort_text [ISort k true rev])) as [L|] eqn:Eso; [|by eexists].
  cbv zeta. unfold page_of. cbn [pg_size]. change (0 =? 0)%Z with true. cbn [fst snd].
  rewrite <- (Permutation_length (sort_objs_perm E _ _ _ Eso)), slice_all. eexists. split; [done|]. done.
Qed.
Print Assumptions C55_numeric_sort_fails_iff.
Example C55_example : sort_text [ISort (str "name") true false] = str "name!int asc" /\
  ids (query_with ex_env false ex_store pods [] (pg 0 0 "name!int asc" "")) = Some (true, 0%Z, []) /\
  ids (query_with ex_env false ex_store pods (str "kube") (pg 0 0 "name!int asc" "")) = Some (false, 1%Z, [str "kube/c"]).
Proof. repeat split; vm_compute; reflexivity. Qed.

(** ** C56 *)
Theorem C56_calls_panic_iff E conf h st k : run_calls E (new_store conf) h = Ok st ->
  do_call E st k = Panics <-> conf !! call_gvr k = None.
Proof.
  intros Hr. rewrite call_panics. rewrite !eq_None_not_Some, <- (new_dom conf (call_gvr k)), <- (run_dom E _ _ _ _ Hr). done.
Qed.
Print Assumptions C56_calls_panic_iff.
Theorem C56_query_of_unconfigured_type E conf h st g ns p r : run_calls E (new_store conf) h = Ok st ->
  conf !! g = None -> query E st g ns p r <-> r = Panics.
Proof.
  intros Hr Hg. unfold query. assert (st_map st !! g = None) as ->; [|done].
  rewrite !eq_None_not_Some in *. rewrite (run_dom E _ _ _ _ Hr), new_dom. done.
Qed.
Print Assumptions C56_query_of_unconfigured_type.
Theorem C56_get_of_unconfigured_type E conf h st g c ns n : run_calls E (new_store conf) h = Ok st ->
  conf !! g = None -> store_get st g c ns n = None.
Proof.
  intros Hr Hg. unfold store_get, lookup_entry. assert (st_map st !! g = None) as ->; [|done].
  rewrite !eq_None_not_Some in *. rewrite (run_dom E _ _ _ _ Hr), new_dom. done.
Qed.
Example C56_example : ids (query_with ex_env false ex_store nodes [] (pg 0 0 "" "")) = None /\ ex_conf !! nodes = None.
Proof. split; vm_compute; reflexivity. Qed.

(** ** C57 *)
(** A first sort item with three or more words: the list is returned in the order of the scan. *)
Theorem C57_unsorted E a b c rest objs : tight (a ++ " "%char :: b ++ " "%char :: c) -> ","%char ∉ a ++ b ++ c ->
  rest = [] \/ (exists rest', rest = ","%char :: rest') ->
  sort_objs E objs ((a ++ " "%char :: b ++ " "%char :: c) ++ rest) = Some objs.
Proof.
  intros Ht Hc Hrest. unfold sort_objs. destruct objs as [|o objs]; [done|].
  assert (str_eqb ((a ++ " "%char :: b ++ " "%char :: c) ++ rest) [] = false) as -> by (apply str_eqb_neq; by destruct a).
  assert (","%char ∉ a ++ " "%char :: b ++ " "%char :: c) as Hc'.
  { rewrite !elem_of_app in Hc. rewrite elem_of_app, elem_of_cons, elem_of_app, elem_of_cons. naive_solver. }
  assert (exists ps, split_on ","%char ((a ++ " "%char :: b ++ " "%char :: c) ++ rest) = (a ++ " "%char :: b ++ " "%char :: c) :: ps) as [ps ->].
  { destruct Hrest as [->|[rest' ->]].
    - rewrite app_nil_r. exists []. by apply split_on_nosep.
    - exists (split_on ","%char rest'). by apply split_on_app. }
  cbn [sort_keys]. by rewrite sort_part_words.
Qed.
Print Assumptions C57_unsorted.
(** So a sort by name with two spaces before "desc" lists one store in two orders, without error. *)
Theorem C57_two_spaces_refuted : exists st q1 q2, run_calls ex_env (new_store ex_conf) ex_history = Ok st /\
  query ex_env st pods (str "default") (pg 0 0 "name  desc" "cluster=c1") (Ok q1) /\ q_err q1 = false /\
  query ex_env st pods (str "default") (pg 0 0 "name  desc" "cluster=c1") (Ok q2) /\ q_err q2 = false /\
  map obj_id (q_items q1) = [str "default/b"; str "default/a"] /\ map obj_id (q_items q2) = [str "default/a"; str "default/b"].
Proof.
  set (get := fun r => match r with Ok q => q | Panics => QRes true 0 [] end).
  exists ex_store, (get (query_with ex_env false ex_store pods (str "default") (pg 0 0 "name  desc" "cluster=c1"))),
    (get (query_with ex_env true ex_store pods (str "default") (pg 0 0 "name  desc" "cluster=c1"))).
  assert (forall b, query ex_env ex_store pods (str "default") (pg 0 0 "name  desc" "cluster=c1")
     (Ok (get (query_with ex_env b ex_store pods (str "default") (pg 0 0 "name  desc" "cluster=c1"))))) as Hq.
  { intros b. pose proof (query_with_ok ex_env b ex_store pods (str "default") (pg 0 0 "name  desc" "cluster=c1")) as H.
    assert (exists q, query_with ex_env b ex_store pods (str "default") (pg 0 0 "name  desc" "cluster=c1") = Ok q) as [q Hq].
    { destruct (query_with ex_env b ex_store pods (str "default") (pg 0 0 "name  desc" "cluster=c1")) as [q|] eqn:Eq; [by exists q|].
      exfalso. assert (is_Some (ids (query_with ex_env b ex_store pods (str "default") (pg 0 0 "name  desc" "cluster=c1")))) as [? Hx].
      { destruct b; vm_compute; by eexists. } by rewrite Eq in Hx. }
    rewrite Hq in H |- *. exact H. }
  split; [exact ex_store_ok|]. split; [exact (Hq false)|]. split; [vm_compute; reflexivity|]. split; [exact (Hq true)|].
  split; [vm_compute; reflexivity|]. split; vm_compute; reflexivity.
Qed.
Print Assumptions C57_two_spaces_refuted.
Example C57_example : tight (str "name" ++ " "%char :: [] ++ " "%char :: str "desc") /\ ","%char ∉ str "name" ++ [] ++ str "desc".
Proof.
  split.
  - split; [exists "n"%char, (str "ame  desc")|exists "c"%char, (str "name  des")]; by vm_compute.
  - cbn. set_solver.
Qed.
