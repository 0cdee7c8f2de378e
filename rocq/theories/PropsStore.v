(** Properties of the cache: C17-C28, C54-C57. *)
From Coq Require Import Ascii String NArith ZArith Lia.
From stdpp Require Import base gmap strings list sorting.
From Verif Require Import ModelStr ModelSort ProofsSort ProofsStr ModelLabels SpecLabels ProofsLabels ModelPage SpecPage ProofsPage ModelJson
  ModelStore SpecStore ProofsStore ProofsQueryStore ProofsIndex ProofsSortText ProofsGauge ProofsListing.

Local Notation key := (gostr * gostr * gostr)%type.

(** ** A small cache for the examples *)
(** Index expressions read the label of the same text; numbers are decimal digits. *)
Fixpoint digits (acc : Z) (s : gostr) : option Z :=
  match s with
  | [] => Some acc
  | c :: s' => if ((48 <=? code c) && (code c <=? 57))%N then digits (10 * acc + Z.of_N (code c - 48)) s' else None
  end.
Definition ex_env : env :=
  Env (fun _ => true) (fun x o => match o with OKube k => default [] (k_labels k !! x) | ORaw _ => [] end)
    Z (fun s => match s with [] => None | _ => digits 0 s end) Z.ltb Z.eqb.
Definition pods : gvr := ([], str "v1", str "pods").
Definition nodes : gvr := ([], str "v1", str "nodes").
Definition ex_conf : gmap gvr (gmap gostr gostr) :=
  {[ pods := {[ str "size" := str "{size}"; str "kind" := str "pod" ]} ]}.
Lemma ex_conf_pods : ex_conf !! pods = Some {[ str "size" := str "{size}"; str "kind" := str "pod" ]}.
Proof. apply lookup_singleton. Qed.
Definition pod (ns n size : string) : obj :=
  OKube (KObj (str ns) (str n) false ∅ {[ str "{size}" := str size ]} [] JNull).
Definition c1 : gostr := str "c1".
Definition c2 : gostr := str "c2".
(** a, b in default of c1, c in kube of c1, a in default of c2 (modified once), d deleted. *)
Definition ex_history : list call :=
  [CAdd pods c1 (pod "default" "a" "10"); CAdd pods c1 (pod "default" "b" "9"); CAdd pods c2 (pod "default" "a" "1");
   CAdd pods c1 (pod "kube" "c" "9"); CAdd pods c1 (pod "default" "d" "x"); CMod pods c2 (pod "default" "a" "7");
   CDel pods c1 (pod "default" "d" "x")].
Definition ok_store (r : result store) : store := match r with Ok s => s | Panics => new_store ∅ end.
Definition ex_store : store := ok_store (run_calls ex_env (new_store ex_conf) ex_history).
Lemma ex_store_ok : run_calls ex_env (new_store ex_conf) ex_history = Ok ex_store.
Proof.
  unfold ex_store. destruct (run_calls ex_env (new_store ex_conf) ex_history) eqn:Hr; [done|]. exfalso.
  destruct (proj2 (run_ok_iff ex_env ex_conf ex_history)) as [st Hst]; [|congruence].
  unfold ex_history. repeat (apply Forall_cons; split; [cbn [call_gvr]; rewrite ex_conf_pods; by eexists|]). apply Forall_nil_2.
Qed.
Lemma ex_kube : Forall kube_call ex_history.
Proof. unfold ex_history. repeat (apply Forall_cons; split; [by eexists|]). apply Forall_nil_2. Qed.
(** Names, to read results. *)
Definition obj_id (o : obj) : gostr := match o with OKube k => k_ns k ++ str "/" ++ k_name k | ORaw _ => [] end.
Definition ids (r : result qres) : option (bool * Z * list gostr) :=
  match r with Ok q => Some (q_err q, q_total q, map obj_id (q_items q)) | Panics => None end.
Definition pg (page size : Z) (sort search : string) : paginate := Paginate page size 0 (str sort) (str search).

(** ** C17 *)
Theorem C17_cache_is_last_event E conf h st g c ns n : run_calls E (new_store conf) h = Ok st ->
  (forall o', store_get st g c ns n = Some o' ->
     exists h1 k h2 o, h = h1 ++ k :: h2 /\ stores_key E conf k g c ns n o /\
       Forall (fun k => ~ touches_key E conf k g c ns n) h2 /\ stored_as c o o') /\
  (forall h1 k h2 o, h = h1 ++ k :: h2 -> stores_key E conf k g c ns n o ->
     Forall (fun k => ~ touches_key E conf k g c ns n) h2 ->
     exists o', store_get st g c ns n = Some o' /\ stored_as c o o').
Proof.
  intros Hr. unfold store_get. split.
  - intros o' Ho. destruct (lookup_entry st g c ns n) as [e|] eqn:El; [|done]. injection Ho as <-.
    apply (history_some E conf h st g c ns n e Hr) in El as (h1 & k & h2 & o & -> & Hs & HF & ->).
    exists h1, k, h2, o. repeat (split; [done|]). apply build_stored.
  - intros h1 k h2 o Hh Hs HF.
    assert (lookup_entry st g c ns n = Some (build E (default ∅ (conf !! g)) c o).2) as ->.
    { apply (history_some E conf h st g c ns n _ Hr). by exists h1, k, h2, o. }
    eexists. split; [done|]. apply build_stored.
Qed.
Print Assumptions C17_cache_is_last_event.
(** Histories of configured types do run, so the theorem speaks about all of them. *)
Theorem C17_configured_histories_run E conf h :
  (exists st, run_calls E (new_store conf) h = Ok st) <-> Forall (fun k => is_Some (conf !! call_gvr k)) h.
Proof. apply run_ok_iff. Qed.
Print Assumptions C17_configured_histories_run.
Example C17_example : obj_id <$> store_get ex_store pods c2 (str "default") (str "a") = Some (str "default/a") /\
  store_get ex_store pods c1 (str "default") (str "d") = None.
Proof. split; vm_compute; reflexivity. Qed.

(** ** C18 *)
Theorem C18_unpaginated_query E st g ns page total sort search r :
  query E st g ns (Paginate page 0 total sort search) (Ok r) -> q_err r = false ->
  exists ks es, matches_listed E st g ns search ks es /\ q_items r = map en_obj es /\ q_total r = Z.of_nat (length es).
Proof.
  intros Hq He. destruct (query_ok E _ _ _ _ _ Hq He) as (ks & es & m & Hm & Ht & Hp & _ & Hi & _). cbn [pg_search] in Hm.
  exists ks, es. split; [done|]. split; [|done]. destruct Hi as [[-> Hi]|[_ (items & Hsl & Hi)]].
  - rewrite Hi. apply Permutation_nil in Hp. by subst.
  - unfold page_of in Hsl. cbn in Hsl. rewrite slice_all in Hsl. injection Hsl as <-. done.
Qed.
Print Assumptions C18_unpaginated_query.
Theorem C18_always_answers E st g ns page total sort search r : is_store_gvr st g = true ->
  query E st g ns (Paginate page 0 total sort search) r -> r <> Panics.
Proof.
  unfold is_store_gvr, query. destruct (st_map st !! g); [|done]. intros _ (seen & _ & ->).
  rewrite query_seen_eq. cbn [pg_search pg_sort]. destruct (matched E search seen) as [|e m] eqn:Em; [done|]. rewrite <- Em.
  destruct (sort_objs E (matched E search seen) sort) as [es|] eqn:Es; [|done]. cbv zeta. unfold page_of. cbn [pg_size].
  change (0 =? 0)%Z with true. cbn [fst snd]. apply sort_objs_perm, Permutation_length in Es. rewrite <- Es, slice_all. done.
Qed.
Print Assumptions C18_always_answers.
Example C18_example : ids (query_with ex_env false ex_store pods (str "default") (pg 0 0 "" "size=!9")) =
    Some (false, 2%Z, [str "default/a"; str "default/a"]) /\
  ids (query_with ex_env true ex_store pods [] (pg 3 0 "" "kind=pod")) =
    Some (false, 4%Z, [str "default/a"; str "default/b"; str "kube/c"; str "default/a"]).
Proof. split; vm_compute; reflexivity. Qed.

(** ** C19 *)
Theorem C19_other_types_and_clusters E st k st' g c ns n : do_call E st k = Ok st' ->
  call_gvr k <> g \/ call_cluster k <> c -> store_get st' g c ns n = store_get st g c ns n.
Proof.
  intros H Hne. unfold store_get. rewrite (call_lookup E _ _ _ g c ns n H). unfold after.
  by rewrite decide_False by naive_solver.
Qed.
Print Assumptions C19_other_types_and_clusters.
Theorem C19_other_objects E st k st' g c ns n o : do_call E st k = Ok st' ->
  k = CAdd g c o \/ k = CMod g c o \/ k = CDel g c o -> obj_key E (default ∅ (st_conf st !! g)) o <> (ns, n) ->
  store_get st' g c ns n = store_get st g c ns n.
Proof.
  intros H Hk Hne. unfold store_get. rewrite (call_lookup E _ _ _ g c ns n H). unfold after, conf_of.
  destruct Hk as [->|[->| ->]]; cbn [call_gvr call_cluster]; rewrite decide_True by done; by rewrite decide_False by done.
Qed.
Print Assumptions C19_other_objects.
Example C19_example : exists st', do_call ex_env ex_store (CDel pods c1 (pod "default" "a" "")) = Ok st' /\
  obj_id <$> store_get st' pods c2 (str "default") (str "a") = Some (str "default/a") /\
  obj_id <$> store_get st' pods c1 (str "default") (str "b") = Some (str "default/b") /\
  store_get st' pods c1 (str "default") (str "a") = None.
Proof.
  exists (ok_store (do_call ex_env ex_store (CDel pods c1 (pod "default" "a" "")))). split.
  - destruct (do_call ex_env ex_store (CDel pods c1 (pod "default" "a" ""))) eqn:Hd; [done|]. apply call_panics in Hd.
    assert (is_Some (st_map ex_store !! pods)) as [? Hs]; [|cbn [call_gvr] in Hd; congruence].
    rewrite (run_dom _ _ _ _ pods ex_store_ok). apply new_dom. rewrite ex_conf_pods. by eexists.
  - split; [|split]; vm_compute; reflexivity.
Qed.

(** ** C20 *)
Theorem C20_total_and_page E st g ns page size total sort search r :
  query E st g ns (Paginate page size total sort search) (Ok r) -> q_err r = false ->
  (1 <= page)%Z -> (1 <= size)%Z -> (page * size < 2 ^ 63)%Z ->
  exists ks es, matches_listed E st g ns search ks es /\ q_total r = Z.of_nat (length es) /\
    query E st g ns (Paginate page 0 total sort search) (Ok (QRes false (Z.of_nat (length es)) (map en_obj es))) /\
    q_items r = map en_obj (take (Z.to_nat size) (drop (Z.to_nat ((page - 1) * size)) es)).
Proof.
  intros Hq He H1 H2 H3. destruct (query_ok E _ _ _ _ _ Hq He) as (ks & es & m & Hm & Ht & Hp & _ & Hi & Hu). cbn [pg_search] in Hm.
  rewrite Ht in Hu. exists ks, es. split; [done|]. split; [done|]. split; [exact Hu|].
  destruct Hi as [[-> Hi]|[_ (items & Hsl & Hi)]].
  - rewrite Hi. apply Permutation_nil in Hp. subst. by rewrite drop_nil, take_nil.
  - unfold page_of in Hsl. cbn [pg_size pg_page] in Hsl. destruct (Z.eqb_spec size 0); [lia|].
    pose proof (slice_page es page size H1 H2 H3) as Hsp. cbv zeta in Hsp. rewrite Hsp in Hsl. injection Hsl as <-. done.
Qed.
Print Assumptions C20_total_and_page.
Example C20_example : ids (query_with ex_env false ex_store pods [] (pg 2 3 "size!int desc, namespace" "")) =
    Some (false, 4%Z, [str "default/a"]) /\
  ids (query_with ex_env false ex_store pods [] (pg 1 3 "size!int desc, namespace" "")) =
    Some (false, 4%Z, [str "default/a"; str "default/b"; str "kube/c"]) /\
  ids (query_with ex_env false ex_store pods [] (pg 9 3 "" "")) = Some (false, 4%Z, []).
Proof. split; [|split]; vm_compute; reflexivity. Qed.

(** ** C21 *)
Lemma default_list E conf h st g ns search cs : Forall kube_call h -> run_calls E (new_store conf) h = Ok st ->
  st_map st !! g = Some cs ->
  exists ks L, matches_listed E st g ns search ks L /\
    StronglySorted (fun a b => lex_le E (fun _ => 0%Z) by_key (en_index a) (en_index b)) L /\
    forall seen, scan ns cs seen -> sort_objs E (matched E search seen) [] = Some L.
Proof.
  intros Hk Hr Hg. destruct (scan_ex ns cs) as [seen0 Hs0].
  assert (forall seen, scan ns cs seen -> forall e, e ∈ matched E search seen -> exists k, in_scope st g ns k e) as Hsc.
  { intros seen Hs e [He _]%elem_of_matched. by eapply seen_scope. }
  set (L := gosort (entry_less E by_key) (matched E search seen0)).
  destruct (scan_matches E st g ns cs search seen0 L Hg Hs0 (gosort_perm _ _)) as (ks & Hks).
  exists ks, L. split; [done|].
  assert (forall seen, scan ns cs seen -> sort_objs E (matched E search seen) [] = Some L) as HL.
  { intros seen Hs. rewrite (default_sort_objs E conf h st g ns _ Hk Hr (Hsc seen Hs)). f_equal.
    apply (default_sort_unique E conf h st g ns _ _ Hk Hr (Hsc seen Hs)). unfold matched.
    pose proof (scan_perm ns cs seen seen0 Hs Hs0) as Hp.
    clear -Hp. induction Hp as [|x a b Hp IH|x y a|a b d _ IH1 _ IH2]; cbn [List.filter]; [done| | |by etransitivity].
    - destruct (match entry_match E search x with Some true => true | _ => false end); [by constructor|done].
    - destruct (match entry_match E search x with Some true => true | _ => false end),
        (match entry_match E search y with Some true => true | _ => false end); try done. constructor. }
  split; [|done].
  apply (sort_objs_sorted E (fun _ => 0%Z) (fun _ => False) (matched E search seen0) [] by_key L (by_key_rank E)).
  - intros o Ho. destruct (Hsc _ Hs0 o Ho) as (k & [Hlk _]). destruct (kube_entry E conf h st g _ _ _ _ Hk Hr Hlk) as (ko & _ & _ & ->).
    destruct (build_index E (default ∅ (conf !! g)) k.1.1 ko) as (A & B & C & _). apply default_keys; by eexists.
  - intros. apply by_key_numeric.
  - by apply HL.
Qed.
(** One list that does not depend on page or iteration order, sorted by cluster, namespace, name. *)
Theorem C21_pages_of_one_list E conf h st g ns search : Forall kube_call h -> run_calls E (new_store conf) h = Ok st ->
  is_Some (conf !! g) ->
  exists ks L, matches_listed E st g ns search ks L /\
    StronglySorted (fun a b => lex_le E (fun _ => 0%Z) by_key (en_index a) (en_index b)) L /\
    forall page size total r, (1 <= page)%Z -> (1 <= size)%Z -> (page * size < 2 ^ 63)%Z ->
      query E st g ns (Paginate page size total [] search) r ->
      exists q, r = Ok q /\ (q_err q = false ->
        q_total q = Z.of_nat (length L) /\
        q_items q = map en_obj (take (Z.to_nat size) (drop (Z.to_nat ((page - 1) * size)) L))).
Proof.
  intros Hk Hr Hg. apply new_dom in Hg. rewrite <- (run_dom E _ _ _ g Hr) in Hg. destruct Hg as [cs Hg].
  destruct (default_list E conf h st g ns search cs Hk Hr Hg) as (ks & L & Hks & Hso & HL).
  exists ks, L. split; [done|]. split; [done|]. intros page size total r H1 H2 H3 Hq.
  unfold query in Hq. rewrite Hg in Hq. destruct Hq as (seen & Hs & ->). rewrite query_seen_eq. cbn [pg_search pg_sort].
  pose proof (HL seen Hs) as Hsort. pose proof (Permutation_length (sort_objs_perm E _ _ _ Hsort)) as Hlen.
  destruct (matched E search seen) as [|e m] eqn:Em.
  - injection Hsort as <-. eexists. split; [done|]. intros _. cbn. by rewrite drop_nil, take_nil.
  - rewrite <- Em in *. rewrite Hsort, <- Hlen. cbv zeta. unfold page_of. cbn [pg_size pg_page]. destruct (Z.eqb_spec size 0); [lia|].
    pose proof (slice_page L page size H1 H2 H3) as Hsp. cbv zeta in Hsp. rewrite Hsp. eexists. split; [done|]. done.
Qed.
Print Assumptions C21_pages_of_one_list.
(** Pages 1..k of separate queries, one after the other. *)
Lemma concat_pages (L : list entry) (size : nat) (k : nat) :
  concat (map (fun i => take size (drop (i * size) L)) (seq 0 k)) = take (k * size) L.
Proof.
  induction k as [|k IH]; [done|]. rewrite seq_S, map_app, concat_app, IH. cbn [map concat]. rewrite app_nil_r.
  replace (0 + k) with k by lia. replace (S k * size) with (k * size + size) by lia. by rewrite take_take_drop.
Qed.
Theorem C21_concatenated_pages E conf h st g ns search size total rs : Forall kube_call h -> run_calls E (new_store conf) h = Ok st ->
  is_Some (conf !! g) -> (1 <= size)%Z -> (Z.of_nat (length rs) * size < 2 ^ 63)%Z ->
  (forall i r, rs !! i = Some r ->
     query E st g ns (Paginate (Z.of_nat i + 1) size total [] search) (Ok r) /\ q_err r = false) ->
  exists ks L, matches_listed E st g ns search ks L /\
    concat (map q_items rs) = map en_obj (take (length rs * Z.to_nat size) L).
Proof.
  intros Hk Hr Hg Hsz Hlen Hrs. destruct (C21_pages_of_one_list E conf h st g ns search Hk Hr Hg) as (ks & L & HL & _ & Hpage).
  exists ks, L. split; [done|]. rewrite <- concat_pages, concat_map, map_map. f_equal.
  apply list_eq. intros i. rewrite !list_lookup_fmap. destruct (rs !! i) as [r|] eqn:Ei.
  - pose proof (lookup_lt_Some _ _ _ Ei) as Hi. rewrite lookup_seq_lt by done. cbn [fmap option_fmap option_map]. f_equal.
    destruct (Hrs i r Ei) as [Hq He].
    destruct (Hpage (Z.of_nat i + 1)%Z size total (Ok r)) as (q & [= <-] & Hitems); [lia|lia|nia|done|].
    destruct (Hitems He) as [_ ->]. f_equal. f_equal. f_equal. lia.
  - apply lookup_ge_None in Ei. rewrite lookup_seq_ge by done. done.
Qed.
Print Assumptions C21_concatenated_pages.
Example C21_example :
  ids (query_with ex_env false ex_store pods [] (pg 1 3 "" "")) = Some (false, 4%Z, [str "default/a"; str "default/b"; str "kube/c"]) /\
  ids (query_with ex_env true ex_store pods [] (pg 2 3 "" "")) = Some (false, 4%Z, [str "default/a"]).
Proof. split; vm_compute; reflexivity. Qed.
