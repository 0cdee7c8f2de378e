(** Properties of the cache, continued: C22-C28, C54-C57. *)
From Coq Require Import Ascii String NArith ZArith Lia.
From stdpp Require Import base gmap strings list sorting.
From Verif Require Import ModelStr ModelSort ProofsSort ProofsStr ModelLabels SpecLabels ProofsLabels ModelPage SpecPage ProofsPage ModelJson
  ModelStore SpecStore ProofsStore ProofsQueryStore ProofsIndex ProofsSortText ProofsGauge ProofsListing PropsStore.

Local Notation key := (gostr * gostr * gostr)%type.

(** ** C22 *)
Theorem C22_sorted_as_requested E conf h st g ns page total search l rank P r :
  Forall kube_call h -> run_calls E (new_store conf) h = Ok st ->
  l <> [] -> Forall (fun s => plain_key (is_key s)) l -> rank_ok E rank P ->
  (forall k e, in_scope st g ns k e -> entry_match E search e = Some true -> numeric E P l (en_index e)) ->
  query E st g ns (Paginate page 0 total (sort_text l) search) (Ok r) -> q_err r = false ->
  exists ks es, matches_listed E st g ns search ks es /\ q_items r = map en_obj es /\
    StronglySorted (fun a b => lex_le E rank l (en_index a) (en_index b)) es.
Proof.
  intros Hk Hr Hne Hl Hrk Hnum Hq He.
  destruct (query_ok E _ _ _ _ _ Hq He) as (ks & es & m & Hm & Ht & Hp & Hso & Hi & _). cbn [pg_search pg_sort] in *.
  exists ks, es. split; [done|]. split.
  { destruct Hi as [[-> Hi]|[_ (items & Hsl & Hi)]].
    - rewrite Hi. apply Permutation_nil in Hp. by subst.
    - unfold page_of in Hsl. cbn in Hsl. rewrite slice_all in Hsl. injection Hsl as <-. done. }
  assert (forall e, e ∈ m -> exists k, in_scope st g ns k e /\ entry_match E search e = Some true) as Hsc.
  { intros e Hin. rewrite Hp in Hin. destruct Hm as (_ & HF & _). apply elem_of_list_lookup in Hin as (i & Hi').
    destruct (Forall2_lookup_r _ _ _ _ _ HF Hi') as (k & _ & ?). by exists k. }
  destruct m as [|e0 m']; [apply Permutation_nil in Hp; subst; constructor|].
  assert (sort_keys (en_index e0) (split_on ","%char (if str_eqb (sort_text l) [] then default_sort else sort_text l)) = Some (Some l)) as Hkeys.
  { pose proof Hso as Hso'. unfold sort_objs in Hso'. rewrite sort_text_nonempty in * by done.
    rewrite sort_keys_text in * by done. by destruct (forallb _ l). }
  eapply (sort_objs_sorted E rank P (e0 :: m') (sort_text l) l es Hrk); [| |exact Hso].
  - intros o Ho. rewrite <- Hkeys. apply sort_keys_same. destruct (Hsc o Ho) as (k & Hko & _). destruct (Hsc e0 ltac:(left)) as (k0 & Hk0 & _).
    by eapply (entries_same_keys E conf h st h st).
  - intros o Ho. destruct (Hsc o Ho) as (k & Hko & Hmo). by eapply Hnum.
Qed.
Print Assumptions C22_sorted_as_requested.
(** Such sorts are accepted: with all keys in the index and numeric values there is no error. *)
Theorem C22_valid_sort_accepted E conf h st g ns page total l rank P r :
  Forall kube_call h -> run_calls E (new_store conf) h = Ok st -> is_Some (conf !! g) ->
  l <> [] -> Forall (fun s => plain_key (is_key s)) l -> rank_ok E rank P ->
  Forall (fun s => is_key s ∈ [str "cluster"; str "namespace"; str "name"; str "is_deleted"] \/
                   is_Some (default ∅ (conf !! g) !! is_key s)) l ->
  (forall k e, in_scope st g ns k e -> numeric E P l (en_index e)) ->
  query E st g ns (Paginate page 0 total (sort_text l) []) r -> exists q, r = Ok q /\ q_err q = false.
Proof.
  intros Hk Hr Hg Hne Hl Hrk Hidx Hnum Hq. apply new_dom in Hg. rewrite <- (run_dom E _ _ _ g Hr) in Hg. destruct Hg as [cs Hg].
  unfold query in Hq. rewrite Hg in Hq. destruct Hq as (seen & Hs & ->). rewrite query_seen_eq. cbn [pg_search pg_sort].
  assert (forall e, entry_match E [] e = Some true) as Hall by done.
  assert (matched E [] seen = seen) as ->.
  { unfold matched. clear -Hall. induction seen as [|e seen IH]; [done|]. cbn [List.filter]. by rewrite Hall, IH. }
  assert (seen_err E [] seen = false) as ->.
  { unfold seen_err. clear -Hall. induction seen as [|e seen IH]; [done|]. cbn [existsb]. by rewrite Hall, IH. }
  destruct seen as [|e0 seen0] eqn:Es; [by eexists|]. rewrite <- Es in *.
  assert (forall e, e ∈ seen -> exists k, in_scope st g ns k e) as Hsc by (intros e; by apply (seen_scope st g ns cs)).
  rewrite (sort_objs_some E seen (sort_text l) l rank P Hrk).
  - cbv zeta. unfold page_of. cbn [pg_size]. change (0 =? 0)%Z with true. cbn [fst snd]. rewrite <- (gosort_length (entry_less E l) seen).
    rewrite slice_all. by eexists.
  - intros o (k & [Hlk Hns])%Hsc. rewrite sort_text_nonempty by done. rewrite sort_keys_text by done.
    assert (forallb (fun s => match en_index o !! is_key s with Some _ => true | None => false end) l = true) as ->; [|done].
    apply forallb_forall. intros s Hin%elem_of_list_In. rewrite Forall_forall in Hidx. specialize (Hidx s Hin).
    destruct (kube_entry E conf h st g _ _ _ _ Hk Hr Hlk) as (ko & _ & _ & ->).
    apply (build_keys E (default ∅ (conf !! g)) k.1.1 ko (is_key s)) in Hidx as [? ->]. done.
  - intros o (k & Hko)%Hsc. by eapply Hnum.
Qed.
Print Assumptions C22_valid_sort_accepted.
Example C22_example :
  sort_text [ISort (str "size") true true; ISort (str "name") false false] = str "size!int desc, name!str asc" /\
  rank_ok ex_env (fun x : Z => x) (fun _ => True) /\
  ids (query_with ex_env false ex_store pods [] (pg 0 0 "size!int desc, name!str asc" "")) =
    Some (false, 4%Z, [str "default/a"; str "default/b"; str "kube/c"; str "default/a"]) /\
  ids (query_with ex_env false ex_store pods [] (pg 0 0 "size!str desc, name!str desc" "")) =
    Some (false, 4%Z, [str "kube/c"; str "default/b"; str "default/a"; str "default/a"]).
Proof.
  split; [reflexivity|]. split; [|split; vm_compute; reflexivity].
  intros x y _ _. cbn. rewrite Z.ltb_lt, Z.eqb_eq. done.
Qed.

(** ** C23 *)
(** Page 1 and page 2 (of size 1) of the two objects a, b of one namespace, sorted by namespace. *)
Theorem C23_ties_unstable_refuted : exists conf h st p1 p2,
  run_calls ex_env (new_store conf) h = Ok st /\
  query ex_env st pods [] p1 (query_with ex_env false st pods [] p1) /\
  query ex_env st pods [] p2 (query_with ex_env true st pods [] p2) /\
  pg_sort p1 = str "namespace" /\ pg_sort p2 = pg_sort p1 /\ pg_size p1 = 1%Z /\ pg_size p2 = 1%Z /\
  pg_page p1 = 1%Z /\ pg_page p2 = 2%Z /\ pg_search p1 = pg_search p2 /\
  ids (query_with ex_env false st pods [] p1) = Some (false, 2%Z, [str "default/a"]) /\
  ids (query_with ex_env true st pods [] p2) = Some (false, 2%Z, [str "default/a"]).
Proof.
  set (h := [CAdd pods c1 (pod "default" "a" ""); CAdd pods c1 (pod "default" "b" "")]).
  exists ex_conf, h, (ok_store (run_calls ex_env (new_store ex_conf) h)), (pg 1 1 "namespace" ""), (pg 2 1 "namespace" "").
  split; [|split; [apply query_with_ok|split; [apply query_with_ok|]]].
  - destruct (run_calls ex_env (new_store ex_conf) h) eqn:Hr; [done|]. exfalso.
    destruct (proj2 (run_ok_iff ex_env ex_conf h)) as [st Hst]; [|congruence].
    unfold h. repeat (apply Forall_cons; split; [cbn [call_gvr]; rewrite ex_conf_pods; by eexists|]). apply Forall_nil_2.
  - repeat (split; [reflexivity|]). split; vm_compute; reflexivity.
Qed.
Print Assumptions C23_ties_unstable_refuted.

(** ** C24 *)
(** A non-empty result of a sort that succeeds; any page at most 0 panics. *)
Theorem C24_page_at_most_zero_panics E conf h st g ns page size total search k0 e0 r :
  Forall kube_call h -> run_calls E (new_store conf) h = Ok st ->
  in_scope st g ns k0 e0 -> entry_match E search e0 = Some true ->
  (page <= 0)%Z -> (1 <= size)%Z -> (- 2 ^ 63 <= (page - 1) * size)%Z ->
  query E st g ns (Paginate page size total [] search) r -> r = Panics.
Proof.
  intros Hk Hr H0 Hm Hp Hs Hb Hq. unfold query in Hq. destruct (st_map st !! g) as [cs|] eqn:Hg; [|done].
  destruct Hq as (seen & Hsn & ->). rewrite query_seen_eq. cbn [pg_search pg_sort].
  destruct (default_list E conf h st g ns search cs Hk Hr Hg) as (ks & L & _ & _ & HL). specialize (HL seen Hsn).
  assert (e0 ∈ matched E search seen) as Hin.
  { apply elem_of_matched. split; [|done]. eapply seen_scope; eauto. }
  destruct (matched E search seen) as [|e m] eqn:Em; [by apply elem_of_nil in Hin|]. rewrite <- Em in *. rewrite HL. cbv zeta.
  rewrite slice_out; [done|]. left. unfold page_of. cbn [pg_size pg_page]. destruct (Z.eqb_spec size 0); [lia|].
  unfold page_bounds. assert ((page - 1) * size <= -1)%Z by nia. assert (- 2 ^ 63 <= page - 1)%Z by nia.
  rewrite (wrap64_id (page - 1)) by lia. rewrite (wrap64_id ((page - 1) * size)) by lia. cbn [fst].
  destruct (Z.leb_spec (Z.of_nat (length (matched E search seen))) ((page - 1) * size)); lia.
Qed.
Print Assumptions C24_page_at_most_zero_panics.
(** A negative page size panics as well, unless the page is negative and far enough. *)
Theorem C24_negative_size E conf h st g ns page size total search k0 e0 r :
  Forall kube_call h -> run_calls E (new_store conf) h = Ok st ->
  in_scope st g ns k0 e0 -> entry_match E search e0 = Some true ->
  (size <= -1)%Z -> (- 2 ^ 63 <= (page - 1) * size < 2 ^ 63)%Z -> (- 2 ^ 63 <= page * size < 2 ^ 63)%Z ->
  query E st g ns (Paginate page size total [] search) r ->
  exists ks es, matches_listed E st g ns search ks es /\
    (if decide (page < 0 /\ Z.of_nat (length es) <= page * size)%Z
     then exists q, r = Ok q /\ q_items q = [] /\ q_total q = Z.of_nat (length es) else r = Panics).
Proof.
  intros Hk Hr H0 Hm Hs Hb1 Hb2 Hq. unfold query in Hq. destruct (st_map st !! g) as [cs|] eqn:Hg; [|destruct H0 as [H0 _]; unfold lookup_entry in H0; by rewrite Hg in H0].
  destruct Hq as (seen & Hsn & ->). rewrite query_seen_eq. cbn [pg_search pg_sort].
  destruct (default_list E conf h st g ns search cs Hk Hr Hg) as (ks & L & HLm & _ & HL). specialize (HL seen Hsn).
  exists ks, L. split; [done|].
  assert (e0 ∈ matched E search seen) as Hin.
  { apply elem_of_matched. split; [|done]. eapply seen_scope; eauto. }
  pose proof (Permutation_length (sort_objs_perm E _ _ _ HL)) as Hlen.
  assert (1 <= Z.of_nat (length L))%Z as HL1.
  { rewrite Hlen. destruct (matched E search seen); [by apply elem_of_nil in Hin|]. cbn [length]. lia. }
  destruct (matched E search seen) as [|e m] eqn:Em; [by apply elem_of_nil in Hin|]. rewrite <- Em in *. rewrite HL, <- Hlen. cbv zeta.
  unfold page_of. cbn [pg_size pg_page]. destruct (Z.eqb_spec size 0); [lia|].
  unfold page_bounds. assert (- 2 ^ 63 <= page - 1 < 2 ^ 63)%Z by nia.
  rewrite (wrap64_id (page - 1)) by lia. rewrite (wrap64_id ((page - 1) * size)) by lia.
  replace ((page - 1) * size + size)%Z with (page * size)%Z by lia. rewrite (wrap64_id (page * size)) by lia. cbn [fst snd].
  set (len := Z.of_nat (length L)) in *. set (a := ((page - 1) * size)%Z) in *. set (b := (page * size)%Z) in *.
  assert (b < a)%Z by lia.
  destruct (decide _) as [[Hp Hd]|Hd].
  - destruct (Z.leb_spec len a), (Z.leb_spec len b); try lia. rewrite slice_in by lia. rewrite Z.sub_diag. by eexists.
  - destruct (Z.leb_spec len b).
    + exfalso. apply Hd. split; [|done]. nia.
    + rewrite slice_out; [done|]. destruct (Z.leb_spec len a); lia.
Qed.
Print Assumptions C24_negative_size.
Example C24_example :
  (exists e, in_scope ex_store pods [] (c1, str "default", str "a") e /\ entry_match ex_env (str "size=1") e = Some true) /\
  ids (query_with ex_env false ex_store pods [] (pg 0 2 "" "size=1")) = None /\
  ids (query_with ex_env false ex_store pods [] (pg (-3) (-2) "" "")) = Some (false, 4%Z, []) /\
  ids (query_with ex_env false ex_store pods [] (pg (-1) (-2) "" "")) = None.
Proof.
  split; [|split; [|split]; vm_compute; reflexivity].
  destruct (lookup_entry ex_store pods c1 (str "default") (str "a")) as [e|] eqn:El.
  - exists e. split; [by split; [|left]|].
    assert ((fun e => entry_match ex_env (str "size=1") e) <$> lookup_entry ex_store pods c1 (str "default") (str "a") = Some (Some true)) as H
      by (vm_compute; reflexivity). rewrite El in H. by injection H.
  - exfalso. assert (is_Some (obj_id <$> (en_obj <$> lookup_entry ex_store pods c1 (str "default") (str "a")))) as [? H].
    { assert (obj_id <$> (en_obj <$> lookup_entry ex_store pods c1 (str "default") (str "a")) = Some (str "default/a")) as -> by (vm_compute; reflexivity).
      by eexists. }
    by rewrite El in H.
Qed.

(** ** C25 *)
(** Page 2^62+1 with page size 4 gives exactly what page 1 gives. *)
Theorem C25_wraps_to_first_page E st g ns total sort search r :
  query E st g ns (Paginate (2 ^ 62 + 1) 4 total sort search) r <-> query E st g ns (Paginate 1 4 total sort search) r.
Proof.
  unfold query. destruct (st_map st !! g); [|done].
  assert (forall seen, query_seen E (Paginate (2 ^ 62 + 1) 4 total sort search) seen = query_seen E (Paginate 1 4 total sort search) seen) as H; [|by setoid_rewrite H].
  intros seen. rewrite !query_seen_eq. reflexivity.
Qed.
Print Assumptions C25_wraps_to_first_page.
(** Page 2^62+1 with page size 2 panics on every non-empty result. *)
Theorem C25_wraps_to_panic E conf h st g ns total search k0 e0 r :
  Forall kube_call h -> run_calls E (new_store conf) h = Ok st ->
  in_scope st g ns k0 e0 -> entry_match E search e0 = Some true ->
  query E st g ns (Paginate (2 ^ 62 + 1) 2 total [] search) r -> r = Panics.
Proof.
  intros Hk Hr H0 Hm Hq. unfold query in Hq. destruct (st_map st !! g) as [cs|] eqn:Hg; [|done].
  destruct Hq as (seen & Hsn & ->). rewrite query_seen_eq. cbn [pg_search pg_sort].
  destruct (default_list E conf h st g ns search cs Hk Hr Hg) as (ks & L & _ & _ & HL). specialize (HL seen Hsn).
  assert (e0 ∈ matched E search seen) as Hin.
  { apply elem_of_matched. split; [|done]. eapply seen_scope; eauto. }
  destruct (matched E search seen) as [|e m] eqn:Em; [by apply elem_of_nil in Hin|]. rewrite <- Em in *. rewrite HL. cbv zeta.
  rewrite slice_out; [done|]. left. unfold page_of. cbn [pg_size pg_page]. change (2 =? 0)%Z with false. cbv iota.
  unfold page_bounds. change (wrap64 (wrap64 (2 ^ 62 + 1 - 1) * 2)) with (-9223372036854775808)%Z. cbn [fst].
  destruct (Z.leb_spec (Z.of_nat (length (matched E search seen))) (-9223372036854775808)); lia.
Qed.
Print Assumptions C25_wraps_to_panic.
Example C25_example : ids (query_with ex_env false ex_store pods [] (pg (2 ^ 62 + 1) 2 "" "")) = None /\
  ids (query_with ex_env false ex_store pods [] (pg (2 ^ 62 + 1) 4 "" "name=a")) = Some (false, 2%Z, [str "default/a"; str "default/a"]).
Proof. split; vm_compute; reflexivity. Qed.
(** With any other sort there is no answer either: the query panics or fails because of its sort. *)
Theorem C24_no_answer E st g ns page size total sort search k0 e0 r :
  in_scope st g ns k0 e0 -> entry_match E search e0 = Some true ->
  (page <= 0)%Z -> (1 <= size)%Z -> (- 2 ^ 63 <= (page - 1) * size)%Z ->
  query E st g ns (Paginate page size total sort search) (Ok r) -> q_err r = true /\ q_items r = [].
Proof.
  intros H0 Hm Hp Hs Hb Hq. unfold query in Hq. destruct (st_map st !! g) as [cs|] eqn:Hg; [|done].
  destruct Hq as (seen & Hsn & Hq). rewrite query_seen_eq in Hq. cbn [pg_search pg_sort] in Hq.
  assert (e0 ∈ matched E search seen) as Hin.
  { apply elem_of_matched. split; [|done]. eapply seen_scope; eauto. }
  destruct (matched E search seen) as [|e m] eqn:Em; [by apply elem_of_nil in Hin|]. rewrite <- Em in *. cbv zeta in Hq.
  destruct (sort_objs E (matched E search seen) sort) as [L|]; [|by injection Hq as ->].
  rewrite slice_out in Hq; [done|]. left. unfold page_of. cbn [pg_size pg_page]. destruct (Z.eqb_spec size 0); [lia|].
  unfold page_bounds. assert ((page - 1) * size <= -1)%Z by nia. assert (- 2 ^ 63 <= page - 1)%Z by nia.
  rewrite (wrap64_id (page - 1)) by lia. rewrite (wrap64_id ((page - 1) * size)) by lia. cbn [fst].
  destruct (Z.leb_spec (Z.of_nat (length (matched E search seen))) ((page - 1) * size)); lia.
Qed.
Print Assumptions C24_no_answer.
