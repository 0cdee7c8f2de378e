(** C35-C38, C52, C53: lists answered from the cache. *)
From Coq Require Import Ascii String NArith ZArith Lia.
From stdpp Require Import base gmap strings list sorting.
From Verif Require Import ModelStr ModelSort ModelLabels SpecLabels ModelPage ModelJson ModelJsonText ModelQuery ModelStore ModelUrl ModelProxy
  SpecPage SpecStore SpecProxy SpecList ProofsStr ProofsLabels ProofsParse ProofsPage ProofsSel ProofsSemi ProofsQuery ProofsStore ProofsQueryStore ProofsIndex ProofsListing ProofsProxy
  PropsSelector PropsStore PropsStore3 PropsProxy ProofsList.

Lemma effective_fun cf p p1 p2 : effective cf p p1 -> effective cf p p2 -> p1 = p2.
Proof. intros [H1|H1] [H2|H2]; done. Qed.
Lemma query_err_unpaged E st g ns p q : query E st g ns p (Ok q) -> q_err q = true ->
  exists q', query E st g ns (Paginate 0 0 0 (pg_sort p) (pg_search p)) (Ok q') /\ q_err q' = true.
Proof.
  unfold query. destruct (st_map st !! g) as [cs|]; [|done]. intros (seen & Hs & Hq) He. rewrite query_seen_eq in Hq.
  enough (exists q', query_seen E (Paginate 0 0 0 (pg_sort p) (pg_search p)) seen = Ok q' /\ q_err q' = true) as (q' & Hq' & He').
  { exists q'. split; [|done]. by exists seen. }
  rewrite query_seen_eq. cbn [pg_search pg_sort]. destruct (matched E (pg_search p) seen) as [|e m] eqn:Em.
  - injection Hq as ->. eauto.
  - rewrite <- Em in *. destruct (sort_objs E _ _) as [es|] eqn:Eso; [|eauto]. cbv zeta in *.
    destruct (slice es _ _) in Hq; [|done]. injection Hq as ->. cbn [q_err] in He. unfold page_of. cbn [pg_size].
    change (0 =? 0)%Z with true. cbn [fst snd]. rewrite <- (Permutation_length (sort_objs_perm _ _ _ _ Eso)), slice_all. eauto.
Qed.

(** What a list can answer, for any page whose slice exists. *)
Section shape.
  Context (E : env) (cf : config) (conf : gmap gvr (gmap gostr gostr)) (h : list call) (st : store) (clients : gset gostr).
  Hypothesis (Hkube : Forall kube_call h) (Hrun : run_calls E (new_store conf) h = Ok st).
  Context (r : request) (p p1 : paginate) (labels : option lsel) (a : answer).
  Hypothesis (Hreq : list_request conf r p labels) (Heff : effective cf p p1) (Ha : proxy E cf clients st r a).
  Local Notation g := (req_gvr r).
  Local Notation ns := (var r (str "namespace")).
  (** The query fails whatever the page. *)
  Definition query_fails : Prop := exists q, query E st g ns (Paginate 0 0 0 (pg_sort p1) (pg_search p1)) (Ok q) /\ q_err q = true.
  (** The items as a list, or as a table for clients that ask for one. *)
  Definition shows (items : list obj) (rem : Z) : Prop :=
    (~ occurs (str "application/json;as=Table") (rq_accept r) -> a = AList (api_version g) (gvr_kind cf g) (rq_path r) rem items) /\
    (occurs (str "application/json;as=Table") (rq_accept r) ->
     exists ord, (forall n m, ord n m ≡ₚ map_to_list m) /\ match server_print ord items with Ok t => a = ATable t | Panics => a = APanic end).

  Lemma list_shape : (forall l, (0 <= l)%Z -> (0 <= (bounds p1 labels l).1 <= (bounds p1 labels l).2)%Z) ->
    (query_fails /\ a = AStatus 400 (str "query error")) \/
    exists ks es items, listed E st g ns (pg_search p1) labels ks es /\
      in_cache_order E st g ns (pg_sort p1) (pg_search p1) es /\
      slice es (bounds p1 labels (Z.of_nat (length es))).1 (bounds p1 labels (Z.of_nat (length es))).2 = Some items /\
      match remaining p1 (Z.of_nat (length es)) (length items) with
      | None => a = AStatus 400 (str "out of page")
      | Some rem => shows (map en_obj items) rem
      end.
  Proof.
    intros Hb. destruct (list_inv E cf conf h st Hrun clients r p labels a Hreq Ha) as (ord & p2 & q & Hord & He2 & _ & Hq & Ea).
    assert (p2 = p1) as -> by (by eapply effective_fun). clear He2.
    assert (exists q0, q = Ok q0) as [q0 ->].
    { destruct q as [q0|]; [eauto|]. exfalso. unfold query in Hq. destruct (st_map st !! g) as [cs|] eqn:Eg.
      - destruct Hq as (seen & Hs & Hq). rewrite query_seen_eq in Hq.
        destruct (matched E _ seen) as [|e m] eqn:Em; [done|]. rewrite <- Em in *. destruct (sort_objs E _ _) as [es|] eqn:Eso; [|done].
        cbv zeta in Hq. rewrite slice_in in Hq; [done|].
        unfold store_page. destruct (has_labels labels) eqn:Ehl; [cbn; lia|].
        specialize (Hb (Z.of_nat (length (matched E (pg_search p1) seen))) ltac:(lia)). unfold bounds in Hb. by rewrite Ehl in Hb.
      - destruct Hreq as ((_ & Hc & _) & _). apply (store_gvr E conf h st Hrun) in Hc. unfold is_store_gvr in Hc. by rewrite Eg in Hc. }
    destruct (q_err q0) eqn:Eerr.
    - left. split.
      + destruct (query_err_unpaged E st g ns _ q0 Hq Eerr) as (q' & Hq' & He'). exists q'. split; [|done].
        unfold store_page in Hq'. by destruct (has_labels labels).
      + rewrite Ea. unfold list_answer, list_items. by rewrite Eerr.
    - right. destruct (list_items_ok E conf h st Hkube Hrun g ns p1 labels q0 (request_sel_ok conf r p labels Hreq) Hq Eerr) as (ks & es & Hl & Ho & Hit).
      pose proof (Hb (Z.of_nat (length es)) ltac:(lia)) as Hb'. rewrite (slice_in es _ _ Hb') in Hit. specialize (Hit _ eq_refl).
      exists ks, es. eexists. split; [done|]. split; [done|]. split; [by apply slice_in|].
      unfold list_answer in Ea. rewrite Hit in Ea. rewrite map_length in Ea.
      destruct (remaining p1 _ _); [|done]. unfold shows. unfold occurs. rewrite <- contains_true.
      destruct (contains (rq_accept r) _); (split; [intros Hacc|intros Hacc]); try done.
      exists ord. split; [done|]. by destruct (server_print ord _).
  Qed.
  (** Pages in range. *)
  Lemma bounds_range labels' l : (1 <= pg_page p1)%Z -> (1 <= pg_size p1)%Z -> (pg_page p1 * pg_size p1 < 2 ^ 63)%Z -> (0 <= l)%Z ->
    bounds p1 labels' l = page_bounds (pg_page p1) (pg_size p1) l /\ (0 <= (bounds p1 labels' l).1 <= (bounds p1 labels' l).2)%Z.
  Proof.
    intros H1 H2 H3 Hl. assert (bounds p1 labels' l = page_bounds (pg_page p1) (pg_size p1) l) as E1.
    { unfold bounds, label_bounds, page_of. destruct (Z.eqb_spec (pg_size p1) 0), (Z.eqb_spec (pg_page p1) 0); try lia. by destruct (has_labels labels'). }
    split; [done|]. rewrite E1. unfold page_bounds. change (2 ^ 63)%Z with 9223372036854775808%Z in H3.
    assert (0 <= (pg_page p1 - 1) * pg_size p1)%Z by nia.
    rewrite (wrap64_id (pg_page p1 - 1)) by nia. rewrite (wrap64_id ((pg_page p1 - 1) * pg_size p1)) by nia.
    rewrite wrap64_id by nia. cbn [fst snd]. destruct (Z.leb_spec l ((pg_page p1 - 1) * pg_size p1)), (Z.leb_spec l ((pg_page p1 - 1) * pg_size p1 + pg_size p1)); lia.
  Qed.
  Lemma range_shape : (1 <= pg_page p)%Z -> (1 <= pg_size p)%Z -> (pg_page p * pg_size p < 2 ^ 63)%Z ->
    (query_fails /\ a = AStatus 400 (str "query error")) \/
    exists ks es, listed E st g ns (pg_search p1) labels ks es /\
      in_cache_order E st g ns (pg_sort p) (pg_search p1) es /\
      let total := Z.of_nat (length es) in
      ((total < 2 ^ 63)%Z ->
       if decide (1 < pg_page p /\ total <= (pg_page p - 1) * pg_size p)%Z then a = AStatus 400 (str "out of page")
       else shows (map en_obj (take (Z.to_nat (pg_size p)) (drop (Z.to_nat ((pg_page p - 1) * pg_size p)) es)))
              (Z.max 0 (total - pg_page p * pg_size p))).
  Proof.
    intros H1 H2 H3. destruct (effective_page cf p p1 Heff) as (E1 & E2 & E3). rewrite <- E1, <- E2, <- E3 in *.
    destruct list_shape as [H|(ks & es & items & Hl & Ho & Hsl & Hrem)]; [|by left|].
    { intros l Hl. by apply bounds_range. }
    right. exists ks, es. split; [done|]. split; [done|]. cbv zeta. intros Htot.
    destruct (bounds_range labels (Z.of_nat (length es)) H1 H2 H3 ltac:(lia)) as [Eb _]. rewrite Eb in Hsl.
    pose proof (slice_page es (pg_page p1) (pg_size p1) H1 H2 H3) as Hsp. cbv zeta in Hsp. rewrite Hsp in Hsl. injection Hsl as <-.
    unfold remaining in Hrem. change (2 ^ 63)%Z with 9223372036854775808%Z in *.
    destruct (Z.eqb_spec (pg_page p1) 0) as [|Hp0]; [lia|]. cbn [andb] in Hrem.
    rewrite (wrap64_id (pg_size p1 * pg_page p1)) in Hrem by nia.
    rewrite wrap64_id in Hrem by nia. rewrite take_length, drop_length in Hrem.
    rewrite (Z.mul_comm (pg_size p1)) in Hrem.
    set (n := length es) in *. set (P := pg_page p1) in *. set (S := pg_size p1) in *.
    assert (0 <= (P - 1) * S)%Z as HB by nia. assert ((P - 1) * S + S = P * S)%Z as HS by lia. rewrite <- HS in *. set (B := ((P - 1) * S)%Z) in *.
    assert (Z.of_nat (Init.Nat.min (Z.to_nat S) (n - Z.to_nat B)) = Z.min S (Z.max 0 (Z.of_nat n - B))) as El by lia.
    destruct (decide _) as [[D1 D2]|D].
    - destruct (Z.ltb_spec (Z.of_nat n - (B + S)) 0); [|nia].
      destruct (Nat.eqb_spec (Init.Nat.min (Z.to_nat S) (n - Z.to_nat B)) 0); [|nia].
      destruct (Z.eqb_spec P 1); [lia|]. done.
    - assert ((Z.of_nat n - (B + S) <? 0) && (Init.Nat.min (Z.to_nat S) (n - Z.to_nat B) =? 0)%nat && negb (P =? 1) = false)%Z as Ef.
      { destruct (Z.ltb_spec (Z.of_nat n - (B + S)) 0); [|done].
        destruct (Nat.eqb_spec (Init.Nat.min (Z.to_nat S) (n - Z.to_nat B)) 0); [|done].
        destruct (Z.eqb_spec P 1); [done|]. exfalso. apply D. lia. }
      rewrite Ef in Hrem. assert (Z.max 0 (Z.of_nat n - (B + S)) = if Z.of_nat n - (B + S) <? 0 then 0 else Z.of_nat n - (B + S))%Z as ->.
      { destruct (Z.ltb_spec (Z.of_nat n - (B + S)) 0); lia. } done.
  Qed.
  (** No page size: everything. *)
  Lemma all_shape : pg_size p = 0%Z ->
    (query_fails /\ a = AStatus 400 (str "query error")) \/
    exists ks es, listed E st g ns (pg_search p1) labels ks es /\
      in_cache_order E st g ns (pg_sort p) (pg_search p1) es /\
      ((Z.of_nat (length es) < 2 ^ 63)%Z ->
       shows (map en_obj es) (if decide (pg_page p = 0%Z) then 0 else Z.of_nat (length es))%Z).
  Proof.
    intros H0. destruct (effective_page cf p p1 Heff) as (E1 & E2 & E3). rewrite <- E1, <- E2, <- E3 in *.
    assert (forall l, bounds p1 labels l = (0%Z, l)) as Eb.
    { intros l. unfold bounds, label_bounds, page_of. rewrite H0. by destruct (has_labels labels). }
    destruct list_shape as [H|(ks & es & items & Hl & Ho & Hsl & Hrem)]; [|by left|].
    { intros l Hl. rewrite Eb. cbn. lia. }
    right. exists ks, es. split; [done|]. split; [done|]. intros Htot. rewrite Eb in Hsl. cbn [fst snd] in Hsl. rewrite slice_all in Hsl. injection Hsl as <-.
    unfold remaining in Hrem. rewrite H0 in Hrem. cbn [Z.mul] in Hrem. change (2 ^ 63)%Z with 9223372036854775808%Z in *. change (wrap64 0) with 0%Z in Hrem.
    destruct (Z.eqb_spec (pg_page p1) 0); [by rewrite decide_True|]. rewrite decide_False by done. cbn [andb] in Hrem.
    rewrite Z.sub_0_r, wrap64_id in Hrem by lia. destruct (Z.ltb_spec (Z.of_nat (length es)) 0); [lia|]. done.
  Qed.
End shape.

(** ** C38: the list holds the requested page of the objects that match search and labels, in order. *)
Theorem C38_page_of_matching_objects E cf conf h st clients r p p1 labels a : Forall kube_call h -> run_calls E (new_store conf) h = Ok st ->
  list_request conf r p labels -> effective cf p p1 -> proxy E cf clients st r a ->
  (1 <= pg_page p)%Z -> (1 <= pg_size p)%Z -> (pg_page p * pg_size p < 2 ^ 63)%Z ->
  (query_fails E st r p1 /\ a = AStatus 400 (str "query error")) \/
  exists ks es, listed E st (req_gvr r) (var r (str "namespace")) (pg_search p1) labels ks es /\
    in_cache_order E st (req_gvr r) (var r (str "namespace")) (pg_sort p) (pg_search p1) es /\
    let total := Z.of_nat (length es) in
    ((total < 2 ^ 63)%Z ->
     if decide (1 < pg_page p /\ total <= (pg_page p - 1) * pg_size p)%Z then a = AStatus 400 (str "out of page")
     else shows cf r a (map en_obj (take (Z.to_nat (pg_size p)) (drop (Z.to_nat ((pg_page p - 1) * pg_size p)) es)))
            (Z.max 0 (total - pg_page p * pg_size p))).
Proof. intros. by eapply range_shape. Qed.
Print Assumptions C38_page_of_matching_objects.
(** Without page size everything that matches is returned. *)
Theorem C38_all_matching_objects E cf conf h st clients r p p1 labels a : Forall kube_call h -> run_calls E (new_store conf) h = Ok st ->
  list_request conf r p labels -> effective cf p p1 -> proxy E cf clients st r a -> pg_size p = 0%Z ->
  (query_fails E st r p1 /\ a = AStatus 400 (str "query error")) \/
  exists ks es, listed E st (req_gvr r) (var r (str "namespace")) (pg_search p1) labels ks es /\
    in_cache_order E st (req_gvr r) (var r (str "namespace")) (pg_sort p) (pg_search p1) es /\
    ((Z.of_nat (length es) < 2 ^ 63)%Z ->
     shows cf r a (map en_obj es) (if decide (pg_page p = 0%Z) then 0 else Z.of_nat (length es))%Z).
Proof. intros. by eapply all_shape. Qed.
Print Assumptions C38_all_matching_objects.

(** ** C37 *)
Theorem C37_out_of_page E cf conf h st clients r p p1 labels a : Forall kube_call h -> run_calls E (new_store conf) h = Ok st ->
  list_request conf r p labels -> effective cf p p1 -> proxy E cf clients st r a ->
  (1 <= pg_page p)%Z -> (1 <= pg_size p)%Z -> (pg_page p * pg_size p < 2 ^ 63)%Z -> a <> AStatus 400 (str "query error") ->
  exists ks es, listed E st (req_gvr r) (var r (str "namespace")) (pg_search p1) labels ks es /\
    ((Z.of_nat (length es) < 2 ^ 63)%Z ->
     (a = AStatus 400 (str "out of page") <-> (1 < pg_page p /\ Z.of_nat (length es) <= (pg_page p - 1) * pg_size p)%Z)).
Proof.
  intros Hk Hr Hreq Heff Ha H1 H2 H3 Hne.
  destruct (range_shape E cf conf h st clients Hk Hr r p p1 labels a Hreq Heff Ha H1 H2 H3) as [[_ ?]|(ks & es & Hl & _ & H)]; [done|].
  exists ks, es. split; [done|]. intros Ht. specialize (H Ht). destruct (decide _) as [D|D]; [by split|]. split; [|by intros ?].
  intros ->. exfalso. destruct H as [S1 S2]. destruct (contains (rq_accept r) (str "application/json;as=Table")) eqn:Ec.
  - apply contains_true in Ec. destruct (S2 Ec) as (ord & _ & Hx). by destruct (server_print _ _).
  - discriminate S1. intros Ho. assert (contains (rq_accept r) (str "application/json;as=Table") = true); [by apply contains_true|congruence].
Qed.
Print Assumptions C37_out_of_page.

Lemma shows_list cf r api kind path rem items items' rem' : shows cf r (AList api kind path rem items) items' rem' -> items = items' /\ rem = rem'.
Proof.
  intros [S1 S2]. destruct (contains (rq_accept r) (str "application/json;as=Table")) eqn:Ec.
  { apply contains_true in Ec. destruct (S2 Ec) as (ord & _ & Hx). by destruct (server_print _ _). }
  assert (~ occurs (str "application/json;as=Table") (rq_accept r)) as Hn.
  { intros Ho. assert (contains (rq_accept r) (str "application/json;as=Table") = true); [by apply contains_true|congruence]. }
  specialize (S1 Hn). by injection S1 as _ _ _ -> ->.
Qed.

(** ** C36 *)
Theorem C36_remaining_and_total E cf conf h st clients r p p1 labels api kind path rem items :
  Forall kube_call h -> run_calls E (new_store conf) h = Ok st ->
  list_request conf r p labels -> effective cf p p1 -> proxy E cf clients st r (AList api kind path rem items) ->
  (1 <= pg_page p)%Z -> (1 <= pg_size p)%Z -> (pg_page p * pg_size p < 2 ^ 63)%Z ->
  exists ks es, listed E st (req_gvr r) (var r (str "namespace")) (pg_search p1) labels ks es /\
    let total := Z.of_nat (length es) in
    ((total < 2 ^ 63)%Z -> rem = Z.max 0 (total - pg_page p * pg_size p) /\
       pg_total (makeup_total (Some rem) (length items) p) = total).
Proof.
  intros Hk Hr Hreq Heff Ha H1 H2 H3.
  destruct (range_shape E cf conf h st clients Hk Hr r p p1 labels _ Hreq Heff Ha H1 H2 H3) as [[_ ?]|(ks & es & Hl & _ & H)]; [done|].
  exists ks, es. split; [done|]. cbv zeta in *. intros Ht. specialize (H Ht). destruct (decide _) as [D|D]; [done|].
  apply shows_list in H as [-> ->]. split; [done|]. unfold makeup_total. cbn [pg_total default].
  rewrite map_length, take_length, drop_length. change (2 ^ 63)%Z with 9223372036854775808%Z in *.
  set (n := length es) in *. set (P := pg_page p) in *. set (S := pg_size p) in *.
  assert (0 <= (P - 1) * S)%Z by nia. assert ((P - 1) * S + S = P * S)%Z as Hx by lia.
  rewrite (wrap64_id (P - 1)) by nia. rewrite (wrap64_id ((P - 1) * S)) by lia.
  assert (1 < P -> (P - 1) * S < Z.of_nat n)%Z as HD by (intros; destruct (decide (Z.of_nat n <= (P - 1) * S)%Z); [exfalso; apply D; lia|lia]).
  assert (P = 1 -> (P - 1) * S = 0)%Z as HP1 by (intros ->; lia).
  set (B := ((P - 1) * S)%Z) in *. unfold option_map, default, from_option. cbn [id].
  destruct (Z.eq_dec P 1%Z); (rewrite (wrap64_id (Z.max 0 _ + _)) by lia); (rewrite wrap64_id by lia); lia.
Qed.
Print Assumptions C36_remaining_and_total.
(** Without page and page size the total is right, too. *)
Theorem C36_unpaginated E cf conf h st clients r p p1 labels api kind path rem items :
  Forall kube_call h -> run_calls E (new_store conf) h = Ok st ->
  list_request conf r p labels -> effective cf p p1 -> proxy E cf clients st r (AList api kind path rem items) ->
  pg_page p = 0%Z -> pg_size p = 0%Z ->
  exists ks es, listed E st (req_gvr r) (var r (str "namespace")) (pg_search p1) labels ks es /\
    ((Z.of_nat (length es) < 2 ^ 63)%Z -> items = map en_obj es /\ rem = 0%Z /\
       pg_total (makeup_total (Some rem) (length items) p) = Z.of_nat (length es))%Z.
Proof.
  intros Hk Hr Hreq Heff Ha H1 H2.
  destruct (all_shape E cf conf h st clients Hk Hr r p p1 labels _ Hreq Heff Ha H2) as [[_ ?]|(ks & es & Hl & _ & H)]; [done|].
  exists ks, es. split; [done|]. intros Ht. specialize (H Ht). rewrite decide_True in H by done. apply shows_list in H as [-> ->].
  split; [done|]. split; [done|]. unfold makeup_total. rewrite H1, H2. cbn [pg_total default from_option id]. rewrite map_length.
  change (wrap64 (wrap64 (0 - 1) * 0)) with 0%Z. change (wrap64 (0 + 0)) with 0%Z. change (2 ^ 63)%Z with 9223372036854775808%Z in Ht. rewrite wrap64_id by lia. lia.
Qed.
Print Assumptions C36_unpaginated.
(** Finding: a page without page size reports every matching object twice, *)
Theorem C36_page_without_size E cf conf h st clients r p p1 labels api kind path rem items :
  Forall kube_call h -> run_calls E (new_store conf) h = Ok st ->
  list_request conf r p labels -> effective cf p p1 -> proxy E cf clients st r (AList api kind path rem items) ->
  pg_page p <> 0%Z -> pg_size p = 0%Z ->
  exists ks es, listed E st (req_gvr r) (var r (str "namespace")) (pg_search p1) labels ks es /\
    ((Z.of_nat (length es) < 2 ^ 62)%Z -> items = map en_obj es /\ rem = Z.of_nat (length es) /\
       pg_total (makeup_total (Some rem) (length items) p) = 2 * Z.of_nat (length es))%Z.
Proof.
  intros Hk Hr Hreq Heff Ha H1 H2.
  destruct (all_shape E cf conf h st clients Hk Hr r p p1 labels _ Hreq Heff Ha H2) as [[_ ?]|(ks & es & Hl & _ & H)]; [done|].
  exists ks, es. split; [done|]. change (2 ^ 62)%Z with 4611686018427387904%Z. change (2 ^ 63)%Z with 9223372036854775808%Z in H.
  intros Ht. specialize (H ltac:(lia)). rewrite decide_False in H by done. apply shows_list in H as [-> ->].
  split; [done|]. split; [done|]. unfold makeup_total. rewrite H2. cbn [pg_total default from_option id]. rewrite map_length.
  rewrite Z.mul_0_r. change (wrap64 0) with 0%Z. rewrite Z.add_0_r, !wrap64_id by (rewrite ?wrap64_id; lia). lia.
Qed.
Print Assumptions C36_page_without_size.
(** and with a label selector a page size without page reports twice the total less the page size. *)
Theorem C36_size_without_page E cf conf h st clients r p p1 ls api kind path rem items :
  Forall kube_call h -> run_calls E (new_store conf) h = Ok st ->
  list_request conf r p (Some ls) -> (mlabels ls <> ∅ \/ mexprs ls <> []) -> effective cf p p1 ->
  proxy E cf clients st r (AList api kind path rem items) ->
  pg_page p = 0%Z -> (1 <= pg_size p < 2 ^ 63)%Z ->
  exists ks es, listed E st (req_gvr r) (var r (str "namespace")) (pg_search p1) (Some ls) ks es /\
    ((Z.of_nat (length es) < 2 ^ 62)%Z -> items = map en_obj es /\ rem = Z.of_nat (length es) /\
       pg_total (makeup_total (Some rem) (length items) p) = 2 * Z.of_nat (length es) - pg_size p)%Z.
Proof.
  intros Hk Hr Hreq Hls Heff Ha H1 H2. change (2 ^ 63)%Z with 9223372036854775808%Z in H2.
  assert (has_labels (Some ls) = true) as Hhl.
  { cbn. unfold is_empty_sel. rewrite negb_true_iff, andb_false_iff, bool_decide_eq_false. destruct Hls; [by left|right]. by destruct (mexprs ls). }
  destruct (effective_page cf p p1 Heff) as (E1 & E2 & E3).
  assert (forall l, bounds p1 (Some ls) l = (0%Z, l)) as Eb.
  { intros l. unfold bounds, label_bounds. rewrite Hhl, E1, H1. by rewrite orb_true_r. }
  destruct (list_shape E cf conf h st clients Hk Hr r p p1 (Some ls) _ Hreq Heff Ha) as [[_ ?]|(ks & es & its & Hl & Ho & Hsl & Hrem)]; [|done|].
  { intros l Hl. rewrite Eb. cbn. lia. }
  exists ks, es. split; [done|]. change (2 ^ 62)%Z with 4611686018427387904%Z. intros Ht.
  rewrite Eb in Hsl. cbn [fst snd] in Hsl. rewrite slice_all in Hsl. injection Hsl as <-.
  unfold remaining in Hrem. rewrite E1, E2, H1, Z.mul_0_r in Hrem. change (wrap64 0) with 0%Z in Hrem.
  destruct (Z.eqb_spec (pg_size p) 0) as [|]; [lia|]. cbn [andb] in Hrem. change (0 =? 0)%Z with true in Hrem. cbn [andb] in Hrem.
  rewrite Z.sub_0_r, wrap64_id in Hrem by lia. destruct (Z.ltb_spec (Z.of_nat (length es)) 0); [lia|]. cbn [andb] in Hrem.
  apply shows_list in Hrem as [-> ->]. split; [done|]. split; [done|].
  unfold makeup_total. rewrite H1. cbn [pg_total default from_option id]. rewrite map_length. change (wrap64 (0 - 1)) with (-1)%Z.
  rewrite (wrap64_id (-1 * pg_size p)) by lia. rewrite (wrap64_id (_ + -1 * _)) by lia. rewrite wrap64_id by lia. lia.
Qed.
Print Assumptions C36_size_without_page.
