(** C41: lists shown as tables. *)
From Coq Require Import Ascii String NArith ZArith Lia.
From stdpp Require Import base gmap strings list sorting.
From Verif Require Import ModelStr ModelSort ModelLabels SpecLabels ModelPage ModelJson ModelJsonText ModelQuery ModelStore ModelUrl ModelProxy
  SpecPage SpecStore SpecProxy SpecList SpecTable ProofsStr ProofsSort ProofsLabels ProofsPage ProofsJson ProofsStore ProofsQueryStore ProofsIndex ProofsListing ProofsProxy
  PropsStore PropsStore3 PropsProxy ProofsList PropsList PropsCluster ProofsTable.

Lemma build_anno E conf c k : exists k' idx, en_obj (build E conf c (OKube k)).2 = OKube k' /\
  k_annos k' !! index_anno = Some (marshal_map idx) /\ (forall x, idx !! x = annotated E conf c k x).
Proof.
  eexists _, _. split; [reflexivity|]. split; [apply lookup_insert|]. intros x. unfold annotated.
  destruct (decide (x = str "is_deleted")) as [->|H1]; [apply lookup_insert|]. rewrite lookup_insert_ne by done.
  destruct (decide (x = str "cluster")) as [->|H2]; [apply lookup_insert|]. rewrite lookup_insert_ne by done. apply lookup_fmap.
Qed.
Lemma annotated_keys E conf c k x : is_Some (annotated E conf c k x) <-> x = str "is_deleted" \/ x = str "cluster" \/ is_Some (conf !! x).
Proof.
  unfold annotated. destruct (decide (x = str "is_deleted")) as [->|H1]; [split; [by left|by eexists]|].
  destruct (decide (x = str "cluster")) as [->|H2]; [split; [by right; left|by eexists]|]. rewrite fmap_is_Some. naive_solver.
Qed.
Definition shown_key (conf : gmap gostr gostr) (x : gostr) : Prop :=
  exists k, (k = str "is_deleted" \/ k = str "cluster" \/ is_Some (conf !! k)) /\ to_valid k = x.

Section table.
  Context (E : env) (conf : gmap gvr (gmap gostr gostr)) (h : list call) (st : store).
  Hypothesis (Hkube : Forall kube_call h) (Hrun : run_calls E (new_store conf) h = Ok st).
  Context (g : gvr).
  Notation gconf := (default ∅ (conf !! g)).
  Definition cached (k : gostr * gostr * gostr) (e : entry) : Prop := lookup_entry st g k.1.1 k.1.2 k.2 = Some e.
  (** The source of an entry. *)
  Definition source (c : gostr) (e : entry) (k : kobj) : Prop :=
    (CAdd g c (OKube k) ∈ h \/ CMod g c (OKube k) ∈ h) /\ stored_as c (OKube k) (en_obj e).
  Lemma cached_text k e : cached k e -> exists o idx, source k.1.1 e o /\ has_text (shown_key gconf) (en_obj e) idx /\
    ((forall x, is_Some (gconf !! x) -> valid_utf8 x = true) -> forall x, idx !! x = to_valid <$> annotated E gconf k.1.1 o x).
  Proof.
    intros Hh. apply (history_some E conf h st g _ _ _ e Hrun) in Hh as (h1 & kk & h2 & o & -> & [Hs Hkey] & _ & ->).
    apply Forall_app in Hkube as [_ Hk]. apply Forall_cons_1 in Hk as [Hk _].
    assert (exists x, o = OKube x) as [x ->] by (by destruct Hs as [->| ->]).
    pose proof (build_stored E gconf k.1.1 (OKube x)) as Hst.
    destruct (build_anno E gconf k.1.1 x) as (k' & idx & Ho & Ha & Hidx).
    exists x, (unmarshal_map (marshal_map idx)). split; [|split].
    - split; [|done]. destruct Hs as [->| ->]; [left|right]; set_solver.
    - exists k'. split; [done|]. rewrite Ha. cbn [default from_option id]. split; [apply marshal_map_nonempty|]. split; [done|].
      intros y. rewrite decoded_dom. unfold shown_key. setoid_rewrite Hidx. setoid_rewrite annotated_keys. done.
    - intros Hv y. rewrite decoded_value; [by rewrite Hidx|]. intros z. rewrite Hidx, annotated_keys. intros [->|[->|Hz]]; [done|done|by apply Hv].
  Qed.
  Lemma cached_texts ks es : Forall2 cached ks es -> exists idxs, Forall2 (has_text (shown_key gconf)) (map en_obj es) idxs /\
    ((forall x, is_Some (gconf !! x) -> valid_utf8 x = true) ->
     Forall2 (fun ke idx => exists o, source ke.1.1.1 ke.2 o /\ forall x, idx !! x = to_valid <$> annotated E gconf ke.1.1.1 o x) (zip ks es) idxs).
  Proof.
    induction 1 as [|k e ks es Hke _ (idxs & IH1 & IH2)]; [exists []; split; [constructor|intros _; constructor]|].
    destruct (cached_text k e Hke) as (o & idx & Hs & Ht & Hv). exists (idx :: idxs). split; [by constructor|].
    intros Hu. cbn [zip zip_with]. constructor; [|by apply IH2]. exists o. split; [done|]. by apply Hv.
  Qed.
End table.

(** One row per object, all rows as long as the columns; no panic. *)
Theorem C41_rectangular E conf h st g ord ks es : Forall kube_call h -> run_calls E (new_store conf) h = Ok st ->
  Forall2 (cached st g) ks es -> (forall n m, ord n m ≡ₚ map_to_list m) ->
  exists t, server_print ord (map en_obj es) = Ok t /\ length (t_rows t) = length es /\ NoDup (t_cols t) /\
    Forall (fun row => length row = length (t_cols t)) (t_rows t).
Proof.
  intros Hk Hr Hc Hord. destruct (cached_texts E conf h st Hk Hr g ks es Hc) as (idxs & Ht & _).
  destruct idxs as [|idx idxs].
  - apply Forall2_nil_inv_r in Ht. destruct es; [|done]. exists (Table [] []). repeat split; constructor.
  - destruct (server_print_ok ord Hord _ _ _ idx Ht eq_refl) as (t & Hp & Hcols & Hnd & HF).
    exists t. split; [done|]. split.
    { rewrite <- (Forall2_length _ _ _ HF), <- (Forall2_length _ _ _ Ht). apply map_length. }
    split; [done|]. apply Forall_forall. intros row [i Hi]%elem_of_list_lookup. destruct (Forall2_lookup_r _ _ _ _ _ HF Hi) as (? & _ & Hl & _). done.
Qed.
Print Assumptions C41_rectangular.
(** The columns, and the value of each cell; an absent value is a nil cell. *)
Theorem C41_cells E conf h st g ord ks es t : Forall kube_call h -> run_calls E (new_store conf) h = Ok st ->
  Forall2 (cached st g) ks es -> es <> [] -> (forall n m, ord n m ≡ₚ map_to_list m) ->
  (forall x, is_Some (default ∅ (conf !! g) !! x) -> valid_utf8 x = true) ->
  server_print ord (map en_obj es) = Ok t ->
  columns (default ∅ (conf !! g)) (t_cols t) /\
  forall i k e, ks !! i = Some k -> es !! i = Some e ->
    exists o row, source h g k.1.1 e o /\ t_rows t !! i = Some row /\
      forall j col, t_cols t !! j = Some col -> row !! j = Some (to_valid <$> annotated E (default ∅ (conf !! g)) k.1.1 o col).
Proof.
  intros Hk Hr Hc Hne Hord Hu Ht. destruct (cached_texts E conf h st Hk Hr g ks es Hc) as (idxs & Htx & Hv). specialize (Hv Hu).
  destruct idxs as [|idx idxs]. { apply Forall2_nil_inv_r in Htx. by destruct es. }
  destruct (server_print_ok ord Hord _ _ _ idx Htx eq_refl) as (t' & Hp & Hcols & Hnd & HF).
  rewrite Ht in Hp. injection Hp as <-. split.
  - destruct es as [|e0 es]; [done|]. destruct ks as [|k0 ks]; [by apply Forall2_nil_inv_l in Hc|]. cbn [zip zip_with] in Hv.
    apply Forall2_cons_1 in Hv as [(o & _ & Hidx) _]. cbn [fst snd] in Hidx.
    assert (forall x, is_Some (idx !! x) <-> x = str "is_deleted" \/ x = str "cluster" \/ is_Some (default ∅ (conf !! g) !! x)) as Hdom.
    { intros x. rewrite Hidx, fmap_is_Some. apply annotated_keys. }
    exists (gosort str_ltb (List.filter (fun k => negb (existsb (str_eqb k) [str "cluster"; str "namespace"; str "name"])) (map fst (ord 0 idx)))).
    split; [|split].
    + rewrite Hcols. unfold table_cols. destruct (idx !! str "namespace") eqn:En.
      * rewrite decide_True; [done|]. assert (is_Some (idx !! str "namespace")) as H by (by rewrite En). apply Hdom in H. naive_solver.
      * rewrite decide_False; [done|]. intros H. assert (is_Some (idx !! str "namespace")) as H' by (apply Hdom; auto). rewrite En in H'. by destruct H'.
    + assert (NoDup (gosort str_ltb (List.filter (fun k => negb (existsb (str_eqb k) [str "cluster"; str "namespace"; str "name"])) (map fst (ord 0 idx))))) as Hn.
      { rewrite Hcols in Hnd. unfold table_cols in Hnd. apply NoDup_app in Hnd. tauto. }
      pose proof (sort_strings_sorted (List.filter (fun k => negb (existsb (str_eqb k) [str "cluster"; str "namespace"; str "name"])) (map fst (ord 0 idx)))) as Hs.
      revert Hn Hs. generalize (gosort str_ltb (List.filter (fun k => negb (existsb (str_eqb k) [str "cluster"; str "namespace"; str "name"])) (map fst (ord 0 idx)))).
      intros l Hn. induction 1 as [|x l Hs IH HF']; [constructor|]. apply NoDup_cons in Hn as [Hx Hn]. constructor; [by apply IH|].
      apply Forall_forall. intros y Hy. rewrite Forall_forall in HF'. pose proof (HF' y Hy) as Hxy. unfold str_le in Hxy.
      destruct (str_ltb x y) eqn:Exy; [done|]. assert (x = y) as -> by (by apply str_ltb_total). done.
    + intros x. rewrite gosort_elem, elem_of_lfilter, negb_true_iff.
      assert (x ∈ map fst (ord 0 idx) <-> is_Some (idx !! x)) as ->.
      { rewrite elem_of_list_fmap. split.
        - intros ([k v] & -> & Hkv). rewrite Hord, elem_of_map_to_list in Hkv. by eexists.
        - intros [v Hx]. exists (x, v). split; [done|]. by rewrite Hord, elem_of_map_to_list. }
      rewrite Hdom. cbn [existsb]. rewrite !orb_false_iff, !str_eqb_neq, !not_elem_of_cons. split.
      * intros [H (H1 & H2 & H3 & _)]. split; [repeat split; try done; apply not_elem_of_nil|]. naive_solver.
      * intros [(H1 & H2 & H3 & _) H]. split; [naive_solver|done].
  - intros i k e Hki Hei. destruct (Forall2_lookup_l _ _ _ i (k, e) Hv) as (idx' & Hi' & o & Hs & Hidx').
    { apply lookup_zip_with_Some. eauto. }
    destruct (Forall2_lookup_l _ _ _ i idx' HF Hi') as (row & Hrow & _ & Hcell). exists o, row. split; [done|]. split; [done|].
    intros j col Hj. rewrite (Hcell j col Hj). by rewrite Hidx'.
Qed.
Print Assumptions C41_cells.

(** A list request that asks for a table and does not fail gets one with a row per object of its page. *)
Theorem C41_list_as_table E cf conf h st clients r p p1 labels a : Forall kube_call h -> run_calls E (new_store conf) h = Ok st ->
  list_request conf r p labels -> effective cf p p1 -> proxy E cf clients st r a ->
  occurs (str "application/json;as=Table") (rq_accept r) ->
  (1 <= pg_page p)%Z -> (1 <= pg_size p)%Z -> (pg_page p * pg_size p < 2 ^ 63)%Z ->
  a = AStatus 400 (str "query error") \/
  exists ks es, listed E st (req_gvr r) (var r (str "namespace")) (pg_search p1) labels ks es /\
    ((Z.of_nat (length es) < 2 ^ 63)%Z ->
     a = AStatus 400 (str "out of page") \/
     exists t, a = ATable t /\ Forall (fun row => length row = length (t_cols t)) (t_rows t) /\
       length (t_rows t) = Nat.min (Z.to_nat (pg_size p)) (length es - Z.to_nat ((pg_page p - 1) * pg_size p))).
Proof.
  intros Hk Hr Hreq He Ha Hacc H1 H2 H3.
  destruct (C38_page_of_matching_objects E cf conf h st clients r p p1 labels a Hk Hr Hreq He Ha H1 H2 H3) as [[_ ?]|(ks & es & Hl & _ & Hsh)]; [by left|].
  right. exists ks, es. split; [done|]. intros Ht. cbv zeta in Hsh. specialize (Hsh Ht). destruct (decide _); [by left|]. right.
  destruct Hsh as [_ Hsh]. destruct (Hsh Hacc) as (ord & Hord & Hp).
  set (lo := Z.to_nat ((pg_page p - 1) * pg_size p)) in *. set (cnt := Z.to_nat (pg_size p)) in *.
  destruct (C41_rectangular E conf h st (req_gvr r) ord (take cnt (drop lo ks)) (take cnt (drop lo es)) Hk Hr) as (t & Hpt & Hlen & _ & HF); [|done|].
  - destruct Hl as (_ & Hl & _). apply Forall2_take, Forall2_drop. eapply Forall2_impl; [exact Hl|]. intros k e [[Hx _] _]. exact Hx.
  - rewrite Hpt in Hp. exists t. split; [done|]. split; [done|]. by rewrite Hlen, take_length, drop_length.
Qed.
Print Assumptions C41_list_as_table.
(** The two pods of c1 in namespace default: the name column is empty, because only configured
    indexes are in the annotation (finding). *)
Definition ex_table : result table :=
  server_print (fun _ m => map_to_list m) (map en_obj (omap (fun n => lookup_entry ex_store pods c1 (str "default") n) [str "a"; str "b"])).
Example C41_ex : ex_table =
  Ok (Table [str "cluster"; str "name"; str "is_deleted"; str "kind"; str "size"]
        [[Some (str "c1"); None; Some (str "false"); Some (str "pod"); Some (str "10")];
         [Some (str "c1"); None; Some (str "false"); Some (str "pod"); Some (str "9")]]).
Proof. vm_compute. reflexivity. Qed.
Example C41_ex_hyps : exists ks es, Forall2 (cached ex_store pods) ks es /\ length es = 2 /\
  (forall x, is_Some (default ∅ (ex_conf !! pods) !! x) -> valid_utf8 x = true).
Proof.
  destruct (lookup_entry ex_store pods c1 (str "default") (str "a")) as [ea|] eqn:Ea; [|by vm_compute in Ea].
  destruct (lookup_entry ex_store pods c1 (str "default") (str "b")) as [eb|] eqn:Eb; [|by vm_compute in Eb].
  exists [(c1, str "default", str "a"); (c1, str "default", str "b")], [ea; eb]. split; [by repeat constructor|]. split; [done|].
  rewrite ex_conf_pods. intros x [v Hx]. cbn [default from_option id] in Hx. apply lookup_insert_Some in Hx as [[<- _]|[_ Hx]]; [done|].
  apply lookup_singleton_Some in Hx as [<- _]. done.
Qed.
