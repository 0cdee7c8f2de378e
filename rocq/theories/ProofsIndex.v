(** Lemmas about the index entries of cached objects, sort keys and search errors. *)
From Coq Require Import Ascii String NArith ZArith Lia.
From stdpp Require Import base gmap strings list sorting.
From Verif Require Import ModelStr ModelSort ProofsSort ProofsStr ModelLabels SpecLabels ProofsLabels ModelPage SpecPage ProofsPage ModelJson
  ModelStore SpecStore ProofsStore ProofsQueryStore.

Local Notation key := (gostr * gostr * gostr)%type.
Definition same_keys (a b : gmap gostr gostr) : Prop := forall k, is_Some (a !! k) <-> is_Some (b !! k).

Section index.
  Context (E : env).

  Lemma build_index conf c k : let i := en_index (build E conf c (OKube k)).2 in
    i !! str "cluster" = Some c /\ i !! str "namespace" = Some (k_ns k) /\ i !! str "name" = Some (k_name k) /\
    i !! str "is_deleted" = Some (if k_deleted k then str "true" else str "false") /\
    (forall x, x ∉ [str "cluster"; str "namespace"; str "name"; str "is_deleted"] -> i !! x = index_value E (OKube k) <$> conf !! x).
  Proof.
    cbn -[str]. split; [|split; [|split; [|split]]].
    - rewrite lookup_insert_ne by done. rewrite lookup_insert_ne by done. rewrite lookup_insert_ne by done. apply lookup_insert.
    - rewrite lookup_insert_ne by done. apply lookup_insert.
    - apply lookup_insert.
    - rewrite lookup_insert_ne by done. rewrite lookup_insert_ne by done. apply lookup_insert.
    - intros x Hx. rewrite !not_elem_of_cons in Hx. destruct Hx as (H1 & H2 & H3 & H4 & _).
      rewrite !lookup_insert_ne by done. apply lookup_fmap.
  Qed.
  Lemma build_keys conf c k x : is_Some (en_index (build E conf c (OKube k)).2 !! x) <->
    x ∈ [str "cluster"; str "namespace"; str "name"; str "is_deleted"] \/ is_Some (conf !! x).
  Proof.
    destruct (build_index conf c k) as (H1 & H2 & H3 & H4 & H5).
    destruct (decide (x ∈ [str "cluster"; str "namespace"; str "name"; str "is_deleted"])) as [Hx|Hx].
    - split; [by left|]. intros _. rewrite !elem_of_cons in Hx. destruct Hx as [->|[->|[->|[->|Hx]]]]; eauto. by apply elem_of_nil in Hx.
    - rewrite H5 by done. rewrite fmap_is_Some. tauto.
  Qed.
  Lemma build_same_keys conf c1 c2 k1 k2 :
    same_keys (en_index (build E conf c1 (OKube k1)).2) (en_index (build E conf c2 (OKube k2)).2).
  Proof. intros x. by rewrite !build_keys. Qed.

  (** Cached Kubernetes objects. *)
  Lemma kube_entry conf h st g c ns n e : Forall kube_call h -> run_calls E (new_store conf) h = Ok st ->
    lookup_entry st g c ns n = Some e ->
    exists k, k_ns k = ns /\ k_name k = n /\ e = (build E (default ∅ (conf !! g)) c (OKube k)).2.
  Proof.
    intros Hk Hr He. apply (history_some E conf h st g c ns n e Hr) in He as (h1 & k & h2 & o & -> & [Hs Hkey] & _ & ->).
    apply Forall_app in Hk as [_ Hk]. apply Forall_cons_1 in Hk as [Hk _].
    assert (exists x, o = OKube x) as [x ->] by (by destruct Hs as [->| ->]). cbn in Hkey. exists x. naive_solver.
  Qed.
  Lemma entries_same_keys conf h1 st1 h2 st2 g k1 e1 k2 e2 ns1 ns2 :
    Forall kube_call h1 -> run_calls E (new_store conf) h1 = Ok st1 ->
    Forall kube_call h2 -> run_calls E (new_store conf) h2 = Ok st2 ->
    in_scope st1 g ns1 k1 e1 -> in_scope st2 g ns2 k2 e2 -> same_keys (en_index e1) (en_index e2).
  Proof.
    intros Hk1 Hr1 Hk2 Hr2 [He1 _] [He2 _].
    destruct (kube_entry _ _ _ _ _ _ _ _ Hk1 Hr1 He1) as (o1 & _ & _ & ->).
    destruct (kube_entry _ _ _ _ _ _ _ _ Hk2 Hr2 He2) as (o2 & _ & _ & ->). apply build_same_keys.
  Qed.

  (** ** Errors depend only on the keys *)
  Lemma sort_part_keys a b p : same_keys a b -> sort_part a p = sort_part b p.
  Proof.
    intros H. assert (forall k (X : Type) (x y : X), match a !! k with Some _ => x | None => y end = match b !! k with Some _ => x | None => y end) as Hm.
    { intros k X x y. specialize (H k). destruct (a !! k), (b !! k); [done| | |done]; exfalso.
      - destruct H as [H _]. by destruct (H ltac:(by eexists)).
      - destruct H as [_ H]. by destruct (H ltac:(by eexists)). }
    unfold sort_part, sort_typ. cbv zeta. by repeat (setoid_rewrite Hm || f_equal || case_match).
  Qed.
  Lemma sort_keys_same a b ps : same_keys a b -> sort_keys a ps = sort_keys b ps.
  Proof. intros H. induction ps as [|p ps IH]; [done|]. cbn [sort_keys]. by rewrite (sort_part_keys a b p H), IH. Qed.
  Lemma match_one_err a b va vb p : same_keys a b ->
    match_one_from (e_print E) a va p = None <-> match_one_from (e_print E) b vb p = None.
  Proof.
    intros H. unfold match_one_from. cbv zeta.
    destruct (str_eqb (trim_space p) []); [done|].
    destruct (has_prefix adv_prefix (trim_space p)).
    { destruct (str_eqb _ []); [done|]. destruct (parse_to_label_selector _); [|done]. by destruct (as_selector _). }
    destruct (match index_of (str "=") (trim_space p) with Some i => _ | None => _ end) as [kk v].
    destruct (parse_value v) as [v' rev]. destruct (str_eqb kk []); [done|]. specialize (H kk).
    destruct (a !! kk), (b !! kk); try done; exfalso.
    - destruct H as [H _]. by destruct (H ltac:(by eexists)).
    - destruct H as [_ H]. by destruct (H ltac:(by eexists)).
  Qed.
  Lemma match_loop_err a n ps : match_loop (e_print E) a n ps = None <-> Exists (fun p => match_one (e_print E) a p = None) ps.
  Proof.
    revert n. induction ps as [|p ps IH]; intros n; cbn [match_loop]; [rewrite Exists_nil; by split|].
    rewrite Exists_cons. destruct (match_one (e_print E) a p) as [r|]; [rewrite IH|]; naive_solver.
  Qed.
  Lemma match_parts_err a ps : match_parts (e_print E) a ps = None <-> Exists (fun p => match_one (e_print E) a p = None) ps.
  Proof.
    assert (match match_loop (e_print E) a 0 ps with None => None | Some n => Some (Nat.eqb n (length ps)) end = None <->
       Exists (fun p => match_one (e_print E) a p = None) ps) as Hl.
    { rewrite <- (match_loop_err a 0). destruct (match_loop _ _ _ _); naive_solver. }
    destruct ps as [|p [|q ps]]; [exact Hl| |exact Hl]. cbn [match_parts]. rewrite Exists_cons, Exists_nil. tauto.
  Qed.
  Lemma entry_match_err search e1 e2 : same_keys (en_index e1) (en_index e2) ->
    entry_match E search e1 = None -> entry_match E search e2 = None.
  Proof.
    unfold entry_match, paginate_match. rewrite !match_parts_err. intros H HE. eapply Exists_impl; [exact HE|]. intros p.
    unfold match_one. apply (match_one_err _ _ _ _ p H).
  Qed.

  (** ** The default sort *)
  Definition by_key : list isort :=
    [ISort (str "cluster") false false; ISort (str "namespace") false false; ISort (str "name") false false].
  Lemma default_keys i : is_Some (i !! str "cluster") -> is_Some (i !! str "namespace") -> is_Some (i !! str "name") ->
    sort_keys i (split_on ","%char default_sort) = Some (Some by_key).
  Proof.
    intros [a Ha] [b Hb] [c Hc].
    assert (split_on ","%char default_sort = [str "cluster"; str " namespace"; str " name"]) as -> by reflexivity.
    cbn [sort_keys].
    assert (sort_part i (str "cluster") = PKey (ISort (str "cluster") false false)) as ->.
    { transitivity (match i !! str "cluster" with Some _ => PKey (ISort (str "cluster") false false) | None => PErr end); [reflexivity|by rewrite Ha]. }
    assert (sort_part i (str " namespace") = PKey (ISort (str "namespace") false false)) as ->.
    { transitivity (match i !! str "namespace" with Some _ => PKey (ISort (str "namespace") false false) | None => PErr end); [reflexivity|by rewrite Hb]. }
    assert (sort_part i (str " name") = PKey (ISort (str "name") false false)) as ->.
    { transitivity (match i !! str "name" with Some _ => PKey (ISort (str "name") false false) | None => PErr end); [reflexivity|by rewrite Hc]. }
    done.
  Qed.
  Lemma by_key_numeric P i : numeric E P by_key i.
  Proof. repeat constructor; done. Qed.
  Lemma by_key_rank : rank_ok E (fun _ => 0%Z) (fun _ => False).
  Proof. by intros x y []. Qed.

  (** Two entries of a store that agree on cluster, namespace and name are the same. *)
  Lemma same_key_same_entry conf h st g ns k1 e1 k2 e2 : Forall kube_call h -> run_calls E (new_store conf) h = Ok st ->
    in_scope st g ns k1 e1 -> in_scope st g ns k2 e2 ->
    Forall (fun s => tie E (fun _ => 0%Z) s (en_index e1) (en_index e2)) by_key -> k1 = k2 /\ e1 = e2.
  Proof.
    intros Hk Hr [H1 _] [H2 _] HF. destruct k1 as [[c1 n1] m1], k2 as [[c2 n2] m2]. cbn in H1, H2.
    destruct (kube_entry _ _ _ _ _ _ _ _ Hk Hr H1) as (o1 & Hn1 & Hm1 & He1).
    destruct (kube_entry _ _ _ _ _ _ _ _ Hk Hr H2) as (o2 & Hn2 & Hm2 & He2).
    destruct (build_index (default ∅ (conf !! g)) c1 o1) as (A1 & B1 & C1 & _). rewrite <- He1 in A1, B1, C1.
    destruct (build_index (default ∅ (conf !! g)) c2 o2) as (A2 & B2 & C2 & _). rewrite <- He2 in A2, B2, C2.
    unfold by_key in HF. apply Forall_cons_1 in HF as [T1 HF]. apply Forall_cons_1 in HF as [T2 HF]. apply Forall_cons_1 in HF as [T3 _].
    unfold tie, value in T1, T2, T3. cbn [is_int is_key] in T1, T2, T3. rewrite A1, A2 in T1. rewrite B1, B2 in T2. rewrite C1, C2 in T3.
    cbn in T1, T2, T3. subst. assert ((c2, k_ns o1, k_name o1) = (c2, k_ns o2, k_name o2)) as Heq by congruence. split; [done|]. congruence.
  Qed.
End index.
