(** Proofs for the services of a deployment and the subset test. *)
From Coq Require Import Ascii String NArith ZArith Lia.
From stdpp Require Import base gmap strings list sorting.
From Verif Require Import ModelStr ModelSort ModelLabels SpecLabels ModelPage ModelJson ModelStore ModelProxy ModelExtend
  SpecPage SpecStore SpecExtend ProofsStr ProofsLabels ProofsParse ProofsPage ProofsQuote ProofsSel ProofsSort ProofsStore ProofsQueryStore ProofsIndex ProofsListing
  PropsSearch PropsSelector PropsStore PropsStore3.

(** ** Subset *)
Lemma subset_loop_spec order parent : subset_loop order parent = true <-> forall k v, (k, v) ∈ order -> parent !! k = Some v.
Proof.
  induction order as [|[k v] order IH]; cbn [subset_loop].
  - split; [|done]. intros _ k v Hkv. by apply elem_of_nil in Hkv.
  - destruct (parent !! k) as [vv|] eqn:Ek.
    + destruct (str_eqb vv v) eqn:Ev.
      * apply str_eqb_eq in Ev as ->. rewrite IH. split.
        -- intros H k' v' [[= -> ->]|Hin]%elem_of_cons; [done|by apply H].
        -- intros H k' v' Hin. apply H. by right.
      * split; [done|]. intros H. specialize (H k v (elem_of_list_here _ _)). rewrite Ek in H. injection H as ->. by rewrite str_eqb_refl in Ev.
    + split; [done|]. intros H. specialize (H k v (elem_of_list_here _ _)). by rewrite Ek in H.
Qed.
Lemma subset_map (sub parent : gmap gostr gostr) order : order ≡ₚ map_to_list sub ->
  subset_loop order parent = true <-> forall k v, sub !! k = Some v -> parent !! k = Some v.
Proof.
  intros HP. rewrite subset_loop_spec. split; intros H k v Hk.
  - apply H. rewrite HP. by apply elem_of_map_to_list.
  - apply H. apply elem_of_map_to_list. by rewrite <- HP.
Qed.

(** ** Names of owners *)
Lemma split_on_snoc c a s : c ∉ s -> split_on c (a ++ c :: s) = split_on c a ++ [s].
Proof.
  intros Hs. rewrite <- (join_split c a) at 1. pose proof (split_on_nosep_all c a) as HF. pose proof (split_on_nonnil c a) as Hne.
  revert HF Hne. generalize (split_on c a). intros l HF Hne. 
  assert (join [c] l ++ c :: s = join [c] (l ++ [s])) as ->.
  { clear HF. induction l as [|x [|y l] IH]; [done|done|]. change (join [c] (x :: y :: l)) with (x ++ c :: join [c] (y :: l)).
    rewrite <- app_assoc. cbn [app]. rewrite IH by done. reflexivity. }
  apply split_on_join; [by destruct l|]. apply Forall_app. split; [done|]. by constructor; [|constructor].
Qed.
Lemma last_dash c (s : gostr) : c ∈ s -> exists a b, s = a ++ c :: b /\ c ∉ b.
Proof.
  induction s as [|x s IH]; [by intros ?%elem_of_nil|]. intros Hc. destruct (decide (c ∈ s)) as [Hs|Hs].
  - destruct (IH Hs) as (a & b & -> & Hb). by exists (x :: a), b.
  - apply elem_of_cons in Hc as [->|?]; [|done]. by exists [], s.
Qed.
Lemma deployment_name_spec k : deployment_name k <> [] <-> replica_pod k.
Proof.
  unfold deployment_name, replica_pod. destruct (k_owners k) as [|[kind name] rest]; [split; [done|by intros (? & ? & ? & ? & _)]|].
  destruct (str_eqb kind (str "ReplicaSet")) eqn:Ek.
  - apply str_eqb_eq in Ek as ->. destruct (decide ("-"%char ∈ name)) as [Hd|Hd].
    + apply last_dash in Hd as (a & b & -> & Hb). rewrite split_on_snoc by done. rewrite removelast_last. change (str "-") with ["-"%char]. rewrite join_split. split.
      * intros Ha. by exists a, b, rest.
      * intros (a' & b' & rest' & [= He ->] & Ha & Hb') ->. apply Ha. cbn [app] in He.
        destruct a' as [|x a']; [done|]. injection He as <- He. exfalso. apply Hb. rewrite He. set_solver.
    + rewrite split_on_nosep by done. split; [done|]. intros (a' & b' & rest' & [= -> ->] & _). set_solver.
  - split; [done|]. intros (a & b & rest' & [= -> _ _] & _). by rewrite str_eqb_refl in Ek.
Qed.

(** ** One query of one cluster and namespace *)
Section one.
  Context (E : env) (conf : gmap gvr (gmap gostr gostr)) (h : list call) (st : store).
  Context (Hk : Forall kube_call h) (Hr : run_calls E (new_store conf) h = Ok st).
  Notation by_name := (fun a b : gostr => str_ltb a b = true).
  (** The objects of [g] in cluster [c] and namespace [ns] for which [P] holds, by name. *)
  Definition named (g : gvr) (c ns : gostr) (P : gmap gostr gostr -> Prop) (names : list gostr) (es : list entry) : Prop :=
    StronglySorted by_name names /\
    Forall2 (fun n e => lookup_entry st g c ns n = Some e /\ P (en_index e)) names es /\
    (forall n e, lookup_entry st g c ns n = Some e -> P (en_index e) -> n ∈ names).
  Lemma index_of g c ns n e : lookup_entry st g c ns n = Some e ->
    en_index e !! str "cluster" = Some c /\ en_index e !! str "namespace" = Some ns /\ en_index e !! str "name" = Some n.
  Proof.
    intros Hl. destruct (C26_builtin_index E conf h st _ _ _ _ _ Hk Hr Hl) as (k & k' & _ & _ & _ & A & B & <- & C & <- & _). done.
  Qed.
  Lemma named_query (g : gvr) (c ns : gostr) (p : paginate) (P : gmap gostr gostr -> Prop) : is_Some (conf !! g) -> ns <> [] ->
    pg_size p = 0%Z -> pg_sort p = [] ->
    (forall m, is_Some (m !! str "name") -> paginate_match (e_print E) (pg_search p) m <> None /\
       (paginate_match (e_print E) (pg_search p) m = Some true <-> m !! str "cluster" = Some c /\ P m)) ->
    exists names es, named g c ns P names es /\
      forall r, query E st g ns p r -> r = Ok (QRes false (Z.of_nat (length es)) (map en_obj es)).
  Proof.
    intros Hg Hns Hsz Hso Hm. apply new_dom in Hg. rewrite <- (run_dom E _ _ _ g Hr) in Hg. destruct Hg as [cs Hg].
    destruct (default_list E conf h st g ns (pg_search p) cs Hk Hr Hg) as (ks & L & (Hnd & HF & Hc) & Hsorted & HL).
    assert (forall k e, in_scope st g ns k e -> entry_match E (pg_search p) e = Some true <-> k.1.1 = c /\ P (en_index e)) as Hem.
    { intros k e [Hl _]. destruct (index_of _ _ _ _ _ Hl) as (A & B & C). unfold entry_match.
      destruct (Hm (en_index e)) as [_ ->]; [by eexists|]. rewrite A. split; intros [H ?]; split; congruence. }
    exists (map snd ks), L. split; [split_and!|].
    - clear Hc HL. revert Hnd Hsorted. induction HF as [|k e ks L [Hke Hme] HF IH]; intros Hnd Hsorted; [constructor|].
      apply NoDup_cons in Hnd as [Hn1 Hnd]. apply StronglySorted_inv in Hsorted as [Hs1 Hs2]. cbn [map]. constructor; [by apply IH|].
      apply Forall_forall. intros x Hx. apply elem_of_list_fmap in Hx as (k' & -> & Hk').
      apply elem_of_list_lookup in Hk' as [i Hi]. destruct (Forall2_lookup_l _ _ _ _ _ HF Hi) as (e' & Hei & Hke' & Hme').
      rewrite Forall_forall in Hs2. assert (e' ∈ L) as He' by (by eapply elem_of_list_lookup_2). specialize (Hs2 _ He').
      pose proof (proj1 (Hem _ _ Hke) Hme) as [Ec _]. pose proof (proj1 (Hem _ _ Hke') Hme') as [Ec' _].
      destruct k as [[kc kn] km], k' as [[kc' kn'] km'], Hke as [Hl [?|Hn]]; [done|]. destruct Hke' as [Hl' [?|Hn']]; [done|].
      cbn in Ec, Ec', Hl, Hl', Hn, Hn'. subst kc kc' kn kn'.
      destruct (index_of _ _ _ _ _ Hl) as (A & B & C). destruct (index_of _ _ _ _ _ Hl') as (A' & B' & C').
      unfold by_key in Hs2. cbn [lex_le] in Hs2. unfold before, tie, value in Hs2. cbn [is_int is_rev is_key] in Hs2. rewrite A, A', B, B', C, C' in Hs2. cbn [default] in Hs2.
      rewrite !str_ltb_irrefl in Hs2. cbn [snd]. destruct Hs2 as [?|[_ [?|[_ [?|[Hd _]]]]]]; [done|done|done|]. exfalso.
      apply Hn1. cbn in Hd. rewrite Hd. by eapply elem_of_list_lookup_2.
    - apply Forall2_fmap_l. eapply Forall2_impl; [exact HF|]. intros [[kc kn] km] e [Hke Hme]. pose proof (proj1 (Hem _ _ Hke) Hme) as [Ec HP].
      destruct Hke as [Hl [?|Hn]]; [done|]. cbn in *. subst. done.
    - intros n e Hl HP. assert (in_scope st g ns (c, ns, n) e) as Hs by (split; [done|by right]).
      apply elem_of_list_fmap. exists (c, ns, n). split; [done|]. apply (Hc _ e Hs). by apply (Hem _ _ Hs).
    - intros r Hq. unfold query in Hq. rewrite Hg in Hq. destruct Hq as (seen & Hs & ->). rewrite query_seen_eq.
      assert (seen_err E (pg_search p) seen = false) as ->.
      { destruct (seen_err E (pg_search p) seen) eqn:Es; [|done]. apply existsb_exists in Es as (x & Hx & Hxe). exfalso.
        apply elem_of_list_In in Hx. rewrite (seen_scope st g ns cs seen x Hg Hs) in Hx. destruct Hx as (k & Hl & _).
        destruct (index_of _ _ _ _ _ Hl) as (A & B & C). destruct (Hm (en_index x)) as [Hne _]; [by eexists|].
        unfold entry_match in Hxe. by destruct (paginate_match (e_print E) (pg_search p) (en_index x)). }
      pose proof (HL seen Hs) as Hsort. pose proof (Permutation_length (sort_objs_perm E _ _ _ Hsort)) as Hlen.
      destruct (matched E (pg_search p) seen) as [|e m] eqn:Em; [by injection Hsort as <-|].
      rewrite <- Em in *. rewrite Hso, Hsort. cbv zeta. unfold page_of. rewrite Hsz. cbn [Z.eqb fst snd]. rewrite <- Hlen, slice_all. done.
  Qed.
  (** The first pod with a deployment gives the labels. *)
  Lemma pod_labels_first (g : gvr) (c ns : gostr) (P : gmap gostr gostr -> Prop) names es : named g c ns P names es ->
    let cand n k := exists e, lookup_entry st g c ns n = Some e /\ en_obj e = OKube k /\ P (en_index e) /\ replica_pod k in
    (exists n k, cand n k /\ pod_labels (map en_obj es) = k_labels k /\ forall n' k', cand n' k' -> n' = n \/ str_ltb n n' = true) \/
    (forall n k, ~ cand n k) /\ pod_labels (map en_obj es) = ∅.
  Proof.
    intros (Hso & HF & Hc) cand.
    assert ((exists n k, n ∈ names /\ cand n k /\ pod_labels (map en_obj es) = k_labels k /\ forall n' k', n' ∈ names -> cand n' k' -> n' = n \/ str_ltb n n' = true) \/
      (forall n k, n ∈ names -> ~ cand n k) /\ pod_labels (map en_obj es) = ∅) as H.
    { clear Hc. revert Hso. induction HF as [|n e names es [Hl HP] HF IH]; intros Hso.
      - right. split; [|done]. by intros n k ?%elem_of_nil.
      - apply StronglySorted_inv in Hso as [Hs1 Hs2]. specialize (IH Hs1). cbn [map pod_labels].
        destruct (C26_builtin_index E conf h st _ _ _ _ _ Hk Hr Hl) as (k0 & k & _ & Ho & _). rewrite Ho.
        destruct (deployment_name k) as [|x d] eqn:Ed.
        + assert (forall k', ~ cand n k') as Hnc.
          { intros k' (e' & Hl' & Ho' & _ & Hrp). rewrite Hl in Hl'. injection Hl' as <-. rewrite Ho in Ho'. injection Ho' as <-.
            by apply deployment_name_spec in Hrp. }
          destruct IH as [(n1 & k1 & Hin & H1 & H2 & H3)|[H1 H2]].
          * left. exists n1, k1. split_and!; [by right|done|done|]. intros n' k' [->|Hin']%elem_of_cons Hca; [by destruct (Hnc k')|]. by eapply H3.
          * right. split; [|done]. intros n' k' [->|Hin']%elem_of_cons; [apply Hnc|by apply H1].
        + left. exists n, k. split_and!; [by left| |done|].
          * exists e. split_and!; try done. apply deployment_name_spec. by rewrite Ed.
          * intros n' k' [->|Hin]%elem_of_cons _; [by left|]. right. rewrite Forall_forall in Hs2. by apply Hs2. }
    assert (forall n k, cand n k -> n ∈ names) as Hin by (intros n k (e & Hl & _ & HP & _); by eapply Hc).
    destruct H as [(n & k & _ & H1 & H2 & H3)|[H1 H2]].
    - left. exists n, k. split_and!; try done. intros n' k' Hca. eapply H3; [|done]. by eapply Hin.
    - right. split; [|done]. intros n k Hca. eapply H1; [|done]. by eapply Hin.
  Qed.
  Lemma kube_pick ord labels g c ns P names es : (forall m, ord m ≡ₚ map_to_list m) -> named g c ns P names es ->
    exists picked, pick_services ord labels (map en_obj es) = Ok (map en_obj picked) /\
      named g c ns P names es /\
      exists names', sublist names' names /\ Forall2 (fun n e => lookup_entry st g c ns n = Some e /\ selects labels (en_obj e)) names' picked /\
        forall n e, n ∈ names -> lookup_entry st g c ns n = Some e -> selects labels (en_obj e) -> n ∈ names'.
  Proof.
    intros Hord Hn. enough (exists picked, pick_services ord labels (map en_obj es) = Ok (map en_obj picked) /\
      exists names', sublist names' names /\ Forall2 (fun n e => lookup_entry st g c ns n = Some e /\ selects labels (en_obj e)) names' picked /\
        forall n e, n ∈ names -> lookup_entry st g c ns n = Some e -> selects labels (en_obj e) -> n ∈ names') as (pk & H1 & H2) by (by exists pk).
    destruct Hn as (_ & HF & _). induction HF as [|n e names es [Hl HP] HF (pk & IH & names' & Hsub & HF' & Hc)].
    - exists []. split; [done|]. exists []. split_and!; [constructor|constructor|]. by intros n e ?%elem_of_nil.
    - destruct (C26_builtin_index E conf h st _ _ _ _ _ Hk Hr Hl) as (k0 & k & _ & Ho & _). cbn [map pick_services]. rewrite Ho, IH.
      assert ((match svc_selector (k_data k) with Some sel => subset_loop (ord sel) labels | None => false end) = true <-> selects labels (en_obj e)) as Hsel.
      { rewrite Ho. unfold selects. destruct (svc_selector (k_data k)) as [sel|] eqn:Es.
        - rewrite (subset_map sel labels (ord sel) (Hord sel)). split; [by intros H; exists k, sel|]. intros (k' & sel' & [= <-] & Es' & H). rewrite Es in Es'. by injection Es' as <-.
        - split; [done|]. intros (k' & sel' & [= <-] & Es' & H). by rewrite Es in Es'. }
      destruct (match svc_selector (k_data k) with Some sel => subset_loop (ord sel) labels | None => false end) eqn:Eb.
      + exists (e :: pk). split.
        { destruct (svc_selector (k_data k)); [|done]. rewrite Eb. cbn [map]. by rewrite Ho. }
        exists (n :: names'). split_and!; [by constructor| |].
        * constructor; [|done]. split; [done|]. by apply Hsel.
        * intros n' e' [->|Hin]%elem_of_cons Hl' Hs; [by left|]. right. by eapply Hc.
      + exists pk. split.
        { destruct (svc_selector (k_data k)); [|done]. by rewrite Eb. }
        exists names'. split_and!; [by constructor|done|].
        intros n' e' [->|Hin]%elem_of_cons Hl' Hs; [|by eapply Hc]. exfalso. rewrite Hl in Hl'. injection Hl' as <-. apply Hsel in Hs. done.
  Qed.
End one.
