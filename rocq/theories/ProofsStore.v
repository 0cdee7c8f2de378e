(** Lemmas about the cache. *)
From Coq Require Import Ascii String NArith ZArith Lia.
From stdpp Require Import base gmap strings list sorting.
From Verif Require Import ModelStr ModelSort ProofsSort ProofsStr ModelLabels SpecLabels ProofsLabels ModelPage SpecPage ProofsPage ModelJson
  ModelStore SpecStore.

Section proofs.
  Context (E : env).
  Local Notation build := (build E).
  Local Notation do_call := (do_call E).
  Local Notation run_calls := (run_calls E).

  Lemma build_key conf c o : (build conf c o).1 = obj_key E conf o.
  Proof.
    unfold build, obj_key. cbv zeta. destruct o as [k|j]; [done|]. cbn [fst]. unfold index_base. rewrite !lookup_fmap.
    by destruct (conf !! str "namespace"), (conf !! str "name").
  Qed.
  Lemma build_stored conf c o : stored_as c o (en_obj (build conf c o).2).
  Proof.
    unfold build. cbv zeta. destruct o as [k|j]; [|done]. cbn. unfold cluster_anno, index_anno.
    repeat (split; [done|]). split.
    - rewrite lookup_insert_ne by done. apply lookup_insert.
    - intros a H1 H2. by rewrite !lookup_insert_ne by done.
  Qed.

  (** ** Lookups after calls *)
  Definition mlookup (m : gmap gvr typemap) (g : gvr) (c ns n : gostr) : option entry :=
    cs ← m !! g; nss ← cs !! c; os ← nss !! ns; os !! n.
  Lemma lookup_entry_map st g c ns n : lookup_entry st g c ns n = mlookup (st_map st) g c ns n.
  Proof. done. Qed.
  Lemma at_ns_lookup m g c ns f m' g' c' ns' n' : at_ns m g c ns f = Ok m' ->
    mlookup m' g' c' ns' n' =
    if decide (g' = g /\ c' = c /\ ns' = ns)
    then f (default ∅ (cs ← m !! g; nss ← cs !! c; nss !! ns)) !! n'
    else mlookup m g' c' ns' n'.
  Proof.
    unfold at_ns. destruct (m !! g) as [cs|] eqn:Eg; [|done]. intros [= <-]. unfold mlookup.
    destruct (decide (g' = g)) as [->|Hg].
    2:{ rewrite lookup_insert_ne by done. destruct (decide _) as [[? _]|]; done. }
    rewrite lookup_insert. cbn [mbind option_bind]. rewrite ?Eg. cbn [mbind option_bind].
    destruct (decide (c' = c)) as [->|Hc].
    2:{ rewrite lookup_insert_ne by done. destruct (decide _) as [(_&?&_)|]; [done|]. by rewrite ?Eg. }
    rewrite lookup_insert. cbn [mbind option_bind].
    destruct (decide (ns' = ns)) as [->|Hns].
    - rewrite lookup_insert. cbn [mbind option_bind]. rewrite decide_True by done. do 2 f_equal.
      by destruct (cs !! c).
    - rewrite lookup_insert_ne by done. rewrite decide_False by naive_solver.
      destruct (cs !! c) as [nss|]; cbn [default mbind option_bind]; [done|]. by rewrite lookup_empty.
  Qed.
  Lemma mlookup_default m g c ns n :
    default ∅ (cs ← m !! g; nss ← cs !! c; nss !! ns) !! n = mlookup m g c ns n.
  Proof.
    unfold mlookup. destruct (m !! g) as [cs|]; cbn; [|by rewrite lookup_empty].
    destruct (cs !! c) as [nss|]; cbn; [|by rewrite lookup_empty].
    destruct (nss !! ns) as [os|]; cbn; [done|by rewrite lookup_empty].
  Qed.
  Lemma at_ns_dom m g c ns f m' g' : at_ns m g c ns f = Ok m' -> is_Some (m' !! g') <-> is_Some (m !! g').
  Proof.
    unfold at_ns. destruct (m !! g) as [cs|] eqn:Eg; [|done]. intros [= <-].
    destruct (decide (g' = g)) as [->|]; [rewrite lookup_insert, Eg|by rewrite lookup_insert_ne]. split; eauto.
  Qed.

  Lemma event_ok st g c o f st' : on_event E st g c o f = Ok st' ->
    exists ns n e m, build (conf_of st g) c o = (ns, n, e) /\ at_ns (st_map st) g c ns (f n e) = Ok m /\
      st_conf st' = st_conf st /\ st_map st' = m /\
      st_gauge st' = <[(c, g, ns) := ns_len m g c ns]> (st_gauge st).
  Proof.
    unfold on_event. destruct (build (conf_of st g) c o) as [[ns n] e] eqn:Eb.
    destruct (at_ns (st_map st) g c ns (f n e)) as [m|] eqn:Ea; [|done]. intros [= <-].
    exists ns, n, e, m. done.
  Qed.
  Lemma call_conf st k st' : do_call st k = Ok st' -> st_conf st' = st_conf st.
  Proof.
    destruct k as [g c o|g c o|g c o|g c]; cbn.
    1-3: intros (ns & n & e & m & _ & _ & ? & _)%event_ok; done.
    unfold clean. destruct (st_map st !! g) as [cs|]; [|done]. destruct (cs !! c); by intros [= <-].
  Qed.
  Lemma call_dom st k st' g' : do_call st k = Ok st' -> is_Some (st_map st' !! g') <-> is_Some (st_map st !! g').
  Proof.
    destruct k as [g c o|g c o|g c o|g c]; cbn.
    1-3: intros (ns & n & e & m & _ & Ha & _ & -> & _)%event_ok; by eapply at_ns_dom.
    unfold clean. destruct (st_map st !! g) as [cs|] eqn:Eg; [|done]. destruct (cs !! c); intros [= <-]; [|done].
    cbn. destruct (decide (g' = g)) as [->|]; [rewrite lookup_insert, Eg|by rewrite lookup_insert_ne]. split; eauto.
  Qed.
  Lemma call_panics st k : do_call st k = Panics <-> st_map st !! call_gvr k = None.
  Proof.
    destruct k as [g c o|g c o|g c o|g c]; cbn.
    1-3: unfold on_added, on_modified, on_deleted, on_event; destruct (build (conf_of st g) c o) as [[ns n] e];
      unfold at_ns; destruct (st_map st !! g); naive_solver.
    unfold clean. destruct (st_map st !! g) as [cs|]; [|done]. destruct (cs !! c); naive_solver.
  Qed.
  (** The entry at a key after a call. *)
  Definition after (conf : gmap gostr gostr) (k : call) (g : gvr) (c ns n : gostr) (old : option entry) : option entry :=
    if decide (call_gvr k = g /\ call_cluster k = c) then
      match k with
      | CAdd _ _ o | CMod _ _ o => if decide (obj_key E conf o = (ns, n)) then Some (build conf c o).2 else old
      | CDel _ _ o => if decide (obj_key E conf o = (ns, n)) then None else old
      | CClean _ _ => None
      end
    else old.
  Lemma event_lookup st g c o f st' g' c' ns' n' : on_event E st g c o f = Ok st' ->
    lookup_entry st' g' c' ns' n' =
    if decide (g = g' /\ c = c') then
      if decide ((obj_key E (conf_of st g) o).1 = ns') then
        f (obj_key E (conf_of st g) o).2 (build (conf_of st g) c o).2
          (default ∅ (cs ← st_map st !! g; nss ← cs !! c; nss !! ns')) !! n'
      else lookup_entry st g' c' ns' n'
    else lookup_entry st g' c' ns' n'.
  Proof.
    intros (ns & n & e & m & Hb & Ha & _ & Hm & _)%event_ok. rewrite !lookup_entry_map, Hm.
    rewrite (at_ns_lookup _ _ _ _ _ _ g' c' ns' n' Ha).
    pose proof (build_key (conf_of st g) c o) as Hk. rewrite Hb in Hk. cbn [fst] in Hk. rewrite <- Hk, Hb. cbn [fst snd].
    destruct (decide (g = g' /\ c = c')) as [[-> ->]|].
    - destruct (decide (ns = ns')) as [->|]; [by rewrite decide_True|by rewrite decide_False by naive_solver].
    - rewrite decide_False by naive_solver. done.
  Qed.
  Lemma call_lookup st k st' g c ns n : do_call st k = Ok st' ->
    lookup_entry st' g c ns n = after (conf_of st g) k g c ns n (lookup_entry st g c ns n).
  Proof.
    intros H. unfold after. destruct k as [g0 c0 o|g0 c0 o|g0 c0 o|g0 c0]; cbn [call_gvr call_cluster] in *; cbn in H.
    1-3: rewrite (event_lookup _ _ _ _ _ _ g c ns n H); destruct (decide (g0 = g /\ c0 = c)) as [[-> ->]|]; [|done];
      destruct (obj_key E (conf_of st g) o) as [ns0 n0] eqn:Ek; cbn [fst snd];
      (destruct (decide (ns0 = ns)) as [->|Hns]; [|by rewrite decide_False by naive_solver]);
      (destruct (decide (n0 = n)) as [->|Hn]; [rewrite decide_True by done|rewrite decide_False by naive_solver]);
      rewrite ?lookup_insert, ?lookup_delete; try done;
      rewrite ?lookup_insert_ne, ?lookup_delete_ne by done; by rewrite mlookup_default.
    unfold clean in H. destruct (st_map st !! g0) as [cs|] eqn:Eg; [|done]. destruct (cs !! c0) as [nss|] eqn:Ec.
    - injection H as <-. rewrite !lookup_entry_map. cbn [st_map]. unfold mlookup. destruct (decide (g0 = g /\ c0 = c)) as [[-> ->]|Hne].
      + rewrite lookup_insert. cbn [mbind option_bind]. rewrite lookup_insert. cbn [mbind option_bind].
        rewrite lookup_fmap. destruct (nss !! ns); [|done]. cbn. apply lookup_empty.
      + destruct (decide (g = g0)) as [->|]; [|by rewrite lookup_insert_ne]. rewrite lookup_insert, Eg. cbn [mbind option_bind].
        rewrite lookup_insert_ne by naive_solver. done.
    - injection H as <-. destruct (decide (g0 = g /\ c0 = c)) as [[-> ->]|Hne]; [|done].
      rewrite lookup_entry_map. unfold mlookup. rewrite Eg. cbn [mbind option_bind]. by rewrite Ec.
  Qed.

  (** ** Histories *)
  Lemma run_app st h1 h2 : run_calls st (h1 ++ h2) = match run_calls st h1 with Ok st' => run_calls st' h2 | Panics => Panics end.
  Proof. revert st. induction h1 as [|k h1 IH]; intros st; [done|]. cbn. destruct (do_call st k); [apply IH|done]. Qed.
  Lemma run_snoc st h k st' : run_calls st (h ++ [k]) = Ok st' <-> exists st1, run_calls st h = Ok st1 /\ do_call st1 k = Ok st'.
  Proof.
    rewrite run_app. destruct (run_calls st h) as [st1|]; cbn; [|naive_solver].
    assert (match do_call st1 k with Ok s => Ok s | Panics => Panics end = do_call st1 k) as -> by by destruct (do_call st1 k).
    split; [by eauto|]. intros (s & [= <-] & H). done.
  Qed.
  Lemma run_conf st h st' : run_calls st h = Ok st' -> st_conf st' = st_conf st.
  Proof.
    revert st. induction h as [|k h IH]; intros st; cbn; [naive_solver|]. destruct (do_call st k) as [st1|] eqn:Ek; [|done].
    intros H%IH. rewrite H. by eapply call_conf.
  Qed.
  Lemma run_dom st h st' g : run_calls st h = Ok st' -> is_Some (st_map st' !! g) <-> is_Some (st_map st !! g).
  Proof.
    revert st. induction h as [|k h IH]; intros st; cbn; [naive_solver|]. destruct (do_call st k) as [st1|] eqn:Ek; [|done].
    intros H%IH. rewrite H. by eapply call_dom.
  Qed.
  Lemma new_dom conf g : is_Some (st_map (new_store conf) !! g) <-> is_Some (conf !! g).
  Proof. cbn. rewrite lookup_fmap. destruct (conf !! g); cbn; split; intros [? ?]; eauto; done. Qed.
  Lemma run_ok_iff conf h : (exists st, run_calls (new_store conf) h = Ok st) <-> Forall (fun k => is_Some (conf !! call_gvr k)) h.
  Proof.
    induction h as [|k h IH] using rev_ind; [split; [constructor|by eexists]|]. rewrite Forall_app, Forall_singleton, <- IH.
    setoid_rewrite run_snoc. split.
    - intros (st & st1 & H1 & H2). split; [by eexists|]. apply new_dom. rewrite <- run_dom by exact H1.
      destruct (st_map st1 !! call_gvr k) eqn:Em; [by eexists|]. apply call_panics in Em. congruence.
    - intros [[st1 H1] Hk]. destruct (do_call st1 k) as [st|] eqn:Ek; [eauto|]. exfalso.
      apply call_panics in Ek. apply new_dom in Hk. rewrite <- run_dom in Hk by exact H1. rewrite Ek in Hk. by destruct Hk.
  Qed.
  Lemma new_lookup conf g c ns n : lookup_entry (new_store conf) g c ns n = None.
  Proof. unfold lookup_entry. cbn. rewrite lookup_fmap. destruct (conf !! g); [|done]. cbn. by rewrite lookup_empty. Qed.

  Lemma history_some conf h st g c ns n e : run_calls (new_store conf) h = Ok st ->
    lookup_entry st g c ns n = Some e <->
    exists h1 k h2 o, h = h1 ++ k :: h2 /\ stores_key E conf k g c ns n o /\
      Forall (fun k => ~ touches_key E conf k g c ns n) h2 /\ e = (build (default ∅ (conf !! g)) c o).2.
  Proof.
    revert st e. induction h as [|k h IH] using rev_ind; intros st e Hr.
    - injection Hr as <-. rewrite new_lookup. split; [done|]. intros (h1 & k & h2 & o & Hh & _). by destruct h1.
    - apply run_snoc in Hr as (st1 & H1 & H2). rewrite (call_lookup _ _ _ _ _ _ _ H2).
      assert (conf_of st1 g = default ∅ (conf !! g)) as Hc by (unfold conf_of; by rewrite (run_conf _ _ _ H1)).
      rewrite Hc. set (cf := default ∅ (conf !! g)) in *.
      assert (lookup_entry st1 g c ns n = Some e /\ ~ touches_key E conf k g c ns n <->
        exists h1 k0 h2 o, h ++ [k] = h1 ++ k0 :: h2 /\ h2 <> [] /\ stores_key E conf k0 g c ns n o /\
          Forall (fun k => ~ touches_key E conf k g c ns n) h2 /\ e = (build cf c o).2) as Hold.
      { rewrite (IH st1 e H1). split.
        - intros ((h1 & k0 & h2 & o & -> & Hs & HF & ->) & Hk). exists h1, k0, (h2 ++ [k]), o.
          split; [by rewrite <- app_assoc|]. split; [by destruct h2|]. split; [done|]. split; [|done].
          apply Forall_app. split; [done|]. by apply Forall_singleton.
        - intros (h1 & k0 & h2 & o & Hh & Hne & Hs & HF & ->).
          destruct h2 as [|k1 h2 _] using rev_ind; [done|]. rewrite app_comm_cons, app_assoc in Hh.
          apply app_inj_tail in Hh as [-> <-]. apply Forall_app in HF as [HF Hk]. apply Forall_inv in Hk.
          split; [|exact Hk]. exists h1, k0, h2, o. done. }
      assert ((exists h1 k0 h2 o, h ++ [k] = h1 ++ k0 :: h2 /\ stores_key E conf k0 g c ns n o /\
                 Forall (fun k => ~ touches_key E conf k g c ns n) h2 /\ e = (build cf c o).2) <->
              (exists o, stores_key E conf k g c ns n o /\ e = (build cf c o).2) \/
              (lookup_entry st1 g c ns n = Some e /\ ~ touches_key E conf k g c ns n)) as ->.
      { rewrite Hold. split.
        - intros (h1 & k0 & h2 & o & Hh & Hs & HF & He). destruct (decide (h2 = [])) as [->|Hne].
          + left. apply app_inj_tail in Hh as [_ ->]. eauto.
          + right. exists h1, k0, h2, o. done.
        - intros [(o & Hs & He)|(h1 & k0 & h2 & o & Hh & _ & Hs & HF & He)].
          + exists h, k, [], o. done.
          + exists h1, k0, h2, o. done. }
      clear Hold IH. unfold after, stores_key, touches_key. fold cf.
      destruct k as [g0 c0 o0|g0 c0 o0|g0 c0 o0|g0 c0]; cbn [call_gvr call_cluster].
      + destruct (decide (g0 = g /\ c0 = c)) as [[-> ->]|Hne].
        * destruct (decide (obj_key E cf o0 = (ns, n))) as [Hk|Hk]; naive_solver.
        * naive_solver.
      + destruct (decide (g0 = g /\ c0 = c)) as [[-> ->]|Hne].
        * destruct (decide (obj_key E cf o0 = (ns, n))) as [Hk|Hk]; naive_solver.
        * naive_solver.
      + destruct (decide (g0 = g /\ c0 = c)) as [[-> ->]|Hne].
        * destruct (decide (obj_key E cf o0 = (ns, n))) as [Hk|Hk]; naive_solver.
        * naive_solver.
      + destruct (decide (g0 = g /\ c0 = c)) as [[-> ->]|Hne]; naive_solver.
  Qed.
End proofs.
