(** Lemmas about Clean and the resource gauge. *)
From Coq Require Import Ascii String NArith ZArith Lia.
From stdpp Require Import base gmap strings list sorting.
From Verif Require Import ModelStr ModelPage ModelJson ModelStore SpecStore ProofsStore.

Section gauge.
  Context (E : env).
  Definition empty_nss (m : clmap) : clmap := (fun _ : nsmap => (∅ : nsmap)) <$> m.
  Definition nss_of (st : store) (g : gvr) (c : gostr) : option clmap := cs ← st_map st !! g; cs !! c.

  Lemma event_call k g c : event_of k g c \/ ~ event_of k g c.
  Proof.
    unfold event_of. destruct k as [g0 c0 o|g0 c0 o|g0 c0 o|g0 c0]; try (destruct (decide (g0 = g)) as [->|]; [destruct (decide (c0 = c)) as [->|]|]);
      try (left; by eauto); right; naive_solver.
  Qed.
  Lemma event_nss st g0 c0 o f st' g c : on_event E st g0 c0 o f = Ok st' ->
    let ns := (obj_key E (conf_of st g0) o).1 in let n := (obj_key E (conf_of st g0) o).2 in
    nss_of st' g c = if decide (g0 = g /\ c0 = c)
      then Some (<[ns := f n (build E (conf_of st g0) c0 o).2 (default ∅ (default ∅ (nss_of st g c) !! ns))]> (default ∅ (nss_of st g c)))
      else nss_of st g c.
  Proof.
    intros (ns & n & e & m & Hb & Ha & _ & Hm & _)%event_ok. cbv zeta.
    pose proof (build_key E (conf_of st g0) c0 o) as Hk. rewrite Hb in Hk. cbn [fst] in Hk. rewrite <- Hk, Hb. cbn [fst snd].
    unfold at_ns in Ha. destruct (st_map st !! g0) as [cs|] eqn:Eg; [|done]. injection Ha as <-. unfold nss_of. rewrite Hm.
    destruct (decide (g0 = g /\ c0 = c)) as [[-> ->]|Hne].
    - rewrite lookup_insert, Eg. cbn [mbind option_bind]. by rewrite lookup_insert.
    - destruct (decide (g = g0)) as [->|]; [|by rewrite lookup_insert_ne]. rewrite lookup_insert, Eg. cbn [mbind option_bind].
      rewrite lookup_insert_ne by naive_solver. done.
  Qed.
  Lemma event_gauge st g0 c0 o f st' x : on_event E st g0 c0 o f = Ok st' ->
    st_gauge st' !! x = if decide (x = (c0, g0, (obj_key E (conf_of st g0) o).1))
      then Some (N.of_nat (size (default ∅ (nss ← nss_of st' g0 c0; nss !! (obj_key E (conf_of st g0) o).1)))) else st_gauge st !! x.
  Proof.
    intros (ns & n & e & m & Hb & Ha & _ & Hm & ->)%event_ok.
    pose proof (build_key E (conf_of st g0) c0 o) as Hk. rewrite Hb in Hk. cbn [fst] in Hk. rewrite <- Hk. cbn [fst snd].
    destruct (decide _) as [->|Hne]; [|by rewrite lookup_insert_ne]. rewrite lookup_insert. f_equal. unfold ns_len, nss_of. rewrite Hm.
    destruct (m !! g0) as [cs|]; [|done]. cbn [mbind option_bind]. destruct (cs !! c0) as [nss|]; [|done]. cbn [mbind option_bind].
    by destruct (nss !! ns).
  Qed.
  Lemma clean_nss st g0 c0 b st' g c : clean st g0 c0 = Ok (b, st') ->
    nss_of st' g c = if decide (g0 = g /\ c0 = c) then empty_nss <$> nss_of st g c else nss_of st g c.
  Proof.
    unfold clean, nss_of. destruct (st_map st !! g0) as [cs|] eqn:Eg; [|done]. destruct (cs !! c0) as [nss|] eqn:Ec.
    - intros [= _ <-]. cbn [st_map]. destruct (decide (g0 = g /\ c0 = c)) as [[-> ->]|Hne].
      + rewrite lookup_insert, Eg. cbn [mbind option_bind]. by rewrite lookup_insert, Ec.
      + destruct (decide (g = g0)) as [->|]; [|by rewrite lookup_insert_ne]. rewrite lookup_insert, Eg. cbn [mbind option_bind].
        rewrite lookup_insert_ne by naive_solver. done.
    - intros [= _ <-]. destruct (decide (g0 = g /\ c0 = c)) as [[-> ->]|Hne]; [|done]. rewrite Eg. cbn [mbind option_bind]. by rewrite Ec.
  Qed.
  Lemma call_nss st k st' g c : do_call E st k = Ok st' ->
    (event_of k g c -> is_Some (nss_of st' g c)) /\ (~ event_of k g c -> k <> CClean g c -> nss_of st' g c = nss_of st g c) /\
    (k = CClean g c -> nss_of st' g c = empty_nss <$> nss_of st g c).
  Proof.
    destruct k as [g0 c0 o|g0 c0 o|g0 c0 o|g0 c0]; cbn [do_call]; intros H.
    4:{ destruct (clean st g0 c0) as [[b s]|] eqn:Ec; [|done]. injection H as ->. pose proof (clean_nss _ _ _ _ _ g c Ec) as Hn.
        split; [by intros (o & [|[|]])|]. split.
        - intros _ Hne. rewrite Hn, decide_False; [done|]. intros [-> ->]. done.
        - intros [= -> ->]. by rewrite Hn, decide_True. }
    all: pose proof (event_nss _ _ _ _ _ _ g c H) as Hn; cbv zeta in Hn; split; [|split; [|done]].
    all: try (intros (o' & [[= <- <- _]|[[= <- <- _]|[= <- <- _]]]); rewrite Hn, decide_True by done; by eexists).
    all: intros Hne _; rewrite Hn, decide_False; [done|]; intros [-> ->]; apply Hne; eexists; by eauto.
  Qed.
  Lemma clean_dec k g c : k = CClean g c \/ k <> CClean g c.
  Proof.
    destruct k as [| | |g0 c0]; try (by right). destruct (decide (g0 = g)) as [->|]; [destruct (decide (c0 = c)) as [->|]|]; [by left|right; congruence..].
  Qed.
  Lemma seen_iff conf h st g c : run_calls E (new_store conf) h = Ok st ->
    is_Some (nss_of st g c) <-> Exists (fun k => event_of k g c) h.
  Proof.
    revert st. induction h as [|k h IH] using rev_ind; intros st Hr.
    - injection Hr as <-. rewrite Exists_nil. unfold nss_of. cbn. rewrite lookup_fmap. destruct (conf !! g); cbn; [rewrite lookup_empty|]; by split; [intros []|].
    - apply run_snoc in Hr as (st1 & H1 & H2). rewrite Exists_app, Exists_cons, Exists_nil. rewrite <- (IH st1 H1).
      destruct (call_nss _ _ _ g c H2) as (A & B & C). destruct (event_call k g c) as [He|He]; [tauto|].
      destruct (clean_dec k g c) as [Hc|Hc]; [rewrite (C Hc), fmap_is_Some; tauto|rewrite (B He Hc); tauto].
  Qed.

  (** Without a clean of the pair every gauge of the pair is the size of the namespace. *)
  Lemma gauge_inv conf h st g c ns : run_calls E (new_store conf) h = Ok st -> CClean g c ∉ h ->
    st_gauge st !! (c, g, ns) = (fun os => N.of_nat (size os)) <$> (nss ← nss_of st g c; nss !! ns).
  Proof.
    revert st. induction h as [|k h IH] using rev_ind; intros st Hr Hc.
    - injection Hr as <-. unfold nss_of. cbn. rewrite lookup_fmap. rewrite lookup_empty. destruct (conf !! g); cbn; [by rewrite lookup_empty|done].
    - apply run_snoc in Hr as (st1 & H1 & H2). rewrite not_elem_of_app, not_elem_of_cons in Hc. destruct Hc as (Hc & Hk & _).
      specialize (IH st1 H1 Hc). destruct k as [g0 c0 o|g0 c0 o|g0 c0 o|g0 c0]; cbn [do_call] in H2.
      4:{ destruct (clean st1 g0 c0) as [[b s]|] eqn:Ec; [|done]. injection H2 as ->. pose proof (clean_nss _ _ _ _ _ g c Ec) as Hn.
          rewrite Hn, decide_False by naive_solver. rewrite <- IH. unfold clean in Ec.
          destruct (st_map st1 !! g0) as [cs|]; [|done]. destruct (cs !! c0); injection Ec as _ <-; done. }
      all: pose proof (event_nss _ _ _ _ _ _ g c H2) as Hn; cbv zeta in Hn;
        pose proof (event_gauge _ _ _ _ _ _ (c, g, ns) H2) as Hg; rewrite Hg; clear Hg.
      all: destruct (decide (g0 = g /\ c0 = c)) as [[-> ->]|Hne]; [|rewrite decide_False by naive_solver; by rewrite Hn, IH].
      all: set (n0 := (obj_key E (conf_of st1 g) o).1) in *.
      all: destruct (decide (ns = n0)) as [->|Hns];
        [rewrite decide_True by done; rewrite Hn; cbn [mbind option_bind]; by rewrite lookup_insert|].
      all: rewrite decide_False by naive_solver; rewrite Hn; cbn [mbind option_bind]; rewrite lookup_insert_ne by done; rewrite IH;
        destruct (nss_of st1 g c); [done|]; change (default ∅ (@None clmap)) with (∅ : clmap); by rewrite (lookup_empty (M:=gmap gostr) ns).
  Qed.
  Lemma names_of st g c ns : exists names, cached_names st g c ns names /\
    length names = size (default ∅ (nss ← nss_of st g c; nss !! ns)).
  Proof.
    exists (map_to_list (default ∅ (nss ← nss_of st g c; nss !! ns))).*1. split; [split|].
    - apply NoDup_fst_map_to_list.
    - intros n. rewrite elem_of_list_fmap. unfold lookup_entry, nss_of.
      destruct (st_map st !! g) as [cs|]; cbn [mbind option_bind default].
      2:{ rewrite map_to_list_empty. split; [intros (? & _ & ?%elem_of_nil); done|by intros []]. }
      destruct (cs !! c) as [nss|]; cbn [mbind option_bind default].
      2:{ rewrite map_to_list_empty. split; [intros (? & _ & ?%elem_of_nil); done|by intros []]. }
      destruct (nss !! ns) as [os|]; cbn [mbind option_bind default].
      2:{ rewrite map_to_list_empty. split; [intros (? & _ & ?%elem_of_nil); done|by intros []]. }
      split.
      + intros ([n' e] & -> & Hin%elem_of_map_to_list). by exists e.
      + intros [e He]. exists (n, e). split; [done|]. by apply elem_of_map_to_list.
    - rewrite fmap_length. reflexivity.
  Qed.
  Lemma names_unique st g c ns l1 l2 : cached_names st g c ns l1 -> cached_names st g c ns l2 -> length l1 = length l2.
  Proof.
    intros [N1 H1] [N2 H2]. apply Permutation_length, NoDup_Permutation; [done|done|]. intros n. by rewrite H1, H2.
  Qed.
End gauge.
