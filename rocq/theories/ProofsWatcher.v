(** Proofs about the watch goroutines. *)
From Coq Require Import Ascii String NArith ZArith Lia.
From stdpp Require Import base gmap strings list sorting.
From Verif Require Import ModelStr ModelStore ModelProxy ModelWatcher SpecStore SpecWatcher ProofsStr ProofsStore.

Section watcher.
  Context (E : env).
  Implicit Types (w : wsys) (g : gvr) (c ns n : gostr) (i j : nat) (tr : list wlabel) (ws : list (gvr * gostr)).
  (** ** The calls of one item *)
  Definition item_after (cf : gmap gostr gostr) c (it : item) ns n (old : option entry) : option entry :=
    match it with
    | IEvent EvAdded o | IEvent EvModified o => if decide (obj_key E cf o = (ns, n)) then Some (build E cf c o).2 else old
    | IEvent EvDeleted o => if decide (obj_key E cf o = (ns, n)) then None else old
    | _ => old
    end.
  Definition replay (cf : gmap gostr gostr) c (items : list item) ns n : option entry :=
    foldl (fun old it => item_after cf c it ns n old) None items.
  Lemma replay_snoc cf c items it ns n : replay cf c (items ++ [it]) ns n = item_after cf c it ns n (replay cf c items ns n).
  Proof. unfold replay. by rewrite foldl_app. Qed.
  Lemma run_one st k st' : run_calls E st [k] = Ok st' <-> do_call E st k = Ok st'.
  Proof. cbn. by destruct (do_call E st k). Qed.
  Lemma item_lookup st g c it st' g' c' ns n : run_calls E st (event_call g c it) = Ok st' ->
    st_conf st' = st_conf st /\
    lookup_entry st' g' c' ns n = if decide (g = g' /\ c = c') then item_after (conf_of st g') c' it ns n (lookup_entry st g' c' ns n) else lookup_entry st g' c' ns n.
  Proof.
    destruct it as [[] o|]; cbn [event_call]; intros H.
    4-5: injection H as <-; split; [done|]; cbn [item_after]; by destruct (decide _).
    all: rewrite run_one in H; split; [by eapply call_conf|]; rewrite (call_lookup E _ _ _ g' c' ns n H); unfold after; cbn [call_gvr call_cluster item_after];
      by destruct (decide (g = g' /\ c = c')) as [[-> ->]|].
  Qed.
  Lemma clean_lookup st g c st' g' c' ns n : run_calls E st [CClean g c] = Ok st' ->
    st_conf st' = st_conf st /\
    lookup_entry st' g' c' ns n = if decide (g = g' /\ c = c') then None else lookup_entry st g' c' ns n.
  Proof.
    rewrite run_one. intros H. split; [by eapply call_conf|]. rewrite (call_lookup E _ _ _ g' c' ns n H). unfold after. cbn [call_gvr call_cluster]. done.
  Qed.
  (** A step of another pair changes nothing here; a step of this goroutine only cleans or applies. *)
  Lemma act_other g c stop st ph l st' ph' g' c' ns n : wact E g c stop st ph l st' ph' -> (g, c) <> (g', c') ->
    lookup_entry st' g' c' ns n = lookup_entry st g' c' ns n.
  Proof.
    intros H Hne. destruct H as [| | | | | |st st' i H|st st' i H]; try done.
    - destruct (clean_lookup _ _ _ _ g' c' ns n H) as [_ ->]. by rewrite decide_False by naive_solver.
    - destruct (item_lookup _ _ _ _ _ g' c' ns n H) as [_ ->]. by rewrite decide_False by naive_solver.
  Qed.
  Lemma act_conf g c stop st ph l st' ph' : wact E g c stop st ph l st' ph' -> st_conf st' = st_conf st.
  Proof.
    intros H. destruct H as [| | | | | |st st' i H|st st' i H]; try done.
    - by apply (clean_lookup _ _ _ _ g c [] [] H).
    - by apply (item_lookup _ _ _ _ _ g c [] [] H).
  Qed.

  (** ** The invariant of one goroutine *)
  Definition inv (cf : gmap gostr gostr) g c (st : store) (ph : phase) (items : list item) : Prop :=
    let is_replay xs := forall ns n, lookup_entry st g c ns n = replay cf c xs ns n in
    match ph with
    | PGot true x => items = [x]
    | PGot false x => exists xs, items = xs ++ [x] /\ is_replay xs
    | PStream true => items = []
    | PStream false => items <> [] /\ is_replay items
    | _ => items <> [] -> is_replay items
    end.
  Lemma inv_ext cf g c st st' ph items : (forall ns n, lookup_entry st' g c ns n = lookup_entry st g c ns n) ->
    inv cf g c st ph items -> inv cf g c st' ph items.
  Proof.
    intros H. unfold inv. destruct ph as [| |[]|[] x|]; try done.
    - intros Hi Hne ns n. rewrite H. by apply Hi.
    - intros Hi Hne ns n. rewrite H. by apply Hi.
    - intros [Hne Hi]. split; [done|]. intros ns n. by rewrite H.
    - intros (xs & -> & Hi). exists xs. split; [done|]. intros ns n. by rewrite H.
    - intros Hi Hne ns n. rewrite H. by apply Hi.
  Qed.
  Definition one (i : nat) (l : label) (items : list item) : list item :=
    match l with LConnect => [] | LRecv x => items ++ [x] | _ => items end.
  Lemma act_inv cf g c stop st ph l st' ph' items : conf_of st g = cf -> wact E g c stop st ph l st' ph' ->
    inv cf g c st ph items -> inv cf g c st' ph' (one 0 l items).
  Proof.
    intros Hcf H. destruct H as [st Hs|st Hs|st|st|st f x|st f Hs|st st' x H|st st' x H]; cbn [one].
    - done.
    - done.
    - done.
    - done.
    - unfold inv. destruct f; [by intros ->|]. intros [Hne Hi]. by exists items.
    - unfold inv. destruct f; [by intros ->|]. by intros [Hne Hi].
    - unfold inv. intros ->. exists []. split; [done|]. intros ns n. destruct (clean_lookup _ _ _ _ g c ns n H) as [_ ->].
      by rewrite decide_True.
    - unfold inv at 1. intros (xs & -> & Hi).
      assert (forall ns n, lookup_entry st' g c ns n = replay cf c (xs ++ [x]) ns n) as Hr.
      { intros ns n. rewrite replay_snoc. destruct (item_lookup _ _ _ _ _ g c ns n H) as [_ ->]. rewrite decide_True by done. by rewrite Hcf, Hi. }
      destruct x as [t o|]; unfold inv; [|done]. split; [by destruct xs|done].
  Qed.
  Lemma runs_conf ws conf tr w : wruns E ws (wstart ws conf) tr w -> st_conf (ws_store w) = conf.
  Proof.
    induction 1 as [|tr w l w' H IH Hs]; [done|]. destruct Hs as [w i g c ph l st' ph' _ _ Ha|w]; [|done]. cbn [ws_store]. rewrite <- IH. by eapply act_conf.
  Qed.
  Lemma runs_inv ws conf tr w i g c : wruns E ws (wstart ws conf) tr w -> alone ws i g c ->
    exists ph, ws_phases w !! i = Some ph /\ inv (default ∅ (conf !! g)) g c (ws_store w) ph (latest i tr).
  Proof.
    intros H [Hi Hal]. induction H as [|tr w l w' H IH Hs].
    - exists PIdle. unfold wstart. cbn [ws_phases ws_store]. rewrite list_lookup_fmap, Hi. split; [done|]. intros Hne. by destruct Hne.
    - destruct IH as (ph0 & Hph & Hinv). pose proof (runs_conf _ _ _ _ H) as Hconf.
      destruct Hs as [w j g' c' ph l st' ph' Hj Hphj Ha|w]; [|by exists ph0].
      cbn [ws_phases ws_store latest]. destruct (decide (j = i)) as [->|Hne].
      + rewrite bool_decide_true by done. rewrite Hi in Hj. injection Hj as <- <-. rewrite Hph in Hphj. injection Hphj as <-.
        exists ph'. split; [apply list_lookup_insert; by eapply lookup_lt_Some|].
        pose proof (act_inv (default ∅ (conf !! g)) g c _ _ _ _ _ _ (latest i tr) (f_equal (fun m => default ∅ (m !! g)) Hconf) Ha Hinv) as Hn. by destruct l.
      + rewrite bool_decide_false by done. exists ph0. split; [by rewrite list_lookup_insert_ne|]. eapply inv_ext; [|exact Hinv].
        intros ns n. eapply act_other; [exact Ha|]. intros [= -> ->]. by apply Hne, Hal.
  Qed.

  (** ** Replay is the last event *)
  Lemma last_put_snoc cf items it ns n o : last_put E cf (items ++ [it]) ns n o <->
    (exists t, it = IEvent t o /\ (t = EvAdded \/ t = EvModified) /\ obj_key E cf o = (ns, n)) \/
    (last_put E cf items ns n o /\ forall t' o', it = IEvent t' o' -> t' <> EvOther -> obj_key E cf o' <> (ns, n)).
  Proof.
    split.
    - intros (a & t & b & H & Ht & Hk & Hb). destruct b as [|y b _] using rev_ind.
      + apply app_inj_tail in H as [_ ->]. left. by exists t.
      + rewrite app_comm_cons, app_assoc in H. apply app_inj_tail in H as [-> ->]. right. split.
        * exists a, t, b. split_and!; try done. intros t' o' Hin. apply Hb. set_solver.
        * intros t' o' ->. apply Hb. set_solver.
    - intros [(t & -> & Ht & Hk)|[(a & t & b & -> & Ht & Hk & Hb) Hit]].
      + exists items, t, []. split_and!; try done. intros t' o' Hin. by apply elem_of_nil in Hin.
      + exists a, t, (b ++ [it]). split; [by rewrite <- app_assoc|]. split_and!; try done.
        intros t' o' [Hin|Hin]%elem_of_app; [by apply Hb|]. apply elem_of_list_singleton in Hin. by apply Hit.
  Qed.
  Lemma last_put_nil cf ns n o : ~ last_put E cf [] ns n o.
  Proof. intros (a & t & b & H & _). by destruct a. Qed.
  Lemma replay_last cf c items ns n : match replay cf c items ns n with
    | Some e => exists o, last_put E cf items ns n o /\ e = (build E cf c o).2
    | None => forall o, ~ last_put E cf items ns n o end.
  Proof.
    induction items as [|it items IH] using rev_ind; [intros o; apply last_put_nil|]. rewrite replay_snoc.
    assert (forall P : Prop, (forall t' o', it = IEvent t' o' -> t' <> EvOther -> obj_key E cf o' <> (ns, n)) ->
      item_after cf c it ns n (replay cf c items ns n) = replay cf c items ns n) as Hkeep.
    { intros _ Hno. destruct it as [[] o|]; cbn [item_after]; try done; rewrite decide_False; try done; by eapply Hno. }
    assert ((forall t' o', it = IEvent t' o' -> t' <> EvOther -> obj_key E cf o' <> (ns, n)) \/
      (exists t o, it = IEvent t o /\ t <> EvOther /\ obj_key E cf o = (ns, n))) as [Hno|(t & o & -> & Ht & Hk)].
    { destruct it as [t o|]; [|left; by intros]. destruct (decide (obj_key E cf o = (ns, n))) as [Hk|Hk].
      - destruct t; [right; by exists EvAdded, o|right; by exists EvModified, o|right; by exists EvDeleted, o|left; by intros t' o' [= <- <-]].
      - left. by intros t' o' [= <- <-]. }
    - rewrite (Hkeep True Hno). destruct (replay cf c items ns n) as [e|].
      + destruct IH as (o & Ho & He). exists o. split; [|done]. apply last_put_snoc. by right.
      + intros o [(t & -> & Ht & Hk)|[Ho _]]%last_put_snoc; [|by apply (IH o)]. apply (Hno t o eq_refl); [by destruct Ht as [->| ->]|done].
    - cbn [item_after]. destruct t; try done; rewrite decide_True by done.
      + exists o. split; [|done]. apply last_put_snoc. left. exists EvAdded. by auto.
      + exists o. split; [|done]. apply last_put_snoc. left. exists EvModified. by auto.
      + intros o' [(t & [= <- <-] & [?|?] & _)|[_ Hno]]%last_put_snoc; [done|done|]. by apply (Hno EvDeleted o).
  Qed.
  Lemma replay_cache conf st g c items : (forall ns n, lookup_entry st g c ns n = replay (default ∅ (conf !! g)) c items ns n) ->
    cache_is E conf st g c items.
  Proof.
    intros H ns n. unfold store_get. rewrite H. pose proof (replay_last (default ∅ (conf !! g)) c items ns n) as Hl.
    destruct (replay (default ∅ (conf !! g)) c items ns n) as [e|]; cbn [fmap option_fmap option_map].
    - destruct Hl as (o & Ho & ->). split.
      + intros o' [= <-]. exists o. split; [done|]. apply build_stored.
      + intros o2 Ho2. eexists. split; [done|].
        assert (o2 = o) as ->; [|apply build_stored]. clear -Ho Ho2.
        revert Ho Ho2. induction items as [|it items IH] using rev_ind; [by intros ?%last_put_nil|]. rewrite !last_put_snoc.
        intros [(t & -> & Ht & Hk)|[Ha Hb]] [(t2 & Hi & Ht2 & Hk2)|[Ha2 Hb2]].
        * by injection Hi as _ ->.
        * exfalso. apply (Hb2 t o eq_refl); [by destruct Ht as [->| ->]|done].
        * exfalso. apply (Hb t2 o2 Hi); [by destruct Ht2 as [->| ->]|done].
        * by apply IH.
    - split; [done|]. intros o Ho. by destruct (Hl o).
  Qed.
End watcher.

(** ** TrimRight *)
Lemma trim_right_keep cut s c : existsb (ch_eqb c) cut = false -> trim_right cut (s ++ [c]) = s ++ [c].
Proof.
  intros Hc. induction s as [|x s IH]; [cbn [app trim_right]; by rewrite Hc|]. cbn [app trim_right]. rewrite IH. by destruct s.
Qed.
Lemma trim_right_drop cut s c : existsb (ch_eqb c) cut = true -> trim_right cut (s ++ [c]) = trim_right cut s.
Proof.
  intros Hc. induction s as [|x s IH]; [cbn [app trim_right]; by rewrite Hc|]. cbn [app trim_right]. by rewrite IH.
Qed.
