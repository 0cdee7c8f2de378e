(** C65: Stop ends a watcher. *)
From Coq Require Import Ascii String NArith ZArith Lia.
From stdpp Require Import base gmap strings list.
From Verif Require Import ModelStr ModelStore ModelProxy ModelWatcher SpecStore SpecWatcher ProofsStr ProofsStore ProofsWatcher PropsStore PropsWatcher.

(** The number of times a goroutine opened a stream. *)
Fixpoint connects (i : nat) (tr : list wlabel) : nat :=
  match tr with
  | [] => 0
  | WAct j LConnect :: tr' => (if bool_decide (j = i) then 1 else 0) + connects i tr'
  | _ :: tr' => connects i tr'
  end.
Lemma stop_kept E ws w tr w' : wruns E ws w tr w' -> ws_stop w = true -> ws_stop w' = true.
Proof. intros H Hs. induction H as [|tr w1 l w2 H IH Hst]; [done|]. by destruct Hst. Qed.
(** A step of goroutine [i], or one that leaves its phase alone. *)
Lemma step_phase E ws w l w' i ph : wstep E ws w l w' -> ws_phases w !! i = Some ph ->
  (exists a g c st' ph', l = WAct i a /\ wact E g c (ws_stop w) (ws_store w) ph a st' ph' /\ ws_phases w' !! i = Some ph' /\ ws_store w' = st') \/
  ((forall a, l <> WAct i a) /\ ws_phases w' !! i = Some ph).
Proof.
  intros Hs Hph. destruct Hs as [w j g c ph0 a st' ph' Hj Hpj Ha|w]; [|right; split; [done|exact Hph]].
  cbn [ws_phases ws_store]. destruct (decide (j = i)) as [->|Hne].
  - left. rewrite Hph in Hpj. injection Hpj as <-. exists a, g, c, st', ph'. split; [done|]. split; [done|]. split; [|done].
    apply list_lookup_insert. by eapply lookup_lt_Some.
  - right. split; [intros a' [= ? _]; done|]. by rewrite list_lookup_insert_ne.
Qed.
Lemma phase_kept E ws w tr w' i : wruns E ws w tr w' -> is_Some (ws_phases w !! i) -> is_Some (ws_phases w' !! i).
Proof.
  intros H Hi. induction H as [|tr w1 l w2 H IH Hst]; [done|]. destruct IH as [ph Hph].
  destruct (step_phase E ws w1 l w2 i ph Hst Hph) as [(a & g & c & st' & ph' & _ & _ & H' & _)|[_ H']]; rewrite H'; by eexists.
Qed.

(** After Stop a goroutine opens at most one more stream, and only if it had passed its test of stop before;
    it never passes the test again. *)
Definition passed (o : option phase) : nat := match o with Some PConn => 1 | _ => 0 end.
Theorem C65_no_new_stream E ws w tr w' i : wruns E ws w tr w' -> ws_stop w = true ->
  WAct i LCheck ∉ tr /\ connects i tr <= passed (ws_phases w !! i).
Proof.
  intros H Hs. destruct (ws_phases w !! i) as [ph0|] eqn:Hph0.
  - enough (WAct i LCheck ∉ tr /\ exists ph, ws_phases w' !! i = Some ph /\
      connects i tr + passed (Some ph) <= passed (Some ph0)) as (H1 & ph & _ & H2).
    { split; [done|]. lia. }
    induction H as [|tr w1 l w2 H IH Hst].
    + split; [set_solver|]. by exists ph0.
    + destruct IH as [IH1 (ph & Hph & IH2)]. pose proof (stop_kept _ _ _ _ _ H Hs) as Hs1.
      destruct (step_phase E ws w1 l w2 i ph Hst Hph) as [(a & g & c & st' & ph' & -> & Ha & Hph' & _)|[Hl Hph']].
      * rewrite Hs1 in Ha. split; [intros [Hx|?]%elem_of_cons; [injection Hx as <-; by inversion Ha|done]|]. exists ph'. split; [done|].
        inversion Ha; subst; cbn [connects passed] in *; rewrite ?(bool_decide_eq_true_2 (i = i)) by done; try lia.
        match goal with x : item |- _ => destruct x end; lia.
      * split; [intros [Hx|?]%elem_of_cons; [by destruct (Hl LCheck)|done]|]. exists ph. split; [done|].
        destruct l as [j a|]; [|done]. destruct a; try done. cbn [connects]. rewrite (bool_decide_eq_false_2 (j = i)); [done|]. intros ->. by destruct (Hl LConnect).
  - assert (ws_phases w' !! i = None /\ forall a, WAct i a ∉ tr) as [_ Hn].
    { induction H as [|tr w1 l w2 H IH Hst]; [set_solver|]. destruct IH as [IH1 IH2].
      destruct Hst as [w1 j g c ph0 a st' ph' Hj Hpj Ha|w1]; cbn [ws_phases].
      - assert (j <> i) as Hne by congruence. split; [by rewrite list_lookup_insert_ne|]. intros b [Hx|?]%elem_of_cons; [congruence|by apply (IH2 b)].
      - split; [done|]. intros b [?|?]%elem_of_cons; [done|by apply (IH2 b)]. }
    split; [apply Hn|]. cbn [passed]. clear -Hn. induction tr as [|l tr IH]; [done|].
    assert (connects i tr <= 0) as IH' by (apply IH; intros a Ha; apply (Hn a); by right). destruct l as [j a|]; [|done]. destruct a; try done.
    cbn [connects]. rewrite bool_decide_eq_false_2; [done|]. intros ->. apply (Hn LConnect). left.
Qed.
Print Assumptions C65_no_new_stream.

(** A goroutine ends only after Stop, *)
Theorem C65_ends_only_by_stop E ws conf tr w i : wruns E ws (wstart ws conf) tr w -> ws_phases w !! i = Some PDone ->
  exists after before, tr = after ++ WStop :: before.
Proof.
  intros H Hd. assert (ws_stop w = true) as Hs.
  { enough (ws_stop w = false -> forall i, ws_phases w !! i <> Some PDone) as Hen.
    { destruct (ws_stop w) eqn:Es; [done|]. by destruct (Hen eq_refl i). }
    clear Hd i. induction H as [|tr w l w' H IH Hst]; intros Hs i Hd.
    - cbn [wstart ws_phases] in Hd. rewrite list_lookup_fmap in Hd. by destruct (ws !! i).
    - destruct Hst as [w j g c ph a st' ph' Hj Hpj Ha|w]; [|done]. cbn [ws_phases ws_stop] in *.
      destruct (decide (j = i)) as [->|Hne]; [|rewrite list_lookup_insert_ne in Hd by done; by apply (IH Hs i)].
      rewrite list_lookup_insert in Hd by (by eapply lookup_lt_Some). injection Hd as ->. rewrite Hs in Ha.
      inversion Ha; subst; try done. by destruct i0. }
  clear Hd. induction H as [|tr w l w' H IH Hst]; [done|]. destruct Hst as [w j g c ph a st' ph' Hj Hpj Ha|w].
  - cbn [ws_stop] in Hs. destruct (IH Hs) as (after & before & ->). by exists (WAct j a :: after), before.
  - by exists [], tr.
Qed.
Print Assumptions C65_ends_only_by_stop.
(** it does nothing afterwards, *)
Theorem C65_done_is_final E ws w tr w' i : wruns E ws w tr w' -> ws_phases w !! i = Some PDone ->
  ws_phases w' !! i = Some PDone /\ forall a, WAct i a ∉ tr.
Proof.
  intros H Hd. induction H as [|tr w1 l w2 H IH Hst]; [set_solver|]. destruct IH as [IH1 IH2].
  destruct (step_phase E ws w1 l w2 i PDone Hst IH1) as [(a & g & c & st' & ph' & _ & Ha & _)|[Hl Hp]]; [by inversion Ha|].
  split; [done|]. intros a [Hx|?]%elem_of_cons; [by destruct (Hl a)|by apply (IH2 a)].
Qed.
Print Assumptions C65_done_is_final.
(** and when all have ended the cache does not change any more. *)
Theorem C65_cache_final E ws w tr w' : wruns E ws w tr w' -> (forall i ph, ws_phases w !! i = Some ph -> ph = PDone) ->
  ws_store w' = ws_store w.
Proof.
  intros H Hd. induction H as [|tr w1 l w2 H IH Hst]; [done|]. rewrite <- IH.
  destruct Hst as [w1 j g c ph a st' ph' Hj Hpj Ha|w1]; [|done]. exfalso.
  assert (is_Some (ws_phases w !! j)) as [ph0 H0].
  { destruct (ws_phases w !! j) eqn:E0; [by eexists|]. exfalso.
    assert (length (ws_phases w1) = length (ws_phases w)) as Hl.
    { clear -H. induction H as [|tr w1 l w2 H IH Hst]; [done|]. destruct Hst; cbn [ws_phases]; [by rewrite insert_length|done]. }
    apply lookup_ge_None in E0. apply lookup_lt_Some in Hpj. lia. }
  pose proof (Hd j ph0 H0) as ->. destruct (C65_done_is_final E ws w tr w1 j H H0) as [Hp _]. rewrite Hpj in Hp. injection Hp as ->. by inversion Ha.
Qed.
Print Assumptions C65_cache_final.

(** After Stop every goroutine can end by itself, whatever its stream does: at most one item that was already
    received is dealt with, nothing more is received and nothing is needed from other goroutines.  (The select
    may still choose to receive while items are ready.) *)
Theorem C65_can_end E ws conf tr w i g c : wruns E ws (wstart ws conf) tr w -> ws_stop w = true -> is_Some (conf !! g) ->
  ws !! i = Some (g, c) ->
  exists tr' w', wruns E ws w tr' w' /\ ws_phases w' !! i = Some PDone /\ length tr' <= 3 /\
    Forall (fun l => exists a, l = WAct i a /\ forall x, a <> LRecv x) tr'.
Proof.
  intros H Hs Hg Hi.
  assert (is_Some (ws_phases w !! i)) as [ph Hph].
  { eapply phase_kept; [exact H|]. cbn [wstart ws_phases]. rewrite list_lookup_fmap, Hi. by eexists. }
  assert (forall w ph l st' ph', ws_phases w !! i = Some ph -> wact E g c (ws_stop w) (ws_store w) ph l st' ph' ->
    wstep E ws w (WAct i l) (WSys st' (<[i := ph']> (ws_phases w)) (ws_stop w)) /\ (WSys st' (<[i := ph']> (ws_phases w)) (ws_stop w)).(ws_phases) !! i = Some ph') as Hact.
  { intros w0 ph0 l st' ph' Hp Ha. split; [by econstructor|]. cbn [ws_phases]. apply list_lookup_insert. by eapply lookup_lt_Some. }
  assert (forall w ph, ws_phases w !! i = Some ph -> ws_stop w = true -> ph = PIdle \/ (exists f, ph = PStream f) ->
    exists w', wstep E ws w (WAct i LQuit) w' /\ ws_phases w' !! i = Some PDone) as Hquit.
  { intros w0 ph0 Hp Hst [->|[f ->]]; (eexists; eapply Hact; [exact Hp|by constructor]). }
  assert (forall tr' w' x, wruns E ws w tr' w' -> ws_phases w' !! i = Some (PGot false x) -> length tr' <= 1 -> Forall (fun l => exists a, l = WAct i a /\ forall x, a <> LRecv x) tr' ->
    exists tr' w', wruns E ws w tr' w' /\ ws_phases w' !! i = Some PDone /\ length tr' <= 3 /\ Forall (fun l => exists a, l = WAct i a /\ forall x, a <> LRecv x) tr') as Happly.
  { intros tr' w' x Hr Hp Hl HF.
    assert (exists w2, wstep E ws w' (WAct i LApply) w2) as [w2 H2].
    { apply (C29_no_panic E ws conf (tr' ++ tr) w' i g c false x); [|done|done|done]. clear -H Hr. induction Hr; [done|]. by econstructor. }
    assert (wruns E ws w (WAct i LApply :: tr') w2) as Hr2 by (by econstructor).
    destruct (step_phase E ws w' _ w2 i _ H2 Hp) as [(a & g' & c' & st' & ph' & [= <-] & Ha & Hp2 & _)|[Hn _]]; [|by destruct (Hn LApply)].
    destruct (Hquit w2 ph' Hp2) as (w3 & H3 & Hd).
    { by eapply (stop_kept E ws w). }
    { inversion Ha; subst. destruct x; [right; by eexists|by left]. }
    exists (WAct i LQuit :: WAct i LApply :: tr'), w3. split; [by econstructor|]. split; [done|]. split; [cbn [length]; lia|].
    constructor; [by eexists|]. constructor; [by eexists|done]. }
  destruct ph as [| |f|[] x|].
  - destruct (Hquit w PIdle Hph Hs) as (w' & H' & Hd); [by left|]. exists [WAct i LQuit], w'. split; [econstructor; [constructor|done]|]. split; [done|]. split; [cbn; lia|].
    constructor; [by eexists|constructor].
  - destruct (Hact w PConn LFail (ws_store w) PIdle Hph) as [H1 Hp1]; [constructor|].
    destruct (Hquit _ PIdle Hp1) as (w' & H' & Hd); [done|by left|]. exists [WAct i LQuit; WAct i LFail], w'.
    split; [econstructor; [econstructor; [constructor|exact H1]|done]|]. split; [done|]. split; [cbn; lia|]. constructor; [by eexists|]. constructor; [by eexists|constructor].
  - destruct (Hquit w (PStream f) Hph Hs) as (w' & H' & Hd); [right; by eexists|]. exists [WAct i LQuit], w'. split; [econstructor; [constructor|done]|]. split; [done|]. split; [cbn; lia|].
    constructor; [by eexists|constructor].
  - destruct (C29_no_panic E ws conf tr w i g c true x H Hg Hi Hph) as [w1 H1].
    destruct (step_phase E ws w _ w1 i _ H1 Hph) as [(a & g' & c' & st' & ph' & [= <-] & Ha & Hp1 & _)|[Hn _]]; [|by destruct (Hn LClean)].
    inversion Ha; subst. apply (Happly [WAct i LClean] w1 x); [econstructor; [constructor|done]|done|cbn; lia|]. constructor; [by eexists|constructor].
  - apply (Happly [] w x); [constructor|done|cbn; lia|constructor].
  - exists [], w. split; [constructor|]. split; [done|]. split; [cbn; lia|constructor].
Qed.
Print Assumptions C65_can_end.

(** A goroutine that had passed the test opens one stream after Stop, receives an item and ends; the other one ends at once. *)
Definition stop_before : list wlabel := rev [WAct 0 LCheck; WStop].
Definition stop_after : list wlabel := rev [WAct 0 LConnect; WAct 1 LQuit; WAct 0 (LRecv (put "a")); WAct 0 LClean; WAct 0 LApply; WAct 0 LQuit].
Example C65_ex : exists w w', wruns ex_env ex_ws (wstart ex_ws ex_conf) stop_before w /\ ws_stop w = true /\
  wruns ex_env ex_ws w stop_after w' /\ connects 0 stop_after = 1 /\ connects 1 stop_after = 0 /\ ws_phases w' = [PDone; PDone] /\
  is_Some (store_get (ws_store w') pods c1 (str "default") (str "a")).
Proof.
  set (w := WSys (ws_store (wstart ex_ws ex_conf)) (<[0 := PConn]> (ws_phases (wstart ex_ws ex_conf))) true).
  assert (exec ex_env ex_ws (wstart ex_ws ex_conf) stop_before = Some w) as H1 by reflexivity.
  assert (match exec ex_env ex_ws w stop_after with
          | Some w' => match ws_phases w', store_get (ws_store w') pods c1 (str "default") (str "a") with [PDone; PDone], Some _ => true | _, _ => false end
          | None => false end = true) as H by (by vm_compute).
  pose proof (exec_ok ex_env ex_ws w stop_after) as Hok. revert H Hok. generalize (exec ex_env ex_ws w stop_after) as o. intros [w'|] H Hok; [|done].
  exists w, w'. split; [by apply exec_ok|]. split; [done|]. split; [by apply Hok|]. split; [done|]. split; [done|].
  destruct (ws_phases w') as [|[] [|[] [|? ?]]] eqn:Ep; try done.
  destruct (store_get (ws_store w') pods c1 (str "default") (str "a")) eqn:Eg; [|done]. split; [done|by eexists].
Qed.
