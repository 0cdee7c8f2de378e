(** C75: the watch streams of the fake server while requests and watches run at the same time. *)
From Coq Require Import Ascii String NArith Lia.
From stdpp Require Import base gmap strings list.
From Verif Require Import ModelStr ModelPage ModelStore ModelProxy ModelFake ModelStream SpecFake SpecStream ProofsStream PropsFake.

Definition wanted_by (w : watch) (e : event) : Prop := wanted (wt_gvr w) (wt_ns w) (get_clusters (pg_search (wt_page w))) e.
Global Instance wanted_by_dec w e : Decision (wanted_by w e).
Proof. unfold wanted_by. apply _. Defined.
Lemma line_of_ok w e : line_of w e = if decide (wanted_by w e) then [event_line e] else [].
Proof. unfold line_of, wanted_by. rewrite watch_line_ok. by destruct (decide _). Qed.
Lemma lines_ok w es : concat (line_of w <$> es) = event_line <$> filter (wanted_by w) es.
Proof. induction es as [|e es IH]; [done|]. rewrite fmap_cons. cbn [concat]. rewrite line_of_ok, filter_cons, IH. by destruct (decide _). Qed.

(** Whatever runs at the same time, a stream has one line for each wanted event that the watch received, in the order
    of receiving; the zero value of a closed channel makes no line. *)
Theorem C75_lines (tr : list flabel) (y : fsys) (i : nat) (v : wstate) :
  fruns fsys0 tr y -> f_watches y !! i = Some v -> wt_gvr (wv_watch v) <> ([], [], []) -> (forall e, wv_pc v <> WGot e) ->
  wv_out v = event_line <$> filter (wanted_by (wv_watch v)) (events_of y (takes i tr)).
Proof.
  intros H Hv Hg Hn. rewrite <- lines_ok, <- (due_ok _ _ _ _ H Hv Hg). unfold due. destruct (wv_pc v); rewrite ?app_nil_r; try done. by destruct (Hn e).
Qed.
Print Assumptions C75_lines.
(** No event comes twice, and none before the change it tells of. *)
Theorem C75_once (tr : list flabel) (y : fsys) (i : nat) :
  fruns fsys0 tr y -> NoDup (takes i tr) /\ forall j, j ∈ takes i tr -> j ∈ applied tr.
Proof.
  intros H. split; [by eapply takes_nodup|]. intros j [a Ha]%elem_takes. apply elem_applied.
  destruct (offered_past _ _ j a H) as (r & Hr & Hp); [eauto|]. eapply begun_applied; [done..|]. by destruct (rv_pc r).
Qed.
Print Assumptions C75_once.
(** From its registration until its time-out, a watch whose address no other open watch has receives the event of
    each request that is answered, unless it was not waiting when the request came to it. *)
Theorem C75_lost_only_busy (tr1 tr2 : list flabel) (y1 y : fsys) (i j : nat) (l : list (gostr * nat)) (v : wstate) (r : rstate) :
  fruns fsys0 (LRegister i :: tr1) y1 -> fruns y1 tr2 y -> throughout apart y1 tr2 -> LTimeout i ∉ tr2 ->
  f_watches y !! i = Some v -> LLock j l ∈ tr2 -> f_requests y !! j = Some r -> rv_pc r = RDone ->
  j ∈ takes i tr2 \/
  exists tb ta z u, tr2 = tb ++ LDrop j (wt_addr (wv_watch v)) :: ta /\ fruns y1 ta z /\ f_watches z !! i = Some u /\ ~ waiting u.
Proof.
  intros H1 H Hap Hto Hv Hlk Hr Hd. destruct (register_on _ _ _ H1) as (v1 & Hv1 & Hon & _).
  destruct (on_run _ _ _ _ _ _ _ H1 Hon H Hap Hto) as (_ & v' & Hv' & Ea & _). assert (v' = v) as -> by congruence. rewrite <- Ea in Hon.
  destruct (delivered_or_lost _ _ _ _ _ _ _ j H1 Hon H Hap Hto) as [(r' & l' & Hr' & Hp & _)|[Ht|Hl]]; [eauto|congruence|left|by right].
  apply elem_takes. eauto.
Qed.
Print Assumptions C75_lost_only_busy.
(** If moreover the requests come one after the other and the watch waits whenever one begins, the stream has a line
    for each wanted change since the registration, in the order of the changes. *)
Theorem C75_in_order (tr1 tr2 : list flabel) (y1 y : fsys) (i : nat) (v : wstate) :
  fruns fsys0 (LRegister i :: tr1) y1 -> quiet y1 -> fruns y1 tr2 y -> throughout apart y1 tr2 -> LTimeout i ∉ tr2 ->
  serial y1 tr2 -> patient i y1 tr2 -> quiet y -> f_watches y !! i = Some v -> wt_gvr (wv_watch v) <> ([], [], []) -> (forall e, wv_pc v <> WGot e) ->
  wv_out v = event_line <$> filter (wanted_by (wv_watch v)) (events_of y (applied tr2)).
Proof.
  intros H1 Hq H Hap Hto Hse Hpa Hqy Hv Hg Hn. destruct (register_on _ _ _ H1) as (v1 & Hv1 & Hon & Ht0).
  rewrite (C75_lines _ _ _ _ (fruns_app _ _ _ _ _ H1 H) Hv Hg Hn), takes_app, takes_cons, Ht0. cbn [took app]. do 3 f_equal.
  apply sublist_eq; [by apply (serial_takes _ _ _ _ i H1 Hq H)|by eapply applied_nodup|].
  intros j Hj%elem_applied. destruct (applied_begun _ _ _ _ H Hj) as (r & Hr & Hb).
  assert (rv_pc r = RDone) as Hd.
  { specialize (Hqy _ _ Hr). destruct (rv_pc r) eqn:E; try done; exfalso; apply Hqy; split; congruence. }
  destruct (locked_run _ _ _ _ _ Hq H Hr Hj) as [l Hl]; [congruence|].
  destruct (expected_run _ _ _ _ _ _ _ H1 Hq Hon H Hap Hse Hpa Hto) as [_ Hnd].
  destruct (delivered_or_lost _ _ _ _ _ _ _ j H1 Hon H Hap Hto) as [(r' & l' & Hr' & Hp & _)|[Ht|(tb & ta & z & u & E & _)]]; [eauto|congruence| |].
  - apply elem_takes. eauto.
  - exfalso. apply (Hnd j). rewrite E. apply elem_of_app. right. left.
Qed.
Print Assumptions C75_in_order.
(** No request ever sends on a closed channel. *)
Theorem C75_no_panic (tr : list flabel) (y : fsys) (j : nat) (r : rstate) :
  fruns fsys0 tr y -> f_requests y !! j = Some r -> rv_pc r <> RPanic.
Proof. intros H Hr. destruct (okay_runs _ _ H) as [_ _ _ _ _ I6]. eauto. Qed.
Print Assumptions C75_no_panic.
(** If no two open watches ever have the same address, every request can be answered, by steps
    of its own: it waits neither for a watch nor for another request. *)
Theorem C75_answers (tr : list flabel) (y : fsys) (j : nat) (r : rstate) :
  fruns fsys0 tr y -> throughout apart fsys0 tr -> f_requests y !! j = Some r ->
  exists tr' y' r', fruns y tr' y' /\ Forall (step_of j) tr' /\ f_requests y' !! j = Some r' /\ rv_pc r' = RDone.
Proof.
  intros H Hap Hr. pose proof (okay_runs _ _ H) as Hok. destruct (held_runs _ _ H Hap) as [Hst _].
  assert (forall y r, okay y -> f_stuck y = false -> f_requests y !! j = Some r -> rv_pc r = RApplied ->
    exists tr' y' r', fruns y tr' y' /\ Forall (step_of j) tr' /\ f_requests y' !! j = Some r' /\ rv_pc r' = RDone) as Happ.
  { clear. intros y r Hok Hst Hr Hp. assert (fstep y (LLock j (map_to_list (f_map y))) (set_request j r (RSending (map_to_list (f_map y))) y)) as Hs by (by apply f_lock).
    destruct (sending_ends (map_to_list (f_map y)) _ j (RState (rv_event r) (RSending (map_to_list (f_map y)))) (okay_step _ _ _ Hok Hs)) as (tr' & y' & H' & Hf & r' & Hr' & Hd); [|done|].
    { cbn. by rewrite list_lookup_insert by (by eapply lookup_lt_Some). }
    exists (tr' ++ [LLock j (map_to_list (f_map y))]), y', r'. split; [by eapply fruns_app; [econstructor; [constructor|exact Hs]|]|].
    split; [|done]. apply Forall_app. split; [done|]. by repeat constructor. }
  destruct (rv_pc r) as [| |l| |] eqn:Hp.
  - assert (fstep y (LApply j) (set_request j r RApplied y)) as Hs by (by apply f_apply).
    destruct (Happ _ (RState (rv_event r) RApplied) (okay_step _ _ _ Hok Hs)) as (tr' & y' & r' & H' & Hf & Hr' & Hd); [done| |done|].
    { cbn. by rewrite list_lookup_insert by (by eapply lookup_lt_Some). }
    exists (tr' ++ [LApply j]), y', r'. split; [by eapply fruns_app; [econstructor; [constructor|exact Hs]|]|].
    split; [|done]. apply Forall_app. split; [done|]. by repeat constructor.
  - by eapply Happ.
  - destruct (sending_ends l y j r Hok Hr Hp) as (tr' & y' & H' & Hf & r' & Hr' & Hd). by exists tr', y', r'.
  - exists [], y, r. split; [constructor|]. done.
  - by destruct (C75_no_panic _ _ _ _ H Hr).
Qed.
Print Assumptions C75_answers.

(** ** Runs *)
Lemma fstep_det y l y1 y2 : fstep y l y1 -> fstep y l y2 -> y1 = y2.
Proof. intros H1 H2. destruct H1; inversion H2; subst; simplify_eq; try done; congruence. Qed.
Lemma fruns_det y0 tr y1 y2 : fruns y0 tr y1 -> fruns y0 tr y2 -> y1 = y2.
Proof.
  intros H1. revert y2. induction H1 as [|tr y l y' H IH Hs]; intros y2 H2; inversion H2 as [|? z ? ? H3 H4]; subst; [done|].
  rewrite (IH _ H3) in Hs. by eapply fstep_det.
Qed.
(** A run with at most one watch, with what the theorems ask. *)
Record neat (i : nat) (y0 : fsys) (tr : list flabel) (y : fsys) : Prop := {
  nt_runs : fruns y0 tr y; nt_apart : throughout apart y0 tr; nt_serial : serial y0 tr; nt_patient : patient i y0 tr }.
Lemma apart_one y : length (f_watches y) <= 1 -> apart y.
Proof. intros H i k v u Hv%lookup_lt_Some Hu%lookup_lt_Some _ _ _. lia. Qed.
Lemma neat_nil i y : length (f_watches y) <= 1 -> neat i y [] y.
Proof.
  intros H. split; [constructor| | |].
  - intros tb ta z E Hz. symmetry in E. apply app_nil in E as [-> ->]. inversion Hz; subst. by apply apart_one.
  - intros tb ta j z E. by destruct tb.
  - intros tb ta j z v E. by destruct tb.
Qed.
Lemma neat_cons i y0 tr y l y' : neat i y0 tr y -> fstep y l y' -> length (f_watches y') <= 1 ->
  (match l with LApply _ => quiet y /\ forall v, f_watches y !! i = Some v -> waiting v | _ => True end) -> neat i y0 (l :: tr) y'.
Proof.
  intros [H1 H2 H3 H4] Hs Hl Hx. assert (fruns y0 (l :: tr) y') as Hr by (by econstructor). split; [done| | |].
  - intros [|b tb] ta z E Hz.
    + cbn in E. subst ta. rewrite (fruns_det _ _ _ _ Hz Hr). by apply apart_one.
    + injection E as -> E. by apply (H2 tb ta).
  - intros [|b tb] ta j z E Hz; [|injection E as -> E; by apply (H3 tb ta j)].
    injection E as -> ->. rewrite (fruns_det _ _ _ _ Hz H1). by destruct Hx.
  - intros [|b tb] ta j z v E Hz; [|injection E as -> E; by apply (H4 tb ta j)].
    injection E as -> ->. rewrite (fruns_det _ _ _ _ Hz H1). destruct Hx as [_ Hx]. apply Hx.
Qed.
Lemma one_chan (a : gostr) (c : nat) : [(a, c)] ≡ₚ map_to_list (<[a := c]> (∅ : gmap gostr nat)).
Proof. by rewrite insert_empty, map_to_list_singleton. Qed.
Ltac calm := let k := fresh "k" in let r := fresh "r" in let H := fresh in intros k r H;
  repeat (destruct k as [|k]; [cbn in H; injection H as <-; intros [? ?]; done|]); by cbn in H.
Ltac waits := let v := fresh "v" in let H := fresh in intros v H; cbn in H; first [discriminate H|injection H as <-; eexists; reflexivity].
Ltac tidy R := cbn [set_map set_watch set_request f_map f_next f_closed f_stuck f_watches f_requests app wv_watch wv_pc wv_out rv_event rv_pc insert list_insert] in R;
  rewrite ?lookup_insert in R.
(** [t] does the step labelled [l]. *)
Ltac nxt R l t := match type of R with neat ?i ?y0 ?tr ?y => let Y := fresh "Y" in let H := fresh "H" in let R' := fresh "R" in
  evar (Y : fsys); assert (fstep y l Y) as H by (subst Y; t); subst Y;
  assert (neat i y0 (l :: tr) _) as R' by (eapply neat_cons; [exact R|exact H|cbn; lia|first [exact I|split; [calm|waits]]]);
  clear R H; rename R' into R; tidy R end.
Ltac go R l t := match type of R with fruns ?y0 ?tr ?y => let Y := fresh "Y" in let H := fresh "H" in let R' := fresh "R" in
  evar (Y : fsys); assert (fstep y l Y) as H by (subst Y; t); subst Y;
  assert (fruns y0 (l :: tr) _) as R' by (eapply fruns_cons; [exact R|exact H]);
  clear R H; rename R' into R; tidy R end.
Ltac frees := split; [reflexivity|repeat constructor].
Ltac rd := eapply f_read; reflexivity.
Ltac wr := eapply f_write; reflexivity.
Ltac rg := eapply f_register; [reflexivity|reflexivity|frees].
Ltac ap := eapply f_apply; reflexivity.
Ltac lk := eapply f_lock; [reflexivity|reflexivity|reflexivity|apply one_chan].
Ltac tk := eapply f_take; [reflexivity|reflexivity|cbn; set_solver|reflexivity|reflexivity].
Ltac dr := eapply f_drop; [reflexivity|reflexivity|cbn; set_solver|by repeat constructor].
Ltac ul := eapply f_unlock; reflexivity.
Section runs.
  Context (w : watch) (e1 e2 : event).
  (** A watch that waits between two requests. *)
  Lemma neat_run : exists tr1 tr2 y1 y, fruns fsys0 (LRegister 0 :: tr1) y1 /\ quiet y1 /\ neat 0 y1 tr2 y /\ quiet y /\ LTimeout 0 ∉ tr2 /\ applied tr2 = [0; 1] /\
    f_watches y !! 0 = Some (WState w WTop (([] ++ line_of w e1) ++ line_of w e2)) /\ f_requests y = [RState e1 RDone; RState e2 RDone].
  Proof.
    pose proof (fruns_nil fsys0) as R0. go R0 (LWatch w) ltac:(apply f_watch). go R0 (LRegister 0) rg.
    match type of R0 with fruns _ _ ?y => pose proof (neat_nil 0 y ltac:(cbn; lia)) as R end.
    nxt R (LRead 0) rd. nxt R (LRequest e1) ltac:(apply f_request). nxt R (LRequest e2) ltac:(apply f_request).
    nxt R (LApply 0) ap. nxt R (LLock 0 [(wt_addr w, 0)]) lk. nxt R (LTake 0 (wt_addr w) 0) tk. nxt R (LUnlock 0) ul.
    nxt R (LWrite 0) wr. nxt R (LRead 0) rd. nxt R (LApply 1) ap. nxt R (LLock 1 [(wt_addr w, 0)]) lk. nxt R (LTake 1 (wt_addr w) 0) tk.
    nxt R (LUnlock 1) ul. nxt R (LWrite 0) wr.
    eexists _, _, _, _. split; [exact R0|]. split; [calm|]. split; [exact R|]. split; [calm|]. split; [|split; [reflexivity|split; reflexivity]].
    rewrite !elem_of_cons, elem_of_nil. intuition congruence.
  Qed.
  (** The second request comes while the watch writes. *)
  Lemma lost_run : exists tr y, fruns fsys0 (tr ++ [LRegister 0; LWatch w]) y /\ throughout apart fsys0 (tr ++ [LRegister 0; LWatch w]) /\ LTimeout 0 ∉ tr /\ serial fsys0 (tr ++ [LRegister 0; LWatch w]) /\
    applied tr = [0; 1] /\ f_watches y = [WState w (WSelect (Some 0)) ([] ++ line_of w e1)] /\ f_requests y = [RState e1 RDone; RState e2 RDone].
  Proof.
    (* number 1 is no watch, so that waiting is not asked *)
    pose proof (neat_nil 1 fsys0 ltac:(cbn; lia)) as R. nxt R (LWatch w) ltac:(apply f_watch). nxt R (LRegister 0) rg.
    nxt R (LRead 0) rd. nxt R (LRequest e1) ltac:(apply f_request). nxt R (LRequest e2) ltac:(apply f_request).
    nxt R (LApply 0) ap. nxt R (LLock 0 [(wt_addr w, 0)]) lk. nxt R (LTake 0 (wt_addr w) 0) tk. nxt R (LUnlock 0) ul.
    nxt R (LApply 1) ap. nxt R (LLock 1 [(wt_addr w, 0)]) lk. nxt R (LDrop 1 (wt_addr w)) dr. nxt R (LUnlock 1) ul. nxt R (LWrite 0) wr. nxt R (LRead 0) rd.
    eexists [LRead 0; LWrite 0; LUnlock 1; LDrop 1 _; LLock 1 _; LApply 1; LUnlock 0; LTake 0 _ 0; LLock 0 _; LApply 0; LRequest _; LRequest _; LRead 0], _.
    split; [apply R|]. split; [apply R|]. split; [|split; [apply R|split; [reflexivity|split; reflexivity]]].
    rewrite !elem_of_cons, elem_of_nil. intuition congruence.
  Qed.
  (** Two requests at the same time. *)
  Lemma swapped_run : exists tr y, fruns fsys0 tr y /\ throughout apart fsys0 tr /\ applied tr = [0; 1] /\
    f_watches y = [WState w WTop (([] ++ line_of w e2) ++ line_of w e1)] /\ f_requests y = [RState e1 RDone; RState e2 RDone].
  Proof.
    pose proof (fruns_nil fsys0) as R. go R (LWatch w) ltac:(apply f_watch). go R (LRegister 0) rg.
    go R (LRead 0) rd. go R (LRequest e1) ltac:(apply f_request). go R (LRequest e2) ltac:(apply f_request).
    go R (LApply 0) ap. go R (LApply 1) ap. go R (LLock 1 [(wt_addr w, 0)]) lk. go R (LTake 1 (wt_addr w) 0) tk. go R (LUnlock 1) ul.
    go R (LWrite 0) wr. go R (LRead 0) rd. go R (LLock 0 [(wt_addr w, 0)]) lk. go R (LTake 0 (wt_addr w) 0) tk. go R (LUnlock 0) ul. go R (LWrite 0) wr.
    eexists _, _. split; [exact R|]. split; [|split; [reflexivity|split; reflexivity]].
    intros tb ta y E Hy. rewrite E in R. apply fruns_app_inv in R as (z & Hz & R'). rewrite (fruns_det _ _ _ _ Hy Hz). apply apart_one.
    assert (forall z tr z', fruns z tr z' -> length (f_watches z) <= length (f_watches z')) as Hle.
    { clear. intros z tr z'. induction 1 as [|tr y l y' H IH Hs]; [done|]. etransitivity; [exact IH|]. destruct Hs; cbn; rewrite ?insert_length, ?app_length; cbn; lia. }
    apply (Hle _ _ _ R').
  Qed.
  (** A second watch of the same address: the time-out of the first closes the second's channel, and the second's time-out finds none. *)
  Lemma cut_run : exists tr y, fruns fsys0 (tr ++ [LRegister 1; LWatch w; LRead 0; LRegister 0; LWatch w]) y /\ LTimeout 1 ∉ tr /\ (forall a, LDrop 0 a ∉ tr) /\
    f_watches y = [WState w WDone []; WState w (WSelect (Some 1)) []] /\ f_requests y = [RState e1 RDone].
  Proof.
    pose proof (fruns_nil fsys0) as R. go R (LWatch w) ltac:(apply f_watch). go R (LRegister 0) rg. go R (LRead 0) rd.
    go R (LWatch w) ltac:(apply f_watch). go R (LRegister 1) rg. rewrite insert_insert in R. go R (LRead 1) rd.
    go R (LTimeout 0) ltac:(eapply f_timeout; [reflexivity|reflexivity|frees|apply lookup_insert]). rewrite delete_insert in R by apply lookup_empty.
    go R (LRequest e1) ltac:(apply f_request). go R (LApply 0) ap.
    go R (LLock 0 []) ltac:(eapply f_lock; [reflexivity|reflexivity|reflexivity|unfold fsys0; cbn [f_map]; by rewrite map_to_list_empty]). go R (LUnlock 0) ul.
    eexists [LUnlock 0; LLock 0 []; LApply 0; LRequest _; LTimeout 0; LRead 1], _. split; [exact R|]. split; [|split; [|done]].
    - rewrite !elem_of_cons, elem_of_nil. intuition congruence.
    - intros a. rewrite !elem_of_cons, elem_of_nil. intuition congruence.
  Qed.
  Lemma stuck_run : exists tr y, fruns fsys0 tr y /\ f_stuck y = true /\ f_requests y = [RState e1 RApplied].
  Proof.
    pose proof (fruns_nil fsys0) as R. go R (LWatch w) ltac:(apply f_watch). go R (LRegister 0) rg. go R (LRead 0) rd.
    go R (LWatch w) ltac:(apply f_watch). go R (LRegister 1) rg. rewrite insert_insert in R. go R (LRead 1) rd.
    go R (LTimeout 0) ltac:(eapply f_timeout; [reflexivity|reflexivity|frees|apply lookup_insert]). rewrite delete_insert in R by apply lookup_empty.
    go R (LTimeout 1) ltac:(eapply f_timeout_nil; [reflexivity|reflexivity|frees|apply lookup_empty]).
    go R (LRequest e1) ltac:(apply f_request). go R (LApply 0) ap. eexists _, _. split; [exact R|]. done.
  Qed.
End runs.

(** ** What does not hold *)
(** An event is lost while the watch writes the one before, even if requests come one after the other. *)
Theorem C75_lost_refuted (w : watch) (e1 e2 : event) : wanted_by w e1 -> wanted_by w e2 ->
  exists tr y v, fruns fsys0 (tr ++ [LRegister 0; LWatch w]) y /\ throughout apart fsys0 (tr ++ [LRegister 0; LWatch w]) /\ serial fsys0 (tr ++ [LRegister 0; LWatch w]) /\
    LTimeout 0 ∉ tr /\ events_of y (applied tr) = [e1; e2] /\ quiet y /\ f_watches y = [v] /\ waiting v /\ wv_out v = [event_line e1].
Proof.
  intros H1 H2. destruct (lost_run w e1 e2) as (tr & y & R & Ha & Ht & Hs & He & Hw & Hr). eexists tr, y, _. split; [exact R|]. do 3 (split; [done|]).
  split; [unfold events_of; rewrite He, Hr; done|]. split; [intros j r; rewrite Hr; revert j r; calm|]. split; [exact Hw|].
  split; [by eexists|]. cbn [wv_out app]. by rewrite line_of_ok, decide_True.
Qed.
Print Assumptions C75_lost_refuted.
(** Two requests at the same time: the stream has their events in another order than the store had the changes. *)
Theorem C75_order_refuted (w : watch) (e1 e2 : event) : wanted_by w e1 -> wanted_by w e2 ->
  exists tr y v, fruns fsys0 tr y /\ throughout apart fsys0 tr /\ events_of y (applied tr) = [e1; e2] /\ f_watches y = [v] /\ wv_out v = [event_line e2; event_line e1].
Proof.
  intros H1 H2. destruct (swapped_run w e1 e2) as (tr & y & R & Ha & He & Hw & Hr). eexists tr, y, _. split; [exact R|]. split; [done|].
  split; [unfold events_of; rewrite He, Hr; done|]. split; [exact Hw|]. cbn [wv_out app]. by rewrite !line_of_ok, !decide_True.
Qed.
Print Assumptions C75_order_refuted.
(** A watch outlives its client by up to ten minutes.  If a new client has the same address, the time-out of the old
    watch takes the channel of the new one, which then gets nothing more although it is open and waits. *)
Theorem C75_cut_refuted (w : watch) (e : event) : wanted_by w e ->
  exists tr y v u, fruns fsys0 (tr ++ [LRegister 1; LWatch w; LRead 0; LRegister 0; LWatch w]) y /\ LTimeout 1 ∉ tr /\ (forall a, LDrop 0 a ∉ tr) /\
    f_watches y = [v; u] /\ waiting u /\ f_requests y = [RState e RDone] /\ wv_out u = [].
Proof.
  intros H. destruct (cut_run w e) as (tr & y & R & Ht & Hd & Hw & Hr). eexists tr, y, _, _. split; [exact R|]. do 2 (split; [done|]). split; [exact Hw|]. split; [by eexists|done].
Qed.
Print Assumptions C75_cut_refuted.
(** Then the time-out of the new watch panics with the lock held: no request is answered any more, and no watch begins. *)
Theorem C75_stuck_refuted (w : watch) (e : event) : exists tr y, fruns fsys0 tr y /\ forall tr' y', fruns y tr' y' ->
  (forall j r, f_requests y' !! j = Some r -> rv_pc r = RBegin \/ rv_pc r = RApplied) /\ (forall i, LRegister i ∉ tr').
Proof.
  destruct (stuck_run w e) as (tr & y & R & Hs & Hr). exists tr, y. split; [done|]. intros tr' y' H'.
  induction H' as [|tr' z l y' H' IH Hst]; [split; [|intros i; apply not_elem_of_nil]|].
  - intros j r. rewrite Hr. destruct j; [intros [= <-]; by right|done].
  - destruct IH as [IH1 IH2]. pose proof (stuck_runs _ _ _ Hs H') as Hz. split.
    + intros j r Hj.
      assert (forall k u p, f_requests z !! k = Some u -> (p = RBegin \/ p = RApplied) -> <[k := RState (rv_event u) p]> (f_requests z) !! j = Some r -> rv_pc r = RBegin \/ rv_pc r = RApplied) as Hk.
      { intros k u p Hu Hp Hi. apply insert_cases in Hi as [(-> & -> & _)|(_ & Hi)]; [done|eauto]. }
      destruct Hst as [x|x|k u Hu Hpc Hf|k u Hu Hpc Hf|k u x Hu Hpc|k u d Hu Hpc Hc|k u o d Hu Hpc Hf Hc|k u o Hu Hpc Hf Hc
        |k u Hu Hpc|k u l Hu Hpc Hst Hl'|k u b d l q x Hu Hpc Hc Hx Hxp|k u b d l Hu Hpc Hc Hn|k u b d l Hu Hpc Hc|k u Hu Hpc]; cbn in Hj; eauto;
        try (destruct (IH1 _ _ Hu); congruence).
      * apply snoc_cases in Hj as [?|[_ ->]]; [eauto|by left].
    + intros i [<-|?]%elem_of_cons; [|by eapply IH2]. inversion Hst as [| |k u Hu Hpc Hf| | | | | | | | | | |]; subst. destruct Hf. congruence.
Qed.
Print Assumptions C75_stuck_refuted.

(** ** Examples *)
Definition sx_type : gvr := ([], str "v1", str "pods").
Definition sx_watch : watch := Watch (str "10.0.0.1:40001") sx_type (str "default") (Paginate 0 0 0 [] []).
Definition sx_add : event := Event AAdd sx_type (str "c1") (str "default") (str "p") (str "{}").
Definition sx_update : event := Event AUpdate sx_type (str "c1") (str "default") (str "p") (str "{}").
Definition sx_other : event := Event AUpdate sx_type (str "c1") (str "kube-system") (str "p") (str "{}").
Example C75_ex_wanted : wanted_by sx_watch sx_add /\ wanted_by sx_watch sx_update /\ ~ wanted_by sx_watch sx_other.
Proof.
  split; [split; [done|split; [by right|by left]]|]. split; [split; [done|split; [by right|by left]]|]. intros (_ & [H|H] & _); vm_compute in H; discriminate.
Qed.
(** The hypotheses of C75_in_order and of C75_lost_only_busy, with one wanted change and one that is not. *)
Example C75_ex : exists tr1 tr2 y1 y v, fruns fsys0 (LRegister 0 :: tr1) y1 /\ quiet y1 /\ fruns y1 tr2 y /\ throughout apart y1 tr2 /\ LTimeout 0 ∉ tr2 /\
  serial y1 tr2 /\ patient 0 y1 tr2 /\ quiet y /\ f_watches y !! 0 = Some v /\ wt_gvr (wv_watch v) <> ([], [], []) /\ (forall e, wv_pc v <> WGot e) /\
  events_of y (applied tr2) = [sx_add; sx_other] /\ wv_out v = [event_line sx_add].
Proof.
  destruct (neat_run sx_watch sx_add sx_other) as (tr1 & tr2 & y1 & y & R0 & Q0 & [R Ra Rs Rp] & Q & Ht & Hap & Hw & Hr).
  eexists tr1, tr2, y1, y, _. split; [exact R0|]. split; [exact Q0|]. split; [exact R|]. split; [exact Ra|]. split; [exact Ht|]. split; [exact Rs|].
  split; [exact Rp|]. split; [exact Q|]. split; [exact Hw|]. split; [discriminate|]. split; [discriminate|]. split; [unfold events_of; rewrite Hap, Hr; done|].
  destruct C75_ex_wanted as (H1 & _ & H3). cbn [wv_out app]. rewrite !line_of_ok, decide_True, decide_False by done. done.
Qed.
(** The hypotheses of C75_answers, with an event lost on the way. *)
Example C75_ex_answers : exists tr y r, fruns fsys0 tr y /\ throughout apart fsys0 tr /\ f_requests y !! 1 = Some r /\ rv_event r = sx_update.
Proof.
  destruct (lost_run sx_watch sx_add sx_update) as (tr & y & R & Ha & _ & _ & _ & _ & Hr). eexists _, y, _. split; [exact R|]. split; [exact Ha|]. rewrite Hr. done.
Qed.
