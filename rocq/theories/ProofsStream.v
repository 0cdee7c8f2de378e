(** C75: invariants of the fake server's streams. *)
From Coq Require Import Ascii String NArith Lia.
From stdpp Require Import base gmap strings list.
From Verif Require Import ModelStr ModelPage ModelStore ModelProxy ModelFake ModelStream SpecFake SpecStream.

Lemma insert_cases {A} (i j : nat) (x z : A) (l : list A) : <[i := x]> l !! j = Some z ->
  (i = j /\ z = x /\ i < length l) \/ (i <> j /\ l !! j = Some z).
Proof. intros H. apply list_lookup_insert_Some in H. naive_solver. Qed.
Lemma snoc_cases {A} (l : list A) (x z : A) (j : nat) : (l ++ [x]) !! j = Some z -> l !! j = Some z \/ (j = length l /\ z = x).
Proof.
  intros H. apply lookup_app_Some in H as [H|(Hl & H)]; [by left|]. right. apply list_lookup_singleton_Some in H as [? ->]. split; [lia|done].
Qed.
Lemma elem_of_map_list (m : gmap gostr nat) l a c : l ≡ₚ map_to_list m -> (a, c) ∈ l -> m !! a = Some c.
Proof. intros E H. rewrite E in H. by apply elem_of_map_to_list in H. Qed.
Lemma fruns_app y0 t1 y1 t2 y2 : fruns y0 t1 y1 -> fruns y1 t2 y2 -> fruns y0 (t2 ++ t1) y2.
Proof. intros H1 H2. induction H2; [done|]. cbn [app]. econstructor; eauto. Qed.
Lemma fruns_app_inv y0 tb ta y : fruns y0 (tb ++ ta) y -> exists y1, fruns y0 ta y1 /\ fruns y1 tb y.
Proof.
  revert y. induction tb as [|l tb IH]; intros y H; [exists y; split; [done|constructor]|].
  inversion H as [|? z ? ? H1 H2]; subst. destruct (IH _ H1) as (y1 & ? & ?). exists y1. split; [done|]. econstructor; eauto.
Qed.

Lemma sublist_in {A} (l k : list A) x : l `sublist_of` k -> x ∈ l -> x ∈ k.
Proof. induction 1; rewrite ?elem_of_cons; naive_solver. Qed.
Lemma sublist_nodup {A} (l k : list A) : l `sublist_of` k -> NoDup k -> NoDup l.
Proof.
  induction 1 as [|x l k H IH|x l k H IH]; [done| |]; intros [Hx Hk]%NoDup_cons; [|auto].
  apply NoDup_cons. split; [|auto]. intros Hi. apply Hx. by eapply sublist_in.
Qed.
Lemma sublist_snoc_notin {A} (l k : list A) x : l `sublist_of` k ++ [x] -> x ∉ l -> l `sublist_of` k.
Proof.
  intros (l1 & l2 & -> & H1 & H2)%sublist_app_r Hx. apply sublist_cons_r in H2 as [H2|(l' & -> & H2)].
  - apply sublist_nil_r in H2 as ->. by rewrite app_nil_r.
  - exfalso. apply Hx. set_solver.
Qed.

(** ** What a step leaves *)
Lemma watch_keeps y l y' i v : fstep y l y' -> f_watches y !! i = Some v -> exists v', f_watches y' !! i = Some v' /\ wv_watch v' = wv_watch v.
Proof.
  intros H Hv.
  assert (forall k u p, f_watches y !! k = Some u -> exists v', <[k := WState (wv_watch u) p (wv_out u)]> (f_watches y) !! i = Some v' /\ wv_watch v' = wv_watch v) as Hk.
  { intros k u p Hu. destruct (decide (k = i)) as [->|]; [|rewrite list_lookup_insert_ne by done; eauto].
    rewrite list_lookup_insert by (by eapply lookup_lt_Some). assert (u = v) as -> by congruence. eauto. }
  destruct H; cbn; eauto.
  - exists v. split; [|done]. by apply lookup_app_l_Some.
  - destruct (decide (i0 = i)) as [->|]; [|rewrite list_lookup_insert_ne by done; eauto].
    rewrite list_lookup_insert by (by eapply lookup_lt_Some). assert (v0 = v) as -> by congruence. eauto.
Qed.
Lemma request_keeps y l y' j r : fstep y l y' -> f_requests y !! j = Some r -> exists r', f_requests y' !! j = Some r' /\ rv_event r' = rv_event r.
Proof.
  intros H Hr.
  assert (forall k u p, f_requests y !! k = Some u -> exists r', <[k := RState (rv_event u) p]> (f_requests y) !! j = Some r' /\ rv_event r' = rv_event r) as Hk.
  { intros k u p Hu. destruct (decide (k = j)) as [->|]; [|rewrite list_lookup_insert_ne by done; eauto].
    rewrite list_lookup_insert by (by eapply lookup_lt_Some). assert (u = r) as -> by congruence. eauto. }
  destruct H; cbn; eauto. exists r. split; [|done]. by apply lookup_app_l_Some.
Qed.

(** ** The channels *)
Record okay (y : fsys) : Prop := {
  ok_inj a b c : f_map y !! a = Some c -> f_map y !! b = Some c -> a = b;
  ok_next a c : f_map y !! a = Some c -> c < f_next y;
  ok_closed c : c ∈ f_closed y -> c < f_next y /\ forall a, f_map y !! a <> Some c;
  ok_select i v c : f_watches y !! i = Some v -> wv_pc v = WSelect (Some c) -> c < f_next y /\ forall a, f_map y !! a = Some c -> a = wt_addr (wv_watch v);
  ok_sending j r l : f_requests y !! j = Some r -> rv_pc r = RSending l -> NoDup l.*1 /\ forall a c, (a, c) ∈ l -> f_map y !! a = Some c;
  ok_panic j r : f_requests y !! j = Some r -> rv_pc r <> RPanic }.
Lemma okay_init : okay fsys0.
Proof. split; cbn; intros *; try (rewrite lookup_empty; done); try done. Qed.
Lemma okay_same_map y y' : okay y -> f_map y' = f_map y -> f_next y' = f_next y -> f_closed y' = f_closed y ->
  (forall i v c, f_watches y' !! i = Some v -> wv_pc v = WSelect (Some c) -> (f_map y !! wt_addr (wv_watch v) = Some c) \/
     exists v0, f_watches y !! i = Some v0 /\ wv_pc v0 = WSelect (Some c) /\ wv_watch v0 = wv_watch v) ->
  (forall j r l, f_requests y' !! j = Some r -> rv_pc r = RSending l -> (l ≡ₚ map_to_list (f_map y)) \/
     exists r0 l0, f_requests y !! j = Some r0 /\ rv_pc r0 = RSending l0 /\ l `sublist_of` l0) ->
  (forall j r, f_requests y' !! j = Some r -> rv_pc r <> RPanic) -> okay y'.
Proof.
  intros Hy Em En Ec Hw Hr Hp. destruct Hy as [I1 I2 I3 I4 I5 I6]. split; rewrite ?Em, ?En, ?Ec; try done.
  - intros i v c Hv Hc. destruct (Hw _ _ _ Hv Hc) as [E|(v0 & H0 & H1 & <-)]; [|eauto]. split; [eauto|]. intros a Ha. eauto.
  - intros j r l Hj Hl. destruct (Hr _ _ _ Hj Hl) as [E|(r0 & l0 & H0 & H1 & Hs)].
    + split; [rewrite E; apply NoDup_fst_map_to_list|]. intros a c. by apply elem_of_map_list.
    + destruct (I5 _ _ _ H0 H1) as [H2 H3]. split.
      * eapply sublist_nodup; [|exact H2]. by apply fmap_sublist.
      * intros a c Ha. apply H3. eapply sublist_in; eauto.
Qed.

Lemma set_watch_select y k u p i v c : okay y -> f_watches y !! k = Some u -> (p = WSelect (Some c) -> f_map y !! wt_addr (wv_watch u) = Some c) ->
  <[k := WState (wv_watch u) p (wv_out u)]> (f_watches y) !! i = Some v -> wv_pc v = WSelect (Some c) ->
  f_map y !! wt_addr (wv_watch v) = Some c \/ exists v0, f_watches y !! i = Some v0 /\ wv_pc v0 = WSelect (Some c) /\ wv_watch v0 = wv_watch v.
Proof. intros _ Hu Hp Hv Hc. apply insert_cases in Hv as [(<- & -> & _)|(_ & ?)]; [left; by apply Hp|right; eauto]. Qed.
Lemma no_reader y j r l : free y -> f_requests y !! j = Some r -> rv_pc r = RSending l -> False.
Proof. intros [_ H] Hj Hl. rewrite Forall_lookup in H. specialize (H _ _ Hj). by rewrite Hl in H. Qed.
Lemma okay_step y l y' : okay y -> fstep y l y' -> okay y'.
Proof.
  intros Hy H. pose proof Hy as [I1 I2 I3 I4 I5 I6].
  assert (forall i v c, f_watches y !! i = Some v -> wv_pc v = WSelect (Some c) -> (f_map y !! wt_addr (wv_watch v) = Some c) \/
     exists v0, f_watches y !! i = Some v0 /\ wv_pc v0 = WSelect (Some c) /\ wv_watch v0 = wv_watch v) as HW by eauto.
  assert (forall j r l, f_requests y !! j = Some r -> rv_pc r = RSending l -> (l ≡ₚ map_to_list (f_map y)) \/
     exists r0 l0, f_requests y !! j = Some r0 /\ rv_pc r0 = RSending l0 /\ l `sublist_of` l0) as HR by (intros; right; eauto).
  assert (forall k u p j r l, f_requests y !! k = Some u ->
     (forall l, p = RSending l -> (l ≡ₚ map_to_list (f_map y)) \/ exists l0, rv_pc u = RSending l0 /\ l `sublist_of` l0) ->
     <[k := RState (rv_event u) p]> (f_requests y) !! j = Some r -> rv_pc r = RSending l -> (l ≡ₚ map_to_list (f_map y)) \/
     exists r0 l0, f_requests y !! j = Some r0 /\ rv_pc r0 = RSending l0 /\ l `sublist_of` l0) as HR'.
  { intros k u p j r l0 Hu Hp Hj Hl. apply insert_cases in Hj as [(<- & -> & _)|(_ & ?)]; [|right; eauto].
    destruct (Hp _ Hl) as [?|(? & ? & ?)]; [by left|right; eauto]. }
  assert (forall k u p j r, f_requests y !! k = Some u -> p <> RPanic -> <[k := RState (rv_event u) p]> (f_requests y) !! j = Some r -> rv_pc r <> RPanic) as HP.
  { intros k u p j r Hu Hp Hj. apply insert_cases in Hj as [(<- & -> & _)|(_ & ?)]; eauto. }
  destruct H as [w|e|i v Hv Hpc Hf|i v Hv Hpc Hf|i v e Hv Hpc|i v c Hv Hpc Hc|i v o c Hv Hpc Hf Hc|i v o Hv Hpc Hf Hc
    |j r Hr Hpc|j r l Hr Hpc Hs Hl|j r a c l i v Hr Hpc Hc Hv Hvp|j r a c l Hr Hpc Hc Hn|j r a c l Hr Hpc Hc|j r Hr Hpc].
  - apply (okay_same_map y); try done. cbn. intros i v c Hv Hc. apply snoc_cases in Hv as [?|[_ ->]]; [eauto|done].
  - apply (okay_same_map y); try done; cbn.
    + intros j r l Hj Hl. apply snoc_cases in Hj as [?|[_ ->]]; [right; eauto|done].
    + intros j r Hj. apply snoc_cases in Hj as [?|[_ ->]]; [eauto|done].
  - split; cbn.
    + intros a b c. rewrite !lookup_insert_Some. intros [[<- <-]|[? Ha]] [[<- E]|[? Hb]]; try done; [| |eauto].
      * apply I2 in Hb. lia.
      * subst c. apply I2 in Ha. lia.
    + intros a c. rewrite lookup_insert_Some. intros [[_ <-]|[_ ?%I2]]; lia.
    + intros c Hc. destruct (I3 _ Hc) as [? Hx]. split; [lia|]. intros a. rewrite lookup_insert_Some. intros [[_ <-]|[_ ?]]; [lia|by eapply Hx].
    + intros k u c Hk Hc. apply insert_cases in Hk as [(<- & -> & _)|(_ & Hk)]; [done|]. destruct (I4 _ _ _ Hk Hc) as [Hlt Hx]. split; [lia|].
      intros a. rewrite lookup_insert_Some. intros [[_ <-]|[_ ?]]; [lia|by apply Hx].
    + intros j r l Hj Hl. exfalso. by eapply no_reader.
    + eauto.
  - apply (okay_same_map y); try done. cbn. intros k u c Hk Hc. by eapply set_watch_select; [| | |exact Hk|exact Hc]; [done|done|intros [= ->]].
  - apply (okay_same_map y); try done. cbn. intros k u c Hk Hc. apply insert_cases in Hk as [(<- & -> & _)|(_ & Hk)]; [done|eauto].
  - apply (okay_same_map y); try done. cbn. intros k u c' Hk Hc'. by eapply set_watch_select; [| | |exact Hk|exact Hc'].
  - split; cbn.
    + intros a b d. rewrite !lookup_delete_Some. intros [? Ha] [? Hb]. eauto.
    + intros a d. rewrite lookup_delete_Some. intros [_ ?]. eauto.
    + intros d. rewrite elem_of_union, elem_of_singleton. intros [->|Hd].
      * split; [eauto|]. intros a. rewrite lookup_delete_Some. intros [Hne Ha]. by apply Hne, (I1 _ _ c).
      * destruct (I3 _ Hd) as [? Hx]. split; [done|]. intros a. rewrite lookup_delete_Some. intros [_ ?]. by eapply Hx.
    + intros k u d Hk Hd. apply insert_cases in Hk as [(<- & -> & _)|(_ & Hk)]; [done|]. destruct (I4 _ _ _ Hk Hd) as [Hlt Hx]. split; [lia|].
      intros a. rewrite lookup_delete_Some. intros [_ ?]. by apply Hx.
    + intros j r l Hj Hl. exfalso. by eapply no_reader.
    + eauto.
  - apply (okay_same_map y); try done. cbn. intros k u c' Hk Hc'. by eapply set_watch_select; [| | |exact Hk|exact Hc'].
  - apply (okay_same_map y); try done; cbn; [|intros ? ?; by apply (HP _ _ _ _ _ Hr)]. intros; eapply HR'; [exact Hr| |done..]. done.
  - apply (okay_same_map y); try done; cbn; [|intros ? ?; by apply (HP _ _ _ _ _ Hr)]. intros; eapply HR'; [exact Hr| |done..]. intros ? [= <-]. by left.
  - apply (okay_same_map y); try done; cbn; [|  |intros ? ?; by apply (HP _ _ _ _ _ Hr)].
    + intros k u c' Hk Hc'. by eapply set_watch_select; [| | |exact Hk|exact Hc'].
    + intros; eapply HR'; [exact Hr| |done..]. intros ? [= <-]. right. exists ((a, c) :: l). split; [done|]. by apply sublist_cons.
  - apply (okay_same_map y); try done; cbn; [|intros ? ?; by apply (HP _ _ _ _ _ Hr)]. intros; eapply HR'; [exact Hr| |done..].
    intros ? [= <-]. right. exists ((a, c) :: l). split; [done|]. by apply sublist_cons.
  - exfalso. destruct (I5 _ _ _ Hr Hpc) as [_ Hx]. destruct (I3 _ Hc) as [_ Hx']. apply (Hx' a), Hx. left.
  - apply (okay_same_map y); try done; cbn; [|intros ? ?; by apply (HP _ _ _ _ _ Hr)]. intros; eapply HR'; [exact Hr| |done..]. done.
Qed.
Lemma okay_runs tr y : fruns fsys0 tr y -> okay y.
Proof. induction 1; [apply okay_init|by eapply okay_step]. Qed.

(** ** Each event at most once *)
Definition past (j : nat) (a : gostr) (y : fsys) : Prop :=
  exists r, f_requests y !! j = Some r /\ match rv_pc r with RSending l => a ∉ l.*1 | RDone | RPanic => True | _ => False end.
Lemma past_step y l y' j a : past j a y -> fstep y l y' -> past j a y'.
Proof.
  intros (r & Hr & Hp) H.
  assert (forall k u p, f_requests y !! k = Some u -> (k = j -> u = r -> match p with RSending l => a ∉ l.*1 | RDone | RPanic => True | _ => False end) ->
    exists r', <[k := RState (rv_event u) p]> (f_requests y) !! j = Some r' /\ match rv_pc r' with RSending l => a ∉ l.*1 | RDone | RPanic => True | _ => False end) as Hk.
  { intros k u p Hu Hx. destruct (decide (k = j)) as [->|]; [|rewrite list_lookup_insert_ne by done; eauto].
    rewrite list_lookup_insert by (by eapply lookup_lt_Some). assert (u = r) as -> by congruence. eexists. split; [done|]. by apply Hx. }
  unfold past. destruct H as [w|e|i v Hv Hpc Hf|i v Hv Hpc Hf|i v e Hv Hpc|i v c Hv Hpc Hc|i v o c Hv Hpc Hf Hc|i v o Hv Hpc Hf Hc
    |k u Hu Hpc|k u l Hu Hpc Hs Hl|k u b c l i v Hu Hpc Hc Hv Hvp|k u b c l Hu Hpc Hc Hn|k u b c l Hu Hpc Hc|k u Hu Hpc]; cbn; eauto.
  - exists r. split; [|done]. by apply lookup_app_l_Some.
  - apply Hk; [done|]. intros -> ->. by rewrite Hpc in Hp.
  - apply Hk; [done|]. intros -> ->. by rewrite Hpc in Hp.
  - apply Hk; [done|]. intros -> ->. rewrite Hpc in Hp. cbn in Hp. set_solver.
  - apply Hk; [done|]. intros -> ->. rewrite Hpc in Hp. cbn in Hp. set_solver.
Qed.
Lemma offered_past tr y j a : fruns fsys0 tr y -> (exists i, LTake j a i ∈ tr) \/ LDrop j a ∈ tr -> past j a y.
Proof.
  intros H. induction H as [|tr y l y' H IH Hs]; [intros [[? ?%elem_of_nil]|?%elem_of_nil]; done|]. intros Hl.
  assert (((exists i, LTake j a i ∈ tr) \/ LDrop j a ∈ tr) \/ (exists i, l = LTake j a i) \/ l = LDrop j a) as [Ho|Ho].
  { destruct Hl as [[i [<-|?]%elem_of_cons]|[<-|?]%elem_of_cons]; eauto. }
  { by eapply past_step; eauto. }
  pose proof (okay_runs _ _ H) as [_ _ _ _ I5 _]. unfold past. destruct Ho as [[i ->]| ->]; inversion Hs as [| | | | | | | | | |k u b c l i' v Hu Hpc Hc Hv Hvp|k u b c l Hu Hpc Hc Hn| |]; subst; cbn.
  - rewrite list_lookup_insert by (by eapply lookup_lt_Some). eexists. split; [done|]. cbn. destruct (I5 _ _ _ Hu Hpc) as [[? ?]%NoDup_cons _]. done.
  - rewrite list_lookup_insert by (by eapply lookup_lt_Some). eexists. split; [done|]. cbn. destruct (I5 _ _ _ Hu Hpc) as [[? ?]%NoDup_cons _]. done.
Qed.
Lemma takes_cons i l tr : takes i (l :: tr) = takes i tr ++ match took i l with Some j => [j] | None => [] end.
Proof. unfold takes. cbn [omap list_omap]. destruct (took i l); cbn [rev]; [done|by rewrite app_nil_r]. Qed.
Lemma applied_cons l tr : applied (l :: tr) = applied tr ++ match change l with Some j => [j] | None => [] end.
Proof. unfold applied. cbn [omap list_omap]. destruct (change l); cbn [rev]; [done|by rewrite app_nil_r]. Qed.
Lemma takes_app i t2 t1 : takes i (t2 ++ t1) = takes i t1 ++ takes i t2.
Proof. unfold takes. by rewrite omap_app, rev_app_distr. Qed.
Lemma applied_app t2 t1 : applied (t2 ++ t1) = applied t1 ++ applied t2.
Proof. unfold applied. by rewrite omap_app, rev_app_distr. Qed.
Lemma elem_takes i j tr : j ∈ takes i tr <-> exists a, LTake j a i ∈ tr.
Proof.
  unfold takes. rewrite elem_of_list_In, <- in_rev, <- elem_of_list_In, elem_of_list_omap. split.
  - intros (l & Hl & Ht). destruct l; try done. cbn in Ht. destruct (Nat.eqb_spec i0 i); [|done]. subst. injection Ht as ->. eauto.
  - intros [a Ha]. eexists. split; [exact Ha|]. cbn. by rewrite Nat.eqb_refl.
Qed.
Lemma elem_applied j tr : j ∈ applied tr <-> LApply j ∈ tr.
Proof.
  unfold applied. rewrite elem_of_list_In, <- in_rev, <- elem_of_list_In, elem_of_list_omap. split.
  - intros (l & Hl & Ht). destruct l; try done. injection Ht as ->. done.
  - intros Ha. by eexists.
Qed.
Lemma take_addr tr y j a i : fruns fsys0 tr y -> LTake j a i ∈ tr -> exists v, f_watches y !! i = Some v /\ wt_addr (wv_watch v) = a.
Proof.
  intros H. induction H as [|tr y l y' H IH Hs]; [by intros ?%elem_of_nil|].
  intros [<-|Hi]%elem_of_cons.
  - destruct (okay_runs _ _ H) as [_ _ _ I4 I5 _]. pose proof Hs as Hs'. inversion Hs as [| | | | | | | | | |k u b c l i' v Hu Hpc Hc Hv Hvp| | |]; subst.
    destruct (watch_keeps _ _ _ _ _ Hs' Hv) as (v' & Hv' & Ew). exists v'. split; [exact Hv'|]. rewrite Ew.
    destruct (I4 _ _ _ Hv Hvp) as [_ Hx]. symmetry. apply Hx. destruct (I5 _ _ _ Hu Hpc) as [_ Hy]. apply Hy. left.
  - destruct (IH Hi) as (v & Hv & <-). destruct (watch_keeps _ _ _ _ _ Hs Hv) as (v' & Hv' & Ew). exists v'. by rewrite Ew.
Qed.
Lemma takes_nodup i tr y : fruns fsys0 tr y -> NoDup (takes i tr).
Proof.
  intros H. induction H as [|tr y l y' H IH Hs]; [constructor|]. rewrite takes_cons.
  destruct (took i l) as [j|] eqn:E; [|by rewrite app_nil_r]. apply NoDup_app. split; [done|]. split; [|by apply NoDup_singleton].
  intros k Hk ->%elem_of_list_singleton. destruct l; try done. cbn in E. destruct (Nat.eqb_spec i0 i); [|done]. injection E as ->. subst i0.
  apply elem_takes in Hk as [b Hb]. assert (b = a) as ->.
  { destruct (take_addr _ _ _ _ _ H Hb) as (v & Hv & <-).
    destruct (watch_keeps _ _ _ _ _ Hs Hv) as (v' & Hv' & Ew).
    assert (LTake j a i ∈ LTake j a i :: tr) as Ht by left. destruct (take_addr _ _ _ _ _ (fruns_cons _ _ _ _ _ H Hs) Ht) as (v2 & Hv2 & <-). congruence. }
  assert (past j a y) as (r & Hr & Hp) by (eapply offered_past; eauto).
  inversion Hs as [| | | | | | | | | |k u b c l i' v Hu Hpc Hc Hv Hvp| | |]; subst. assert (u = r) as -> by congruence. rewrite Hpc in Hp. cbn in Hp. set_solver.
Qed.
(** A request has made its change if it has begun. *)
Lemma begun_step y l y' j r : fstep y l y' -> f_requests y !! j = Some r -> exists r', f_requests y' !! j = Some r' /\ (rv_pc r <> RBegin -> rv_pc r' <> RBegin) /\
  (rv_pc r = RBegin -> l <> LApply j -> rv_pc r' = RBegin).
Proof.
  intros H Hr.
  assert (forall k u p, f_requests y !! k = Some u -> (k = j -> u = r -> (rv_pc r <> RBegin -> p <> RBegin) /\ (rv_pc r = RBegin -> l <> LApply j -> p = RBegin)) ->
    exists r', <[k := RState (rv_event u) p]> (f_requests y) !! j = Some r' /\ (rv_pc r <> RBegin -> rv_pc r' <> RBegin) /\ (rv_pc r = RBegin -> l <> LApply j -> rv_pc r' = RBegin)) as Hk.
  { intros k u p Hu Hx. destruct (decide (k = j)) as [->|]; [|rewrite list_lookup_insert_ne by done; eauto].
    rewrite list_lookup_insert by (by eapply lookup_lt_Some). assert (u = r) as -> by congruence. eexists. split; [done|]. by apply Hx. }
  destruct H; cbn; eauto; try (by apply Hk; [done|]; intros -> ->; split; [done|congruence]).
  exists r. split; [|done]. by apply lookup_app_l_Some.
Qed.
Lemma applied_begun y0 tr y j : fruns y0 tr y -> LApply j ∈ tr -> exists r, f_requests y !! j = Some r /\ rv_pc r <> RBegin.
Proof.
  intros H. induction H as [|tr y l y' H IH Hs]; [by intros ?%elem_of_nil|]. intros [<-|Hi]%elem_of_cons.
  - inversion Hs as [| | | | | | | |k u Hu Hpc| | | | |]; subst. cbn. rewrite list_lookup_insert by (by eapply lookup_lt_Some). by eexists.
  - destruct (IH Hi) as (r & Hr & Hb). destruct (begun_step _ _ _ _ _ Hs Hr) as (r' & Hr' & Hx & _). eauto.
Qed.
Lemma applied_nodup y0 tr y : fruns y0 tr y -> NoDup (applied tr).
Proof.
  intros H. induction H as [|tr y l y' H IH Hs]; [constructor|]. rewrite applied_cons.
  destruct (change l) as [j|] eqn:E; [|by rewrite app_nil_r]. apply NoDup_app. split; [done|]. split; [|by apply NoDup_singleton].
  intros k Hk ->%elem_of_list_singleton. destruct l; try done. injection E as ->. apply elem_applied in Hk.
  destruct (applied_begun _ _ _ _ H Hk) as (r & Hr & Hb). inversion Hs as [| | | | | | | |k u Hu Hpc| | | | |]; subst. congruence.
Qed.
Lemma begun_applied tr y j r : fruns fsys0 tr y -> f_requests y !! j = Some r -> rv_pc r <> RBegin -> LApply j ∈ tr.
Proof.
  intros H. revert r. induction H as [|tr y l y' H IH Hs]; intros r Hr Hb; [done|]. destruct (f_requests y !! j) as [u|] eqn:E.
  - destruct (begun_step _ _ _ _ _ Hs E) as (r' & Hr' & H1 & H2). assert (r' = r) as -> by congruence.
    assert (rv_pc u = RBegin \/ rv_pc u <> RBegin) as [Hu|Hu] by (destruct (rv_pc u); auto); [|right; by apply (IH u)].
    assert (l = LApply j \/ l <> LApply j) as [->|Hl]; [|left|by destruct (Hb (H2 Hu Hl))].
    destruct l; try (by right). destruct (decide (j0 = j)) as [->|]; [by left|right; congruence].
  - exfalso. apply lookup_ge_None in E. apply lookup_lt_Some in Hr as Hlt. destruct Hs; cbn in *; rewrite ?insert_length in Hlt; try lia.
    rewrite app_length in Hlt; cbn in Hlt. assert (j = length (f_requests y)) as -> by lia. rewrite list_lookup_middle in Hr by done. by injection Hr as <-.
Qed.

(** ** The lines *)
Definition due (v : wstate) : list gostr := wv_out v ++ match wv_pc v with WGot e => line_of (wv_watch v) e | _ => [] end.
Lemma events_of_keeps y l y' js : fstep y l y' -> Forall (fun j => is_Some (f_requests y !! j)) js -> events_of y' js = events_of y js.
Proof.
  intros H. induction 1 as [|j js [r Hr] Hjs IH]; [done|]. unfold events_of. cbn [omap list_omap]. fold (events_of y' js) (events_of y js).
  destruct (request_keeps _ _ _ _ _ H Hr) as (r' & -> & E). rewrite Hr. cbn. by rewrite E, IH.
Qed.
Lemma takes_requests tr y i : fruns fsys0 tr y -> Forall (fun j => is_Some (f_requests y !! j)) (takes i tr).
Proof.
  intros H. apply Forall_forall. intros j [a Ha]%elem_takes. destruct (offered_past tr y j a H) as (r & -> & _); eauto.
Qed.
Lemma events_app y js ks : events_of y (js ++ ks) = events_of y js ++ events_of y ks.
Proof. apply omap_app. Qed.
Lemma zero_line w : wt_gvr w <> ([], [], []) -> line_of w zero_event = [].
Proof. intros H. unfold line_of, watch_line. cbn [zero_event ev_gvr]. by rewrite bool_decide_false by done. Qed.
Lemma due_ok tr y i v : fruns fsys0 tr y -> f_watches y !! i = Some v -> wt_gvr (wv_watch v) <> ([], [], []) ->
  due v = concat (line_of (wv_watch v) <$> events_of y (takes i tr)).
Proof.
  intros H. revert v. induction H as [|tr y l y' H IH Hs]; intros v Hv Hg; [done|].
  pose proof (takes_requests _ _ i H) as Hreq. pose proof (events_of_keeps _ _ _ _ Hs Hreq) as Ek.
  rewrite takes_cons, events_app, Ek, fmap_app, concat_app.
  assert (forall k u p, f_watches y !! k = Some u -> took i l = None -> <[k := WState (wv_watch u) p (wv_out u)]> (f_watches y) !! i = Some v ->
    (wv_watch u = wv_watch v -> match p with WGot e => line_of (wv_watch u) e | _ => [] end = match wv_pc u with WGot e => line_of (wv_watch u) e | _ => [] end) ->
    due v = concat (line_of (wv_watch v) <$> events_of y (takes i tr)) ++ concat (line_of (wv_watch v) <$> events_of y' match took i l with Some j => [j] | None => [] end)) as Hk.
  { intros k u p Hu Et Hi Hp. rewrite Et. cbn. rewrite app_nil_r. apply insert_cases in Hi as [(-> & -> & _)|(_ & Hi)]; [|by apply IH].
    cbn. cbn in Hg. rewrite <- (IH _ Hu Hg). unfold due. cbn. f_equal. by apply Hp. }
  assert (f_watches y !! i = Some v -> took i l = None ->
    due v = concat (line_of (wv_watch v) <$> events_of y (takes i tr)) ++ concat (line_of (wv_watch v) <$> events_of y' match took i l with Some j => [j] | None => [] end)) as Hsame.
  { intros Hi ->. cbn. rewrite app_nil_r. by apply IH. }
  destruct Hs as [w|e|k u Hu Hpc Hf|k u Hu Hpc Hf|k u e Hu Hpc|k u c Hu Hpc Hc|k u o c Hu Hpc Hf Hc|k u o Hu Hpc Hf Hc
    |j r Hr Hpc|j r l Hr Hpc Hs Hl|j r a c l k u Hr Hpc Hc Hu Hvp|j r a c l Hr Hpc Hc Hn|j r a c l Hr Hpc Hc|j r Hr Hpc]; try (by apply Hsame); cbn in Hv.
  - apply snoc_cases in Hv as [Hv|[-> ->]]; [by apply Hsame|]. cbn.
    assert (takes (length (f_watches y)) tr = []) as ->; [|done].
    destruct (takes _ tr) as [|j js] eqn:E; [done|]. assert (j ∈ takes (length (f_watches y)) tr) as [a Ha]%elem_takes by (rewrite E; left).
    destruct (take_addr _ _ _ _ _ H Ha) as (x & Hx%lookup_lt_Some & _). lia.
  - eapply Hk; [exact Hu|done|exact Hv|]. intros _. by rewrite Hpc.
  - eapply Hk; [exact Hu|done|exact Hv|]. intros _. by rewrite Hpc.
  - cbn [took]. apply insert_cases in Hv as [(-> & -> & _)|(_ & Hv)]; [|by apply Hsame]. cbn. rewrite app_nil_r. cbn in Hg.
    rewrite <- (IH _ Hu Hg). unfold due. cbn. by rewrite Hpc, app_nil_r.
  - eapply Hk; [exact Hu|done|exact Hv|]. intros E. rewrite Hpc. apply zero_line. congruence.
  - eapply Hk; [exact Hu|done|exact Hv|]. intros _. by rewrite Hpc.
  - eapply Hk; [exact Hu|done|exact Hv|]. intros _. by rewrite Hpc.
  - cbn [took]. apply insert_cases in Hv as [(-> & -> & _)|(Hne & Hv)].
    + rewrite Nat.eqb_refl. cbn in Hg. cbn [wv_watch]. rewrite <- (IH _ Hu Hg). unfold due. rewrite Hvp. cbn [wv_out wv_pc wv_watch]. rewrite app_nil_r. f_equal.
      unfold events_of. cbn. rewrite list_lookup_insert by (by eapply lookup_lt_Some). cbn. by rewrite app_nil_r.
    + rewrite (proj2 (Nat.eqb_neq k i) Hne). cbn. rewrite app_nil_r. by apply IH.
Qed.

(** ** Nothing is lost but when the watch is busy *)
Lemma throughout_tail P y0 l tr : throughout P y0 (l :: tr) -> throughout P y0 tr.
Proof. intros H tb ta y -> Hr. by apply (H (l :: tb) ta). Qed.
Lemma throughout_now P y0 tr y : throughout P y0 tr -> fruns y0 tr y -> P y.
Proof. intros H Hr. by apply (H [] tr). Qed.
(** The watch is registered with the channel. *)
Definition on (i : nat) (a : gostr) (c : nat) (y : fsys) : Prop :=
  f_map y !! a = Some c /\ exists v, f_watches y !! i = Some v /\ wt_addr (wv_watch v) = a /\
    match wv_pc v with WTop | WGot _ => True | WSelect o => o = Some c | _ => False end.
Lemma on_step y l y' i a c : on i a c y -> apart y -> fstep y l y' -> l <> LTimeout i -> on i a c y'.
Proof.
  intros (Hm & v & Hv & Ha & Hp) Hap H Hl. assert (~ over (wv_pc v)) as Hno by (intros Hov; by destruct (wv_pc v)).
  assert (forall k u p (m' : gmap gostr nat), f_watches y !! k = Some u -> m' !! a = Some c ->
    (k = i -> u = v -> match p with WTop | WGot _ => True | WSelect o => o = Some c | _ => False end) ->
    m' !! a = Some c /\ exists v, <[k := WState (wv_watch u) p (wv_out u)]> (f_watches y) !! i = Some v /\ wt_addr (wv_watch v) = a /\
      match wv_pc v with WTop | WGot _ => True | WSelect o => o = Some c | _ => False end) as Hk.
  { intros k u p m' Hu Hm' Hx. split; [done|]. destruct (decide (k = i)) as [->|]; [|rewrite list_lookup_insert_ne by done; eauto].
    rewrite list_lookup_insert by (by eapply lookup_lt_Some). assert (u = v) as -> by congruence. eexists. split; [done|]. split; [done|]. by apply Hx. }
  assert (on i a c y) as Hon by (split; eauto).
  unfold on. destruct H as [w|e|k u Hu Hpc Hf|k u Hu Hpc Hf|k u e Hu Hpc|k u d Hu Hpc Hc|k u o d Hu Hpc Hf Hc|k u o Hu Hpc Hf Hc
    |j r Hr Hpc|j r l Hr Hpc Hs Hl'|j r b d l k u Hr Hpc Hc Hu Hvp|j r b d l Hr Hpc Hc Hn|j r b d l Hr Hpc Hc|j r Hr Hpc]; cbn; try exact Hon.
  - split; [done|]. exists v. split; [by apply lookup_app_l_Some|done].
  - assert (k <> i) as Hki. { intros ->. assert (u = v) as -> by congruence. by rewrite Hpc in Hp. }
    assert (wt_addr (wv_watch u) <> a) as Hne. { intros E. apply Hki. apply (Hap k i u v); try done; [by rewrite Hpc; intros []|congruence]. }
    apply Hk; [done| |done]. by rewrite lookup_insert_ne.
  - apply Hk; [done|done|]. intros -> ->. by rewrite Ha.
  - split; [done|]. destruct (decide (k = i)) as [->|]; [|rewrite list_lookup_insert_ne by done; eauto].
    rewrite list_lookup_insert by (by eapply lookup_lt_Some). assert (u = v) as -> by congruence. by eexists.
  - by apply Hk.
  - assert (k <> i) as Hki by congruence.
    assert (wt_addr (wv_watch u) <> a) as Hne. { intros E. apply Hki. apply (Hap k i u v); try done; [by rewrite Hpc; intros []|congruence]. }
    apply Hk; [done| |done]. by rewrite lookup_delete_ne.
  - assert (k <> i) as Hki by congruence. by apply Hk.
  - by apply Hk.
Qed.
Definition lost (i j : nat) (a : gostr) (y1 : fsys) (tr : list flabel) : Prop :=
  exists tb ta y v, tr = tb ++ LDrop j a :: ta /\ fruns y1 ta y /\ f_watches y !! i = Some v /\ ~ waiting v.
Lemma lost_cons i j a y1 l tr : lost i j a y1 tr -> lost i j a y1 (l :: tr).
Proof. intros (tb & ta & y & v & -> & H). exists (l :: tb), ta, y, v. done. Qed.
Lemma on_run tr1 y1 tr2 y i a c : fruns fsys0 tr1 y1 -> on i a c y1 -> fruns y1 tr2 y -> throughout apart y1 tr2 -> LTimeout i ∉ tr2 -> on i a c y.
Proof.
  intros _ Hon H. induction H as [|tr y l y' H IH Hs]; intros Hap Hto; [done|].
  pose proof (throughout_tail _ _ _ _ Hap) as Hap'. apply not_elem_of_cons in Hto as [Hl Hto].
  eapply on_step; [by apply IH|by eapply throughout_now|done|done].
Qed.
Lemma delivered_or_lost tr1 y1 tr2 y i a c j : fruns fsys0 tr1 y1 -> on i a c y1 -> fruns y1 tr2 y -> throughout apart y1 tr2 -> LTimeout i ∉ tr2 ->
  (exists l, LLock j l ∈ tr2) ->
  (exists r l, f_requests y !! j = Some r /\ rv_pc r = RSending l /\ (a, c) ∈ l) \/ LTake j a i ∈ tr2 \/ lost i j a y1 tr2.
Proof.
  intros H1 Hon H. induction H as [|tr y l y' H IH Hs]; intros Hap Hto Hlk; [by destruct Hlk as [? ?%elem_of_nil]|].
  pose proof (throughout_tail _ _ _ _ Hap) as Hap'. apply not_elem_of_cons in Hto as [Hl Hto].
  assert (on i a c y) as Hony by (by eapply on_run). assert (apart y) as Hay by (by eapply throughout_now).
  assert (okay y) as Hok by (eapply okay_runs, fruns_app; eauto).
  destruct Hlk as [lk [<-|Hlk]%elem_of_cons].
  { left. inversion Hs as [| | | | | | | | |k u l Hu Hpc Hst Hlp| | | |]; subst. cbn. rewrite list_lookup_insert by (by eapply lookup_lt_Some).
    eexists _, _. split; [done|]. split; [done|]. rewrite Hlp. apply elem_of_map_to_list. apply Hony. }
  destruct IH as [(r & l0 & Hr & Hp & Hin)|[Ht|Hlo]]; [done|done|eauto| |right; left; by right|right; right; by apply lost_cons].
  assert (forall k u p, f_requests y !! k = Some u -> k <> j -> 
    (exists r l, <[k := RState (rv_event u) p]> (f_requests y) !! j = Some r /\ rv_pc r = RSending l /\ (a, c) ∈ l) \/ LTake j a i ∈ l :: tr \/ lost i j a y1 (l :: tr)) as Hne.
  { intros k u p Hu Hne. left. rewrite list_lookup_insert_ne by done. eauto. }
  destruct Hs as [w|e|k u Hu Hpc Hf|k u Hu Hpc Hf|k u e Hu Hpc|k u d Hu Hpc Hc|k u o d Hu Hpc Hf Hc|k u o Hu Hpc Hf Hc
    |k u Hu Hpc|k u l Hu Hpc Hs Hl'|k u b d l q x Hu Hpc Hc Hx Hxp|k u b d l Hu Hpc Hc Hn|k u b d l Hu Hpc Hc|k u Hu Hpc]; cbn; try (by left; eauto).
  - left. exists r, l0. split; [by apply lookup_app_l_Some|done].
  - destruct (decide (k = j)) as [->|]; [|by apply Hne]. congruence.
  - destruct (decide (k = j)) as [->|]; [|by apply Hne]. congruence.
  - destruct (decide (k = j)) as [->|]; [|by apply Hne]. assert (u = r) as -> by congruence. assert (l0 = (b, d) :: l) as -> by congruence.
    apply elem_of_cons in Hin as [[= <- <-]|Hin].
    + right. left. destruct Hony as (Hm & v & Hv & Ha & Hp').
      assert (q = i) as ->; [|left]. apply (Hay q i x v); try done; [by rewrite Hxp; intros []|intros Hov; by destruct (wv_pc v)|].
      destruct Hok as [_ _ _ I4 _ _]. destruct (I4 _ _ _ Hx Hxp) as [_ Hy]. rewrite Ha. symmetry. by apply Hy.
    + left. rewrite list_lookup_insert by (by eapply lookup_lt_Some). eauto.
  - destruct (decide (k = j)) as [->|]; [|by apply Hne]. assert (u = r) as -> by congruence. assert (l0 = (b, d) :: l) as -> by congruence.
    apply elem_of_cons in Hin as [[= <- <-]|Hin].
    + right. right. destruct Hony as (Hm & v & Hv & Ha & Hp'). exists [], tr, y, v. split; [done|]. split; [done|]. split; [done|].
      intros [o Ho]. rewrite Ho in Hp'. subst o. rewrite Forall_lookup in Hn. by apply (Hn _ _ Hv).
    + left. rewrite list_lookup_insert by (by eapply lookup_lt_Some). eauto.
  - destruct Hok as [_ _ I3 _ I5 _]. exfalso. destruct (I3 _ Hc) as [_ Hx]. apply (Hx b). destruct (I5 _ _ _ Hu Hpc) as [_ Hy]. apply Hy. left.
  - destruct (decide (k = j)) as [->|]; [|by apply Hne]. assert (u = r) as -> by congruence. assert (l0 = []) as -> by congruence. by apply elem_of_nil in Hin.
Qed.

(** ** The lock *)
Definition held (y : fsys) : Prop := f_stuck y = false /\ forall i v, f_watches y !! i = Some v ->
  wv_pc v = WBegin \/ wv_pc v = WDone \/ (~ over (wv_pc v) /\ is_Some (f_map y !! wt_addr (wv_watch v))).
Lemma held_step y l y' : held y -> apart y -> fstep y l y' -> held y'.
Proof.
  intros [Hst Hw] Hap H.
  assert (forall k u p (m' : gmap gostr nat), f_watches y !! k = Some u -> 
    (forall i v, i <> k -> f_watches y !! i = Some v -> ~ over (wv_pc v) -> is_Some (f_map y !! wt_addr (wv_watch v)) -> is_Some (m' !! wt_addr (wv_watch v))) ->
    (p = WDone \/ ~ over p /\ is_Some (m' !! wt_addr (wv_watch u))) ->
    forall i v, <[k := WState (wv_watch u) p (wv_out u)]> (f_watches y) !! i = Some v ->
    wv_pc v = WBegin \/ wv_pc v = WDone \/ (~ over (wv_pc v) /\ is_Some (m' !! wt_addr (wv_watch v)))) as Hk.
  { intros k u p m' Hu Hm Hp i v Hi. apply insert_cases in Hi as [(-> & -> & _)|(Hne & Hi)]; [by right|].
    destruct (Hw _ _ Hi) as [?|[?|[? ?]]]; [by left|by right; left|right; right]. split; [done|]. by apply (Hm i v). }
  destruct H as [w|e|k u Hu Hpc Hf|k u Hu Hpc Hf|k u e Hu Hpc|k u d Hu Hpc Hc|k u o d Hu Hpc Hf Hc|k u o Hu Hpc Hf Hc
    |j r Hr Hpc|j r l Hr Hpc Hs Hl'|j r b d l k u Hr Hpc Hc Hu Hvp|j r b d l Hr Hpc Hc Hn|j r b d l Hr Hpc Hc|j r Hr Hpc]; try done.
  - split; [done|]. cbn. intros i v Hv. apply snoc_cases in Hv as [Hv|[_ ->]]; [by apply Hw in Hv|by left].
  - split; [done|]. cbn. apply Hk; [done| |].
    + intros i v Hne Hv Hno Hs. destruct (decide (wt_addr (wv_watch u) = wt_addr (wv_watch v))) as [->|]; [by rewrite lookup_insert|]. by rewrite lookup_insert_ne.
    + right. split; [by intros []|by rewrite lookup_insert].
  - split; [done|]. cbn. apply Hk; [done|done|]. right. split; [by intros []|]. destruct (Hw _ _ Hu) as [E|[E|[_ ?]]]; [congruence..|done].
  - split; [done|]. cbn. intros i v Hi. apply insert_cases in Hi as [(-> & -> & _)|(Hne & Hi)]; [|by apply Hw in Hi]. cbn.
    right; right. split; [by intros []|]. destruct (Hw _ _ Hu) as [E|[E|[_ ?]]]; [congruence..|done].
  - split; [done|]. cbn. apply Hk; [done|done|]. right. split; [by intros []|]. destruct (Hw _ _ Hu) as [E|[E|[_ ?]]]; [congruence..|done].
  - split; [done|]. cbn. apply Hk; [done| |by left]. intros i v Hne Hv Hno Hs. rewrite lookup_delete_ne; [done|]. intros E.
    apply Hne. apply (Hap i k v u); try done. by rewrite Hpc; intros [].
  - exfalso. destruct (Hw _ _ Hu) as [E|[E|[_ [? ?]]]]; congruence.
  - split; [done|]. cbn. apply Hk; [done|done|]. right. split; [by intros []|]. destruct (Hw _ _ Hu) as [E|[E|[_ ?]]]; [congruence..|done].
Qed.
Lemma held_runs tr y : fruns fsys0 tr y -> throughout apart fsys0 tr -> held y.
Proof.
  induction 1 as [|tr y l y' H IH Hs]; intros Hap; [done|]. pose proof (throughout_tail _ _ _ _ Hap) as Hap'.
  eapply held_step; [by apply IH|by eapply throughout_now|done].
Qed.
Lemma sending_ends l : forall y j r, okay y -> f_requests y !! j = Some r -> rv_pc r = RSending l ->
  exists tr y', fruns y tr y' /\ Forall (step_of j) tr /\ exists r', f_requests y' !! j = Some r' /\ rv_pc r' = RDone.
Proof.
  induction l as [|[a c] l IH]; intros y j r Hok Hr Hp.
  - eexists [LUnlock j], _. split; [econstructor; [constructor|by eapply f_unlock]|]. split; [by repeat constructor|].
    cbn. rewrite list_lookup_insert by (by eapply lookup_lt_Some). by eexists.
  - assert (c ∉ f_closed y) as Hc.
    { intros Hc. destruct Hok as [_ _ I3 _ I5 _]. destruct (I3 _ Hc) as [_ Hx]. apply (Hx a). destruct (I5 _ _ _ Hr Hp) as [_ Hy]. apply Hy. left. }
    assert (forall lb y', fstep y lb y' -> step_of j lb -> f_requests y' !! j = Some (RState (rv_event r) (RSending l)) ->
      exists tr y', fruns y tr y' /\ Forall (step_of j) tr /\ exists r', f_requests y' !! j = Some r' /\ rv_pc r' = RDone) as Hgo.
    { intros lb y' Hs Hlb Hr'. destruct (IH y' j _ (okay_step _ _ _ Hok Hs) Hr' eq_refl) as (tr & z & Hz & Hf & Hd).
      exists (tr ++ [lb]), z. split; [by eapply fruns_app; [econstructor; [constructor|exact Hs]|]|]. split; [|done].
      apply Forall_app. split; [done|]. by constructor. }
    assert (Forall (fun v => wv_pc v <> WSelect (Some c)) (f_watches y) \/ exists i v, f_watches y !! i = Some v /\ wv_pc v = WSelect (Some c)) as [Hn|(i & v & Hv & Hvp)].
    { generalize (f_watches y). intros ws. induction ws as [|v ws IHw]; [by left|].
      assert (wv_pc v = WSelect (Some c) \/ wv_pc v <> WSelect (Some c)) as [E|E].
      { destruct (wv_pc v) as [| |[d|]| | |]; try (by right). destruct (decide (d = c)) as [->|]; [by left|right; congruence]. }
      - right. by exists 0, v.
      - destruct IHw as [?|(i & u & ? & ?)]; [left; by constructor|right; by exists (S i), u]. }
    + eapply Hgo; [by eapply f_drop|done|]. cbn. by rewrite list_lookup_insert by (by eapply lookup_lt_Some).
    + eapply Hgo; [by eapply f_take|done|]. cbn. by rewrite list_lookup_insert by (by eapply lookup_lt_Some).
Qed.
Lemma stuck_step y l y' : f_stuck y = true -> fstep y l y' -> f_stuck y' = true.
Proof. intros Hs H. destruct H; done. Qed.
Lemma stuck_runs y tr y' : f_stuck y = true -> fruns y tr y' -> f_stuck y' = true.
Proof. intros Hs. induction 1; [done|by eapply stuck_step]. Qed.

(** ** Requests one after the other *)
Lemma busy_step y l y' k r : fstep y l y' -> f_requests y' !! k = Some r -> busy r -> l = LApply k \/ exists r0, f_requests y !! k = Some r0 /\ busy r0.
Proof.
  intros H Hr Hb.
  assert (forall j u p, f_requests y !! j = Some u -> (j = k -> l = LApply k \/ busy u) -> <[j := RState (rv_event u) p]> (f_requests y) !! k = Some r ->
    l = LApply k \/ exists r0, f_requests y !! k = Some r0 /\ busy r0) as Hk.
  { intros j u p Hu Hx Hi. apply insert_cases in Hi as [(-> & -> & _)|(_ & Hi)]; [|right; eauto]. destruct (Hx eq_refl); [by left|right; eauto]. }
  destruct H; cbn in Hr; try (by right; eauto); try (eapply Hk; [done| |done]; intros ->; try (by left); right; split; congruence).
  apply snoc_cases in Hr as [?|[_ ->]]; [right; eauto|]. by destruct Hb.
Qed.
Lemma serial_tail y0 l tr : serial y0 (l :: tr) -> serial y0 tr.
Proof. intros H tb ta j y -> Hr. by apply (H (l :: tb) ta j). Qed.
Lemma serial_takes tr1 y1 tr2 y i : fruns fsys0 tr1 y1 -> quiet y1 -> fruns y1 tr2 y -> serial y1 tr2 ->
  takes i tr2 `sublist_of` applied tr2 /\ (forall k r, f_requests y !! k = Some r -> busy r -> last (applied tr2) = Some k).
Proof.
  intros H1 Hq H. induction H as [|tr y l y' H IH Hs]; intros Hse.
  - split; [done|]. intros k r Hr Hb. by destruct (Hq _ _ Hr).
  - destruct (IH (serial_tail _ _ _ Hse)) as [Hsub Hbusy]. rewrite takes_cons, applied_cons. split.
    + destruct l as [| | | | | | |j|j l|j a k|j a|j|j]; cbn [took change]; rewrite ?app_nil_r; try done.
      { by apply sublist_inserts_r. }
      destruct (Nat.eqb_spec k i) as [->|]; [|by rewrite app_nil_r].
      assert (NoDup (takes i ((LTake j a i :: tr) ++ tr1))) as Hnd by (eapply takes_nodup, fruns_app; [exact H1|econstructor; eauto]).
      rewrite takes_app, takes_cons in Hnd. cbn [took] in Hnd. rewrite Nat.eqb_refl in Hnd. apply NoDup_app in Hnd as (_ & _ & Hnd).
      apply NoDup_app in Hnd as (_ & Hnd & _).
      assert (last (applied tr) = Some j) as Hl.
      { inversion Hs as [| | | | | | | | | |k u b c l i' v Hu Hpc Hc Hv Hvp| | |]; subst. apply (Hbusy _ u); [done|]. split; congruence. }
      apply last_Some in Hl as [js E]. rewrite E in Hsub |- *. apply sublist_app; [|done]. eapply sublist_snoc_notin; [done|].
      intros Hj. apply (Hnd _ Hj). left.
    + intros k r Hr Hb. destruct (busy_step _ _ _ _ _ Hs Hr Hb) as [->|(r0 & Hr0 & Hb0)].
      * cbn [change]. by rewrite last_snoc.
      * specialize (Hbusy _ _ Hr0 Hb0). destruct l as [| | | | | | |j|j l|j a q|j a|j|j]; cbn [change]; rewrite ?app_nil_r; try done.
        exfalso. by apply (Hse [] tr j y eq_refl H _ _ Hr0).
Qed.
Lemma sublist_eq {A} (l k : list A) : l `sublist_of` k -> NoDup k -> (forall x, x ∈ k -> x ∈ l) -> l = k.
Proof.
  induction 1 as [|x l k H IH|x l k H IH]; [done| |]; intros [Hx Hk]%NoDup_cons Hin.
  - f_equal. apply IH; [done|]. intros z Hz. assert (z ∈ x :: l) as [->|?]%elem_of_cons by (apply Hin; by right); done.
  - exfalso. apply Hx. eapply sublist_in; [exact H|]. apply Hin. left.
Qed.
(** A request that is answered has sent. *)
Lemma locked_run y1 tr y j r : quiet y1 -> fruns y1 tr y -> f_requests y !! j = Some r -> LApply j ∈ tr -> rv_pc r <> RApplied -> exists l, LLock j l ∈ tr.
Proof.
  intros Hq H. revert r. induction H as [|tr y l y' H IH Hs]; intros r Hr Hj Hp; [by apply elem_of_nil in Hj|].
  assert (LApply j ∈ tr -> (exists l0, LLock j l0 ∈ l :: tr) \/ exists r0, f_requests y !! j = Some r0 /\ rv_pc r0 = RApplied) as Hcase.
  { intros Hin. destruct (applied_begun _ _ _ _ H Hin) as (r0 & Hr0 & _).
    assert (rv_pc r0 = RApplied \/ rv_pc r0 <> RApplied) as [E|E] by (destruct (rv_pc r0); auto); [right; eauto|].
    destruct (IH _ Hr0 Hin E) as [l0 Hl0]. left. exists l0. by right. }
  apply elem_of_cons in Hj as [<-|Hj].
  { inversion Hs; subst. cbn in Hr. rewrite list_lookup_insert in Hr by (by eapply lookup_lt_Some). injection Hr as <-. by destruct Hp. }
  destruct (Hcase Hj) as [?|(r0 & Hr0 & E)]; [done|]. clear Hcase.
  assert (forall k u p, f_requests y !! k = Some u -> <[k := RState (rv_event u) p]> (f_requests y) !! j = Some r -> k = j \/ r = r0) as Hk.
  { intros k u p Hu Hi. apply insert_cases in Hi as [(-> & _)|(_ & Hi)]; [by left|right; congruence]. }
  destruct Hs as [w|e|k u Hu Hpc Hf|k u Hu Hpc Hf|k u e Hu Hpc|k u d Hu Hpc Hc|k u o d Hu Hpc Hf Hc|k u o Hu Hpc Hf Hc
    |k u Hu Hpc|k u l Hu Hpc Hs Hl'|k u b d l q x Hu Hpc Hc Hx Hxp|k u b d l Hu Hpc Hc Hn|k u b d l Hu Hpc Hc|k u Hu Hpc]; cbn in Hr; try congruence.
  - apply snoc_cases in Hr as [Hr|[-> _]]; [congruence|]. apply lookup_lt_Some in Hr0. lia.
  - destruct (Hk _ _ _ Hu Hr) as [->| ->]; congruence.
  - destruct (Hk _ _ _ Hu Hr) as [->| ->]; [|congruence]. exists l. left.
  - destruct (Hk _ _ _ Hu Hr) as [->| ->]; congruence.
  - destruct (Hk _ _ _ Hu Hr) as [->| ->]; congruence.
  - destruct (Hk _ _ _ Hu Hr) as [->| ->]; congruence.
  - destruct (Hk _ _ _ Hu Hr) as [->| ->]; congruence.
Qed.

(** ** A watch that waits *)
Lemma patient_tail i y0 l tr : patient i y0 (l :: tr) -> patient i y0 tr.
Proof. intros H tb ta j y v -> Hr. by apply (H (l :: tb) ta j). Qed.
Definition expected (i : nat) (a : gostr) (c : nat) (y : fsys) : Prop := forall k r v, f_requests y !! k = Some r -> f_watches y !! i = Some v ->
  (rv_pc r = RApplied \/ exists l, rv_pc r = RSending l /\ (a, c) ∈ l) -> wv_pc v = WSelect (Some c).
Lemma expected_run tr1 y1 tr2 y i a c : fruns fsys0 tr1 y1 -> quiet y1 -> on i a c y1 -> fruns y1 tr2 y -> throughout apart y1 tr2 -> serial y1 tr2 ->
  patient i y1 tr2 -> LTimeout i ∉ tr2 -> expected i a c y /\ forall j, LDrop j a ∉ tr2.
Proof.
  intros H1 Hq Hon H. induction H as [|tr y l y' H IH Hs]; intros Hap Hse Hpa Hto.
  { split; [|intros j; apply not_elem_of_nil]. intros k r v Hr Hv Hp. exfalso. apply (Hq _ _ Hr). split; naive_solver congruence. }
  pose proof (throughout_tail _ _ _ _ Hap) as Hap'. apply not_elem_of_cons in Hto as [Hl Hto].
  assert (on i a c y) as Hony by (by eapply on_run). assert (apart y) as Hay by (by eapply throughout_now).
  assert (okay y) as Hok by (eapply okay_runs, fruns_app; eauto). pose proof Hok as [I1 I2 I3 I4 I5 I6].
  destruct (IH Hap' (serial_tail _ _ _ Hse) (patient_tail _ _ _ _ Hpa) Hto) as [He Hd].
  pose proof (proj2 (serial_takes _ _ _ _ i H1 Hq H (serial_tail _ _ _ Hse))) as Hlast.
  destruct Hony as (Hm & w & Hw & Ha & Hpw).
  assert (forall k u p b, f_watches y !! k = Some u -> (k = i -> wv_pc u <> WSelect (Some c)) ->
    expected i a c (FSys (f_map y) (f_next y) (f_closed y) b (<[k := WState (wv_watch u) p (wv_out u)]> (f_watches y)) (f_requests y))) as Hwk.
  { intros k u p b Hu Hne q r v Hr Hv Hp. cbn in Hr, Hv. apply insert_cases in Hv as [(-> & -> & _)|(Hki & Hv)]; [|by apply (He q r)].
    exfalso. by apply (Hne eq_refl), (He q r). }
  assert (forall k u p, f_requests y !! k = Some u -> (p = RApplied -> False) -> (forall l, p = RSending l -> (a, c) ∈ l -> wv_pc w = WSelect (Some c)) ->
    expected i a c (set_request k u p y)) as Hrk.
  { intros k u p Hu Hp1 Hp2 q r v Hr Hv Hp. cbn in Hr, Hv. apply insert_cases in Hr as [(-> & -> & _)|(_ & Hr)]; [|by apply (He q r)].
    assert (v = w) as -> by congruence. destruct Hp as [?|(l0 & ? & ?)]; [done|by eapply Hp2]. }
  assert (forall k u, f_requests y !! k = Some u -> (rv_pc u = RApplied \/ exists l, rv_pc u = RSending l /\ (a, c) ∈ l) -> wv_pc w = WSelect (Some c)) as Hex.
  { intros k u Hu Hp. by apply (He k u). }
  destruct Hs as [x|e|k u Hu Hpc Hf|k u Hu Hpc Hf|k u e Hu Hpc|k u d Hu Hpc Hc|k u o d Hu Hpc Hf Hc|k u o Hu Hpc Hf Hc
    |k u Hu Hpc|k u l Hu Hpc Hs Hl'|k u b d l q x Hu Hpc Hc Hx Hxp|k u b d l Hu Hpc Hc Hn|k u b d l Hu Hpc Hc|k u Hu Hpc];
    try (split; [|intros j [?|?]%elem_of_cons; [done|by eapply Hd]]).
  - intros q r v Hr Hv Hp. cbn in Hr, Hv. apply snoc_cases in Hv as [?|[Hi _]]; [by apply (He q r)|]. apply lookup_lt_Some in Hw. lia.
  - intros q r v Hr Hv Hp. cbn in Hr, Hv. apply snoc_cases in Hr as [?|[_ ->]]; [by apply (He q r)|]. destruct Hp as [?|(? & ? & _)]; done.
  - intros q r v Hr Hv Hp. cbn in Hr, Hv. eapply (Hwk k u WTop (f_stuck y) Hu); [|exact Hr|exact Hv|exact Hp]. congruence.
  - apply Hwk; [done|congruence].
  - intros q r v Hr Hv Hp. cbn in Hr, Hv. apply insert_cases in Hv as [(-> & -> & _)|(Hki & Hv)]; [|by apply (He q r)].
    exfalso. pose proof (He q r u Hr Hu Hp). congruence.
  - apply Hwk; [done|]. intros -> E. assert (d = c) as -> by congruence. destruct (I3 _ Hc) as [_ Hx]. by apply (Hx a).
  - intros q r v Hr Hv Hp. cbn in Hr, Hv. apply insert_cases in Hv as [(-> & -> & _)|(Hki & Hv)]; [done|]. by apply (He q r).
  - intros q r v Hr Hv Hp. cbn in Hr, Hv. apply insert_cases in Hv as [(-> & -> & _)|(Hki & Hv)]; [done|]. by apply (He q r).
  - intros q r v Hr Hv Hp. cbn in Hr, Hv. assert (v = w) as -> by congruence.
    destruct (Hpa [] tr k y w eq_refl H Hw) as [o Ho]. rewrite Ho in Hpw. by rewrite Ho, Hpw.
  - apply Hrk; [done|done|]. intros ? _ _. apply (Hex k u Hu). by left.
  - assert (busy u) as Hbu by (split; congruence). pose proof (Hlast _ _ Hu Hbu) as Hlk.
    destruct (I5 _ _ _ Hu Hpc) as [Hnd Hin].
    destruct (decide (q = i)) as [->|Hqi].
    + assert (x = w) as -> by congruence. rewrite Hxp in Hpw. injection Hpw as ->.
      assert (b = a) as ->. { apply (I1 b a c); [|done]. apply Hin. left. }
      intros z r v Hr Hv Hp. exfalso. cbn in Hr, Hv. apply insert_cases in Hr as [(-> & -> & _)|(Hkz & Hr)].
      * destruct Hp as [?|(l0 & [= <-] & Hi)]; [done|]. cbn in Hnd. apply NoDup_cons in Hnd as [Hnd _]. apply Hnd. apply elem_of_list_fmap. by exists (a, c).
      * apply Hkz. assert (busy r) as Hbr by (split; naive_solver congruence). specialize (Hlast _ _ Hr Hbr). congruence.
    + intros z r v Hr Hv Hp. cbn in Hr, Hv. rewrite list_lookup_insert_ne in Hv by done.
      apply insert_cases in Hr as [(-> & -> & _)|(Hkz & Hr)]; [|by apply (He z r)].
      assert (v = w) as -> by congruence. apply (Hex z u Hu). right. destruct Hp as [?|(l0 & [= <-] & Hi)]; [done|]. exists ((b, d) :: l). split; [done|]. by right.
  - destruct (I5 _ _ _ Hu Hpc) as [Hnd Hin]. split.
    + apply Hrk; [done|done|]. intros ? [= <-] Hi. apply (Hex k u Hu). right. exists ((b, d) :: l). split; [done|]. by right.
    + intros j [[= <- <-]|?]%elem_of_cons; [|by eapply Hd].
      assert (d = c) as ->. { assert (f_map y !! a = Some d) by (apply Hin; left). congruence. }
      rewrite Forall_lookup in Hn. apply (Hn _ _ Hw), (Hex _ u Hu). right. exists ((a, c) :: l). split; [done|]. left.
  - exfalso. destruct (I3 _ Hc) as [_ Hx]. apply (Hx b). destruct (I5 _ _ _ Hu Hpc) as [_ Hy]. apply Hy. left.
  - by apply Hrk.
Qed.
(** Before it is registered a watch has nothing. *)
Lemma begin_none tr y i v : fruns fsys0 tr y -> f_watches y !! i = Some v -> wv_pc v = WBegin -> takes i tr = [].
Proof.
  intros H. revert v. induction H as [|tr y l y' H IH Hs]; intros v Hv Hp; [done|]. rewrite takes_cons.
  assert (forall j a, LTake j a i ∉ tr) as Hno.
  { intros j a Ht. destruct (take_addr _ _ _ _ _ H Ht) as (u & Hu & _).
    assert (forall k x p, f_watches y !! k = Some x -> p <> WBegin -> <[k := WState (wv_watch x) p (wv_out x)]> (f_watches y) !! i = Some v -> f_watches y !! i = Some v) as Hk.
    { intros k x p Hx Hpp Hi. apply insert_cases in Hi as [(-> & -> & _)|(_ & Hi)]; [by destruct Hpp|done]. }
    assert (f_watches y !! i = Some v) as Hvy.
    { destruct Hs; cbn in Hv; eauto; try (by eapply Hk; [| |exact Hv]).
      - apply snoc_cases in Hv as [?|[-> _]]; [done|]. apply lookup_lt_Some in Hu. lia.
      - apply insert_cases in Hv as [(-> & -> & _)|(_ & Hi)]; [done|done]. }
    assert (j ∈ takes i tr) as Hj by (apply elem_takes; eauto). rewrite (IH _ Hvy Hp) in Hj. by apply elem_of_nil in Hj. }
  assert (takes i tr = []) as ->.
  { destruct (takes i tr) as [|j js] eqn:E; [done|]. assert (j ∈ takes i tr) as [a Ha]%elem_takes by (rewrite E; left). by destruct (Hno j a). }
  destruct l; try done. cbn. destruct (Nat.eqb_spec i0 i) as [->|]; [|done]. exfalso.
  inversion Hs as [| | | | | | | | | |k u b c l i' x Hu Hpc Hc Hx Hvp| | |]; subst. cbn in Hv.
  rewrite list_lookup_insert in Hv by (by eapply lookup_lt_Some). injection Hv as <-. done.
Qed.
Lemma register_on tr y i : fruns fsys0 (LRegister i :: tr) y -> exists v, f_watches y !! i = Some v /\ on i (wt_addr (wv_watch v)) (f_next y - 1) y /\ takes i tr = [].
Proof.
  intros H. inversion H as [|? z ? ? H1 Hs]; subst. inversion Hs as [| |k v Hv Hpc Hf| | | | | | | | | | |]; subst. cbn.
  rewrite list_lookup_insert by (by eapply lookup_lt_Some). eexists. split; [done|]. split; [|by eapply begin_none].
  split; cbn; [rewrite lookup_insert; f_equal; lia|]. rewrite list_lookup_insert by (by eapply lookup_lt_Some). by eexists.
Qed.
