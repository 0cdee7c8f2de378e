(** C82: what the metrics page says about reloads. *)
From Coq Require Import Ascii String NArith ZArith Lia.
From stdpp Require Import base gmap strings list.
From Verif Require Import ModelStr ProofsStr ModelJson ModelStore ModelProxy ModelObjType ModelWatcher ModelReload ModelCounters SpecReload ProofsReload PropsReload.

(** ** Specification *)
(** The number on the metrics page for a status; a series that is not there counts as 0, as in a sum over time. *)
Definition shown (x : msys) (status : gostr) : nat := match ms_reloads x !! status with Some n => n | None => 0 end.
Definition successes (x : msys) : nat := shown x (str "success").
Definition failures (x : msys) : nat := shown x (str "failed").
(** The numbers of the loads whose configuration, clients or store a request has read. *)
Definition reads_of (q : req) (n : nat) : Prop :=
  q_token1 q = Some n \/ q_token2 q = Some n \/ n ∈ q_later q \/ q_clients q = Some n \/ q_store q = Some n.
(** Load number [n] was made from the files as they were when a reload began in [tr]. *)
Definition loaded_in (kube file : gostr) (tr : list slabel) (x : msys) (n : nat) : Prop :=
  exists W ld, SBegin W ∈ tr /\ p_loads (s_proc (ms_sys x)) !! n = Some ld /\ loads_as W kube file ld.
(** Infinite executions; [None]: nothing happens. *)
Definition mexecution (E : env) (cf : bool) (kube file : gostr) (ld : loaded) (xs : nat -> msys) (ls : nat -> option slabel) : Prop :=
  xs 0 = mstarted ld /\
  forall t, match ls t with Some l => mstep E cf kube file (xs t) l (xs (S t)) | None => xs (S t) = xs t end.
(** The goroutine that reloads is never left alone for ever in the middle of a reload. *)
Definition reload_goes_on (xs : nat -> msys) (ls : nat -> option slabel) : Prop :=
  forall t, exists t', t <= t' /\ (s_reload (ms_sys (xs t')) = None \/ ls t' = Some SFail \/ ls t' = Some SDone \/ exists i, ls t' = Some (SDo i)).

(** ** Lemmas *)
(** What is left to do of a reload. *)
Fixpoint rest_of (p : prog loaded) : nat := match p with Do _ p' => S (rest_of p') | _ => 0 end.
Definition left_over (y : sys) : nat := match s_reload y with Some p => rest_of p | None => 0 end.
Lemma shown_inc y m u v v' : shown (MSys y (inc v m) u) v' = (if decide (v = v') then S (shown (MSys y m u) v') else shown (MSys y m u) v').
Proof.
  unfold shown, inc. cbn [ms_reloads]. destruct (decide (v = v')) as [<-|Hne].
  - rewrite lookup_insert. by destruct (m !! v).
  - by rewrite lookup_insert_ne by done.
Qed.
Lemma success_failed : str "success" <> str "failed".
Proof. discriminate. Qed.
(** All assignments of the loads counted have been made; one more may have been made and not be counted yet. *)
Definition at_count (x : msys) : Prop :=
  at_phase (s_proc (ms_sys x)) (s_reload (ms_sys x)) (match s_reload (ms_sys x) with Some (Ret _) => S (successes x) | _ => successes x end).

Section counters.
  Context (E : env) (cf : bool) (kube file : gostr).
  Local Notation mstep := (mstep E cf kube file).
  Local Notation mruns := (mruns E cf kube file).
  Local Notation sruns := (sruns E cf kube file).

  Lemma mruns_sys x tr x' : mruns x tr x' -> sruns (ms_sys x) tr (ms_sys x').
  Proof. induction 1 as [|tr x1 l x2 _ IH Hs]; [constructor|]. econstructor; [exact IH|]. by destruct Hs. Qed.
  Lemma mruns_app x tr x1 tr' x2 : mruns x tr x1 -> mruns x1 tr' x2 -> mruns x (tr' ++ tr) x2.
  Proof. intros H. induction 1; [done|]. by eapply mruns_cons. Qed.
  Lemma inv_mruns x tr x' : inv E (ms_sys x) -> mruns x tr x' -> inv E (ms_sys x').
  Proof. intros Hi Hr%mruns_sys. by eapply inv_runs'. Qed.
  Lemma step_counts x l x' : mstep x l x' ->
    successes x' = successes x + match l with SDone => 1 | _ => 0 end /\
    failures x' = failures x + match l with SFail => 1 | _ => 0 end.
  Proof.
    intros [y l' y' m u Hs]. unfold successes, failures. destruct l'; cbn [count]; try (by split; unfold shown; cbn; lia).
    - rewrite !shown_inc. rewrite decide_False, decide_True by (done || by intros H%eq_sym%success_failed). unfold shown. cbn. lia.
    - rewrite !shown_inc. rewrite decide_True, decide_False by (done || exact success_failed). unfold shown. cbn. lia.
  Qed.
  Lemma at_count_step x l x' : inv E (ms_sys x) -> at_count x -> mstep x l x' -> at_count x'.
  Proof.
    intros Hi Hc Hm. destruct (step_counts _ _ _ Hm) as [Hs _]. unfold at_count in *. set (a := successes x) in *. rewrite Hs. clearbody a. clear Hs.
    destruct Hm as [y l' y' m u Hstep]. cbn [ms_sys] in *. destruct Hi as [Hg _ _ _].
    destruct Hstep as [s W qs|s qs|s ld qs|s i p qs|s r qs k ld w i l w' Hl Hw Hact|s r qs rq h|s r qs i b q q' Hq Ha]; cbn [s_proc s_reload] in *; rewrite ?Nat.add_0_r.
    - destruct (reload_cases W kube file) as [->|[ld ->]]; exact Hc.
    - exact Hc.
    - rewrite Nat.add_1_r. exact Hc.
    - assert (exists ph, Some (Do i p) = phase_prog ph) as [ph Hph] by done.
      destruct ph as [| |ld|ld|ld|ld|ld|ld]; cbn in Hph; try discriminate Hph; injection Hph as -> ->; cbn in Hc |- *; unfold newest.
      + destruct Hc as (H1 & H2 & H3 & H4 & H5 & H6). rewrite app_length, H1. cbn. split; [|repeat split; lia]. rewrite <- H1. by apply list_lookup_middle.
      + destruct Hc as (H0 & H1 & H2 & H3 & H4 & H5 & H6). rewrite app_length, H2. cbn. repeat split; lia.
      + rewrite alter_length. exact Hc.
      + destruct Hc as (H1 & H2 & H3 & H4 & H5 & H6). rewrite H2. repeat split; done.
      + destruct Hc as (H1 & H2 & H3 & H4 & H5 & H6). rewrite H2. repeat split; done.
      + destruct Hc as (H1 & H2 & H3 & H4 & H5 & H6). rewrite H1. repeat split; done.
    - unfold at_phase in *. cbn [p_loads p_systems p_conf p_watcher p_store p_clients]. rewrite insert_length. exact Hc.
    - exact Hc.
    - exact Hc.
  Qed.
  Lemma at_count_runs ld tr x : mruns (mstarted ld) tr x -> inv E (ms_sys x) /\ at_count x.
  Proof.
    intros Hr. induction Hr as [|tr x1 l x2 Hr [Hi Hc] Hs].
    - split; [apply inv_started|]. by repeat split.
    - split; [destruct Hs; by eapply inv_step|]. by eapply at_count_step.
  Qed.
  Lemma count_bounds x : at_count x ->
    successes x <= p_clients (s_proc (ms_sys x)) /\ successes x <= p_store (s_proc (ms_sys x)) /\ successes x <= p_conf (s_proc (ms_sys x)) /\
    successes x <= p_watcher (s_proc (ms_sys x)).
  Proof. unfold at_count. destruct (s_reload (ms_sys x)) as [[|ld|[] p]|]; cbn; lia. Qed.
  Lemma counts_mono x tr x' : mruns x tr x' -> successes x <= successes x' /\ failures x <= failures x'.
  Proof. induction 1 as [|tr x1 l x2 _ [I1 I2] Hs]; [lia|]. destruct (step_counts _ _ _ Hs) as [-> ->]. lia. Qed.

  (** ** C82 *)
  (** Every reload that began is counted once, as a success or a failure, when it has ended. *)
  Theorem C82_rounds (ld : loaded) (tr : list slabel) (x : msys) :
    mruns (mstarted ld) tr x -> successes x + failures x + busy (ms_sys x) = begins tr.
  Proof.
    intros Hr. induction Hr as [|tr x1 l x2 Hr IH Hs]; [done|].
    destruct (step_counts _ _ _ Hs) as [-> ->]. unfold begins in *. destruct Hs as [y l y' m u Hs].
    destruct Hs; unfold busy in *; cbn [ms_sys s_reload List.filter length] in *; lia.
  Qed.
  (** The counters never go down. *)
  Theorem C82_monotone (x x' : msys) (tr : list slabel) :
    mruns x tr x' -> successes x <= successes x' /\ failures x <= failures x'.
  Proof. apply counts_mono. Qed.
  (** While no reload is under way, the number of successes is the number of the load in use; the first load is
      number 0, and there are no others. *)
  Theorem C82_idle (ld : loaded) (tr : list slabel) (x : msys) :
    mruns (mstarted ld) tr x -> s_reload (ms_sys x) = None ->
    handles (ms_sys x) = (successes x, successes x, successes x, successes x) /\
    length (p_loads (s_proc (ms_sys x))) = successes x + 1.
  Proof.
    intros Hr Hn. destruct (at_count_runs _ _ _ Hr) as [_ Hc]. unfold at_count in Hc. rewrite Hn in Hc. cbn in Hc.
    destruct Hc as (H1 & H2 & H3 & H4 & H5 & H6). unfold handles. rewrite H3, H4, H5, H6. split; [done|lia].
  Qed.
  (** A request that arrives after the page has shown [n] successes works with the n-th load or a later one,
      whatever it reads and however many reloads come in between. *)
  Theorem C82_wait (ld : loaded) (tr tr' tr'' : list slabel) (xs xa xb x : msys) (rq : bool) (h : gostr) (q : req) (n : nat) :
    mruns (mstarted ld) tr xs -> mruns xs tr' xa -> mstep xa (SArrive rq h) xb -> mruns xb tr'' x ->
    s_reqs (ms_sys x) !! length (s_reqs (ms_sys xa)) = Some q -> reads_of q n -> successes xs <= n.
  Proof.
    intros H1 H2 H3 H4 Hq Hn. pose proof (mruns_app _ _ _ _ _ H1 H2) as H12. destruct (at_count_runs _ _ _ H12) as [Hi Hc].
    destruct (count_bounds _ Hc) as (B1 & B2 & B3 & _). pose proof (proj1 (counts_mono _ _ _ H2)) as Hm.
    inversion H3 as [ya l yb m u Hs]; subst. pose proof (inv_step _ _ _ _ _ _ _ Hi Hs) as Hi'. inversion Hs; subst. cbn [ms_sys s_reqs s_proc] in *.
    apply mruns_sys in H4. destruct (sees_runs E cf kube file _ _ _ _ Hi' (sees_new cf _ _ _ _ _ _ eq_refl) H4) as (q' & Hq' & S1 & S2 & S3 & _).
    cbn [ms_sys s_proc] in *. assert (q' = q) as -> by congruence.
    destruct Hn as [Hn|[Hn|[Hn|[Hn|Hn]]]]; [specialize (S3 n ltac:(auto))|specialize (S3 n ltac:(auto))|specialize (S3 n ltac:(auto))|specialize (S1 n Hn)|specialize (S2 n Hn)]; lia.
  Qed.

  (** Loads after the one that may have been under way in [xa] began after [xa]. *)
  Lemma reload_loads W : match reload W kube file with Do (IConf ld) _ => loads_as W kube file ld | Do _ _ => False | Ret _ => False | Fail => True end.
  Proof.
    unfold reload. destruct (C63_load W kube file) as [(ld & -> & Hl)|[-> _]]; [exact Hl|done].
  Qed.
  Definition since (tr : list slabel) (bound : nat) (x : msys) : Prop :=
    (forall n ld, bound <= n -> p_loads (s_proc (ms_sys x)) !! n = Some ld -> exists W, SBegin W ∈ tr /\ loads_as W kube file ld) /\
    (forall ld p, s_reload (ms_sys x) = Some (Do (IConf ld) p) -> (exists W, SBegin W ∈ tr /\ loads_as W kube file ld) \/ length (p_loads (s_proc (ms_sys x))) < bound).
  Lemma since_start x : at_count x -> since [] (successes x + busy (ms_sys x) + 1) x.
  Proof.
    intros Hc. unfold at_count in Hc. split.
    - intros n ld Hn Hl%lookup_lt_Some. exfalso. unfold busy in Hn. destruct (s_reload (ms_sys x)) as [[|ld'|[] p]|]; cbn in Hc; lia.
    - intros ld p Hp. right. unfold busy. rewrite Hp in *. cbn in Hc. lia.
  Qed.
  Lemma since_step tr b x l x' : inv E (ms_sys x) -> since tr b x -> mstep x l x' -> since (l :: tr) b x'.
  Proof.
    intros [Hg _ _ _] [S1 S2] Hm. destruct Hm as [y l' y' m u Hstep]. cbn [ms_sys] in *.
    assert (forall ld, (exists W, SBegin W ∈ tr /\ loads_as W kube file ld) -> exists W, SBegin W ∈ l' :: tr /\ loads_as W kube file ld) as Hw.
    { intros ld (W & HW & Hl). exists W. split; [by right|done]. }
    destruct Hstep as [s W qs|s qs|s ld qs|s i p qs|s r qs k ld w i l w' Hl Hwk Hact|s r qs rq h|s r qs i c q q' Hq Ha]; cbn [s_proc s_reload] in *.
    all: split; cbn [ms_sys s_proc s_reload].
    all: try (intros n ldn Hn Hln; apply Hw; by eapply S1).
    all: try (intros ldn pn Hp; destruct (S2 ldn pn Hp) as [?|?]; [left; by apply Hw|by right]).
    - intros ldn pn [= Hp]. left. exists W. split; [by left|]. pose proof (reload_loads W) as HH. by rewrite Hp in HH.
    - done.
    - done.
    - intros n ldn Hn Hln. destruct i; cbn [do_instr p_loads] in Hln; try (apply Hw; by eapply S1).
      apply lookup_snoc in Hln as [Hln|[-> <-]]; [apply Hw; by eapply S1|].
      destruct (S2 _ _ eq_refl) as [?|?]; [by apply Hw|lia].
    - intros ldn pn [= Hp]. exfalso. assert (exists ph, Some (Do i p) = phase_prog ph) as [ph Hph] by done. subst p. destruct ph; cbn in Hph; discriminate Hph.
  Qed.
  Lemma since_runs b x tr x' : inv E (ms_sys x) -> since [] b x -> mruns x tr x' -> since tr b x'.
  Proof.
    intros Hi Hs Hr. induction Hr as [|tr x1 l x2 Hr IH Hstep]; [done|]. eapply since_step; [by eapply inv_mruns|exact IH|exact Hstep].
  Qed.
  (** What a request reads is there. *)
  Lemma count_length x : at_count x -> p_clients (s_proc (ms_sys x)) < length (p_loads (s_proc (ms_sys x))) /\
    p_store (s_proc (ms_sys x)) < length (p_loads (s_proc (ms_sys x))) /\ p_conf (s_proc (ms_sys x)) < length (p_loads (s_proc (ms_sys x))).
  Proof. unfold at_count. destruct (s_reload (ms_sys x)) as [[|ld|[] p]|]; cbn; lia. Qed.
  (** The files are changed in [xe].  Once there is one more success than then, or two if a reload was under way
      then, a request that arrives works only with what was loaded from the files as they were after [xe]. *)
  Theorem C82_fresh (ld : loaded) (tr tr1 tr2 : list slabel) (xe xa xb x : msys) (rq : bool) (h : gostr) (q : req) (n : nat) :
    mruns (mstarted ld) tr xe -> mruns xe tr1 xa -> successes xe + busy (ms_sys xe) + 1 <= successes xa ->
    mstep xa (SArrive rq h) xb -> mruns xb tr2 x ->
    s_reqs (ms_sys x) !! length (s_reqs (ms_sys xa)) = Some q -> reads_of q n ->
    loaded_in kube file (tr2 ++ [SArrive rq h] ++ tr1) x n.
  Proof.
    intros H1 H2 Hb H3 H4 Hq Hn. pose proof (mruns_app _ _ _ _ _ H1 H2) as H12.
    pose proof (C82_wait _ _ _ _ _ _ _ _ _ _ _ _ H12 (mruns_nil _ _ _ _ _) H3 H4 Hq Hn) as Hw.
    pose proof (mruns_cons _ _ _ _ _ _ _ _ _ H2 H3) as H23. pose proof (mruns_app _ _ _ _ _ H23 H4) as Hall.
    pose proof (mruns_app _ _ _ _ _ H1 Hall) as Hall0. destruct (at_count_runs _ _ _ H1) as [Hie Hce].
    destruct (since_runs _ _ _ _ Hie (since_start _ Hce) Hall) as [S1 _]. destruct (at_count_runs _ _ _ Hall0) as [Hi Hc].
    assert (is_Some (p_loads (s_proc (ms_sys x)) !! n)) as [ldn Hln].
    { apply lookup_lt_is_Some_2. destruct (count_length _ Hc) as (L1 & L2 & L3).
      destruct (at_count_runs _ _ _ (mruns_cons _ _ _ _ _ _ _ _ _ H12 H3)) as [Hib _]. inversion H3 as [ya l yb m u Hs]; subst. inversion Hs; subst. cbn [ms_sys s_reqs s_proc] in *.
      apply mruns_sys in H4. destruct (sees_runs E cf kube file _ _ _ _ Hib (sees_new cf _ _ _ _ _ _ eq_refl) H4) as (q' & Hq' & T1 & T2 & T3 & _).
      cbn [ms_sys s_proc] in *. assert (q' = q) as -> by congruence.
      destruct Hn as [Hn|[Hn|[Hn|[Hn|Hn]]]]; [specialize (T3 n ltac:(auto))|specialize (T3 n ltac:(auto))|specialize (T3 n ltac:(auto))|specialize (T1 n Hn)|specialize (T2 n Hn)]; lia. }
    destruct (S1 n ldn ltac:(lia) Hln) as (W & HW & Hl). exists W, ldn. split; [exact HW|]. split; [exact Hln|exact Hl].
  Qed.
  (** The reload begun with [W] succeeds with [ld'] as load number [S a]. *)
  Definition under (a : nat) (ld' : loaded) (x : msys) : Prop :=
    s_reload (ms_sys x) = Some (Do (IConf ld') (Do (IBuild ld') (tail4 ld'))) /\ length (p_loads (s_proc (ms_sys x))) = S a \/
    p_loads (s_proc (ms_sys x)) !! S a = Some ld'.
  Lemma under_step a ld' x l x' : inv E (ms_sys x) -> mstep x l x' -> (match l with SBegin _ | SFail | SDone => False | _ => True end) -> under a ld' x -> under a ld' x'.
  Proof.
    intros Hi Hm Hl [[Hp Hn]|Hld].
    - destruct Hm as [y l' y' m u Hs]. unfold under. cbn [ms_sys] in *. destruct Hs; cbn [s_reload s_proc p_loads] in *; try done; try (by left).
      injection Hp as -> ->. right. cbn [do_instr p_loads]. rewrite <- Hn. by apply list_lookup_middle.
    - right. destruct Hm as [y l' y' m u Hs]. cbn [ms_sys] in *. destruct (mono_step _ _ _ _ _ _ _ Hi Hs) as (_ & _ & _ & Hpre). destruct Hpre as [k ->]. by apply lookup_app_l_Some.
  Qed.
  (** The counter tells how a reload went: a failure means that the files cannot be loaded and leaves everything
      as it was, a success that everything in use is what the files say. *)
  Theorem C82_outcome (ld : loaded) (tr tr' : list slabel) (x0 x1 x2 x3 : msys) (W : world) (l : slabel) :
    mruns (mstarted ld) tr x0 -> mstep x0 (SBegin W) x1 -> mruns x1 tr' x2 -> same_round tr' -> l = SFail \/ l = SDone -> mstep x2 l x3 ->
    (failures x3 = failures x0 + 1 /\ successes x3 = successes x0 /\ handles (ms_sys x3) = handles (ms_sys x0) /\ forall ld', ~ loads_as W kube file ld') \/
    (failures x3 = failures x0 /\ successes x3 = successes x0 + 1 /\
     exists ld', loads_as W kube file ld' /\ p_loads (s_proc (ms_sys x3)) !! successes x3 = Some ld' /\
       handles (ms_sys x3) = (successes x3, successes x3, successes x3, successes x3)).
  Proof.
    intros H0 H1 H2 Hsame Hl H3. destruct (at_count_runs _ _ _ H0) as [Hi0 Hc0].
    destruct (step_counts _ _ _ H1) as [C1 C1']. destruct (step_counts _ _ _ H3) as [C3 C3'].
    assert (successes x2 = successes x1 /\ failures x2 = failures x1) as [C2 C2'].
    { clear -H2 Hsame. induction H2 as [|tr xx k xy Hr IH Hs]; [done|]. destruct IH as [I1 I2]; [intros k' Hk; apply Hsame; by right|].
      destruct (step_counts _ _ _ Hs) as [-> ->]. specialize (Hsame k ltac:(left)). destruct k; try done; lia. }
    pose proof (mruns_app _ _ _ _ _ (mruns_cons _ _ _ _ _ _ _ _ _ H0 H1) H2) as H012.
    pose proof (mruns_cons _ _ _ _ _ _ _ _ _ H012 H3) as H0123.
    assert (s_reload (ms_sys x3) = None) as Hn3 by (destruct Hl as [-> | ->]; inversion H3 as [y ? y' m u Hs]; subst; by inversion Hs).
    inversion H1 as [y0 ? y1 m0 u0 Hs1]; subst. inversion Hs1; subst. cbn [ms_sys] in *.
    pose proof (mruns_sys _ _ _ H2) as H2s. cbn [ms_sys] in H2s.
    destruct (round_fails E cf kube file (Sys s (Some (reload W kube file)) qs) _ _ (reload W kube file) Hsame eq_refl H2s) as (p2 & Hp2 & Hf).
    destruct (C63_load W kube file) as [(ld' & Hload & Hlas)|[Hload Hno]].
    - assert (reload W kube file = Do (IConf ld') (Do (IBuild ld') (tail4 ld'))) as Hrel by (unfold reload; by rewrite Hload).
      assert (l = SDone) as ->.
      { destruct Hl as [-> |]; [|done]. exfalso. inversion H3 as [y ? y' m u Hs]; subst. inversion Hs; subst. cbn in Hp2. injection Hp2 as <-.
        rewrite Hrel in Hf. cbn in Hf. by apply Hf. }
      right. split; [lia|]. split; [lia|]. exists ld'. split; [done|]. destruct (C82_idle _ _ _ H0123 Hn3) as [Hh Hlen]. split; [|done].
      assert (under (successes x2) ld' x2) as Hu.
      { rewrite C2, C1, Nat.add_0_r. unfold at_count in Hc0. cbn [ms_sys s_reload s_proc at_phase] in Hc0. destruct Hc0 as (Hc0 & _).
        set (a := successes _) in *. clearbody a. clear -H2 Hsame Hrel Hc0 H0 H1 E. 
        pose proof (at_count_runs _ _ _ (mruns_cons _ _ _ _ _ _ _ _ _ H0 H1)) as [Hi1 _].
        induction H2 as [|tr'' xx k xy Hr IH Hs]; [left; by rewrite Hrel|]. eapply under_step; [|exact Hs|exact (Hsame k ltac:(left))|apply IH; intros k' Hk; apply Hsame; by right].
        by eapply inv_mruns. }
      assert (s_proc (ms_sys x3) = s_proc (ms_sys x2) /\ exists ldr, s_reload (ms_sys x2) = Some (Ret ldr)) as [Hpr [ldr Hret]]
        by (inversion H3 as [y ? y' m u Hs]; subst; inversion Hs; subst; eauto).
      rewrite C3, Nat.add_1_r, Hpr. destruct Hu as [[Hu _]|Hu]; [congruence|exact Hu].
    - assert (reload W kube file = Fail) as Hrel by (unfold reload; by rewrite Hload). rewrite Hrel in *.
      destruct (fail_round E cf kube file (Sys s (Some Fail) qs) _ _ Hsame eq_refl H2s) as (F1 & F2 & _).
      assert (l = SFail) as ->.
      { destruct Hl as [? | ->]; [done|]. exfalso. inversion H3 as [y ? y' m u Hs]; subst. inversion Hs; subst. cbn in F1. congruence. }
      left. split; [lia|]. split; [lia|]. split; [|done]. transitivity (handles (ms_sys x2)); [|exact F2].
      inversion H3 as [y ? y' m u Hs]; subst. by inversion Hs.
  Qed.
  (** A reload that has begun is carried out to its end, or the execution gets to a point before that. *)
  Lemma goes_on xs ls t k : (forall t, match ls t with Some l => mstep (xs t) l (xs (S t)) | None => xs (S t) = xs t end) ->
    s_reload (ms_sys (xs t)) <> None ->
    (exists tr u l, t <= u /\ mruns (xs t) tr (xs u) /\ same_round tr /\ (l = SFail \/ l = SDone) /\ mstep (xs u) l (xs (S u))) \/
    (exists tr, mruns (xs t) tr (xs (t + k)) /\ same_round tr /\ s_reload (ms_sys (xs (t + k))) <> None /\
      left_over (ms_sys (xs (t + k))) <= left_over (ms_sys (xs t))).
  Proof.
    intros Hex Hp. induction k as [|k [IH|(tr & Hr & Hsame & Hn & Hle)]].
    - right. exists []. rewrite Nat.add_0_r. split; [constructor|]. split; [by intros ? ?%elem_of_nil|]. split; [done|lia].
    - by left.
    - rewrite Nat.add_succ_r. pose proof (Hex (t + k)) as Hst. destruct (ls (t + k)) as [l|]; [|right; exists tr; by rewrite Hst].
      assert (l = SFail \/ l = SDone \/ (match l with SBegin _ | SFail | SDone => False | _ => True end /\
        s_reload (ms_sys (xs (S (t + k)))) <> None /\ left_over (ms_sys (xs (S (t + k)))) <= left_over (ms_sys (xs (t + k))))) as [Hl|[Hl|(Hl & Hn' & Hle')]].
      { destruct Hst as [y l y' m u Hs]. cbn [ms_sys] in *. unfold left_over. destruct Hs; cbn [s_reload] in *; try (by destruct Hn); auto; right; right; (split; [done|split; [done|]]); cbn [rest_of]; lia. }
      + left. exists tr, (t + k), l. split; [lia|]. split; [done|]. split; [done|]. split; [by left|done].
      + left. exists tr, (t + k), l. split; [lia|]. split; [done|]. split; [done|]. split; [by right|done].
      + right. exists (l :: tr). split; [by eapply mruns_cons|]. split; [|split; [done|lia]]. intros l' [-> |Hin]%elem_of_cons; [done|by apply Hsame].
  Qed.
  Lemma carried_out xs ls n : (forall t, match ls t with Some l => mstep (xs t) l (xs (S t)) | None => xs (S t) = xs t end) -> reload_goes_on xs ls ->
    forall t, s_reload (ms_sys (xs t)) <> None -> left_over (ms_sys (xs t)) <= n ->
    exists tr u l, t <= u /\ mruns (xs t) tr (xs u) /\ same_round tr /\ (l = SFail \/ l = SDone) /\ mstep (xs u) l (xs (S u)).
  Proof.
    intros Hex Hfair. induction n as [n IH] using lt_wf_ind. intros t Hp Hn. destruct (Hfair t) as (t' & Ht & Hcase).
    destruct (goes_on xs ls t (t' - t) Hex Hp) as [?|(tr & Hr & Hsame & Hp' & Hle)]; [done|].
    replace (t + (t' - t)) with t' in * by lia. destruct Hcase as [?|Hcase]; [done|]. pose proof (Hex t') as Hst.
    destruct Hcase as [Hl|[Hl|[i Hl]]]; rewrite Hl in Hst.
    - exists tr, t', SFail. auto 10.
    - exists tr, t', SDone. auto 10.
    - assert (s_reload (ms_sys (xs (S t'))) <> None /\ left_over (ms_sys (xs (S t'))) < left_over (ms_sys (xs t'))) as [Hp2 Hlt].
      { inversion Hst as [y l y' m u Hs]; subst. inversion Hs; subst. unfold left_over. cbn. split; [done|lia]. }
      destruct (IH (left_over (ms_sys (xs (S t')))) ltac:(lia) (S t') Hp2 (le_n _)) as (tr2 & u & l & Hu & Hr2 & Hs2 & Hl2 & Hm2).
      exists (tr2 ++ SDo i :: tr), u, l. split; [lia|]. split; [eapply mruns_app; [eapply mruns_cons; [exact Hr|exact Hst]|exact Hr2]|].
      split; [|done]. intros k [Hk|[-> |Hk]%elem_of_cons]%elem_of_app; [by apply Hs2|done|by apply Hsame].
  Qed.
  Lemma execution_runs ld xs ls t : mexecution E cf kube file ld xs ls -> exists tr, mruns (mstarted ld) tr (xs t).
  Proof.
    intros [H0 Hex]. induction t as [|t [tr IH]]; [exists []; rewrite H0; constructor|]. pose proof (Hex t) as Hst.
    destruct (ls t) as [l|]; [exists (l :: tr); by eapply mruns_cons|exists tr; by rewrite Hst].
  Qed.
  (** Every reload is counted in the end, so that who waits for the counter does not wait for ever: the counter
      of failures goes up by one if the files cannot be loaded, that of successes if they can, and then
      everything in use is what the files say. *)
  Theorem C82_counted (ld : loaded) (xs : nat -> msys) (ls : nat -> option slabel) (t : nat) (W : world) :
    mexecution E cf kube file ld xs ls -> reload_goes_on xs ls -> ls t = Some (SBegin W) ->
    exists t', t < t' /\ s_reload (ms_sys (xs t')) = None /\
      ((failures (xs t') = failures (xs t) + 1 /\ successes (xs t') = successes (xs t) /\
        handles (ms_sys (xs t')) = handles (ms_sys (xs t)) /\ forall ld', ~ loads_as W kube file ld') \/
       (failures (xs t') = failures (xs t) /\ successes (xs t') = successes (xs t) + 1 /\
        exists ld', loads_as W kube file ld' /\ p_loads (s_proc (ms_sys (xs t'))) !! successes (xs t') = Some ld' /\
          handles (ms_sys (xs t')) = (successes (xs t'), successes (xs t'), successes (xs t'), successes (xs t')))).
  Proof.
    intros Hex Hfair Hl. destruct (execution_runs ld xs ls t Hex) as [tr Hr]. pose proof (proj2 Hex t) as Hst. rewrite Hl in Hst.
    assert (s_reload (ms_sys (xs (S t))) <> None) as Hp by (inversion Hst as [y l y' m u Hs]; subst; inversion Hs; subst; done).
    destruct (carried_out xs ls _ (proj2 Hex) Hfair (S t) Hp (le_n _)) as (tr' & u & l & Hu & Hr' & Hsame & Hend & Hm).
    exists (S u). split; [lia|]. split; [destruct Hend as [-> | ->]; inversion Hm as [y ? y' m v Hs]; subst; by inversion Hs|].
    exact (C82_outcome _ _ _ _ _ _ _ _ _ Hr Hst Hr' Hsame Hend Hm).
  Qed.
  (** The gauge up is 1 from before the first request on. *)
  Theorem C82_up (ld : loaded) (tr : list slabel) (x : msys) : mruns (mstarted ld) tr x -> ms_up x = Some 1.
  Proof.
    induction 1 as [|tr x1 l x2 _ IH Hs]; [done|]. destruct Hs as [y l y' m u Hs]. cbn [ms_up] in *. destruct l as [| | |[]| | |]; exact IH || reflexivity.
  Qed.
End counters.

(** ** Findings and examples *)
Lemma lift E cf k f y0 tr y m u : sruns E cf k f y0 tr y -> exists m' u', mruns E cf k f (MSys y0 m u) tr (MSys y m' u') /\ m' = foldr count m tr.
Proof.
  induction 1 as [|tr y1 l y2 Hr (m' & u' & IH & ->) Hs]; [exists m, u; split; [constructor|done]|].
  exists (count l (foldr count m tr)), (up_after l u'). split; [|done]. econstructor; [exact IH|]. by constructor.
Qed.
Local Ltac go := first [apply sruns_nil|eapply sruns_cons; [go|first [apply ss_do|eapply ss_begin'; eassumption|apply ss_arrive|apply ss_done|apply ss_fail|eapply ss_req; [reflexivity|vm_compute; reflexivity]]]].
Definition bad_text : gostr := str "{""token"": 5}".
Lemma reload_bad : reload (account_world bad_text) [] (str "conf") = Fail.
Proof.
  unfold reload, load. change (w_read (account_world bad_text) (str "conf")) with (Some bad_text). cbv iota.
  assert (decode_conf bad_text = None) as -> by (vm_compute; reflexivity). reflexivity.
Qed.
(** One more success than at the time of the change is not enough when a reload was under way: the load counted
    can be of the files before the change. *)
Theorem C82_one_more_refuted : forall E, exists ld tr tr1 tr2 xe xa xb x q,
  mruns E true [] (str "conf") (mstarted ld) tr xe /\ mruns E true [] (str "conf") xe tr1 xa /\ successes xa = successes xe + 1 /\
  mstep E true [] (str "conf") xa (SArrive false []) xb /\ mruns E true [] (str "conf") xb tr2 x /\
  s_reqs (ms_sys x) !! length (s_reqs (ms_sys xa)) = Some q /\ reads_of q 1 /\
  ~ loaded_in [] (str "conf") (tr2 ++ [SArrive false []] ++ tr1) x 1.
Proof.
  intros E. destruct new_conf as (fc & Hfc & _). destruct (reload_account _ _ Hfc) as (ld & Hld & _). unfold tail4 in Hld.
  assert (exists ye, sruns E true [] (str "conf") (Sys (started ld0) None []) [SBegin (account_world new_text)] ye /\ ye = Sys (started ld0) (Some (Do (IConf ld) (Do (IBuild ld) (tail4 ld)))) []) as (ye & H1 & Eye).
  { eexists. split; [go|reflexivity]. }
  assert (exists ya, sruns E true [] (str "conf") ye [SDone; SDo ISetClients; SDo ISetStore; SDo ISetWatcher; SDo IStop; SDo (IBuild ld); SDo (IConf ld)] ya /\ s_reqs ya = [] /\ s_reload ya = None /\ p_clients (s_proc ya) = 1) as (ya & H2 & Eya & _ & Ec).
  { rewrite Eye. unfold tail4. eexists. split; [go|]. repeat split. }
  destruct ya as [sa ra qa]. cbn in Eya, Ec. subst qa.
  destruct (lift _ _ _ _ _ _ _ ∅ (Some 1) H1) as (m1 & u1 & M1 & Em1). destruct (lift _ _ _ _ _ _ _ m1 u1 H2) as (m2 & u2 & M2 & Em2).
  eexists ld0, _, _, [SReq 0 AClients], (MSys ye m1 u1), (MSys (Sys sa ra []) m2 u2), (MSys (Sys sa ra [new_req false []]) m2 u2), (MSys (Sys sa ra [Req_ false [] None None (Some 1) None []]) m2 u2), (Req_ false [] None None (Some 1) None []).
  split; [exact M1|]. split; [exact M2|]. split; [subst m2 m1; reflexivity|]. split; [apply (ms_step _ _ _ _ _ (SArrive false [])); apply (ss_arrive _ _ _ _ _ _ [])|].
  split; [eapply mruns_cons; [apply mruns_nil|]; apply (ms_step _ _ _ _ _ (SReq 0 AClients)); apply (ss_req _ _ _ _ _ _ [new_req false []] 0 AClients (new_req false []) (Req_ false [] None None (Some 1) None [])); [reflexivity|]; cbn; by rewrite Ec|].
  split; [reflexivity|]. split; [right; right; right; by left|].
  intros (W & _ & HW & _). cbn [app] in HW. repeat (apply elem_of_cons in HW as [HW|HW]; [discriminate HW|]). by apply elem_of_nil in HW.
Qed.
(** A reload that fails, one that succeeds, and one under way. *)
Example C82_ex : forall E, exists tr x, mruns E true [] (str "conf") (mstarted ld0) tr x /\
  successes x = 1 /\ failures x = 1 /\ busy (ms_sys x) = 1 /\ begins tr = 3 /\ handles (ms_sys x) = (2, 1, 1, 1).
Proof.
  intros E. destruct new_conf as (fc & Hfc & _). destruct (reload_account _ _ Hfc) as (ld & Hld & _). unfold tail4 in Hld. pose proof reload_bad as Hbad.
  assert (exists y, sruns E true [] (str "conf") (Sys (started ld0) None []) [SDo (IConf ld); SBegin (account_world new_text); SDone; SDo ISetClients; SDo ISetStore; SDo ISetWatcher; SDo IStop; SDo (IBuild ld); SDo (IConf ld); SBegin (account_world new_text);
    SFail; SBegin (account_world bad_text)] y /\ busy y = 1 /\ handles y = (2, 1, 1, 1)) as (y & Hr & Hb & Hh).
  { eexists. split; [go|]. split; reflexivity. }
  destruct (lift _ _ _ _ _ _ _ ∅ (Some 1) Hr) as (m & u & M & Em). eexists _, (MSys y m u). split; [exact M|].
  split; [subst m; reflexivity|]. split; [subst m; reflexivity|]. split; [exact Hb|]. split; [reflexivity|exact Hh].
Qed.
(** The page has shown the success, a request arrives and works with the files as they are. *)
Example C82_ex_fresh : forall E, exists tr1 tr2 xa xb x q ld W,
  mruns E true [] (str "conf") (mstarted ld0) tr1 xa /\ successes (mstarted ld0) + busy (ms_sys (mstarted ld0)) + 1 <= successes xa /\
  mstep E true [] (str "conf") xa (SArrive true (str "Bearer new")) xb /\ mruns E true [] (str "conf") xb tr2 x /\
  s_reqs (ms_sys x) !! length (s_reqs (ms_sys xa)) = Some q /\ reads_of q 1 /\
  SBegin W ∈ tr1 /\ p_loads (s_proc (ms_sys x)) !! 1 = Some ld /\ cf_token (ld_conf ld) = str "new".
Proof.
  intros E. destruct new_conf as (fc & Hfc & Ht). destruct (reload_account _ _ Hfc) as (ld & Hld & Ht'). unfold tail4 in Hld.
  assert (exists y, sruns E true [] (str "conf") (Sys (started ld0) None []) [SDone; SDo ISetClients; SDo ISetStore; SDo ISetWatcher; SDo IStop; SDo (IBuild ld); SDo (IConf ld); SBegin (account_world new_text)] y /\
    s_reqs y = [] /\ p_conf (s_proc y) = 1 /\ p_loads (s_proc y) !! 1 = Some ld) as (y & Hr & Hq & Hc & Hl).
  { eexists. split; [go|]. repeat split. }
  destruct y as [s r qs]. cbn in Hq, Hc, Hl. subst qs.
  destruct (lift _ _ _ _ _ _ _ ∅ (Some 1) Hr) as (m & u & M & Em).
  eexists _, [SReq 0 AToken1], (MSys (Sys s r []) m u), (MSys (Sys s r [new_req true (str "Bearer new")]) m u), (MSys (Sys s r [Req_ true (str "Bearer new") (Some 1) None None None []]) m u), (Req_ true (str "Bearer new") (Some 1) None None None []), ld, (account_world new_text).
  split; [exact M|]. split; [subst m; cbn; apply le_n|]. split; [apply (ms_step _ _ _ _ _ (SArrive true (str "Bearer new"))); apply (ss_arrive _ _ _ _ _ _ [])|].
  split; [eapply mruns_cons; [apply mruns_nil|]; apply (ms_step _ _ _ _ _ (SReq 0 AToken1)); apply (ss_req _ _ _ _ _ _ [new_req true (str "Bearer new")] 0 AToken1 (new_req true (str "Bearer new")) (Req_ true (str "Bearer new") (Some 1) None None None [])); [reflexivity|]; cbn [req_act new_req]; by rewrite Hc|].
  split; [reflexivity|]. split; [by left|]. split; [do 7 right; left|]. split; [exact Hl|congruence].
Qed.
Lemma go_on_still E cf k f x tr x' : mruns E cf k f x tr x' -> exists xs ls, xs 0 = x /\
  (forall t, match ls t with Some l => mstep E cf k f (xs t) l (xs (S t)) | None => xs (S t) = xs t end) /\
  (forall t, length tr <= t -> xs t = x' /\ ls t = None) /\ forall t, t < length tr -> ls t = tr !! (length tr - S t).
Proof.
  induction 1 as [|tr x1 l x2 Hr (xs & ls & H0 & Hex & Hend & Hlab) Hs].
  - exists (fun _ => x), (fun _ => None). split; [done|]. split; [done|]. split; [done|]. cbn. lia.
  - exists (fun t => if decide (t <= length tr) then xs t else x2), (fun t => if decide (t = length tr) then Some l else ls t).
    split; [by rewrite decide_True by lia|]. cbn [length]. split; [|split].
    + intros t. destruct (decide (t = length tr)) as [-> |Hne].
      * rewrite decide_True, decide_False by lia. by rewrite (proj1 (Hend _ (le_n _))).
      * destruct (decide (t <= length tr)) as [Hle|Hgt]; [rewrite decide_True by lia; apply Hex|].
        rewrite decide_False by lia. rewrite (proj2 (Hend t ltac:(lia))). done.
    + intros t Ht. rewrite !decide_False by lia. split; [done|]. apply Hend. lia.
    + intros t Ht. destruct (decide (t = length tr)) as [-> |Hne]; [by rewrite Nat.sub_diag|]. rewrite Hlab by lia.
      replace (S (length tr) - S t) with (S (length tr - S t)) by lia. done.
Qed.
(** A reload that fails and one that succeeds, and then nothing. *)
Example C82_ex_counted : forall E, exists xs ls, mexecution E true [] (str "conf") ld0 xs ls /\ reload_goes_on xs ls /\
  ls 0 = Some (SBegin (account_world bad_text)) /\ ls 2 = Some (SBegin (account_world new_text)).
Proof.
  intros E. destruct new_conf as (fc & Hfc & _). destruct (reload_account _ _ Hfc) as (ld & Hld & _). unfold tail4 in Hld. pose proof reload_bad as Hbad.
  assert (exists y, sruns E true [] (str "conf") (Sys (started ld0) None []) [SDone; SDo ISetClients; SDo ISetStore; SDo ISetWatcher; SDo IStop; SDo (IBuild ld); SDo (IConf ld); SBegin (account_world new_text);
    SFail; SBegin (account_world bad_text)] y /\ s_reload y = None) as (y & Hr & Hn).
  { eexists. split; [go|]. reflexivity. }
  destruct (lift _ _ _ _ _ _ _ ∅ (Some 1) Hr) as (m & u & M & _). destruct (go_on_still _ _ _ _ _ _ _ M) as (xs & ls & H0 & Hex & Hend & Hlab).
  exists xs, ls. split; [split; [exact H0|exact Hex]|]. split.
  - intros t. exists (t + 10). split; [lia|]. left. rewrite (proj1 (Hend (t + 10) ltac:(cbn; lia))). exact Hn.
  - split; rewrite Hlab by (cbn; lia); reflexivity.
Qed.

Print Assumptions C82_rounds.
Print Assumptions C82_monotone.
Print Assumptions C82_idle.
Print Assumptions C82_wait.
Print Assumptions C82_fresh.
Print Assumptions C82_outcome.
Print Assumptions C82_counted.
Print Assumptions C82_up.
Print Assumptions C82_one_more_refuted.
