(** C78: what the running process does in the long run. *)
From Coq Require Import Ascii String NArith ZArith Lia.
From stdpp Require Import base gmap strings list.
From Verif Require Import ModelStr ModelStore ModelProxy ModelServer ModelServe ModelWatcher ModelReload ModelLive ModelFollow ModelWhole
  SpecLabels SpecStore SpecWatcher SpecServer SpecServe SpecReload SpecFollow SpecWhole ProofsReload.
From Verif Require PropsReload PropsLive PropsFollow.
Import PropsLive.

Definition sys_at (xs : nat -> whole) (t : nat) : sys := wh_sys (xs t).
(** The part of a state that concerns one load. *)
Definition part (n : nat) (x : whole) : fsys :=
  match p_systems (s_proc (wh_sys x)) !! n, wh_feeds x !! n with Some w, Some f => FSys w f | _, _ => FSys (wstart [] ∅) [] end.
Definition part_label (n : nat) (x : whole) (l : option hlabel) : option flabel :=
  match l with
  | Some (HDo (SWatch m (WAct i a))) => if decide (m = n) then Some (FAct i a) else None
  | Some (HDo (SDo IStop)) => if decide (p_watcher (s_proc (wh_sys x)) = n) then Some FStop else None
  | Some (HChange m i it) => if decide (m = n) then Some (FChange i it) else None
  | _ => None
  end.
Definition alive (n : nat) (x : whole) (ld : loaded) : Prop :=
  exists w f, p_systems (s_proc (wh_sys x)) !! n = Some w /\ wh_feeds x !! n = Some f /\ p_loads (s_proc (wh_sys x)) !! n = Some ld.

Section whole.
  Context (E : env) (cf : bool) (kube file : gostr).
  Local Notation sstep := (sstep E cf kube file).
  Local Notation sruns := (sruns E cf kube file).
  Local Notation hstep := (hstep E cf kube file).

  Lemma hstep_sys x l x' : hstep x l x' -> match l with HDo a => sstep (wh_sys x) a (wh_sys x') | HChange _ _ _ => wh_sys x' = wh_sys x end.
  Proof. by destruct 1. Qed.
  Lemma part_step x l x' n ld : hstep x l x' -> alive n x ld ->
    alive n x' ld /\ match part_label n x (Some l) with Some k => fstep E (ld_watch ld) (ld_index ld) (part n x) k (part n x') | None => part n x' = part n x end.
  Proof.
    intros H (w & f & Hw & Hf & Hl).
    assert (p_loads (s_proc (wh_sys x')) !! n = Some ld) as Hl'.
    { pose proof (hstep_sys _ _ _ H) as Hs. destruct l; [by eapply loads_kept|by rewrite Hs]. }
    destruct H as [y l y' fs Hs Ho|y ld1 y' fs new Hs Hst|y m i l y' fs ld1 w1 w1' f1 f1' Hs H1 H2 H3 H4 H5|y fs m i it f1 d Hf1 Hd Hch]; cbn [wh_sys wh_feeds] in *.
    - assert (p_systems (s_proc y') !! n = Some w /\ part_label n (Whole y fs) (Some (HDo l)) = None \/
              p_systems (s_proc y') !! n = Some (WSys (ws_store w) (ws_phases w) true) /\ part_label n (Whole y fs) (Some (HDo l)) = Some FStop) as Hcase.
      { destruct Hs as [s W qs|s qs|s ld1 qs|s i p qs|s r qs m ld1 w1 i l w' _ _ _|s r qs rq h|s r qs i a q q' Hq Ha]; try (by left).
        - destruct i as [ld1|ld1| | | |]; try done; try (by left). cbn [part_label wh_sys s_proc do_instr p_systems].
          destruct (decide (p_watcher s = n)) as [->|Hne]; [right|left; by rewrite list_lookup_alter_ne].
          split; [|done]. rewrite list_lookup_alter. cbn [s_proc] in Hw. by rewrite Hw. }
      destruct Hcase as [[Hw' Hn]|[Hw' Hn]]; rewrite Hn.
      + split; [by exists w, f|]. unfold part. cbn [wh_sys wh_feeds]. by rewrite Hw, Hf, Hw'.
      + split; [by eexists _, f|]. unfold part. cbn [wh_sys wh_feeds]. rewrite Hw, Hf, Hw'. apply (fstep_stop E _ _ (FSys w f)). constructor.
    - assert (p_systems (s_proc y') !! n = Some w) as Hw'.
      { inversion Hs; subst. cbn [s_proc do_instr p_systems] in *. by apply lookup_app_l_Some. }
      assert ((fs ++ [new]) !! n = Some f) as Hf' by (by apply lookup_app_l_Some). split; [by exists w, f|]. cbn [part_label]. unfold part. cbn [wh_sys wh_feeds]. by rewrite Hw, Hf, Hw', Hf'.
    - cbn [part_label]. destruct (decide (m = n)) as [->|Hne].
      + assert (w1 = w) as -> by congruence. assert (f1 = f) as -> by congruence. assert (ld1 = ld) as -> by congruence.
        assert (<[n:=f1']> fs !! n = Some f1') as Hf' by (apply list_lookup_insert; by eapply lookup_lt_Some).
        split; [by exists w1', f1'|]. unfold part. cbn [wh_sys wh_feeds]. by rewrite Hw, Hf, H3, Hf'.
      + assert (p_systems (s_proc y') !! n = Some w) as Hw'.
        { inversion Hs; subst. cbn [s_proc p_systems] in *. by rewrite list_lookup_insert_ne. }
        assert (<[m:=f1']> fs !! n = Some f) as Hf' by (by rewrite list_lookup_insert_ne).
        split; [by exists w, f|]. unfold part. cbn [wh_sys wh_feeds]. by rewrite Hw, Hf, Hw', Hf'.
    - cbn [part_label]. destruct (decide (m = n)) as [->|Hne].
      + assert (f1 = f) as -> by congruence.
        assert (<[n := <[i := Feed (fd_log d ++ [it]) (fd_rest d) (fd_behind d ++ [it])]> f]> fs !! n = Some (<[i := Feed (fd_log d ++ [it]) (fd_rest d) (fd_behind d ++ [it])]> f)) as Hf' by (apply list_lookup_insert; by eapply lookup_lt_Some).
        split; [by eexists w, _|]. unfold part. cbn [wh_sys wh_feeds]. rewrite Hw, Hf, Hf'. exact (fstep_change E (ld_watch ld) (ld_index ld) (FSys w f) i d it Hd Hch).
      + match goal with |- context[<[m := ?z]> fs] => assert (<[m := z]> fs !! n = Some f) as Hf' by (by rewrite list_lookup_insert_ne) end.
        split; [by exists w, f|]. unfold part. cbn [wh_sys wh_feeds]. by rewrite Hw, Hf, Hf'.
  Qed.

  Context (ld0 : loaded) (xs : nat -> whole) (ls : nat -> option hlabel) (Hex : whole_execution E cf kube file ld0 xs ls).
  Lemma history_runs t : sruns (begun ld0) (history ls t) (sys_at xs t).
  Proof using Hex.
    destruct Hex as [[H0 _] Hst]. induction t as [|t IH]; [unfold sys_at; rewrite H0; constructor|]. specialize (Hst t). unfold sys_at in *. cbn [history].
    destruct (ls t) as [l|]; [|by rewrite Hst]. pose proof (hstep_sys _ _ _ Hst) as Hs. destruct l as [l|]; [by econstructor|by rewrite Hs].
  Qed.
  Lemma same_length t : length (wh_feeds (xs t)) = length (p_systems (s_proc (sys_at xs t))).
  Proof using Hex.
    destruct Hex as [[H0 (f & Hf & _)] Hst]. induction t as [|t IH]; [unfold sys_at; by rewrite H0, Hf|]. specialize (Hst t). unfold sys_at in *.
    destruct (ls t) as [l|]; [|by rewrite Hst].
    destruct Hst as [y l y' fs Hs Ho|y ld1 y' fs new Hs Hst|y m i l y' fs ld1 w1 w1' f1 f1' Hs H1 H2 H3 H4 H5|y fs m i it f1 d Hf1 Hd Hch]; cbn [wh_sys wh_feeds] in *.
    - rewrite IH. destruct Hs as [s W qs|s qs|s ld1 qs|s i p qs|s r qs m ld1 w1 i l w' _ _ _|s r qs rq h|s r qs i a q q' Hq Ha]; try done.
      destruct i; try done. cbn. by rewrite alter_length.
    - inversion Hs; subst. cbn [s_proc do_instr p_systems] in *. rewrite !app_length, IH. done.
    - inversion Hs; subst. cbn [s_proc p_systems] in *. by rewrite !insert_length.
    - by rewrite insert_length.
  Qed.
  Lemma alive_later n ld t t' : t <= t' -> alive n (xs t) ld -> alive n (xs t') ld.
  Proof using Hex.
    induction 1 as [|t' _ IH]; [done|]. intros Ha. specialize (IH Ha). destruct Hex as [_ Hst]. specialize (Hst t').
    destruct (ls t') as [l|]; [|by rewrite Hst]. by eapply part_step.
  Qed.
  (** Every load began with its clusters as they were. *)
  Lemma birth n t : n < length (p_systems (s_proc (sys_at xs t))) ->
    exists t0 ld, t0 <= t /\ alive n (xs t0) ld /\ fstart E (ld_watch ld) (ld_index ld) (part n (xs t0)).
  Proof using Hex.
    induction t as [|t IH]; intros Hn.
    - destruct Hex as [[H0 (f & Hf & Hst)] _]. unfold sys_at in Hn. rewrite H0 in Hn. cbn in Hn. assert (n = 0) as -> by lia.
      exists 0, ld0. split; [done|]. split; [exists (wstart (ld_watch ld0) (ld_index ld0)), f; by rewrite H0, Hf|]. unfold part. by rewrite H0, Hf.
    - destruct (decide (n < length (p_systems (s_proc (sys_at xs t))))) as [Hlt|Hge].
      { destruct (IH Hlt) as (t0 & ld & H1 & H2). exists t0, ld. split; [lia|done]. }
      pose proof (history_runs t) as Hrun. pose proof (same_length t) as Hlen. pose proof (proj2 Hex t) as Hst. unfold sys_at in *.
      destruct (ls t) as [l|]; [|by rewrite Hst in Hn].
      assert (forall y y', sstep y match l with HDo a => a | _ => SFail end y' -> ordinary match l with HDo a => a | _ => SFail end -> length (p_systems (s_proc y')) = length (p_systems (s_proc y))) as Hsame.
      { intros y y' Hs Ho. destruct Hs as [s W qs|s qs|s ld1 qs|s i p qs|s r qs m ld1 w1 i a w' _ _ _|s r qs rq h|s r qs i a q q' Hq Ha]; try done.
        destruct i; try done. cbn. by rewrite alter_length. }
      exists (S t). remember (xs t) as x eqn:Ex. remember (xs (S t)) as x' eqn:Ex'.
      destruct Hst as [y l y' fs Hs Ho|y ld1 y' fs new Hs Hst|y m i l y' fs ld1 w1 w1' f1 f1' Hs H1 H2 H3 H4 H5|y fs m i it f1 d Hf1 Hd Hch]; cbn [wh_sys wh_feeds] in *.
      + exfalso. rewrite (Hsame _ _ Hs Ho) in Hn. lia.
      + inversion Hs as [| | |s i p qs| | |]; subst y y' i. cbn [s_proc do_instr p_systems] in *. rewrite app_length in Hn. cbn in Hn. assert (n = length (p_systems s)) as -> by lia.
        pose proof (inv_runs' _ _ _ _ _ _ _ (inv_started E ld0) Hrun) as [_ [k Hp] _ _]. cbn [s_proc s_reload] in Hp. cbn in Hp. destruct Hp as (P0 & P1 & P2 & _).
        exists ld1. split; [done|]. assert ((p_systems s ++ [wstart (ld_watch ld1) (ld_index ld1)]) !! length (p_systems s) = Some (wstart (ld_watch ld1) (ld_index ld1))) as Hw by (by apply list_lookup_middle).
        assert ((fs ++ [new]) !! length (p_systems s) = Some new) as Hf by (by apply list_lookup_middle).
        split; [exists (wstart (ld_watch ld1) (ld_index ld1)), new; cbn; by rewrite Hw, Hf, P2|]. unfold part. cbn. by rewrite Hw, Hf.
      + exfalso. inversion Hs; subst. cbn [s_proc p_systems] in *. rewrite insert_length in Hn. lia.
      + exfalso. lia.
  Qed.

  Lemma between t t' : (forall u W, t <= u -> u < t' -> ls u <> Some (HDo (SBegin W))) -> t <= t' ->
    exists tr, sruns (sys_at xs t) tr (sys_at xs t') /\ begins tr = 0 /\ history ls t' = tr ++ history ls t.
  Proof using Hex.
    intros Hno H. revert Hno. induction H as [|t' Hle IH]; intros Hno; [exists []; split; [constructor|done]|].
    destruct IH as (tr & Hr & Hb & Hh); [intros u W H1 H2; apply Hno; lia|].
    pose proof (proj2 Hex t') as Hst. unfold sys_at in *. cbn [history]. destruct (ls t') as [l|] eqn:El; [|exists tr; by rewrite Hst].
    pose proof (hstep_sys _ _ _ Hst) as Hs. destruct l as [l|]; [|exists tr; by rewrite Hs].
    exists (l :: tr). split; [by econstructor|]. split; [|by rewrite Hh]. unfold begins in *. cbn [List.filter].
    destruct l as [W| | | | | |]; try done. exfalso. apply (Hno t' W); [lia|lia|done].
  Qed.
  (** *** The part of an execution that concerns one load *)
  Lemma part_runs n ld t0 t : t0 <= t -> alive n (xs t0) ld -> exists tr, fruns E (ld_watch ld) (ld_index ld) (part n (xs t0)) tr (part n (xs t)).
  Proof using Hex.
    intros H Ha. induction H as [|t Hle [tr IH]]; [exists []; constructor|]. pose proof (proj2 Hex t) as Hst.
    destruct (ls t) as [l|] eqn:El; [|exists tr; by rewrite Hst]. destruct (part_step _ _ _ n ld Hst (alive_later n ld t0 t Hle Ha)) as [_ Hp].
    destruct (part_label n (xs t) (Some l)) as [k|]; [exists (k :: tr); by econstructor|]. exists tr. by rewrite Hp.
  Qed.
  Lemma stop_kept n ld t0 t : t0 <= t -> alive n (xs t0) ld -> ws_stop (fs_w (part n (xs t0))) = true -> ws_stop (fs_w (part n (xs t))) = true.
  Proof using Hex.
    intros H Ha Hs. induction H as [|t Hle IH]; [done|]. pose proof (proj2 Hex t) as Hst.
    destruct (ls t) as [l|] eqn:El; [|by rewrite Hst]. destruct (part_step _ _ _ n ld Hst (alive_later n ld t0 t Hle Ha)) as [_ Hp].
    destruct (part_label n (xs t) (Some l)) as [k|]; [|by rewrite Hp].
    destruct Hp as [y i g c ph a w' f f' _ _ _ Hw _|y i f it _ _|y w' Hw]; cbn [fs_w] in *; [|done|]; inversion Hw; subst; cbn [ws_stop] in *; done.
  Qed.
  Lemma part_of n x ld i ph f : alive n x ld -> at_watch n i x ph f -> ws_phases (fs_w (part n x)) !! i = Some ph /\ fs_feeds (part n x) !! i = Some f.
  Proof. intros _ (w & fs & Hw & Hf & Hp & Hi). unfold part. by rewrite Hw, Hf. Qed.

  (** *** The process comes to rest *)
  Context (T : nat) (Hrest : files_rest ls T).
  Fixpoint size (p : prog loaded) : nat := match p with Do _ p' => S (size p') | _ => 0 end.
  Definition to_do (r : option (prog loaded)) : nat := match r with None => 0 | Some p => S (size p) end.
  Lemma to_do_step t : T <= t -> to_do (s_reload (sys_at xs (S t))) <= to_do (s_reload (sys_at xs t)) /\
    (ls t = Some (HDo SFail) \/ ls t = Some (HDo SDone) \/ (exists i, ls t = Some (HDo (SDo i))) ->
     to_do (s_reload (sys_at xs (S t))) < to_do (s_reload (sys_at xs t))).
  Proof using Hex Hrest.
    intros HT. pose proof (proj2 Hex t) as Hst. unfold sys_at. destruct (ls t) as [l|] eqn:El.
    2:{ rewrite Hst. split; [done|]. intros [?|[?|[? ?]]]; discriminate. }
    pose proof (hstep_sys _ _ _ Hst) as Hs. destruct l as [l|n i it].
    2:{ rewrite Hs. split; [done|]. intros [?|[?|[? ?]]]; discriminate. }
    destruct Hs as [s W qs|s qs|s ld1 qs|s i p qs|s r qs m ld1 w1 i a w' _ _ _|s r qs rq h|s r qs i a q q' Hq Ha]; cbn [s_reload to_do size];
      try (split; [lia|intros; lia]); try (split; [lia|intros [H|[H|[? H]]]; discriminate H]).
    exfalso. by apply (Hrest t W).
  Qed.
  Lemma to_do_later t t' : T <= t -> t <= t' -> to_do (s_reload (sys_at xs t')) <= to_do (s_reload (sys_at xs t)).
  Proof using Hex Hrest. intros HT. induction 1 as [|t' Hle IH]; [done|]. destruct (to_do_step t'); lia. Qed.
  Lemma comes_to_rest k : reload_fair xs ls -> forall t, T <= t -> to_do (s_reload (sys_at xs t)) <= k -> exists T1, t <= T1 /\ s_reload (sys_at xs T1) = None.
  Proof using Hex Hrest.
    intros Hfair. induction k as [|k IH]; intros t HT Hk.
    - exists t. split; [done|]. unfold to_do in Hk. destruct (s_reload (sys_at xs t)); [lia|done].
    - destruct (Hfair t) as (t' & Ht' & [Hn|Hl]); [by exists t'|]. pose proof (to_do_later t t' HT Ht'). destruct (to_do_step t' ltac:(lia)) as [_ Hlt]. specialize (Hlt Hl).
      destruct (IH (S t')) as (T1 & H1 & H2); [lia|lia|]. exists T1. split; [lia|done].
  Qed.
  Lemma at_rest T1 t : T <= T1 -> s_reload (sys_at xs T1) = None -> T1 <= t ->
    s_reload (sys_at xs t) = None /\ p_loads (s_proc (sys_at xs t)) = p_loads (s_proc (sys_at xs T1)) /\ handles (sys_at xs t) = handles (sys_at xs T1).
  Proof using Hex Hrest. intros HT Hn Ht. destruct (between T1 t) as (tr & Hr & Hb & _); [intros u W H1 _; apply Hrest; lia|done|]. exact (settled E cf kube file _ _ _ Hn Hb Hr). Qed.
End whole.

(** When the files are left alone, the process ends up with one configuration, that of the last load that
    succeeded: configuration, watcher, store and clients are all its own, for good. *)
Theorem C78_settles E cf kube file ld0 xs ls T : whole_execution E cf kube file ld0 xs ls -> files_rest ls T -> reload_fair xs ls ->
  exists T1 n ld, T <= T1 /\ forall t, T1 <= t -> s_reload (wh_sys (xs t)) = None /\ handles (wh_sys (xs t)) = (n, n, n, n) /\
    p_loads (s_proc (wh_sys (xs t))) !! n = Some ld /\ last_load kube file ld0 (history ls t) ld.
Proof.
  intros Hex Hrest Hfair. destruct (comes_to_rest E cf kube file ld0 xs ls Hex T Hrest _ Hfair T (le_n T) (le_n _)) as (T1 & HT1 & Hn).
  pose proof (history_runs E cf kube file ld0 xs ls Hex T1) as Hr1. destruct (PropsReload.C50_between_reloads E cf kube file ld0 _ _ Hr1 Hn) as (n & Hh & Hln & _ & _).
  destruct (lookup_lt_is_Some_2 (p_loads (s_proc (sys_at xs T1))) n ltac:(lia)) as [ld Hld].
  exists T1, n, ld. split; [done|]. intros t Ht. destruct (at_rest E cf kube file ld0 xs ls Hex T Hrest T1 t HT1 Hn Ht) as (H1 & H2 & H3). fold (sys_at xs t).
  split; [done|]. split; [by rewrite H3|]. split; [by rewrite H2|].
  pose proof (history_runs E cf kube file ld0 xs ls Hex t) as Hr. destruct (last_load_ok E cf kube file ld0 _ _ Hr) as (ld' & Hll & Hlo). unfold loading in Hlo. rewrite H1 in Hlo.
  assert (ld' = ld) as ->; [|done]. rewrite last_lookup, H2, Hln in Hlo. replace (Nat.pred (n + 1)) with n in Hlo by lia. congruence.
Qed.
Print Assumptions C78_settles.

(** A request that arrives and is answered while no reload is under way. *)
Lemma answered_serve E cf kube file ld0 xs ls sv hr ta t r : whole_execution E cf kube file ld0 xs ls -> answered_at E sv xs ls hr ta t r ->
  s_reload (wh_sys (xs ta)) = None -> (forall u W, ta <= u -> u < t -> ls u <> Some (HDo (SBegin W))) ->
  exists n ld w, handles (wh_sys (xs t)) = (n, n, n, n) /\ p_loads (s_proc (wh_sys (xs t))) !! n = Some ld /\ last_load kube file ld0 (history ls t) ld /\
    p_systems (s_proc (wh_sys (xs t))) !! n = Some w /\
    serve E (ld_conf ld) (dom (ld_clients ld)) (ws_store w) (apis_of (ld_clients ld) sv) hr r.
Proof.
  intros Hex (Hlt & Hl & Hrep) Hn Hno. pose proof (history_runs E cf kube file ld0 xs ls Hex ta) as Hra. pose proof (proj2 Hex ta) as Hst. rewrite Hl in Hst.
  apply hstep_sys in Hst. destruct (between E cf kube file ld0 xs ls Hex (S ta) t) as (tr & Hr & Hb & Hh); [intros u W H1 H2; apply Hno; lia|lia|].
  destruct (C74_as_fresh E cf kube file sv ld0 _ _ _ tr _ _ hr r Hra Hst eq_refl Hr) as (n & ld & w & H1 & H2 & H3 & H4 & _ & H5); [unfold busy, sys_at; by rewrite Hn, Hb|done|].
  exists n, ld, w. split; [done|]. split; [done|]. split; [|done]. rewrite Hh. cbn [history]. by rewrite Hl.
Qed.
(** The load that answers, as a run of its own. *)
Lemma answering_part E cf kube file ld0 xs ls t n ld w : whole_execution E cf kube file ld0 xs ls ->
  p_loads (s_proc (wh_sys (xs t))) !! n = Some ld -> p_systems (s_proc (wh_sys (xs t))) !! n = Some w ->
  exists t0, t0 <= t /\ alive n (xs t0) ld /\ fstart E (ld_watch ld) (ld_index ld) (part n (xs t0)) /\ fs_w (part n (xs t)) = w.
Proof.
  intros Hex Hld Hw. destruct (birth E cf kube file ld0 xs ls Hex n t) as (t0 & ld' & Ht0 & Ha & Hs); [by eapply lookup_lt_Some|].
  destruct (alive_later E cf kube file ld0 xs ls Hex n ld' t0 t Ht0 Ha) as (w' & f & Hw' & Hf & Hl). assert (ld' = ld) as -> by congruence.
  exists t0. split; [done|]. split; [done|]. split; [done|]. unfold part. by rewrite Hw, Hf.
Qed.
(** Every reply given while no reload is under way is right for the cluster as it was after some number of its
    changes, once the goroutine of the configuration loaded last has had the first objects of its stream. *)
Theorem C78_reads E cf kube file ld0 xs ls sv hr ta t r : whole_execution E cf kube file ld0 xs ls -> answered_at E sv xs ls hr ta t r ->
  s_reload (wh_sys (xs ta)) = None -> (forall u W, ta <= u -> u < t -> ls u <> Some (HDo (SBegin W))) ->
  exists n ld, handles (wh_sys (xs t)) = (n, n, n, n) /\ last_load kube file ld0 (history ls t) ld /\
    forall i g ph f ns name, let c := cf_default (ld_conf ld) in
      alone (ld_watch ld) i g c -> is_Some (ld_index ld !! g) -> at_watch n i (xs t) ph f -> in_step ph f -> asks_for (ld_conf ld) g ns name hr ->
      tells E (ld_index ld) g c ns name (take (position f) (fd_log f)) r.
Proof.
  intros Hex Hans Hn Hno. destruct (answered_serve E cf kube file ld0 xs ls sv hr ta t r Hex Hans Hn Hno) as (n & ld & w & H1 & H2 & H3 & H4 & H5).
  exists n, ld. split; [done|]. split; [done|]. intros i g ph f ns name c Hal Hg Hat Hin Hask.
  destruct (answering_part E cf kube file ld0 xs ls t n ld w Hex H2 H4) as (t0 & Ht0 & Ha & Hst & Hw).
  destruct (part_runs E cf kube file ld0 xs ls Hex n ld t0 t Ht0 Ha) as [tr Hr].
  destruct (part_of n (xs t) ld i ph f (alive_later E cf kube file ld0 xs ls Hex n ld t0 t Ht0 Ha) Hat) as [Hp Hf]. rewrite <- Hw in H5.
  exact (proj2 (PropsFollow.C77_reads E (ld_conf ld) (ld_index ld) _ _ hr r (ld_watch ld) _ tr _ i g c ph f ns name Hst Hr Hal Hp Hf Hin Hg eq_refl Hask H5)).
Qed.
Print Assumptions C78_reads.

(** The last load, from its beginning, as an execution of its own. *)
Lemma part_execution E cf kube file ld0 xs ls T1 n ld T2 : whole_execution E cf kube file ld0 xs ls ->
  (forall t, T1 <= t -> s_reload (wh_sys (xs t)) = None /\ handles (wh_sys (xs t)) = (n, n, n, n) /\ p_loads (s_proc (wh_sys (xs t))) !! n = Some ld) -> T1 <= T2 ->
  exists t0 ys ks, t0 <= T2 /\ (forall t, t0 <= t -> alive n (xs t) ld /\ ys (t - t0) = part n (xs t)) /\
    execution E (ld_watch ld) (ld_index ld) ys ks /\ not_stopped ks /\
    (forall i, watch_fair n i xs ls -> fair i ys ks) /\ (forall i, watch_calm n i ls T2 -> calm i ks (T2 - t0)) /\ (watch_kube n ls -> only_kube ks).
Proof.
  intros Hex Hset HT2. destruct (Hset T2 HT2) as (_ & Hh2 & Hld).
  assert (exists w, p_systems (s_proc (wh_sys (xs T2))) !! n = Some w) as [w2 Hw2].
  { apply lookup_lt_is_Some_2. destruct (PropsReload.C50_between_reloads E cf kube file ld0 _ _ (history_runs E cf kube file ld0 xs ls Hex T2) (proj1 (Hset T2 HT2))) as (n' & Hh' & _ & Hl & _).
    unfold sys_at in *. assert (n' = n) as -> by congruence. lia. }
  destruct (answering_part E cf kube file ld0 xs ls T2 n ld w2 Hex Hld Hw2) as (t0 & Ht0 & Ha & Hst & _).
  assert (forall t, t0 <= t -> alive n (xs t) ld) as Hlive by (intros t Ht; by eapply alive_later).
  set (ys := fun k => part n (xs (t0 + k))). set (ks := fun k => part_label n (xs (t0 + k)) (ls (t0 + k))).
  assert (forall t, t0 <= t -> ys (t - t0) = part n (xs t)) as Hys by (intros t Ht; unfold ys; by replace (t0 + (t - t0)) with t by lia).
  assert (forall t, t0 <= t -> ks (t - t0) = part_label n (xs t) (ls t)) as Hks by (intros t Ht; unfold ks; by replace (t0 + (t - t0)) with t by lia).
  assert (execution E (ld_watch ld) (ld_index ld) ys ks) as Hpex.
  { split; [unfold ys; by rewrite Nat.add_0_r|]. intros k. unfold ys, ks. pose proof (proj2 Hex (t0 + k)) as Hstep. replace (t0 + S k) with (S (t0 + k)) by lia.
    destruct (ls (t0 + k)) as [l|] eqn:El; [|by rewrite Hstep]. apply (part_step E cf kube file _ _ _ n ld Hstep). apply Hlive. lia. }
  exists t0, ys, ks. split; [done|]. split; [intros t Ht; split; [by apply Hlive|by apply Hys]|]. split; [done|]. split; [|split; [|split]].
  - intros k Hk. pose proof (proj2 Hpex k) as Hstep. rewrite Hk in Hstep. set (t := Nat.max T1 (t0 + S k)).
    assert (ws_stop (fs_w (part n (xs t))) = true) as Htrue.
    { apply (stop_kept E cf kube file ld0 xs ls Hex n ld (t0 + S k) t); [unfold t; lia|apply Hlive; lia|]. change (part n (xs (t0 + S k))) with (ys (S k)).
      inversion Hstep as [| |y w' Hw]; subst. inversion Hw; subst. done. }
    destruct (Hset t ltac:(unfold t; lia)) as (Hnone & Hh & _). pose proof (history_runs E cf kube file ld0 xs ls Hex t) as Hrun.
    destruct (PropsReload.C50_between_reloads E cf kube file ld0 _ _ Hrun Hnone) as (n' & Hh' & _ & _ & Hstop). unfold sys_at in *. assert (n' = n) as -> by congruence.
    destruct (Hlive t ltac:(unfold t; lia)) as (w & f1 & Hw & Hf1 & _). unfold part in Htrue. rewrite Hw, Hf1 in Htrue. cbn [fs_w] in Htrue. apply (Hstop n w Hw) in Htrue. lia.
  - intros i Hwf k. destruct (Hwf (t0 + k)) as (t' & Ht' & Hc). exists (t' - t0). split; [lia|]. rewrite Hks, Hys by lia. destruct Hc as [[l Hl]|(b & f1 & Hat1 & He)].
    + left. exists l. rewrite Hl. cbn [part_label]. by rewrite decide_True.
    + right. destruct (part_of n (xs t') ld i (PStream b) f1 (Hlive t' ltac:(lia)) Hat1) as [? ?]. by exists b, f1.
  - intros i Hcalm k Hk. specialize (Hcalm (t0 + k) ltac:(lia)). unfold ks. destruct (ls (t0 + k)) as [[[W| | |a|m [j a|]|rq h|j a]|m j it]|]; cbn [part_label]; try done.
    + destruct a; try done. by destruct (decide _).
    + destruct (decide (m = n)) as [->|]; [|done]. destruct a; try done; by apply Hcalm.
    + destruct (decide (m = n)) as [->|]; [|done]. by apply Hcalm.
  - intros Hk k j ty o Hl Hty. apply (Hk (t0 + k) j ty o); [|done]. unfold ks in Hl.
    destruct (ls (t0 + k)) as [[[W| | |a|m [j' a|]|rq h|j' a]|m j' it]|]; cbn [part_label] in Hl; try discriminate Hl.
    + destruct a; try discriminate Hl. destruct (decide _); discriminate Hl.
    + destruct (decide (m = n)) as [->|]; [|discriminate Hl]. by injection Hl as -> ->.
    + destruct (decide _); discriminate Hl.
Qed.
(** When the files are left alone and a cluster comes to rest, the process comes to answer for the cluster as it
    is, for good: every GET of an object and every list of the type in the default cluster of the configuration
    loaded last, whatever was loaded and cached before. *)
Theorem C78_catches_up E cf kube file ld0 xs ls T : whole_execution E cf kube file ld0 xs ls -> files_rest ls T -> reload_fair xs ls ->
  exists T1 n ld, (forall t, T1 <= t -> handles (wh_sys (xs t)) = (n, n, n, n) /\ last_load kube file ld0 (history ls t) ld) /\
    forall i g ph f T2, let c := cf_default (ld_conf ld) in
      T1 <= T2 -> alone (ld_watch ld) i g c -> is_Some (ld_index ld !! g) -> watch_fair n i xs ls -> watch_calm n i ls T2 ->
      at_watch n i (xs T2) ph f ->
      ((exists ns name o, last_put E (default ∅ (ld_index ld !! g)) (fd_log f) ns name o) \/ ph = PStream false) ->
      exists T', forall sv hr ta t r, T1 <= ta -> T' <= t -> answered_at E sv xs ls hr ta t r ->
        (forall ns name, asks_for (ld_conf ld) g ns name hr -> tells E (ld_index ld) g c ns name (fd_log f) r) /\
        (watch_kube n ls -> c <> [] -> legal_value c -> forall ns, asks_for_list (ld_conf ld) g ns hr -> lists E (ld_index ld) (ld_conf ld) g c ns (fd_log f) r).
Proof.
  intros Hex Hrest Hfair. destruct (C78_settles E cf kube file ld0 xs ls T Hex Hrest Hfair) as (T1 & n & ld & HT1 & Hset). exists T1, n, ld.
  split; [intros t Ht; destruct (Hset t Ht) as (_ & ? & _ & ?); done|]. intros i g ph f T2 c HT2 Hal Hg Hwf Hcalm Hat Hsome.
  destruct (part_execution E cf kube file ld0 xs ls T1 n ld T2 Hex) as (t0 & ys & ks & Ht0 & Hys & Hpex & Hns & Hfi & Hci & Hki); [intros t Ht; by destruct (Hset t Ht) as (? & ? & ? & _)|done|].
  destruct (part_of n (xs T2) ld i ph f (proj1 (Hys T2 Ht0)) Hat) as [Hp Hf]. rewrite <- (proj2 (Hys T2 Ht0)) in Hp, Hf.
  destruct (PropsFollow.C77_catches_up E (ld_watch ld) (ld_index ld) ys ks i g c (T2 - t0) f Hpex Hns (Hfi i Hwf) (Hci i Hcalm) Hal Hg Hf) as [T' HT'].
  { destruct Hsome as [Hs|Hs]; [by left|right]. by rewrite Hp, Hs. }
  exists (Nat.max T1 (t0 + T')). intros sv hr ta t r Hta Ht Hans.
  destruct (answered_serve E cf kube file ld0 xs ls sv hr ta t r Hex Hans) as (n' & ld' & w & G1 & G2 & _ & G4 & G5); [by apply Hset|intros u W Hu _; apply Hrest; lia|].
  destruct (Hset t ltac:(lia)) as (_ & Hh & Hld' & _). assert (n' = n) as -> by congruence. assert (ld' = ld) as -> by congruence.
  assert (fs_w (ys (t - t0)) = w) as Hw. { destruct (Hys t ltac:(lia)) as [(w' & f1 & Hw' & Hf1 & _) ->]. unfold part. rewrite Hw', Hf1. cbn. congruence. }
  rewrite <- Hw in G5. destruct (HT' (t - t0) ltac:(lia)) as (_ & HA & HB). split.
  - intros ns name Hask. by eapply HA.
  - intros Hk Hne Hleg ns Hask. eapply HB; try done. by apply Hki.
Qed.
Print Assumptions C78_catches_up.

(** ** Finite executions *)
Section path.
  Context (E : env) (cf : bool) (kube file : gostr).
  Inductive path : whole -> list (hlabel * whole) -> Prop :=
  | path_nil x : path x []
  | path_cons x l x' p : hstep E cf kube file x l x' -> path x' p -> path x ((l, x') :: p).
  Fixpoint state_at (x : whole) (p : list (hlabel * whole)) (t : nat) : whole :=
    match t, p with S t', (_, x') :: p' => state_at x' p' t' | _, _ => x end.
  Definition path_label (p : list (hlabel * whole)) (t : nat) : option hlabel := fst <$> p !! t.
  Definition path_end (x : whole) (p : list (hlabel * whole)) : whole := state_at x p (length p).
  Lemma path_step x p : path x p -> forall t, match path_label p t with Some l => hstep E cf kube file (state_at x p t) l (state_at x p (S t)) | None => state_at x p (S t) = state_at x p t end.
  Proof.
    induction 1 as [x|x l x' p Hs Hp IH]; intros t.
    - unfold path_label. rewrite lookup_nil. by destruct t.
    - destruct t as [|t]; [cbn; by destruct p|]. specialize (IH t). unfold path_label in *. cbn [lookup list_lookup]. exact IH.
  Qed.
  Lemma path_app x p q : path x p -> path (path_end x p) q -> path x (p ++ q).
  Proof. unfold path_end. induction 1 as [x|x l x' p Hs Hp IH]; [done|]. cbn [length state_at app]. intros Hq. constructor; [done|by apply IH]. Qed.
  Lemma state_app x p q t : state_at x (p ++ q) (length p + t) = state_at (path_end x p) q t.
  Proof. unfold path_end. revert x. induction p as [|[l x'] p IH]; intros x; [done|]. cbn [length Nat.add app state_at]. apply IH. Qed.
  Lemma state_end x p t : length p <= t -> state_at x p t = path_end x p.
  Proof. unfold path_end. revert x t. induction p as [|[l x'] p IH]; intros x t; cbn [length]; [by destruct t|]. intros H. destruct t as [|t]; [lia|]. cbn [state_at]. apply IH. lia. Qed.
  Lemma path_execution ld0 x p : hstart E ld0 x -> path x p -> whole_execution E cf kube file ld0 (state_at x p) (path_label p).
  Proof. intros H0 Hp. split; [by destruct p|]. by apply path_step. Qed.
  (** The steps of one watcher. *)
  Lemma watch_path y fs n ld w f tr x : p_loads (s_proc y) !! n = Some ld -> p_systems (s_proc y) !! n = Some w -> fs !! n = Some f ->
    fruns E (ld_watch ld) (ld_index ld) (FSys w f) tr x -> (forall l, l ∈ tr -> exists a, l = FAct 0 a) ->
    exists p, path (Whole y fs) p /\ path_end (Whole y fs) p = Whole (PropsGauge.put_system n (fs_w x) y) (<[n := fs_feeds x]> fs) /\
      Forall (fun lx => exists a, lx.1 = HDo (SWatch n (WAct 0 a)) /\ FAct 0 a ∈ tr) p.
  Proof.
    intros Hl Hw Hf H Hact. induction H as [|tr x1 l x2 H IH Hst].
    - exists []. split; [constructor|]. split; [|constructor]. unfold path_end, PropsGauge.put_system. cbn [fs_w fs_feeds state_at]. rewrite !list_insert_id by done. by destruct y as [[]].
    - destruct IH as (p & Hp & Hend & Hall); [intros l' Hin; apply Hact; by right|]. destruct (Hact l) as [a ->]; [left|].
      set (y1 := PropsGauge.put_system n (fs_w x1) y) in *. set (y2 := PropsGauge.put_system n (fs_w x2) y).
      exists (p ++ [(HDo (SWatch n (WAct 0 a)), Whole y2 (<[n := fs_feeds x2]> fs))]). split; [|split].
      + apply path_app; [done|]. rewrite Hend. constructor; [|constructor].
        replace (<[n := fs_feeds x2]> fs) with (<[n := fs_feeds x2]> (<[n := fs_feeds x1]> fs)) by apply list_insert_insert.
        destruct x1 as [w1 f1], x2 as [w2 f2]. cbn [fs_w fs_feeds] in *.
        assert (p_systems (s_proc y1) !! n = Some w1) as Hw1 by (cbn; apply list_lookup_insert; by eapply lookup_lt_Some).
        apply (hs_watch E cf kube file y1 n 0 a y2 _ ld w1 w2 f1 f2); [|done|done|cbn; apply list_lookup_insert; by eapply lookup_lt_Some|apply list_lookup_insert; by eapply lookup_lt_Some|done].
        replace y2 with (PropsGauge.put_system n w2 y1) by (unfold y1, y2, PropsGauge.put_system; cbn [s_proc p_loads p_systems p_conf p_watcher p_store p_clients s_reload s_reqs]; by rewrite list_insert_insert).
        apply (ss_watch E cf kube file (s_proc y1) _ _ n ld w1 0 a w2); [done|done|]. inversion Hst; subst. done.
      + unfold path_end. rewrite app_length. cbn [length]. rewrite state_app. done.
      + apply Forall_app. split; [|constructor; [|constructor]; exists a; split; [done|left]]. eapply Forall_impl; [exact Hall|]. intros [l' x'] (a' & Ha' & Hin). exists a'. split; [done|by right].
  Qed.
End path.

(** ** An execution with a reload *)
Import PropsStore PropsProxy PropsServe PropsFollow PropsReload PropsGauge.
Definition moved_ws : list (gvr * gostr) := [(pods, c2)].
Definition moved_conf : gmap gvr (gmap gostr gostr) := {[ pods := ∅ ]}.
Definition moved_cf : gmap gostr gostr := default ∅ (moved_conf !! pods).
Definition moved_feed : list feed := [Feed [IEvent EvAdded pa] (map (IEvent EvAdded) (snap ex_env moved_cf [IEvent EvAdded pa])) []].
Definition moved_cmds : list cmd := [PropsFollow.Do 0 LCheck; PropsFollow.Do 0 LConnect; Next 0; PropsFollow.Do 0 LClean; PropsFollow.Do 0 LApply].
Definition moved : fsys := after_cmds ex_env moved_ws moved_conf (FSys (wstart moved_ws moved_conf) moved_feed) moved_cmds 5.
Lemma moved_start : fstart ex_env moved_ws moved_conf (FSys (wstart moved_ws moved_conf) moved_feed).
Proof.
  split; [reflexivity|]. split; [reflexivity|]. intros [|j] g c f Hw Hf; [|destruct j; discriminate Hw]. injection Hw as <- <-. injection Hf as <-. cbn [fd_log fd_rest fd_behind].
  split; [|split; [apply (snapshot_snap ex_env moved_cf [IEvent EvAdded pa])|reflexivity]]. constructor; [by exists EvAdded, pa|constructor].
Qed.
Lemma moved_run : exists tr, fruns ex_env moved_ws moved_conf (FSys (wstart moved_ws moved_conf) moved_feed) tr moved /\ forall l, l ∈ tr -> exists a, l = FAct 0 a /\ kube_label (Some l) = true.
Proof.
  destruct (cmds_runs ex_env moved_ws moved_conf moved_cmds (FSys (wstart moved_ws moved_conf) moved_feed) 5) as (tr & Hr & Hl). exists tr. split; [exact Hr|].
  intros l Hin. destruct (Hl l Hin) as [t Ht]. clear -Ht.
  set (lab := label_at ex_env moved_ws moved_conf (FSys (wstart moved_ws moved_conf) moved_feed) moved_cmds) in *.
  assert (t < 5) as Hlt by (destruct (decide (t < 5)) as [|Hge]; [done|]; unfold lab in Ht; rewrite label_end in Ht by (change (length moved_cmds) with 5; lia); discriminate Ht).
  assert (forallb (fun t => match lab t with Some (FAct 0 _) => kube_label (lab t) | _ => false end) (seq 0 5) = true) as Hall by (vm_compute; reflexivity).
  rewrite forallb_forall in Hall. specialize (Hall t (proj2 (in_seq 5 0 t) (conj (Nat.le_0_l t) Hlt))). rewrite Ht in Hall.
  destruct l as [[|i] a| |]; try discriminate Hall. exists a. split; [reflexivity|exact Hall].
Qed.
Definition moved_seen : option bool * option (nat * nat) * option bool :=
  (match ws_phases (fs_w moved) !! 0 with Some (PStream b) => Some b | _ => None end,
   (fun f => (length (fd_rest f), length (fd_behind f))) <$> fs_feeds moved !! 0, has (ws_store (fs_w moved)) c2).
Lemma moved_is : moved_seen = (Some false, Some (0, 0), Some true).
Proof. vm_compute. reflexivity. Qed.
Lemma moved_log : fd_log <$> fs_feeds moved !! 0 = Some [IEvent EvAdded pa].
Proof. vm_compute. reflexivity. Qed.
Lemma reload_path f0 : exists p, let y := Sys (Proc [one_load c1; one_load c2] [WSys (ws_store (wstart [(pods, c1)] moved_conf)) (ws_phases (wstart [(pods, c1)] moved_conf)) true; wstart moved_ws moved_conf] 1 1 1 1) None [] in
  path ex_env true [] (str "conf") (Whole (begun (one_load c1)) f0) p /\ path_end (Whole (begun (one_load c1)) f0) p = Whole y (f0 ++ [moved_feed]) /\ length p = 8 /\
  path_label p 0 = Some (HDo (SBegin (account_world (one_text c2)))) /\ forallb (fun lx => match lx.1 with HDo (SWatch _ _) => false | _ => true end) p = true.
Proof.
  pose proof (one_reload c2 ltac:(discriminate) conf2) as Hrl. unfold tail4 in Hrl.
  eexists [(HDo (SBegin (account_world (one_text c2))), _); (HDo (SDo (IConf (one_load c2))), _); (HDo (SDo (IBuild (one_load c2))), _);
    (HDo (SDo IStop), _); (HDo (SDo ISetWatcher), _); (HDo (SDo ISetStore), _); (HDo (SDo ISetClients), _); (HDo SDone, _)].
  intros y. split; [|split; [|split; [|split]; reflexivity]].
  - unfold begun. eapply path_cons; [apply hs_other; [eapply ss_begin'; exact Hrl|exact I]|].
    eapply path_cons; [apply hs_other; [apply ss_do|exact I]|].
    eapply path_cons; [eapply (hs_build ex_env true [] (str "conf") _ (one_load c2) _ f0 moved_feed); [apply ss_do|exact moved_start]|].
    do 4 (eapply path_cons; [apply hs_other; [apply ss_do|exact I]|]). eapply path_cons; [apply hs_other; [apply ss_done|exact I]|]. constructor.
  - reflexivity.
Qed.

(** The configuration is edited so that the default cluster has another name; the process follows, the new
    watcher receives the pod that is there, and a GET that arrives then is answered with 200. *)
Example C78_ex : exists xs ls T ta t f x, whole_execution ex_env true [] (str "conf") (one_load c1) xs ls /\
  (exists u, u < T /\ ls u = Some (HDo (SBegin (account_world (one_text c2))))) /\ files_rest ls T /\ reload_fair xs ls /\
  T <= ta /\ handles (wh_sys (xs ta)) = (1, 1, 1, 1) /\ s_reload (wh_sys (xs ta)) = None /\
  alone (ld_watch (one_load c2)) 0 pods c2 /\ is_Some (ld_index (one_load c2) !! pods) /\
  watch_fair 1 0 xs ls /\ watch_calm 1 0 ls ta /\ watch_kube 1 ls /\ at_watch 1 0 (xs ta) (PStream false) f /\ at_watch 1 0 (xs t) (PStream false) f /\ in_step (PStream false) f /\
  last_put ex_env (default ∅ (ld_index (one_load c2) !! pods)) (fd_log f) dflt (str "a") pa /\
  asks_for (ld_conf (one_load c2)) pods (Some dflt) (str "a") get_a /\
  answered_at ex_env (Servers (fun _ _ => None) (fun _ _ => None)) xs ls get_a ta t (Some (Reply 200 [BObject x])).
Proof.
  pose (sv := Servers (fun _ _ => None) (fun _ _ => None)).
  destruct moved_run as (tr & Hrun & Hact). pose proof moved_is as His. pose proof moved_log as Hlog. unfold moved_seen in His. revert Hrun His Hlog. generalize moved. intros m Hrun His Hlog.
  destruct (ws_phases (fs_w m) !! 0) as [[| |b| |]|] eqn:Hph; try discriminate His.
  destruct (fs_feeds m !! 0) as [f|] eqn:Hf; [|discriminate His]. cbn [fmap option_fmap option_map] in His, Hlog.
  assert (b = false) as -> by (injection His; intros; assumption). assert (fd_rest f = [] /\ fd_behind f = []) as [Hf1 Hf2] by (injection His; intros; split; by apply nil_length_inv).
  assert (has (ws_store (fs_w m)) c2 = Some true) as Hhas by (injection His; intros; assumption). assert (fd_log f = [IEvent EvAdded pa]) as Hl by (injection Hlog; intros; assumption). clear His Hlog.
  pose (f0 := [[Feed [] [] []]]). pose (w1 := WSys (ws_store (wstart [(pods, c1)] moved_conf)) (ws_phases (wstart [(pods, c1)] moved_conf)) true).
  pose (y1 := Sys (Proc [one_load c1; one_load c2] [w1; wstart moved_ws moved_conf] 1 1 1 1) None []).
  pose (y2 := Sys (Proc [one_load c1; one_load c2] [w1; fs_w m] 1 1 1 1) None []).
  pose (q := Req_ true [] (Some 1) None (Some 1) (Some 1) []). pose (y3 := Sys (Proc [one_load c1; one_load c2] [w1; fs_w m] 1 1 1 1) None [q]).
  pose (ya := Sys (Proc [one_load c1; one_load c2] [w1; fs_w m] 1 1 1 1) None [Req_ true [] None None None None []]).
  destruct (reload_path f0) as (p1 & Hp1 & He1 & Hn1 & Hb & Hall1). change (path_end (Whole (begun (one_load c1)) f0) p1 = Whole y1 (f0 ++ [moved_feed])) in He1.
  assert (forall l, l ∈ tr -> exists a, l = FAct 0 a) as Hact' by (intros l Hin; destruct (Hact l Hin) as (a & Ha & _); by exists a).
  destruct (watch_path ex_env true [] (str "conf") y1 (f0 ++ [moved_feed]) 1 (one_load c2) (wstart moved_ws moved_conf) moved_feed tr m eq_refl eq_refl eq_refl Hrun Hact') as (p2 & Hp2 & He2 & Hall2).
  change (path_end (Whole y1 (f0 ++ [moved_feed])) p2 = Whole y2 (f0 ++ [fs_feeds m])) in He2.
  assert (exists p3, path ex_env true [] (str "conf") (Whole y2 (f0 ++ [fs_feeds m])) p3 /\ path_end (Whole y2 (f0 ++ [fs_feeds m])) p3 = Whole y3 (f0 ++ [fs_feeds m]) /\ length p3 = 4 /\
    path_label p3 0 = Some (HDo (SArrive true [])) /\ Forall (fun lx => exists l, lx.1 = HDo l /\ ordinary l /\ forall W, l <> SBegin W) p3) as (p3 & Hp3 & He3 & Hn3 & Hb3 & Hall3).
  { eexists [(HDo (SArrive true []), _); (HDo (SReq 0 AToken1), _); (HDo (SReq 0 AClients), _); (HDo (SReq 0 AStore), _)]. split; [|split; [|split; [reflexivity|split; [reflexivity|]]]].
    - eapply path_cons; [apply hs_other; [apply ss_arrive|exact I]|]. do 3 (eapply path_cons; [apply hs_other; [eapply ss_req; reflexivity|exact I]|]). constructor.
    - reflexivity.
    - repeat constructor; (eexists; split; [reflexivity|split; [exact I|discriminate]]). }
  destruct (live_get sv y3 0 q 1 1 (one_load c2) c2 (fs_w m) true eq_refl eq_refl eq_refl eq_refl eq_refl eq_refl Hhas) as (r & Hrep & x & ->).
  pose (x0 := Whole (begun (one_load c1)) f0). pose (p := p1 ++ (p2 ++ p3)). fold x0 in Hp1, He1.
  assert (path ex_env true [] (str "conf") x0 p) as Hp. { apply path_app; [done|]. rewrite He1. apply path_app; [done|]. by rewrite He2. }
  assert (state_at x0 p (8 + length p2) = Whole y2 (f0 ++ [fs_feeds m])) as Hsa.
  { unfold p. rewrite <- Hn1, state_app, He1, <- (Nat.add_0_r (length p2)), state_app, He2. by destruct p3. }
  assert (forall k, state_at x0 p (8 + length p2 + 4 + k) = Whole y3 (f0 ++ [fs_feeds m])) as Hst.
  { intros k. unfold p. replace (8 + length p2 + 4 + k) with (length p1 + (length p2 + (4 + k))) by lia. rewrite state_app, He1, state_app, He2, state_end by lia. exact He3. }
  assert (forall u, path_label p (8 + u) = path_label (p2 ++ p3) u) as Hlab1. { intros u. unfold p, path_label. rewrite <- Hn1, lookup_app_r by lia. by rewrite Nat.add_comm, Nat.add_sub. }
  assert (forall u, path_label p (8 + length p2 + u) = path_label p3 u) as Hlab2.
  { intros u. rewrite <- Nat.add_assoc, Hlab1. unfold path_label. rewrite lookup_app_r by lia. by rewrite Nat.add_comm, Nat.add_sub. }
  assert (forall k, at_watch 1 0 (state_at x0 p (8 + length p2 + 4 + k)) (PStream false) f) as Hatw.
  { intros k. rewrite Hst. exists (fs_w m), (fs_feeds m). split; [reflexivity|]. split; [reflexivity|]. split; assumption. }
  exists (state_at x0 p), (path_label p), 8, (8 + length p2), (8 + length p2 + 4), f, x.
  split. { apply path_execution; [|exact Hp]. split; [reflexivity|]. exists [Feed [] [] []]. split; [reflexivity|]. split; [reflexivity|]. split; [reflexivity|].
    intros [|j] g c f' Hw Hf'; [|destruct j; discriminate Hw]. injection Hf' as <-. cbn [fd_log fd_rest fd_behind]. split; [constructor|]. split; [|reflexivity]. apply (snapshot_snap ex_env (default ∅ (ld_index (one_load c1) !! g)) []). }
  split. { exists 0. split; [lia|]. unfold p, path_label. rewrite lookup_app_l by lia. exact Hb. }
  split. { intros u W Hu. replace u with (8 + (u - 8)) by lia. rewrite Hlab1. unfold path_label. destruct ((p2 ++ p3) !! (u - 8)) as [[l x']|] eqn:Hlk; [|discriminate]. cbn. intros [= ->].
    apply lookup_app_Some in Hlk as [Hlk|[_ Hlk]].
    - rewrite Forall_lookup in Hall2. destruct (Hall2 _ _ Hlk) as (a & Ha & _). discriminate Ha.
    - rewrite Forall_lookup in Hall3. destruct (Hall3 _ _ Hlk) as (l & Ha & _ & Hne). injection Ha as <-. by destruct (Hne W). }
  split. { intros u. exists (8 + length p2 + 4 + u). split; [lia|]. left. by rewrite Hst. }
  split; [lia|]. rewrite Hsa. split; [reflexivity|]. split; [reflexivity|].
  split. { split; [reflexivity|]. intros [|[|j]] H; [reflexivity|discriminate H|discriminate H]. }
  split. { cbn [one_load ld_index]. rewrite lookup_singleton. by eexists. }
  split. { intros u. exists (8 + length p2 + 4 + u). split; [lia|]. right. exists false, f. split; [apply Hatw|]. by rewrite Hf1, Hf2. }
  split. { intros u Hu. replace u with (8 + length p2 + (u - (8 + length p2))) by lia. rewrite Hlab2. unfold path_label. destruct (p3 !! (u - (8 + length p2))) as [[l x']|] eqn:Hlk; [|exact I]. cbn.
    rewrite Forall_lookup in Hall3. destruct (Hall3 _ _ Hlk) as (l' & Ha & Ho & _). cbn in Ha. subst l. destruct l' as [| | | |? []| |]; try exact I; done. }
  split. { intros u j ty o Hu Hty. unfold path_label in Hu. destruct (p !! u) as [[l x']|] eqn:Hlk; [|discriminate Hu]. cbn in Hu. injection Hu as ->. unfold p in Hlk. apply lookup_app_Some in Hlk as [Hlk|[_ Hlk]]; [|apply lookup_app_Some in Hlk as [Hlk|[_ Hlk]]].
    - rewrite forallb_forall in Hall1. apply elem_of_list_lookup_2, elem_of_list_In in Hlk. specialize (Hall1 _ Hlk). discriminate Hall1.
    - rewrite Forall_lookup in Hall2. destruct (Hall2 _ _ Hlk) as (a & Ha & Hin). cbn in Ha. injection Ha as -> <-. destruct (Hact _ Hin) as (_ & _ & Hk). destruct o as [k|]; [by exists k|discriminate Hk].
    - rewrite Forall_lookup in Hall3. destruct (Hall3 _ _ Hlk) as (l & Ha & Ho & _). cbn in Ha. injection Ha as <-. destruct Ho. }
  split. { exists (fs_w m), (fs_feeds m). split; [reflexivity|]. split; [reflexivity|]. split; assumption. }
  split. { specialize (Hatw 0). by rewrite Nat.add_0_r in Hatw. }
  split; [split; [exact Hf1|exact I]|].
  split. { rewrite Hl. exists [], EvAdded, []. split; [reflexivity|]. split; [by left|]. split; [reflexivity|]. intros t' o' Hin. exfalso. exact (not_elem_of_nil _ Hin). }
  split. { split; [by left|]. split; [|split; [reflexivity|split; reflexivity]]. apply PropsFakePages.fs_addr. intros z [= <-]. by apply PropsFakePages.fs_plain. }
  split; [lia|]. split.
  { rewrite get_a_required. pose proof (Hlab2 0) as H0. rewrite Nat.add_0_r in H0. rewrite H0. exact Hb3. }
  rewrite Hsa. pose proof (Hst 0) as H0. rewrite Nat.add_0_r in H0. rewrite H0. exact Hrep.
Qed.
Print Assumptions C78_ex.
