(** C74: what clients get from the running process, across reloads. *)
From Coq Require Import Ascii String NArith ZArith Lia.
From stdpp Require Import base gmap strings list.
From Verif Require PropsServe PropsCodec PropsGauge.
From Verif Require Import ModelStr ModelJson ModelStore ModelProxy ModelObjType ModelServer ModelExtend ModelWatcher ModelReload ModelServe ModelLive
  SpecStore SpecWatcher SpecReload ProofsStr ProofsStore ProofsReload PropsReload PropsStop.

(** ** Vocabulary *)
(** What the watcher of the n-th load did. *)
Fixpoint own (n : nat) (tr : list slabel) : list wlabel :=
  match tr with
  | [] => []
  | SWatch m l :: tr' => if decide (m = n) then l :: own n tr' else own n tr'
  | _ :: tr' => own n tr'
  end.
(** The result of the last load that succeeded; the trace has the last step first. *)
Inductive last_load (kube file : gostr) (ld0 : loaded) : list slabel -> loaded -> Prop :=
| ll_start : last_load kube file ld0 [] ld0
| ll_new W tr ld : loads_as W kube file ld -> last_load kube file ld0 (SBegin W :: tr) ld
| ll_failed W tr ld : (forall ld', ~ loads_as W kube file ld') -> last_load kube file ld0 tr ld -> last_load kube file ld0 (SBegin W :: tr) ld
| ll_other l tr ld : (forall W, l <> SBegin W) -> last_load kube file ld0 tr ld -> last_load kube file ld0 (l :: tr) ld.
(** A process that was started with [ld] and not reloaded, when its watcher has done [tr] and left [w]. *)
Definition fresh_process (E : env) (cf : bool) (kube file : gostr) (ld : loaded) (tr : list wlabel) (w : wsys) : Prop :=
  sruns E cf kube file (begun ld) (map (SWatch 0) tr) (Sys (Proc [ld] [w] 0 0 0 0) None []).

Lemma own_app n a b : own n (a ++ b) = own n a ++ own n b.
Proof. induction a as [|l a IH]; [done|]. destruct l; cbn [app own]; rewrite ?IH; try done. by destruct (decide _). Qed.
Definition acts (tr : list wlabel) : list wlabel := List.filter (fun l => match l with WStop => false | _ => true end) tr.
Lemma acts_all tr : WStop ∉ tr -> acts tr = tr.
Proof. induction tr as [|l tr IH]; intros H; [done|]. rewrite not_elem_of_cons in H. destruct H as [H1 H2]. destruct l; [|done]. cbn. f_equal. by apply IH. Qed.

Section live.
  Context (E : env) (cf : bool) (kube file : gostr).
  Local Notation sstep := (sstep E cf kube file).
  Local Notation sruns := (sruns E cf kube file).

  Lemma sruns_app y tr y1 tr2 y2 : sruns y tr y1 -> sruns y1 tr2 y2 -> sruns y (tr2 ++ tr) y2.
  Proof. intros H1. induction 1; [done|]. cbn [app]. by econstructor. Qed.
  Lemma loads_kept y l y' k ld : sstep y l y' -> p_loads (s_proc y) !! k = Some ld -> p_loads (s_proc y') !! k = Some ld.
  Proof. intros H Hk. destruct H as [| | |s i p qs| | |]; try done. destruct i; try done. cbn. by apply lookup_app_l_Some. Qed.
  (** One step of the process is a step of each watcher, Stop, or nothing for it. *)
  Lemma watch_step y l y' k w ld : sstep y l y' -> p_systems (s_proc y) !! k = Some w -> p_loads (s_proc y) !! k = Some ld ->
    exists w' trk, p_systems (s_proc y') !! k = Some w' /\ wruns E (ld_watch ld) w trk w' /\ own k [l] = acts trk.
  Proof.
    intros H Hk Hld. destruct H as [s W qs|s qs|s ld1 qs|s i p qs|s r qs n ld1 w1 i l w' Hl Hw Hact|s r qs rq h|s r qs i a q q' Hq Ha]; cbn [s_proc own] in *;
      try (exists w, []; split; [done|]; split; [constructor|done]).
    - destruct i as [ld1|ld1| | | |]; cbn [do_instr p_systems]; try (exists w, []; split; [done|]; split; [constructor|done]).
      + exists w, []. split; [by apply lookup_app_l_Some|]. split; [constructor|done].
      + destruct (decide (k = p_watcher s)) as [->|Hne].
        * eexists _, [WStop]. split; [rewrite list_lookup_alter, Hk; reflexivity|]. split; [|done]. econstructor; [constructor|]. constructor.
        * exists w, []. split; [by rewrite list_lookup_alter_ne|]. split; [constructor|done].
    - cbn [p_systems]. destruct (decide (n = k)) as [->|Hne].
      + exists w', [WAct i l]. split; [apply list_lookup_insert; by eapply lookup_lt_Some|]. split; [|done]. assert (w1 = w) as -> by congruence. assert (ld1 = ld) as -> by congruence.
        econstructor; [constructor|done].
      + exists w, []. split; [by rewrite list_lookup_insert_ne|]. split; [constructor|done].
  Qed.
  Lemma acts_app a b : acts (a ++ b) = acts a ++ acts b.
  Proof. apply List.filter_app. Qed.
  Lemma wruns_app ws w tr w1 tr2 w2 : wruns E ws w tr w1 -> wruns E ws w1 tr2 w2 -> wruns E ws w (tr2 ++ tr) w2.
  Proof. intros H1. induction 1; [done|]. cbn [app]. by econstructor. Qed.
  (** So the part of an execution that concerns one watcher is an execution of it. *)
  Lemma watch_runs y tr y' k w ld : sruns y tr y' -> p_systems (s_proc y) !! k = Some w -> p_loads (s_proc y) !! k = Some ld ->
    exists w' trk, p_systems (s_proc y') !! k = Some w' /\ p_loads (s_proc y') !! k = Some ld /\ wruns E (ld_watch ld) w trk w' /\ own k tr = acts trk.
  Proof.
    intros H Hk Hld. induction H as [|tr y1 l y2 H IH Hst].
    - exists w, []. split; [done|]. split; [done|]. split; [constructor|done].
    - destruct IH as (w1 & t1 & H1 & H2 & H3 & H4). destruct (watch_step y1 l y2 k w1 ld Hst H1 H2) as (w2 & t2 & G1 & G2 & G3).
      exists w2, (t2 ++ t1). split; [done|]. split; [by eapply loads_kept|]. split; [by eapply wruns_app|].
      change (l :: tr) with ([l] ++ tr). by rewrite own_app, acts_app, G3, H4.
  Qed.
  Lemma stop_in ws w tr w' : wruns E ws w tr w' -> ws_stop w' = false -> WStop ∉ tr.
  Proof.
    induction 1 as [|tr w1 l w2 H IH Hst]; intros Hs; [apply not_elem_of_nil|]. destruct Hst as [w1 i g c ph a st' ph' H1 H2 H3|w1]; [|done].
    intros [Hx|Hx]%elem_of_cons; [done|]. by apply (IH Hs).
  Qed.
  Lemma watch_from_start ld0 tr y k w : sruns (begun ld0) tr y -> p_systems (s_proc y) !! k = Some w ->
    exists ld trk, p_loads (s_proc y) !! k = Some ld /\ wruns E (ld_watch ld) (wstart (ld_watch ld) (ld_index ld)) trk w /\ own k tr = acts trk.
  Proof.
    intros H. revert w. assert (forall y, sruns (begun ld0) tr y -> (forall w, p_systems (s_proc y) !! k = Some w ->
      exists ld trk, p_loads (s_proc y) !! k = Some ld /\ wruns E (ld_watch ld) (wstart (ld_watch ld) (ld_index ld)) trk w /\ own k tr = acts trk) /\
      (p_systems (s_proc y) !! k = None -> own k tr = [])) as Hall; [|by apply Hall].
    clear y H. intros y H. induction H as [|tr y1 l y2 H IH Hst].
    - split; [|done]. intros w Hw. destruct k as [|k]; [|done]. injection Hw as <-. exists ld0, []. split; [done|]. split; [constructor|done].
    - destruct IH as [IH1 IH2]. destruct (p_systems (s_proc y1) !! k) as [w1|] eqn:E1.
      + destruct (IH1 w1 eq_refl) as (ld & t1 & Hld & Hr & Ho). destruct (watch_step y1 l y2 k w1 ld Hst E1 Hld) as (w2 & t2 & G1 & G2 & G3). split; [|rewrite G1; discriminate].
        intros w Hw. assert (w = w2) as -> by congruence. exists ld, (t2 ++ t1). split; [by eapply loads_kept|]. split; [by eapply wruns_app|].
        change (l :: tr) with ([l] ++ tr). by rewrite own_app, acts_app, G3, Ho.
      + specialize (IH2 eq_refl). assert (own k (l :: tr) = []) as Hown.
        { destruct l; cbn [own]; try done. destruct (decide _) as [->|]; [|done]. inversion Hst; subst. cbn [s_proc] in E1. congruence. }
        split; [|done]. intros w Hw.
        assert (exists s p qs ld, y1 = Sys s (Some (Do (IBuild ld) p)) qs /\ k = length (p_systems s) /\ w = wstart (ld_watch ld) (ld_index ld) /\ y2 = Sys (do_instr (IBuild ld) s) (Some p) qs) as (s & p & qs & ld & -> & -> & -> & ->).
        { destruct Hst as [s W qs|s qs|s ld1 qs|s i p qs|s r qs n ld1 w1 i l w' Hl Hw1 Hact|s r qs rq h|s r qs i a q q' Hq Ha]; cbn [s_proc] in *; try congruence.
          - destruct i as [ld1|ld1| | | |]; cbn [do_instr p_systems] in Hw; try congruence.
            + apply lookup_snoc in Hw as [Hw|[-> <-]]; [congruence|]. by exists s, p, qs, ld1.
            + destruct (decide (k = p_watcher s)) as [->|Hne]; [rewrite list_lookup_alter, E1 in Hw; discriminate|]. rewrite list_lookup_alter_ne in Hw by done. congruence.
          - cbn [p_systems] in Hw. apply lookup_lt_Some in Hw. rewrite insert_length in Hw. apply lookup_ge_None in E1. lia. }
        pose proof (inv_runs' _ _ _ _ _ _ _ (inv_started E ld0) H) as [_ [n Hp] _ _]. cbn [s_proc s_reload] in Hp. cbn in Hp. destruct Hp as (H0 & H1 & H2 & _).
        exists ld, []. split; [cbn; by rewrite H2|]. split; [constructor|]. done.
  Qed.
  (** *** The last load *)
  Definition loading (y : sys) (ld : loaded) : Prop :=
    match s_reload y with Some (Do (IConf ld') _) => ld' = ld | _ => last (p_loads (s_proc y)) = Some ld end.
  Lemma last_load_ok ld0 tr y : sruns (begun ld0) tr y -> exists ld, last_load kube file ld0 tr ld /\ loading y ld.
  Proof.
    induction 1 as [|tr y1 l y2 H IH Hst].
    - exists ld0. split; [constructor|done].
    - destruct IH as (ld & Hl & Hc). pose proof (inv_runs' _ _ _ _ _ _ _ (inv_started E ld0) H) as [Hg _ _ _].
      destruct Hst as [s W qs|s qs|s ld1 qs|s i p qs|s r qs n ld1 w1 i l w' Hl1 Hw1 Hact|s r qs rq h|s r qs i a q q' Hq Ha]; unfold loading in *; cbn [s_proc s_reload] in *.
      + destruct (C63_load W kube file) as [(ld' & E1 & E2)|[E1 E2]].
        * exists ld'. split; [by constructor|]. unfold reload. by rewrite E1.
        * exists ld. split; [by apply ll_failed|]. unfold reload. by rewrite E1.
      + exists ld. split; [by apply ll_other|done].
      + exists ld. split; [by apply ll_other|done].
      + exists ld. split; [by apply ll_other|]. assert (exists ph, Some (Do i p) = phase_prog ph) as [ph Hph] by done.
        destruct ph as [| |l0|l0|l0|l0|l0|l0]; cbn in Hph; try discriminate Hph; injection Hph as -> ->; cbn [tail4]; try done.
        cbn [do_instr p_loads]. rewrite last_snoc. by subst.
      + exists ld. split; [by apply ll_other|]. by destruct r as [[| |[]]|].
      + exists ld. split; [by apply ll_other|]. by destruct r as [[| |[]]|].
      + exists ld. split; [by apply ll_other|]. by destruct r as [[| |[]]|].
  Qed.
  (** *** Requests outside reloads *)
  Lemma settled ya tr y : s_reload ya = None -> begins tr = 0 -> sruns ya tr y ->
    s_reload y = None /\ p_loads (s_proc y) = p_loads (s_proc ya) /\ handles y = handles ya.
  Proof.
    intros Hn Hb H. induction H as [|tr y1 l y2 H IH Hst]; [done|]. unfold begins in *. cbn [List.filter] in Hb.
    destruct IH as (H1 & H2 & H3); [by destruct l|]. unfold handles in *.
    destruct Hst as [s W qs|s qs|s ld1 qs|s i p qs|s r qs n ld1 w1 i l w' Hl Hw1 Hact|s r qs rq h|s r qs i a q q' Hq Ha]; cbn [s_reload s_proc] in *; try done.
  Qed.
  Lemma tokens_read ya i tr y q rq h : s_reqs ya !! i = Some (new_req rq h) -> sruns ya tr y -> s_reqs y !! i = Some q ->
    q_required q = rq /\ (is_Some (q_token1 q) -> rq = true) /\ (is_Some (q_token2 q) -> is_Some (q_token1 q)) /\
    (cf = false -> is_Some (q_clients q) -> is_Some (q_store q)).
  Proof.
    intros Hnew Hr. revert q. induction Hr as [|tr y1 l y2 Hr IH Hstep]; intros q Hq.
    { rewrite Hnew in Hq. injection Hq as <-. split; [done|]. cbn. split; [by intros [? ?]|]. split; [by intros [? ?]|]. by intros _ [? ?]. }
    destruct Hstep as [s W qs|s qs|s ld qs|s j p qs|s r qs m ld w j l w' Hl Hw Hact|s r qs rq' h'|s r qs j a q0 q' Hq0 Ha]; cbn [s_reqs] in *; try (by apply IH).
    - destruct (decide (i = length qs)) as [->|Hne].
      + exfalso. assert (is_Some (qs !! length qs)) as [x Hx%lookup_lt_Some]; [|lia].
        clear -Hnew Hr. assert (forall y, sruns ya tr y -> is_Some (s_reqs y !! length qs)) as Hall; [|exact (Hall _ Hr)]. clear Hr.
        intros y H. induction H as [|tr y1 l y2 H IH Hst]; [by eexists|].
        destruct Hst as [s0 W qs0|s0 qs0|s0 ld qs0|s0 j p qs0|s0 r0 qs0 m ld w j l w' Hl Hw Hact|s0 r0 qs0 rq' h'|s0 r0 qs0 j a q0 q' Hq0 Ha]; cbn [s_reqs] in *; try done.
        * destruct IH as [x Hx]. exists x. by apply lookup_app_l_Some.
        * apply lookup_lt_is_Some. rewrite insert_length. by apply lookup_lt_is_Some.
      + apply IH. apply lookup_snoc in Hq as [Hq|[? _]]; done.
    - destruct (decide (i = j)) as [->|Hne]; [|rewrite list_lookup_insert_ne in Hq by done; by apply IH].
      rewrite list_lookup_insert in Hq by (by eapply lookup_lt_Some). injection Hq as <-. destruct (IH q0 Hq0) as (H1 & H2 & H3 & H4).
      destruct q0 as [rq0 h0 t1 t2 c st lt]. unfold req_act in Ha. cbn [q_token1 q_token2 q_required q_clients q_store] in *. subst rq0.
      destruct a, t1 as [n1|], t2 as [n2|], c as [n3|], st as [n4|]; try discriminate Ha;
        repeat match type of Ha with (if ?b then _ else _) = _ => destruct b eqn:?; try discriminate Ha end;
        injection Ha as <-; cbn [q_required q_token1 q_token2 q_clients q_store]; (split; [done|]); (split; [intros [? ?]; first [done|apply H2; by eexists|discriminate]|]);
        (split; [intros [? ?]; first [discriminate|by eexists|apply H3; by eexists]|intros Hcf [? ?]; first [discriminate|by eexists|apply H4; [done|by eexists]|rewrite Hcf in *; discriminate]]).
  Qed.
  (** The token only decides between the handler and 401. *)
  Lemma dispatch_token t hr : dispatch route_handles t hr =
    match dispatch route_handles [] hr with
    | DRun h r s => if required hr && negb (str_eqb t []) && negb (contains (h_auth hr) t) then DUnauthorized else DRun h r s
    | d => d
    end.
  Proof.
    unfold dispatch, required. destruct (negb _); [done|]. destruct (find_route _ _ _) as [[rt vars]|]; [|done].
    assert (str_eqb [] [] = true) as -> by reflexivity. cbn [negb]. rewrite andb_false_r. cbn [andb]. done.
  Qed.
  Lemma arrives ya hr yb : sstep ya (SArrive (required hr) (h_auth hr)) yb -> exists s r qs, ya = Sys s r qs /\ yb = Sys s r (qs ++ [new_req (required hr) (h_auth hr)]).
  Proof. intros H. inversion H; subst. eauto. Qed.
  Lemma fresh_run ld tr w : wruns E (ld_watch ld) (wstart (ld_watch ld) (ld_index ld)) tr w -> WStop ∉ tr -> fresh_process E cf kube file ld tr w.
  Proof.
    unfold fresh_process. induction 1 as [|tr w1 l w2 H IH Hst]; intros Hno; [constructor|]. rewrite not_elem_of_cons in Hno. destruct Hno as [Hl Hno].
    cbn [map]. econstructor; [by apply IH|]. destruct l as [i a|]; [|done].
    exact (ss_watch E cf kube file (Proc [ld] [w1] 0 0 0 0) None [] 0 ld w1 i a w2 eq_refl eq_refl Hst).
  Qed.
  (** A request that comes and is answered while no reload is under way is answered as by a process that was
      started with the configuration loaded last and never reloaded, whose watcher did what the watcher of this
      load did; what earlier watchers still do does not matter. *)
  Theorem C74_as_fresh sv ld0 tr ya yb tr' y i hr r :
    sruns (begun ld0) tr ya -> sstep ya (SArrive (required hr) (h_auth hr)) yb -> i = length (s_reqs ya) -> sruns yb tr' y ->
    busy ya + begins tr' = 0 -> replied E sv y i hr r ->
    exists n ld w, let all := tr' ++ SArrive (required hr) (h_auth hr) :: tr in
      handles y = (n, n, n, n) /\ p_loads (s_proc y) !! n = Some ld /\ last_load kube file ld0 all ld /\ p_systems (s_proc y) !! n = Some w /\
      fresh_process E cf kube file ld (own n all) w /\
      serve E (ld_conf ld) (dom (ld_clients ld)) (ws_store w) (apis_of (ld_clients ld) sv) hr r.
  Proof.
    intros Hr Hst Hi Hr' Hb Hrep. destruct (arrives ya hr yb Hst) as (s & rl & qs & -> & ->). cbn [s_reqs] in Hi. subst i.
    unfold busy in Hb. cbn [s_reload] in Hb. destruct rl; [discriminate Hb|]. cbn [Nat.add] in Hb.
    assert (sruns (begun ld0) (tr' ++ SArrive (required hr) (h_auth hr) :: tr) y) as Hall.
    { eapply sruns_app; [|exact Hr']. by econstructor. }
    set (yb := Sys s None (qs ++ [new_req (required hr) (h_auth hr)])) in *.
    destruct (settled yb tr' y eq_refl Hb Hr') as (Hnone & Hloads & Hh).
    destruct (C50_between_reloads E cf kube file ld0 _ y Hall Hnone) as (n & Hn & Hln & Hsn & Hstop).
    destruct (lookup_lt_is_Some_2 (p_systems (s_proc y)) n ltac:(lia)) as [w Hw].
    destruct (watch_from_start ld0 _ y n w Hall Hw) as (ld & trk & Hld & Hrun & Hown).
    assert (ws_stop w = false) as Hws. { destruct (ws_stop w) eqn:Es; [|done]. apply Hstop in Hw. apply Hw in Es. lia. }
    pose proof (stop_in _ _ _ _ Hrun Hws) as Hno. rewrite (acts_all _ Hno) in Hown.
    destruct (last_load_ok ld0 _ y Hall) as (ld' & Hll & Hloading). unfold loading in Hloading. rewrite Hnone in Hloading.
    assert (ld' = ld) as ->. { rewrite last_lookup, Hln in Hloading. replace (Nat.pred (n + 1)) with n in Hloading by lia. congruence. }
    exists n, ld, w. cbv zeta. split; [done|]. split; [done|]. split; [done|]. split; [done|].
    split; [rewrite Hown; by apply fresh_run|].
    pose proof (inv_runs' _ _ _ _ _ _ _ (inv_started E ld0) Hr) as Hinv. pose proof (inv_step _ _ _ _ _ _ _ Hinv Hst) as Hinv'.
    pose proof (sees_new cf yb _ _ _ _ _ eq_refl) as Hsee.
    assert (s_reqs yb !! length qs = Some (new_req (required hr) (h_auth hr))) as Hq0 by (by apply list_lookup_middle).
    destruct (sees_runs _ _ _ _ _ _ _ _ Hinv' Hsee Hr') as (q & Hq & S1 & S2 & S3 & _).
    destruct (admitted_runs E cf kube file _ _ _ _ q _ _ Hinv' Hsee Hq0 Hr' Hq) as (Hrq & Hhd & Hadm).
    destruct (tokens_read _ _ _ _ q _ _ Hq0 Hr' Hq) as (_ & Ht1 & Ht2 & _).
    unfold handles in Hn, Hh. injection Hn as Hc1 Hc2 Hc3 Hc4. rewrite Hc1, Hc2, Hc3, Hc4 in Hh. injection Hh as Hb1 Hb2 Hb3 Hb4.
    assert (forall m, q_token1 q = Some m \/ q_token2 q = Some m \/ m ∈ q_later q -> m = n) as S3'. { intros m Hm. specialize (S3 m Hm). cbn in S3, Hb1. lia. }
    assert (token_of (s_proc y) n = cf_token (ld_conf ld)) as Htok by (unfold token_of; by rewrite Hld).
    destruct Hrep as [p Hd|Hd|q' h r s0 Hd Hq' Hta|q' h r s0 c m ldf ldc w' p Hd Hq' Hc Hm Hlf Hlc Hw' Hh'].
    - eapply serve_redirect. rewrite dispatch_token, Hd. reflexivity.
    - apply serve_missing. by rewrite dispatch_token, Hd.
    - assert (q' = q) as -> by congruence. apply serve_refused. rewrite dispatch_token, Hd. unfold turned_away in Hta.
      destruct (q_token2 q) as [m|] eqn:E2; [|done]. assert (m = n) as -> by (apply S3'; by right; left). rewrite Htok in Hta.
      rewrite Hhd in Hta. rewrite <- Hrq. destruct (q_required q) eqn:Er.
      + destruct (str_eqb (cf_token (ld_conf ld)) []) eqn:Et.
        * apply str_eqb_eq in Et. rewrite Et in Hta. exfalso. apply negb_true_iff, not_true_iff_false in Hta. apply Hta, contains_true. by exists [], (h_auth hr).
        * cbn [negb andb]. by rewrite Hta.
      + exfalso. assert (required hr = true) as Hx; [|congruence]. apply Ht1, Ht2. by eexists.
    - assert (q' = q) as -> by congruence. assert (c = n) as ->. { specialize (S1 c Hc). cbn in S1, Hb4. lia. }
      assert (m = n) as ->. { specialize (S2 m Hm). cbn in S2, Hb3. lia. }
      rewrite Hc1 in Hlf. assert (ldf = ld) as -> by congruence. assert (ldc = ld) as -> by congruence. assert (w' = w) as -> by congruence.
      eapply serve_run; [|exact Hh']. rewrite dispatch_token, Hd. specialize (Hadm ltac:(left; by eexists)). unfold admitted in Hadm. rewrite Hrq, Hhd in Hadm.
      destruct (required hr); [|done]. cbn [negb orb] in Hadm. destruct (q_token1 q) as [m|] eqn:E1; [|discriminate Hadm].
      assert (m = n) as -> by (apply S3'; by left). rewrite Htok in Hadm. destruct (str_eqb (cf_token (ld_conf ld)) []); [done|]. cbn [orb negb andb] in Hadm |- *.
      destruct (q_token2 q) as [m|] eqn:E2; [|discriminate Hadm]. assert (m = n) as -> by (apply S3'; by right; left). rewrite Htok in Hadm. by rewrite Hadm.
  Qed.
  (** A request that comes is answered after at most four steps of its own, whatever was done before and
      whatever else is going on. *)
  Lemma handle_total conf clients st up hr h r s : dispatch route_handles [] hr = DRun h r s -> exists p rp, handle E conf clients st up h r p /\ sent <$> finish s p = Some rp.
  Proof.
    intros Hd. destruct (PropsServe.C60_every_request_answered E conf clients st up (HttpReq (cf_token conf) (h_req hr))) as [rp Hs].
    assert (dispatch route_handles (cf_token conf) (HttpReq (cf_token conf) (h_req hr)) = DRun h r s) as Hd'.
    { rewrite dispatch_token. assert (dispatch route_handles [] (HttpReq (cf_token conf) (h_req hr)) = DRun h r s) as ->.
      { rewrite <- Hd. unfold dispatch. assert (str_eqb [] [] = true) as -> by reflexivity. cbn [negb h_req]. by destruct (negb (str_eqb _ _)); [|destruct (find_route _ _ _) as [[rt v]|]; [rewrite !andb_false_r|]]. }
      cbn [h_auth]. assert (contains (cf_token conf) (cf_token conf) = true) as ->; [apply contains_true; exists [], []; by rewrite app_nil_r|]. by rewrite andb_false_r. }
    inversion Hs; try congruence. assert (h0 = h /\ r0 = r /\ success = s) as (-> & -> & ->) by (split; [|split]; congruence). by eexists _, _.
  Qed.
  Local Notation on i := (fun l => exists a, l = SReq i a).
  Lemma own_step s rl qs i a q q' tr y : qs !! i = Some q -> req_act cf a s q = Some q' -> sruns (Sys s rl (<[i := q']> qs)) tr y -> Forall (on i) tr ->
    exists tr2, sruns (Sys s rl qs) tr2 y /\ Forall (on i) tr2 /\ length tr2 = S (length tr).
  Proof.
    intros H1 H2 H3 H4. exists (tr ++ [SReq i a]). split; [|split].
    - eapply sruns_app; [|exact H3]. econstructor; [constructor|]. by eapply ss_req.
    - apply Forall_app. split; [done|]. constructor; [by exists a|constructor].
    - rewrite app_length. cbn. lia.
  Qed.
  Lemma reads s rl qs i q : qs !! i = Some q -> admitted s q = true -> q_clients q = None -> q_store q = None ->
    exists tr, sruns (Sys s rl qs) tr (Sys s rl (<[i := Req_ (q_required q) (q_header q) (q_token1 q) (q_token2 q) (Some (p_clients s)) (Some (p_store s)) (q_later q)]> qs)) /\
      Forall (on i) tr /\ length tr = 2.
  Proof.
    intros Hq Ha Hc Hst. destruct q as [rq h t1 t2 c st l]. cbn [q_clients q_store] in *. subst c st. cbn [q_required q_header q_token1 q_token2 q_later].
    assert (forall x z, <[i:=x]> (<[i:=z]> qs) = <[i:=x]> qs) as Hins by (intros; apply list_insert_insert).
    assert (i < length qs) as Hlen by (by eapply lookup_lt_Some).
    assert (cf = true \/ cf = false) as [Ecf|Ecf] by (by destruct cf; auto).
    - destruct (own_step s rl (<[i:=Req_ rq h t1 t2 (Some (p_clients s)) None l]> qs) i AStore (Req_ rq h t1 t2 (Some (p_clients s)) None l)
        (Req_ rq h t1 t2 (Some (p_clients s)) (Some (p_store s)) l) [] _ ltac:(by apply list_lookup_insert) ltac:(cbn; rewrite Ecf; by destruct t1, t2) ltac:(constructor) ltac:(constructor)) as (tr1 & R1 & F1 & L1).
      destruct (own_step s rl qs i AClients _ _ tr1 _ Hq ltac:(cbn; rewrite Ecf, Ha; by destruct t1, t2) R1 F1) as (tr2 & R2 & F2 & L2).
      rewrite Hins in R2. exists tr2. split; [done|]. split; [done|]. cbn in L1. lia.
    - destruct (own_step s rl (<[i:=Req_ rq h t1 t2 None (Some (p_store s)) l]> qs) i AClients (Req_ rq h t1 t2 None (Some (p_store s)) l)
        (Req_ rq h t1 t2 (Some (p_clients s)) (Some (p_store s)) l) [] _ ltac:(by apply list_lookup_insert) ltac:(cbn; rewrite Ecf; by destruct t1, t2) ltac:(constructor) ltac:(constructor)) as (tr1 & R1 & F1 & L1).
      destruct (own_step s rl qs i AStore _ _ tr1 _ Hq ltac:(cbn; rewrite Ecf, Ha; by destruct t1, t2) R1 F1) as (tr2 & R2 & F2 & L2).
      rewrite Hins in R2. exists tr2. split; [done|]. split; [done|]. cbn in L1. lia.
  Qed.
  Lemma completes s rl qs i q : qs !! i = Some q -> (q_required q = false -> q_token1 q = None) -> (is_Some (q_token2 q) -> is_Some (q_token1 q)) ->
    (is_Some (q_clients q) \/ is_Some (q_store q) -> admitted s q = true) -> (cf = true -> q_clients q = None -> q_store q = None) ->
    (cf = false -> is_Some (q_clients q) -> is_Some (q_store q)) ->
    exists tr q', sruns (Sys s rl qs) tr (Sys s rl (<[i := q']> qs)) /\ Forall (on i) tr /\ length tr <= 4 /\
      (turned_away s q' = true \/ (q_clients q' = q_clients q \/ q_clients q' = Some (p_clients s)) /\ is_Some (q_clients q') /\
        (q_store q' = q_store q \/ q_store q' = Some (p_store s)) /\ is_Some (q_store q')).
  Proof.
    intros Hq Hreq Ht Hadm Hct Hcf. assert (i < length qs) as Hlen by (by eapply lookup_lt_Some).
    assert (forall x z, <[i:=x]> (<[i:=z]> qs) = <[i:=x]> qs) as Hins by (intros; apply list_insert_insert).
    assert (cf = true \/ cf = false) as Ecf by (by destruct cf; auto).
    destruct q as [rq h t1 t2 [c|] [n|] l]; cbn [q_required q_header q_token1 q_token2 q_clients q_store] in *.
    - exists [], (Req_ rq h t1 t2 (Some c) (Some n) l). rewrite list_insert_id by done. split; [constructor|]. split; [constructor|]. split; [cbn; lia|]. right.
      cbn. split; [by left|]. split; [by eexists|]. split; [by left|by eexists].
    - destruct Ecf as [Ecf|Ecf]; [|destruct (Hcf Ecf ltac:(by eexists)) as [x Hx]; discriminate Hx].
      destruct (own_step s rl qs i AStore _ (Req_ rq h t1 t2 (Some c) (Some (p_store s)) l) [] _ Hq ltac:(cbn; rewrite Ecf; by destruct t1, t2) ltac:(constructor) ltac:(constructor)) as (tr1 & R1 & F1 & L1).
      eexists tr1, _. split; [exact R1|]. split; [done|]. cbn in L1. split; [lia|]. right. cbn. split; [by left|]. split; [by eexists|]. split; [by right|by eexists].
    - destruct Ecf as [Ecf|Ecf]; [specialize (Hct Ecf eq_refl); discriminate Hct|].
      destruct (own_step s rl qs i AClients _ (Req_ rq h t1 t2 (Some (p_clients s)) (Some n) l) [] _ Hq ltac:(cbn; rewrite Ecf; by destruct t1, t2) ltac:(constructor) ltac:(constructor)) as (tr1 & R1 & F1 & L1).
      eexists tr1, _. split; [exact R1|]. split; [done|]. cbn in L1. split; [lia|]. right. cbn. split; [by right|]. split; [by eexists|]. split; [by left|by eexists].
    - clear Hadm Hct Hcf Ecf.
      assert (forall qs q, qs !! i = Some q -> q_clients q = None -> q_store q = None -> admitted s q = true ->
        exists tr q', sruns (Sys s rl qs) tr (Sys s rl (<[i := q']> qs)) /\ Forall (on i) tr /\ length tr = 2 /\
          (turned_away s q' = true \/ (q_clients q' = None \/ q_clients q' = Some (p_clients s)) /\ is_Some (q_clients q') /\
           (q_store q' = None \/ q_store q' = Some (p_store s)) /\ is_Some (q_store q'))) as Hdone.
      { intros qs0 q0 H0 H1 H2 H3. destruct (reads s rl qs0 i q0 H0 H3 H1 H2) as (tr & R & F & L). exists tr. eexists. split; [exact R|]. split; [done|]. split; [done|].
        right. cbn. split; [by right|]. split; [by eexists|]. split; [by right|by eexists]. }
      destruct rq.
      2:{ destruct (Hdone qs _ Hq eq_refl eq_refl eq_refl) as (tr & q' & R & F & L & HH). exists tr, q'. split; [done|]. split; [done|]. split; [lia|]. exact HH. }
      assert (forall qs n1 n2, qs !! i = Some (Req_ true h (Some n1) (Some n2) None None l) ->
        exists tr q', sruns (Sys s rl qs) tr (Sys s rl (<[i := q']> qs)) /\ Forall (on i) tr /\ length tr <= 2 /\
          (turned_away s q' = true \/ (q_clients q' = None \/ q_clients q' = Some (p_clients s)) /\ is_Some (q_clients q') /\
           (q_store q' = None \/ q_store q' = Some (p_store s)) /\ is_Some (q_store q'))) as H2.
      { intros qs0 n1 n2 H0. destruct (contains h (token_of s n2)) eqn:Ec.
        - destruct (Hdone qs0 _ H0 eq_refl eq_refl) as (tr & q' & R & F & L & HH); [cbn; rewrite Ec; by destruct (str_eqb _ _)|]. exists tr, q'. split; [done|]. split; [done|]. split; [lia|]. exact HH.
        - exists [], (Req_ true h (Some n1) (Some n2) None None l). rewrite list_insert_id by done. split; [constructor|]. split; [constructor|]. split; [cbn; lia|]. left. cbn. by rewrite Ec. }
      assert (forall qs n1, i < length qs -> qs !! i = Some (Req_ true h (Some n1) None None None l) ->
        exists tr q', sruns (Sys s rl qs) tr (Sys s rl (<[i := q']> qs)) /\ Forall (on i) tr /\ length tr <= 3 /\
          (turned_away s q' = true \/ (q_clients q' = None \/ q_clients q' = Some (p_clients s)) /\ is_Some (q_clients q') /\
           (q_store q' = None \/ q_store q' = Some (p_store s)) /\ is_Some (q_store q'))) as H1.
      { intros qs0 n1 Hl H0. destruct (str_eqb (token_of s n1) []) eqn:Ee.
        - destruct (Hdone qs0 _ H0 eq_refl eq_refl) as (tr & q' & R & F & L & HH); [cbn; by rewrite Ee|]. exists tr, q'. split; [done|]. split; [done|]. split; [lia|]. exact HH.
        - destruct (H2 (<[i := Req_ true h (Some n1) (Some (p_conf s)) None None l]> qs0) n1 (p_conf s)) as (tr & q' & R & F & L & HH); [by apply list_lookup_insert|].
          rewrite list_insert_insert in R.
          destruct (own_step s rl qs0 i AToken2 _ (Req_ true h (Some n1) (Some (p_conf s)) None None l) tr _ H0 ltac:(cbn; by rewrite Ee) R F) as (tr2 & R2 & F2 & L2).
          exists tr2, q'. split; [done|]. split; [done|]. split; [lia|]. exact HH. }
      destruct t1 as [n1|].
      + destruct t2 as [n2|].
        * destruct (H2 qs n1 n2 Hq) as (tr & q' & R & F & L & HH). exists tr, q'. split; [done|]. split; [done|]. split; [lia|]. exact HH.
        * destruct (H1 qs n1 Hlen Hq) as (tr & q' & R & F & L & HH). exists tr, q'. split; [done|]. split; [done|]. split; [lia|]. exact HH.
      + destruct t2 as [n2|]; [destruct (Ht ltac:(by eexists)) as [x Hx]; discriminate Hx|].
        destruct (H1 (<[i := Req_ true h (Some (p_conf s)) None None None l]> qs) (p_conf s)) as (tr & q' & R & F & L & HH); [by rewrite insert_length|by apply list_lookup_insert|].
        rewrite Hins in R. destruct (own_step s rl qs i AToken1 _ (Req_ true h (Some (p_conf s)) None None None l) tr _ Hq eq_refl R F) as (tr2 & R2 & F2 & L2).
        exists tr2, q'. split; [done|]. split; [done|]. split; [lia|]. exact HH.
  Qed.
  Theorem C74_answered sv ld0 tr ya yb tr' y i hr :
    sruns (begun ld0) tr ya -> sstep ya (SArrive (required hr) (h_auth hr)) yb -> i = length (s_reqs ya) -> sruns yb tr' y ->
    exists tr2 y2 rp, sruns y tr2 y2 /\ Forall (on i) tr2 /\ length tr2 <= 4 /\ replied E sv y2 i hr (Some rp).
  Proof.
    intros Hr Hst Hi Hr'. destruct (arrives ya hr yb Hst) as (s & rl & qs & -> & ->). cbn [s_reqs] in Hi. subst i.
    set (yb := Sys s rl (qs ++ [new_req (required hr) (h_auth hr)])) in *.
    pose proof (inv_runs' _ _ _ _ _ _ _ (inv_started E ld0) Hr) as Hinv. pose proof (inv_step _ _ _ _ _ _ _ Hinv Hst) as Hinv'.
    pose proof (sees_new cf yb _ _ _ _ _ eq_refl) as Hsee.
    assert (s_reqs yb !! length qs = Some (new_req (required hr) (h_auth hr))) as Hq0 by (by apply list_lookup_middle).
    destruct (sees_runs _ _ _ _ _ _ _ _ Hinv' Hsee Hr') as (q & Hq & S1 & S2 & S3 & S4 & S5).
    destruct (admitted_runs E cf kube file _ _ _ _ q _ _ Hinv' Hsee Hq0 Hr' Hq) as (Hrq & Hhd & Hadm).
    destruct (tokens_read _ _ _ _ q _ _ Hq0 Hr' Hq) as (_ & Ht1 & Ht2 & Ht3).
    pose proof (inv_runs' _ _ _ _ _ _ _ Hinv' Hr') as Hy. pose proof (order_inv _ _ Hy) as Hord. pose proof (conf_allocated _ _ Hy) as Hall.
    assert (p_store (s_proc y) < length (p_systems (s_proc y))) as Hsys.
    { destruct Hy as [_ [n Hp] _ _]. destruct (s_reload y) as [[|l0|[]]|]; cbn in Hp; lia. }
    destruct y as [ys yr yq]. cbn [s_proc s_reqs] in *.
    destruct (completes ys yr yq (length qs) q Hq) as (tr2 & q' & R & F & L & HH); [|done|done|done|done|].
    { intros Hf. destruct (q_token1 q); [|done]. rewrite Hrq in Hf. rewrite (Ht1 ltac:(by eexists)) in Hf. discriminate Hf. }
    exists tr2. eexists. assert (<[length qs := q']> yq !! length qs = Some q') as Hq' by (apply list_lookup_insert; by eapply lookup_lt_Some).
    destruct (dispatch route_handles [] hr) as [p| | |h r sc] eqn:Ed.
    - eexists. split; [exact R|]. split; [done|]. split; [done|]. by eapply replied_redirect.
    - eexists. split; [exact R|]. split; [done|]. split; [done|]. by eapply replied_missing.
    - exfalso. unfold dispatch in Ed. destruct (negb (str_eqb (clean_path _) _)); [done|]. destruct (find_route _ _ _) as [[rt vars]|]; [|done].
      assert (str_eqb [] [] = true) as Hx by reflexivity. rewrite Hx in Ed. cbn [negb] in Ed. rewrite andb_false_r in Ed. done.
    - destruct HH as [HH|(Hc & [c Ec] & Hn & [n En])].
      + eexists. split; [exact R|]. split; [done|]. split; [done|]. by eapply (replied_refused E sv _ _ hr q' h r sc).
      + assert (c <= p_clients ys) as Hcl by (destruct Hc as [Hc|Hc]; rewrite Ec in Hc; [destruct (S1 c (eq_sym Hc)); lia|injection Hc as ->; lia]).
        assert (n <= p_store ys) as Hnl by (destruct Hn as [Hn|Hn]; rewrite En in Hn; [destruct (S2 n (eq_sym Hn)); lia|injection Hn as ->; lia]).
        destruct (lookup_lt_is_Some_2 (p_loads ys) c ltac:(lia)) as [ldc Hldc]. destruct (lookup_lt_is_Some_2 (p_loads ys) (p_conf ys) ltac:(lia)) as [ldf Hldf].
        destruct (lookup_lt_is_Some_2 (p_systems ys) n ltac:(lia)) as [w Hw].
        destruct (handle_total (ld_conf ldf) (dom (ld_clients ldc)) (ws_store w) (apis_of (ld_clients ldc) sv) hr h r sc Ed) as (p & rp & Hp & Hx).
        eexists. split; [exact R|]. split; [done|]. split; [done|].
        pose proof (replied_run E sv (Sys ys yr (<[length qs:=q']> yq)) _ hr q' h r sc c n ldf ldc w p Ed Hq' Ec En Hldf Hldc Hw Hp) as Hfin. rewrite Hx in Hfin. exact Hfin.
  Qed.
  Lemma fresh_inv ld tr w : fresh_process E cf kube file ld tr w -> wruns E (ld_watch ld) (wstart (ld_watch ld) (ld_index ld)) tr w.
  Proof.
    unfold fresh_process. intros H. remember (map (SWatch 0) tr) as tr0 eqn:E0. remember (Sys (Proc [ld] [w] 0 0 0 0) None []) as y eqn:Ey. revert tr w E0 Ey.
    induction H as [|tr0 y1 l y2 H IH Hst]; intros tr w E0 Ey.
    - destruct tr; [|discriminate E0]. injection Ey as <-. constructor.
    - destruct tr as [|l' tr]; [discriminate E0|]. cbn [map] in E0. injection E0 as -> ->. inversion Hst as [| | | |s r qs n0 ld1 w1 i0 a w' Hl Hw Hact Hy1 Hlab Hy2| |]; subst n0 l' y1.
      rewrite Ey in Hy2. destruct s as [sa sb sc sd se sf]. cbn [p_loads p_systems p_conf p_watcher p_store p_clients] in *. injection Hy2 as -> Hb -> -> -> -> -> ->.
      injection Hl as <-. destruct sb as [|wa [|]]; try discriminate. injection Hw as ->. injection Hb as ->. econstructor; [by apply IH|done].
  Qed.
  (** During a reload the configuration, the store and the clients of a reply need not belong together: each is
      the old or the new one, the configuration not older than the store and this not older than the clients.
      A reply 401 means that a configuration in use did not let the request in, any other that one did. *)
  Theorem C74_during sv ld0 tr ya yb tr' y i hr r old :
    cf = true -> sruns (begun ld0) tr ya -> sstep ya (SArrive (required hr) (h_auth hr)) yb -> i = length (s_reqs ya) -> sruns yb tr' y ->
    busy ya + begins tr' <= 1 -> old = p_clients (s_proc ya) -> replied E sv y i hr r ->
    match dispatch route_handles [] hr with
    | DRedirect _ => r = Some (Reply 301 [])
    | DRun h rq s =>
        (exists c n k ldc ldk w p, old <= c /\ c <= n /\ n <= k /\ k <= old + 1 /\
           p_loads (s_proc y) !! c = Some ldc /\ p_systems (s_proc y) !! n = Some w /\ p_loads (s_proc y) !! k = Some ldk /\
           handle E (ld_conf ldk) (dom (ld_clients ldc)) (ws_store w) (apis_of (ld_clients ldc) sv) h rq p /\ r = sent <$> finish s p /\
           (required hr = true -> exists k', old <= k' <= old + 1 /\ lets_in y k' (h_auth hr))) \/
        (r = Some (Reply 401 [BStatus 401 (str "token missing or error")]) /\ required hr = true /\
           exists k', old <= k' <= old + 1 /\ ~ lets_in y k' (h_auth hr))
    | _ => r = Some (Reply 404 [BBytes (str "404 page not found")])
    end.
  Proof.
    intros Hcf Hr Hst Hi Hr' Hb Hold Hrep.
    pose proof (inv_runs' _ _ _ _ _ _ _ (inv_started E ld0) Hr) as Hinv. pose proof (inv_step _ _ _ _ _ _ _ Hinv Hst) as Hinv'.
    pose proof (inv_runs' _ _ _ _ _ _ _ Hinv' Hr') as Hy. pose proof (order_inv _ _ Hinv) as Ho. pose proof (order_inv _ _ Hy) as Ho'. pose proof (pot_runs _ _ _ _ _ _ _ Hinv' Hr') as Hp. pose proof (pot_start _ _ Hinv') as Hp'.
    assert (p_conf (s_proc y) <= pot y) as Hcp by (unfold pot; destruct (s_reload y) as [[| |[]]|]; lia).
    assert (p_clients (s_proc yb) = p_clients (s_proc ya) /\ busy yb = busy ya) as [E1 E2] by (by inversion Hst; subst).
    assert (p_conf (s_proc y) <= old + 1) as Hk by lia.
    destruct Hrep as [p Hd|Hd|q' h rr s0 Hd Hq' Hta|q' h rr s0 c m ldf ldc w' p Hd Hq' Hc Hm Hlf Hlc Hw' Hh']; rewrite Hd; [done|done| |].
    - right. split; [reflexivity|].
      assert (required hr = true) as Hreq.
      { destruct (arrives ya hr yb Hst) as (s & rl & qs & -> & ->). cbn [s_reqs] in Hi. subst i.
        assert (s_reqs (Sys s rl (qs ++ [new_req (required hr) (h_auth hr)])) !! length qs = Some (new_req (required hr) (h_auth hr))) as Hq0 by (by apply list_lookup_middle).
        destruct (tokens_read _ _ _ _ q' _ _ Hq0 Hr' Hq') as (_ & Ht1 & Ht2 & _). apply Ht1, Ht2. unfold turned_away in Hta. destruct (q_token2 q'); [by eexists|done]. }
      split; [done|]. rewrite Hreq in Hst. destruct (C62_turned_away E cf kube file ld0 tr tr' ya yb y (h_auth hr) i q' Hr Hst Hi Hr' Hq' Hta) as (k' & Hk' & Hl).
      exists k'. split; [lia|done].
    - left. destruct (C50_request E cf kube file ld0 tr tr' ya yb y _ _ i q' c m Hcf Hr Hst Hi Hr' Hq' Hc Hm) as (B1 & B2 & B3).
      exists c, m, (p_conf (s_proc y)), ldc, ldf, w', p. split; [lia|]. split; [lia|]. split; [lia|]. split; [lia|].
      split; [done|]. split; [done|]. split; [done|]. split; [done|]. split; [done|].
      intros Hreq. rewrite Hreq in Hst. destruct (C62_let_in E cf kube file ld0 tr tr' ya yb y (h_auth hr) i q' Hr Hst Hi Hr' Hq') as (k' & Hk' & Hl); [left; by eexists|].
      exists k'. split; [lia|done].
  Qed.
  Lemma connects_acts j tr : connects j (acts tr) = connects j tr.
  Proof. unfold acts. induction tr as [|[i []|] tr IH]; cbn [List.filter connects]; rewrite ?IH; done. Qed.
  Lemma own_in k l tr : SWatch k l ∈ tr -> l ∈ own k tr.
  Proof.
    intros H. apply elem_of_list_split in H as (a & b & ->). rewrite own_app. apply elem_of_app. right. cbn [own]. rewrite decide_True by done. by left.
  Qed.
  (** Between reloads the watchers of all loads but the last are on their way out: they do not test again
      whether to go on, and open at most one more stream each, if they were just about to. *)
  Theorem C74_old ld0 tr y tr' y' k j :
    sruns (begun ld0) tr y -> s_reload y = None -> k < p_watcher (s_proc y) -> sruns y tr' y' ->
    SWatch k (WAct j LCheck) ∉ tr' /\ exists w, p_systems (s_proc y) !! k = Some w /\ connects j (own k tr') <= passed (ws_phases w !! j).
  Proof.
    intros Hr Hn Hk Hr'. destruct (C50_between_reloads E cf kube file ld0 tr y Hr Hn) as (n & Hh & Hl1 & Hl2 & Hstop). unfold handles in Hh. injection Hh as H1 H2 H3 H4.
    destruct (lookup_lt_is_Some_2 (p_systems (s_proc y)) k ltac:(lia)) as [w Hw]. destruct (lookup_lt_is_Some_2 (p_loads (s_proc y)) k ltac:(lia)) as [ld Hld].
    assert (ws_stop w = true) as Hs by (apply (Hstop k w Hw); lia).
    destruct (watch_runs y tr' y' k w ld Hr' Hw Hld) as (w' & trk & _ & _ & Hrun & Hown).
    destruct (C65_no_new_stream E (ld_watch ld) w trk w' j Hrun Hs) as [C1 C2]. split.
    - intros Hin%own_in. rewrite Hown in Hin. apply C1. unfold acts in Hin. apply elem_of_list_In, filter_In in Hin as [Hin _]. by apply elem_of_list_In.
    - exists w. split; [done|]. rewrite Hown, connects_acts. exact C2.
  Qed.
End live.
Print Assumptions C74_as_fresh.
Print Assumptions C74_answered.
Print Assumptions C74_during.
Print Assumptions C74_old.

From Verif Require Import ModelJsonText ModelCodec SpecProxy SpecServer SpecServe SpecObjType SpecCodec PropsStore PropsObjType PropsWatcher PropsServe PropsCodec PropsGauge.
(** Reading an object over HTTP outside reloads: it is the last document that the API server has sent on the
    stream of the watcher started by the last load, with the annotations of ckube, or 404 if there is none,
    whatever was sent to the watchers of earlier loads. *)
Theorem C74_get E JE cd cf kube file sv ld0 tr ya yb tr' y i hr r : lawful JE ->
  sruns E cf kube file (begun ld0) tr ya -> sstep E cf kube file ya (SArrive (required hr) (h_auth hr)) yb -> i = length (s_reqs ya) -> sruns E cf kube file yb tr' y ->
  busy ya + begins tr' = 0 -> replied E sv y i hr r ->
  exists n ld w, let seq := own n (tr' ++ SArrive (required hr) (h_auth hr) :: tr) in
    last_load kube file ld0 (tr' ++ SArrive (required hr) (h_auth hr) :: tr) ld /\ p_watcher (s_proc y) = n /\ p_systems (s_proc y) !! n = Some w /\
    forall j g kind evs ns name, proper g -> cd_known cd (g.1.1, g.1.2, kind) = false -> Forall (about g kind) evs -> Forall (readable g kind) evs ->
      alone (ld_watch ld) j g (cf_default (ld_conf ld)) -> is_Some (ld_index ld !! g) -> valid_utf8 (cf_default (ld_conf ld)) = true ->
      latest j seq <> [] -> latest j seq `prefix_of` (deliver JE cd evs).1 -> (forall f x, ws_phases w !! j <> Some (PGot f x)) ->
      authorised (ld_conf ld) hr -> api_addr g ns (Some name) -> rq_method (h_req hr) = str "GET" -> rq_path (h_req hr) = api_path g ns (Some name) -> rq_raw (h_req hr) = [] ->
      (forall o, last_sent JE (take (seen j seq) evs) (default [] ns) name o -> me_deleted (t_meta o) <> Some None ->
         exists x o', r = Some (Reply 200 [BObject x]) /\ annotated_as (cf_default (ld_conf ld)) o o' /\ (exists s, prints x s) /\ forall s, prints x s -> decode_obj JE s = Ok o') /\
      ((forall o, ~ last_sent JE (take (seen j seq) evs) (default [] ns) name o) -> r = Some (Reply 404 [BStatus 404 (str "resource not found")])).
Proof.
  intros HJ H1 H2 H3 H4 H5 H6. destruct (C74_as_fresh E cf kube file sv ld0 tr ya yb tr' y i hr r H1 H2 H3 H4 H5 H6) as (n & ld & w & Hh & Hld & Hll & Hw & Hf & Hs).
  exists n, ld, w. cbv zeta. split; [done|]. split; [unfold handles in Hh; by injection Hh|]. split; [done|].
  intros j g kind evs ns name Hp Hk HF HR Ha Hi Hv Hne Hpre Hgot Hau Had Hm Hpath Hraw.
  eapply (C69_get E JE cd (ld_watch ld) (ld_index ld)); try done. split; [by eapply fresh_inv|]. done.
Qed.
Print Assumptions C74_get.

(** Between reloads a write goes to the API server of the cluster it names, through the client that the
    configuration loaded last gives this cluster, and the reply is that server's. *)
Lemma wruns_history E ws conf tr w : wruns E ws (wstart ws conf) tr w -> exists h, run_calls E (new_store conf) h = Ok (ws_store w).
Proof.
  induction 1 as [|tr w l w' Hr [h IH] Hst]; [by exists []|]. destruct Hst as [w i g c ph l st' ph' _ _ Ha|w]; [|by exists h]. cbn [ws_store].
  assert (forall cs, run_calls E (ws_store w) cs = Ok st' -> exists h, run_calls E (new_store conf) h = Ok st') as Hcs.
  { intros cs Hc. exists (h ++ cs). by rewrite ProofsStore.run_app, IH. }
  destruct Ha; eauto.
Qed.
Theorem C74_write E cf kube file sv ld0 tr ya yb tr' y i hr r :
  sruns E cf kube file (begun ld0) tr ya -> sstep E cf kube file ya (SArrive (required hr) (h_auth hr)) yb -> i = length (s_reqs ya) -> sruns E cf kube file yb tr' y ->
  busy ya + begins tr' = 0 -> replied E sv y i hr r ->
  exists ld, last_load kube file ld0 (tr' ++ SArrive (required hr) (h_auth hr) :: tr) ld /\
    (authorised (ld_conf ld) hr -> canonical (rq_path (h_req hr)) -> rq_method (h_req hr) <> str "GET" ->
     exists vars rp, r = Some rp /\ let rq := with_vars (h_req hr) vars in
     (exists c cl r1 r', ld_clients ld !! c = Some cl /\ rq_method rq ∈ methods /\ target (ld_conf ld) rq c /\ untagged rq r1 /\ same_request r1 r' /\
        ((~ watch_req rq /\ params r' = params r1 /\ relays_raw (sv_raw sv cl r') rp) \/
         (watch_req rq /\ relays_stream (sv_stream sv cl r') rp))) \/
     (exists c, target (ld_conf ld) rq c /\ ld_clients ld !! c = None /\ rp = Reply 404 [BStatus 404 (str "cluster not found")]) \/
     rq_method rq ∉ methods /\ rp = Reply 500 [BError]).
Proof.
  intros H1 H2 H3 H4 H5 H6. destruct (C74_as_fresh E cf kube file sv ld0 tr ya yb tr' y i hr r H1 H2 H3 H4 H5 H6) as (n & ld & w & Hh & Hld & Hll & Hw & Hf & Hs).
  exists ld. split; [done|]. intros Hau Hc Hm. destruct (wruns_history E _ _ _ _ (fresh_inv E cf kube file ld _ w Hf)) as [h Hrun].
  destruct (C60_write E (ld_conf ld) (ld_index ld) h (ws_store w) _ _ hr r Hrun Hau Hc Hm Hs) as (vars & rp & -> & Hx).
  exists vars, rp. split; [done|]. cbv zeta in Hx |- *. destruct Hx as [(c & r1 & r' & Hin & A & B & C & D & F)|[(c & A & B & C)|Hx]]; [left|right; left|right; right; exact Hx].
  - apply elem_of_dom in Hin as [cl Hcl]. exists c, cl, r1, r'. split; [done|]. split; [done|]. split; [done|]. split; [done|]. split; [done|].
    unfold apis_of in F. cbn [ap_raw ap_stream] in F. rewrite Hcl in F. exact F.
  - exists c. split; [done|]. split; [by apply not_elem_of_dom|done].
Qed.
Print Assumptions C74_write.

(** ** Findings *)
(** A service account, one cached type, and a name for the cluster. *)
Definition one_text (d : gostr) : gostr :=
  str "{""default_cluster"": """ ++ d ++ str """, ""proxies"": [{""version"": ""v1"", ""resource"": ""pods"", ""list_kind"": ""PodList""}]}".
Definition one_load (d : gostr) : loaded := Loaded (Config d [] [(pods, str "PodList")]) {[ d := 7%N ]} {[ pods := ∅ ]} [(pods, d)].
Lemma one_reload d : d <> [] -> decode_conf (one_text d) = Some (FileConf [ProxyConf pods (str "PodList") ∅] d []) ->
  reload (account_world (one_text d)) [] (str "conf") = Do (IConf (one_load d)) (Do (IBuild (one_load d)) (tail4 (one_load d))).
Proof.
  intros Hd H. unfold reload, load. change (w_read (account_world (one_text d)) (str "conf")) with (Some (one_text d)). cbv iota. rewrite H.
  unfold load_clusters. change (w_stat (account_world (one_text d)) (default_kube (account_world (one_text d)))) with false.
  change (w_rest (account_world (one_text d)) [] []) with true. change (w_client (account_world (one_text d)) [] []) with (Some 7%N). cbv iota zeta.
  destruct d as [|a d]; [done|]. unfold one_load. cbn [fc_default fc_proxies]. unfold watch_list. rewrite map_to_list_singleton. reflexivity.
Qed.
Lemma conf1 : decode_conf (one_text c1) = Some (FileConf [ProxyConf pods (str "PodList") ∅] c1 []).
Proof. vm_compute. reflexivity. Qed.
Lemma conf2 : decode_conf (one_text c2) = Some (FileConf [ProxyConf pods (str "PodList") ∅] c2 []).
Proof. vm_compute. reflexivity. Qed.
(** The watcher receives pod a. *)
Definition one_run : list wlabel := rev [WAct 0 LCheck; WAct 0 LConnect; WAct 0 (LRecv (put "a")); WAct 0 LClean; WAct 0 LApply].
Definition has (st : store) (d : gostr) : option bool :=
  if is_store_gvr st pods then Some (match store_get st pods d dflt (str "a") with Some _ => true | None => false end) else None.
Lemma one_runs d d' : match exec ex_env [(pods, d)] (wstart [(pods, d)] {[ pods := ∅ ]}) one_run with
    | Some w => match has (ws_store w) d, has (ws_store w) d' with Some true, Some false => true | _, _ => false end | None => false end = true ->
  exists w, wruns ex_env [(pods, d)] (wstart [(pods, d)] {[ pods := ∅ ]}) one_run w /\ has (ws_store w) d = Some true /\ has (ws_store w) d' = Some false.
Proof.
  intros H. set (o := exec _ _ _ _) in H. assert (exec ex_env [(pods, d)] (wstart [(pods, d)] {[ pods := ∅ ]}) one_run = o) as Ho by done. clearbody o.
  destruct o as [w|]; [|done]. exists w. split; [by apply exec_ok|]. destruct (has (ws_store w) d) as [[]|], (has (ws_store w) d') as [[]|]; done.
Qed.
Lemma lift_runs E cf k f y n ld w tr w' : p_loads (s_proc y) !! n = Some ld -> p_systems (s_proc y) !! n = Some w -> wruns E (ld_watch ld) w tr w' -> WStop ∉ tr ->
  sruns E cf k f y (map (SWatch n) tr) (put_system n w' y).
Proof.
  intros Hl Hw. induction 1 as [|tr w1 l w2 Hr IH Hst]; intros Hno.
  - assert (put_system n w y = y) as ->; [|constructor]. unfold put_system. rewrite list_insert_id by done. by destruct y as [[]].
  - destruct l as [i a|]; [|destruct Hno; left]. cbn [map]. econstructor; [apply IH; intros Hin; apply Hno; by right|].
    replace (put_system n w2 y) with (put_system n w2 (put_system n w1 y)) by (unfold put_system; cbn [s_proc p_loads p_systems p_conf p_watcher p_store p_clients s_reload s_reqs]; by rewrite list_insert_insert).
    apply (ss_watch E cf k f (s_proc (put_system n w1 y)) _ _ n ld w1 i a w2); [done| |done]. cbn. apply list_lookup_insert. by eapply lookup_lt_Some.
Qed.
Lemma one_nostop : WStop ∉ one_run.
Proof. intros Hin. unfold one_run in Hin. cbn in Hin. rewrite !elem_of_cons, elem_of_nil in Hin. destruct_or?; done. Qed.
Definition get_a : http_req := ex_hreq (api_path pods (Some dflt) (Some (str "a"))).
Lemma get_a_required : required get_a = true.
Proof. vm_compute. reflexivity. Qed.
Lemma get_a_dispatch : dispatch route_handles [] get_a = DRun HProxy (with_vars (h_req get_a) (get_vars "a")) 200.
Proof. vm_compute. reflexivity. Qed.
Lemma live_get sv y i q c n ldc d w b : s_reqs y !! i = Some q -> q_clients q = Some c -> q_store q = Some n ->
  p_loads (s_proc y) !! p_conf (s_proc y) = Some (one_load d) -> p_loads (s_proc y) !! c = Some ldc -> p_systems (s_proc y) !! n = Some w ->
  has (ws_store w) d = Some b ->
  exists r, replied ex_env sv y i get_a r /\ if b then exists x, r = Some (Reply 200 [BObject x]) else r = Some (Reply 404 [BStatus 404 (str "resource not found")]).
Proof.
  intros Hq Hc Hn Hk Hlc Hw Hhas. unfold has in Hhas. destruct (is_store_gvr (ws_store w) pods) eqn:Hs; [|discriminate Hhas].
  eexists. split.
  - eapply (replied_run ex_env sv y i get_a q HProxy _ 200 c n _ ldc w _ get_a_dispatch Hq Hc Hn Hk Hlc Hw). apply handle_proxy.
    set (r := with_vars _ _). assert (parse_clean (ld_conf (one_load d)) [] r = inr (zero_page, None, d, with_raw r [])) as Hpc by reflexivity.
    assert (var r (str "resource") = str "a") as Hv by reflexivity. assert (var r (str "namespace") = dflt) as Hns by reflexivity.
    pose proof (proxy_get ex_env (ld_conf (one_load d)) (dom (ld_clients ldc)) (ws_store w) r [] _ _ _ _ (reflexivity _) Hpc) as H. change (req_gvr r) with pods in H. rewrite Hv, Hns in H.
    apply H; [by rewrite Hs|discriminate].
  - destruct (store_get (ws_store w) pods d dflt (str "a")) as [x|]; injection Hhas as <-; [exists x; reflexivity|reflexivity].
Qed.
Lemma run_to E cf k f y tr z z' : sruns E cf k f y tr z -> z = z' -> sruns E cf k f y tr z'.
Proof. by intros H <-. Qed.
Local Ltac go := first [apply sruns_nil|eapply sruns_cons; [go|first [apply ss_do|eapply ss_begin'; eassumption|apply ss_arrive|apply ss_done|apply ss_fail|eapply ss_req; [reflexivity|reflexivity]]]].
(** A reload of an unchanged configuration forgets what is cached: an object that was found is not found,
    although no reload is under way any more, the API server is the same, and no deletion was sent. *)
Theorem C74_restart_refuted : exists E kube file W ld tr y tr' y' sv hr x, loads_as W kube file ld /\ sruns E true kube file (begun ld) tr y /\
  replied E sv y 0 hr (Some (Reply 200 [BObject x])) /\ sruns E true kube file y tr' y' /\ (forall W', SBegin W' ∈ tr' -> W' = W) /\ s_reload y' = None /\
  p_loads (s_proc y') = [ld; ld] /\ (forall n l, SWatch n l ∉ tr') /\ replied E sv y' 1 hr (Some (Reply 404 [BStatus 404 (str "resource not found")])).
Proof.
  pose proof (one_reload c1 ltac:(discriminate) conf1) as Hrl.
  destruct (one_runs c1 c2 ltac:(by vm_compute)) as (w & Hrun & Hh1 & _).
  pose (sv := Servers (fun _ _ => None) (fun _ _ => None)).
  pose (y1 := Sys (Proc [one_load c1] [w] 0 0 0 0) None []).
  pose (q0 := Req_ true [] (Some 0) None (Some 0) (Some 0) []).
  pose (y := Sys (Proc [one_load c1] [w] 0 0 0 0) None [q0]).
  pose proof (lift_runs ex_env true [] (str "conf") (begun (one_load c1)) 0 (one_load c1) _ one_run w eq_refl eq_refl Hrun one_nostop) as Hr1. change (put_system 0 w (begun (one_load c1))) with y1 in Hr1.
  assert (sruns ex_env true [] (str "conf") y1 [SReq 0 AStore; SReq 0 AClients; SReq 0 AToken1; SArrive true []] y) as Hr2 by (eapply run_to; [unfold y1; go|reflexivity]).
  destruct (live_get sv y 0 q0 0 0 (one_load c1) c1 w true eq_refl eq_refl eq_refl eq_refl eq_refl eq_refl Hh1) as (r & Hrep & x & ->).
  pose (w0 := wstart [(pods, c1)] {[ pods := ∅ ]}).
  pose (y' := Sys (Proc [one_load c1; one_load c1] [WSys (ws_store w) (ws_phases w) true; w0] 1 1 1 1) None [q0; Req_ true [] (Some 1) None (Some 1) (Some 1) []]).
  unfold tail4 in Hrl.
  assert (sruns ex_env true [] (str "conf") y ([SReq 1 AStore; SReq 1 AClients; SReq 1 AToken1; SArrive true []] ++
    [SDone; SDo ISetClients; SDo ISetStore; SDo ISetWatcher; SDo IStop; SDo (IBuild (one_load c1)); SDo (IConf (one_load c1)); SBegin (account_world (one_text c1))]) y') as Hr3.
  { apply (sruns_app _ _ _ _ _ _ (Sys (Proc [one_load c1; one_load c1] [WSys (ws_store w) (ws_phases w) true; w0] 1 1 1 1) None [q0])); (eapply run_to; [unfold y; go|reflexivity]). }
  assert (has (ws_store w0) c1 = Some false) as Hh0 by (vm_compute; reflexivity).
  destruct (live_get sv y' 1 _ 1 1 (one_load c1) c1 w0 false eq_refl eq_refl eq_refl eq_refl eq_refl eq_refl Hh0) as (r' & Hrep' & ->).
  eexists ex_env, [], (str "conf"), (account_world (one_text c1)), (one_load c1), _, y, _, y', sv, get_a, x.
  split.
  { destruct (C63_load (account_world (one_text c1)) [] (str "conf")) as [(ld' & E1 & E2)|[E1 _]]; unfold reload in Hrl; rewrite E1 in Hrl; [|discriminate Hrl].
    injection Hrl as -> _. exact E2. }
  split; [eapply sruns_app; [exact Hr1|exact Hr2]|]. split; [exact Hrep|]. split; [exact Hr3|]. split.
  { intros W' Hin. rewrite elem_of_list_In in Hin. cbn in Hin. destruct_or?; try discriminate; try done. by injection Hin. }
  split; [done|]. split; [done|]. split; [|exact Hrep'].
  intros n l Hin. rewrite elem_of_list_In in Hin. cbn in Hin. destruct_or?; discriminate || done.
Qed.
Print Assumptions C74_restart_refuted.
(** The default cluster gets another name and the API server stays the same: a pod that is found before and
    after the reload is not found during it, although its watchers, old and new, both know it, since the new
    name is looked up in the old store. *)
Theorem C74_mixed_refuted : exists E kube file W ld tr0 y0 tr1 y1 tr2 y2 sv hr x x', sruns E true kube file (begun ld) tr0 y0 /\
  replied E sv y0 0 hr (Some (Reply 200 [BObject x])) /\
  sruns E true kube file y0 tr1 y1 /\ begins tr1 = 1 /\ SBegin W ∈ tr1 /\ replied E sv y1 1 hr (Some (Reply 404 [BStatus 404 (str "resource not found")])) /\
  sruns E true kube file y1 tr2 y2 /\ begins tr2 = 0 /\ s_reload y2 = None /\ replied E sv y2 2 hr (Some (Reply 200 [BObject x'])) /\
  (forall n l, SWatch n l ∉ tr2) /\ (forall l, SWatch 0 l ∉ tr1).
Proof.
  pose proof (one_reload c2 ltac:(discriminate) conf2) as Hrl.
  destruct (one_runs c1 c2 ltac:(by vm_compute)) as (w & Hrun & Hh1 & Hh12). destruct (one_runs c2 c1 ltac:(by vm_compute)) as (w' & Hrun' & Hh2 & _).
  pose (sv := Servers (fun _ _ => None) (fun _ _ => None)). pose (w0 := wstart [(pods, c2)] {[ pods := ∅ ]}).
  pose (q0 := Req_ true [] (Some 0) None (Some 0) (Some 0) []). pose (q1 := Req_ true [] (Some 1) None (Some 0) (Some 0) []). pose (q2 := Req_ true [] (Some 1) None (Some 1) (Some 1) []).
  pose (ya := Sys (Proc [one_load c1] [w] 0 0 0 0) None []). pose (y0 := Sys (Proc [one_load c1] [w] 0 0 0 0) None [q0]).
  pose (yb := Sys (Proc [one_load c1; one_load c2] [w; w0] 1 0 0 0) (Some (tail4 (one_load c2))) [q0]). pose (yc := Sys (Proc [one_load c1; one_load c2] [w; w'] 1 0 0 0) (Some (tail4 (one_load c2))) [q0]).
  pose (y1 := Sys (Proc [one_load c1; one_load c2] [w; w'] 1 0 0 0) (Some (tail4 (one_load c2))) [q0; q1]).
  pose (y2 := Sys (Proc [one_load c1; one_load c2] [WSys (ws_store w) (ws_phases w) true; w'] 1 1 1 1) None [q0; q1; q2]).
  pose proof (lift_runs ex_env true [] (str "conf") (begun (one_load c1)) 0 (one_load c1) _ one_run w eq_refl eq_refl Hrun one_nostop) as Hr1. change (put_system 0 w (begun (one_load c1))) with ya in Hr1.
  assert (sruns ex_env true [] (str "conf") ya [SReq 0 AStore; SReq 0 AClients; SReq 0 AToken1; SArrive true []] y0) as Hr2 by (eapply run_to; [unfold ya; go|reflexivity]).
  pose proof (lift_runs ex_env true [] (str "conf") yb 1 (one_load c2) _ one_run w' eq_refl eq_refl Hrun' one_nostop) as Hr4. change (put_system 1 w' yb) with yc in Hr4.
  assert (sruns ex_env true [] (str "conf") y0 [SDo (IBuild (one_load c2)); SDo (IConf (one_load c2)); SBegin (account_world (one_text c2))] yb) as Hr3.
  { eapply run_to; [unfold y0; go|reflexivity]. }
  assert (sruns ex_env true [] (str "conf") yc [SReq 1 AStore; SReq 1 AClients; SReq 1 AToken1; SArrive true []] y1) as Hr5 by (eapply run_to; [unfold yc; go|reflexivity]).
  assert (sruns ex_env true [] (str "conf") y1 [SReq 2 AStore; SReq 2 AClients; SReq 2 AToken1; SArrive true []; SDone; SDo ISetClients; SDo ISetStore; SDo ISetWatcher; SDo IStop] y2) as Hr6.
  { eapply run_to; [unfold y1, tail4; go|reflexivity]. }
  destruct (live_get sv y0 0 q0 0 0 (one_load c1) c1 w true eq_refl eq_refl eq_refl eq_refl eq_refl eq_refl Hh1) as (r & Hrep & x & ->).
  destruct (live_get sv y1 1 q1 0 0 (one_load c1) c2 w false eq_refl eq_refl eq_refl eq_refl eq_refl eq_refl Hh12) as (r & Hrep1 & ->).
  destruct (live_get sv y2 2 q2 1 1 (one_load c2) c2 w' true eq_refl eq_refl eq_refl eq_refl eq_refl eq_refl Hh2) as (r & Hrep2 & x' & ->).
  eexists ex_env, [], (str "conf"), (account_world (one_text c2)), (one_load c1), _, y0, _, y1, _, y2, sv, get_a, x, x'.
  split; [eapply sruns_app; [exact Hr1|exact Hr2]|]. split; [exact Hrep|].
  split; [eapply sruns_app; [eapply sruns_app; [exact Hr3|exact Hr4]|exact Hr5]|]. split; [reflexivity|].
  split; [rewrite !elem_of_app, !elem_of_cons; tauto|]. split; [exact Hrep1|]. split; [exact Hr6|]. split; [reflexivity|]. split; [reflexivity|]. split; [exact Hrep2|]. split.
  - intros n l Hin. rewrite elem_of_list_In in Hin. cbn in Hin. destruct_or?; discriminate || done.
  - intros l Hin. rewrite elem_of_list_In in Hin. cbn in Hin. destruct_or?; discriminate || done.
Qed.
Print Assumptions C74_mixed_refuted.
(** A request after a reload, with the watcher of the load before still there and a pod received by the new one. *)
Example C74_ex : exists tr ya yb tr' y r x, sruns ex_env true [] (str "conf") (begun (one_load c1)) tr ya /\
  sstep ex_env true [] (str "conf") ya (SArrive (required get_a) (h_auth get_a)) yb /\ s_reqs ya = [] /\ sruns ex_env true [] (str "conf") yb tr' y /\
  busy ya + begins tr' = 0 /\ begins tr = 1 /\ replied ex_env (Servers (fun _ _ => None) (fun _ _ => None)) y 0 get_a r /\ r = Some (Reply 200 [BObject x]) /\
  p_watcher (s_proc y) = 1 /\ own 1 tr = one_run /\ own 0 tr' = [].
Proof.
  pose proof (one_reload c2 ltac:(discriminate) conf2) as Hrl. destruct (one_runs c2 c1 ltac:(by vm_compute)) as (w' & Hrun' & Hh2 & _).
  pose (sv := Servers (fun _ _ => None) (fun _ _ => None)). pose (w1 := wstart [(pods, c1)] {[ pods := ∅ ]}). pose (w2 := wstart [(pods, c2)] {[ pods := ∅ ]}).
  pose (q := Req_ true [] (Some 1) None (Some 1) (Some 1) []).
  pose (y0 := Sys (Proc [one_load c1; one_load c2] [WSys (ws_store w1) (ws_phases w1) true; w2] 1 1 1 1) None []).
  pose (ya := Sys (Proc [one_load c1; one_load c2] [WSys (ws_store w1) (ws_phases w1) true; w'] 1 1 1 1) None []).
  pose (y := Sys (Proc [one_load c1; one_load c2] [WSys (ws_store w1) (ws_phases w1) true; w'] 1 1 1 1) None [q]). unfold tail4 in Hrl.
  assert (sruns ex_env true [] (str "conf") (begun (one_load c1)) [SDone; SDo ISetClients; SDo ISetStore; SDo ISetWatcher; SDo IStop; SDo (IBuild (one_load c2)); SDo (IConf (one_load c2)); SBegin (account_world (one_text c2))] y0) as Hr1.
  { eapply run_to; [unfold begun; go|reflexivity]. }
  pose proof (lift_runs ex_env true [] (str "conf") y0 1 (one_load c2) _ one_run w' eq_refl eq_refl Hrun' one_nostop) as Hr2. change (put_system 1 w' y0) with ya in Hr2.
  destruct (live_get sv y 0 q 1 1 (one_load c2) c2 w' true eq_refl eq_refl eq_refl eq_refl eq_refl eq_refl Hh2) as (r & Hrep & x & ->).
  eexists _, ya, _, [SReq 0 AStore; SReq 0 AClients; SReq 0 AToken1], y, _, x. split; [eapply sruns_app; [exact Hr1|exact Hr2]|]. rewrite get_a_required.
  split; [apply ss_arrive|]. split; [done|]. split; [eapply run_to; [unfold ya; cbn [app]; go|reflexivity]|]. split; [reflexivity|]. split; [reflexivity|]. split; [exact Hrep|]. repeat split.
Qed.
(** The hypotheses of C74_get for a custom type, and a reply. *)
Definition sc_load : loaded := Loaded sc_cf {[ c1 := 7%N ]} (only sidecars) [(sidecars, c1)].
Example C74_ex_get : exists ya yb tr' y r w, sruns ex_env true [] (str "conf") (begun sc_load) (map (SWatch 0) sc_trace) ya /\
  sstep ex_env true [] (str "conf") ya (SArrive (required sc_hreq) (h_auth sc_hreq)) yb /\ s_reqs ya = [] /\ sruns ex_env true [] (str "conf") yb tr' y /\
  busy ya + begins tr' = 0 /\ replied ex_env (Servers (fun _ _ => None) (fun _ _ => None)) y 0 sc_hreq (Some r) /\
  p_systems (s_proc y) !! 0 = Some w /\ alone (ld_watch sc_load) 0 sidecars (cf_default (ld_conf sc_load)) /\ is_Some (ld_index sc_load !! sidecars) /\ proper sidecars /\
  Forall (about sidecars (str "Sidecar")) sc_evs /\ Forall (readable sidecars (str "Sidecar")) sc_evs /\
  latest 0 (own 0 (map (SWatch 0) sc_trace)) <> [] /\ latest 0 (own 0 (map (SWatch 0) sc_trace)) `prefix_of` (deliver ex_jenv ex_cd sc_evs).1 /\
  (forall f x, ws_phases w !! 0 <> Some (PGot f x)) /\ authorised (ld_conf sc_load) sc_hreq /\
  api_addr sidecars None (Some (str "b")) /\ rq_path (h_req sc_hreq) = api_path sidecars None (Some (str "b")).
Proof.
  destruct sc_run as (w & Hr & Hok). destruct (sc_caught_up w Hr Hok) as (_ & Ha & Hne & Hph & Hpre).
  assert (WStop ∉ sc_trace) as Hno.
  { assert (existsb (fun l => match l with WStop => true | _ => false end) sc_trace = false) as Hx by (vm_compute; reflexivity). intros Hin.
    assert (existsb (fun l => match l with WStop => true | _ => false end) sc_trace = true); [|congruence]. apply existsb_exists. exists WStop. split; [by apply elem_of_list_In|done]. }
  pose (ya := Sys (Proc [sc_load] [w] 0 0 0 0) None []).
  pose proof (lift_runs ex_env true [] (str "conf") (begun sc_load) 0 sc_load _ sc_trace w eq_refl eq_refl Hr Hno) as Hr1. change (put_system 0 w (begun sc_load)) with ya in Hr1.
  assert (own 0 (map (SWatch 0) sc_trace) = sc_trace) as Hown by (clear; induction sc_trace as [|l tr IH]; [done|]; cbn; by rewrite IH).
  assert (required sc_hreq = true) as Hreq by (vm_compute; reflexivity).
  pose (yb := Sys (Proc [sc_load] [w] 0 0 0 0) None [new_req true []]).
  assert (sstep ex_env true [] (str "conf") ya (SArrive (required sc_hreq) (h_auth sc_hreq)) yb) as Hst by (rewrite Hreq; apply ss_arrive).
  destruct (C74_answered ex_env true [] (str "conf") (Servers (fun _ _ => None) (fun _ _ => None)) sc_load _ ya yb [] yb 0 sc_hreq Hr1 Hst eq_refl ltac:(constructor)) as (tr' & y & rp & R & F & _ & Hrep).
  assert (s_proc y = s_proc yb /\ begins tr' = 0) as [Hp Hb].
  { clear Hrep. induction R as [|tr y1 l y2 R IH Hs]; [done|]. apply Forall_cons in F as [[a ->] F]. destruct (IH F) as [I1 I2]. split; [|done]. by inversion Hs; subst. }
  exists ya, yb, tr', y, rp, w. split; [exact Hr1|]. split; [exact Hst|]. split; [done|]. split; [exact R|]. split; [by rewrite Hb|]. split; [exact Hrep|]. split; [by rewrite Hp|].
  split; [exact Ha|]. split; [change (ld_index sc_load) with (only sidecars); unfold only; rewrite lookup_singleton; by eexists|]. split; [apply sidecars_proper|]. split; [apply sc_about|]. split; [apply sc_about|]. rewrite Hown.
  split; [exact Hne|]. split; [exact Hpre|]. split; [exact Hph|]. split; [by left|]. split; [apply sc_addr|reflexivity].
Qed.

(** A create is sent to the cluster of the configuration, and refused as its API server does. *)
Definition post_sv : servers := Servers (fun cl r => if decide (cl = 7%N) then Some (409%Z, str "exists") else None) (fun _ _ => None).
Example C74_ex_write : exists ya yb tr' y, sruns ex_env true [] (str "conf") (begun (one_load c1)) [] ya /\
  sstep ex_env true [] (str "conf") ya (SArrive (required (ex_post "" "again")) (h_auth (ex_post "" "again"))) yb /\ s_reqs ya = [] /\ sruns ex_env true [] (str "conf") yb tr' y /\
  busy ya + begins tr' = 0 /\ replied ex_env post_sv y 0 (ex_post "" "again") (Some (Reply 409 [BStatus 409 []])) /\
  authorised (ld_conf (one_load c1)) (ex_post "" "again") /\ canonical (rq_path (h_req (ex_post "" "again"))) /\ rq_method (h_req (ex_post "" "again")) <> str "GET".
Proof.
  assert (required (ex_post "" "again") = true) as Hrq by (vm_compute; reflexivity).
  pose (q := Req_ true [] (Some 0) None (Some 0) (Some 0) []). pose (w := wstart [(pods, c1)] {[ pods := ∅ ]}).
  pose (y := Sys (Proc [one_load c1] [w] 0 0 0 0) None [q]).
  eexists (begun (one_load c1)), _, [SReq 0 AStore; SReq 0 AClients; SReq 0 AToken1], y. split; [constructor|]. rewrite Hrq.
  split; [apply ss_arrive|]. split; [done|]. split; [eapply run_to; [unfold begun; cbn [app]; go|reflexivity]|]. split; [reflexivity|].
  split; [|split; [by left|split; [by apply ProofsServer.canonical_iff|discriminate]]].
  set (r := with_vars (h_req (ex_post "" "again")) post_vars).
  assert (proxy ex_env (ld_conf (one_load c1)) (dom (ld_clients (one_load c1))) (ws_store w) r (AForward c1 (with_raw r []))) as Hp.
  { assert (parse_clean (ld_conf (one_load c1)) [] r = inr (zero_page, None, c1, with_raw r [])) as Hpc by reflexivity.
    pose proof (proxy_forward ex_env (ld_conf (one_load c1)) (dom (ld_clients (one_load c1))) (ws_store w) r [] _ _ _ _ (reflexivity _) Hpc) as H.
    assert (proxy_pass (ld_conf (one_load c1)) (dom (ld_clients (one_load c1))) (with_raw r []) c1 = AForward c1 (with_raw r [])) as Ep.
    { unfold proxy_pass. rewrite bool_decide_eq_true_2; [reflexivity|]. cbn [one_load ld_clients]. by apply elem_of_dom. }
    rewrite Ep in H. apply H. change (rq_method r) with (str "POST"). by rewrite andb_false_r. }
  pose proof (replied_run ex_env post_sv y 0 (ex_post "" "again") q HProxy _ 200 0 0 (one_load c1) (one_load c1) w _ (ex_post_run "" "again") eq_refl eq_refl eq_refl eq_refl eq_refl eq_refl
    (handle_proxy _ _ _ _ (apis_of (ld_clients (one_load c1)) post_sv) _ _ Hp)) as H.
  exact H.
Qed.
