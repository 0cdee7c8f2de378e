(** C50, C62, C63, C64: loading and reloading the configuration. *)
From Coq Require Import Ascii String NArith ZArith Lia.
From stdpp Require Import base gmap strings list.
From Verif Require Import ModelStr ProofsStr ModelJson ModelStore ModelProxy ModelObjType ModelWatcher ModelJsonText ProofsJson ProofsJsonText ProofsObjType ModelReload SpecReload ProofsReload.

Section reload.
  Context (E : env) (cf : bool) (kube file : gostr).
  Local Notation sstep := (sstep E cf kube file).
  Local Notation sruns := (sruns E cf kube file).

  (** ** C50 *)
  Fixpoint fails (p : prog loaded) : Prop := match p with Fail => True | Ret _ => False | Do _ p => fails p end.
  Lemma reload_fails W : fails (reload W kube file) -> reload W kube file = Fail.
  Proof. destruct (reload_cases W kube file) as [->|[ld ->]]; [done|]. cbn. done. Qed.
  Lemma round_fails y tr y' p : same_round tr -> s_reload y = Some p -> sruns y tr y' ->
    exists p', s_reload y' = Some p' /\ (fails p <-> fails p').
  Proof.
    intros Hr Hp Hruns. induction Hruns as [|tr y1 l y2 Hruns IH Hstep]; [by eauto|].
    destruct IH as (p1 & Hp1 & Hf); [intros l' Hl; apply Hr; by right|]. specialize (Hr l ltac:(left)).
    destruct Hstep; cbn [s_reload] in *; try done; try (by eauto). injection Hp1 as <-. eauto.
  Qed.
  Lemma fail_round y tr y' : same_round tr -> s_reload y = Some Fail -> sruns y tr y' ->
    s_reload y' = Some Fail /\ handles y' = handles y /\ p_loads (s_proc y') = p_loads (s_proc y) /\
    ws_stop <$> p_systems (s_proc y') = ws_stop <$> p_systems (s_proc y) /\ forall i, SDo i ∉ tr.
  Proof.
    intros Hr Hp Hruns. induction Hruns as [|tr y1 l y2 Hruns IH Hstep].
    { repeat split; try done. intros i. apply not_elem_of_nil. }
    destruct IH as (I1 & I2 & I3 & I4 & I5); [intros l' Hl; apply Hr; by right|]. specialize (Hr l ltac:(left)).
    destruct Hstep as [s W qs|s qs|s ld qs|s i p qs|s r qs m ld w i l w' Hl Hw Hact|s r qs rq h|s r qs i a q q' Hq Ha];
      cbn [s_reload s_proc] in *; try done.
    - split; [done|]. split; [done|]. split; [done|]. split; [|intros k [?|?]%elem_of_cons; [done|by eapply I5]].
      cbn [p_systems]. rewrite list_fmap_insert, (wact_stop _ _ _ _ _ _ Hact), list_insert_id; [done|]. by rewrite list_lookup_fmap, Hw.
    - repeat split; try done. intros k [?|?]%elem_of_cons; [done|by eapply I5].
    - repeat split; try done. intros k [?|?]%elem_of_cons; [done|by eapply I5].
  Qed.
  (** A reload that fails has no effect: configuration, watcher, store and clients are the ones it began with,
      nothing was allocated and no watcher was stopped. *)
  Theorem C50_failed_reload (y0 y1 y2 y3 : sys) (W : world) (tr : list slabel) :
    sstep y0 (SBegin W) y1 -> sruns y1 tr y2 -> same_round tr -> sstep y2 SFail y3 ->
    handles y3 = handles y0 /\ p_loads (s_proc y3) = p_loads (s_proc y0) /\
    ws_stop <$> p_systems (s_proc y3) = ws_stop <$> p_systems (s_proc y0) /\ forall i, SDo i ∉ tr.
  Proof.
    intros H1 Hr Hs H3. inversion H3; subst. inversion H1; subst.
    destruct (round_fails (Sys s0 (Some (reload W kube file)) qs0) tr _ (reload W kube file) Hs eq_refl Hr) as (p & Hp & Hf). cbn in Hp. injection Hp as <-.
    apply proj2 in Hf. specialize (Hf I). apply reload_fails in Hf.
    rewrite Hf in Hr. destruct (fail_round (Sys s0 (Some Fail) qs0) _ _ Hs eq_refl Hr) as (_ & I2 & I3 & I4 & I5). done.
  Qed.
  (** Between reloads everything in use comes from the last successful load; the watchers of all earlier ones
      have been stopped and its own has not. *)
  Theorem C50_between_reloads (ld : loaded) (tr : list slabel) (y : sys) :
    sruns (begun ld) tr y -> s_reload y = None ->
    exists n, handles y = (n, n, n, n) /\ length (p_loads (s_proc y)) = n + 1 /\ length (p_systems (s_proc y)) = n + 1 /\
      forall k w, p_systems (s_proc y) !! k = Some w -> (ws_stop w = true <-> k < n).
  Proof.
    intros Hr Hn. destruct (inv_runs' _ _ _ _ _ _ _ (inv_started E ld) Hr) as [_ [n Hp] Hs _]. rewrite Hn in *. cbn in Hp.
    destruct Hp as (H1 & H2 & H3 & H4 & H5 & H6). exists n. unfold handles. rewrite H3, H4, H5, H6. split; [done|]. split; [lia|]. split; [lia|].
    intros k w Hk. rewrite (Hs k w Hk). cbn [stopped_after]. rewrite H4. apply Nat.ltb_lt.
  Qed.
  (** At any time, each store is what its own watcher made of it from empty. *)
  Theorem C50_stores (ld : loaded) (tr : list slabel) (y : sys) (k : nat) (w : wsys) :
    sruns (begun ld) tr y -> p_systems (s_proc y) !! k = Some w ->
    exists ldk trk, p_loads (s_proc y) !! k = Some ldk /\ wruns E (ld_watch ldk) (wstart (ld_watch ldk) (ld_index ldk)) trk w.
  Proof. intros Hr Hk. destruct (inv_runs' _ _ _ _ _ _ _ (inv_started E ld) Hr) as [_ _ _ H]. by apply H. Qed.
  (** The clients a request works with are never newer than its store, and both were in use after it arrived. *)
  Theorem C50_request (ld : loaded) (tr tr' : list slabel) (ya yb y : sys) (rq : bool) (h : gostr) (i : nat) (q : req) (c n : nat) :
    cf = true -> sruns (begun ld) tr ya -> sstep ya (SArrive rq h) yb -> i = length (s_reqs ya) -> sruns yb tr' y ->
    s_reqs y !! i = Some q -> q_clients q = Some c -> q_store q = Some n ->
    c <= n /\ p_clients (s_proc ya) <= c <= p_clients (s_proc y) /\ p_store (s_proc ya) <= n <= p_store (s_proc y).
  Proof.
    intros Hcf Hr Hstep -> Hr' Hq Hc Hn. pose proof (inv_runs' _ _ _ _ _ _ _ (inv_started E ld) Hr) as Hi.
    pose proof (inv_step _ _ _ _ _ _ _ Hi Hstep) as Hi'. inversion Hstep; subst. cbn [s_reqs] in Hq.
    destruct (sees_runs E _ kube file _ (length qs) _ _ Hi' (sees_new _ _ _ _ _ _ _ eq_refl) Hr') as (q' & Hq' & H1 & H2 & _ & H4 & _).
    rewrite Hq in Hq'. injection Hq' as <-. cbn [s_proc] in *. split; [by eapply H4|]. split; [by apply H1|by apply H2].
  Qed.
  (** During one reload: the old pair, the new pair, or the old clients with the new store. *)
  Theorem C50_pairs (ld : loaded) (tr tr' : list slabel) (ya yb y : sys) (rq : bool) (h : gostr) (i : nat) (q : req) (c n old : nat) :
    cf = true -> sruns (begun ld) tr ya -> sstep ya (SArrive rq h) yb -> i = length (s_reqs ya) -> sruns yb tr' y ->
    busy ya + begins tr' <= 1 -> old = p_clients (s_proc ya) ->
    s_reqs y !! i = Some q -> q_clients q = Some c -> q_store q = Some n ->
    (c, n) = (old, old) \/ (c, n) = (old + 1, old + 1) \/ (c, n) = (old, old + 1).
  Proof.
    intros Hcf Hr Hstep Hi0 Hr' Hb -> Hq Hc Hn. pose proof (C50_request _ _ _ _ _ _ _ _ _ _ _ _ Hcf Hr Hstep Hi0 Hr' Hq Hc Hn) as (H1 & H2 & H3).
    pose proof (inv_runs' _ _ _ _ _ _ _ (inv_started E ld) Hr) as Hi. pose proof (order_inv _ _ Hi) as Ho.
    pose proof (inv_step _ _ _ _ _ _ _ Hi Hstep) as Hi'. pose proof (pot_runs _ _ _ _ _ _ _ Hi' Hr') as Hp.
    pose proof (pot_start _ _ Hi') as Hp'. pose proof (order_inv _ _ (inv_runs' _ _ _ _ _ _ _ Hi' Hr')) as Ho'.
    assert (p_conf (s_proc y) <= pot y) by (unfold pot; destruct (s_reload y) as [[| |[]]|]; lia).
    assert (p_clients (s_proc yb) = p_clients (s_proc ya) /\ busy yb = busy ya) as [E1 E2] by (by inversion Hstep; subst).
    assert (c = p_clients (s_proc ya) \/ c = p_clients (s_proc ya) + 1) as [-> | ->] by lia;
      assert (n = p_clients (s_proc ya) \/ n = p_clients (s_proc ya) + 1) as [-> | ->] by lia; auto; lia.
  Qed.

  (** After a reload the cache starts from nothing: until the new watcher has delivered something, every list of
      cached objects is empty, also with an unchanged configuration. *)
  Theorem C50_cache_restarts (ld : loaded) (tr mid : list slabel) (ya y1 y2 y3 : sys) (W : world) :
    sruns (begun ld) tr ya -> sstep ya (SBegin W) y1 -> sruns y1 mid y2 -> same_round mid -> sstep y2 SDone y3 ->
    (forall l, SWatch (p_store (s_proc ya) + 1) l ∉ mid) ->
    exists ld' w, p_store (s_proc y3) = p_store (s_proc ya) + 1 /\ p_loads (s_proc y3) !! (p_store (s_proc ya) + 1) = Some ld' /\
      p_systems (s_proc y3) !! (p_store (s_proc ya) + 1) = Some w /\ ws_store w = new_store (ld_index ld').
  Proof.
    intros Hr Hb Hr' Hs Hd Hw. pose proof (inv_runs' _ _ _ _ _ _ _ (inv_started E ld) Hr) as Hi.
    assert (s_reload ya = None) as Hn by (by inversion Hb). assert (s_proc y1 = s_proc ya) as Hp1 by (by inversion Hb).
    assert (s_reload y1 = Some (reload W kube file)) as Hn1 by (by inversion Hb).
    pose proof (inv_step _ _ _ _ _ _ _ Hi Hb) as Hi1. destruct Hi as [_ [n Hp] _ _]. rewrite Hn in Hp. cbn in Hp.
    destruct Hp as (P1 & P2 & P3 & P4 & P5 & P6). set (m := p_store (s_proc ya) + 1) in *. assert (m = S n) as Hm by lia. clearbody m.
    assert (forall tr y, same_round tr -> (forall l, SWatch m l ∉ tr) -> sruns y1 tr y ->
      (forall w, p_systems (s_proc y) !! m = Some w -> exists ld', p_loads (s_proc y) !! m = Some ld' /\ w = wstart (ld_watch ld') (ld_index ld')) /\
      p_watcher (s_proc y) <= m /\ match s_reload y with Some (Ret _) => p_store (s_proc y) = m | Some (Do IStop _) => p_watcher (s_proc y) = n | Some (Do ISetClients _) => p_store (s_proc y) = m | Some (Do (IBuild _) _) => p_store (s_proc y) = n | Some (Do _ _) => p_store (s_proc y) = n | Some Fail => True | None => False end) as Hall.
    { clear Hr' Hd Hs Hw mid y2 y3. intros tr0 y Hs Hw Hrun. induction Hrun as [|tr0 yy l yy' Hrun IH Hstep].
      { rewrite Hp1, Hn1. split; [intros w Hk%lookup_lt_Some; lia|]. split; [lia|].
        destruct (reload_cases W kube file) as [->|[ld' ->]]; [done|]. cbn. lia. }
      destruct IH as (J1 & J2 & J3); [intros l' Hl'; apply Hs; by right|intros l' Hl'; apply (Hw l'); by right|].
      pose proof (Hs l ltac:(left)) as Hl. pose proof (inv_runs' _ _ _ _ _ _ _ Hi1 Hrun) as [Hg [k Hk] _ _].
      destruct Hstep as [s W0 qs|s qs|s ld0 qs|s i p qs|s r qs j ld0 w i l w' Hl0 Hw0 Hact|s r qs rq h|s r qs i a q q' Hq Ha];
        cbn [s_proc s_reload] in *; try done.
      - assert (exists ph, Some (Do i p) = phase_prog ph) as [ph Hph] by done.
        destruct ph as [| |l0|l0|l0|l0|l0|l0]; cbn in Hph; try discriminate Hph; injection Hph as -> ->; cbn in Hk, J3 |- *; unfold newest; cbn [p_systems p_loads p_store p_watcher].
        + split; [|split; [done|lia]]. intros w Hw'. apply J1 in Hw' as (ld' & Hld & ->). exists ld'. split; [by apply lookup_app_l_Some|done].
        + split; [|split; [done|lia]]. intros w Hw'. apply lookup_snoc in Hw' as [Hw'|[Hm' <-]]; [by apply J1|].
          exists l0. split; [|done]. destruct Hk as (Hk & ? & ? & ?). by replace m with (S k) by lia.
        + split; [|split; [done|lia]]. intros w Hw'. rewrite list_lookup_alter_ne in Hw' by lia. by apply J1.
        + split; [done|]. split; [lia|]. lia.
        + split; [done|]. split; [lia|]. lia.
        + split; [done|]. split; [lia|]. lia.
      - split; [|done]. intros w1 Hw1. cbn [p_systems p_loads] in *. destruct (decide (m = j)) as [->|Hne].
        + exfalso. eapply Hw. left.
        + rewrite list_lookup_insert_ne in Hw1 by done. by apply J1. }
    destruct (Hall _ _ Hs Hw Hr') as (J1 & J2 & J3). pose proof (inv_runs' _ _ _ _ _ _ _ Hi1 Hr') as [_ [k Hk] _ _].
    assert (exists s ld0 qs, y2 = Sys s (Some (Ret ld0)) qs /\ y3 = Sys s None qs) as (s & ld0 & qs & -> & ->) by (inversion Hd; eauto).
    cbn [s_proc s_reload] in *. cbn in Hk. destruct (lookup_lt_is_Some_2 (p_systems s) m ltac:(lia)) as [w Hw']. destruct (J1 w Hw') as (ld' & Hld & ->).
    exists ld'. eexists. split; [lia|]. split; [done|]. split; [done|]. done.
  Qed.

  (** ** C62: the token during a reload *)
  Lemma token_lets_in s r qs n h ld : p_loads s !! n = Some ld -> (token_of s n = [] \/ contains h (token_of s n) = true) <-> lets_in (Sys s r qs) n h.
  Proof.
    intros Hn. unfold token_of, lets_in. cbn [s_proc]. rewrite Hn. rewrite contains_true. split.
    - intros H. exists ld. split; [done|]. exact H.
    - intros (ld' & [= <-] & H). exact H.
  Qed.
  Lemma token_mono s s' n : p_loads s `prefix_of` p_loads s' -> n < length (p_loads s) -> token_of s' n = token_of s n.
  Proof.
    intros Hp Hn. unfold token_of. destruct (lookup_lt_is_Some_2 _ _ Hn) as [ld Hld]. rewrite Hld. by rewrite (prefix_lookup _ _ _ _ Hld Hp).
  Qed.
  Lemma admitted_mono s s' q : p_loads s `prefix_of` p_loads s' ->
    (forall n, q_token1 q = Some n \/ q_token2 q = Some n -> n < length (p_loads s)) -> admitted s' q = admitted s q.
  Proof.
    intros Hp Hn. unfold admitted. f_equal. destruct (q_token1 q) as [n1|]; [|done]. rewrite (token_mono _ _ _ Hp) by (apply Hn; by left).
    f_equal. destruct (q_token2 q) as [n2|]; [|done]. rewrite (token_mono _ _ _ Hp) by (apply Hn; by right). done.
  Qed.
  Lemma conf_allocated y : inv E y -> p_conf (s_proc y) < length (p_loads (s_proc y)).
  Proof. intros [_ [n Hp] _ _]. destruct (s_reload y) as [[|ld|[] p]|]; cbn in Hp; lia. Qed.
  Lemma admitted_runs ya i tr y q rq h : inv E ya -> sees cf ya i ya -> s_reqs ya !! i = Some (new_req rq h) -> sruns ya tr y -> s_reqs y !! i = Some q ->
    q_required q = rq /\ q_header q = h /\ (is_Some (q_clients q) \/ is_Some (q_store q) -> admitted (s_proc y) q = true).
  Proof.
    intros Hi Hsee Hnew Hr. revert q. induction Hr as [|tr y1 l y2 Hr IH Hstep]; intros q Hq.
    { rewrite Hnew in Hq. injection Hq as <-. split; [done|]. split; [done|]. cbn. intros [[? ?]|[? ?]]; discriminate. }
    pose proof (inv_runs' _ _ _ _ _ _ _ Hi Hr) as Hi1. pose proof (sees_runs _ _ _ _ _ _ _ _ Hi Hsee Hr) as (q1 & Hq1 & S1 & S2 & S3 & _).
    destruct (IH q1 Hq1) as (<- & <- & IHa). pose proof (mono_step _ _ _ _ _ _ _ Hi1 Hstep) as (_ & _ & _ & Hpre).
    assert (forall n, q_token1 q1 = Some n \/ q_token2 q1 = Some n -> n < length (p_loads (s_proc y1))) as Hn.
    { intros n Hn. pose proof (conf_allocated _ Hi1). specialize (S3 n ltac:(tauto)). lia. }
    assert (q = q1 -> q_required q = q_required q1 /\ q_header q = q_header q1 /\ (is_Some (q_clients q) \/ is_Some (q_store q) -> admitted (s_proc y2) q = true)) as Hsame.
    { intros ->. split; [done|]. split; [done|]. intros H. rewrite (admitted_mono _ _ _ Hpre Hn). by apply IHa. }
    destruct Hstep as [s W qs|s qs|s ld qs|s j p qs|s r qs m ld w j l w' Hl Hw Hact|s r qs rq h|s r qs j a q0 q' Hq0 Ha]; cbn [s_reqs s_proc] in *;
      try (apply Hsame; congruence).
    - apply Hsame. apply lookup_lt_Some in Hq1 as Hlt. rewrite lookup_app_l in Hq by done. congruence.
    - destruct (decide (i = j)) as [->|Hne].
      2:{ apply Hsame. rewrite list_lookup_insert_ne in Hq by done. congruence. }
      rewrite list_lookup_insert in Hq by (by eapply lookup_lt_Some). injection Hq as <-. assert (q0 = q1) as -> by congruence.
      clear Hsame. destruct q1 as [rq h t1 t2 c st lt]. unfold req_act in Ha. cbn [q_clients q_store q_token1 q_token2 q_required q_header] in *.
      destruct a, t1 as [n1|], t2 as [n2|], c as [n3|], st as [n4|]; try discriminate Ha;
        repeat match type of Ha with (if ?b then _ else _) = _ => destruct b eqn:?; try discriminate Ha end;
        injection Ha as <-; cbn [q_clients q_store q_token1 q_token2 q_required q_header];
        (split; [done|]); (split; [done|]); intros Hor;
        try (destruct Hor as [[? ?]|[? ?]]; discriminate);
        try (match goal with H : _ && admitted _ _ = true |- _ => apply andb_true_iff in H as [_ H]; exact H end);
        try (apply IHa; first [left; by eexists|right; by eexists]).
  Qed.
  (** A request on a protected route that reaches its handler was let in by a configuration that was in use
      between its arrival and now. *)
  Theorem C62_let_in (ld : loaded) (tr tr' : list slabel) (ya yb y : sys) (h : gostr) (i : nat) (q : req) :
    sruns (begun ld) tr ya -> sstep ya (SArrive true h) yb -> i = length (s_reqs ya) -> sruns yb tr' y ->
    s_reqs y !! i = Some q -> is_Some (q_clients q) \/ is_Some (q_store q) ->
    exists n, p_conf (s_proc ya) <= n <= p_conf (s_proc y) /\ lets_in y n h.
  Proof.
    intros Hr Hstep -> Hr' Hq Hd. pose proof (inv_runs' _ _ _ _ _ _ _ (inv_started E ld) Hr) as Hi.
    pose proof (inv_step _ _ _ _ _ _ _ Hi Hstep) as Hi'. inversion Hstep; subst. cbn [s_reqs] in Hq.
    set (yb := Sys s r (qs ++ [new_req true h])) in *. pose proof (sees_new cf yb _ _ _ _ _ eq_refl) as Hsee.
    destruct (admitted_runs _ _ _ _ _ true h Hi' Hsee ltac:(by apply list_lookup_middle) Hr' Hq) as (Hrq & Hh & Ha). specialize (Ha Hd).
    destruct (sees_runs _ _ _ _ _ _ _ _ Hi' Hsee Hr') as (q' & Hq' & _ & _ & H3 & _). rewrite Hq in Hq'. injection Hq' as <-.
    pose proof (conf_allocated _ (inv_runs' _ _ _ _ _ _ _ Hi' Hr')) as Hc. destruct y as [ys yr yq]. cbn [s_proc s_reqs yb] in *.
    unfold admitted in Ha. rewrite Hrq in Ha. cbn [negb orb] in Ha. destruct (q_token1 q) as [n1|]; [|done].
    apply orb_true_iff in Ha as [Ha%str_eqb_eq|Ha].
    - specialize (H3 n1 ltac:(by left)). exists n1. split; [done|]. destruct (lookup_lt_is_Some_2 (p_loads ys) n1 ltac:(lia)) as [ld1 Hld1].
      apply (token_lets_in _ _ _ _ _ _ Hld1). by left.
    - destruct (q_token2 q) as [n2|]; [|done]. specialize (H3 n2 ltac:(by right; left)). exists n2. split; [done|].
      destruct (lookup_lt_is_Some_2 (p_loads ys) n2 ltac:(lia)) as [ld1 Hld1]. apply (token_lets_in _ _ _ _ _ _ Hld1). right. by rewrite <- Hh.
  Qed.
  (** And one that is turned away was not let in by a configuration in use in that time. *)
  Theorem C62_turned_away (ld : loaded) (tr tr' : list slabel) (ya yb y : sys) (h : gostr) (i : nat) (q : req) :
    sruns (begun ld) tr ya -> sstep ya (SArrive true h) yb -> i = length (s_reqs ya) -> sruns yb tr' y ->
    s_reqs y !! i = Some q -> turned_away (s_proc y) q = true ->
    exists n, p_conf (s_proc ya) <= n <= p_conf (s_proc y) /\ ~ lets_in y n h.
  Proof.
    intros Hr Hstep -> Hr' Hq Ht. pose proof (inv_runs' _ _ _ _ _ _ _ (inv_started E ld) Hr) as Hi.
    pose proof (inv_step _ _ _ _ _ _ _ Hi Hstep) as Hi'. inversion Hstep; subst. cbn [s_reqs] in Hq.
    set (yb := Sys s r (qs ++ [new_req true h])) in *. pose proof (sees_new cf yb _ _ _ _ _ eq_refl) as Hsee.
    destruct (admitted_runs _ _ _ _ _ true h Hi' Hsee ltac:(by apply list_lookup_middle) Hr' Hq) as (_ & Hh & _).
    destruct (sees_runs _ _ _ _ _ _ _ _ Hi' Hsee Hr') as (q' & Hq' & _ & _ & H3 & _). rewrite Hq in Hq'. injection Hq' as <-.
    pose proof (conf_allocated _ (inv_runs' _ _ _ _ _ _ _ Hi' Hr')) as Hc. destruct y as [ys yr yq]. cbn [s_proc s_reqs yb] in *.
    unfold turned_away in Ht. rewrite Hh in Ht. destruct (q_token2 q) as [n2|]; [|done]. apply negb_true_iff in Ht.
    specialize (H3 n2 ltac:(by right; left)). exists n2. split; [done|].
    destruct (lookup_lt_is_Some_2 (p_loads ys) n2 ltac:(lia)) as [ld1 Hld1]. rewrite <- (token_lets_in _ _ _ _ _ _ Hld1).
    intros [H|H]; [|congruence]. rewrite H in Ht. apply not_true_iff_false in Ht. apply Ht, contains_true. by exists [], h.
  Qed.
End reload.

(** ** C63: loading *)
Lemma load_clusters_spec W kube fc d cs : load_clusters W kube fc = Some (d, cs) -> clusters_are W kube fc d cs.
Proof.
  assert (forall k bs kc cs, kube_path W kube k -> w_read W k = Some bs -> w_kube W bs = Some kc -> add_contexts W k (kc_contexts kc) ∅ = Some cs ->
    clusters_are W kube fc (kc_current kc) cs) as Hfile.
  { intros k bs kc cs0 Hk Hbs Hkc Hcs. destruct (contexts_spec _ _ _ _ _ Hcs) as [H1 H2].
    apply (ca_file W kube fc k bs kc cs0 Hk Hbs Hkc).
    - intros x Hx. by apply H1.
    - intros x. split.
      + intros Hx Hin. destruct (H1 x Hin) as (_ & [cl Hcl] & He). congruence.
      + intros Hx. rewrite (H2 x Hx). apply lookup_empty.
    - intros x Hx. by apply H1. }
  unfold load_clusters. destruct kube as [|c0 k0].
  - destruct (w_stat W (default_kube W)) eqn:Hs.
    + destruct (w_read W (default_kube W)) as [bs|] eqn:Hbs; [|done]. destruct (w_kube W bs) as [kc|] eqn:Hkc; [|done].
      destruct (add_contexts _ _ _ _) as [cs'|] eqn:Hcs; [|done]. intros [= <- <-]. eapply Hfile; [|done..]. by apply kp_home.
    + destruct (w_rest W [] []) eqn:Hr; [|done]. destruct (w_client W [] []) as [cl|] eqn:Hc; [|done]. intros H.
      assert (d = match fc_default fc with [] => str "default" | d => d end /\ cs = {[ d := cl ]}) as [Hd Hcs] by (split; congruence).
      apply (ca_account W [] fc cl cs d); [done..| |].
      * destruct (fc_default fc) as [|x y]; [by left|right; by rewrite Hd].
      * intros x. rewrite Hcs. destruct (decide (x = d)) as [->|Hne]; [apply lookup_singleton|by apply lookup_singleton_ne].
  - destruct (w_read W (c0 :: k0)) as [bs|] eqn:Hbs; [|done]. destruct (w_kube W bs) as [kc|] eqn:Hkc; [|done].
    destruct (add_contexts _ _ _ _) as [cs'|] eqn:Hcs; [|done]. intros [= <- <-]. eapply Hfile; [|done..]. by apply kp_given.
Qed.
Lemma load_clusters_total W kube fc d cs : clusters_are W kube fc d cs -> is_Some (load_clusters W kube fc).
Proof.
  intros [k bs kc cs0 Hk Hbs Hkc Hr Hn Hc|cl cs0 d0 -> Hs Hr Hc Hd Hcs].
  - assert (is_Some (add_contexts W k (kc_contexts kc) ∅)) as [cs' Hcs'].
    { apply contexts_total. intros x Hx. split; [by apply Hr|]. rewrite <- (Hc x Hx). destruct (cs0 !! x) eqn:Hx'; [by eexists|]. by apply Hn in Hx'. }
    unfold load_clusters. destruct Hk as [k Hk|Hk].
    + destruct k; [done|]. rewrite Hbs, Hkc, Hcs'. by eexists.
    + change (w_home W ++ str "/.kube/config") with (default_kube W) in *. rewrite Hk, Hbs, Hkc, Hcs'. by eexists.
  - unfold load_clusters. change (w_home W ++ str "/.kube/config") with (default_kube W) in *. rewrite Hs, Hr, Hc. by eexists.
Qed.
(** A load that succeeds has the effects of one description; a load fails only when there is none. *)
Theorem C63_load (W : world) (kube file : gostr) :
  (exists ld, load W kube file = Do (IConf ld) (Do (IBuild ld) (Ret ld)) /\ loads_as W kube file ld) \/
  (load W kube file = Fail /\ forall ld, ~ loads_as W kube file ld).
Proof.
  unfold load. destruct (w_read W file) as [bs|] eqn:Hbs.
  2:{ right. split; [done|]. intros ld (bs & fc & d & cs & H & _). congruence. }
  destruct (decode_conf bs) as [fc|] eqn:Hfc.
  2:{ right. split; [done|]. intros ld (bs' & fc & d & cs & H & H' & _). congruence. }
  destruct (load_clusters W kube fc) as [[d cs]|] eqn:Hc.
  2:{ right. split; [done|]. intros ld (bs' & fc' & d & cs & H & H' & [x Hx]%load_clusters_total & _). congruence. }
  left. eexists. split; [reflexivity|]. exists bs, fc, d, cs. split; [done|]. split; [done|]. split; [by apply load_clusters_spec|].
  cbn [ld_conf ld_clients ld_watch ld_index].
  split; [destruct d; [by left|by right]|]. split; [by destruct d|]. split; [by destruct d|]. split; [done|].
  split; [intros g c; apply watch_list_spec|intros g m; apply index_conf_spec].
Qed.

(** Written as JSON, a configuration is read back as it was. *)
Lemma proxy_back p : set_proxy zero_proxy (proxy_json p) = p.
Proof.
  destruct p as [[[g v] r] kind idx]. unfold proxy_json. cbn [pc_gvr pc_kind pc_index fst snd set_proxy fold_left].
  unfold set_proxy_field, zero_proxy. 
  assert (forall x, set_str [] (JStr x) = x) as Hs by done.
  change (fold_key (str "group")) with (str "group"). change (fold_key (str "version")) with (str "version"). change (fold_key (str "resource")) with (str "resource").
  change (fold_key (str "list_kind")) with (str "list_kind"). change (fold_key (str "index")) with (str "index").
  repeat match goal with |- context [str_eqb (str ?a) (str ?b)] => let r := eval vm_compute in (str_eqb (str a) (str b)) in change (str_eqb (str a) (str b)) with r end.
  cbv iota zeta beta. cbn [set_str]. by rewrite set_map_back.
Qed.
Lemma jvalid_proxy p : proxy_utf8 p -> jvalid (proxy_json p) = proxy_json p.
Proof.
  intros [H1 H2]. unfold proxy_json. cbn [jvalid map fst snd]. 
  rewrite !valid_to_valid by (first [reflexivity|apply H1; set_solver]). do 6 f_equal. f_equal. f_equal. f_equal. rewrite map_map. apply map_ext_in.
  intros [k v] Hin%elem_of_list_In. cbn [fst snd jvalid]. destruct (sorted_map_spec (pc_index p)) as [_ Hp].
  rewrite Hp, elem_of_map_to_list in Hin. destruct (H2 _ _ Hin). by rewrite !valid_to_valid.
Qed.
Lemma proxy_fits_json p : proxy_fits (proxy_json p) = true.
Proof.
  unfold proxy_json. cbn [proxy_fits forallb]. unfold proxy_field_fits. cbn [fst snd].
  change (fold_key (str "group")) with (str "group"). change (fold_key (str "version")) with (str "version"). change (fold_key (str "resource")) with (str "resource").
  change (fold_key (str "list_kind")) with (str "list_kind"). change (fold_key (str "index")) with (str "index").
  repeat match goal with |- context [str_eqb (str ?a) (str ?b)] => let r := eval vm_compute in (str_eqb (str a) (str b)) in change (str_eqb (str a) (str b)) with r end.
  cbv iota zeta beta. cbn [orb andb str_fits map_fits]. rewrite andb_true_r. apply forallb_forall. intros x (kv & <- & _)%in_map_iff. done.
Qed.
Theorem C63_file (fc : file_conf) : conf_utf8 fc -> decode_conf (json_text (conf_json fc)) = Some fc.
Proof.
  intros (H1 & H2 & H3). unfold decode_conf. rewrite parse_text.
  - assert (jvalid (conf_json fc) = conf_json fc) as ->.
    { unfold conf_json. cbn [jvalid map fst snd]. rewrite !valid_to_valid by (first [reflexivity|assumption]). do 4 f_equal. f_equal.
      rewrite map_map. apply map_ext_in. intros p Hp%elem_of_list_In. by apply jvalid_proxy, H3. }
    assert (conf_fits (conf_json fc) = true) as ->.
    { unfold conf_json. cbn [conf_fits forallb]. unfold conf_field_fits. cbn [fst snd].
      change (fold_key (str "proxies")) with (str "proxies"). change (fold_key (str "default_cluster")) with (str "default_cluster"). change (fold_key (str "token")) with (str "token").
      repeat match goal with |- context [str_eqb (str ?a) (str ?b)] => let r := eval vm_compute in (str_eqb (str a) (str b)) in change (str_eqb (str a) (str b)) with r end.
      cbv iota zeta beta. cbn [orb andb str_fits]. rewrite andb_true_r. apply forallb_forall. intros x (p & <- & _)%in_map_iff. apply proxy_fits_json. }
    unfold conf_json. cbn [fold_left]. unfold set_conf_field. 
    change (fold_key (str "proxies")) with (str "proxies"). change (fold_key (str "default_cluster")) with (str "default_cluster"). change (fold_key (str "token")) with (str "token").
    repeat match goal with |- context [str_eqb (str ?a) (str ?b)] => let r := eval vm_compute in (str_eqb (str a) (str b)) in change (str_eqb (str a) (str b)) with r end.
    cbv iota zeta beta. unfold zero_conf. cbn [fc_proxies fc_default fc_token set_str set_list].
    assert (forall l, set_slice zero_proxy set_proxy [] (map proxy_json l) = l) as Hl.
    { induction l as [|p l IH]; [done|]. cbn [map set_slice hd tl]. by rewrite proxy_back, IH. }
    rewrite Hl. by destruct fc.
  - unfold conf_json. apply nums_ok_obj. rewrite !Forall_cons, Forall_nil. cbn [snd]. split; [|done]. apply nums_ok_arr. apply Forall_forall. intros j (p & -> & _)%elem_of_list_fmap.
    unfold proxy_json. apply nums_ok_obj. rewrite !Forall_cons, Forall_nil. cbn [snd]. do 4 (split; [done|]). split; [|done]. apply nums_ok_obj. apply Forall_forall. intros x (kv & -> & _)%elem_of_list_fmap. done.
  - transitivity 5; [|apply Nat.leb_le; vm_compute; reflexivity]. unfold conf_json. apply jdepth_obj. rewrite !Forall_cons, Forall_nil. cbn [snd]. split; [|cbn; split; [lia|split; [lia|done]]].
    apply jdepth_arr. apply Forall_forall. intros j (p & -> & _)%elem_of_list_fmap. unfold proxy_json. apply jdepth_obj. rewrite !Forall_cons, Forall_nil. cbn [snd]. do 4 (split; [cbn; lia|]). split; [|done].
    apply jdepth_obj. apply Forall_forall. intros x (kv & -> & _)%elem_of_list_fmap. cbn. lia.
Qed.
Print Assumptions C63_file.
Definition ex_file : file_conf :=
  FileConf [ProxyConf ([], str "v1", str "pods") (str "PodList") {[ str "name" := str "{.metadata.name}" ]};
            ProxyConf (str "apps", str "v1", str "deployments") (str "DeploymentList") ∅] (str "c1") (str "t").
Example C63_ex_file : exists text, decode_conf text = Some ex_file /\ text = json_text (conf_json ex_file) /\
  decode_conf (str "{""Proxies"": [{""group"": 5}]}") = None /\ decode_conf (str "{}") = Some zero_conf.
Proof.
  exists (json_text (conf_json ex_file)). split; [|split; [done|split; vm_compute; reflexivity]]. apply C63_file. split; [done|]. split; [done|].
  intros p Hp. cbn [fc_proxies ex_file] in Hp. rewrite !elem_of_cons, elem_of_nil in Hp. destruct Hp as [-> |[-> |[]]]; split; cbn [pc_gvr pc_kind pc_index fst snd].
  - intros s Hs. rewrite !elem_of_cons, elem_of_nil in Hs. by destruct Hs as [-> |[-> |[-> |[-> |[]]]]].
  - intros k v [<- <-]%lookup_singleton_Some. split; vm_compute; reflexivity.
  - intros s Hs. rewrite !elem_of_cons, elem_of_nil in Hs. by destruct Hs as [-> |[-> |[-> |[-> |[]]]]].
  - intros k v H. by rewrite lookup_empty in H.
Qed.

(** ** C64: which file events lead to a reload *)
(** A change is a write or a removal. *)
Definition is_change (op : fs_op) : Prop := op = FsWrite \/ op = FsRemove.
(** A file was lost: removed, and not back after two seconds. *)
Definition lost (evs : list (gostr * fs_op * bool)) (f : gostr) : Prop := (f, FsRemove, false) ∈ evs.
Lemma fs_run_cons ws f op added evs : f ∈ ws ->
  fs_run ws ((f, op, added) :: evs) = ((fs_run (fs_event ws f op added).1 evs).1,
     match (fs_event ws f op added).2 with Some x => x :: (fs_run (fs_event ws f op added).1 evs).2 | None => (fs_run (fs_event ws f op added).1 evs).2 end).
Proof.
  intros H. cbn [fs_run]. destruct (decide (f ∈ ws)); [|done]. destruct (fs_event ws f op added) as [ws1 o]. cbn [fst snd]. by destruct (fs_run ws1 evs).
Qed.
Lemma fs_run_skip ws f op added evs : f ∉ ws -> fs_run ws ((f, op, added) :: evs) = fs_run ws evs.
Proof. intros H. cbn [fs_run]. by destruct (decide (f ∈ ws)). Qed.
Lemma event_watched ws f op added g : f ∈ ws -> g ∈ (fs_event ws f op added).1 <-> g ∈ ws /\ ~ (g = f /\ op = FsRemove /\ added = false).
Proof.
  intros Hf. destruct op, added; cbn; try set_solver.
  split; [intros H; split; [set_solver|by intros (_ & _ & ?)]|]. intros [H _]. destruct (decide (g = f)); set_solver.
Qed.
Lemma run_watched evs : forall ws g, g ∈ (fs_run ws evs).1 <-> g ∈ ws /\ ~ lost evs g.
Proof.
  unfold lost. induction evs as [|[[f op] added] evs IH]; intros ws g.
  - cbn. rewrite elem_of_nil. tauto.
  - destruct (decide (f ∈ ws)) as [Hf|Hf].
    + rewrite fs_run_cons by done. cbn [fst]. rewrite IH, event_watched by done. rewrite elem_of_cons.
      split; [intros [[? H] ?]; split; [done|]; intros [[= -> <- <-]|?]; [by apply H|done]|].
      intros [? H]. split; [split; [done|]|]; [intros (-> & -> & ->); apply H; by left|intros ?; apply H; by right].
    + rewrite fs_run_skip by done. rewrite IH, elem_of_cons. split; intros [H1 H2]; (split; [done|]); [intros [[= -> _ _]|?]; done|tauto].
Qed.
Lemma run_app evs : forall ws evs', (fs_run ws (evs ++ evs')).2 = (fs_run ws evs).2 ++ (fs_run (fs_run ws evs).1 evs').2.
Proof.
  induction evs as [|[[f op] added] evs IH]; intros ws evs'; [done|]. change (((f, op, added) :: evs) ++ evs') with ((f, op, added) :: (evs ++ evs')).
  destruct (decide (f ∈ ws)) as [Hf|Hf].
  - rewrite !fs_run_cons by done. cbn [fst snd]. rewrite IH. by destruct (fs_event ws f op added) as [ws1 [x|]].
  - rewrite !fs_run_skip by done. apply IH.
Qed.
(** After any history, a change of file [f] leads to one more attempt to reload exactly if [f] was watched from
    the start and was never lost, and a change of another kind (a rename, new permissions) never does. *)
Theorem C64_noticed (ws : gset gostr) (evs : list (gostr * fs_op * bool)) (f : gostr) (op : fs_op) (added : bool) :
  let before := length (fs_run ws evs).2 in
  let after := length (fs_run ws (evs ++ [(f, op, added)])).2 in
  (after = before + 1 <-> is_change op /\ f ∈ ws /\ ~ lost evs f) /\ (after = before + 1 \/ after = before).
Proof.
  cbv zeta. rewrite run_app, app_length. destruct (decide (f ∈ (fs_run ws evs).1)) as [Hf|Hf].
  - rewrite fs_run_cons by done. apply run_watched in Hf. unfold is_change.
    destruct op, added; cbn; (split; [split; [intros ?; split; [|done]; first [by left|by right|lia]|intros [Hop _]; first [lia|destruct Hop; discriminate]]|lia]).
  - rewrite fs_run_skip by done. rewrite run_watched in Hf. cbn. split; [|lia]. split; [lia|]. tauto.
Qed.
(** Without a kubeconfig the files are not watched at all: configuration changes go unnoticed. *)
Theorem C64_no_kubeconfig (W : world) (file : gostr) :
  w_stat W (w_home W ++ str "/.kube/config") = false -> watched_files W [] file = ∅.
Proof. intros H. unfold watched_files, default_kube. cbn [forallb]. rewrite H. by rewrite andb_false_r. Qed.

(** ** Findings and examples *)
(** A machine with the configuration file "conf" and a service account. *)
Definition account_world (text : gostr) : world :=
  World (fun f => if str_eqb f (str "conf") then Some text else None) (fun _ => false) (str "/root") (fun _ => None)
    (fun _ _ => true) (fun _ _ => Some 7%N).
Definition ld0 : loaded := Loaded (Config (str "default") (str "old") []) ∅ ∅ [].
Lemma reload_account text fc : decode_conf text = Some fc -> exists ld, reload (account_world text) [] (str "conf") = Do (IConf ld) (Do (IBuild ld) (tail4 ld)) /\
  cf_token (ld_conf ld) = fc_token fc.
Proof.
  intros H. unfold reload, load. change (w_read (account_world text) (str "conf")) with (Some text). cbv iota. rewrite H.
  unfold load_clusters. change (w_stat (account_world text) (default_kube (account_world text))) with false.
  change (w_rest (account_world text) [] []) with true. change (w_client (account_world text) [] []) with (Some 7%N). cbv iota zeta.
  eexists. split; [reflexivity|]. unfold init_config. cbn [cf_token ld_conf]. by destruct (fc_default fc).
Qed.
Definition new_text : gostr := str "{""token"": ""new"", ""default_cluster"": ""c2""}".
Lemma new_conf : exists fc, decode_conf new_text = Some fc /\ fc_token fc = str "new".
Proof. exists (FileConf [] (str "c2") (str "new")). split; vm_compute; reflexivity. Qed.
Lemma ss_begin' E cf k f s W qs p : reload W k f = p -> sstep E cf k f (Sys s None qs) (SBegin W) (Sys s (Some p) qs).
Proof. intros <-. constructor. Qed.
Local Ltac go := first [apply sruns_nil|eapply sruns_cons; [go|first [apply ss_do|eapply ss_begin'; eassumption|apply ss_arrive|apply ss_done|apply ss_fail|eapply ss_req; [reflexivity|vm_compute; reflexivity]]]].

(** Were the store read before the clients (the Go specification leaves the order open), a request could work
    with new clients and the old store. *)
Theorem C50_store_first_refuted : forall E, exists ld tr y q, sruns E false [] (str "conf") (begun ld) tr y /\
  s_reqs y !! 0 = Some q /\ q_clients q = Some 1 /\ q_store q = Some 0.
Proof.
  intros E. destruct new_conf as (fc & Hfc & _). destruct (reload_account _ _ Hfc) as (ld & Hld & _).
  exists ld0, [SReq 0 AClients; SDo ISetClients; SDo ISetStore; SReq 0 AStore; SDo ISetWatcher; SDo IStop; SDo (IBuild ld); SDo (IConf ld);
    SBegin (account_world new_text); SArrive false []].
  eexists. exists (Req_ false [] None None (Some 1) (Some 0) []). split; [|split; [|split; reflexivity]].
  - unfold begun. unfold tail4 in Hld. go.
  - reflexivity.
Qed.
(** As the code is written, a request can work with the old clients and the new store. *)
Theorem C50_old_clients_new_store : forall E, exists ld tr y q, sruns E true [] (str "conf") (begun ld) tr y /\
  s_reqs y !! 0 = Some q /\ q_clients q = Some 0 /\ q_store q = Some 1 /\ begins tr = 1.
Proof.
  intros E. destruct new_conf as (fc & Hfc & _). destruct (reload_account _ _ Hfc) as (ld & Hld & _).
  exists ld0, [SReq 0 AStore; SDo ISetClients; SDo ISetStore; SReq 0 AClients; SDo ISetWatcher; SDo IStop; SDo (IBuild ld); SDo (IConf ld);
    SBegin (account_world new_text); SArrive false []].
  eexists. exists (Req_ false [] None None (Some 0) (Some 1) []). split; [|split; [|split; [|split]; reflexivity]].
  - unfold begun. unfold tail4 in Hld. go.
  - reflexivity.
Qed.
(** And the configuration is replaced before both: old clients and old store with the new default cluster,
    which those clients need not contain. *)
Theorem C50_configuration_refuted : forall E, exists ld tr y q, sruns E true [] (str "conf") (begun ld) tr y /\
  s_reqs y !! 0 = Some q /\ q_clients q = Some 0 /\ q_store q = Some 0 /\ q_later q = [1].
Proof.
  intros E. destruct new_conf as (fc & Hfc & _). destruct (reload_account _ _ Hfc) as (ld & Hld & _).
  exists ld0, [SReq 0 ALater; SReq 0 AStore; SReq 0 AClients; SArrive false []; SDo (IBuild ld); SDo (IConf ld); SBegin (account_world new_text)].
  eexists. exists (Req_ false [] None None (Some 0) (Some 0) [1]). split; [|split; [|split; [|split]; reflexivity]].
  - unfold begun. unfold tail4 in Hld. go.
  - reflexivity.
Qed.
(** A reload that fails: the file does not parse. *)
Example C50_ex_failed : forall E, exists y0 y1 y2 y3 W tr, sstep E true [] (str "conf") y0 (SBegin W) y1 /\ sruns E true [] (str "conf") y1 tr y2 /\ same_round tr /\
  sstep E true [] (str "conf") y2 SFail y3 /\ handles y3 = (0, 0, 0, 0) /\ length tr = 2.
Proof.
  intros E. assert (reload (account_world (str "{""token"": 5}")) [] (str "conf") = Fail) as Hf.
  { unfold reload, load. change (w_read (account_world (str "{""token"": 5}")) (str "conf")) with (Some (str "{""token"": 5}")). cbv iota.
    assert (decode_conf (str "{""token"": 5}") = None) as -> by (vm_compute; reflexivity). reflexivity. }
  exists (begun ld0). do 2 eexists. eexists. exists (account_world (str "{""token"": 5}")), [SReq 0 AClients; SArrive false []]. split; [apply ss_begin'; exact Hf|].
  split; [go|]. split; [|split; [apply ss_fail|split; reflexivity]].
  intros l Hl. rewrite !elem_of_cons, elem_of_nil in Hl. by destruct Hl as [-> | [-> |[]]].
Qed.
(** A whole reload: between reloads everything is generation 1 and the first watcher is stopped. *)
Example C50_ex_reload : forall E, exists tr y w, sruns E true [] (str "conf") (begun ld0) tr y /\ s_reload y = None /\ handles y = (1, 1, 1, 1) /\
  p_systems (s_proc y) !! 0 = Some w /\ ws_stop w = true.
Proof.
  intros E. destruct new_conf as (fc & Hfc & _). destruct (reload_account _ _ Hfc) as (ld & Hld & _).
  exists [SDone; SDo ISetClients; SDo ISetStore; SDo ISetWatcher; SDo IStop; SDo (IBuild ld); SDo (IConf ld); SBegin (account_world new_text)].
  do 2 eexists. split; [unfold begun; unfold tail4 in Hld; go|]. split; [reflexivity|]. split; [reflexivity|]. split; reflexivity.
Qed.
(** The token is replaced while a request is checked: the second read counts. *)
Example C62_ex : forall E, exists tr y q ld, sruns E true [] (str "conf") (begun ld0) tr y /\ s_reqs y !! 0 = Some q /\
  q = Req_ true (str "Bearer new") (Some 0) (Some 1) (Some 0) None [] /\ p_loads (s_proc y) !! 1 = Some ld /\ cf_token (ld_conf ld) = str "new".
Proof.
  intros E. destruct new_conf as (fc & Hfc & Ht). destruct (reload_account _ _ Hfc) as (ld & Hld & Ht').
  exists [SReq 0 AClients; SReq 0 AToken2; SDo (IConf ld); SBegin (account_world new_text); SReq 0 AToken1; SArrive true (str "Bearer new")].
  eexists. exists (Req_ true (str "Bearer new") (Some 0) (Some 1) (Some 0) None []), ld. split; [|split; [|split; [reflexivity|split; [|congruence]]]].
  - unfold begun. unfold tail4 in Hld. eapply sruns_cons; [go|]. eapply ss_req; [reflexivity|].
    unfold req_act. assert (forall s r, cf_token (ld_conf ld) = str "new" -> p_loads s !! 1 = Some ld -> p_loads s !! 0 = Some ld0 ->
      admitted s (Req_ true (str "Bearer new") (Some 0) (Some 1) None None r) = true) as Hadm.
    { intros s r H1 H2 H3. unfold admitted, token_of. cbn [q_required q_token1 q_token2 q_header]. rewrite H2, H3, H1. vm_compute. reflexivity. }
    rewrite Hadm; [|congruence|reflexivity|reflexivity]. reflexivity.
  - reflexivity.
  - reflexivity.
Qed.
(** A rename (an editor that writes a new file) is not a change; a file lost once is not watched any more. *)
Example C64_ex : length (fs_run {[ str "a" ]} [(str "a", FsWrite, true); (str "a", FsOther, true); (str "a", FsRemove, true); (str "a", FsRemove, false); (str "a", FsWrite, true)]).2 = 3.
Proof. vm_compute. reflexivity. Qed.
(** The default cluster comes from the kubeconfig alone, and need not have a client. *)
Theorem C63_default_without_client_refuted : exists W kube file ld, load W kube file = Do (IConf ld) (Do (IBuild ld) (Ret ld)) /\ loads_as W kube file ld /\
  cf_default (ld_conf ld) = str "gone" /\ ld_clients ld !! str "gone" = None /\ is_Some (ld_clients ld !! str "c1").
Proof.
  set (W := World (fun _ => Some new_text) (fun _ => true) (str "/root") (fun _ => Some (KubeConf (str "gone") [str "c1"])) (fun _ _ => true) (fun _ _ => Some 3%N)).
  destruct (C63_load W (str "k") (str "conf")) as [(ld & Hld & Hl)|[Hf Hn]].
  - exists W, (str "k"), (str "conf"), ld. split; [done|]. split; [done|].
    destruct Hl as (bs & fc & d & cs & Hbs & Hfc & Hcl & Hd & _ & _ & Hcs & _).
    destruct Hcl as [k bs' kc cs0 Hk Hbs' Hkc Hr Hnone Hsome|]; [|discriminate]. cbn in Hkc. injection Hkc as <-. cbn [kc_current kc_contexts] in *.
    split; [by destruct Hd as [[? ?]|[? ?]]|]. rewrite Hcs. split.
    + apply Hnone. intros [H|H]%elem_of_cons; [discriminate H|by apply elem_of_nil in H].
    + exists 3%N. apply Hsome. left.
  - exfalso. unfold load in Hf. change (w_read W (str "conf")) with (Some new_text) in Hf. cbv iota in Hf. destruct new_conf as (fc & Hfc & _). rewrite Hfc in Hf.
    discriminate Hf.
Qed.
Print Assumptions C50_failed_reload.
Print Assumptions C50_between_reloads.
Print Assumptions C50_stores.
Print Assumptions C50_request.
Print Assumptions C50_pairs.
Print Assumptions C50_cache_restarts.
Print Assumptions C62_let_in.
Print Assumptions C62_turned_away.
Print Assumptions C63_load.
Print Assumptions C64_noticed.
Print Assumptions C64_no_kubeconfig.
Print Assumptions C50_store_first_refuted.
Print Assumptions C50_configuration_refuted.
Print Assumptions C63_default_without_client_refuted.
