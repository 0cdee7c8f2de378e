(** Invariants of the process under reloads. *)
From Coq Require Import Ascii String NArith ZArith Lia.
From stdpp Require Import base gmap strings list.
From Verif Require Import ModelStr ModelJson ModelStore ModelProxy ModelObjType ModelWatcher ModelReload SpecReload.

(** A load fails before any effect, or has all of them. *)
Definition tail4 (ld : loaded) : prog loaded := Do IStop (Do ISetWatcher (Do ISetStore (Do ISetClients (Ret ld)))).
Lemma reload_cases W k f : reload W k f = Fail \/ exists ld, reload W k f = Do (IConf ld) (Do (IBuild ld) (tail4 ld)).
Proof.
  unfold reload, load. destruct (w_read W f); [|by left]. destruct (decode_conf _); [|by left].
  destruct (load_clusters W k _) as [[d cs]|]; [|by left]. right. eexists. reflexivity.
Qed.
(** The states of the goroutine that reloads. *)
Inductive rphase := RIdle | RFail | RConf (ld : loaded) | RBuild (ld : loaded) | RStop (ld : loaded) | RWatch (ld : loaded) | RStore (ld : loaded) | RClients (ld : loaded).
Definition phase_prog (p : rphase) : option (prog loaded) :=
  match p with
  | RIdle => None
  | RFail => Some Fail
  | RConf ld => Some (Do (IConf ld) (Do (IBuild ld) (tail4 ld)))
  | RBuild ld => Some (Do (IBuild ld) (tail4 ld))
  | RStop ld => Some (tail4 ld)
  | RWatch ld => Some (Do ISetWatcher (Do ISetStore (Do ISetClients (Ret ld))))
  | RStore ld => Some (Do ISetStore (Do ISetClients (Ret ld)))
  | RClients ld => Some (Do ISetClients (Ret ld))
  end.
(** [n] is the number of the last load all of whose assignments were made; the next one may be on its way. *)
Definition at_phase (s : proc) (p : option (prog loaded)) (n : nat) : Prop :=
  match p with
  | None | Some Fail | Some (Ret _) | Some (Do (IConf _) _) =>
      length (p_loads s) = S n /\ length (p_systems s) = S n /\ p_conf s = n /\ p_watcher s = n /\ p_store s = n /\ p_clients s = n
  | Some (Do (IBuild ld) _) =>
      p_loads s !! S n = Some ld /\
      length (p_loads s) = S (S n) /\ length (p_systems s) = S n /\ p_conf s = S n /\ p_watcher s = n /\ p_store s = n /\ p_clients s = n
  | Some (Do IStop _) | Some (Do ISetWatcher _) =>
      length (p_loads s) = S (S n) /\ length (p_systems s) = S (S n) /\ p_conf s = S n /\ p_watcher s = n /\ p_store s = n /\ p_clients s = n
  | Some (Do ISetStore _) =>
      length (p_loads s) = S (S n) /\ length (p_systems s) = S (S n) /\ p_conf s = S n /\ p_watcher s = S n /\ p_store s = n /\ p_clients s = n
  | Some (Do ISetClients _) =>
      length (p_loads s) = S (S n) /\ length (p_systems s) = S (S n) /\ p_conf s = S n /\ p_watcher s = S n /\ p_store s = S n /\ p_clients s = n
  end.
Definition good_prog (p : option (prog loaded)) : Prop :=
  match p with
  | Some (Ret _) => True
  | _ => exists ph, p = phase_prog ph
  end.
(** Old watchers are stopped, the newest is not. *)
Definition stopped_after (p : option (prog loaded)) (s : proc) (k : nat) : bool :=
  match p with
  | Some (Do ISetWatcher _) => k <=? p_watcher s
  | _ => k <? p_watcher s
  end.
Record inv (E : env) (y : sys) : Prop := Inv {
  inv_prog : good_prog (s_reload y);
  inv_phase : exists n, at_phase (s_proc y) (s_reload y) n;
  inv_stop : forall k w, p_systems (s_proc y) !! k = Some w -> ws_stop w = stopped_after (s_reload y) (s_proc y) k;
  inv_runs : forall k w, p_systems (s_proc y) !! k = Some w -> exists ld tr,
    p_loads (s_proc y) !! k = Some ld /\ wruns E (ld_watch ld) (wstart (ld_watch ld) (ld_index ld)) tr w }.

Lemma wact_stop E ws w i l w' : wstep E ws w (WAct i l) w' -> ws_stop w' = ws_stop w.
Proof. intros H. by inversion H. Qed.

Section steps.
  Context (E : env) (cf : bool) (kube file : gostr).
  Local Notation sstep := (sstep E cf kube file).
  Local Notation sruns := (sruns E cf kube file).

  Lemma inv_started ld : inv E (Sys (started ld) None []).
  Proof.
    split.
    - by exists RIdle.
    - by exists 0.
    - intros [|[|k]] w Hw; [|done|done]. by injection Hw as <-.
    - intros [|[|k]] w Hw; [|done|done]. injection Hw as <-. exists ld, []. split; [done|]. constructor.
  Qed.
  Lemma lookup_snoc {A} (l : list A) x k y : (l ++ [x]) !! k = Some y -> l !! k = Some y \/ k = length l /\ x = y.
  Proof.
    intros H. apply lookup_app_Some in H as [H|[H1 H2]]; [by left|]. right.
    destruct (k - length l) as [|m] eqn:Ek; [|done]. injection H2 as ->. split; [lia|done].
  Qed.
  Lemma inv_step y l y' : inv E y -> sstep y l y' -> inv E y'.
  Proof.
    intros [Hg [n Hp] Hs Hr] Hstep. destruct Hstep as [s W qs|s qs|s ld qs|s i p qs|s r qs m ld w i l w' Hl Hw Hact|s r qs rq h|s r qs i a q q' Hq Ha]; cbn [s_proc s_reload s_reqs] in *.
    - destruct (reload_cases W kube file) as [->|[ld ->]]; (split; [..|done]); cbn [s_proc s_reload].
      + by exists RFail. + by exists n. + done. + by exists (RConf ld). + by exists n. + done.
    - split; cbn [s_proc s_reload]; [by exists RIdle|by exists n|done|done].
    - split; cbn [s_proc s_reload]; [by exists RIdle|by exists n|done|done].
    - assert (exists ph, Some (Do i p) = phase_prog ph) as [ph Hph] by done. clear Hg. 
      destruct ph as [| |ld|ld|ld|ld|ld|ld]; cbn in Hph; try discriminate Hph; injection Hph as -> ->.
      + destruct Hp as (H1 & H2 & H3 & H4 & H5 & H6). split; cbn [s_proc s_reload do_instr].
        * by exists (RBuild ld).
        * exists n. cbn. rewrite app_length, H1. cbn. split; [|repeat split; lia]. rewrite <- H1. by apply list_lookup_middle.
        * done.
        * intros k w Hw. cbn [p_systems p_loads] in *. destruct (Hr k w Hw) as (ld' & tr & Hld & Hrun). exists ld', tr. split; [|done].
          by apply lookup_app_l_Some.
      + destruct Hp as (H0 & H1 & H2 & H3 & H4 & H5 & H6). split; cbn [s_proc s_reload do_instr].
        * by exists (RStop ld).
        * exists n. cbn. rewrite app_length, H2. cbn. repeat split; lia.
        * intros k w Hw. cbn [p_systems] in Hw. apply lookup_snoc in Hw as [Hw|[-> <-]].
          -- exact (Hs k w Hw).
          -- rewrite H2. change (false = (S n <? p_watcher s)). rewrite H4. symmetry. apply Nat.ltb_ge. lia.
        * intros k w Hw. cbn [p_systems] in Hw. apply lookup_snoc in Hw as [Hw|[-> <-]].
          -- exact (Hr k w Hw).
          -- rewrite H2. cbn [p_loads]. exists ld, []. split; [done|]. constructor.
      + destruct Hp as (H1 & H2 & H3 & H4 & H5 & H6). split; cbn [s_proc s_reload do_instr].
        * by exists (RWatch ld).
        * exists n. cbn. rewrite alter_length. repeat split; done.
        * intros k w Hw. cbn [p_systems] in Hw. cbn [stopped_after p_watcher]. destruct (decide (k = p_watcher s)) as [->|Hne].
          -- rewrite list_lookup_alter in Hw. apply fmap_Some in Hw as (w0 & Hw0 & ->). cbn. symmetry. apply Nat.leb_le. lia.
          -- rewrite list_lookup_alter_ne in Hw by done. rewrite (Hs k w Hw). change ((k <? p_watcher s) = (k <=? p_watcher s)). destruct (Nat.ltb_spec k (p_watcher s)), (Nat.leb_spec k (p_watcher s)); try done; lia.
        * intros k w Hw. cbn [p_systems p_loads] in *. destruct (decide (k = p_watcher s)) as [->|Hne].
          -- rewrite list_lookup_alter in Hw. apply fmap_Some in Hw as (w0 & Hw0 & ->).
             destruct (Hr _ _ Hw0) as (ld' & tr & Hld & Hrun). exists ld', (WStop :: tr). split; [done|]. eapply wruns_cons; [done|]. constructor.
          -- rewrite list_lookup_alter_ne in Hw by done. by apply Hr.
      + destruct Hp as (H1 & H2 & H3 & H4 & H5 & H6). split; cbn [s_proc s_reload do_instr].
        * by exists (RStore ld).
        * exists n. unfold newest. cbn. rewrite H2. repeat split; done.
        * intros k w Hw. cbn [p_systems] in Hw. rewrite (Hs k w Hw). change ((k <=? p_watcher s) = (k <? Nat.pred (length (p_systems s)))). rewrite H2, H4. cbn [Nat.pred].
          destruct (Nat.leb_spec k n), (Nat.ltb_spec k (S n)); try done; lia.
        * done.
      + destruct Hp as (H1 & H2 & H3 & H4 & H5 & H6). split; cbn [s_proc s_reload do_instr].
        * by exists (RClients ld).
        * exists n. unfold newest. cbn. rewrite H2. repeat split; done.
        * done.
        * done.
      + destruct Hp as (H1 & H2 & H3 & H4 & H5 & H6). split; cbn [s_proc s_reload do_instr].
        * done.
        * exists (S n). unfold newest. cbn. rewrite H1. repeat split; done.
        * done.
        * done.
    - split; cbn [s_proc s_reload].
      + done.
      + exists n. unfold at_phase in *. cbn [p_loads p_systems p_conf p_watcher p_store p_clients]. rewrite insert_length. exact Hp.
      + intros k w0 Hk. cbn [p_systems] in Hk. transitivity (stopped_after r s k); [|done]. destruct (decide (k = m)) as [->|Hne].
        * rewrite list_lookup_insert in Hk by (by eapply lookup_lt_Some). injection Hk as <-. rewrite (wact_stop _ _ _ _ _ _ Hact). by apply Hs.
        * rewrite list_lookup_insert_ne in Hk by done. by apply Hs.
      + intros k w0 Hk. cbn [p_systems p_loads] in *. destruct (decide (k = m)) as [->|Hne].
        * rewrite list_lookup_insert in Hk by (by eapply lookup_lt_Some). injection Hk as <-.
          destruct (Hr _ _ Hw) as (ld' & tr & Hld & Hrun). exists ld', (WAct i l :: tr). split; [done|].
          eapply wruns_cons; [done|]. by assert (ld' = ld) as -> by congruence.
        * rewrite list_lookup_insert_ne in Hk by done. by apply Hr.
    - split; cbn [s_proc s_reload]; [done|by exists n|done|done].
    - split; cbn [s_proc s_reload]; [done|by exists n|done|done].
  Qed.
  Lemma inv_runs' y tr y' : inv E y -> sruns y tr y' -> inv E y'.
  Proof. intros Hi. induction 1; [done|]. by eapply inv_step. Qed.

  (** ** What a request sees *)
  (** Generations only grow. *)
  Lemma mono_step y l y' : inv E y -> sstep y l y' ->
    p_conf (s_proc y) <= p_conf (s_proc y') /\ p_store (s_proc y) <= p_store (s_proc y') /\ p_clients (s_proc y) <= p_clients (s_proc y') /\
    p_loads (s_proc y) `prefix_of` p_loads (s_proc y').
  Proof.
    intros Hi Hstep. destruct (Hi) as [Hg [n Hp] _ _]. destruct Hstep as [s W qs|s qs|s ld qs|s i p qs|s r qs m ld w i l w' Hl Hw Hact|s r qs rq h|s r qs i a q q' Hq Ha]; cbn [s_proc s_reload s_reqs] in *; try (by repeat split).
    assert (exists ph, Some (Do i p) = phase_prog ph) as [ph Hph] by done.
    destruct ph; cbn in Hph; try discriminate Hph; injection Hph as -> ->; cbn in Hp |- *; unfold newest; (repeat split; try done; try lia). 
    by eexists.
  Qed.
  Lemma order_inv y : inv E y -> p_clients (s_proc y) <= p_store (s_proc y) <= p_conf (s_proc y) /\ p_conf (s_proc y) <= S (p_clients (s_proc y)).
  Proof.
    intros [Hg [n Hp] _ _]. destruct (s_reload y) as [[|ld|[] p]|]; cbn in Hp; lia.
  Qed.
  (** The rounds that have not yet assigned the configuration. *)
  Definition pot (y : sys) : nat :=
    match s_reload y with Some (Do (IConf _) _) => S (p_conf (s_proc y)) | _ => p_conf (s_proc y) end.
  Lemma pot_step y l y' : inv E y -> sstep y l y' -> pot y' <= pot y + begins [l].
  Proof.
    intros Hi Hstep. destruct (Hi) as [Hg [n Hp] _ _]. unfold pot. destruct Hstep as [s W qs|s qs|s ld qs|s i p qs|s r qs m ld w i l w' Hl Hw Hact|s r qs rq h|s r qs i a q q' Hq Ha]; cbn [s_proc s_reload s_reqs p_conf begins List.filter length] in *; try lia.
    - destruct (reload_cases W kube file) as [->|[ld ->]]; cbn; lia.
    - assert (exists ph, Some (Do i p) = phase_prog ph) as [ph Hph] by done.
      destruct ph; cbn in Hph; try discriminate Hph; injection Hph as -> ->; cbn in Hp |- *; lia. 
  Qed.
  Lemma pot_start y : inv E y -> pot y <= p_clients (s_proc y) + busy y.
  Proof. intros [Hg [n Hp] _ _]. unfold pot, busy. destruct (s_reload y) as [[|ld|[] p]|]; cbn in Hp; lia. Qed.

  (** A request that arrived as number [i] in state [ya] (its record is new there). *)
  Definition sees (ya : sys) (i : nat) (y : sys) : Prop := exists q, s_reqs y !! i = Some q /\
    (forall c, q_clients q = Some c -> p_clients (s_proc ya) <= c <= p_clients (s_proc y)) /\
    (forall n, q_store q = Some n -> p_store (s_proc ya) <= n <= p_store (s_proc y)) /\
    (forall n, q_token1 q = Some n \/ q_token2 q = Some n \/ n ∈ q_later q -> p_conf (s_proc ya) <= n <= p_conf (s_proc y)) /\
    (cf = true -> forall c n, q_clients q = Some c -> q_store q = Some n -> c <= n) /\
    (cf = true -> q_clients q = None -> q_store q = None).
  Lemma sees_new y rq h r qs s : y = Sys s r (qs ++ [new_req rq h]) -> sees y (length qs) y.
  Proof.
    intros ->. exists (new_req rq h). cbn [s_reqs]. split; [by apply list_lookup_middle|].
    split; [done|]. split; [done|]. split; [|by repeat split]. intros n [H|[H|H]]; [done|done|]. by apply elem_of_nil in H.
  Qed.
  Lemma sees_mono ya i y l y' : inv E y -> sstep y l y' -> (forall q, s_reqs y !! i = Some q -> s_reqs y' !! i = Some q) ->
    sees ya i y -> sees ya i y'.
  Proof.
    intros Hi Hstep Hq (q & H & H1 & H2 & H3 & H4 & H5). destruct (mono_step _ _ _ Hi Hstep) as (M1 & M2 & M3 & _).
    exists q. split; [by apply Hq|]. split; [|split; [|split]]; [| | |done].
    - intros c Hc. specialize (H1 c Hc). lia.
    - intros c Hc. specialize (H2 c Hc). lia.
    - intros c Hc. specialize (H3 c Hc). lia.
  Qed.
  Lemma sees_step ya i y l y' : inv E y -> sstep y l y' ->
    p_clients (s_proc ya) <= p_clients (s_proc y) -> p_store (s_proc ya) <= p_store (s_proc y) -> p_conf (s_proc ya) <= p_conf (s_proc y) ->
    sees ya i y -> sees ya i y'.
  Proof.
    intros Hi Hstep A1 A2 A3 Hs. pose proof (order_inv _ Hi) as Ho.
    destruct Hstep as [s W qs|s qs|s ld qs|s j p qs|s r qs m ld w j l w' Hl Hw Hact|s r qs rq h|s r qs j a q q' Hq Ha];
      try (eapply sees_mono; [exact Hi|econstructor; eassumption|by cbn|exact Hs]).
    - eapply sees_mono; [exact Hi|apply ss_arrive|cbn|exact Hs]. intros q Hq. by apply lookup_app_l_Some.
    - destruct (decide (i = j)) as [->|Hne].
      2:{ eapply sees_mono; [exact Hi|by econstructor|cbn|exact Hs]. intros q0 H0. by rewrite list_lookup_insert_ne by done. }
      destruct Hs as (q0 & H0 & H1 & H2 & H3 & H4 & H5). cbn [s_reqs s_proc] in *. rewrite Hq in H0. injection H0 as <-.
      exists q'. cbn [s_reqs s_proc]. split; [apply list_lookup_insert; by eapply lookup_lt_Some|].
      destruct q as [rq h t1 t2 c st lt]. cbn [q_clients q_store q_token1 q_token2 q_later] in *. unfold req_act in Ha.
      destruct a, t1 as [n1|], t2 as [n2|], c as [n3|], st as [n4|]; try discriminate Ha;
        repeat match type of Ha with (if ?b then _ else _) = _ => destruct b eqn:?; try discriminate Ha end;
        injection Ha as <-; cbn [q_clients q_store q_token1 q_token2 q_later];
        (split; [intros x Hx; first [by apply H1|injection Hx as <-; lia|done]|]);
        (split; [intros x Hx; first [by apply H2|injection Hx as <-; lia|done]|]);
        (split; [intros x Hx; rewrite ?elem_of_app, ?elem_of_list_singleton in Hx;
                 destruct_or?; try (injection Hx as <-); try subst x; first [apply H3; by auto|lia|done]|]);
        (split; [intros Hcf x z Hx Hz; first [by eapply H4|discriminate|injection Hx as <-; injection Hz as <-]|]);
        first [done|intros; discriminate|idtac].
      all: try (pose proof (H1 _ eq_refl)); try (pose proof (H2 _ eq_refl)); try lia.
      all: subst; try discriminate; auto; try (specialize (H5 eq_refl eq_refl); discriminate).
      all: intros -> _; match goal with H : negb true && _ = true |- _ => discriminate H end.
  Qed.
  Lemma mono_runs y tr y' : inv E y -> sruns y tr y' ->
    p_conf (s_proc y) <= p_conf (s_proc y') /\ p_store (s_proc y) <= p_store (s_proc y') /\ p_clients (s_proc y) <= p_clients (s_proc y') /\
    p_loads (s_proc y) `prefix_of` p_loads (s_proc y').
  Proof.
    intros Hi Hr. induction Hr as [|tr y1 l y2 Hr IH Hstep]; [done|]. destruct IH as (H1 & H2 & H3 & H4).
    destruct (mono_step _ _ _ (inv_runs' _ _ _ Hi Hr) Hstep) as (M1 & M2 & M3 & M4). split; [lia|]. split; [lia|]. split; [lia|]. by etransitivity.
  Qed.
  Lemma sees_runs ya i tr y : inv E ya -> sees ya i ya -> sruns ya tr y -> sees ya i y.
  Proof.
    intros Hi Hs Hr. induction Hr as [|tr y1 l y2 Hr IH Hstep]; [done|].
    destruct (mono_runs _ _ _ Hi Hr) as (M1 & M2 & M3 & _). eapply sees_step; [by eapply inv_runs'|done..].
  Qed.
  Lemma pot_runs y tr y' : inv E y -> sruns y tr y' -> pot y' <= pot y + begins tr.
  Proof.
    intros Hi Hr. induction Hr as [|tr y1 l y2 Hr IH Hstep]; [unfold begins; cbn; lia|].
    pose proof (pot_step _ _ _ (inv_runs' _ _ _ Hi Hr) Hstep). unfold begins in *. change (l :: tr) with ([l] ++ tr). rewrite List.filter_app, app_length. lia.
  Qed.
End steps.

(** ** Loading *)
Lemma contexts_spec W k l : forall cs0 cs, add_contexts W k l cs0 = Some cs ->
  (forall x, x ∈ l -> w_rest W k x = true /\ is_Some (w_client W k x) /\ cs !! x = w_client W k x) /\
  (forall x, x ∉ l -> cs !! x = cs0 !! x).
Proof.
  induction l as [|y l IH]; intros cs0 cs H; cbn in H.
  - injection H as <-. split; [|done]. intros x Hx. by apply elem_of_nil in Hx.
  - destruct (w_rest W k y) eqn:Hr; [|done]. destruct (w_client W k y) as [cl|] eqn:Hc; [|done].
    destruct (IH _ _ H) as [H1 H2]. split.
    + intros x Hx. destruct (decide (x ∈ l)) as [Hin|Hnin]; [by apply H1|].
      apply elem_of_cons in Hx as [->|Hx]; [|done]. rewrite Hr, Hc. split; [done|]. split; [by eexists|].
      rewrite (H2 _ Hnin). by rewrite lookup_insert.
    + intros x [Hne Hx]%not_elem_of_cons. rewrite (H2 _ Hx). by rewrite lookup_insert_ne by done.
Qed.
Lemma contexts_total W k l : forall cs0, (forall x, x ∈ l -> w_rest W k x = true /\ is_Some (w_client W k x)) ->
  is_Some (add_contexts W k l cs0).
Proof.
  induction l as [|y l IH]; intros cs0 H; cbn; [by eexists|]. destruct (H y ltac:(left)) as [-> [cl ->]]. apply IH. intros x Hx. apply H. by right.
Qed.
Lemma index_conf_spec ps : forall g m, index_conf ps !! g = Some m <->
  exists a p b, ps = a ++ p :: b /\ pc_gvr p = g /\ pc_index p = m /\ forall p', p' ∈ b -> pc_gvr p' <> g.
Proof.
  unfold index_conf. intros g m. induction ps as [|p ps IH] using rev_ind.
  - cbn. rewrite lookup_empty. split; [done|]. intros (a0 & p0 & b0 & H & _). by destruct a0.
  - rewrite fold_left_app. cbn [fold_left]. destruct (decide (pc_gvr p = g)) as [Hg|Hg].
    + rewrite <- Hg at 1. rewrite lookup_insert. split.
      * intros [= <-]. exists ps, p, []. split; [done|]. split; [done|]. split; [done|]. intros p' Hp. by apply elem_of_nil in Hp.
      * intros (a & q & b & H & Hq & Hm & Hb). destruct b as [|x b _] using rev_ind.
        -- apply app_inj_tail in H as [_ ->]. by rewrite Hm.
        -- rewrite app_comm_cons, app_assoc in H. apply app_inj_tail in H as [_ ->]. exfalso. apply (Hb x); [|done]. apply elem_of_app. right. by left.
    + rewrite lookup_insert_ne by done. rewrite IH. split.
      * intros (a & q & b & -> & Hq & Hm & Hb). exists a, q, (b ++ [p]). split; [by rewrite <- app_assoc|]. split; [done|]. split; [done|].
        intros p' [Hp|Hp%elem_of_list_singleton]%elem_of_app; [by apply Hb|by subst].
      * intros (a & q & b & H & Hq & Hm & Hb). destruct b as [|x b _] using rev_ind.
        -- apply app_inj_tail in H as [_ ->]. done.
        -- rewrite app_comm_cons, app_assoc in H. apply app_inj_tail in H as [-> ->]. exists a, q, b. split; [done|]. split; [done|]. split; [done|].
           intros p' Hp. apply Hb. apply elem_of_app. by left.
Qed.
Lemma watch_list_spec ps cs g c : (g, c) ∈ watch_list ps cs <-> (exists p, p ∈ ps /\ pc_gvr p = g) /\ is_Some (cs !! c).
Proof.
  unfold watch_list. rewrite elem_of_list_In, in_concat. split.
  - intros (l & (p & <- & Hp)%in_map_iff & ((k & v) & [= <- <-] & Hk%elem_of_list_In%elem_of_map_to_list)%in_map_iff).
    split; [exists p; split; [by apply elem_of_list_In|done]|by eexists].
  - intros [(p & Hp & <-) [v Hv]]. eexists. split; [apply in_map_iff; exists p; split; [reflexivity|by apply elem_of_list_In]|].
    apply in_map_iff. exists (c, v). split; [done|]. by apply elem_of_list_In, elem_of_map_to_list.
Qed.
