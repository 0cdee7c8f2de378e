(** C29, C46: the watch goroutines. *)
From Coq Require Import Ascii String NArith ZArith Lia.
From stdpp Require Import base gmap strings list sorting.
From Verif Require Import ModelStr ModelStore ModelProxy ModelWatcher SpecStore SpecWatcher ProofsStr ProofsStore ProofsWatcher PropsStore.

(** ** C29 *)
(** Once the latest stream has delivered something and it is dealt with, the cache of the type and cluster is
    what this stream alone says: nothing of earlier streams or other goroutines is left or missing. *)
Theorem C29_resync E ws conf tr w i g c : wruns E ws (wstart ws conf) tr w -> alone ws i g c ->
  latest i tr <> [] -> (forall f x, ws_phases w !! i <> Some (PGot f x)) ->
  cache_is E conf (ws_store w) g c (latest i tr).
Proof.
  intros H Ha Hne Hm. destruct (runs_inv E ws conf tr w i g c H Ha) as (ph & Hph & Hinv). apply replay_cache.
  destruct ph as [| |[]|f x|]; cbn [inv] in Hinv; [by apply Hinv|by apply Hinv|done|by apply Hinv| |by apply Hinv].
  by destruct (Hm f x).
Qed.
Print Assumptions C29_resync.
(** While the last item is being dealt with, the cache is what the items before it say, except that
    before the Clean for the first item it is still unchanged (see C29_kept). *)
Theorem C29_item_pending E ws conf tr w i g c f x : wruns E ws (wstart ws conf) tr w -> alone ws i g c ->
  ws_phases w !! i = Some (PGot f x) ->
  exists before, latest i tr = before ++ [x] /\ (f = true -> before = []) /\
    (f = false -> cache_is E conf (ws_store w) g c before).
Proof.
  intros H Ha Hph. destruct (runs_inv E ws conf tr w i g c H Ha) as (ph & Hph' & Hinv). rewrite Hph in Hph'. injection Hph' as <-.
  destruct f; cbn [inv] in Hinv.
  - exists []. done.
  - destruct Hinv as (xs & -> & Hr). exists xs. split; [done|]. split; [done|]. intros _. by apply replay_cache.
Qed.
Print Assumptions C29_item_pending.
(** As long as the goroutine receives nothing the cache of its type and cluster stays as it is, through closed
    streams, failed and successful connections, and all work of other goroutines. *)
Theorem C29_kept E ws w tr w' i g c : wruns E ws w tr w' -> alone ws i g c ->
  (forall f x, ws_phases w !! i <> Some (PGot f x)) -> (forall x, WAct i (LRecv x) ∉ tr) ->
  forall ns n, store_get (ws_store w') g c ns n = store_get (ws_store w) g c ns n.
Proof.
  intros H [Hi Hal] Hm. 
  enough ((forall x, WAct i (LRecv x) ∉ tr) -> (forall f x, ws_phases w' !! i <> Some (PGot f x)) /\
    forall ns n, lookup_entry (ws_store w') g c ns n = lookup_entry (ws_store w) g c ns n) as Hen.
  { intros Hr ns n. unfold store_get. by rewrite (proj2 (Hen Hr)). }
  induction H as [|tr w1 l w2 H IH Hs]; intros Hr; [done|]. destruct IH as [IH1 IH2]; [set_solver|].
  destruct Hs as [w1 j g' c' ph l st' ph' Hj Hphj Ha|w1]; [|done]. cbn [ws_phases ws_store].
  destruct (decide (j = i)) as [->|Hne].
  - rewrite Hi in Hj. injection Hj as <- <-. split.
    + intros f x. rewrite list_lookup_insert by (by eapply lookup_lt_Some). intros [= ->].
      inversion Ha; subst; try by destruct (Hr x); set_solver.
    + intros ns n. rewrite <- IH2. inversion Ha; subst; try done; exfalso; by eapply IH1.
  - split; [by rewrite list_lookup_insert_ne|]. intros ns n. rewrite <- IH2. eapply act_other; [exact Ha|]. intros [= -> ->]. by apply Hne, Hal.
Qed.
Print Assumptions C29_kept.
(** Finding: a stream whose first item carries no object, because it is an error or the stream is closed at
    once, empties the cache of this type and cluster. *)
Theorem C29_failed_stream_empties E ws conf tr w i g c : wruns E ws (wstart ws conf) tr w -> alone ws i g c ->
  latest i tr <> [] -> (forall f x, ws_phases w !! i <> Some (PGot f x)) ->
  (forall t o, IEvent t o ∈ latest i tr -> t = EvOther) ->
  forall ns n, store_get (ws_store w) g c ns n = None.
Proof.
  intros H Ha Hne Hm Hall ns n. destruct (C29_resync E ws conf tr w i g c H Ha Hne Hm ns n) as [Hc _].
  destruct (store_get (ws_store w) g c ns n) as [o'|]; [|done]. destruct (Hc o' eq_refl) as (o & (a & t & b & Hl & Ht & _) & _).
  assert (t = EvOther) as -> by (apply (Hall t o); rewrite Hl; set_solver). by destruct Ht.
Qed.
Print Assumptions C29_failed_stream_empties.
(** No goroutine panics in the store: every received item can be dealt with when the types are configured. *)
Theorem C29_no_panic E ws conf tr w i g c f x : wruns E ws (wstart ws conf) tr w -> is_Some (conf !! g) ->
  ws !! i = Some (g, c) -> ws_phases w !! i = Some (PGot f x) ->
  exists w', wstep E ws w (WAct i (if f then LClean else LApply)) w'.
Proof.
  intros H Hg Hi Hph.
  assert (is_Some (st_map (ws_store w) !! g)) as [cs Hcs].
  { clear -H Hg. induction H as [|tr w l w' H IH Hs]; [by apply new_dom|].
    destruct Hs as [w j g' c' ph l st' ph' Hj Hphj Ha|w]; [|done]. cbn [ws_store].
    destruct Ha as [| | | | | |st st' y Hr|st st' y Hr]; try done; by apply (run_dom E _ _ _ g Hr). }
  assert (exists st', run_calls E (ws_store w) (if f then [CClean g c] else event_call g c x) = Ok st') as [st' Hst].
  { destruct f; [|destruct x as [[] o|]; cbn [event_call]; [| | |by eexists|by eexists]];
      (cbn [run_calls]; match goal with |- context [do_call E _ ?k] => destruct (do_call E (ws_store w) k) as [st1|] eqn:Ek; [by eexists|] end;
       apply call_panics in Ek; cbn [call_gvr] in Ek; congruence). }
  destruct f; eexists; (eapply wstep_act; [exact Hi|exact Hph|]); by constructor.
Qed.
Print Assumptions C29_no_panic.
(** A run: one watch of pods in c1 and one in c2, a reconnect with a smaller set of objects. *)
Definition ex_ws : list (gvr * gostr) := [(pods, c1); (pods, c2)].
Definition put (n : string) : item := IEvent EvAdded (pod "default" n "1").
Definition ex_trace : list wlabel := rev
  [WAct 0 LCheck; WAct 0 LConnect; WAct 1 LCheck; WAct 1 LConnect; WAct 0 (LRecv (put "a")); WAct 1 (LRecv (put "z")); WAct 0 LClean; WAct 1 LClean; WAct 0 LApply;
   WAct 0 (LRecv (put "b")); WAct 0 LApply; WAct 1 LApply; WAct 0 (LRecv IClosed); WAct 0 LApply; WAct 0 LCheck; WAct 0 LFail; WAct 0 LCheck; WAct 0 LConnect;
   WAct 0 (LRecv (put "b")); WAct 0 LClean; WAct 0 LApply].
(** Executing a trace, to show that it is one. *)
Definition exec_act E g c (stop : bool) (st : store) (ph : phase) (l : label) : option (store * phase) :=
  match ph, l with
  | PIdle, LCheck => if stop then None else Some (st, PConn)
  | PIdle, LQuit => if stop then Some (st, PDone) else None
  | PConn, LConnect => Some (st, PStream true)
  | PConn, LFail => Some (st, PIdle)
  | PStream f, LRecv i => Some (st, PGot f i)
  | PStream f, LQuit => if stop then Some (st, PDone) else None
  | PGot true i, LClean => match run_calls E st [CClean g c] with Ok st' => Some (st', PGot false i) | Panics => None end
  | PGot false i, LApply => match run_calls E st (event_call g c i) with
                            | Ok st' => Some (st', match i with IClosed => PIdle | _ => PStream false end) | Panics => None end
  | _, _ => None
  end.
Lemma exec_act_ok E g c stop st ph l st' ph' : exec_act E g c stop st ph l = Some (st', ph') -> wact E g c stop st ph l st' ph'.
Proof.
  intros H. destruct ph as [| |f|[] x|], l; try discriminate H; cbn [exec_act] in H.
  - destruct stop; [discriminate H|]. injection H as <- <-. by constructor.
  - destruct stop; [|discriminate H]. injection H as <- <-. by constructor.
  - injection H as <- <-. by constructor.
  - injection H as <- <-. by constructor.
  - injection H as <- <-. by constructor.
  - destruct stop; [|discriminate H]. injection H as <- <-. by constructor.
  - destruct (run_calls E st [CClean g c]) as [s|] eqn:Er; [|discriminate H]. injection H as <- <-. by constructor.
  - destruct (run_calls E st (event_call g c x)) as [s|] eqn:Er; [|discriminate H]. injection H as <- <-. by constructor.
Qed.
Fixpoint exec (E : env) (ws : list (gvr * gostr)) (w : wsys) (rtr : list wlabel) : option wsys :=
  match rtr with
  | [] => Some w
  | l :: tr =>
      match exec E ws w tr with
      | None => None
      | Some w1 =>
          match l with
          | WStop => Some (WSys (ws_store w1) (ws_phases w1) true)
          | WAct i a => match ws !! i, ws_phases w1 !! i with
                        | Some (g, c), Some ph =>
                            match exec_act E g c (ws_stop w1) (ws_store w1) ph a with
                            | Some (st', ph') => Some (WSys st' (<[i := ph']> (ws_phases w1)) (ws_stop w1))
                            | None => None
                            end
                        | _, _ => None
                        end
          end
      end
  end.
Lemma exec_ok E ws w0 tr : forall w, exec E ws w0 tr = Some w -> wruns E ws w0 tr w.
Proof.
  induction tr as [|l tr IH]; intros w H; cbn [exec] in H.
  - injection H as <-. constructor.
  - destruct (exec E ws w0 tr) as [w1|]; [|discriminate H]. econstructor; [by apply IH|].
    destruct l as [i a|]; [|injection H as <-; constructor].
    destruct (ws !! i) as [[g c]|] eqn:Ei; [|discriminate H]. destruct (ws_phases w1 !! i) as [ph|] eqn:Ep; [|discriminate H].
    destruct (exec_act E g c (ws_stop w1) (ws_store w1) ph a) as [[st' ph']|] eqn:Ea; [|discriminate H]. injection H as <-.
    econstructor; [exact Ei|exact Ep|by apply exec_act_ok].
Qed.
Definition phases_of (o : option wsys) : list phase := match o with Some w => ws_phases w | None => [] end.
Definition got (o : option wsys) (c n : gostr) : option gostr :=
  match o with Some w => obj_id <$> store_get (ws_store w) pods c (str "default") n | None => None end.
Example C29_ex : let o := exec ex_env ex_ws (wstart ex_ws ex_conf) ex_trace in
  (exists w, o = Some w /\ wruns ex_env ex_ws (wstart ex_ws ex_conf) ex_trace w) /\
  phases_of o = [PStream false; PStream false] /\ latest 0 ex_trace = [put "b"] /\ latest 1 ex_trace = [put "z"] /\ alone ex_ws 0 pods c1 /\
  got o c1 (str "a") = None /\ got o c1 (str "b") = Some (str "default/b") /\ got o c2 (str "z") = Some (str "default/z").
Proof.
  cbv zeta. split.
  { assert (match exec ex_env ex_ws (wstart ex_ws ex_conf) ex_trace with Some _ => true | None => false end = true) as H by (by vm_compute).
    pose proof (exec_ok ex_env ex_ws (wstart ex_ws ex_conf) ex_trace) as Hok. revert H Hok.
    generalize (exec ex_env ex_ws (wstart ex_ws ex_conf) ex_trace). intros [w|] H Hok; [|discriminate H]. exists w. split; [reflexivity|]. by apply Hok. }
  split; [vm_compute; reflexivity|]. split; [reflexivity|]. split; [reflexivity|]. split.
  { split; [reflexivity|]. intros [|[|j]] H; [reflexivity|discriminate H|discriminate H]. }
  split; [vm_compute; reflexivity|]. split; vm_compute; reflexivity.
Qed.
(** With one type listed twice in the configuration two goroutines fill the same part of the cache, and the
    claim is wrong: the second one's first item removes what the first one has already put. *)
Theorem C29_listed_twice_refuted : exists E ws conf tr w i g c, wruns E ws (wstart ws conf) tr w /\ ws !! i = Some (g, c) /\
  latest i tr <> [] /\ (forall f x, ws_phases w !! i <> Some (PGot f x)) /\ is_Some (conf !! g) /\
  ~ cache_is E conf (ws_store w) g c (latest i tr).
Proof.
  pose (ws := [(pods, c1); (pods, c1)]).
  pose (tr := rev [WAct 0 LCheck; WAct 0 LConnect; WAct 1 LCheck; WAct 1 LConnect; WAct 0 (LRecv (put "a")); WAct 0 LClean; WAct 0 LApply; WAct 1 (LRecv (put "a")); WAct 1 LClean]).
  assert (exists w, exec ex_env ws (wstart ws ex_conf) tr = Some w /\ ws_phases w !! 0 = Some (PStream false) /\ store_get (ws_store w) pods c1 (str "default") (str "a") = None) as (w & Hw & Hp & Hg).
  { assert (match exec ex_env ws (wstart ws ex_conf) tr with Some w => match ws_phases w !! 0, store_get (ws_store w) pods c1 (str "default") (str "a") with Some (PStream false), None => true | _, _ => false end | None => false end = true) as H by (by vm_compute).
    revert H. generalize (exec ex_env ws (wstart ws ex_conf) tr). intros [w|] H; [|discriminate H]. exists w. split; [reflexivity|].
    destruct (ws_phases w !! 0) as [[| |[]|[]|]|]; try discriminate H. destruct (store_get _ _ _ _ _); [discriminate H|]. split; reflexivity. }
  exists ex_env, ws, ex_conf, tr, w, 0, pods, c1. split; [by apply exec_ok|]. split; [reflexivity|]. split; [discriminate|].
  split; [intros f x; rewrite Hp; discriminate|]. split; [rewrite ex_conf_pods; by eexists|].
  intros Hc. destruct (Hc (str "default") (str "a")) as [_ H]. destruct (H (pod "default" "a" "1")) as (o' & Ho' & _).
  { exists [], EvAdded, []. split; [reflexivity|]. split; [by left|]. split; [reflexivity|]. intros t' o' Hin. exfalso. exact (not_elem_of_nil _ Hin). }
  rewrite Hg in Ho'. discriminate Ho'.
Qed.
Print Assumptions C29_listed_twice_refuted.

(** ** C46 *)
Definition in_list (c : ascii) : Prop := c = "L"%char \/ c = "i"%char \/ c = "s"%char \/ c = "t"%char.
Lemma in_list_spec c : existsb (ch_eqb c) (str "List") = true <-> in_list c.
Proof.
  rewrite existsb_exists. unfold in_list. split.
  - intros (x & Hx & He%ch_eqb_eq). subst x. cbn in Hx. naive_solver.
  - intros H. exists c. split; [|by apply ch_eqb_eq]. cbn. naive_solver.
Qed.
(** The registered kind is the list kind without all the letters L, i, s, t at its end. *)
Theorem C46_trimmed proxies g : exists rest, kind_in proxies g = watch_kind proxies g ++ rest /\
  Forall in_list rest /\ (forall k c, watch_kind proxies g = k ++ [c] -> ~ in_list c).
Proof.
  unfold watch_kind. generalize (kind_in proxies g). intros s. induction s as [|c s IH] using rev_ind.
  - exists []. split; [done|]. split; [constructor|]. intros k c H. by destruct k.
  - destruct (existsb (ch_eqb c) (str "List")) eqn:Ec.
    + rewrite trim_right_drop by done. destruct IH as (rest & H1 & H2 & H3). exists (rest ++ [c]). split; [by rewrite app_assoc, <- H1|].
      split; [|done]. apply Forall_app. split; [done|]. constructor; [by apply in_list_spec|constructor].
    + rewrite trim_right_keep by done. exists []. split; [by rewrite app_nil_r|]. split; [constructor|].
      intros k x Hk. apply app_inj_tail in Hk as [_ <-]. rewrite <- in_list_spec, Ec. done.
Qed.
Print Assumptions C46_trimmed.
(** It is the list kind without the suffix List exactly when the rest does not end in one of the letters. *)
Theorem C46_kind proxies g k : kind_in proxies g = k ++ str "List" ->
  watch_kind proxies g = k <-> forall k' c, k = k' ++ [c] -> ~ in_list c.
Proof.
  intros Hk. destruct (C46_trimmed proxies g) as (rest & H1 & H2 & H3). split; [by intros <-|]. intros Hno.
  destruct (C46_trimmed proxies g) as (rest' & _). rewrite Hk in H1.
  assert (watch_kind proxies g = trim_right (str "List") k) as ->.
  { unfold watch_kind. rewrite Hk. change (str "List") with ([] ++ ["L"%char; "i"%char; "s"%char; "t"%char]) at 2.
    change (k ++ [] ++ ["L"%char; "i"%char; "s"%char; "t"%char]) with (k ++ ["L"%char] ++ ["i"%char] ++ ["s"%char] ++ ["t"%char]).
    rewrite !app_assoc. rewrite !trim_right_drop by reflexivity. done. }
  destruct (decide (k = [])) as [->|Hne]; [done|]. destruct (exists_last Hne) as (k' & c & ->).
  apply trim_right_keep. destruct (existsb (ch_eqb c) (str "List")) eqn:Ec; [|done]. apply in_list_spec in Ec. by destruct (Hno k' c eq_refl).
Qed.
Print Assumptions C46_kind.
(** The list kind is that of the first entry for the type. *)
Theorem C46_first_entry proxies g k : kind_in proxies g = k <->
  (exists before after, proxies = before ++ (g, k) :: after /\ forall k', (g, k') ∉ before) \/ ((forall k', (g, k') ∉ proxies) /\ k = []).
Proof.
  induction proxies as [|[g' k0] ps IH]; cbn [kind_in].
  - split; [intros <-; right; split; [intros k'; set_solver|done]|]. intros [(a & b & H & _)|[_ ->]]; [by destruct a|done].
  - destruct (bool_decide_reflect (g' = g)) as [->|Hne].
    + split.
      * intros ->. left. exists [], ps. split; [done|]. intros k' Hin. by apply elem_of_nil in Hin.
      * intros [(a & b & H & Ha)|[Hno _]].
        -- destruct a as [|y a]; [by injection H as ->|]. injection H as <- _. destruct (Ha k0). left.
        -- destruct (Hno k0). left.
    + rewrite IH. split.
      * intros [(a & b & -> & Ha)|[Hno ->]].
        -- left. exists ((g', k0) :: a), b. split; [done|]. intros k' [[= -> _]|Hin]%elem_of_cons; [done|by apply (Ha k')].
        -- right. split; [|done]. intros k' [[= -> _]|Hin]%elem_of_cons; [done|by apply (Hno k')].
      * intros [(a & b & H & Ha)|[Hno ->]].
        -- destruct a as [|y a]; [by injection H as ? _ _|]. injection H as <- ->. left. exists a, b. split; [done|]. intros k' Hin. apply (Ha k'). by right.
        -- right. split; [|done]. intros k' Hin. apply (Hno k'). by right.
Qed.
Print Assumptions C46_first_entry.
Example C46_ex : let px := [(pods, str "PodList"); ((str "apps", str "v1", str "deployments"), str "DeploymentList")] in
  watch_kind px pods = str "Pod" /\ watch_kind px (str "apps", str "v1", str "deployments") = str "Deploymen" /\ watch_kind px nodes = [].
Proof. vm_compute. done. Qed.
