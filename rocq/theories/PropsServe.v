(** C60: from an HTTP request to its reply. *)
From Coq Require Import Ascii String NArith ZArith Lia.
From stdpp Require Import base gmap strings list.
From Verif Require Import ModelStr ModelLabels ModelPage ModelJson ModelQuery ModelStore ModelUrl ModelProxy ModelServer ModelExtend ModelServe
  SpecLabels SpecPage SpecStore SpecProxy SpecList SpecServer SpecServe
  ProofsStr ProofsUrl ProofsJson ProofsStore ProofsListing ProofsProxy ProofsServer PropsQuery PropsStore PropsProxy PropsList PropsCluster PropsServer PropsWatcher.

(** ** Replies *)
Lemma proxy_status E cf clients st r c m : proxy E cf clients st r (AStatus c m) -> c = 400%Z \/ c = 404%Z.
Proof.
  assert (forall r' cl, proxy_pass cf clients r' cl = AStatus c m -> c = 400%Z \/ c = 404%Z) as Hpp.
  { intros r' cl. unfold proxy_pass. destruct (bool_decide _); [|intros [= <- _]; by right].
    destruct (known_method _); [|done]. by destruct (is_watch _). }
  remember (AStatus c m) as a eqn:Ha. intros Hp.
  destruct Hp as [order cl r' Hord Hpc|order p labels cl r' Hord Hpc Ht|order p labels cl r' Hord Hpc Ht Hv|order ord p labels cl r' q Hord Hpc Ht Hv Ho Hq].
  - by apply (Hpp r' cl).
  - by apply (Hpp r' cl).
  - destruct (store_get _ _ _ _ _); [done|]. right. congruence.
  - revert Ha. unfold list_answer. destruct q as [q|]; [|done]. destruct (list_items _ _ _) as [[[items total]|]|]; [|intros [= <- _]; by left|done].
    destruct (remaining _ _ _); [|intros [= <- _]; by left]. destruct (contains _ _); [|done]. by destruct (server_print _ _).
Qed.
Lemma error_reply c m success : sent <$> finish success (error_proxy c m fresh) =
  Some (if ((c <? 100) || (999 <? c))%Z then Reply 500 [BError] else Reply c (if bodiless c then [] else [BStatus c m])).
Proof.
  unfold error_proxy, write_header. cbn [fresh wr_status]. destruct ((c <? 100) || (999 <? c))%Z; [reflexivity|].
  cbn [finish]. unfold json_resp, write_header, write. cbn [wr_status wr_body default fmap option_fmap option_map sent app]. reflexivity.
Qed.
Lemma bodiless_iff c : bodiless c = true <-> no_body c.
Proof. unfold bodiless, no_body. rewrite !orb_true_iff, andb_true_iff, !Z.leb_le, !Z.eqb_eq. lia. Qed.
Lemma bodiless_not c : bodiless c = false <-> ~ no_body c.
Proof. rewrite <- bodiless_iff. by destruct (bodiless c). Qed.
Lemma stream_written chunks w : bodiless (default 200%Z (wr_status w)) = false -> wr_body (fold_left (fun w s => write (BBytes s) w) chunks w) = wr_body w ++ map BBytes chunks /\
  default 200%Z (wr_status (fold_left (fun w s => write (BBytes s) w) chunks w)) = default 200%Z (wr_status w).
Proof.
  revert w. induction chunks as [|s l IH]; intros w Hw; cbn [fold_left map]; [by rewrite app_nil_r|].
  destruct (IH (write (BBytes s) w)) as [-> ->]; [exact Hw|]. unfold write. cbn [wr_body wr_status]. rewrite Hw, <- app_assoc. done.
Qed.
Lemma bad_code c : ((c <? 100) || (999 <? c))%Z = false <-> (100 <= c <= 999)%Z.
Proof. rewrite orb_false_iff, !Z.ltb_ge. done. Qed.
Lemma raw_relayed u success rp : sent <$> finish success (pass_reply u fresh) = Some rp <-> relays_raw u rp.
Proof.
  unfold relays_raw, pass_reply, raw_ok. destruct u as [[c b]|].
  - destruct ((200 <=? c) && (c <=? 206))%Z eqn:Ec.
    + apply andb_true_iff in Ec as [E1%Z.leb_le E2%Z.leb_le]. split.
      * intros [= <-]. apply (relays_ok (fun c => 200 <= c <= 206)%Z (fun s => [BBytes s]) c b). lia.
      * intros H. inversion H; subst; [done|lia|lia|lia].
    + assert (~ (200 <= c <= 206))%Z as Hn by (intros [E1%Z.leb_le E2%Z.leb_le]; by rewrite E1, E2 in Ec).
      rewrite error_reply. destruct ((c <? 100) || (999 <? c))%Z eqn:Eb.
      * assert (~ (100 <= c <= 999))%Z as Hb by (rewrite <- bad_code; congruence). split; [intros [= <-]; by constructor|].
        intros H. by inversion H; subst.
      * assert (100 <= c <= 999)%Z as Hb by (by apply bad_code). destruct (bodiless c) eqn:Ebl.
        -- apply bodiless_iff in Ebl. split; [intros [= <-]; by constructor|]. intros H. by inversion H; subst.
        -- apply bodiless_not in Ebl. split; [intros [= <-]; by constructor|]. intros H. by inversion H; subst.
  - split; [intros [= <-]; constructor|]. intros H. by inversion H.
Qed.
Lemma stream_relayed u success rp : sent <$> finish success (watch_reply u fresh) = Some rp <-> relays_stream u rp.
Proof.
  unfold relays_stream, watch_reply, stream_ok. destruct u as [[c rs]|].
  - destruct ((200 <=? c) && (c <? 300))%Z eqn:Ec.
    + apply andb_true_iff in Ec as [E1%Z.leb_le E2%Z.ltb_lt].
      destruct (stream_written (copy_watch [] rs) fresh eq_refl) as [Hb Hs]. cbn [finish fmap option_fmap option_map]. unfold sent. rewrite Hb, Hs.
      cbn [fresh wr_body wr_status default app]. split.
      * intros [= <-]. apply (relays_ok (fun c => 200 <= c <= 299)%Z (fun rs => map BBytes (copy_watch [] rs)) c rs). lia.
      * intros H. inversion H; subst; [done|lia|lia|lia].
    + assert (~ (200 <= c <= 299))%Z as Hn by (intros [E1%Z.leb_le E2]; assert (c < 300)%Z as E3%Z.ltb_lt by lia; by rewrite E1, E3 in Ec).
      rewrite error_reply. destruct ((c <? 100) || (999 <? c))%Z eqn:Eb.
      * assert (~ (100 <= c <= 999))%Z as Hb by (rewrite <- bad_code; congruence). split; [intros [= <-]; by constructor|].
        intros H. by inversion H; subst.
      * assert (100 <= c <= 999)%Z as Hb by (by apply bad_code). destruct (bodiless c) eqn:Ebl.
        -- apply bodiless_iff in Ebl. split; [intros [= <-]; by constructor|]. intros H. by inversion H; subst.
        -- apply bodiless_not in Ebl. split; [intros [= <-]; by constructor|]. intros H. by inversion H; subst.
  - split; [intros [= <-]; constructor|]. intros H. by inversion H.
Qed.
(** The reply for an answer of the proxy. *)
Inductive answers (up : apis) : answer -> reply -> Prop :=
| an_object o : answers up (AObject o) (Reply 200 [BObject o])
| an_list api kind path rem items : answers up (AList api kind path rem items) (Reply 200 [BList api kind path rem items])
| an_table t : answers up (ATable t) (Reply 200 [BTable t])
| an_status c m : (100 <= c <= 999)%Z -> ~ no_body c -> answers up (AStatus c m) (Reply c [BStatus c m])
| an_forward c r rp : relays_raw (ap_raw up c r) rp -> answers up (AForward c r) rp
| an_watch c r rp : relays_stream (ap_stream up c r) rp -> answers up (AWatch c r) rp
| an_panic : answers up APanic (Reply 500 [BError]).
Lemma proxy_answers E cf clients st up r a o : proxy E cf clients st r a -> sent <$> finish 200 (proxy_reply up a fresh) = o ->
  exists rp, o = Some rp /\ answers up a rp.
Proof.
  intros Hp <-. destruct a as [ob|c m|api kind path rem items|t|c r'|c r'|]; cbn [proxy_reply].
  - eexists. split; [done|constructor].
  - rewrite error_reply. destruct (proxy_status _ _ _ _ _ _ _ Hp) as [-> | ->]; eexists; (split; [done|constructor; [lia|unfold no_body; lia]]).
  - eexists. split; [done|constructor].
  - eexists. split; [done|constructor].
  - destruct (sent <$> finish 200 (pass_reply (ap_raw up c r') fresh)) as [rp|] eqn:Ef.
    + exists rp. split; [done|]. constructor. by eapply raw_relayed.
    + exfalso. revert Ef. unfold pass_reply. destruct (ap_raw up c r') as [[x b]|]; [|done]. destruct (raw_ok x); [done|]. by rewrite error_reply.
  - destruct (sent <$> finish 200 (watch_reply (ap_stream up c r') fresh)) as [rp|] eqn:Ef.
    + exists rp. split; [done|]. constructor. by eapply stream_relayed.
    + exfalso. revert Ef. unfold watch_reply. destruct (ap_stream up c r') as [[x b]|]; [|done]. destruct (stream_ok x); [done|]. by rewrite error_reply.
  - eexists. split; [done|constructor].
Qed.

(** The routes that end in the proxy or in the services have the success status 200. *)
Lemma run_success tok hr h r s : dispatch route_handles tok hr = DRun h r s -> h = HServices \/ h = HProxy -> s = 200%Z.
Proof.
  unfold dispatch. destruct (negb _); [done|]. destruct (find_route _ _ _) as [[rt vars]|] eqn:Ef; [|done].
  destruct (_ && _); [done|]. intros [= <- _ <-].
  assert (rt ∈ route_handles) as Hin.
  { revert Ef. generalize route_handles as l. induction l as [|x l IH]; cbn [find_route]; [done|].
    destruct (route_match x _ _); [intros [= -> _]; left|]. intros H. right. by apply IH. }
  clear Ef. unfold route_handles in Hin. rewrite !elem_of_cons in Hin.
  repeat (destruct Hin as [->|Hin]; [intros [Hh|Hh]; first [done|discriminate Hh]|]). by apply elem_of_nil in Hin.
Qed.
Lemma dispatch_found tok hr : dispatch route_handles tok hr <> DNotFound.
Proof.
  intros H. destruct (decide (str_eqb (clean_path (rq_path (h_req hr))) (rq_path (h_req hr)) = true)) as [Hc|Hc].
  - apply canonical_iff in Hc. destruct (dispatch_canonical tok hr Hc) as (rt & vars & _ & _ & _ & Hd). rewrite Hd in H. by destruct (_ && _).
  - rewrite canonical_iff in Hc. by rewrite (dispatch_moved tok hr Hc) in H.
Qed.

(** Only clusters that have a client are asked. *)
Lemma forward_known E cf clients st r a c r' : proxy E cf clients st r a -> a = AForward c r' \/ a = AWatch c r' -> c ∈ clients.
Proof.
  assert (forall r0 cl, proxy_pass cf clients r0 cl = AForward c r' \/ proxy_pass cf clients r0 cl = AWatch c r' -> c ∈ clients) as Hpp.
  { intros r0 cl. unfold proxy_pass. destruct (bool_decide _) eqn:Eb; [|by intros [?|?]]. apply bool_decide_eq_true in Eb. destruct (known_method _); [|by intros [?|?]].
    destruct (is_watch _); intros [H|H]; try done; by injection H as <- _. }
  intros Ha. destruct Ha as [order cl r0 Hord Hpc|order p labels cl r0 Hord Hpc Ht|order p labels cl r0 Hord Hpc Ht Hv|order ord p labels cl r0 q Hord Hpc Ht Hv Ho Hq].
  - apply (Hpp r0 cl).
  - apply (Hpp r0 cl).
  - destruct (store_get _ _ _ _ _); by intros [?|?].
  - unfold list_answer. destruct q as [q|]; [|by intros [?|?]]. destruct (list_items _ _ _) as [[[items total]|]|]; [|by intros [?|?]|by intros [?|?]].
    destruct (remaining _ _ _); [|by intros [?|?]]. destruct (contains _ _); [|by intros [?|?]]. destruct (server_print _ _); by intros [?|?].
Qed.

(** ** C60 *)
Section c60.
  Context (E : env) (cf : config) (clients : gset gostr) (st : store) (up : apis).
  Local Notation serves := (serve E cf clients st up).

  (** Every request is answered, with a status and one value that belong together, or with the chunks of a
      stream.  Nothing of an answer is mixed with an error. *)
  Theorem C60_every_request_answered hr : exists rp, serves hr (Some rp).
  Proof.
    destruct (dispatch route_handles (cf_token cf) hr) as [p| | |h r s] eqn:Ed.
    - eexists. by eapply serve_redirect.
    - eexists. by eapply serve_missing.
    - eexists. by eapply serve_refused.
    - assert (exists p, handle E cf clients st up h r p) as [p Hp].
      { destruct h.
        - eexists. apply handle_healthy.
        - eexists. apply handle_metrics.
        - eexists. apply handle_services. eapply (services_intro E cf st r _ (fun m => map_to_list m) _ _ eq_refl); [done|apply (query_with_ok E false)|apply (query_with_ok E false)].
        - assert (exists a, proxy E cf clients st r a) as [a Ha].
          { set (order := map_to_list (query_parse (rq_raw r))). assert (order ≡ₚ map_to_list (query_parse (rq_raw r))) as Hord by done.
            destruct (parse_clean cf order r) as [[cl r']|[[[p labels] cl] r']] eqn:Hpc; [eexists; by eapply proxy_error|].
            destruct (only_allowed (query_parse (rq_raw r')) && is_store_gvr st (req_gvr r) && str_eqb (rq_method r) (str "GET")) eqn:Ht;
              [|eexists; by eapply proxy_forward].
            destruct (decide (var r (str "resource") = [])) as [Hv|Hv]; [|eexists; by eapply proxy_get].
            eexists. eapply (proxy_list E cf clients st r order (fun _ m => map_to_list m)); try done. apply (query_with_ok E false). }
          eexists. by apply handle_proxy. }
      assert (exists rp, sent <$> finish s p = Some rp) as [rp Hrp].
      { inversion Hp as [r0|r0|r0 sv Hsv|r0 a Ha]; subst.
        - by eexists.
        - by eexists.
        - assert (s = 200%Z) as -> by (eapply run_success; [exact Ed|by left]). destruct sv as [[l|]|]; by eexists.
        - assert (s = 200%Z) as -> by (eapply run_success; [exact Ed|by right]).
          destruct (proxy_answers E cf clients st up r a _ Ha eq_refl) as (rp & Hrp & _). by exists rp. }
      exists rp. rewrite <- Hrp. by eapply serve_run.
  Qed.
  Theorem C60_status_and_body hr o : serves hr o -> exists rp, o = Some rp /\
    ((exists b, rp_body rp = [b] /\ fits (rp_status rp) b) \/
     (rp_body rp = [] /\ no_body (rp_status rp) /\ exists c r', c ∈ clients /\ ((exists b, ap_raw up c r' = Some (rp_status rp, b)) \/
        exists rs, ap_stream up c r' = Some (rp_status rp, rs))) \/
     (rp_status rp = 301%Z /\ rp_body rp = [] /\ ~ canonical (rq_path (h_req hr))) \/
     (exists c r' code rs, c ∈ clients /\ ap_stream up c r' = Some (code, rs) /\ (200 <= code <= 299)%Z /\
        rp = Reply 200 (map BBytes (copy_watch [] rs)))).
  Proof.
    intros Hs. destruct Hs as [p Hd|Hd|Hd|h r s p Hd Hh].
    - eexists. split; [done|]. right. right. left. split; [done|]. split; [done|]. intros Hc. apply canonical_iff in Hc.
      unfold dispatch in Hd. rewrite Hc in Hd. cbn [negb] in Hd. destruct (find_route _ _ _) as [[rt vars]|]; [|done]. by destruct (_ && _).
    - by destruct (dispatch_found _ _ Hd).
    - eexists. split; [done|]. left. by eexists.
    - inversion Hh as [r0|r0|r0 sv Hsv|r0 a Ha]; subst.
      + eexists. split; [done|]. left. by eexists.
      + eexists. split; [done|]. left. by eexists.
      + assert (s = 200%Z) as -> by (eapply run_success; [exact Hd|by left]). destruct sv as [[l|]|]; (eexists; split; [done|]; left; by eexists).
      + assert (s = 200%Z) as -> by (eapply run_success; [exact Hd|by right]).
        destruct (proxy_answers E cf clients st up r a _ Ha eq_refl) as (rp & -> & Hrp). exists rp. split; [done|].
        destruct Hrp as [ob|api kind path rem items|t|c m Hc|c r' rp Hr|c r' rp Hr|].
        * left. by eexists.
        * left. by eexists.
        * left. by eexists.
        * left. by eexists.
        * pose proof (forward_known _ _ _ _ _ _ c r' Ha (or_introl eq_refl)) as Hin. remember (ap_raw up c r') as u eqn:Hu.
          destruct Hr as [x y Hx|x y Hx Hx' Hn|x y Hx Hx' Hn|x y Hx Hx'|].
          -- left. by eexists.
          -- left. by eexists.
          -- right. left. split; [done|]. split; [exact Hn|]. exists c, r'. split; [done|]. left. by exists y.
          -- left. by eexists.
          -- left. by eexists.
        * remember (ap_stream up c r') as u eqn:Hu. destruct Hr as [x y Hx|x y Hx Hx' Hn|x y Hx Hx' Hn|x y Hx Hx'|].
          -- right. right. right. pose proof (forward_known _ _ _ _ _ _ c r' Ha (or_intror eq_refl)) as Hin.
             exists c, r', x, y. split; [done|]. split; [done|]. done.
          -- left. by eexists.
          -- right. left. pose proof (forward_known _ _ _ _ _ _ c r' Ha (or_intror eq_refl)) as Hin. split; [done|]. split; [exact Hn|].
             exists c, r'. split; [done|]. right. by exists y.
          -- left. by eexists.
          -- left. by eexists.
        * left. by eexists.
  Qed.
  (** The statuses that a client can see. *)
  Theorem C60_statuses hr o : serves hr o -> exists rp, o = Some rp /\
    (rp_status rp ∈ [200; 301; 400; 401; 404; 500]%Z \/
     exists c r' x, c ∈ clients /\ ((exists b, ap_raw up c r' = Some (x, b) /\ ~ (200 <= x <= 206)%Z) \/
       exists rs, ap_stream up c r' = Some (x, rs) /\ ~ (200 <= x <= 299)%Z) /\ rp_status rp = x).
  Proof.
    intros Hs. destruct Hs as [p Hd|Hd|Hd|h r s p Hd Hh].
    - eexists. split; [done|]. left. right. left.
    - by destruct (dispatch_found _ _ Hd).
    - eexists. split; [done|]. left. do 3 right. left.
    - inversion Hh as [r0|r0|r0 sv Hsv|r0 a Ha]; subst.
      + eexists. split; [done|]. left. left.
      + eexists. split; [done|]. left. left.
      + assert (s = 200%Z) as -> by (eapply run_success; [exact Hd|by left]). destruct sv as [[l|]|]; (eexists; split; [done|]; left); [left|do 5 right; left|do 5 right; left].
      + assert (s = 200%Z) as -> by (eapply run_success; [exact Hd|by right]).
        destruct (proxy_answers E cf clients st up r a _ Ha eq_refl) as (rp & -> & Hrp). exists rp. split; [done|].
        destruct Hrp as [ob|api kind path rem items|t|c m Hc|c r' rp Hr|c r' rp Hr|]; cbn [rp_status].
        * left. left.
        * left. left.
        * left. left.
        * left. destruct (proxy_status _ _ _ _ _ _ _ Ha) as [-> | ->]; [do 2 right; left|do 4 right; left].
        * pose proof (forward_known _ _ _ _ _ _ c r' Ha (or_introl eq_refl)) as Hin.
          remember (ap_raw up c r') as u eqn:Hu. destruct Hr as [x y Hx|x y Hx Hx' Hn|x y Hx Hx' Hn|x y Hx Hx'|]; cbn [rp_status].
          -- left. left.
          -- right. exists c, r', x. split; [done|]. split; [|done]. left. by exists y.
          -- right. exists c, r', x. split; [done|]. split; [|done]. left. by exists y.
          -- left. do 5 right. left.
          -- left. do 5 right. left.
        * pose proof (forward_known _ _ _ _ _ _ c r' Ha (or_intror eq_refl)) as Hin.
          remember (ap_stream up c r') as u eqn:Hu. destruct Hr as [x y Hx|x y Hx Hx' Hn|x y Hx Hx' Hn|x y Hx Hx'|]; cbn [rp_status].
          -- left. left.
          -- right. exists c, r', x. split; [done|]. split; [|done]. right. by exists y.
          -- right. exists c, r', x. split; [done|]. split; [|done]. right. by exists y.
          -- left. do 5 right. left.
          -- left. do 5 right. left.
        * left. do 5 right. left.
  Qed.
End c60.
Print Assumptions C60_every_request_answered.
Print Assumptions C60_status_and_body.
Print Assumptions C60_statuses.

(** A refused request learns nothing: one reply, whatever is cached, configured or answered upstream. *)
Theorem C60_refused E cf clients st up hr o : cf_token cf <> [] -> ~ public (h_req hr) -> ~ occurs (cf_token cf) (h_auth hr) ->
  canonical (rq_path (h_req hr)) -> serve E cf clients st up hr o ->
  o = Some (Reply 401 [BStatus 401 (str "token missing or error")]).
Proof.
  intros Ht Hp Ha Hc Hs. pose proof (C43_refused_canonical _ _ Ht Hp Ha Hc) as Hd. destruct Hs as [p Hd'|Hd'|Hd'|h r s p Hd' _]; rewrite Hd in Hd'; done.
Qed.
Print Assumptions C60_refused.

(** The reply to a request on a path of the Kubernetes API. *)
Lemma api_reply E cf clients st up hr g ns name o : authorised cf hr -> api_addr g ns name ->
  rq_path (h_req hr) = api_path g ns name -> rq_method (h_req hr) ∈ any_methods ->
  (rq_method (h_req hr) <> str "GET" -> g.1.1 <> [] -> ns <> None -> name <> None) ->
  serve E cf clients st up hr o ->
  exists vars a rp, req_gvr (with_vars (h_req hr) vars) = g /\ vars !! str "namespace" = ns /\ vars !! str "resource" = name /\
    proxy E cf clients st (with_vars (h_req hr) vars) a /\ o = Some rp /\ answers up a rp.
Proof.
  intros Ht Ha Hp Hm Hx Hs. destruct (C59_api_paths _ hr g ns name Ht Ha Hp Hm Hx) as (vars & Hd & Hg & Hn & Hr).
  destruct Hs as [p Hd'|Hd'|Hd'|h r s p Hd' Hh]; rewrite Hd in Hd'; try done. injection Hd' as <- <- <-.
  inversion Hh as [| | |r0 a Hpr]; subst. destruct (proxy_answers E cf clients st up _ a _ Hpr eq_refl) as (rp & Ho & Hrp).
  exists vars, a, rp. done.
Qed.
Lemma plain_cacheable conf r : rq_method r = str "GET" -> is_Some (conf !! req_gvr r) -> rq_raw r = [] -> cacheable conf r.
Proof.
  intros Hm Hg Hr. split; [done|]. split; [done|]. unfold params. rewrite (no_params r Hr). split.
  - intros k [x Hk]. by rewrite (lookup_empty (M:=gmap gostr)) in Hk.
  - intros s [[vs Hv]|[_ ->]]; [by rewrite (lookup_empty (M:=gmap gostr)) in Hv|]. eexists. reflexivity.
Qed.

Definition get_outcome (x : option obj) : option reply :=
  match x with Some x => Some (Reply 200 [BObject x]) | None => Some (Reply 404 [BStatus 404 (str "resource not found")]) end.
Lemma get_reply E cf conf h st clients up hr g ns name o : run_calls E (new_store conf) h = Ok st -> is_Some (conf !! g) ->
  authorised cf hr -> api_addr g ns (Some name) ->
  rq_method (h_req hr) = str "GET" -> rq_path (h_req hr) = api_path g ns (Some name) -> rq_raw (h_req hr) = [] ->
  serve E cf clients st up hr o -> o = get_outcome (store_get st g (cf_default cf) (default [] ns) name).
Proof.
  intros Hrun Hcf Ht Ha Hm Hp Hq Hs.
  destruct (api_reply E cf clients st up hr g ns (Some name) o Ht Ha Hp) as (vars & a & rp & Hg & Hn & Hr & Hpr & -> & Hrp); [|done|done|].
  { rewrite Hm. left. }
  set (r := with_vars (h_req hr) vars) in *. assert (cacheable conf r) as Hc by (apply plain_cacheable; [done|by rewrite Hg|done]).
  assert (a = match store_get st g (cf_default cf) (default [] ns) name with Some x => AObject x | None => AStatus 404 (str "resource not found") end) as ->.
  { assert (name <> []) as Hne by (by destruct Ha as (_ & _ & _ & _ & [? _]%(fun H => H name eq_refl))).
    assert (var r (str "resource") = name) as Hv by (unfold var, r; cbn [with_vars rq_vars]; by rewrite Hr).
    assert (var r (str "namespace") = default [] ns) as Hv' by (unfold var, r; cbn [with_vars rq_vars]; by rewrite Hn).
    assert (query_parse (rq_raw r) = ∅) as Hq' by (by apply no_params).
    destruct Hpr as [order cl r' Hord Hpc|order p labels cl r' Hord Hpc Htst|order p labels cl r' Hord Hpc Htst Hnv|order ord p labels cl r' q Hord Hpc Htst Hnv Ho Hqq].
    - by destruct (error_not_cacheable cf conf r order _ Hord Hpc).
    - apply (test_cacheable E cf conf h st Hrun r order p labels cl r' Hord Hpc) in Hc. congruence.
    - rewrite Hv, Hv', Hg. assert (cl = cf_default cf) as ->; [|done].
      rewrite Hq', map_to_list_empty in Hord. apply Permutation_nil_r in Hord as ->.
      revert Hpc. unfold parse_clean. cbn [fold_left]. unfold delete_body. change (rq_method r) with (rq_method (h_req hr)). rewrite Hm.
      change (str_eqb (str "GET") (str "DELETE")) with false. cbv beta iota zeta. change (parse_list_selector []) with (Some (zero_page, @None lsel)). cbv beta iota zeta. change (hd [] (get_clusters (pg_search zero_page))) with (@nil ascii). cbv beta iota. congruence.
    - congruence. }
  destruct (store_get _ _ _ _ _); by inversion Hrp.
Qed.
Lemma get_reply_tagged E cf conf h st clients up hr g ns name c o : run_calls E (new_store conf) h = Ok st -> is_Some (conf !! g) ->
  authorised cf hr -> api_addr g ns (Some name) ->
  rq_method (h_req hr) = str "GET" -> rq_path (h_req hr) = api_path g ns (Some name) ->
  query_parse (rq_raw (h_req hr)) = {[ str "resourceVersion" := [str "dsm-cluster-" ++ c] ]} -> c <> [] ->
  serve E cf clients st up hr o -> o = get_outcome (store_get st g c (default [] ns) name).
Proof.
  intros Hrun Hcf Ht Ha Hm Hp Hq Hc Hs.
  destruct (api_reply E cf clients st up hr g ns (Some name) o Ht Ha Hp) as (vars & a & rp & Hg & Hn & Hr & Hpr & -> & Hrp); [|done|done|].
  { rewrite Hm. left. }
  set (r := with_vars (h_req hr) vars) in *.
  assert (params r = {[ str "resourceVersion" := [str "dsm-cluster-" ++ c] ]}) as Hpa by exact Hq.
  assert (name <> []) as Hne by (by destruct Ha as (_ & _ & _ & _ & [? _]%(fun H => H name eq_refl))).
  assert (var r (str "resource") = name) as Hv by (unfold var, r; cbn [with_vars rq_vars]; by rewrite Hr).
  assert (var r (str "namespace") = default [] ns) as Hv' by (unfold var, r; cbn [with_vars rq_vars]; by rewrite Hn).
  assert (cacheable conf r) as Hca.
  { split; [done|]. split; [by rewrite Hg|]. rewrite Hpa. split.
    - intros k [x Hk]. apply lookup_singleton_Some in Hk as [<- <-]. right. exists c. split; [by right|]. exists []. apply lookup_singleton.
    - intros s [[vs Hx]|[_ ->]]; [by apply lookup_singleton_Some in Hx as [? _]|]. eexists. reflexivity. }
  destruct (C34_tagged_request E cf conf h st clients r a (str "resourceVersion") c ∅ Hrun Hpr) as [H1 _].
  - by right.
  - done.
  - change (rq_method r) with (rq_method (h_req hr)). by rewrite Hm.
  - rewrite Hpa. by destruct c.
  - apply lookup_empty.
  - intros c' [[vs Hx]|(k & _ & vs & Hx)]; by rewrite (lookup_empty (M:=gmap gostr)) in Hx.
  - apply lookup_empty.
  - rewrite (H1 Hca) in Hrp by (by rewrite Hv). rewrite Hv, Hv', Hg in Hrp. destruct (store_get _ _ _ _ _); by inversion Hrp.
Qed.

(** Reading an object at its own path: the object as of its last event, or 404. *)
Theorem C60_get E cf conf h st clients up hr g ns name o : run_calls E (new_store conf) h = Ok st -> is_Some (conf !! g) ->
  authorised cf hr -> api_addr g ns (Some name) ->
  rq_method (h_req hr) = str "GET" -> rq_path (h_req hr) = api_path g ns (Some name) -> rq_raw (h_req hr) = [] ->
  serve E cf clients st up hr o ->
  (forall h1 k h2 x, h = h1 ++ k :: h2 -> stores_key E conf k g (cf_default cf) (default [] ns) name x ->
     Forall (fun k => ~ touches_key E conf k g (cf_default cf) (default [] ns) name) h2 ->
     exists x', o = Some (Reply 200 [BObject x']) /\ stored_as (cf_default cf) x x') /\
  ((forall h1 k h2 x, h = h1 ++ k :: h2 -> stores_key E conf k g (cf_default cf) (default [] ns) name x ->
     ~ Forall (fun k => ~ touches_key E conf k g (cf_default cf) (default [] ns) name) h2) ->
   o = Some (Reply 404 [BStatus 404 (str "resource not found")])).
Proof.
  intros Hrun Hcf Ht Ha Hm Hp Hq Hs. rewrite (get_reply _ _ _ _ _ _ _ _ _ _ _ _ Hrun Hcf Ht Ha Hm Hp Hq Hs). clear Hs.
  destruct (C17_cache_is_last_event E conf h st g (cf_default cf) (default [] ns) name Hrun) as [H1 H2]. split.
  - intros h1 k h2 x Hh Hst HF. destruct (H2 h1 k h2 x Hh Hst HF) as (x' & Hx & Hsx). rewrite Hx. exists x'. split; done.
  - intros Hno. destruct (store_get st g (cf_default cf) (default [] ns) name) as [x|] eqn:Hx; [|done].
    destruct (H1 x eq_refl) as (h1 & k & h2 & y & Hh & Hst & HF & _). by destruct (Hno h1 k h2 y Hh Hst).
Qed.
Print Assumptions C60_get.

Lemma list_head_ok cf g : list_head cf g (api_version g) (gvr_kind cf g).
Proof.
  destruct g as [[gr v] rt]. split.
  - cbn [fst snd api_version]. destruct gr as [|x gr]; [by left|right]. split; [done|]. done.
  - unfold gvr_kind. by apply C46_first_entry.
Qed.
(** Listing at the path of a type: all cached objects of the default cluster in the namespace, each once. *)
Theorem C60_list E cf conf h st clients up hr g ns o : Forall kube_call h -> run_calls E (new_store conf) h = Ok st -> is_Some (conf !! g) ->
  authorised cf hr -> api_addr g ns None ->
  rq_method (h_req hr) = str "GET" -> rq_path (h_req hr) = api_path g ns None -> rq_raw (h_req hr) = [] ->
  ~ occurs (str "application/json;as=Table") (rq_accept (h_req hr)) ->
  cf_default cf <> [] -> legal_value (cf_default cf) ->
  serve E cf clients st up hr o ->
  exists ks es, NoDup ks /\
    Forall2 (fun k e => k.1.1 = cf_default cf /\ lookup_entry st g (cf_default cf) k.1.2 k.2 = Some e /\ (forall n, ns = Some n -> k.1.2 = n)) ks es /\
    (forall n x e, lookup_entry st g (cf_default cf) n x = Some e -> (forall m, ns = Some m -> n = m) -> (cf_default cf, n, x) ∈ ks) /\
    ((Z.of_nat (length es) < 2 ^ 63)%Z ->
     exists api kind, list_head cf g api kind /\ o = Some (Reply 200 [BList api kind (api_path g ns None) 0 (map en_obj es)])).
Proof.
  intros Hk Hrun Hcf Ht Ha Hm Hp Hq Hacc Hd Hleg Hs.
  destruct (api_reply E cf clients st up hr g ns None o Ht Ha Hp) as (vars & a & rp & Hg & Hn & Hr & Hpr & -> & Hrp); [|done|done|].
  { rewrite Hm. left. }
  set (r := with_vars (h_req hr) vars) in *. assert (cacheable conf r) as Hc by (apply plain_cacheable; [done|by rewrite Hg|done]).
  assert (list_request conf r zero_page None) as Hl.
  { split; [done|]. split; [done|]. exists []. split; [|reflexivity]. right. split; [|done]. unfold params. rewrite (no_params r Hq).
    by rewrite (lookup_empty (M:=gmap gostr)). }
  assert (var r (str "namespace") = default [] ns) as Hv' by (unfold var, r; cbn [with_vars rq_vars]; by rewrite Hn).
  destruct (C35_plain_list E cf conf h st clients r zero_page None a Hk Hrun Hl Hpr eq_refl eq_refl eq_refl eq_refl Hd Hleg) as (ks & es & Hnd & HF & Hcm & Hsh).
  rewrite Hg, Hv' in HF, Hcm. exists ks, es.
  assert (forall n, ns = Some n -> n <> []) as Hne by (intros n Hns; by destruct Ha as (_ & _ & _ & [? _]%(fun H => H n Hns) & _)).
  split; [done|]. split; [|split].
  - eapply Forall2_impl; [exact HF|]. intros [[c n] x] e ([Hlk Hsc] & Hc1 & _). cbn [fst snd] in *. subst c. split; [done|]. split; [done|].
    intros m ->. cbn [default] in Hsc. destruct Hsc as [Hz|]; [|done]. by destruct (Hne m eq_refl).
  - intros n x e Hlk Hns. apply (Hcm n x e); [|done]. split; [done|]. cbn [fst snd]. destruct ns as [m|]; [|by left]. right. cbn. symmetry. by apply Hns.
  - intros Hlen. destruct (Hsh Hlen) as [Hsh1 _]. rewrite (Hsh1 Hacc) in Hrp. eexists _, _. split; [apply list_head_ok|]. inversion Hrp; subst. rewrite <- Hp. done.
Qed.
Print Assumptions C60_list.

(** The page that a client asks for with QueryListOptions, from its HTTP request to the items it reads and the
    total that MakeupResPaginate computes from them. *)
Theorem C60_page E cf conf h st clients up hr g ns (sel s : gostr) (p p1 : paginate) (ls : lsel) o :
  Forall kube_call h -> run_calls E (new_store conf) h = Ok st -> is_Some (conf !! g) ->
  authorised cf hr -> api_addr g ns None ->
  parse_to_label_selector sel = Some ls -> mlabels ls !! str "ckube.daocloud.io/query" = None ->
  query_list_options sel p = Some s ->
  page_in_range p -> valid_utf8 (pg_sort p) = true -> valid_utf8 (pg_search p) = true ->
  (N.of_nat (length (marshal_page p)) <= 7518)%N ->
  (1 <= pg_page p)%Z -> (1 <= pg_size p)%Z -> (pg_page p * pg_size p < 2 ^ 63)%Z -> effective cf p p1 ->
  rq_method (h_req hr) = str "GET" -> rq_path (h_req hr) = api_path g ns None ->
  rq_raw (h_req hr) = query_encode {[ str "labelSelector" := [s] ]} ->
  ~ occurs (str "application/json;as=Table") (rq_accept (h_req hr)) ->
  serve E cf clients st up hr o ->
  ((exists q, query E st g (default [] ns) (Paginate 0 0 0 (pg_sort p1) (pg_search p1)) (Ok q) /\ q_err q = true) /\
   o = Some (Reply 400 [BStatus 400 (str "query error")])) \/
  exists ks es, listed E st g (default [] ns) (pg_search p1) (Some (callers ls)) ks es /\
    in_cache_order E st g (default [] ns) (pg_sort p) (pg_search p1) es /\
    let total := Z.of_nat (length es) in
    ((total < 2 ^ 63)%Z ->
     if decide (1 < pg_page p /\ total <= (pg_page p - 1) * pg_size p)%Z then o = Some (Reply 400 [BStatus 400 (str "out of page")])
     else exists api kind rem items, list_head cf g api kind /\
       o = Some (Reply 200 [BList api kind (api_path g ns None) rem items]) /\
       items = map en_obj (take (Z.to_nat (pg_size p)) (drop (Z.to_nat ((pg_page p - 1) * pg_size p)) es)) /\
       pg_total (makeup_total (Some rem) (length items) p) = total).
Proof.
  intros Hk Hrun Hcf Ht Ha Hls Hpk Hqlo Hrange Hu1 Hu2 Hlen H1 H2 H3 Heff Hm Hp Hq Hacc Hs.
  destruct (api_reply E cf clients st up hr g ns None o Ht Ha Hp) as (vars & a & rp & Hg & Hn & Hr & Hpr & -> & Hrp); [|done|done|].
  { rewrite Hm. left. }
  set (r := with_vars (h_req hr) vars) in *.
  assert (params r = {[ str "labelSelector" := [s] ]}) as Hpar.
  { unfold params. change (rq_raw r) with (rq_raw (h_req hr)). rewrite Hq. apply parse_encode. intros k. destruct (decide (str "labelSelector" = k)) as [<-|Hne].
    - rewrite lookup_singleton. done.
    - by rewrite lookup_singleton_ne. }
  assert (var r (str "namespace") = default [] ns) as Hv' by (unfold var, r; cbn [with_vars rq_vars]; by rewrite Hn).
  assert (params r !! str "labelSelector" = Some [s]) as Hsel by (rewrite Hpar; apply lookup_singleton).
  assert (forall k, is_Some (params r !! k) -> harmless k) as Hharm.
  { intros k. rewrite Hpar. destruct (decide (str "labelSelector" = k)) as [<-|Hne]; [|by rewrite lookup_singleton_ne by done; intros [? ?]].
    intros _. by left. }
  destruct (C58_client_options conf r sel s p ls Hls Hpk Hqlo) as (ls' & Hreq & Hsame); try done.
  { intros ->. cbn in H1. lia. }
  { by rewrite Hg. }
  destruct (C38_page_of_matching_objects E cf conf h st clients r p p1 (Some ls') a Hk Hrun Hreq Heff Hpr H1 H2 H3) as [[Hf ->]|(ks & es & Hl & Hio & Hsh)].
  - left. split; [|by inversion Hrp]. unfold query_fails in Hf. by rewrite Hg, Hv' in Hf.
  - right. rewrite Hg, Hv' in Hl, Hio. exists ks, es. split; [by eapply listed_same|]. split; [done|]. intros total Htot. cbv zeta in Hsh. specialize (Hsh Htot).
    destruct (decide _) as [D|D].
    + rewrite Hsh in Hrp. by inversion Hrp.
    + destruct Hsh as [Hsh _]. specialize (Hsh Hacc). rewrite Hg in Hsh. subst a. change (rq_path r) with (rq_path (h_req hr)) in *. rewrite Hp in *.
      eexists _, _, _, _. split; [apply list_head_ok|]. split; [by inversion Hrp|]. split; [done|].
      destruct (C58_client_to_items E cf conf h st clients r sel s p p1 ls _ _ _ _ _ Hk Hrun Hls Hpk Hqlo Hrange Hu1 Hu2 Hlen Hm ltac:(by rewrite Hg) Hr Hsel Hharm H1 H2 H3 Heff Hpr)
        as (ks2 & es2 & Hl2 & _ & Ht2).
      rewrite Hg, Hv' in Hl2. assert (length es2 = length es) as Hlen2.
      { apply (listed_same E st g (default [] ns) (pg_search p1) (callers ls) ls' ks es Hsame) in Hl. destruct Hl as (N1 & F1 & K1), Hl2 as (N2 & F2 & K2).
        rewrite <- (Forall2_length _ _ _ F1), <- (Forall2_length _ _ _ F2).
        apply Nat.le_antisymm; apply submseteq_length, NoDup_submseteq; try done.
        - intros k [i Hi]%elem_of_list_lookup. destruct (Forall2_lookup_l _ _ _ _ _ F2 Hi) as (e & _ & A & B & C). by apply (K1 k e).
        - intros k [i Hi]%elem_of_list_lookup. destruct (Forall2_lookup_l _ _ _ _ _ F1 Hi) as (e & _ & A & B & C). by apply (K2 k e). }
      rewrite Hlen2 in Ht2. by apply Ht2.
Qed.
Print Assumptions C60_page.

(** A request that the cache does not answer goes to one API server, and the reply is that server's: a success
    with status 200, a failure with its own status. *)
Lemma untagged_watch r r1 : untagged r r1 -> watch_req r1 <-> watch_req r.
Proof.
  intros (_ & Hp & _ & _ & _ & _ & _ & s & _ & H). unfold watch_req. rewrite Hp.
  assert (params r1 !! str "watch" = params r !! str "watch") as Hw.
  { destruct (parse_list_selector s) as [[p ls]|]; [|by rewrite H]. destruct H as (_ & _ & H). apply H; [by apply str_eqb_neq|].
    intros c [[Hk|Hk] _]; by apply str_eqb_eq in Hk. }
  unfold param. by rewrite Hw.
Qed.
Theorem C60_forwarded E cf conf h st clients up r a rp : run_calls E (new_store conf) h = Ok st ->
  proxy E cf clients st r a -> answers up a rp -> ~ cacheable conf r ->
  (exists c r1 r', c ∈ clients /\ rq_method r ∈ methods /\ target cf r c /\ untagged r r1 /\ same_request r1 r' /\
     ((~ watch_req r /\ params r' = params r1 /\ relays_raw (ap_raw up c r') rp) \/
      (watch_req r /\ relays_stream (ap_stream up c r') rp))) \/
  (exists c, target cf r c /\ c ∉ clients /\ rp = Reply 404 [BStatus 404 (str "cluster not found")]) \/
  rq_method r ∉ methods /\ rp = Reply 500 [BError].
Proof.
  intros Hrun Hp Hrp Hc. destruct (C32_others_forwarded E cf conf h st Hrun clients r a Hc Hp) as [(c & r1 & Ht & Hu & Hrel) _].
  pose proof (untagged_watch r r1 Hu) as Hw. pose proof (proj1 Hu) as Hme.
  destruct Hrel as [Hn|r' Hin Hm Hnw Hsame Hpar|r' Hin Hm Hwr Hsame Hto Hk|Hin Hm].
  - right. left. exists c. split; [done|]. split; [done|]. by inversion Hrp.
  - left. exists c, r1, r'. rewrite Hme in Hm. do 5 (split; [done|]). left. rewrite Hw in Hnw. split; [done|]. split; [done|]. by inversion Hrp.
  - left. exists c, r1, r'. rewrite Hme in Hm. do 5 (split; [done|]). right. rewrite Hw in Hwr. split; [done|]. by inversion Hrp.
  - right. right. rewrite Hme in Hm. split; [done|]. by inversion Hrp.
Qed.
Lemma write_handler rt m p vars : rt ∈ route_handles -> route_match rt m p = Some vars -> m <> str "GET" -> r_handler rt = HProxy.
Proof.
  intros Hr Hm Hg. assert (r_method rt <> [] -> r_method rt = m) as H.
  { intros Hn. unfold route_match in Hm. destruct (r_prefix rt) eqn:Ep.
    - exfalso. apply Hn. clear -Hr Ep. unfold route_handles in Hr. rewrite !elem_of_cons in Hr.
      repeat (destruct Hr as [->|Hr]; [first [done|discriminate Ep]|]). by apply elem_of_nil in Hr.
    - unfold method_ok in Hm. destruct (r_method rt) as [|x l]; [done|]. destruct (str_eqb (x :: l) m) eqn:Es; [|done]. by apply str_eqb_eq. }
  clear Hm. unfold route_handles in Hr. rewrite !elem_of_cons in Hr.
  repeat (destruct Hr as [->|Hr]; [first [done|exfalso; apply Hg; symmetry; apply H; discriminate]|]). by apply elem_of_nil in Hr.
Qed.
Theorem C60_write E cf conf h st clients up hr o : run_calls E (new_store conf) h = Ok st -> authorised cf hr ->
  canonical (rq_path (h_req hr)) -> rq_method (h_req hr) <> str "GET" -> serve E cf clients st up hr o ->
  exists vars rp, o = Some rp /\ let r := with_vars (h_req hr) vars in
  ((exists c r1 r', c ∈ clients /\ rq_method r ∈ methods /\ target cf r c /\ untagged r r1 /\ same_request r1 r' /\
     ((~ watch_req r /\ params r' = params r1 /\ relays_raw (ap_raw up c r') rp) \/
      (watch_req r /\ relays_stream (ap_stream up c r') rp))) \/
  (exists c, target cf r c /\ c ∉ clients /\ rp = Reply 404 [BStatus 404 (str "cluster not found")]) \/
  rq_method r ∉ methods /\ rp = Reply 500 [BError]).
Proof.
  intros Hrun Ht Hc Hm Hs. destruct (dispatch_canonical (cf_token cf) hr Hc) as (rt & vars & Hr & Hrm & _ & Hd).
  rewrite (write_handler _ _ _ _ Hr Hrm Hm) in Hd.
  assert (dispatch route_handles (cf_token cf) hr = DRun HProxy (with_vars (h_req hr) vars) (r_status rt)) as Hd'.
  { rewrite Hd. destruct Ht as [->|Ho]; [by rewrite andb_false_r|]. apply contains_true in Ho. by rewrite Ho, andb_false_r. }
  clear Hd. exists vars. destruct Hs as [p Hd|Hd|Hd|h' r s p Hd Hh]; rewrite Hd' in Hd; try done. injection Hd as <- <- <-.
  rewrite (run_success _ _ _ _ _ Hd' (or_intror eq_refl)). inversion Hh as [| | |r0 a Hpr]; subst.
  destruct (proxy_answers E cf clients st up _ a _ Hpr eq_refl) as (rp & Ho & Hrp). exists rp. split; [done|].
  apply (C60_forwarded E cf conf h st clients up _ a rp Hrun Hpr Hrp). by intros [Hg _].
Qed.
(** The routes accept HEAD and OPTIONS, but they always fail. *)
Corollary C60_head_and_options E cf conf h st clients up hr o : run_calls E (new_store conf) h = Ok st -> authorised cf hr ->
  canonical (rq_path (h_req hr)) -> rq_method (h_req hr) = str "HEAD" \/ rq_method (h_req hr) = str "OPTIONS" ->
  serve E cf clients st up hr o -> exists rp, o = Some rp /\ (rp_status rp = 404%Z \/ rp_status rp = 500%Z).
Proof.
  intros Hrun Ht Hc Hm Hs. assert (rq_method (h_req hr) <> str "GET" /\ rq_method (h_req hr) ∉ methods) as [Hg Hnm].
  { unfold methods. rewrite !elem_of_cons, elem_of_nil. destruct Hm as [-> | ->]; split; [by apply str_eqb_neq| |by apply str_eqb_neq|];
      intros H; repeat (destruct H as [H|H]; [by apply str_eqb_eq in H|]); done. }
  destruct (C60_write E cf conf h st clients up hr o Hrun Ht Hc Hg Hs) as (vars & rp & -> & [(c & r1 & r' & _ & Hin & _)|[(c & _ & _ & ->)|[_ ->]]]).
  - done.
  - eexists. split; [done|]. by left.
  - eexists. split; [done|]. by right.
Qed.
(** The two public pages: always 200, the text 1 and the metrics. *)
Theorem C60_public E cf clients st up hr o : public (h_req hr) -> serve E cf clients st up hr o <->
  o = Some (Reply 200 [if str_eqb (rq_path (h_req hr)) (str "/healthy") then BBytes (str "1") else BMetrics]).
Proof.
  intros Hp. destruct (PropsServer.C43_public (cf_token cf) hr Hp) as [s Hd]. split.
  - intros Hs. destruct Hs as [p H|H|H|h r s' p H Hh]; rewrite Hd in H; try discriminate H. injection H as <- <- <-.
    destruct (str_eqb _ _); inversion Hh; subst; reflexivity.
  - intros ->. destruct (str_eqb (rq_path (h_req hr)) (str "/healthy")).
    + exact (serve_run E cf clients st up hr _ _ _ _ Hd (handle_healthy E cf clients st up _)).
    + exact (serve_run E cf clients st up hr _ _ _ _ Hd (handle_metrics E cf clients st up _)).
Qed.
Print Assumptions C60_public.
Example C60_ex_public : public (Request (str "GET") (str "/healthy") ∅ [] None [] []) /\ public (Request (str "GET") (str "/metrics") ∅ [] None [] []).
Proof. split; (split; [reflexivity|]); [left|right]; reflexivity. Qed.
Print Assumptions C60_forwarded.
Print Assumptions C60_write.
Print Assumptions C60_head_and_options.

(** ** Examples *)
(** The API server of c1 answers a create with 201 and a second one with 409; that of c2 does not answer. *)
Definition ex_apis : apis := Apis
  (fun c r => if str_eqb c c1 then
                if str_eqb (default [] (rq_body r)) (str "again") then Some (409%Z, str "exists") else Some (201%Z, str "created")
              else None)
  (fun c r => Some (200%Z, map (fun b => Read (Some b) false false) (str "x") ++ [Read None true false])).
Definition ex_post (raw body : string) : http_req :=
  HttpReq [] (Request (str "POST") (str "/api/v1/namespaces/default/pods") ∅ (str raw) (Some (str body)) [] (str "application/json")).
Definition ex_clients : gset gostr := {[ c1; c2 ]}.
Definition post_vars : gmap gostr gostr :=
  list_to_map [(str "version", str "v1"); (str "namespace", str "default"); (str "resourceType", str "pods")].
Lemma ex_post_run raw body : dispatch route_handles [] (ex_post raw body) = DRun HProxy (with_vars (h_req (ex_post raw body)) post_vars) 200.
Proof. unfold ex_post. vm_compute. reflexivity. Qed.
Lemma ex_post_proxy st body : proxy ex_env ex_cf ex_clients st (with_vars (h_req (ex_post "" body)) post_vars)
  (AForward c1 (with_raw (with_vars (h_req (ex_post "" body)) post_vars) [])).
Proof.
  set (r := with_vars _ _).
  assert (parse_clean ex_cf [] r = inr (zero_page, None, c1, with_raw r [])) as Hpc by reflexivity.
  pose proof (proxy_forward ex_env ex_cf ex_clients st r [] _ _ _ _ (reflexivity _) Hpc) as H.
  assert (proxy_pass ex_cf ex_clients (with_raw r []) c1 = AForward c1 (with_raw r [])) as Ep.
  { unfold proxy_pass. rewrite bool_decide_eq_true_2; [reflexivity|]. unfold ex_clients. set_solver. }
  rewrite Ep in H. apply H. change (rq_method r) with (str "POST"). by rewrite andb_false_r.
Qed.
Lemma ex_post_serve st up body o : finish 200 (pass_reply (ap_raw up c1 (with_raw (with_vars (h_req (ex_post "" body)) post_vars) [])) fresh) = o ->
  serve ex_env ex_cf ex_clients st up (ex_post "" body) (sent <$> o).
Proof.
  intros <-. eapply (serve_run ex_env ex_cf ex_clients st up (ex_post "" body) HProxy _ 200 _ (ex_post_run "" body)).
  exact (handle_proxy ex_env ex_cf ex_clients st up _ _ (ex_post_proxy st body)).
Qed.
(** A create that the API server refuses is refused with the same status. *)
Example C60_ex_conflict : run_calls ex_env (new_store ex_conf) ex_history = Ok ex_store /\ authorised ex_cf (ex_post "" "again") /\
  canonical (rq_path (h_req (ex_post "" "again"))) /\ rq_method (h_req (ex_post "" "again")) <> str "GET" /\
  serve ex_env ex_cf ex_clients ex_store ex_apis (ex_post "" "again") (Some (Reply 409 [BStatus 409 []])).
Proof.
  split; [apply ex_store_ok|]. split; [by left|]. split; [by apply canonical_iff|]. split; [by apply str_eqb_neq|].
  exact (ex_post_serve ex_store ex_apis "again" _ eq_refl).
Qed.
(** A create that the API server accepts with 201 is answered 200: the claim that the client sees the status of
    the API server is false. *)
Theorem C60_upstream_status_refuted : exists E cf conf h st clients up hr c r' code b rp,
  run_calls E (new_store conf) h = Ok st /\ authorised cf hr /\ canonical (rq_path (h_req hr)) /\ rq_method (h_req hr) = str "POST" /\
  proxy E cf clients st r' (AForward c (with_raw r' [])) /\ rq_path r' = rq_path (h_req hr) /\ rq_body r' = rq_body (h_req hr) /\
  ap_raw up c (with_raw r' []) = Some (code, b) /\ (200 <= code <= 206)%Z /\
  serve E cf clients st up hr (Some rp) /\ rp_body rp = [BBytes b] /\ rp_status rp <> code.
Proof.
  exists ex_env, ex_cf, ex_conf, ex_history, ex_store, ex_clients, ex_apis, (ex_post "" "new"), c1,
    (with_vars (h_req (ex_post "" "new")) post_vars), 201%Z, (str "created"), (Reply 200 [BBytes (str "created")]).
  split; [apply ex_store_ok|]. split; [by left|]. split; [by apply canonical_iff|]. split; [done|]. split; [apply ex_post_proxy|].
  split; [done|]. split; [done|]. split; [reflexivity|]. split; [lia|].
  split; [exact (ex_post_serve ex_store ex_apis "new" _ eq_refl)|]. split; [done|]. cbn [rp_status]. lia.
Qed.
Print Assumptions C60_upstream_status_refuted.
(** A get of a cached pod and of one that is not, and a list of the namespace. *)
Definition ex_hreq (p : gostr) : http_req := HttpReq [] (Request (str "GET") p ∅ [] (Some []) [] []).
Definition reply_ids (o : option reply) : option (Z * list (list gostr)) :=
  (fun rp => (rp_status rp, map (fun b => match b with BObject x => [obj_id x] | BList _ _ _ _ l => map obj_id l | _ => [] end) (rp_body rp))) <$> o.
Definition get_vars (name : string) : gmap gostr gostr :=
  list_to_map [(str "version", str "v1"); (str "namespace", str "default"); (str "resourceType", str "pods"); (str "resource", str name)].
Lemma ex_get_serve name st : get_vars name !! str "resource" <> Some [] ->
  dispatch route_handles [] (ex_hreq (api_path pods (Some (str "default")) (Some (str name)))) =
    DRun HProxy (with_vars (h_req (ex_hreq (api_path pods (Some (str "default")) (Some (str name))))) (get_vars name)) 200 ->
  is_store_gvr st pods = true -> 
  serve ex_env ex_cf ex_clients st ex_apis (ex_hreq (api_path pods (Some (str "default")) (Some (str name))))
    (sent <$> finish 200 (proxy_reply ex_apis (match store_get st pods c1 (str "default") (str name) with
       | Some o => AObject o | None => AStatus 404 (str "resource not found") end) fresh)).
Proof.
  intros Hne Hd Hs. eapply (serve_run ex_env ex_cf ex_clients st ex_apis _ HProxy _ 200 _ Hd). apply handle_proxy.
  set (r := with_vars _ _). assert (parse_clean ex_cf [] r = inr (zero_page, None, c1, with_raw r [])) as Hpc by reflexivity.
  assert (var r (str "resource") = str name) as Hv by reflexivity.
  assert (var r (str "namespace") = str "default") as Hn by reflexivity.
  pose proof (proxy_get ex_env ex_cf ex_clients st r [] _ _ _ _ (reflexivity _) Hpc) as H. change (req_gvr r) with pods in H. rewrite Hv, Hn in H. apply H.
  - by rewrite Hs.
  - intros Hx. apply Hne. transitivity (Some (str name)); [reflexivity|by rewrite Hx].
Qed.
Example C60_ex_get : is_Some (ex_conf !! pods) /\ authorised ex_cf (ex_hreq (api_path pods (Some (str "default")) (Some (str "a")))) /\
  api_addr pods (Some (str "default")) (Some (str "a")) /\
  (exists o, serve ex_env ex_cf ex_clients ex_store ex_apis (ex_hreq (api_path pods (Some (str "default")) (Some (str "a")))) o /\
     reply_ids o = Some (200%Z, [[str "default/a"]])) /\
  serve ex_env ex_cf ex_clients ex_store ex_apis (ex_hreq (api_path pods (Some (str "default")) (Some (str "d"))))
    (Some (Reply 404 [BStatus 404 (str "resource not found")])).
Proof.
  split; [rewrite ex_conf_pods; by eexists|]. split; [by left|]. split; [|split].
  - unfold api_addr, plain_seg. cbn [fst snd pods].
    assert (forall s, existsb (fun c => Ascii.eqb c "/"%char) s = false -> "/"%char ∉ s) as Hin.
    { intros s Hs Hi. assert (existsb (fun c => Ascii.eqb c "/"%char) s = true); [|congruence]. apply existsb_exists. exists "/"%char. by rewrite <- elem_of_list_In. }
    split; [by left|]. assert (forall s, s <> [] -> existsb (fun c => Ascii.eqb c "/"%char) s = false -> s <> str "." -> s <> str ".." -> s <> [] /\ "/"%char ∉ s /\ s <> str "." /\ s <> str "..") as Hs; [by auto|].
    split; [by apply Hs|]. split; [by apply Hs|]. split; intros n [= <-]; by apply Hs.
  - eexists. split; [apply ex_get_serve; [done|vm_compute; reflexivity|vm_compute; reflexivity]|]. vm_compute. reflexivity.
  - assert (store_get ex_store pods c1 (str "default") (str "d") = None) as Hg by (vm_compute; reflexivity).
    pose proof (ex_get_serve "d" ex_store) as H. rewrite Hg in H. apply H; [done|vm_compute; reflexivity|vm_compute; reflexivity].
Qed.
