(** C70: the access log. *)
From Coq Require Import Ascii String NArith ZArith Lia.
From stdpp Require Import base gmap strings list.
From Verif Require Import ModelStr ModelLabels ModelPage ModelJson ModelQuery ModelStore ModelUrl ModelProxy ModelServer ModelExtend ModelServe ModelAccess
  SpecLabels SpecPage SpecStore SpecProxy SpecList SpecServer SpecServe
  ProofsStr ProofsUrl ProofsJson ProofsStore ProofsListing ProofsProxy ProofsServer PropsQuery PropsStore PropsProxy PropsList PropsCluster PropsServer PropsWatcher PropsServe.

(** The bytes of all that is written. *)
Fixpoint written (size : body -> N) (bs : list body) : N := match bs with [] => 0%N | b :: bs' => (size b + written size bs')%N end.
Lemma total_written size bs : total size bs = written size bs.
Proof. unfold total. induction bs as [|b bs IH]; [done|]. cbn [map foldr written]. by rewrite IH. Qed.
(** What is logged after a writer is used. *)
Lemma json_logged c b w w' : json_resp c b w = Some w' -> wr_logged w' = (if (c =? 0)%Z then 200%Z else c).
Proof.
  unfold json_resp, write_header. destruct (wr_status w) as [x|].
  - cbn [fmap option_fmap option_map]. intros [= <-]. reflexivity.
  - destruct ((c <? 100) || (999 <? c))%Z; [done|]. intros [= <-]. reflexivity.
Qed.
Lemma json_fresh c b : (100 <= c <= 999)%Z -> json_resp c b fresh = Some (Writer (Some c) (if bodiless c then [] else [b]) c).
Proof.
  intros Hc. unfold json_resp, write_header. cbn [fresh wr_status]. rewrite (proj2 (bad_code c) Hc). cbn [fmap option_fmap option_map]. unfold write. cbn [wr_status wr_body wr_logged default].
  destruct (c =? 0)%Z eqn:E; [apply Z.eqb_eq in E; lia|]. done.
Qed.
Lemma stream_logged chunks w : wr_logged w <> 0%Z -> wr_logged (fold_left (fun w s => write (BBytes s) w) chunks w) = wr_logged w.
Proof.
  revert w. induction chunks as [|s l IH]; intros w Hw; cbn [fold_left]; [done|].
  assert (wr_logged (write (BBytes s) w) = wr_logged w) as Hs by (cbn [write wr_logged]; by apply Z.eqb_neq in Hw as ->).
  rewrite IH; [done|]. by rewrite Hs.
Qed.

(** A writer whose logged status is the one that was sent, if any. *)
Definition agrees (w : writer) : Prop :=
  match wr_status w with
  | None => wr_body w = [] /\ wr_logged w = 0%Z
  | Some c => wr_logged w = c /\ c <> 0%Z
  end.
Lemma agrees_fresh : agrees fresh.
Proof. done. Qed.
Lemma agrees_write b w : agrees w -> agrees (write b w).
Proof.
  unfold agrees, write. destruct w as [[c|] bs l]; cbn [wr_status wr_body wr_logged default].
  - intros [-> Hc]. split; [|done]. by apply Z.eqb_neq in Hc as ->.
  - intros [-> ->]. done.
Qed.
Lemma agrees_stream chunks w : agrees w -> agrees (fold_left (fun w s => write (BBytes s) w) chunks w).
Proof. revert w. induction chunks as [|s l IH]; intros w Hw; cbn [fold_left]; [done|]. apply IH. by apply agrees_write. Qed.
Lemma agrees_header c w w' : agrees w -> (forall x, wr_status w = Some x -> x = c) -> write_header c w = Some w' -> agrees w'.
Proof.
  unfold agrees, write_header. destruct w as [[x|] bs l]; cbn [wr_status wr_body wr_logged].
  - intros [-> Hc] Hx [= <-]. cbn [wr_status wr_logged]. by rewrite <- (Hx x eq_refl).
  - intros _ _. destruct ((c <? 100) || (999 <? c))%Z eqn:Eb; [done|]. apply bad_code in Eb. intros [= <-]. cbn [wr_status wr_logged]. split; [done|lia].
Qed.
Lemma agrees_json c b w w' : agrees w -> (forall x, wr_status w = Some x -> x = c) -> json_resp c b w = Some w' -> agrees w'.
Proof.
  intros Hw Hx. unfold json_resp. destruct (write_header c w) as [w1|] eqn:E; [|done]. cbn [fmap option_fmap option_map]. intros [= <-].
  apply agrees_write. by eapply agrees_header.
Qed.
(** Where a handler leaves its writer: only a v1.Status may follow a status that was sent, and it is the same. *)
Definition left_open (p : writer * hend) : Prop :=
  agrees (fst p) /\
  match snd p with
  | ENil => True
  | EStatus c _ => forall x, wr_status (fst p) = Some x -> x = c
  | _ => fst p = fresh
  end.
Lemma error_open c m : left_open (error_proxy c m fresh).
Proof.
  unfold error_proxy. destruct (write_header c fresh) as [w|] eqn:E; [|done]. split; cbn [fst snd].
  - by eapply (agrees_header c fresh w).
  - revert E. unfold write_header. cbn [fresh wr_status]. destruct ((c <? 100) || (999 <? c))%Z; [done|]. intros [= <-] x [= <-]. done.
Qed.
Lemma handle_open E cf clients st up h r p : handle E cf clients st up h r p -> left_open p.
Proof.
  intros [r0|r0|r0 sv Hsv|r0 a Ha].
  - split; [|done]. done.
  - split; [|done]. done.
  - destruct sv as [[l|]|]; done.
  - destruct a as [ob|c m|api kind path rem items|t|c r'|c r'|]; cbn [proxy_reply]; try done.
    + apply error_open.
    + unfold pass_reply. destruct (ap_raw up c r') as [[x b]|]; [|done]. destruct (raw_ok x); [done|apply error_open].
    + unfold watch_reply. destruct (ap_stream up c r') as [[x b]|]; [|done]. destruct (stream_ok x); [|apply error_open].
      split; [|done]. by apply agrees_stream.
Qed.
Lemma finish_agrees s p w : left_open p -> finish s p = Some w -> agrees w.
Proof.
  destruct p as [w0 e]. unfold left_open. cbn [fst snd]. intros [Ha He] Hf.
  assert (recovered fresh = Some w -> agrees w) as Hr by (by eapply agrees_json).
  destruct e as [| | |c m|t|b]; cbn [finish] in Hf.
  - subst. by apply Hr.
  - by injection Hf as <-.
  - subst. by apply Hr.
  - destruct (json_resp c (BStatus c m) w0) as [w1|] eqn:Ej.
    + injection Hf as <-. by eapply agrees_json.
    + assert (wr_status w0 = None) as Hs by (revert Ej; unfold json_resp, write_header; destruct (wr_status w0); done).
      assert (forall x, wr_status w0 = Some x -> x = 500%Z) as Hx by (intros x H'; congruence). eapply (agrees_json 500 BError w0 w Ha Hx Hf).
  - injection Hf as <-. by apply agrees_write.
  - subst. destruct (json_resp s b fresh) as [w1|] eqn:Ej; [|by apply Hr]. injection Hf as <-. by eapply agrees_json.
Qed.
(** The stream of a watch ends while the client is still there. *)
Definition ends (rs : list read) : Prop :=
  exists before r after, rs = before ++ r :: after /\ rd_err r = true /\ Forall (fun r => rd_done r = false) before.
Lemma quiet_left rs buf : copy_watch buf rs = [] -> ~ ends rs.
Proof.
  revert buf. induction rs as [|r rs IH]; intros buf Hc (before & x & after & Heq & He & Hd); [by destruct before|].
  cbn [copy_watch] in Hc. destruct (rd_err r) eqn:Er; [done|]. destruct before as [|y before]; injection Heq as <- Hrs; [congruence|].
  apply Forall_cons in Hd as [Hd1 Hd2]. rewrite Hd1 in Hc. apply app_eq_nil in Hc as [_ Hc].
  eapply IH; [exact Hc|]. exists before, x, after. done.
Qed.
(** A writer that nothing was written to: a watch that the client left before the first event. *)
Lemma silent E cf clients st up h r p s w : handle E cf clients st up h r p -> finish s p = Some w -> wr_status w = None ->
  exists c r' code rs, c ∈ clients /\ ap_stream up c r' = Some (code, rs) /\ (200 <= code <= 299)%Z /\ ~ ends rs.
Proof.
  assert (forall c m w', finish s (error_proxy c m fresh) = Some w' -> wr_status w' = None -> False) as He.
  { intros c m w'. unfold error_proxy, write_header. cbn [fresh wr_status]. destruct ((c <? 100) || (999 <? c))%Z; intros [= <-]; done. }
  intros Hh. destruct Hh as [r0|r0|r0 sv Hsv|r0 a Ha].
  - intros [= <-]; done.
  - intros [= <-]; done.
  - destruct sv as [[l|]|]; cbn [finish].
    + destruct (json_resp s (BServices l) fresh) as [w1|] eqn:Ej; [|intros [= <-]; done]. intros [= <-]. revert Ej. unfold json_resp. destruct (write_header s fresh); [|done]. intros [= <-]. done.
    + intros [= <-]; done.
    + intros [= <-]; done.
  - assert (forall b w', finish s (fresh, EValue b) = Some w' -> wr_status w' = None -> False) as Hv.
    { intros b w'. cbn [finish]. destruct (json_resp s b fresh) as [w1|] eqn:Ej; [|intros [= <-]; done]. intros [= <-]. revert Ej. unfold json_resp. destruct (write_header s fresh); [|done]. intros [= <-]. done. }
    destruct a as [ob|c m|api kind path rem items|t|c r'|c r'|]; cbn [proxy_reply].
    + intros H1 H2. by destruct (Hv _ _ H1 H2).
    + intros H1 H2. by destruct (He _ _ _ H1 H2).
    + intros H1 H2. by destruct (Hv _ _ H1 H2).
    + intros H1 H2. by destruct (Hv _ _ H1 H2).
    + unfold pass_reply. destruct (ap_raw up c r') as [[x b]|]; [|intros [= <-]; done]. destruct (raw_ok x); [intros [= <-]; done|].
      intros H1 H2. by destruct (He _ _ _ H1 H2).
    + unfold watch_reply. destruct (ap_stream up c r') as [[x rs]|] eqn:Eu; [|intros [= <-]; done]. destruct (stream_ok x) eqn:Ex.
      * intros [= <-] Hn. exists c, r', x, rs. split; [by eapply forward_known; [exact Ha|right]|]. split; [done|]. split.
        -- unfold stream_ok in Ex. apply andb_true_iff in Ex as [E1%Z.leb_le E2%Z.ltb_lt]. lia.
        -- destruct (copy_watch [] rs) as [|t l] eqn:Ec; [by eapply quiet_left|]. exfalso. clear Ec. cbn [fold_left] in Hn. revert Hn.
           generalize (write (BBytes t) fresh) (eq_refl : wr_status (write (BBytes t) fresh) = Some 200%Z). 
           induction l as [|t' l IH]; intros w' Hw' Hn; cbn [fold_left] in Hn; [congruence|]. apply (IH (write (BBytes t') w')); [|done].
           unfold write. cbn [wr_status]. by rewrite Hw'.
      * intros H1 H2. by destruct (He _ _ _ H1 H2).
    + intros [= <-]; done.
Qed.

(** One line for each request on a canonical path, with its method, path and query, in order. *)
Inductive one_line_each : list (store * http_req) -> list logline -> Prop :=
| line_none : one_line_each [] []
| line_canonical st hr x rs ls : canonical (rq_path (h_req hr)) ->
    lg_method x = rq_method (h_req hr) -> lg_path x = rq_path (h_req hr) -> lg_raw x = rq_raw (h_req hr) ->
    one_line_each rs ls -> one_line_each ((st, hr) :: rs) (x :: ls)
| line_moved st hr rs ls : ~ canonical (rq_path (h_req hr)) -> one_line_each rs ls -> one_line_each ((st, hr) :: rs) ls.

Section c70.
  Context (size : body -> N) (E : env) (cf : config) (clients : gset gostr) (up : apis).
  Local Notation acc := (access size E cf clients).

  (** The log is a record of the replies: the two relations agree. *)
  Lemma access_serve st hr o : serve E cf clients st up hr o <-> exists ls, acc st up hr (o, ls).
  Proof.
    split.
    - intros [p Hd|Hd|Hd|h r s p Hd Hh].
      + eexists. by eapply access_redirect.
      + eexists. by eapply access_missing.
      + eexists. pose proof (access_refused size E cf clients st up hr Hd) as H. exact H.
      + pose proof (access_run size E cf clients st up hr h r s p Hd Hh) as H. destruct (finish s p) as [w|]; eexists; exact H.
    - intros [ls H]. remember (o, ls) as x eqn:Hx. destruct H as [p Hd|Hd|Hd|h r s p Hd Hh].
      + injection Hx as <- _. by eapply serve_redirect.
      + injection Hx as <- _. by eapply serve_missing.
      + injection Hx as <- _. by eapply serve_refused.
      + pose proof (serve_run E cf clients st up hr h r s p Hd Hh) as H. destruct (finish s p) as [w|]; injection Hx as <- _; exact H.
  Qed.
  Lemma access_answered st hr o ls : acc st up hr (o, ls) -> exists rp, o = Some rp.
  Proof. intros H. destruct (C60_status_and_body E cf clients st up hr o) as (rp & -> & _); [apply access_serve; by eexists|]. by eexists. Qed.

  (** Every request on a canonical path leaves exactly one line, with the method, path and query that came, the
      number of bytes written and the status sent; a redirect leaves none.  Refused requests and panics are
      logged like others.  Only a watch that the client leaves before the first event has the status 0. *)
  Theorem C70_log_of_replies st hr o ls : acc st up hr (o, ls) ->
    serve E cf clients st up hr o /\ exists rp, o = Some rp /\
    (~ canonical (rq_path (h_req hr)) -> ls = []) /\
    (canonical (rq_path (h_req hr)) -> exists x, ls = [x] /\
       lg_method x = rq_method (h_req hr) /\ lg_path x = rq_path (h_req hr) /\ lg_raw x = rq_raw (h_req hr) /\
       lg_length x = written size (rp_body rp) /\
       (lg_status x = rp_status rp \/
        lg_status x = 0%Z /\ rp = Reply 200 [] /\
          exists c r' code rs, c ∈ clients /\ ap_stream up c r' = Some (code, rs) /\ (200 <= code <= 299)%Z /\ ~ ends rs)).
  Proof.
    intros H. split; [apply access_serve; by eexists|]. destruct (access_answered _ _ _ _ H) as [rp ->]. exists rp. split; [done|].
    remember (Some rp, ls) as x eqn:Hx. destruct H as [p Hd|Hd|Hd|h r s p Hd Hh].
    - injection Hx as _ <-. split; [done|]. intros Hc. destruct (dispatch_canonical (cf_token cf) hr Hc) as (rt & vars & _ & _ & _ & Hd'). rewrite Hd' in Hd. by destruct (_ && _).
    - by destruct (dispatch_found _ _ Hd).
    - split; [intros Hc; rewrite (dispatch_moved _ _ Hc) in Hd; done|]. intros _. cbn in Hx. injection Hx as <- <-. eexists. split; [done|].
      cbn [lg_method lg_path lg_raw lg_length lg_status log_line rp_body rp_status]. do 3 (split; [done|]). split; [apply total_written|]. by left.
    - split; [intros Hc; rewrite (dispatch_moved _ _ Hc) in Hd; done|]. intros _. destruct (finish s p) as [w|] eqn:Ef; [|discriminate Hx].
      cbn [ended] in Hx. injection Hx as <- <-. exists (log_line size hr w). split; [done|]. do 3 (split; [done|]). split; [apply total_written|].
      pose proof (finish_agrees s p w (handle_open _ _ _ _ _ _ _ _ Hh) Ef) as Hag. unfold agrees in Hag.
      destruct (wr_status w) as [c|] eqn:Ew.
      + left. cbn [log_line lg_status sent rp_status]. rewrite Ew. apply Hag.
      + right. destruct Hag as [Hb Hl]. split; [done|]. split; [unfold sent; by rewrite Ew, Hb|]. by eapply silent.
  Qed.
  (** Every reply is logged: the log exists for all that [serve] does. *)
  Theorem C70_all_logged st hr o : serve E cf clients st up hr o <-> exists ls, acc st up hr (o, ls).
  Proof. apply access_serve. Qed.
  (** So failures are found by their status. *)
  Theorem C70_failures st hr o ls x : acc st up hr (o, ls) -> x ∈ ls ->
    exists rp, o = Some rp /\ ((400 <= lg_status x)%Z <-> (400 <= rp_status rp)%Z).
  Proof.
    intros H Hx. destruct (C70_log_of_replies st hr o ls H) as (_ & rp & -> & Hn & Hc). exists rp. split; [done|].
    destruct (decide (str_eqb (clean_path (rq_path (h_req hr))) (rq_path (h_req hr)) = true)) as [Hcc|Hcc]; rewrite canonical_iff in Hcc.
    - destruct (Hc Hcc) as (y & -> & _ & _ & _ & _ & Hs). apply elem_of_list_singleton in Hx as ->.
      destruct Hs as [->|(-> & -> & _)]; [done|]. cbn [rp_status]. lia.
    - rewrite (Hn Hcc) in Hx. by apply elem_of_nil in Hx.
  Qed.
  (** The header with the token has no effect on the log but for the refusal. *)
  Theorem C70_no_token st hr hr' x : h_req hr = h_req hr' -> (authorised cf hr <-> authorised cf hr') ->
    acc st up hr x -> acc st up hr' x.
  Proof.
    intros Hr Ha. assert (dispatch route_handles (cf_token cf) hr = dispatch route_handles (cf_token cf) hr') as Hd.
    { unfold dispatch. rewrite <- Hr. destruct (negb _); [done|]. destruct (find_route _ _ _) as [[rt vars]|]; [|done].
      destruct (r_auth rt); [|done]. destruct (str_eqb (cf_token cf) []) eqn:Et; [done|]. cbn [negb andb]. apply str_eqb_neq in Et.
      assert (contains (h_auth hr) (cf_token cf) = contains (h_auth hr') (cf_token cf)) as ->; [|done].
      unfold authorised in Ha. destruct (contains (h_auth hr) (cf_token cf)) eqn:E1; destruct (contains (h_auth hr') (cf_token cf)) eqn:E2; try done.
      - apply contains_true in E1. destruct (proj1 Ha (or_intror E1)) as [?|H]; [done|]. apply contains_true in H. congruence.
      - apply contains_true in E2. destruct (proj2 Ha (or_intror E2)) as [?|H]; [done|]. apply contains_true in H. congruence. }
    assert (forall w, ended size hr w = ended size hr' w) as He by (intros [w|]; [cbn [ended]; unfold log_line; by rewrite Hr|done]).
    intros [p Hp|Hp|Hp|h r s p Hp Hh].
    - rewrite Hd in Hp. by eapply access_redirect.
    - rewrite Hd in Hp. by eapply access_missing.
    - rewrite Hd in Hp. rewrite He. by eapply access_refused.
    - rewrite Hd in Hp. rewrite He. by eapply access_run.
  Qed.
  (** In a run of any number of requests the lines are those of the requests on canonical paths, in order. *)
  Theorem C70_run rs os ls : accesses size E cf clients up rs os ls ->
    one_line_each rs ls /\ length os = length rs /\ Forall is_Some os.
  Proof.
    induction 1 as [|st hr o l rs os ls Ha _ (IH & Hl & Hf)]; [split; [constructor|done]|].
    destruct (C70_log_of_replies st hr o l Ha) as (_ & rp & -> & Hn & Hc). split.
    - destruct (decide (str_eqb (clean_path (rq_path (h_req hr))) (rq_path (h_req hr)) = true)) as [Hcc|Hcc]; rewrite canonical_iff in Hcc.
      + destruct (Hc Hcc) as (y & -> & Hm & Hp & Hr & _). cbn [app]. by apply line_canonical.
      + rewrite (Hn Hcc). cbn [app]. by apply line_moved.
    - split; [by cbn [length]; rewrite Hl|]. apply Forall_cons_2; [by eexists|done].
  Qed.
End c70.
Print Assumptions C70_log_of_replies.
Print Assumptions C70_all_logged.
Print Assumptions C70_failures.
Print Assumptions C70_no_token.
Print Assumptions C70_run.

(** A create that is refused by the API server: its line has the status 409 and the size of the reply. *)
Definition ex_size (b : body) : N := match b with BBytes s => N.of_nat (length s) | _ => 2%N end.
Example C70_ex_conflict : authorised ex_cf (ex_post "" "again") /\ canonical (rq_path (h_req (ex_post "" "again"))) /\
  access ex_size ex_env ex_cf ex_clients ex_store ex_apis (ex_post "" "again")
    (Some (Reply 409 [BStatus 409 []]), [LogLine (str "POST") (str "/api/v1/namespaces/default/pods") [] 409 2]).
Proof.
  split; [by left|]. split; [by apply canonical_iff|].
  exact (access_run ex_size ex_env ex_cf ex_clients ex_store ex_apis (ex_post "" "again") HProxy _ 200 _ (ex_post_run "" "again")
    (handle_proxy ex_env ex_cf ex_clients ex_store ex_apis _ _ (ex_post_proxy ex_store "again"))).
Qed.
Definition ex_any (m raw : string) : http_req :=
  HttpReq [] (Request (str m) (str "/api/v1/namespaces/default/pods") ∅ (str raw) (Some []) [] []).
Definition quiet_apis : apis := Apis (fun _ _ => None) (fun _ _ => Some (200%Z, [Read (Some "{"%char) false true])).
Lemma ex_any_proxy st m raw a : let r := with_vars (h_req (ex_any m raw)) post_vars in
  proxy_pass ex_cf ex_clients (with_raw r (str raw)) c1 = a ->
  query_parse (str raw) = list_to_map (map_to_list (query_parse (str raw))) ->
  parse_clean ex_cf (map_to_list (query_parse (str raw))) r = inr (zero_page, None, c1, with_raw r (str raw)) ->
  only_allowed (query_parse (str raw)) && is_store_gvr st (req_gvr r) && str_eqb (rq_method r) (str "GET") = false ->
  proxy ex_env ex_cf ex_clients st r a.
Proof.
  intros r <- _ Hpc Ht. apply (proxy_forward ex_env ex_cf ex_clients st r (map_to_list (query_parse (str raw))) _ _ _ _ (reflexivity _) Hpc Ht).
Qed.
(** A watch that the client leaves before the first event is logged with status 0: the claim that the logged
    status is the one of the reply is false. *)
Theorem C70_status_refuted : exists size E cf clients st up hr rp x,
  authorised cf hr /\ canonical (rq_path (h_req hr)) /\ access size E cf clients st up hr (Some rp, [x]) /\
  rp_status rp = 200%Z /\ lg_status x = 0%Z.
Proof.
  exists ex_size, ex_env, ex_cf, ex_clients, ex_store, quiet_apis, (ex_any "GET" "watch=true"), (Reply 200 []),
    (LogLine (str "GET") (str "/api/v1/namespaces/default/pods") (str "watch=true") 0 0).
  split; [by left|]. split; [by apply canonical_iff|]. split; [|done].
  assert (dispatch route_handles [] (ex_any "GET" "watch=true") = DRun HProxy (with_vars (h_req (ex_any "GET" "watch=true")) post_vars) 200) as Hd by (vm_compute; reflexivity).
  set (r := with_vars (h_req (ex_any "GET" "watch=true")) post_vars) in *.
  assert (exists r', proxy ex_env ex_cf ex_clients ex_store r (AWatch c1 r')) as [r' Hp].
  { eexists. apply ex_any_proxy.
    - unfold proxy_pass. rewrite bool_decide_eq_true_2; [reflexivity|]. unfold ex_clients. set_solver.
    - by rewrite list_to_map_to_list.
    - vm_compute. reflexivity.
    - replace (only_allowed (query_parse (str "watch=true"))) with false by (vm_compute; reflexivity). done. }
  exact (access_run ex_size ex_env ex_cf ex_clients ex_store quiet_apis (ex_any "GET" "watch=true") HProxy r 200 _ Hd
    (handle_proxy ex_env ex_cf ex_clients ex_store quiet_apis _ _ Hp)).
Qed.
Print Assumptions C70_status_refuted.
(** The length in the log is not the number of bytes that the client gets: the body of a HEAD is counted. *)
Theorem C70_length_refuted size : (forall b, 0 < size b)%N -> exists E cf clients st up hr rp x,
  authorised cf hr /\ canonical (rq_path (h_req hr)) /\ access size E cf clients st up hr (Some rp, [x]) /\
  received size hr rp = 0%N /\ (0 < lg_length x)%N.
Proof.
  intros Hs. exists ex_env, ex_cf, ex_clients, ex_store, quiet_apis, (ex_any "HEAD" ""), (Reply 500 [BError]),
    (LogLine (str "HEAD") (str "/api/v1/namespaces/default/pods") [] 500 (total size [BError])).
  split; [by left|]. split; [by apply canonical_iff|]. split.
  - assert (dispatch route_handles [] (ex_any "HEAD" "") = DRun HProxy (with_vars (h_req (ex_any "HEAD" "")) post_vars) 200) as Hd by (vm_compute; reflexivity).
    set (r := with_vars (h_req (ex_any "HEAD" "")) post_vars) in *.
    assert (proxy ex_env ex_cf ex_clients ex_store r APanic) as Hp.
    { apply ex_any_proxy.
      - unfold proxy_pass. rewrite bool_decide_eq_true_2; [reflexivity|]. unfold ex_clients. set_solver.
      - by rewrite list_to_map_to_list.
      - vm_compute. reflexivity.
      - change (rq_method (with_vars (h_req (ex_any "HEAD" "")) post_vars)) with (str "HEAD"). by rewrite andb_false_r. }
    exact (access_run size ex_env ex_cf ex_clients ex_store quiet_apis (ex_any "HEAD" "") HProxy r 200 _ Hd
      (handle_proxy ex_env ex_cf ex_clients ex_store quiet_apis _ _ Hp)).
  - split; [done|]. cbn [lg_length]. unfold total. cbn [map foldr]. specialize (Hs BError). lia.
Qed.
Print Assumptions C70_length_refuted.
(** For all other methods it is. *)
Theorem C70_length size E cf clients st up hr o ls x : access size E cf clients st up hr (o, ls) -> x ∈ ls ->
  rq_method (h_req hr) <> str "HEAD" -> exists rp, o = Some rp /\ lg_length x = received size hr rp /\ lg_length x = written size (rp_body rp).
Proof.
  intros H Hx Hm. destruct (C70_log_of_replies size E cf clients up st hr o ls H) as (_ & rp & -> & Hn & Hc). exists rp. split; [done|].
  unfold received. apply str_eqb_neq in Hm as ->. rewrite total_written.
  destruct (decide (str_eqb (clean_path (rq_path (h_req hr))) (rq_path (h_req hr)) = true)) as [Hcc|Hcc]; rewrite canonical_iff in Hcc.
  - destruct (Hc Hcc) as (y & -> & _ & _ & _ & Hl & _). apply elem_of_list_singleton in Hx as ->. by split.
  - rewrite (Hn Hcc) in Hx. by apply elem_of_nil in Hx.
Qed.
Print Assumptions C70_length.
