(** C81: label selector texts of any layout mean what the grammar of Kubernetes selectors says. *)
From Coq Require Import Ascii String NArith ZArith Lia.
From stdpp Require Import base gmap strings list sorting.
From Verif Require Import ModelStr ModelSort ProofsSort ProofsStr ModelLabels SpecLabels ProofsLabels ProofsParse
  ModelPage SpecPage ProofsPage ProofsSel PropsSelector SpecSelText ProofsSelGrammar.
From Verif Require Import ModelJson ModelQuery ModelStore ModelUrl ModelProxy SpecStore SpecProxy SpecList ProofsUrl PropsStore PropsStore3 ProofsProxy PropsProxy ProofsList PropsList PropsCluster.

(** ** One '=' per key *)
Definition eqk (r : req) : option gostr := if is_eqop (rop r) then Some (rkey r) else None.
Lemma is_eqop_iff o : is_eqop o = true <-> o = OEq \/ o = ODEq.
Proof. destruct o; naive_solver. Qed.
Lemma distinct_NoDup rs : eq_keys_distinct rs <-> NoDup (omap eqk rs).
Proof.
  induction rs as [|r rs IH].
  - split; [constructor|]. by intros _ i j a b Hi.
  - assert (eq_keys_distinct (r :: rs) <-> eq_keys_distinct rs /\ (is_eqop (rop r) = true -> rkey r ∉ omap eqk rs)) as ->.
    { split.
      - intros H. split; [intros i j a b Hi Hj Hij; apply (H (S i) (S j)); [done|done|lia]|].
        intros Hr Hin. apply elem_of_list_omap in Hin as (q & Hq & E). unfold eqk in E.
        destruct (is_eqop (rop q)) eqn:Eq; [|done]. injection E as E.
        apply elem_of_list_lookup in Hq as [j Hj]. apply is_eqop_iff in Hr, Eq.
        by apply (H 0 (S j) r q).
      - intros [H1 H2] i j a b Hi Hj Hij Ha Hb. apply is_eqop_iff in Ha as Ha', Hb as Hb'.
        assert (forall x y, is_eqop (rop x) = true -> is_eqop (rop y) = true -> y ∈ rs -> x = r -> rkey x <> rkey y) as Hd.
        { intros x y Hx Hy Hin -> E. apply (H2 Hx). apply elem_of_list_omap. exists y. split; [done|]. unfold eqk. by rewrite Hy, E. }
        destruct i as [|i], j as [|j]; simpl in Hi, Hj.
        + done.
        + injection Hi as ->. apply Hd; try done. by apply elem_of_list_lookup_2 in Hj.
        + injection Hj as ->. intros E. symmetry in E. revert E. apply Hd; try done. by apply elem_of_list_lookup_2 in Hi.
        + apply (H1 i j); try done. lia. }
    rewrite IH. cbn [omap list_omap]. unfold eqk at 3. destruct (is_eqop (rop r)).
    + rewrite NoDup_cons. naive_solver.
    + naive_solver.
Qed.
Lemma distinct_norm rs rs0 : rs ≡ₚ map norm rs0 -> eq_keys_distinct rs <-> eq_keys_distinct rs0.
Proof.
  intros HP. rewrite !distinct_NoDup.
  assert (omap eqk (map norm rs0) = omap eqk rs0) as E.
  { clear. induction rs0 as [|r rs0 IH]; [done|]. cbn [map omap list_omap]. by rewrite IH. }
  rewrite <- E. by rewrite HP.
Qed.
Lemma norm_holds m r : req_holds m (norm r) <-> req_holds m r.
Proof. unfold req_holds, norm. cbn [rop rkey rvals]. destruct (rop r); try setoid_rewrite set_list_elem; done. Qed.
Lemma perm_norm_holds m rs rs0 : rs ≡ₚ map norm rs0 ->
  (forall r, r ∈ rs -> req_holds m r) <-> (forall r, r ∈ rs0 -> req_holds m r).
Proof.
  intros HP. setoid_rewrite HP. setoid_rewrite elem_of_list_fmap. split.
  - intros H r Hr. apply norm_holds, H. eauto.
  - intros H r (x & -> & Hx). apply norm_holds. auto.
Qed.
Lemma says_no_cmp l rs : says l rs -> Forall no_cmp rs.
Proof.
  assert (forall l r, says_req l r -> no_cmp r) as Hr.
  { intros l0 r [k Hk|k Hk|k y o v Hk Ho Hv Hl|k y o Hk Ho|k y o l' vs Hk Ho Hp Hl]; unfold no_cmp; cbn [rop]; try done.
    - destruct (tok_op _ _ Ho []) as (_ & _ & [->|[-> | ->]]); done.
    - destruct (tok_op _ _ Ho []) as (_ & _ & [->|[-> | ->]]); done.
    - destruct (tok_member _ _ Ho []) as (_ & _ & [-> | ->]); done. }
  intros [[_ ->]|H]; [constructor|]. induction H as [l r H|l r l' rs H _ IH]; constructor; eauto.
Qed.
Lemma norm_no_cmp rs rs0 : rs ≡ₚ map norm rs0 -> Forall no_cmp rs0 -> forall r, r ∈ rs -> rop r <> OGt /\ rop r <> OLt.
Proof.
  intros HP HF r Hr. rewrite HP in Hr. apply elem_of_list_fmap in Hr as (x & -> & Hx). rewrite Forall_forall in HF.
  by apply (HF x).
Qed.

(** ** C81 *)
(** A text that asks for [rs] is accepted, and the selector holds of the labels that meet them all. *)
Theorem C81_asks (s : gostr) (rs : list req) :
  asks_plainly s rs -> eq_keys_distinct rs ->
  exists ls, parse_to_label_selector s = Some ls /\
    forall m, sel_holds m ls <-> forall r, r ∈ rs -> req_holds m r.
Proof.
  intros Ha Hd. pose proof (asks_parse _ _ Ha) as E. destruct Ha as (l & _ & Hs & _).
  pose proof (gosort_perm by_key (map norm rs)) as HP.
  destruct (C16_parse_keeps_meaning s _ E) as (ls & Hls & Hm).
  - eapply norm_no_cmp; [exact HP|]. by eapply says_no_cmp.
  - by apply (distinct_norm _ rs).
  - exists ls. split; [done|]. intros m. rewrite (Hm m). by apply perm_norm_holds.
Qed.
(** A text that is accepted asks for something, and that is what its selector means. *)
Theorem C81_accepted (s : gostr) (ls : lsel) :
  Forall (fun c => ~ nul c) s -> parse_to_label_selector s = Some ls ->
  exists rs, asks s rs /\
    (eq_keys_distinct rs -> forall m, sel_holds m ls <-> forall r, r ∈ rs -> req_holds m r).
Proof.
  intros Hn E. destruct (parse_to_requirements s) as [rs|] eqn:Er.
  2:{ exfalso. assert (parse_to_label_selector s = None) as E2; [|congruence]. apply C16_parse_fails_iff. by left. }
  assert (Forall no_cmp rs) as Hc.
  { apply Forall_forall. intros r Hr. split; intros Ho; (assert (parse_to_label_selector s = None) as E2; [|congruence]);
      apply C16_parse_fails_iff; right; exists rs; (split; [done|]); exists r; auto. }
  destruct (parse_asks s rs Hn Er Hc) as (rs0 & Ha & HP). exists rs0. split; [done|]. intros Hd m.
  destruct (C16_parse_keeps_meaning s rs Er) as (ls' & Hls' & Hm).
  - by apply Forall_forall.
  - by apply (distinct_norm _ rs0).
  - assert (ls' = ls) as -> by congruence. rewrite (Hm m). by apply perm_norm_holds.
Qed.
Corollary C81_refused (s : gostr) :
  Forall (fun c => ~ nul c) s -> (forall rs, ~ asks s rs) -> parse_to_label_selector s = None.
Proof.
  intros Hn H. destruct (parse_to_label_selector s) as [ls|] eqn:E; [|done].
  destruct (C81_accepted s ls Hn E) as (rs & Ha & _). by destruct (H rs).
Qed.
(** A text asks for one thing only. *)
Theorem C81_one_reading (s : gostr) (rs1 rs2 : list req) : asks_plainly s rs1 -> asks_plainly s rs2 ->
  forall m, (forall r, r ∈ rs1 -> req_holds m r) <-> (forall r, r ∈ rs2 -> req_holds m r).
Proof.
  intros H1%asks_parse H2%asks_parse m. rewrite H1 in H2. injection H2 as E.
  rewrite <- (perm_norm_holds m _ rs1 (gosort_perm by_key _)). rewrite E. apply perm_norm_holds, gosort_perm.
Qed.
(** The advanced search of a list. *)
Theorem C81_search (uprint : N -> bool) m vals (part sel : gostr) (rs : list req) :
  trim_space part = str "__ckube_as__:" ++ sel -> sel <> [] -> asks_plainly sel rs -> eq_keys_distinct rs ->
  exists b, match_one_from uprint m vals part = Some b /\ (b = true <-> forall r, r ∈ rs -> req_holds m r).
Proof.
  intros Ht Hne Ha Hd. pose proof (gosort_perm by_key (map norm rs)) as HP.
  destruct (C06_advanced_search uprint m vals part sel _ Ht Hne (asks_parse _ _ Ha)) as (b & Hb & Hm).
  - eapply norm_no_cmp; [exact HP|]. destruct Ha as (l & _ & Hs & _). by eapply says_no_cmp.
  - by apply (distinct_norm _ rs).
  - exists b. split; [done|]. rewrite Hm. by apply perm_norm_holds.
Qed.

(** ** The label selector of a list request *)
Lemma take_query_none es : forall cur, (forall e, e ∈ es -> lkey e <> paginate_key) -> take_query cur es = Some (cur, es).
Proof.
  induction es as [|e es IH]; intros cur H; [done|]. cbn [take_query].
  rewrite (proj2 (str_eqb_neq (lkey e) paginate_key)) by (apply H; set_solver). rewrite IH by set_solver. done.
Qed.
Lemma asks_list (s : gostr) (rs : list req) : s <> [] -> asks_plainly s rs -> eq_keys_distinct rs ->
  (forall r, r ∈ rs -> rkey r <> str "ckube.daocloud.io/query") ->
  exists ls, parse_list_selector s = Some (zero_page, Some ls) /\
    forall m, sel_holds m ls <-> forall r, r ∈ rs -> req_holds m r.
Proof.
  intros Hne Ha Hd Hq. destruct (C81_asks s rs Ha Hd) as (ls & Hls & Hm). exists ls. split; [|done].
  pose proof (asks_parse _ _ Ha) as E. set (rs' := gosort by_key (map norm rs)) in *.
  pose proof (gosort_perm by_key (map norm rs)) as HP. fold rs' in HP.
  assert (Forall no_cmp rs') as Hc.
  { apply Forall_forall. eapply norm_no_cmp; [exact HP|]. destruct Ha as (l & _ & Hs & _). by eapply says_no_cmp. }
  assert (forall r, r ∈ rs' -> rkey r <> paginate_key) as Hq'.
  { intros r Hr. rewrite HP in Hr. apply elem_of_list_fmap in Hr as (x & -> & Hx). by apply (Hq x). }
  unfold parse_list_selector. destruct s as [|c s]; [done|]. rewrite Hls.
  unfold parse_to_label_selector in Hls. rewrite E in Hls.
  pose proof (parsed_reqs _ _ E) as HF. rewrite sel_of_reqs_eq in Hls by done. injection Hls as <-.
  unfold extract_query. cbn [mlabels mexprs empty_sel app].
  assert (foldl (fun m kv => <[kv.1 := kv.2]> m) ∅ (eqs_of rs') !! paginate_key = None) as ->.
  { destruct (foldl _ _ _ !! paginate_key) as [v|] eqn:Ef; [|done]. exfalso. 
    apply foldl_insert_some in Ef as [Ef|Ef]; [|by rewrite lookup_empty in Ef].
    apply elem_of_eqs in Ef as (r & Hr & _ & Hk & _); [|done]. by apply (Hq' r). }
  rewrite take_query_none; [done|]. intros e He. apply elem_of_exprs in He as (r & Hr & _ & ->). cbn [lkey]. by apply Hq'.
Qed.
(** A list with any such selector text shows exactly the objects of the default cluster whose labels
    meet the requirements. *)
Theorem C81_list E cf conf h st clients r (s : gostr) (rs : list req) a :
  Forall kube_call h -> run_calls E (new_store conf) h = Ok st ->
  rq_method r = str "GET" -> is_Some (conf !! req_gvr r) -> rq_vars r !! str "resource" = None ->
  (forall k, is_Some (params r !! k) -> harmless k) ->
  selector_text (params r) s -> s <> [] -> asks_plainly s rs -> eq_keys_distinct rs ->
  (forall q, q ∈ rs -> rkey q <> str "ckube.daocloud.io/query") ->
  cf_default cf <> [] -> legal_value (cf_default cf) -> proxy E cf clients st r a ->
  let meets e := exists k, en_obj e = OKube k /\ forall q, q ∈ rs -> req_holds (k_labels k) q in
  exists ks es, NoDup ks /\
    Forall2 (fun k e => in_scope st (req_gvr r) (var r (str "namespace")) k e /\ k.1.1 = cf_default cf /\ meets e) ks es /\
    (forall ns n e, in_scope st (req_gvr r) (var r (str "namespace")) (cf_default cf, ns, n) e -> meets e ->
       (cf_default cf, ns, n) ∈ ks) /\
    ((Z.of_nat (length es) < 2 ^ 63)%Z -> shows cf r a (map en_obj es) 0).
Proof.
  intros Hk Hr Hget Hconf Hvar Hpar Hsel Hne Ha Hd Hq Hcd Hleg Hp meets.
  destruct (asks_list s rs Hne Ha Hd Hq) as (ls & Hls & Hm).
  assert (forall e, labels_hold (Some ls) (en_obj e) <-> meets e) as Hme.
  { intros e. unfold labels_hold, meets. destruct (en_obj e) as [k|x].
    - rewrite (Hm (k_labels k)). naive_solver.
    - naive_solver. }
  destruct (C35_plain_list E cf conf h st clients r zero_page (Some ls) a Hk Hr) as (ks & es & H1 & H2 & H3 & H4); try done.
  { split; [|split; [done|by exists s]]. split; [done|]. split; [done|]. split.
    - intros k Hkk. left. by apply Hpar.
    - intros s' Hs'. rewrite (selector_text_fun _ _ _ Hs' Hsel). eauto. }
  exists ks, es. split; [done|]. split; [|split; [|done]].
  - eapply Forall2_impl; [exact H2|]. intros k e (? & ? & ?). rewrite <- Hme. done.
  - intros ns n e Hs He. apply (H3 ns n e Hs). by apply Hme.
Qed.
(** Without a reading the cache does not answer: the request goes to a cluster. *)
Theorem C81_list_refused conf r (s : gostr) : selector_text (params r) s -> s <> [] ->
  Forall (fun c => ~ nul c) s -> (forall rs, ~ asks s rs) -> ~ cacheable conf r.
Proof.
  intros Hs Hne Hn Hno (_ & _ & _ & Hc). destruct (Hc s Hs) as [pl Hpl].
  unfold parse_list_selector in Hpl. rewrite (C81_refused s Hn Hno) in Hpl. by destruct s.
Qed.
Print Assumptions C81_asks.
Print Assumptions C81_accepted.
Print Assumptions C81_refused.
Print Assumptions C81_one_reading.
Print Assumptions C81_search.
Print Assumptions C81_list.
Print Assumptions C81_list_refused.

(** ** Examples and the two exceptions *)
Lemma laid_fun s l l' : laid s l -> laid s l' -> l = l'.
Proof.
  intros E%laid_lex E2%laid_lex. rewrite E in E2. apply app_inv_tail in E2.
  apply (f_equal (map snd)) in E2. rewrite !map_map in E2. cbn [tokof snd] in E2. by rewrite !map_id in E2.
Qed.
Lemma laid_of s l : forallb (fun c => negb (is_nul c)) s = true -> lex_all s = map tokof l ++ ends -> laid s l.
Proof.
  intros Hn E. destruct (laid_total s) as [l' Hl].
  { apply forallb_In in Hn. eapply Forall_impl; [exact Hn|]. intros c Hc Hz%is_nul_nul. cbn beta in Hc. by rewrite Hz in Hc. }
  pose proof (laid_lex _ _ Hl) as E2. rewrite E in E2. unfold ends in E2. apply app_inv_tail in E2.
  apply (f_equal (map snd)) in E2. rewrite !map_map in E2. cbn [tokof snd] in E2. rewrite !map_id in E2. by subst.
Qed.
Definition tab : ascii := "009"%char.
Definition ex_layout : gostr := (str " a") ++ [tab] ++ str "==1 ,b notin( x,,y ) ," ++ ["010"%char] ++ str "!c.d/e,f!=,in in (in)".
Definition ex_reqs : list req :=
  [Req (str "a") ODEq [str "1"]; Req (str "b") ONotIn [str "x"; []; str "y"]; Req (str "c.d/e") ONotExists [];
   Req (str "f") ONe [[]]; Req (str "in") OIn [str "in"]].
Lemma lk k : valid_key k = true -> legal_key k. Proof. apply valid_key_iff. Qed.
Lemma lv v : valid_value v = true -> legal_value v. Proof. apply valid_value_legal. Qed.
Lemma lvs vs : forallb valid_value vs = true -> Forall legal_value vs.
Proof. intros H%forallb_In. by apply Forall_legal. Qed.
Example C81_ex : asks_plainly ex_layout ex_reqs /\ eq_keys_distinct ex_reqs.
Proof.
  split.
  - exists (map str ["a"; "=="; "1"; ","; "b"; "notin"; "("; "x"; ","; ","; "y"; ")"; ","; "!"; "c.d/e"; ","; "f"; "!="; ","; "in"; "in"; "("; "in"; ")"]%string).
    split; [apply laid_of; vm_compute; reflexivity|]. split.
    + right. apply (says_more (map str ["a"; "=="; "1"]%string)).
      { apply says_compare; [apply lk; vm_compute; reflexivity|set_solver|done|apply lv; vm_compute; reflexivity]. }
      apply (says_more (map str ["b"; "notin"; "("; "x"; ","; ","; "y"; ")"]%string)).
      { apply (says_member (str "b") (str "notin") ONotIn (map str ["x"; ","; ","; "y"]%string)).
        - apply lk; vm_compute; reflexivity.
        - set_solver.
        - apply piece_more; [unfold symbols; set_solver|done|]. apply piece_skip. apply piece_word; [unfold symbols; set_solver|done].
        - apply lvs; vm_compute; reflexivity. }
      apply (says_more (map str ["!"; "c.d/e"]%string)).
      { apply says_absent. apply lk; vm_compute; reflexivity. }
      apply (says_more (map str ["f"; "!="]%string)).
      { apply says_compare_empty; [apply lk; vm_compute; reflexivity|set_solver]. }
      apply says_one. apply (says_member (str "in") (str "in") OIn [str "in"]).
      * apply lk; vm_compute; reflexivity.
      * set_solver.
      * apply piece_word; [unfold symbols; set_solver|done].
      * apply lvs; vm_compute; reflexivity.
    + intros (a & b & E). do 26 (destruct a as [|? a]; [discriminate E|]; simpl in E; first [discriminate E | injection E as _ E]).
  - apply distinct_NoDup. vm_compute. repeat constructor. set_solver.
Qed.
(** A text with no reading: a key may not be left out. *)
Example C81_ex_refused : Forall (fun c => ~ nul c) (str "a,,b") /\ (forall rs, ~ asks (str "a,,b") rs) /\
  parse_to_label_selector (str "a,,b") = None.
Proof.
  assert (Forall (fun c => ~ nul c) (str "a,,b")) as Hn.
  { repeat constructor; unfold nul; vm_compute; done. }
  split; [done|]. split; [|vm_compute; reflexivity]. intros rs (l & Hl & Hs).
  assert (l = map str ["a"; ","; ","; "b"]%string) as ->.
  { apply (laid_fun _ _ _ Hl). apply laid_of; vm_compute; reflexivity. }
  assert (~ gap (map str ["a"; ","; ","; "b"]%string)) as Hg.
  { intros (a & b & E2). do 6 (destruct a as [|? a]; [discriminate E2|]; simpl in E2; first [discriminate E2 | injection E2 as _ E2]). }
  assert (asks_plainly (str "a,,b") rs) as Ha by (by eexists).
  apply asks_parse in Ha. assert (parse_to_requirements (str "a,,b") = None) as E by (vm_compute; reflexivity).
  rewrite E in Ha. discriminate Ha.
Qed.
(** Finding: a list of values that ends in two empty values has a reading and is refused. *)
Theorem C81_two_empty_values_refuted : exists s rs, asks s rs /\ eq_keys_distinct rs /\ parse_to_label_selector s = None.
Proof.
  exists (str "k in (a,,)"), [Req (str "k") OIn [str "a"; []; []]]. split; [|split; [|vm_compute; reflexivity]].
  - exists (map str ["k"; "in"; "("; "a"; ","; ","; ")"]%string). split; [apply laid_of; vm_compute; reflexivity|].
    right. apply says_one. apply (says_member (str "k") (str "in") OIn (map str ["a"; ","; ","]%string)).
    + apply lk; vm_compute; reflexivity.
    + set_solver.
    + apply piece_more; [unfold symbols; set_solver|done|]. apply piece_skip. apply piece_none.
    + apply lvs; vm_compute; reflexivity.
  - apply distinct_NoDup. vm_compute. repeat constructor.
Qed.
(** Finding: a NUL byte ends the text; what follows is not read. *)
Theorem C81_nul_refuted : exists s ls, (forall rs, ~ asks s rs) /\ parse_to_label_selector s = Some ls.
Proof.
  exists (str "a " ++ ["000"%char] ++ str "((("), (LSel ∅ [LReq (str "a") LExists []]). split; [|vm_compute; reflexivity].
  intros rs (l & Hl & _).
  assert (forall s l, laid s l -> Forall (fun c => is_nul c = false) s) as H.
  { clear. induction 1 as [|c t l Hc Hl IH|x t l Hx Hh Hl IH|x t l Hx HF Hh Hl IH].
    - constructor.
    - constructor; [|done]. apply N.eqb_neq. unfold blank in Hc. lia.
    - apply Forall_app. split; [|done]. unfold symbols in Hx.
      repeat (apply elem_of_cons in Hx as [->|Hx]; [by repeat constructor|]). by apply elem_of_nil in Hx.
    - apply Forall_app. split; [|done]. eapply Forall_impl; [exact HF|]. intros c Hc.
      destruct (is_nul c) eqn:E; [|done]. apply is_nul_nul in E. by destruct Hc as (_ & Hc & _). }
  specialize (H _ _ Hl). inversion H as [|? ? _ H1]; subst. inversion H1 as [|? ? _ H2]; subst. inversion H2 as [|? ? H3 _]; subst. done.
Qed.
Print Assumptions C81_two_empty_values_refuted.
Print Assumptions C81_nul_refuted.
(** A search part and a list request that meet the hypotheses. *)
Example C81_ex_search : trim_space (str " __ckube_as__:" ++ ex_layout) = str "__ckube_as__:" ++ ex_layout /\
  match_one (fun _ => true) {[str "a" := str "1"; str "in" := str "in"; str "b" := str "z"]} (str " __ckube_as__:" ++ ex_layout) = Some true /\
  match_one (fun _ => true) {[str "a" := str "1"; str "in" := str "in"; str "b" := str "x"]} (str " __ckube_as__:" ++ ex_layout) = Some false.
Proof. split; [|split]; vm_compute; reflexivity. Qed.
Definition ex_list_text : gostr := [tab] ++ str "x  notin(2, 1) ".
Example C81_ex_list :
  let r := ex_lreq ex_list_text zero_page in
  selector_text (params r) ex_list_text /\ (forall k, is_Some (params r !! k) -> harmless k) /\
  asks_plainly ex_list_text [Req (str "x") ONotIn [str "2"; str "1"]] /\
  proxy ex_env ex_cf ∅ ex_store r (ex_answer ex_cf ex_list_text zero_page) /\
  answer_ids (ex_answer ex_cf ex_list_text zero_page) = Some (0%Z, [str "default/a"; str "default/b"]) /\
  answer_ids (ex_answer ex_cf ([tab] ++ str " x , ! y") zero_page) = Some (0%Z, []).
Proof.
  assert (query_list_options ex_list_text zero_page = Some ex_list_text) as Eq by (vm_compute; reflexivity).
  assert (params (ex_lreq ex_list_text zero_page) = {[ str "labelSelector" := [ex_list_text] ]}) as Hp.
  { unfold params, ex_lreq. rewrite Eq. cbn [rq_raw default]. apply parse_encode. intros k. destruct (decide (k = str "labelSelector")) as [->|?];
      [by rewrite lookup_singleton|by rewrite lookup_singleton_ne]. }
  cbv zeta. split; [left; exists []; by rewrite Hp, lookup_singleton|]. split; [|split; [|split]].
  - rewrite Hp. intros k [v Hk]. apply lookup_singleton_Some in Hk as [<- _]. by left.
  - exists (map str ["x"; "notin"; "("; "2"; ","; "1"; ")"]%string). split; [apply laid_of; vm_compute; reflexivity|]. split.
    + right. apply says_one. apply (says_member (str "x") (str "notin") ONotIn (map str ["2"; ","; "1"]%string)).
      * apply lk; vm_compute; reflexivity.
      * set_solver.
      * apply piece_more; [unfold symbols; set_solver|done|]. apply piece_word; [unfold symbols; set_solver|done].
      * apply lvs; vm_compute; reflexivity.
    + intros (a & b & E). do 8 (destruct a as [|? a]; [discriminate E|]; simpl in E; first [discriminate E | injection E as _ E]).
  - eapply ex_answer_ok with (p' := zero_page). rewrite Eq. cbn [default]. vm_compute. reflexivity.
  - split; vm_compute; reflexivity.
Qed.
