(** C67: ckubecli. *)
From Coq Require Import Ascii String NArith ZArith Lia.
From stdpp Require Import base gmap strings list sorting.
From Verif Require Import ModelStr ModelSort ProofsSort ProofsStr ProofsQuote ModelLabels SpecLabels ProofsLabels ModelPage SpecPage ProofsPage PropsSelector ModelJson ProofsJson ModelQuery ProofsQuery PropsQuery
  PropsPlugin ModelCli SpecCli ProofsCli.

(** ** Lemmas *)
(** The options that the flags [k] give. *)
Definition options_are (k : list (gostr * gostr)) (page size : Z) (so se cl : gostr) : Prop :=
  number_is k (str "p") page /\ number_is k (str "s") size /\ text_is k (str "sort") so /\ text_is k (str "search") se /\ text_is k (str "c") cl.
Lemma opts_from_is k o : opts_from (CliOpts 0 0 [] [] []) k o <-> options_are k (o_page o) (o_size o) (o_sort o) (o_search o) (o_clusters o).
Proof. done. Qed.
Lemma flags_ok args k page size so se cl : given args k false -> options_are k page size so se cl ->
  parse_flags args (CliOpts 0 0 [] [] []) = FOk (CliOpts page size so se cl).
Proof.
  intros Hg Ho. destruct (parse_complete _ _ _ Hg (CliOpts 0 0 [] [] [])) as (o' & -> & Hu). f_equal. symmetry. by apply Hu.
Qed.
Definition plain (c : ascii) : Prop := c <> "%"%char.
Lemma no_percent p s : query_list_options [] p = Some s -> existsb (ch_eqb "%") s = false.
Proof.
  intros H. assert (p = zero_page \/ p <> zero_page) as [->|Hp]; [|injection H as <-; reflexivity|].
  { destruct (str_eqb_spec (marshal_page p) (str "{}")) as [E|E]; [left; by apply marshal_empty|right; intros ->; by apply E]. }
  destruct (query_some _ _ _ H Hp) as (ls & Hls & Hf). injection Hls as <-.
  unfold add_query in Hf. cbn [mlabels mexprs empty_sel List.filter] in Hf. revert Hf. generalize (splitting_value (b64_encode (marshal_page p))). intros vs.
  unfold format_selector, as_selector, as_selector_from. cbn [mlabels mexprs empty_sel map lkey lop lvals op_of_lsop]. rewrite map_to_list_empty. cbn [map app].
  destruct (new_requirement paginate_key ONotIn vs) as [r|] eqn:Hr; [|done]. unfold new_requirement in Hr. change (valid_key paginate_key) with true in Hr. cbn [negb] in Hr.
  assert (r = Req paginate_key ONotIn vs /\ forallb valid_value vs = true) as [-> Hv].
  { destruct vs as [|v vs]; [done|]. cbn [length Nat.eqb negb andb] in Hr. destruct (forallb valid_value (v :: vs)) eqn:E; [|done]. by injection Hr as <-. }
  cbn [add_all]. unfold add_req. cbn [app]. assert (gosort by_key [Req paginate_key ONotIn vs] = [Req paginate_key ONotIn vs]) as -> by reflexivity.
  unfold fmt_reqs. cbn [map join fmt_req rop rkey rvals].
  change (match paginate_key ++ str " notin (" ++ fmt_vals vs ++ str ")" with [] => str "<none>" | s => s end) with (paginate_key ++ str " notin (" ++ fmt_vals vs ++ str ")").
  intros [= <-]. apply not_true_iff_false. intros (c & Hin & Hc)%existsb_exists. apply ch_eqb_eq in Hc as <-. apply elem_of_list_In in Hin.
  assert (Forall plain (paginate_key ++ str " notin (" ++ fmt_vals vs ++ str ")")) as HF; [|by apply (proj1 (Forall_forall _ _) HF) in Hin].
  rewrite !Forall_app. split; [unfold paginate_key, str; cbn; repeat (apply Forall_cons; split; [discriminate|]); apply Forall_nil_2|].
  split; [unfold str; cbn; repeat (apply Forall_cons; split; [discriminate|]); apply Forall_nil_2|].
  split; [|unfold str; cbn; repeat (apply Forall_cons; split; [discriminate|]); apply Forall_nil_2].
  rewrite fmt_vals_sorted. apply join_Forall; [unfold str; cbn; repeat (apply Forall_cons; split; [discriminate|]); apply Forall_nil_2|].
  apply Forall_forall. intros v Hv'%gosort_elem. rewrite forallb_In in Hv. apply (proj1 (Forall_forall _ _) Hv), valid_value_chars in Hv'.
  eapply Forall_impl; [exact Hv'|]. intros c Hc ->. discriminate Hc.
Qed.
Lemma printf_ok p : match query_list_options [] p with None => CExit 1 | Some s => printf s end = match query_list_options [] p with None => CExit 1 | Some s => CPrints s end.
Proof. destruct (query_list_options [] p) as [s|] eqn:E; [|done]. unfold printf. by rewrite (no_percent _ _ E). Qed.
Lemma sel_holds_all ls m : same_sel ls (callers empty_sel) -> (forall m, sel_holds m ls <-> sel_holds m (callers empty_sel)) -> sel_holds m ls.
Proof.
  intros _ H. apply H. split; [intros k w Hw; cbn [mlabels callers empty_sel] in Hw; by rewrite (lookup_empty (M:=gmap gostr)) in Hw|]. intros e He. by apply elem_of_nil in He.
Qed.
Lemma number_range k n z : number_is k n z -> in_int64 z = true.
Proof.
  unfold number_is, in_int64. destruct (last_value k n) as [v|]; [|by intros ->]. intros [_ Hr]. change (2 ^ 63)%Z with 9223372036854775808%Z in Hr.
  apply andb_true_iff. split; [apply Z.leb_le|apply Z.leb_le || apply Z.ltb_lt]; lia.
Qed.

(** ** C67 *)
(** The numbers are the integer literals of Go, decimal or not, that fit in an int64. *)
Theorem C67_numbers (s : gostr) (z : Z) : parse_int s = Some z <-> int64_text s z.
Proof. apply parse_int_iff. Qed.
(** Help and wrong command lines. *)
Theorem C67_help (args : list gostr) : cli args = CExit 0 <-> exists k, given args k true.
Proof.
  unfold cli. split.
  - intros H. pose proof (parse_sound args (CliOpts 0 0 [] [] [])) as Hs. destruct (parse_flags args _) as [o| |]; [|exact Hs|discriminate H].
    exfalso. cbv zeta in H. rewrite printf_ok in H. by destruct (query_list_options _ _).
  - intros (k & Hk). by rewrite (parse_complete _ _ _ Hk (CliOpts 0 0 [] [] [])).
Qed.
Theorem C67_usage (args : list gostr) : cli args = CExit 2 <-> ~ exists k h, given args k h.
Proof.
  unfold cli. split.
  - intros H (k & h & Hg). pose proof (parse_complete _ _ _ Hg (CliOpts 0 0 [] [] [])) as Hc. destruct h; [by rewrite Hc in H|]. destruct Hc as (o' & Hc & _). rewrite Hc in H.
    cbv zeta in H. rewrite printf_ok in H. by destruct (query_list_options _ _).
  - intros H. pose proof (parse_sound args (CliOpts 0 0 [] [] [])) as Hs. destruct (parse_flags args _) as [o| |]; [| |done].
    + destruct Hs as (k & Hk & _). destruct H. eauto.
    + destruct Hs as (k & Hk). destruct H. eauto.
Qed.
(** Every accepted command line has options, and the numbers in it are right. *)
Theorem C67_accepted (args : list gostr) k : given args k false -> exists page size so se cl, options_are k page size so se cl /\
  (cli args = CExit 1 \/ exists s, cli args = CPrints s).
Proof.
  intros Hg. pose proof (parse_sound args (CliOpts 0 0 [] [] [])) as Hs. destruct (parse_complete _ _ _ Hg (CliOpts 0 0 [] [] [])) as (o' & Hp & Hu).
  assert (exists o, opts_from (CliOpts 0 0 [] [] []) k o) as [o Ho].
  { clear Hs Hp Hu o'. generalize (CliOpts 0 0 [] [] []) as o0. remember false as h eqn:Hh. induction Hg as [| | | |d n v l k h Hd Hn Hv Hg IH|d n v l k h Hd Hn Hv Hg IH| |]; intros o0; try (exists o0; apply opts_refl).
    all: destruct (set_known n v o0 Hn Hv) as (o1 & _ & H1); destruct (IH Hh o1) as [o Ho]; exists o; by apply H1. }
  exists (o_page o), (o_size o), (o_sort o), (o_search o), (o_clusters o). split; [by apply opts_from_is|]. unfold cli. rewrite Hp. cbv zeta. rewrite printf_ok.
  destruct (query_list_options _ _) as [s|]; [right; by exists s|by left].
Qed.
(** Without clusters: the server reads exactly the page, size, sort and search of the flags and no label
    restriction from what is printed. *)
Theorem C67_server_reads (args : list gostr) k page size so se s : given args k false -> options_are k page size so se [] ->
  (page, size, so, se) <> (0%Z, 0%Z, [], []) -> valid_utf8 so = true -> valid_utf8 se = true ->
  (N.of_nat (length (marshal_page (Paginate page size 0 so se))) <= 7518)%N -> cli args = CPrints s ->
  exists ls, parse_list_selector s = Some (Paginate page size 0 so se, Some ls) /\ forall m, sel_holds m ls.
Proof.
  intros Hg Ho Hne Hu1 Hu2 Hlen Hc. unfold cli in Hc. rewrite (flags_ok _ _ _ _ _ _ _ Hg Ho) in Hc. cbn [o_page o_size o_sort o_search o_clusters] in Hc. rewrite printf_ok in Hc.
  destruct (query_list_options [] _) as [s'|] eqn:Hq; [|done]. injection Hc as ->. destruct Ho as (Hz1 & Hz2 & _).
  destruct (C13_list_options_reach_the_server [] s (Paginate page size 0 so se) empty_sel) as (ls & Hs' & Hsame & Hls).
  { reflexivity. } { apply lookup_empty. } { done. } { intros [= -> -> -> ->]. by apply Hne. } { split; [by eapply number_range|]. split; [by eapply number_range|reflexivity]. } { done. } { done. } { done. }
  exists ls. split; [done|]. intros m. by apply sel_holds_all.
Qed.
(** Nothing is printed if nothing is asked for. *)
Theorem C67_nothing (args : list gostr) k : given args k false -> options_are k 0 0 [] [] [] -> cli args = CPrints [].
Proof. intros Hg Ho. unfold cli. rewrite (flags_ok _ _ _ _ _ _ _ Hg Ho). reflexivity. Qed.
(** The command fails exactly if the text of the query has a character that is no label value. *)
Theorem C67_fails (args : list gostr) k page size so se : given args k false -> options_are k page size so se [] ->
  (page, size, so, se) <> (0%Z, 0%Z, [], []) -> (N.of_nat (length (b64_encode (marshal_page (Paginate page size 0 so se)))) <= 1000048)%N ->
  (cli args = CExit 1 <-> "+"%char ∈ b64_encode (marshal_page (Paginate page size 0 so se)) \/ "/"%char ∈ b64_encode (marshal_page (Paginate page size 0 so se))).
Proof.
  intros Hg Ho Hne Hlen. assert (Paginate page size 0 so se <> Paginate 0 0 0 [] []) as Hp by (intros [= -> -> -> ->]; by apply Hne).
  pose proof (C15_fails_iff [] _ Hp Hlen) as Hf. unfold cli. rewrite (flags_ok _ _ _ _ _ _ _ Hg Ho). cbn [o_page o_size o_sort o_search o_clusters]. rewrite printf_ok.
  destruct (query_list_options [] _) as [s|].
  - split; [discriminate|]. intros H. discriminate (proj2 Hf (or_intror H)).
  - split; [intros _|done]. by destruct (proj1 Hf eq_refl) as [?|?].
Qed.
Theorem C67_ascii_works (args : list gostr) k page size so se : given args k false -> options_are k page size so se [] ->
  Forall (fun c => (code c < 126)%N /\ c <> "?"%char) (so ++ se) -> (N.of_nat (length (b64_encode (marshal_page (Paginate page size 0 so se)))) <= 1000048)%N ->
  exists s, cli args = CPrints s.
Proof.
  intros Hg Ho HF Hlen. destruct (C15_ascii_searches_work [] (Paginate page size 0 so se) empty_sel HF Hlen eq_refl) as [s Hs]. exists s.
  unfold cli. rewrite (flags_ok _ _ _ _ _ _ _ Hg Ho). cbn [o_page o_size o_sort o_search o_clusters]. by rewrite printf_ok, Hs.
Qed.
(** With clusters that Paginate.Clusters accepts: the server reads the same page, size and sort, exactly the
    named clusters, and the search restricted to them. *)
Theorem C67_clusters (uprint : N -> bool) (args : list gostr) k page size so se cl (ls0 : lsel) p' s : given args k false -> options_are k page size so se cl -> cl <> [] ->
  old_selector (search_parts se) ls0 -> (forall q r, q ∈ search_parts se -> q <> ";"%char :: r) ->
  set_clusters (Paginate page size 0 so se) (split_on "," cl) = (false, p') -> valid_utf8 so = true -> valid_utf8 (pg_search p') = true ->
  (N.of_nat (length (marshal_page p')) <= 7518)%N -> cli args = CPrints s ->
  exists ls, parse_list_selector s = Some (p', Some ls) /\ (forall m, sel_holds m ls) /\
    restricted uprint (Paginate page size 0 so se) p' ls0 (str "cluster") (split_on "," cl) /\ same_set (get_clusters (pg_search p')) (split_on "," cl).
Proof.
  intros Hg Ho Hcl Hold Hsemi Hset Hu1 Hu2 Hlen Hc. unfold cli in Hc. rewrite (flags_ok _ _ _ _ _ _ _ Hg Ho) in Hc. cbn [o_page o_size o_sort o_search o_clusters] in Hc.
  destruct cl as [|c cl]; [done|]. rewrite Hset in Hc. cbn [snd] in Hc. rewrite printf_ok in Hc. destruct (query_list_options [] p') as [s'|] eqn:Hq; [|done]. injection Hc as ->.
  destruct (C07_clusters uprint (Paginate page size 0 so se) p' ls0 (split_on "," (c :: cl)) Hold Hsemi Hset) as (Hres & _ & _ & Hsame). pose proof Hres as (H1 & H2 & H3 & H4 & _).
  cbn [pg_page pg_size pg_total pg_sort] in H1, H2, H3, H4. destruct Ho as (Hz1 & Hz2 & _).
  destruct (C13_list_options_reach_the_server [] s p' empty_sel) as (ls & Hs' & Hsm & Hls).
  { reflexivity. } { apply lookup_empty. } { done. }
  { intros ->. cbn [pg_search] in Hsame. assert (c :: cl <> []) as Hx by done. destruct (split_on "," (c :: cl)) as [|x l] eqn:E; [by apply split_on_nonnil in E|].
    assert (x ∈ get_clusters []) as Hin by (apply Hsame; left). by apply elem_of_nil in Hin. }
  { unfold page_in_range. rewrite H1, H2, H3. split; [by eapply number_range|]. split; [by eapply number_range|reflexivity]. } { by rewrite H4. } { done. } { done. }
  exists ls. split; [done|]. split; [intros m; by apply sel_holds_all|]. done.
Qed.
(** Without a search every list of valid cluster names is accepted. *)
Theorem C67_clusters_accepted page size so cs : cs <> [] -> Forall (fun c => c <> [] /\ valid_value c = true) cs ->
  exists search, set_clusters (Paginate page size 0 so []) cs = (false, Paginate page size 0 so search).
Proof.
  intros Hne HF. exists (cluster_text cs). pose proof (set_clusters_page cs Hne HF) as H.
  assert (set_clusters (Paginate page size 0 so []) cs = ((set_clusters (Paginate 0 0 0 [] []) cs).1, Paginate page size 0 so (pg_search (set_clusters (Paginate 0 0 0 [] []) cs).2))) as ->.
  { unfold set_clusters, set_search_selector, set_search. cbn [pg_search pg_page pg_size pg_total pg_sort].
    destruct (search_selector []); [|done]. destruct (existsb _ cs); [done|]. by destruct (format_selector _). }
  by rewrite H.
Qed.

(** ** Findings and examples *)
Definition cli_words (l : list string) : list gostr := map str l.
(** A trailing comma: the error of Clusters is ignored and the restriction is lost without a message; here
    nothing at all is printed. *)
Theorem C67_clusters_lost_refuted : exists args k, given args k false /\ options_are k 0 0 [] [] (str "c1,") /\ cli args = CPrints [].
Proof.
  exists (cli_words ["-c"; "c1,"]%string), [(str "c", str "c1,")]. split; [|split].
  - apply (given_next (str "-") (str "c") (str "c1,")); [by left|by right; right; right; right|by intros [?|?]|constructor].
  - split; [reflexivity|]. split; [reflexivity|]. split; [reflexivity|]. split; reflexivity.
  - vm_compute. reflexivity.
Qed.
(** With other options the list is over the default cluster instead. *)
Theorem C67_clusters_lost_page_refuted : exists args s p ls, given args [(str "p", str "1"); (str "s", str "10"); (str "c", str "c1,,c2")] false /\
  cli args = CPrints s /\ parse_list_selector s = Some (p, ls) /\ p = Paginate 1 10 0 [] [] /\ get_clusters (pg_search p) = [].
Proof.
  exists (cli_words ["-p"; "1"; "-s=10"; "--c=c1,,c2"; "pods"]%string). do 2 eexists. eexists. split; [|split; [vm_compute; reflexivity|split; [vm_compute; reflexivity|split; reflexivity]]].
  apply (given_next (str "-") (str "p") (str "1")); [by left|by left| |].
  { intros _. exists 1%Z. split; [|done]. apply (s_plain (str "1") 1). apply u_decimal; [discriminate|]. apply num_digit. split; [done|by left]. }
  apply (given_eq (str "-") (str "s") (str "10")); [by left|by right; left| |].
  { intros _. exists 10%Z. split; [|done]. apply (s_plain (str "10") 10). apply u_decimal; [discriminate|]. apply (num_more 10 [_] 1 _ 0); [apply num_digit|]; (split; [done|by left]). }
  apply (given_eq (str "--") (str "c") (str "c1,,c2")); [by right|by right; right; right; right|by intros [?|?]|].
  apply given_operand. intros t. discriminate.
Qed.
Example C67_ex_number : int64_text (str "-0x_1f") (-31) /\ parse_int (str "1_000") = Some 1000%Z /\ parse_int (str "1__0") = None /\ parse_int (str "010") = Some 8%Z /\
  parse_int (str "08") = None /\ parse_int (str "-9223372036854775808") = Some (-9223372036854775808)%Z /\ parse_int (str "9223372036854775808") = None.
Proof. split; [apply C67_numbers; vm_compute; reflexivity|]. vm_compute. auto 10. Qed.
Example C67_ex : cli (cli_words ["-p"; "2"; "-s"; "5"; "--sort=name desc"; "-search"; "a;b"; "-p"; "0x3"; "--"; "-q"]%string) =
    CPrints (str "ckube.daocloud.io/query notin (0000.eyJwYWdlIjozLCJwYWdlX3NpemUiOjUsInNvcnQiOiJuYW1lIGRlc2Mi,0056.LCJzZWFyY2giOiJhO2IifQ)") /\
  option_map fst (parse_list_selector (str "ckube.daocloud.io/query notin (0000.eyJwYWdlIjozLCJwYWdlX3NpemUiOjUsInNvcnQiOiJuYW1lIGRlc2Mi,0056.LCJzZWFyY2giOiJhO2IifQ)")) =
    Some (Paginate 3 5 0 (str "name desc") (str "a;b")) /\
  cli (cli_words ["-p"; "x"]%string) = CExit 2 /\ cli (cli_words ["-s"; "1"; "-help"; "-q"]%string) = CExit 0 /\ cli (cli_words ["-search"; "abc?"]%string) = CExit 1 /\ cli (cli_words ["-q"]%string) = CExit 2.
Proof. vm_compute. auto 10. Qed.
Example C67_ex_clusters : exists s p', cli (cli_words ["-c"; "c2,c1"; "-search"; "x=1"]%string) = CPrints s /\ set_clusters (Paginate 0 0 0 [] (str "x=1")) (split_on "," (str "c2,c1")) = (false, p') /\
  option_map fst (parse_list_selector s) = Some p' /\ pg_search p' = str "__ckube_as__:cluster in (c1,c2);x=1" /\ old_selector (search_parts (str "x=1")) empty_sel.
Proof.
  do 2 eexists. split; [vm_compute; reflexivity|]. split; [vm_compute; reflexivity|]. split; [vm_compute; reflexivity|]. split; [vm_compute; reflexivity|].
  left. split; [|done]. intros q Hq. change (search_parts (str "x=1")) with [str "x=1"] in Hq. apply elem_of_list_singleton in Hq as ->. intros [t Ht]. discriminate Ht.
Qed.
Print Assumptions C67_numbers.
Print Assumptions C67_help.
Print Assumptions C67_usage.
Print Assumptions C67_accepted.
Print Assumptions C67_server_reads.
Print Assumptions C67_fails.
Print Assumptions C67_ascii_works.
Print Assumptions C67_clusters.
Print Assumptions C67_clusters_accepted.
Print Assumptions C67_clusters_lost_refuted.
Print Assumptions C67_clusters_lost_page_refuted.
