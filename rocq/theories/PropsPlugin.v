(** C49: the kubectl plugin. *)
From Coq Require Import Ascii String NArith ZArith Lia.
From stdpp Require Import base gmap strings list sorting.
From Verif Require Import ModelStr ModelSort ProofsSort ProofsStr ProofsQuote ModelLabels SpecLabels ProofsLabels ModelPage SpecPage ProofsPage PropsSelector ModelJson ProofsJson ModelQuery PropsQuery
  ModelProxy ModelPlugin SpecPlugin ProofsPlugin.

Lemma plugin_scan argv kept v : keeps 1 argv kept -> chosen argv v ->
  scan 1 argv (Scan [] [] SNone 0) = Scan v kept.*2 (fold_left typ_step kept SNone) (fold_left (pos_step (length argv)) kept 0).
Proof. intros Hk (vs & Hv & ->). by rewrite (scan_spec _ _ _ _ (length argv) _ Hk Hv). Qed.

(** With clusters and a selector that has a value (the argument after the flag): the plugin panics, or the
    argument it replaces stands after the value of the selector on the command line. *)
Theorem C49_selector (argv : list gostr) (kept : list (nat * gostr)) (v : gostr) (i : nat) :
  keeps 1 argv kept -> subcommand_is kept (str "get") -> chosen argv v -> v <> [] -> last_selector (length argv) kept i ->
  (length kept <= i + 1 /\ plugin argv = PPanics) \/
  (exists j a s, kept !! (i + 1) = Some (j, a) /\ i + 1 < j /\ plugin argv = PRuns (<[i + 1 := s]> kept.*2)).
Proof.
  intros Hk Ht Hv Hne Hs. unfold plugin. rewrite (plugin_scan _ _ _ Hk Hv), (typ_of _ _ _ Ht), (pos_of _ _ _ _ Hs). cbn [sc_typ sc_clusters sc_args sc_pos].
  change (str_eqb (str "get") (str "get")) with true. cbv iota zeta.
  destruct v as [|c v]; [done|]. replace (S i) with (i + 1) by lia.
  destruct (kept !! (i + 1)) as [[j a]|] eqn:Eq.
  - right. exists j, a. eexists. split; [done|]. split; [pose proof (keeps_later _ _ _ _ _ _ Hk Eq); lia|].
    replace (i + 1) with (S i) in * by lia. rewrite list_lookup_fmap, Eq. cbn. reflexivity.
  - left. split; [by apply lookup_ge_None|]. replace (i + 1) with (S i) in * by lia. by rewrite list_lookup_fmap, Eq.
Qed.
Print Assumptions C49_selector.
(** So the value of the selector reaches kubectl unchanged. *)
Theorem C49_value_unchanged (argv : list gostr) (kept : list (nat * gostr)) (v : gostr) (i q : nat) (value : gostr) (out : list gostr) :
  keeps 1 argv kept -> subcommand_is kept (str "get") -> chosen argv v -> v <> [] -> last_selector (length argv) kept i ->
  kept !! q = Some (i + 1, value) -> plugin argv = PRuns out -> out !! q = Some value /\ argv !! i = Some value.
Proof.
  intros Hk Ht Hv Hne Hs Hq Hp. destruct (C49_selector _ _ _ _ Hk Ht Hv Hne Hs) as [[_ H]|(j & a & s & Hj & Hlt & H)]; rewrite Hp in H; [done|].
  injection H as ->. split.
  - rewrite list_lookup_insert_ne; [by rewrite list_lookup_fmap, Hq|]. intros <-. rewrite Hj in Hq. injection Hq as -> _. lia.
  - destruct (keeps_source _ _ _ _ _ _ Hk Hq) as [_ Hsrc]. by replace (i + 1 - 1) with i in Hsrc by lia.
Qed.
Print Assumptions C49_value_unchanged.

(** ** The cluster restriction *)
Definition cluster_text (cs : list gostr) : gostr := str "__ckube_as__:cluster in (" ++ fmt_vals cs ++ str ")".
Definition cluster_page (cs : list gostr) : paginate := Paginate 0 0 0 [] (cluster_text cs).
Definition text_char (c : ascii) : bool := ((code c <? 126) && (negb (ch_eqb c "?") && (str_eqb (json_rune (code c) [c]) [c] && negb (ch_eqb c ";"))))%N.
Lemma ext_text c : is_ext c = true -> text_char c = true.
Proof. intros H. pose proof (all_bytes (fun c => implb (is_ext c) (text_char c)) ltac:(vm_compute; reflexivity) c) as Hb. cbn beta in Hb. by rewrite H in Hb. Qed.
Lemma cluster_text_chars cs : Forall (fun c => valid_value c = true) cs -> Forall (fun c => text_char c = true) (cluster_text cs).
Proof.
  intros HF. unfold cluster_text. rewrite fmt_vals_sorted. rewrite !Forall_app.
  split; [apply forallb_In; reflexivity|]. split; [|apply forallb_In; reflexivity].
  apply join_Forall; [apply forallb_In; reflexivity|]. apply Forall_forall. intros v Hv%gosort_elem. 
  apply (proj1 (Forall_forall _ _) HF), valid_value_chars in Hv. eapply Forall_impl; [exact Hv|]. intros c. apply ext_text.
Qed.
Lemma esc_text s : Forall (fun c => text_char c = true) s -> esc s = s.
Proof.
  induction 1 as [|c s Hc HF IH]; [done|]. cbn [esc]. rewrite IH. unfold text_char in Hc.
  apply andb_true_iff in Hc as [_ [_ [_ Hc]%andb_true_iff]%andb_true_iff]. by destruct (ch_eqb c ";").
Qed.
Lemma text_utf8 s : Forall (fun c => text_char c = true) s -> valid_utf8 s = true.
Proof.
  induction 1 as [|c s Hc HF IH]; [done|]. unfold valid_utf8. cbn [valid_utf8_go]. unfold text_char in Hc. 
  apply andb_true_iff in Hc as [Hc%N.ltb_lt _].
  rewrite decode_rune_ascii by lia. exact IH.
Qed.
Lemma text_json s : Forall (fun c => text_char c = true) s -> json_str_go 0 s = s.
Proof.
  induction 1 as [|c s Hc HF IH]; [done|]. cbn [json_str_go]. unfold text_char in Hc. 
  apply andb_true_iff in Hc as [Hc%N.ltb_lt [_ [Hj%str_eqb_eq _]%andb_true_iff]%andb_true_iff].
  rewrite decode_rune_ascii by lia. change (take 1 (c :: s)) with [c]. cbn [Nat.pred]. by rewrite IH, Hj.
Qed.
Lemma join_perm_len (sep : gostr) (l l' : list gostr) : l ≡ₚ l' -> length (join sep l) = length (join sep l').
Proof.
  assert (forall x l, length (join sep (x :: l)) = length x + match l with [] => 0 | _ => length sep + length (join sep l) end) as Hj.
  { intros x [|y t]; cbn [join]; [lia|]. rewrite !app_length. lia. }
  induction 1; [done|..]; rewrite ?Hj; [| |by etransitivity].
  - destruct l, l'; try lia. + by apply Permutation_nil_cons in H. + symmetry in H. by apply Permutation_nil_cons in H. 
  - destruct l; lia.
Qed.
Lemma cluster_page_len v : (forall c, c ∈ split_on ","%char v -> valid_value c = true) ->
  length (marshal_page (cluster_page (split_on ","%char v))) = length v + 39.
Proof.
  intros HF. assert (Forall (fun c => text_char c = true) (cluster_text (split_on ","%char v))) as Ht%text_json.
  { apply cluster_text_chars. by apply Forall_forall. }
  assert (marshal_page (cluster_page (split_on ","%char v)) = str "{" ++ (json_str (str "search") ++ str ":" ++ json_str (cluster_text (split_on ","%char v))) ++ str "}") as -> by reflexivity.
  unfold json_str at 2. rewrite Ht. unfold cluster_text. rewrite fmt_vals_sorted. rewrite !app_length. cbn [length]. rewrite !app_length.
  rewrite (join_perm_len _ _ _ (gosort_perm _ _)). change (str ",") with [","%char]. rewrite join_split. 
  change (length (json_str (str "search"))) with 8. change (length (str "__ckube_as__:cluster in (")) with 25. 
  change (length (str "{")) with 1. change (length (str "}")) with 1. change (length (str ":")) with 1. change (length (str ")")) with 1. cbn [length]. idtac. lia.
Qed.
Lemma set_clusters_page cs : cs <> [] -> Forall (fun c => c <> [] /\ valid_value c = true) cs ->
  set_clusters (Paginate 0 0 0 [] []) cs = (false, cluster_page cs).
Proof.
  intros Hne HF. unfold set_clusters. cbn [pg_search].
  assert (search_selector [] = Some empty_sel) as -> by reflexivity.
  assert (existsb (fun c => str_eqb c []) cs = false) as ->.
  { apply not_true_iff_false. intros (c & Hc & ->%str_eqb_eq)%existsb_exists. apply elem_of_list_In in Hc.
    by destruct (proj1 (Forall_forall _ _) HF _ Hc). }
  assert (Forall (fun c => valid_value c = true) cs) as HF' by (eapply Forall_impl; [exact HF|]; intros c [_ Hc]; exact Hc).
  unfold set_search_selector, format_selector, as_selector, as_selector_from, restrict. cbn [mlabels mexprs empty_sel List.filter map lkey lop lvals op_of_lsop].
  rewrite map_to_list_empty. cbn [map app].
  assert (new_requirement (str "cluster") OIn cs = Some (Req (str "cluster") OIn cs)) as ->.
  { unfold new_requirement. change (valid_key (str "cluster")) with true. destruct cs as [|c cs]; [done|]. cbn [length Nat.eqb negb andb].
    assert (forallb valid_value (c :: cs) = true) as ->; [|done]. by apply forallb_In. }
  cbn [add_all]. unfold add_req. cbn [app]. 
  assert (gosort by_key [Req (str "cluster") OIn cs] = [Req (str "cluster") OIn cs]) as -> by reflexivity.
  unfold fmt_reqs. cbn [map join fmt_req rop rkey rvals].
  change (match str "cluster" ++ str " in (" ++ fmt_vals cs ++ str ")" with [] => str "<none>" | s => s end) with (str "cluster" ++ str " in (" ++ fmt_vals cs ++ str ")").
  assert (List.filter (fun part => negb (has_prefix adv_prefix part)) (search_parts (pg_search (Paginate 0 0 0 [] []))) = []) as -> by reflexivity.
  rewrite join_parts_esc. cbn [map join].
  change (adv_prefix ++ str "cluster" ++ str " in (" ++ fmt_vals cs ++ str ")") with (cluster_text cs).
  rewrite esc_text by (by apply cluster_text_chars). reflexivity.
Qed.
(** Without a selector: "-l" is appended, and the server reads exactly the named clusters from it and no
    label restriction. *)
Theorem C49_clusters (argv : list gostr) (kept : list (nat * gostr)) (v : gostr) :
  keeps 1 argv kept -> subcommand_is kept (str "get") -> chosen argv v -> v <> [] -> no_selector (length argv) kept ->
  Forall (fun c => c <> [] /\ valid_value c = true) (split_on ","%char v) -> (N.of_nat (length v) <= 5000)%N ->
  exists s p ls, plugin argv = PRuns (kept.*2 ++ [str "-l"; s]) /\ parse_list_selector s = Some (p, Some ls) /\
    same_set (get_clusters (pg_search p)) (split_on ","%char v) /\ forall m, sel_holds m ls.
Proof.
  intros Hk Ht Hv Hne Hs HF Hlen. set (cs := split_on ","%char v) in *.
  assert (cs <> []) as Hcs by apply split_on_nonnil.
  assert (Forall (fun c => valid_value c = true) cs) as HF' by (eapply Forall_impl; [exact HF|]; intros c [_ Hc]; exact Hc).
  pose proof (set_clusters_page cs Hcs HF) as Hset.
  pose proof (cluster_text_chars _ HF') as Htext.
  assert (length (marshal_page (cluster_page cs)) = length v + 39) as Hl.
  { apply cluster_page_len. intros c Hc. by apply (proj1 (Forall_forall _ _) HF'). }
  destruct (C15_ascii_searches_work [] (cluster_page cs) empty_sel) as [s Hq].
  { cbn [pg_sort pg_search cluster_page app]. eapply Forall_impl; [exact Htext|]. intros c Hc. unfold text_char in Hc.
    apply andb_true_iff in Hc as [Hc%N.ltb_lt [Hc'%negb_true_iff _]%andb_true_iff]. split; [done|]. by apply ch_eqb_neq. }
  { rewrite (proj2 (C10_base64_alphabet _)), Nat2N.inj_div, Hl. lia. }
  { reflexivity. }
  destruct (C13_list_options_reach_the_server [] s (cluster_page cs) empty_sel) as (ls & Hs' & _ & Hls).
  { reflexivity. } { apply lookup_empty. } { done. } { unfold cluster_page. injection. discriminate. } { done. } { done. } { by apply text_utf8. } { rewrite Hl. lia. }
  exists s, (cluster_page cs), ls. split.
  { unfold plugin. rewrite (plugin_scan _ _ _ Hk Hv), (typ_of _ _ _ Ht), (pos_fold _ _ _ Hs). cbn [sc_typ sc_clusters sc_args sc_pos].
    change (str_eqb (str "get") (str "get")) with true. cbv iota zeta. destruct v as [|c v]; [done|].
    fold cs. rewrite Hset. cbn [snd]. unfold list_options. by rewrite Hq. }
  split; [done|]. split.
  - destruct (C07_clusters (fun _ => true) (Paginate 0 0 0 [] []) (cluster_page cs) empty_sel cs) as (_ & _ & _ & H); [..|done].
    + left. split; [|done]. intros q H. by apply elem_of_nil in H.
    + cbn [pg_search]. change (search_parts []) with (@nil gostr). intros q r H. by apply elem_of_nil in H.
    + done.
  - intros m. apply Hls. split; [intros k w Hw; cbn [mlabels callers empty_sel] in Hw; by rewrite (lookup_empty (M:=gmap gostr)) in Hw|]. intros e He. by apply elem_of_nil in He.
Qed.
Print Assumptions C49_clusters.
(** No clusters (or an empty value): the command line without the "--clusters" flags. *)
Theorem C49_no_clusters (argv : list gostr) (kept : list (nat * gostr)) (w : gostr) :
  keeps 1 argv kept -> subcommand_is kept w -> chosen argv [] -> plugin argv = PRuns kept.*2.
Proof.
  intros Hk Ht Hv. unfold plugin. rewrite (plugin_scan _ _ _ Hk Hv), (typ_of _ _ _ Ht). cbn [sc_typ sc_clusters sc_args].
  by destruct (str_eqb w (str "get")).
Qed.
Print Assumptions C49_no_clusters.
(** create: the cluster is named in the field manager; only one cluster can be. *)
Theorem C49_create (argv : list gostr) (kept : list (nat * gostr)) (v : gostr) :
  keeps 1 argv kept -> subcommand_is kept (str "create") -> chosen argv v -> v <> [] ->
  (","%char ∉ v /\ plugin argv = PRuns (kept.*2 ++ [str "--field-manager"; str "dsm-cluster-" ++ v])) \/
  (","%char ∈ v /\ plugin argv = PExit 2).
Proof.
  intros Hk Ht Hv Hne. unfold plugin. rewrite (plugin_scan _ _ _ Hk Hv), (typ_of _ _ _ Ht). cbn [sc_typ sc_clusters sc_args].
  change (str_eqb (str "create") (str "get")) with false. cbv iota zeta.
  destruct v as [|c v]; [done|]. destruct (decide (","%char ∈ c :: v)) as [Hin|Hnin].
  - right. split; [done|]. destruct (split_on ","%char (c :: v)) as [|x [|y l]] eqn:E; [by apply split_on_nonnil in E| |done].
    exfalso. pose proof (join_split ","%char (c :: v)) as Hj. rewrite E in Hj. cbn [join] in Hj. subst x.
    pose proof (split_on_nosep_all ","%char (c :: v)) as HF. rewrite E in HF. by inversion HF.
  - left. split; [done|]. by rewrite split_on_nosep.
Qed.
Print Assumptions C49_create.
(** Neither get nor create: nothing is run. *)
Theorem C49_other (argv : list gostr) (kept : list (nat * gostr)) :
  keeps 1 argv kept -> (forall i a, (i, a) ∈ kept -> a <> str "get" /\ a <> str "create") -> plugin argv = PExit 1.
Proof.
  intros Hk Hn. destruct (values_total argv) as [vs Hvs].
  unfold plugin. rewrite (plugin_scan _ _ _ Hk (ex_intro _ vs (conj Hvs eq_refl))), (typ_fold _ _ Hn). done.
Qed.
Print Assumptions C49_other.

(** ** Findings *)
Definition words (l : list string) : list gostr := map str l.
(** The natural command line panics: the index is one past the selector's value among all the arguments, and
    the arguments kept start at 0. *)
Theorem C49_panics_refuted : exists argv v kept i, keeps 1 argv kept /\ subcommand_is kept (str "get") /\ chosen argv v /\ v = str "c1" /\
  last_selector (length argv) kept i /\ argv !! i = Some (str "app=x") /\ plugin argv = PPanics.
Proof.
  exists (words ["get"; "pods"; "-l"; "app=x"; "--clusters"; "c1"]%string), (str "c1"),
    [(1, str "get"); (2, str "pods"); (3, str "-l"); (4, str "app=x")], 3.
  split; [do 4 (apply keeps_arg; [discriminate|]); apply keeps_pair, keeps_nil|].
  split; [exists [], 1, [(2, str "pods"); (3, str "-l"); (4, str "app=x")]; split; [done|]; split; [by left|]; 
          intros j b Hin; rewrite !elem_of_cons, elem_of_nil in Hin; split; intros ->; destruct Hin as [Hin|[Hin|[Hin|[]]]]; discriminate Hin|].
  split; [exists [str "c1"]; split; [do 4 (apply cv_arg; [discriminate|]); apply cv_pair, cv_nil|done]|]. split; [done|].
  split; [|split; [reflexivity|vm_compute; reflexivity]].
  exists [(1, str "get"); (2, str "pods")], (str "-l"), [(4, str "app=x")]. split; [done|]. split; [by left|]. split; [cbn; lia|].
  intros j b Hin Hb. rewrite elem_of_list_singleton in Hin. injection Hin as -> ->. destruct Hb; discriminate.
Qed.
Print Assumptions C49_panics_refuted.
(** With one more argument the cluster restriction is lost silently: kubectl gets the command line without
    it. *)
Theorem C49_clusters_lost_refuted : exists argv kept, keeps 1 argv kept /\ subcommand_is kept (str "get") /\ chosen argv (str "c1") /\
  plugin argv = PRuns kept.*2.
Proof.
  exists (words ["get"; "pods"; "-l"; "app=x"; "--clusters"; "c1"; "-o"; "wide"]%string),
    [(1, str "get"); (2, str "pods"); (3, str "-l"); (4, str "app=x"); (7, str "-o"); (8, str "wide")].
  split; [do 4 (apply keeps_arg; [discriminate|]); apply keeps_pair; do 2 (apply keeps_arg; [discriminate|]); apply keeps_nil|].
  split; [eexists [], 1, _; split; [reflexivity|]; split; [by left|]; 
          intros j b Hin; rewrite !elem_of_cons, elem_of_nil in Hin; split; intros ->; destruct Hin as [Hin|[Hin|[Hin|[Hin|[Hin|[]]]]]]; discriminate Hin|].
  split; [exists [str "c1"]; split; [do 4 (apply cv_arg; [discriminate|]); apply cv_pair; do 2 (apply cv_arg; [discriminate|]); apply cv_nil|done]|].
  vm_compute. reflexivity.
Qed.
Print Assumptions C49_clusters_lost_refuted.
(** A list of clusters with an empty name is dropped without a word. *)
Theorem C49_empty_name_refuted : plugin (words ["get"; "pods"; "--clusters"; "c1,"]%string) = PRuns (words ["get"; "pods"; "-l"; ""]%string).
Proof. vm_compute. reflexivity. Qed.
(** The theorem on clusters has cases, and this is what the command looks like. *)
Example C49_ex_clusters : exists kept s p ls, keeps 1 (words ["get"; "--clusters"; "c2,c1"; "pods"]%string) kept /\
  plugin (words ["get"; "--clusters"; "c2,c1"; "pods"]%string) = PRuns (kept.*2 ++ [str "-l"; s]) /\
  kept.*2 = words ["get"; "pods"]%string /\ parse_list_selector s = Some (p, Some ls) /\ get_clusters (pg_search p) = [str "c1"; str "c2"] /\
  same_set (get_clusters (pg_search p)) (split_on ","%char (str "c2,c1")).
Proof.
  assert (keeps 1 (words ["get"; "--clusters"; "c2,c1"; "pods"]%string) [(1, str "get"); (4, str "pods")]) as Hk.
  { apply keeps_arg; [discriminate|]. apply keeps_pair, keeps_arg; [discriminate|]. apply keeps_nil. }
  destruct (C49_clusters _ _ (str "c2,c1") Hk) as (s & p & ls & Hr & Hs & Hset & _).
  { exists [], 1, [(4, str "pods")]. split; [done|]. split; [by left|]. intros j b Hin. rewrite elem_of_list_singleton in Hin. by injection Hin as -> ->. }
  { exists [str "c2,c1"]. split; [|done]. apply cv_arg; [discriminate|]. apply cv_pair, cv_arg; [discriminate|]. apply cv_nil. }
  { done. }
  { intros j b Hin Hb. rewrite !elem_of_cons, elem_of_nil in Hin. destruct Hb as [-> | ->], Hin as [Hin|[Hin|[]]]; discriminate Hin. }
  { repeat constructor; done. } { vm_compute. discriminate. }
  exists [(1, str "get"); (4, str "pods")], s, p, ls. split; [done|]. split; [done|]. split; [done|]. split; [done|]. split; [|done].
  assert (s = str "ckube.daocloud.io/query notin (0000.eyJzZWFyY2giOiJfX2NrdWJlX2FzX186Y2x1c3RlciBpbiAoYzEsYzIp,0056.In0)") as ->.
  { match type of Hr with ?x = _ => let y := eval vm_compute in x in assert (x = y) as Hy by (vm_compute; reflexivity) end.
    rewrite Hy in Hr. assert (forall a b : gostr, PRuns (words ["get"; "pods"; "-l"]%string ++ [a]) = PRuns (words ["get"; "pods"; "-l"]%string ++ [b]) -> a = b) as Hi.
    { intros a b H. injection H. done. }
    symmetry. apply Hi. exact Hr. }
  assert (parse_list_selector (str "ckube.daocloud.io/query notin (0000.eyJzZWFyY2giOiJfX2NrdWJlX2FzX186Y2x1c3RlciBpbiAoYzEsYzIp,0056.In0)") =
          Some (cluster_page [str "c1"; str "c2"], Some empty_sel)) as H by (vm_compute; reflexivity).
  rewrite Hs in H. assert (p = cluster_page [str "c1"; str "c2"]) as -> by congruence. vm_compute. reflexivity.
Qed.
Example C49_ex_create : plugin (words ["create"; "-f"; "x.yaml"; "--clusters"; "c1"]%string) = PRuns (words ["create"; "-f"; "x.yaml"; "--field-manager"; "dsm-cluster-c1"]%string) /\
  plugin (words ["create"; "-f"; "x.yaml"; "--clusters"; "c1,c2"]%string) = PExit 2 /\ plugin (words ["apply"; "--clusters"; "c1"]%string) = PExit 1 /\
  plugin (words ["get"; "pods"; "-l"; "app=x"]%string) = PRuns (words ["get"; "pods"; "-l"; "app=x"]%string).
Proof. by vm_compute. Qed.
