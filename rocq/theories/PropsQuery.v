(** C10, C11, C13-C15: transport of a query in list options. *)
From Coq Require Import Ascii String NArith ZArith Lia.
From stdpp Require Import base gmap strings list sorting.
From Verif Require Import ModelStr ModelSort ProofsSort ProofsStr ModelLabels SpecLabels ProofsLabels ProofsParse
  ModelPage SpecPage ProofsPage ProofsSel PropsSelector ModelJson ProofsB64 ProofsJson ModelQuery ProofsQuery.

Local Ltac Zify.zify_post_hook ::= Z.to_euclidean_division_equations.
(** ** C10 *)
Theorem C10_base64_round_trip (s : gostr) : b64_decode (b64_encode s) = Some s.
Proof. apply b64_roundtrip. Qed.
Print Assumptions C10_base64_round_trip.
(** The text uses only the 64 characters of the standard alphabet, and its length is ceil(4n/3). *)
Definition std_alphabet : gostr := str "ABCDEFGHIJKLMNOPQRSTUVWXYZabcdefghijklmnopqrstuvwxyz0123456789+/".
Theorem C10_base64_alphabet (s : gostr) :
  Forall (fun c => c ∈ std_alphabet) (b64_encode s) /\ length (b64_encode s) = (4 * length s + 2) / 3.
Proof.
  split.
  - eapply Forall_impl; [apply b64_encode_chars|]. intros c (n & Hn & ->).
    pose proof (N_below (fun n => existsb (ch_eqb (b64_char n)) std_alphabet) 64) as G.
    specialize (G ltac:(by vm_compute) n Hn). cbn beta in G. apply existsb_exists in G as (x & Hx & E%ch_eqb_eq).
    rewrite E. by apply elem_of_list_In.
  - induction s as [|a|a b|a b c l IH] using triple_ind; [done..|]. cbn [b64_encode length]. rewrite IH.
    replace (4 * S (S (S (length l))) + 2) with (4 * length l + 2 + 4 * 3) by lia. rewrite Nat.div_add by done. lia.
Qed.
Print Assumptions C10_base64_alphabet.
(** RFC 4648 test vectors. *)
Example C10_ex : b64_encode (str "foobar") = str "Zm9vYmFy" /\ b64_encode (str "fooba") = str "Zm9vYmE" /\
  b64_encode (str "foob") = str "Zm9vYg" /\ b64_decode (str "Zm9v!") = None /\ b64_decode (str "Z") = None /\
  b64_decode (str "Zm9v" ++ [byte 10] ++ str "Yg") = Some (str "foob").
Proof. by vm_compute. Qed.

(** ** C11 *)
Theorem C11_split_merge (s : gostr) (vs : list gostr) :
  let text := b64_encode s in
  (N.of_nat (length text) <= 10024)%N -> vs ≡ₚ splitting_value text ->
  merge_values vs = Some text /\ NoDup vs /\ Forall (fun v => length v <= 63) vs.
Proof.
  intros text Hl HP. split; [apply split_merge; [apply b64_nodot|done|done]|]. split.
  - rewrite HP. by apply splitting_nodup.
  - rewrite HP. apply Forall_forall. intros x Hx. pose proof (splitting_len text x Hl Hx). lia.
Qed.
Print Assumptions C11_split_merge.
(** The same for every text without a dot. *)
Theorem C11_split_merge_text (text : gostr) (vs : list gostr) :
  "."%char ∉ text -> (N.of_nat (length text) <= 10024)%N -> vs ≡ₚ splitting_value text ->
  merge_values vs = Some text.
Proof. apply split_merge. Qed.
Example C11_ex : splitting_value (replicate 57 "A"%char) = [str "0000." ++ replicate 56 "A"%char; str "0056.A"] /\
  merge_values [str "0056.A"; str "0000." ++ replicate 56 "A"%char] = Some (replicate 57 "A"%char).
Proof. by vm_compute. Qed.
(** Finding: one byte more and the offset 10024 sorts between 1008 and 0952. *)
Theorem C11_long_text_scrambled_refuted : exists text r,
  N.of_nat (length text) = 10025%N /\ "."%char ∉ text /\ merge_values (splitting_value text) = Some r /\ r <> text.
Proof.
  set (t := replicate (N.to_nat 10024) "A"%char ++ ["B"%char]).
  exists t, (default [] (merge_values (splitting_value t))). split; [by vm_compute|]. split.
  - unfold t. rewrite elem_of_app. intros [H|H].
    + apply elem_of_replicate in H as [H _]. done.
    + by apply elem_of_list_singleton in H.
  - split.
    + assert (match merge_values (splitting_value t) with Some _ => true | None => false end = true) as H by (by vm_compute).
      by destruct (merge_values (splitting_value t)).
    + apply str_eqb_neq. by vm_compute.
Qed.

(** ** C13 *)
(** The requirements of the caller's selector that are not a query. *)
Definition callers (ls : lsel) : lsel :=
  LSel (mlabels ls) (List.filter (fun e => negb (str_eqb (lkey e) (str "ckube.daocloud.io/query"))) (mexprs ls)).
Lemma b64_len_ok s : (N.of_nat (length s) <= 7518)%N -> (N.of_nat (length (b64_encode s)) <= 10024)%N.
Proof. intros H. rewrite (proj2 (C10_base64_alphabet s)), Nat2N.inj_div. lia. Qed.
Lemma same_perm_normE ml es l : es ≡ₚ map normE l -> same_sel (LSel ml es) (LSel ml l).
Proof. intros HP. split; [done|]. destruct (perm_normE _ _ HP) as (l' & HP' & HF). exists l'. done. Qed.
Theorem C13_list_options_reach_the_server (sel s : gostr) (p : paginate) (ls : lsel) :
  parse_to_label_selector sel = Some ls -> mlabels ls !! str "ckube.daocloud.io/query" = None ->
  query_list_options sel p = Some s -> p <> Paginate 0 0 0 [] [] ->
  page_in_range p -> valid_utf8 (pg_sort p) = true -> valid_utf8 (pg_search p) = true ->
  (N.of_nat (length (marshal_page p)) <= 7518)%N ->
  exists ls', parse_list_selector s = Some (p, Some ls') /\ same_sel ls' (callers ls) /\
    forall m, sel_holds m ls' <-> sel_holds m (callers ls).
Proof.
  intros Hls Hpk H Hp Hr Hu1 Hu2 Hlen.
  destruct (query_server sel p s ls Hls Hpk H Hp Hr (b64_len_ok _ Hlen)) as (es & Hs & HP).
  assert (same_sel (LSel (mlabels ls) es) (callers ls)) as Hsame by (by apply same_perm_normE).
  exists (LSel (mlabels ls) es). split; [|split; [done|]].
  - rewrite Hs. unfold valid_page. rewrite !valid_to_valid by done. by destruct p.
  - intros m. by apply same_sel_holds.
Qed.
Print Assumptions C13_list_options_reach_the_server.
(** Without the UTF-8 hypothesis invalid bytes of sort and search arrive as U+FFFD. *)
Theorem C13_invalid_utf8 (sel s : gostr) (p : paginate) (ls : lsel) :
  parse_to_label_selector sel = Some ls -> mlabels ls !! str "ckube.daocloud.io/query" = None ->
  query_list_options sel p = Some s -> p <> Paginate 0 0 0 [] [] ->
  page_in_range p -> (N.of_nat (length (marshal_page p)) <= 7518)%N ->
  exists ls', parse_list_selector s =
    Some (Paginate (pg_page p) (pg_size p) (pg_total p) (to_valid (pg_sort p)) (to_valid (pg_search p)), Some ls') /\
    same_sel ls' (callers ls).
Proof.
  intros Hls Hpk H Hp Hr Hlen.
  destruct (query_server sel p s ls Hls Hpk H Hp Hr (b64_len_ok _ Hlen)) as (es & Hs & HP).
  exists (LSel (mlabels ls) es). split; [done|]. by apply same_perm_normE.
Qed.
Definition ex_page : paginate := Paginate 3 10 0 (str "name!int desc") (str "a=""x<y"";foo").
Example C13_ex :
  query_list_options (str "app=web,tier notin (db)") ex_page =
    Some (str "app=web,ckube.daocloud.io/query notin (0000.eyJwYWdlIjozLCJwYWdlX3NpemUiOjEwLCJzb3J0IjoibmFtZSFpbnQg,0056.ZGVzYyIsInNlYXJjaCI6ImE9XCJ4XHUwMDNjeVwiO2ZvbyJ9),tier notin (db)") /\
  option_map fst (parse_list_selector (str "app=web,ckube.daocloud.io/query notin (0000.eyJwYWdlIjozLCJwYWdlX3NpemUiOjEwLCJzb3J0IjoibmFtZSFpbnQg,0056.ZGVzYyIsInNlYXJjaCI6ImE9XCJ4XHUwMDNjeVwiO2ZvbyJ9),tier notin (db)"))
    = Some ex_page.
Proof. by vm_compute. Qed.
(** Finding: a query that the caller wrote with '=' wins over the Paginate. *)
Theorem C13_equals_query_wins_refuted : exists sel p s q ls,
  query_list_options sel p = Some s /\ parse_list_selector s = Some (q, ls) /\ q <> p.
Proof.
  exists (str "ckube.daocloud.io/query=e30"), ex_page.
  destruct (query_list_options (str "ckube.daocloud.io/query=e30") ex_page) as [s|] eqn:E; [|by vm_compute in E].
  vm_compute in E. injection E as <-. eexists. exists zero_page. eexists. split; [done|]. by vm_compute.
Qed.

(** ** C14 *)
Theorem C14_wrapping_again_replaces (sel s1 : gostr) (p1 p2 : paginate) (ls : lsel) :
  parse_to_label_selector sel = Some ls ->
  NoDup (str "ckube.daocloud.io/query" :: map fst (map_to_list (mlabels ls)) ++ map lkey (mexprs (callers ls))) ->
  query_list_options sel p1 = Some s1 -> p2 <> Paginate 0 0 0 [] [] ->
  query_list_options s1 p2 = query_list_options sel p2.
Proof. apply rewrap. Qed.
Print Assumptions C14_wrapping_again_replaces.
Example C14_ex : exists s1, query_list_options (str "app=web") ex_page = Some s1 /\
  query_list_options s1 (Paginate 1 5 0 [] (str "x")) = query_list_options (str "app=web") (Paginate 1 5 0 [] (str "x")) /\
  query_list_options s1 (Paginate 1 5 0 [] (str "x")) = Some (str "app=web,ckube.daocloud.io/query notin (eyJwYWdlIjoxLCJwYWdlX3NpemUiOjUsInNlYXJjaCI6IngifQ)").
Proof. exists (default [] (query_list_options (str "app=web") ex_page)). by vm_compute. Qed.
(** In general (repeated keys) the server reads the same after either. *)
Theorem C14_server_reads_the_same (sel s1 s2 : gostr) (p1 p2 : paginate) (ls : lsel) :
  parse_to_label_selector sel = Some ls -> mlabels ls !! str "ckube.daocloud.io/query" = None ->
  query_list_options sel p1 = Some s1 -> query_list_options s1 p2 = Some s2 -> p2 <> Paginate 0 0 0 [] [] ->
  page_in_range p2 -> (N.of_nat (length (marshal_page p2)) <= 7518)%N ->
  exists s ls1 ls2, query_list_options sel p2 = Some s /\
    parse_list_selector s = Some (valid_page p2, Some ls1) /\
    parse_list_selector s2 = Some (valid_page p2, Some ls2) /\
    same_sel ls1 (callers ls) /\ same_sel ls2 (callers ls).
Proof.
  intros Hls Hpk H1 H2 Hp2 Hr Hlen.
  destruct (decide (marshal_page p1 = str "{}")) as [E0|E0].
  { unfold query_list_options in H1. cbv zeta in H1. rewrite (proj2 (str_eqb_eq _ _) E0) in H1. injection H1 as <-.
    destruct (query_server sel p2 s2 ls Hls Hpk H2 Hp2 Hr (b64_len_ok _ Hlen)) as (es & Hs & HP).
    exists s2, (LSel (mlabels ls) es), (LSel (mlabels ls) es). split; [done|]. split; [done|]. split; [done|].
    split; by apply same_perm_normE. }
  assert (p1 <> zero_page) as Hp1 by (intros ->; apply E0; by vm_compute).
  destruct (query_parse _ _ _ _ Hls H1 Hp1) as (es & Hparse & _ & HP).
  assert (exists s, query_list_options sel p2 = Some s) as [s Hs].
  { destruct (query_some _ _ _ H2 Hp2) as (ls1 & Hls1 & Hf). assert (ls1 = LSel (mlabels ls) es) as -> by congruence.
    assert (sel_ok (add_query (b64_encode (marshal_page p2)) (LSel (mlabels ls) es))) as Hok by (apply sel_ok_format; eauto).
    apply add_query_ok in Hok; [|by eapply parsed_sel_ok].
    unfold query_list_options. cbv zeta. rewrite Hls. destruct (str_eqb _ _); [eauto|].
    apply sel_ok_format, add_query_ok; [by eapply parsed_sel_ok|done]. }
  destruct (query_server sel p2 s ls Hls Hpk Hs Hp2 Hr (b64_len_ok _ Hlen)) as (es1 & Hs1 & HP1).
  destruct (query_server s1 p2 s2 _ Hparse Hpk H2 Hp2 Hr (b64_len_ok _ Hlen)) as (es2 & Hs2 & HP2).
  exists s, (LSel (mlabels ls) es1), (LSel (mlabels ls) es2). split; [done|]. split; [done|]. split; [done|].
  split; [by apply same_perm_normE|]. apply same_perm_normE. rewrite HP2. cbn [mexprs].
  change (List.filter _ _) with (keep paginate_key (mexprs ls)).
  rewrite <- (keep_normE es). pose proof (parsed_normE _ _ Hparse) as Hn. cbn [mexprs] in Hn. rewrite Hn. rewrite (keep_perm _ _ HP). cbn [map].
  unfold keep at 1. cbn [List.filter normE lkey]. rewrite str_eqb_refl. cbn [negb].
  change (keep paginate_key (map normE (keep paginate_key (mexprs ls))) ≡ₚ map normE (keep paginate_key (mexprs ls))).
  rewrite keep_normE. rewrite (keep_all (keep paginate_key (mexprs ls))); [done|]. by intros e [_ ?]%elem_of_keep.
Qed.
Print Assumptions C14_server_reads_the_same.

(** ** C15 *)
Theorem C15_fails_iff (sel : gostr) (p : paginate) :
  p <> Paginate 0 0 0 [] [] -> (N.of_nat (length (b64_encode (marshal_page p))) <= 1000048)%N ->
  (query_list_options sel p = None <->
   parse_to_label_selector sel = None \/
   "+"%char ∈ b64_encode (marshal_page p) \/ "/"%char ∈ b64_encode (marshal_page p)).
Proof.
  intros Hp Hlen. unfold query_list_options. cbv zeta.
  destruct (str_eqb_spec (marshal_page p) (str "{}")) as [E|_]; [by apply marshal_empty in E|].
  set (q := b64_encode (marshal_page p)) in *.
  destruct (parse_to_label_selector sel) as [ls|] eqn:Hls; [|naive_solver].
  destruct (parsed_sel_ok _ _ Hls) as [Hok _].
  assert (format_selector (add_query q ls) = None <-> ~ no_plus_slash q) as ->.
  { rewrite <- (split_valid_iff q); [|apply marshal_nonempty|apply b64_encode_chars|done].
    rewrite <- (add_query_ok q ls Hok), sel_ok_format. destruct (format_selector (add_query q ls)); naive_solver. }
  unfold no_plus_slash. split.
  - intros H. right. destruct (decide ("+"%char ∈ q)); [by left|]. destruct (decide ("/"%char ∈ q)); [by right|]. tauto.
  - intros [?|[?|?]]; [done|tauto|tauto].
Qed.
Print Assumptions C15_fails_iff.
(** ASCII sort and search without '?', '~' and DEL never fail. *)
Theorem C15_ascii_searches_work (sel : gostr) (p : paginate) (ls : lsel) :
  Forall (fun c => (code c < 126)%N /\ c <> "?"%char) (pg_sort p ++ pg_search p) ->
  (N.of_nat (length (b64_encode (marshal_page p))) <= 1000048)%N ->
  parse_to_label_selector sel = Some ls -> exists s, query_list_options sel p = Some s.
Proof.
  intros HF Hlen Hls. destruct (query_list_options sel p) as [s|] eqn:E; [eauto|]. exfalso.
  assert (p <> Paginate 0 0 0 [] []) as Hp by (by intros ->).
  apply C15_fails_iff in E; [|done|done]. 
  assert (no_plus_slash (b64_encode (marshal_page p))) as [H1 H2].
  { apply Forall_app in HF as [HF1 HF2]. apply b64_safe, marshal_safe.
    - eapply Forall_impl; [exact HF1|]. intros c [? Hc]. split; [done|]. intros E'. apply Hc. by apply code_inj.
    - eapply Forall_impl; [exact HF2|]. intros c [? Hc]. split; [done|]. intros E'. apply Hc. by apply code_inj. }
  destruct E as [E|[E|E]]; [congruence|done|done].
Qed.
Print Assumptions C15_ascii_searches_work.
(** Finding: the search text "abc?" (and one with a non-ASCII letter) cannot be sent. *)
Theorem C15_question_mark_refuted :
  query_list_options [] (Paginate 0 0 0 [] (str "abc?")) = None /\
  query_list_options [] (Paginate 0 0 0 [] (map byte [195; 191; 195; 191]%N)) = None.
Proof. by vm_compute. Qed.
Example C15_ex : query_list_options (str "a in (") ex_page = None /\
  query_list_options [] (Paginate 0 0 0 [] (str "a?")) = Some (str "ckube.daocloud.io/query notin (eyJzZWFyY2giOiJhPyJ9)").
Proof. by vm_compute. Qed.

(** ** C13, continued *)
(** Finding: a long query arrives as something else, without an error anywhere. *)
Definition long_page : paginate := Paginate 1 0 0 [] (replicate (N.to_nat 7600) "A"%char).
Definition page_number (t : gostr) : Z := pg_page (unmarshal_page t).
Lemma long_page_sent : exists s, query_list_options [] long_page = Some s.
Proof.
  apply (C15_ascii_searches_work [] long_page empty_sel).
  - apply Forall_app. split; [apply Forall_nil; exact I|]. apply Forall_replicate. split; [by vm_compute|discriminate].
  - rewrite (proj2 (C10_base64_alphabet _)), Nat2N.inj_div.
    assert ((N.of_nat (length (marshal_page long_page)) <=? 7700)%N = true) as Hl%N.leb_le by (vm_compute; reflexivity). lia.
  - reflexivity.
Qed.
Lemma long_page_read s : query_list_options [] long_page = Some s ->
  exists q ls, parse_list_selector s = Some (q, ls) /\ pg_page q = 0%Z.
Proof.
  assert (match merge_values (set_list (splitting_value (b64_encode (marshal_page long_page)))) with
          | Some r => match b64_decode r with
                      | Some t => Z.eqb (page_number t) 0 && negb (match t with [] => true | _ => false end)
                      | None => false end
          | None => false end = true) as H by (vm_compute; reflexivity).
  intros Hs. destruct (merge_values (set_list (splitting_value (b64_encode (marshal_page long_page))))) as [r|] eqn:Hm; [|discriminate H]. destruct (b64_decode r) as [t|] eqn:Hd; [|discriminate H].
  apply andb_true_iff in H as [H1 H2]. apply Z.eqb_eq in H1.
  destruct (query_server_any [] long_page s empty_sel r t) as [es Hes].
  - reflexivity.
  - reflexivity.
  - exact Hs.
  - intros [=].
  - exact Hm.
  - exact Hd.
  - intros ->. discriminate H2.
  - exists (unmarshal_page t), (Some (LSel (mlabels empty_sel) es)). split; [exact Hes|exact H1].
Qed.
Theorem C13_long_query_refuted : exists p s q ls,
  page_in_range p /\ query_list_options [] p = Some s /\ parse_list_selector s = Some (q, ls) /\ q <> p.
Proof.
  destruct long_page_sent as [s Hs]. destruct (long_page_read s Hs) as (q & ls & Hq & H0).
  exists long_page, s, q, ls. split; [|split; [exact Hs|split; [exact Hq|]]].
  - unfold page_in_range, long_page. cbn [pg_page pg_size pg_total]. repeat split.
  - intros ->. discriminate H0.
Qed.
Print Assumptions C13_long_query_refuted.
