(** C80: JSON texts mean what RFC 8259 says. *)
From Coq Require Import Ascii String NArith ZArith Lia.
From stdpp Require Import base gmap strings list.
From Verif Require Import ModelStr ModelJson ModelJsonText ModelLabels ModelPage ModelQuery ModelObjType ModelCodec ModelStore ModelProxy ModelReload SpecStore SpecProxy SpecReload SpecBody SpecJson
  ProofsStr ProofsJson ProofsJsonText ProofsJsonGrammar ProofsProxy PropsProxy ProofsJsonParse PropsBody PropsReload SpecObjType PropsObjType.

Theorem C80_reads s v : json_parse s = Some v <-> json_means s v.
Proof. apply parse_means. Qed.
Print Assumptions C80_reads.
(** A text has one meaning at most. *)
Theorem C80_one_meaning s v v' : json_means s v -> json_means s v' -> v = v'.
Proof. intros H1%parse_means H2%parse_means. congruence. Qed.
Print Assumptions C80_one_meaning.
(** What is written is JSON and means what was to be written, with U+FFFD for bytes that are no UTF-8. *)
Theorem C80_writes j : nums_ok j -> jdepth j <= N.to_nat 10000 -> json_means (json_text j) (jvalid j).
Proof. intros Hn Hd. apply parse_means. by apply parse_text. Qed.
Print Assumptions C80_writes.

(** ** The query of a list *)
Definition name_ok (n : gostr) : Prop := Forall (fun a => ((97 <= N_of_ascii a <= 122)%N \/ a = "_"%char) /\ a <> "k"%char) n.
Lemma fk_long w : fold_key (ascii_of_N 197 :: ascii_of_N 191 :: w) = "s"%char :: fold_key w.
Proof. reflexivity. Qed.
Lemma fk_other c w : (forall w', c :: w <> ascii_of_N 197 :: ascii_of_N 191 :: w') -> fold_key (c :: w) = lower_ascii c :: fold_key w.
Proof.
  intros H. unfold fold_key, replace_all. cbn [replace_go].
  destruct (has_prefix (map byte [197; 191]%N) (c :: w)) eqn:E; [|done]. exfalso.
  apply has_prefix_true in E as [r E]. by apply (H r).
Qed.
Lemma lower_letter2 c a : ((97 <= N_of_ascii a <= 122)%N \/ a = "_"%char) -> lower_ascii c = a <-> c = a \/ ((65 <= N_of_ascii c <= 90)%N /\ N_of_ascii a = (N_of_ascii c + 32)%N).
Proof.
  intros [Ha| ->]; [by apply lower_letter|]. split.
  - intros H. left. revert H. destruct c as [[] [] [] [] [] [] [] []]; intros H; vm_compute in H; try discriminate H; reflexivity.
  - intros [->|[H1 H2]]; [reflexivity|]. change (N_of_ascii "_") with 95%N in H2. lia.
Qed.
Lemma spells_fk w n : spells w n -> name_ok n -> fold_key w = n.
Proof.
  induction 1 as [|a w n H IH|u a w n Hu Ha H IH|w n H IH|w n H IH]; intros Hn; [done|apply Forall_cons in Hn as [[Ha' Hk'] Hn]..].
  - rewrite fk_other.
    + f_equal; [|by apply IH]. apply (lower_letter2 a a Ha'). by left.
    + intros w' [= -> _]. destruct Ha' as [Ha'|Ha']; [|discriminate Ha']. vm_compute in Ha'. by destruct Ha'.
  - rewrite fk_other.
    + f_equal; [|by apply IH]. apply (lower_letter2 u a Ha'). by right.
    + intros w' [= -> _]. vm_compute in Hu. by destruct Hu.
  - rewrite fk_long. f_equal. by apply IH.
  - done.
Qed.
Lemma fk_spells w n : name_ok n -> fold_key w = n -> spells w n.
Proof.
  remember (length w) as len eqn:Hlen. revert w n Hlen. induction (lt_wf len) as [len _ IH]. intros w n -> Hn Hf.
  destruct w as [|c w]; [subst; constructor|].
  destruct (starts_with [ascii_of_N 197; ascii_of_N 191] (c :: w)) as [[w' Hw]|H2].
  { rewrite Hw in *. cbn [app] in *. rewrite fk_long in Hf. subst n. apply Forall_cons in Hn as [_ Hn]. apply sp_long. apply (IH (length w')); [cbn [length]; lia|done|done|done]. }
  rewrite (fk_other c w H2) in Hf. subst n. apply Forall_cons in Hn as [[Ha _] Hn]. assert (spells w (fold_key w)) as Hsp by (apply (IH (length w)); [cbn [length]; lia|done|done|done]).
  destruct (proj1 (lower_letter2 c _ Ha) eq_refl) as [Hc|[Hc1 Hc2]]; [rewrite <- Hc; by constructor|by apply sp_capital].
Qed.
(** One field of the struct. *)
Section Field.
  Context {A : Type} (fld : paginate -> A) (name : string) (put : A -> json -> A).
  Hypothesis Hname : name_ok (str name).
  Hypothesis Hfld : forall p k v, fld (set_field p (k, v)) = if str_eqb (fold_key k) (str name) then put (fld p) v else fld p.
  Lemma field_same l p : without l name -> fld (fold_left set_field l p) = fld p.
  Proof.
    revert p. induction l as [|[k v] l IH]; intros p H; [done|]. cbn [fold_left]. rewrite IH by (intros k' v' Hin; apply (H k' v'); by right). rewrite Hfld.
    destruct (str_eqb (fold_key k) (str name)) eqn:E; [|done]. exfalso. apply str_eqb_eq in E. apply (H k v); [left|]. by apply fk_spells.
  Qed.
  Lemma field_last l p v x : last_member l name v -> (forall old, put old v = x) -> fld (fold_left set_field l p) = x.
  Proof.
    intros (l1 & k & l2 & -> & Hk & Hl) Hx. rewrite fold_left_app. cbn [fold_left]. rewrite field_same by done. rewrite Hfld, (spells_fk _ _ Hk Hname), (proj2 (str_eqb_eq _ _) eq_refl). apply Hx.
  Qed.
End Field.
Lemma field_page p k v : pg_page (set_field p (k, v)) = if str_eqb (fold_key k) (str "page") then set_int (pg_page p) v else pg_page p.
Proof.
  cbn [set_field]. destruct (str_eqb (fold_key k) (str "page")); [done|].
  by repeat match goal with |- context[str_eqb (fold_key k) ?n] => destruct (str_eqb (fold_key k) n) end.
Qed.
Ltac field_tac k := cbn [set_field];
  match goal with |- _ = if str_eqb (fold_key k) ?n then _ else _ =>
    let E := fresh in destruct (str_eqb (fold_key k) n) eqn:E; [apply str_eqb_eq in E; rewrite E; reflexivity|] end;
  repeat match goal with |- context[str_eqb (fold_key k) ?n] => destruct (str_eqb (fold_key k) n) eqn:?; try discriminate end; done.
Lemma field_size p k v : pg_size (set_field p (k, v)) = if str_eqb (fold_key k) (str "page_size") then set_int (pg_size p) v else pg_size p.
Proof. field_tac k. Qed.
Lemma field_total p k v : pg_total (set_field p (k, v)) = if str_eqb (fold_key k) (str "total") then set_int (pg_total p) v else pg_total p.
Proof. field_tac k. Qed.
Lemma field_sort p k v : pg_sort (set_field p (k, v)) = if str_eqb (fold_key k) (str "sort") then set_str (pg_sort p) v else pg_sort p.
Proof. field_tac k. Qed.
Lemma field_search p k v : pg_search (set_field p (k, v)) = if str_eqb (fold_key k) (str "search") then set_str (pg_search p) v else pg_search p.
Proof. field_tac k. Qed.
Ltac name_tac := repeat (constructor; [split; [first [left; split; vm_compute; discriminate|right; reflexivity]|discriminate]|]); constructor.
Lemma names_ok : name_ok (str "page") /\ name_ok (str "page_size") /\ name_ok (str "total") /\ name_ok (str "sort") /\ name_ok (str "search").
Proof. repeat split; cbn [str list_ascii_of_string]; name_tac. Qed.
Lemma int_field_says fld name l z p : name_ok (str name) ->
  (forall p k v, fld (set_field p (k, v)) = if str_eqb (fold_key k) (str name) then set_int (fld p) v else fld p) -> fld p = 0%Z ->
  int_says l name z -> fld (fold_left set_field l p) = z.
Proof.
  intros Hn Hf H0 [[Hl Hz]|[Hw ->]].
  - eapply (field_last fld name set_int Hn Hf); [exact Hl|]. intros old. cbn [set_int]. rewrite parse_int_itoa; [done|]. unfold in_int64. apply andb_true_iff. rewrite Z.leb_le, Z.ltb_lt. lia.
  - by rewrite (field_same fld name set_int Hn Hf).
Qed.
Lemma str_field_says fld name l s p : name_ok (str name) ->
  (forall p k v, fld (set_field p (k, v)) = if str_eqb (fold_key k) (str name) then set_str (fld p) v else fld p) -> fld p = [] ->
  str_says l name s -> fld (fold_left set_field l p) = s.
Proof.
  intros Hn Hf H0 [Hl|[Hw ->]].
  - eapply (field_last fld name set_str Hn Hf); [exact Hl|]. done.
  - by rewrite (field_same fld name set_str Hn Hf).
Qed.
(** A query that a client writes itself: any JSON text, its members in any order and spelling, in base64 in a label
    selector ckube.daocloud.io/query=..., asks for the page that it says. *)
Theorem C80_query sel ls q t l page size total sort search :
  parse_to_label_selector sel = Some ls -> mlabels ls !! str "ckube.daocloud.io/query" = Some q -> b64_decode q = Some t -> json_means t (JObj l) ->
  int_says l "page" page -> int_says l "page_size" size -> int_says l "total" total -> str_says l "sort" sort -> str_says l "search" search ->
  exists ls', parse_list_selector sel = Some (Paginate page size total sort search, Some ls').
Proof.
  intros Hp Hq Hb Ht H1 H2 H3 H4 H5. destruct names_ok as (N1 & N2 & N3 & N4 & N5).
  assert (unmarshal_page t = Paginate page size total sort search) as Hpage.
  { unfold unmarshal_page. rewrite (proj2 (parse_means _ _) Ht).
    pose proof (int_field_says pg_page "page" l page zero_page N1 field_page eq_refl H1) as E1. pose proof (int_field_says pg_size "page_size" l size zero_page N2 field_size eq_refl H2) as E2.
    pose proof (int_field_says pg_total "total" l total zero_page N3 field_total eq_refl H3) as E3. pose proof (str_field_says pg_sort "sort" l sort zero_page N4 field_sort eq_refl H4) as E4.
    pose proof (str_field_says pg_search "search" l search zero_page N5 field_search eq_refl H5) as E5. destruct (fold_left set_field l zero_page). cbn in *. by subst. }
  assert (t <> []) as Htn by (intros ->; apply parse_means in Ht; discriminate Ht).
  exists (LSel (delete paginate_key (mlabels ls)) (mexprs ls)).
  unfold parse_list_selector. destruct sel as [|c sel]; [exfalso; vm_compute in Hp; injection Hp as <-; done|]. rewrite Hp. unfold extract_query. change paginate_key with (str "ckube.daocloud.io/query"). rewrite Hq.
  unfold decode_query. destruct q as [|x q]; [injection Hb as <-; done|]. by rewrite Hb, Hpage.
Qed.
Print Assumptions C80_query.
(** A query that is no JSON text is ignored: everything is listed and no error is reported. *)
Theorem C80_bad_query sel ls q t :
  parse_to_label_selector sel = Some ls -> mlabels ls !! str "ckube.daocloud.io/query" = Some q -> b64_decode q = Some t -> (forall v, ~ json_means t v) ->
  exists ls', parse_list_selector sel = Some (Paginate 0 0 0 [] [], Some ls').
Proof.
  intros Hp Hq Hb Ht. assert (unmarshal_page t = zero_page) as Hpage.
  { unfold unmarshal_page. destruct (json_parse t) as [v|] eqn:E; [|done]. apply parse_means in E. by destruct (Ht v). }
  exists (LSel (delete paginate_key (mlabels ls)) (mexprs ls)).
  unfold parse_list_selector. destruct sel as [|c sel]; [exfalso; vm_compute in Hp; injection Hp as <-; done|]. rewrite Hp. unfold extract_query. change paginate_key with (str "ckube.daocloud.io/query"). rewrite Hq.
  unfold decode_query. destruct q as [|x q]; [done|]. by rewrite Hb, Hpage.
Qed.
Print Assumptions C80_bad_query.

(** ** The body of a DELETE *)
Lemma opts_without o l : (forall kv, kv ∈ l -> kv.1 ∈ [str "kind"; str "apiVersion"; str "gracePeriodSeconds"; str "preconditions"; str "orphanDependents"; str "propagationPolicy"]) ->
  o = map vmem l -> without o "dryrun".
Proof.
  intros Hl -> k v Hin Hk. apply elem_of_list_fmap in Hin as ([k0 v0] & E & Hin). unfold vmem in E. cbn [fst snd] in E. injection E as -> ->. apply Hl in Hin. cbn [fst] in Hin.
  apply (spells_fold _ _) in Hk; [|exact dryrun_name]. 
  repeat (apply elem_of_cons in Hin as [->|Hin]; [vm_compute in Hk; discriminate Hk|]). by apply elem_of_nil in Hin.
Qed.
Definition other_opts (o : delopts) : list (gostr * json) :=
  str_memb (str "kind") (do_kind o) ++ str_memb (str "apiVersion") (do_api o) ++ opt_mem (str "gracePeriodSeconds") (fun z => JNum (itoa z)) (do_grace o) ++
  opt_mem (str "preconditions") pre_json (do_pre o) ++ opt_mem (str "orphanDependents") JBool (do_orphan o) ++ opt_mem (str "propagationPolicy") JStr (do_policy o).
Lemma other_names o kv : kv ∈ other_opts o -> kv.1 ∈ [str "kind"; str "apiVersion"; str "gracePeriodSeconds"; str "preconditions"; str "orphanDependents"; str "propagationPolicy"].
Proof.
  assert (forall (n s : gostr), kv ∈ str_memb n s -> kv.1 = n) as Hs. { intros n [|] H; [by apply elem_of_nil in H|]. by apply elem_of_list_singleton in H as ->. }
  assert (forall A (n : gostr) (f : A -> json) s, kv ∈ opt_mem n f s -> kv.1 = n) as Ho. { intros A n f [|] H; [|by apply elem_of_nil in H]. by apply elem_of_list_singleton in H as ->. }
  unfold other_opts. rewrite !elem_of_app. intros [H|[H|[H|[H|[H|H]]]]]; first [apply Hs in H|apply Ho in H]; rewrite H; repeat (apply elem_of_list_here || apply elem_of_list_further).
Qed.
Lemma opts_means o : exists l, json_means (encode_opts o) (JObj l) /\
  match do_dry o with [] => without l "dryrun" | ds => last_member l "dryrun" (JArr (map JStr (map to_valid ds))) end.
Proof.
  unfold encode_opts. pose proof (C80_writes (opts_json o) (opts_nums o) ltac:(pose proof (opts_depth o); lia)) as H.
  unfold opts_json in H at 2. cbn [jvalid] in H. change (fun kv : gostr * json => (to_valid kv.1, jvalid kv.2)) with vmem in H.
  rewrite !app_assoc, map_app in H. rewrite <- !app_assoc in H. change (str_memb (str "kind") (do_kind o) ++ _) with (other_opts o) in H.
  eexists. split; [exact H|]. destruct (do_dry o) as [|d ds].
  - cbn [map]. rewrite app_nil_r. eapply opts_without; [|reflexivity]. apply other_names.
  - exists (map vmem (other_opts o)), (to_valid (str "dryRun")), []. split; [|split].
    + f_equal. unfold vmem. cbn [map fst snd jvalid]. rewrite !map_map. reflexivity.
    + rewrite valid_to_valid by reflexivity. apply fold_spells; [exact dryrun_name|vm_compute; reflexivity].
    + intros k' v' Hin. by apply elem_of_nil in Hin.
Qed.
(** If the body of a DELETE is any JSON text whose last member dryRun begins with the tag of a cluster, the request goes
    to this cluster with a JSON text without the tag. *)
Theorem C80_delete E cf conf h st clients r a c ds b l :
  run_calls E (new_store conf) h = Ok st -> proxy E cf clients st r a -> c <> [] -> rq_method r = str "DELETE" -> rq_body r = Some b ->
  json_means b (JObj l) -> last_member l "dryrun" (JArr (map JStr ((str "dsm-cluster-" ++ c) :: ds))) ->
  exists r1 b1 m, relayed clients c r1 a /\ rq_body r1 = Some b1 /\ rq_path r1 = rq_path r /\ rq_method r1 = str "DELETE" /\
    json_means b1 (JObj m) /\ (ds = [] -> without m "dryrun") /\ (ds <> [] -> last_member m "dryrun" (JArr (map JStr ds))).
Proof.
  intros Hrun Hp Hc Hm Hb Hl (l1 & k & l2 & -> & Hk & Hno). pose proof (proj2 (parse_means _ _) Hl) as Hj.
  destruct (C34_tag_found E cf conf h st clients r a c ds b l1 k l2 Hrun Hp Hc Hm Hb Hj Hk Hno) as (r1 & H1 & H2 & H3 & _ & H4).
  destruct (opts_means (set_dry (decode_opts b) ds)) as (m & Hmm & Hd). replace (do_dry (set_dry (decode_opts b) ds)) with ds in Hd by (by destruct (decode_opts b)).
  exists r1, (encode_opts (set_dry (decode_opts b) ds)), m. split; [done|]. split; [exact H2|]. split; [done|]. split; [done|]. split; [exact Hmm|].
  assert (map to_valid ds = ds) as Hv.
  { apply json_parse_parsed in Hj as [Hj _]. inversion Hj as [| | | | |? HF]; subst. apply Forall_app in HF as [_ HF]. apply Forall_cons in HF as [[_ HF] _]. cbn [snd] in HF.
    inversion HF as [| | | |? HF2|]; subst. cbn [map] in HF2. apply Forall_cons in HF2 as [_ HF2]. clear -HF2. induction ds as [|d ds IH]; [done|]. cbn [map] in *. apply Forall_cons in HF2 as [Hd HF2].
    inversion Hd; subst. by rewrite valid_to_valid, IH. }
  destruct ds as [|d ds]; [by split|]. rewrite Hv in Hd. by split.
Qed.
Print Assumptions C80_delete.

(** ** The configuration and documents *)
(** However the text of a configuration is laid out. *)
Theorem C80_config fc s : conf_utf8 fc -> json_means s (conf_json fc) -> decode_conf s = Some fc.
Proof.
  intros Hu Hs. rewrite <- (C63_file fc Hu). unfold decode_conf. rewrite (proj2 (parse_means _ _) Hs).
  enough (json_parse (json_text (conf_json fc)) = Some (conf_json fc)) as -> by done.
  destruct Hu as (H1 & H2 & H3). rewrite parse_text.
  - f_equal. unfold conf_json. cbn [jvalid map fst snd]. rewrite !valid_to_valid by (first [reflexivity|assumption]). do 4 f_equal. f_equal.
    rewrite map_map. apply map_ext_in. intros p Hp%elem_of_list_In. by apply jvalid_proxy, H3.
  - unfold conf_json. apply nums_ok_obj. rewrite !Forall_cons, Forall_nil. cbn [snd]. split; [|done]. apply nums_ok_arr. apply Forall_forall. intros j (p & -> & _)%elem_of_list_fmap.
    unfold proxy_json. apply nums_ok_obj. rewrite !Forall_cons, Forall_nil. cbn [snd]. do 4 (split; [done|]). split; [|done]. apply nums_ok_obj. apply Forall_forall. intros x (kv & -> & _)%elem_of_list_fmap. done.
  - transitivity 5; [|apply Nat.leb_le; vm_compute; reflexivity]. unfold conf_json. apply jdepth_obj. rewrite !Forall_cons, Forall_nil. cbn [snd]. split; [|cbn; split; [lia|split; [lia|done]]].
    apply jdepth_arr. apply Forall_forall. intros j (p & -> & _)%elem_of_list_fmap. unfold proxy_json. apply jdepth_obj. rewrite !Forall_cons, Forall_nil. cbn [snd]. do 4 (split; [cbn; lia|]). split; [|done].
    apply jdepth_obj. apply Forall_forall. intros x (kv & -> & _)%elem_of_list_fmap. cbn. lia.
Qed.
Print Assumptions C80_config.
(** A file that is no JSON text is not loaded. *)
Theorem C80_bad_config s : (forall v, ~ json_means s v) -> decode_conf s = None.
Proof. intros H. unfold decode_conf. destruct (json_parse s) as [v|] eqn:E; [|done]. apply parse_means in E. by destruct (H v). Qed.
Print Assumptions C80_bad_config.
(** Documents of custom objects: a layout other than that of encoding/json changes nothing. *)
Theorem C80_documents JE o s v : lawful JE -> good_obj JE o -> json_means (encode_obj o) v -> json_means s v -> decode_obj JE s = Ok o /\ interpret s = interpret (encode_obj o).
Proof.
  intros HE Ho H1%parse_means H2%parse_means. rewrite <- (C45_round_trip JE o HE Ho). unfold decode_obj, decode_map, decode_meta, interpret. by rewrite H1, H2.
Qed.
Print Assumptions C80_documents.

(** ** Examples *)
Ltac means_tac := apply parse_means; vm_compute; reflexivity.
(** White space, escapes, a surrogate pair (U+1F600), half of one and a byte that is no UTF-8; a comma too many. *)
Example C80_ex : exists t,
  t = str " [ -1.5e+3 ,{ ""k"" : ""a\/\n\u00e9\uD83d\uDE00\uD83D" ++ [ascii_of_N 255] ++ str """,""k"":null}, true] " /\
  json_means t (JArr [JNum (str "-1.5e+3");
    JObj [(str "k", JStr (str "a/" ++ map ascii_of_N [10; 195; 169; 240; 159; 152; 128; 239; 191; 189; 239; 191; 189]%N)); (str "k", JNull)]; JBool true]) /\
  (forall v, ~ json_means (str "{""page"":2,} ") v) /\ (forall v, ~ json_means (str "01") v) /\ json_means (json_text (JStr [ascii_of_N 255])) (JStr replacement).
Proof.
  eexists. split; [reflexivity|]. split; [means_tac|]. split; [intros v H%parse_means; vm_compute in H; discriminate H|]. split; [intros v H%parse_means; vm_compute in H; discriminate H|]. means_tac.
Qed.
(** The derivation of a text from the grammar. *)
Example C80_ex_grammar : json_means (str "[0, {}]") (JArr [JNum (str "0"); JObj []]).
Proof.
  exists [], (str "[0, {}]"), []. split; [reflexivity|]. split; [constructor|]. split; [constructor|].
  assert (N.to_nat 10000 = S (N.to_nat 9999)) as -> by lia.
  apply (v_array (N.to_nat 9999) (str "0, {}")).
  apply (e_more _ [] (str "0") [] _ (str " {}")); [constructor|constructor| |].
  - apply v_number. exists [], (str "0"), [], []. split; [reflexivity|]. split; [by left|]. split; [by left|]. split; by left.
  - apply (e_one _ (str " ") (str "{}") []); [repeat constructor|constructor|]. assert (N.to_nat 9999 = S (N.to_nat 9998)) as -> by lia. apply (v_empty_object _ []). constructor.
Qed.
Definition odd_query : gostr := str "{ ""Search"":""a\u003Db"", ""page"" : 2 } ".
Example C80_ex_query : exists ls l, parse_to_label_selector (str "ckube.daocloud.io/query=eyAiU2VhcmNoIjoiYVx1MDAzRGIiLCAicGFnZSIgOiAyIH0g") = Some ls /\
  b64_decode (default [] (mlabels ls !! str "ckube.daocloud.io/query")) = Some odd_query /\ json_means odd_query (JObj l) /\
  int_says l "page" 2 /\ int_says l "page_size" 0 /\ int_says l "total" 0 /\ str_says l "sort" [] /\ str_says l "search" (str "a=b").
Proof.
  eexists _, [(str "Search", JStr (str "a=b")); (str "page", JNum (str "2"))]. split; [vm_compute; reflexivity|]. split; [vm_compute; reflexivity|]. split; [means_tac|].
  destruct names_ok as (N1 & N2 & N3 & N4 & N5).
  assert (forall k name, name_ok (str name) -> fold_key k <> str name -> ~ spells k (str name)) as Hno by (intros k name Hn Hf Hs; by apply Hf, spells_fk).
  split; [|split; [|split; [|split]]].
  - left. split; [|lia]. exists [(str "Search", JStr (str "a=b"))], (str "page"), []. split; [reflexivity|]. split; [by apply fk_spells|]. intros k' v' H. by apply elem_of_nil in H.
  - right. split; [|done]. intros k v H. apply elem_of_cons in H as [[= -> ->]|H]; [by apply Hno; [|discriminate]|]. apply elem_of_list_singleton in H as [= -> ->]. by apply Hno; [|discriminate].
  - right. split; [|done]. intros k v H. apply elem_of_cons in H as [[= -> ->]|H]; [by apply Hno; [|discriminate]|]. apply elem_of_list_singleton in H as [= -> ->]. by apply Hno; [|discriminate].
  - right. split; [|done]. intros k v H. apply elem_of_cons in H as [[= -> ->]|H]; [by apply Hno; [|discriminate]|]. apply elem_of_list_singleton in H as [= -> ->]. by apply Hno; [|discriminate].
  - left. exists [], (str "Search"), [(str "page", JNum (str "2"))]. split; [reflexivity|]. split; [by apply fk_spells|]. intros k' v' H. apply elem_of_list_singleton in H as [= -> ->]. by apply Hno; [|discriminate].
Qed.
Example C80_ex_bad_query : exists ls q, parse_to_label_selector (str "ckube.daocloud.io/query=eyJwYWdlIjoyLH0g") = Some ls /\
  mlabels ls !! str "ckube.daocloud.io/query" = Some q /\ b64_decode q = Some (str "{""page"":2,} ") /\ (forall v, ~ json_means (str "{""page"":2,} ") v).
Proof.
  eexists _, _. split; [vm_compute; reflexivity|]. split; [vm_compute; reflexivity|]. split; [vm_compute; reflexivity|]. intros v H%parse_means. vm_compute in H. discriminate H.
Qed.
Example C80_ex_delete : exists l ds, json_means (default [] (rq_body capital_delete)) (JObj l) /\ last_member l "dryrun" (JArr (map JStr ((str "dsm-cluster-" ++ str "c1") :: ds))) /\ ds <> [].
Proof.
  exists [(str "dryRun", JArr [JStr (str "All")]); (str "gracePeriodSeconds", JNum (str "5")); (str "DRYRUN", JArr (map JStr [str "dsm-cluster-c1"; str "All"]))], [str "All"].
  split; [means_tac|]. split; [|discriminate]. exists [(str "dryRun", JArr [JStr (str "All")]); (str "gracePeriodSeconds", JNum (str "5"))], (str "DRYRUN"), [].
  split; [reflexivity|]. split; [apply fold_spells; [exact dryrun_name|vm_compute; reflexivity]|]. intros k' v' H. by apply elem_of_nil in H.
Qed.
Example C80_ex_config : exists s fc, conf_utf8 fc /\ json_means s (conf_json fc) /\ s <> json_text (conf_json fc) /\ fc_token fc = str "t".
Proof.
  exists (str "{ ""proxies"": [] , ""default_cluster"":""c1"",""token"":""t""}"), (FileConf [] (str "c1") (str "t")). split; [|split; [means_tac|split; [discriminate|reflexivity]]].
  split; [reflexivity|]. split; [reflexivity|]. intros p H. by apply elem_of_nil in H.
Qed.
Example C80_ex_documents : exists s v, json_means (encode_obj ex_object) v /\ json_means s v /\ s <> encode_obj ex_object.
Proof.
  destruct (json_parse (encode_obj ex_object)) as [v|] eqn:E; [|vm_compute in E; discriminate E].
  exists (encode_obj ex_object ++ str " "), v. split; [by apply parse_means|]. split.
  - apply parse_means in E as (w1 & t & w2 & Es & H1 & H2 & H3). exists w1, t, (w2 ++ str " "). split; [by rewrite Es, <- !app_assoc|]. split; [done|]. split; [|done]. apply Forall_app. split; [done|repeat constructor].
  - intros Hs. apply (f_equal length) in Hs. rewrite app_length in Hs. cbn [length str list_ascii_of_string] in Hs. lia.
Qed.
