(** C34: the tag of a DELETE is found in bodies of any form. *)
From Coq Require Import Ascii String NArith ZArith Lia.
From stdpp Require Import base gmap strings list.
From Verif Require Import ModelStr ModelJson ModelStore ModelPage ModelProxy SpecStore SpecProxy SpecBody ProofsStr ProofsProxy PropsProxy.

Lemma skip_drop old new k s : replace_go old new k s = replace_go old new 0 (drop k s).
Proof. revert s. induction k as [|k IH]; intros [|c s]; try done. cbn [replace_go drop]. apply IH. Qed.
Lemma fold_nil : fold_key2 [] = [].
Proof. reflexivity. Qed.
Lemma fold_kelvin w : fold_key2 (ascii_of_N 226 :: ascii_of_N 132 :: ascii_of_N 170 :: w) = "k"%char :: fold_key2 w.
Proof. reflexivity. Qed.
Lemma fold_long w : fold_key2 (ascii_of_N 197 :: ascii_of_N 191 :: w) = "s"%char :: fold_key2 w.
Proof. reflexivity. Qed.
Lemma fold_other c w : (forall w', c :: w <> ascii_of_N 226 :: ascii_of_N 132 :: ascii_of_N 170 :: w') -> (forall w', c :: w <> ascii_of_N 197 :: ascii_of_N 191 :: w') ->
  fold_key2 (c :: w) = lower_ascii c :: fold_key2 w.
Proof.
  intros H1 H2. unfold fold_key2 at 1, replace_all at 1. cbn [replace_go].
  destruct (has_prefix (map byte [226; 132; 170]%N) (c :: w)) eqn:E1.
  - exfalso. cbn [map has_prefix] in E1. apply andb_prop in E1 as [A1 E1]. destruct w as [|x [|y w]]; [done|by apply andb_prop in E1 as [_ E1]|].
    apply andb_prop in E1 as [A2 E1]. apply andb_prop in E1 as [A3 _]. apply ch_eqb_eq in A1, A2, A3. subst. by apply (H1 w).
  - unfold fold_key, replace_all. cbn [replace_go]. set (R := replace_go _ _ 0 w).
    destruct (has_prefix (map byte [197; 191]%N) (c :: R)) eqn:E2; [|done]. exfalso. cbn [map has_prefix] in E2. apply andb_prop in E2 as [A1 E2]. apply ch_eqb_eq in A1. subst c.
    destruct w as [|x w]; [done|]. unfold R in E2. cbn [replace_go] in E2. destruct (has_prefix (map byte [226; 132; 170]%N) (x :: w)); [done|].
    apply andb_prop in E2 as [A2 _]. apply ch_eqb_eq in A2. subst x. by apply (H2 w).
Qed.
(** Names in lower case: the field names of DeleteOptions are of this kind. *)
Definition lower_name (n : gostr) : Prop := Forall (fun a => (97 <= N_of_ascii a <= 122)%N) n.
Lemma lower_letter c a : (97 <= N_of_ascii a <= 122)%N -> lower_ascii c = a <-> c = a \/ ((65 <= N_of_ascii c <= 90)%N /\ N_of_ascii a = (N_of_ascii c + 32)%N).
Proof.
  intros Ha. split.
  - intros <-. revert Ha. destruct c as [[] [] [] [] [] [] [] []]; vm_compute; intuition (discriminate || auto).
  - intros [->|[Hc Hac]].
    + revert Ha. destruct a as [[] [] [] [] [] [] [] []]; vm_compute; intuition congruence.
    + rewrite <- (ascii_N_embedding a), Hac. destruct c as [[] [] [] [] [] [] [] []]; vm_compute in Hc; try reflexivity; exfalso; destruct Hc as [X Y]; congruence.
Qed.
Lemma spells_fold w n : spells w n -> lower_name n -> fold_key2 w = n.
Proof.
  induction 1 as [|a w n H IH|u a w n Hu Ha H IH|w n H IH|w n H IH]; intros Hn; [done|apply Forall_cons in Hn as [Ha' Hn]..].
  - rewrite fold_other; [|intros w' [= -> _]; vm_compute in Ha'; by destruct Ha'|intros w' [= -> _]; vm_compute in Ha'; by destruct Ha'].
    f_equal; [|by apply IH]. apply (lower_letter a a Ha'). by left.
  - rewrite fold_other; [|intros w' [= -> _]; vm_compute in Hu; by destruct Hu|intros w' [= -> _]; vm_compute in Hu; by destruct Hu].
    f_equal; [|by apply IH]. apply (lower_letter u a Ha'). by right.
  - rewrite fold_long. f_equal. by apply IH.
  - rewrite fold_kelvin. f_equal. by apply IH.
Qed.
Lemma starts_with (a : gostr) w : (exists w', w = a ++ w') \/ (forall w', w <> a ++ w').
Proof.
  destruct (decide (take (length a) w = a)) as [H|H].
  - left. exists (drop (length a) w). rewrite <- H at 1. by rewrite take_drop.
  - right. intros w' ->. apply H. by rewrite take_app.
Qed.
Lemma fold_spells w n : lower_name n -> fold_key2 w = n -> spells w n.
Proof.
  remember (length w) as len eqn:Hlen. revert w n Hlen. induction (lt_wf len) as [len _ IH]. intros w n -> Hn Hf.
  destruct w as [|c w]; [rewrite fold_nil in Hf; subst; constructor|].
  destruct (starts_with [ascii_of_N 226; ascii_of_N 132; ascii_of_N 170] (c :: w)) as [[w' Hw]|H1].
  { rewrite Hw in *. cbn [app] in *. rewrite fold_kelvin in Hf. subst n. apply Forall_cons in Hn as [_ Hn]. apply sp_kelvin. apply (IH (length w')); [cbn [length]; lia|done|done|done]. }
  destruct (starts_with [ascii_of_N 197; ascii_of_N 191] (c :: w)) as [[w' Hw]|H2].
  { rewrite Hw in *. cbn [app] in *. rewrite fold_long in Hf. subst n. apply Forall_cons in Hn as [_ Hn]. apply sp_long. apply (IH (length w')); [cbn [length]; lia|done|done|done]. }
  rewrite (fold_other c w H1 H2) in Hf. subst n. apply Forall_cons in Hn as [Ha Hn]. assert (spells w (fold_key2 w)) as Hsp by (apply (IH (length w)); [cbn [length]; lia|done|done|done]).
  destruct (proj1 (lower_letter c _ Ha) eq_refl) as [Hc|[Hc1 Hc2]]; [rewrite <- Hc; by constructor|by apply sp_capital].
Qed.
Lemma dryrun_name : lower_name (str "dryrun").
Proof. repeat constructor; vm_compute; discriminate. Qed.
Lemma opt_dry o k v : do_dry (set_opt_field o (k, v)) = if str_eqb (fold_key2 k) (str "dryrun") then set_strs (do_dry o) v else do_dry o.
Proof.
  destruct o as [kind api grace pre orphan policy dry]. cbn [set_opt_field do_dry].
  destruct (str_eqb (fold_key2 k) (str "dryrun")) eqn:E; [apply str_eqb_eq in E; by rewrite E|].
  by repeat match goal with |- context[str_eqb (fold_key2 k) ?n] => destruct (str_eqb (fold_key2 k) n) eqn:? end.
Qed.
Lemma set_elems_any old l : set_elems old (map JStr l) = l.
Proof. revert old. induction l as [|s l IH]; intros old; [done|]. cbn [map set_elems set_str]. by rewrite IH. Qed.
Lemma dry_last l1 k ds l2 o : spells k (str "dryrun") -> (forall k' v, (k', v) ∈ l2 -> ~ spells k' (str "dryrun")) ->
  do_dry (fold_left set_opt_field (l1 ++ (k, JArr (map JStr ds)) :: l2) o) = ds.
Proof.
  intros Hk Hl. rewrite fold_left_app. cbn [fold_left]. set (o1 := fold_left set_opt_field l1 o).
  assert (do_dry (set_opt_field o1 (k, JArr (map JStr ds))) = ds) as Hd. { rewrite opt_dry, (spells_fold _ _ Hk dryrun_name), (proj2 (str_eqb_eq _ _) eq_refl). exact (set_elems_any (do_dry o1) ds). }
  revert Hd. generalize (set_opt_field o1 (k, JArr (map JStr ds))). clear o1 Hk. intros o1. revert o1. induction l2 as [|[k' v] l2 IH]; intros o1 Hd; [done|]. cbn [fold_left]. apply IH; [intros k2 v2 Hin; apply (Hl k2 v2); by right|].
  rewrite opt_dry. destruct (str_eqb (fold_key2 k') (str "dryrun")) eqn:E; [|done]. exfalso. apply str_eqb_eq in E. apply (Hl k' v); [left|]. exact (fold_spells k' _ dryrun_name E).
Qed.
(** Whatever the body of a DELETE looks like: if its last member dryRun, in any spelling, is an array of strings and
    the first has the tag of a cluster, then the request goes to this cluster and the tag is taken out. *)
Theorem C34_tag_found E cf conf h st clients r a c ds b l1 k l2 :
  run_calls E (new_store conf) h = Ok st -> proxy E cf clients st r a -> c <> [] -> rq_method r = str "DELETE" -> rq_body r = Some b ->
  json_parse b = Some (JObj (l1 ++ (k, JArr (map JStr ((str "dsm-cluster-" ++ c) :: ds))) :: l2)) ->
  spells k (str "dryrun") -> (forall k' v, (k', v) ∈ l2 -> ~ spells k' (str "dryrun")) ->
  exists r1, relayed clients c r1 a /\ rq_body r1 = Some (encode_opts (set_dry (decode_opts b) ds)) /\
    rq_path r1 = rq_path r /\ rq_ctype r1 = rq_ctype r /\ rq_method r1 = str "DELETE".
Proof.
  intros Hrun Hp Hne Hm Hb Hj Hk Hl. assert (do_dry (decode_opts b) = (str "dsm-cluster-" ++ c) :: ds) as Hd by (unfold decode_opts; rewrite Hj; by apply dry_last).
  assert (body_tag r c (set_dry (decode_opts b) ds)) as Hbt by (split; [done|]; by exists b, ds).
  assert (~ cacheable conf r) as Hc by (intros [Hg _]; by rewrite Hm in Hg).
  destruct (C32_others_forwarded E cf conf h st Hrun clients r a Hc Hp) as [(c' & r1 & Ht & Hu & Hrel) _].
  assert (forall c', picked r c' -> c' = c) as Hpick.
  { intros c0 [c1 o1 Ht1|c1 Hn _|Hn _]; [by destruct (body_tag_fun _ _ _ _ _ Ht1 Hbt)|by destruct (Hn _ _ Hbt)|by destruct (Hn _ _ Hbt)]. }
  assert (c' = c) as -> by (destruct Ht as [[_ Hpc]|[Hpc _]]; apply Hpick in Hpc; congruence).
  destruct Hu as (U1 & U2 & U3 & _ & _ & _ & U4 & _). exists r1. split; [done|]. split; [by apply (U4 c)|]. split; [done|]. split; [done|]. congruence.
Qed.
Print Assumptions C34_tag_found.
(** The spelling of the names has no effect on a DELETE. *)
Definition respelled (kv kv' : gostr * json) : Prop := kv.2 = kv'.2 /\ (kv.1 = kv'.1 \/ exists n, lower_name n /\ spells kv.1 n /\ spells kv'.1 n).
Lemma respelled_fold l l' o : Forall2 respelled l l' -> fold_left set_opt_field l o = fold_left set_opt_field l' o.
Proof.
  intros H. revert o. induction H as [|[k v] [k' v'] l l' [Hv Hk] H IH]; intros o; [done|]. cbn [fst snd] in Hv, Hk. subst v'. cbn [fold_left]. rewrite IH. f_equal.
  unfold set_opt_field. assert (fold_key2 k = fold_key2 k') as -> by (destruct Hk as [->|(n & Hn & H1 & H2)]; [done|]; by rewrite (spells_fold _ _ H1 Hn), (spells_fold _ _ H2 Hn)). done.
Qed.
Lemma parse_clean_body cf order r b b' : rq_method r = str "DELETE" -> rq_body r = Some b -> decode_opts b = decode_opts b' -> parse_clean cf order (with_body r (Some b')) = parse_clean cf order r.
Proof.
  intros Hm Hb Hd. destruct r as [m path vars raw body ac ct]. cbn [rq_method rq_body] in Hm, Hb. subst m body. unfold parse_clean, with_body. cbn [rq_raw rq_method rq_body rq_path rq_vars rq_accept rq_ctype].
  destruct (fold_left tag_step order _) as [[sel cl] q]. unfold delete_body. rewrite Hd. change (str_eqb (str "DELETE") (str "DELETE")) with true. cbv iota.
  by destruct (do_dry (decode_opts b')) as [|d ds]; [|destruct (has_prefix cluster_prefix d)].
Qed.
Theorem C34_spelling E cf clients st r a b b' l l' : rq_method r = str "DELETE" -> rq_body r = Some b ->
  json_parse b = Some (JObj l) -> json_parse b' = Some (JObj l') -> Forall2 respelled l l' ->
  proxy E cf clients st r a -> proxy E cf clients st (with_body r (Some b')) a.
Proof.
  intros Hm Hb Hj Hj' Hl Hp. assert (decode_opts b = decode_opts b') as Hd by (unfold decode_opts; rewrite Hj, Hj'; by apply respelled_fold).
  assert (forall order, parse_clean cf order (with_body r (Some b')) = parse_clean cf order r) as Hpc by (intros order; by eapply parse_clean_body).
  destruct Hp as [order cl r' Ho Hc|order p labels cl r' Ho Hc Hs|order p labels cl r' Ho Hc Hs Hv|order ord p labels cl r' q Ho Hc Hs].
  - eapply proxy_error; [exact Ho|]. by rewrite Hpc.
  - eapply proxy_forward; [exact Ho|by rewrite Hpc|done].
  - rewrite Hm in Hs. by rewrite andb_false_r in Hs.
  - rewrite Hm in Hs. by rewrite andb_false_r in Hs.
Qed.
Print Assumptions C34_spelling.
(** That the strings of the last member dryRun decide is false in one case: null in its array stands for the string
    that an earlier one had in the same place. *)
Theorem C34_last_dry_run_refuted : exists b l1 l2 k d c ds, json_parse b = Some (JObj (l1 ++ (k, JArr [JNull]) :: l2)) /\ k = str "dryRun" /\
  (forall k' v, (k', v) ∈ l2 -> ~ spells k' (str "dryrun")) /\ do_dry (decode_opts b) = d :: ds /\ d = str "dsm-cluster-" ++ c /\ c <> [].
Proof.
  exists (str "{""dryRun"":[""dsm-cluster-c2""],""dryRun"":[null]}"), [(str "dryRun", JArr [JStr (str "dsm-cluster-c2")])], [], (str "dryRun"), (str "dsm-cluster-c2"), (str "c2"), [].
  split; [vm_compute; reflexivity|]. split; [reflexivity|]. split; [intros k' v Hin; by apply elem_of_nil in Hin|]. split; [vm_compute; reflexivity|]. split; [reflexivity|discriminate].
Qed.
Print Assumptions C34_last_dry_run_refuted.
(** A body with the member in capitals after one that is overwritten, and one with a Kelvin sign in kind. *)
Definition capital_delete : request := ex_req "DELETE" "/api/v1/namespaces/default/pods/a" "a" "" (str "{""dryRun"":[""All""],""gracePeriodSeconds"":5,""DRYRUN"":[""dsm-cluster-c1"",""All""]}").
Example C34_ex_found : exists l1 k ds, json_parse (default [] (rq_body capital_delete)) = Some (JObj (l1 ++ (k, JArr (map JStr ((str "dsm-cluster-" ++ str "c1") :: ds))) :: [])) /\ spells k (str "dryrun") /\
  exists a, proxy PropsStore.ex_env ex_cf {[ PropsStore.c1 ]} PropsStore.ex_store capital_delete a.
Proof.
  exists [(str "dryRun", JArr [JStr (str "All")]); (str "gracePeriodSeconds", JNum (str "5"))], (str "DRYRUN"), [str "All"]. split; [vm_compute; reflexivity|]. split.
  - apply fold_spells; [exact dryrun_name|vm_compute; reflexivity].
  - eexists. eapply (proxy_forward _ _ _ _ _ []); [vm_compute map_to_list; reflexivity|vm_compute; reflexivity|]. apply andb_false_r.
Qed.
Example C34_ex_spelling : exists l l', json_parse (str "{""kind"":""DeleteOptions""}") = Some (JObj l) /\
  json_parse (str "{""" ++ map byte [226; 132; 170]%N ++ str "ind"":""DeleteOptions""}") = Some (JObj l') /\ Forall2 respelled l l' /\ l <> l'.
Proof.
  eexists _, _. split; [vm_compute; reflexivity|]. split; [vm_compute; reflexivity|]. split; [|discriminate]. constructor; [|constructor]. split; [reflexivity|]. right. exists (str "kind").
  split; [repeat constructor; vm_compute; discriminate|]. split; apply fold_spells; (repeat constructor; vm_compute; discriminate) || (vm_compute; reflexivity).
Qed.
