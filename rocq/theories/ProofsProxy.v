(** Lemmas about the proxy. *)
From Coq Require Import Ascii String NArith ZArith Lia.
From stdpp Require Import base gmap strings list.
From Verif Require Import ModelStr ModelSort ProofsSort ProofsStr ModelLabels ModelPage ModelJson ModelJsonText ModelQuery ModelStore
  ModelUrl ProofsUrl ProofsJson ProofsJsonText ModelProxy SpecPage SpecStore ProofsStore SpecProxy.

(** ** Parameters *)
Lemma parse_nonempty raw k : query_parse raw !! k <> Some [].
Proof.
  unfold query_parse. rewrite fold_add_lookup, lookup_empty. destruct (vals_of k _) as [|v vs]; [done|].
  intros H. injection H as H. by destruct (default [] None ++ v :: vs) eqn:E; [apply app_eq_nil in E as [_ E]|].
Qed.
Lemma param_iff raw k v : param (query_parse raw) k v <-> exists vs, query_parse raw !! k = Some vs /\ hd [] vs = v.
Proof.
  unfold param. split; [intros (vs & H); eauto|]. intros (vs & H & <-). destruct vs as [|v vs]; [by apply parse_nonempty in H|].
  by exists vs.
Qed.
Lemma has_prefix_app p s : has_prefix p s = true <-> exists t, s = p ++ t.
Proof.
  split.
  - revert s. induction p as [|c p IH]; intros s H; [by exists s|]. destruct s as [|d s]; [done|]. cbn [has_prefix] in H.
    apply andb_true_iff in H as [H1%ch_eqb_eq H2]. destruct (IH s H2) as [t ->]. exists t. by rewrite H1.
  - intros [t ->]. induction p as [|c p IH]; [done|]. cbn [app has_prefix]. by rewrite (proj2 (ch_eqb_eq c c) eq_refl), IH.
Qed.

(** ** The loop over the parameters *)
Definition tag_of (kv : gostr * list gostr) : option gostr :=
  if str_eqb kv.1 (str "fieldManager") || str_eqb kv.1 (str "resourceVersion") then
    if has_prefix cluster_prefix (hd [] kv.2) then Some (drop (length cluster_prefix) (hd [] kv.2)) else None
  else None.
Definition name_of (kv : gostr * list gostr) : option gostr :=
  if str_eqb kv.1 (str "cluster") then Some (hd [] kv.2) else tag_of kv.
Definition sel_of (kv : gostr * list gostr) : option gostr :=
  if str_eqb kv.1 (str "labelSelector") then Some (hd [] kv.2) else None.
Definition last_def {A} (d : A) (l : list A) : A := default d (last l).
Lemma last_def_cons {A} (d x : A) l : last_def d (x :: l) = last_def x l.
Proof. unfold last_def. destruct l; [done|]. cbn [last]. by destruct (last (a :: l)) eqn:E; [|apply last_None in E]. Qed.
Lemma tag_fold order sel cl q : fold_left tag_step order (sel, cl, q) =
  (last_def sel (omap sel_of order), last_def cl (omap name_of order),
   fold_left (fun (q : values) kv => match tag_of kv with Some _ => delete kv.1 q | None => q end) order q).
Proof.
  revert sel cl q. induction order as [|kv order IH]; intros sel cl q; [done|]. cbn [fold_left omap list_omap].
  assert (tag_step (sel, cl, q) kv = (default sel (sel_of kv), default cl (name_of kv), match tag_of kv with Some _ => delete kv.1 q | None => q end)) as ->.
  { unfold tag_step, sel_of, name_of, tag_of. destruct (str_eqb kv.1 (str "labelSelector")) eqn:E1.
    { apply str_eqb_eq in E1. by rewrite E1. }
    destruct (str_eqb kv.1 (str "cluster")) eqn:E2. { apply str_eqb_eq in E2. by rewrite E2. }
    destruct (str_eqb kv.1 (str "fieldManager") || str_eqb kv.1 (str "resourceVersion")); [|done].
    by destruct (has_prefix cluster_prefix (hd [] kv.2)). }
  rewrite IH. f_equal. f_equal; [destruct (sel_of kv)|destruct (name_of kv)]; cbn [default from_option id]; by rewrite ?last_def_cons.
Qed.
Lemma fold_delete_lookup (order : list (gostr * list gostr)) (q : values) (k : gostr) :
  fold_left (fun (q : values) kv => match tag_of kv with Some _ => delete kv.1 q | None => q end) order q !! k =
  if existsb (fun kv : gostr * list gostr => match tag_of kv with Some _ => str_eqb kv.1 k | None => false end) order then None else q !! k.
Proof.
  revert q. induction order as [|kv order IH]; intros q; [done|]. cbn [fold_left existsb]. rewrite IH.
  destruct (existsb _ order); [by rewrite orb_true_r|]. rewrite orb_false_r. destruct (tag_of kv); [|done].
  destruct (str_eqb kv.1 k) eqn:E; [apply str_eqb_eq in E as <-; by rewrite lookup_delete|].
  apply str_eqb_neq in E. by rewrite lookup_delete_ne.
Qed.

Section parsed.
  Context (r : request) (order : list (gostr * list gostr)).
  Hypothesis (Hord : order ≡ₚ map_to_list (query_parse (rq_raw r))).
  Lemma order_elem k vs : (k, vs) ∈ order <-> params r !! k = Some vs.
  Proof. rewrite Hord. apply elem_of_map_to_list. Qed.
  Lemma tag_of_iff k vs c : (k, vs) ∈ order -> tag_of (k, vs) = Some c <-> tagged (params r) k c.
  Proof.
    intros Hin. apply order_elem in Hin. unfold tag_of, tagged. cbn [fst snd]. unfold params in *. rewrite param_iff.
    destruct (str_eqb k (str "fieldManager") || str_eqb k (str "resourceVersion")) eqn:E.
    - assert (k = str "fieldManager" \/ k = str "resourceVersion") as Hk.
      { apply orb_true_iff in E as [E|E]; apply str_eqb_eq in E; auto. }
      destruct (has_prefix cluster_prefix (hd [] vs)) eqn:Hp.
      + apply has_prefix_app in Hp as [t Ht]. rewrite Ht. rewrite drop_app. split.
        * intros [= ->]. split; [done|]. exists vs. done.
        * intros (_ & vs' & Hvs & Hh). rewrite Hin in Hvs. injection Hvs as <-. rewrite Ht in Hh.
          change (str "dsm-cluster-") with cluster_prefix in Hh. apply app_inv_head in Hh. by rewrite Hh.
      + split; [done|]. intros (_ & vs' & Hvs & Hh). rewrite Hin in Hvs. injection Hvs as <-.
        assert (has_prefix cluster_prefix (hd [] vs) = true); [|congruence]. apply has_prefix_app. eauto.
    - split; [done|]. intros [Hk _]. exfalso. apply orb_false_iff in E as [E1%str_eqb_neq E2%str_eqb_neq]. tauto.
  Qed.
  Lemma tagged_in k c : tagged (params r) k c -> exists vs, (k, vs) ∈ order /\ tag_of (k, vs) = Some c.
  Proof.
    intros H. pose proof H as (_ & vs & Hvs). exists ((str "dsm-cluster-" ++ c) :: vs). rewrite order_elem. split; [done|].
    apply tag_of_iff; [by apply order_elem|done].
  Qed.
  Lemma name_in c : c ∈ omap name_of order <-> names_cluster (params r) c.
  Proof.
    rewrite elem_of_list_omap. unfold names_cluster. split.
    - intros ([k vs] & Hin & Hn). unfold name_of in Hn. cbn [fst snd] in Hn. destruct (str_eqb k (str "cluster")) eqn:E.
      + apply str_eqb_eq in E as ->. injection Hn as <-. left. unfold params. apply param_iff. exists vs. split; [|done].
        by apply order_elem in Hin.
      + right. exists k. by eapply tag_of_iff.
    - intros [Hp|[k Ht]].
      + unfold params in Hp. apply param_iff in Hp as (vs & Hvs & <-). exists (str "cluster", vs). split; [by apply order_elem|done].
      + destruct (tagged_in k c Ht) as (vs & Hin & Htag). exists (k, vs). split; [done|]. unfold name_of. cbn [fst].
        destruct (str_eqb k (str "cluster")) eqn:E; [|done]. apply str_eqb_eq in E as ->. destruct Ht as [[?|?] _]; done.
  Qed.
  Lemma order_nodup : NoDup order.*1.
  Proof. rewrite Hord. apply NoDup_fst_map_to_list. Qed.
  Lemma sel_in s : last_def [] (omap sel_of order) = s <-> selector_text (params r) s.
  Proof.
    assert (omap sel_of order = match params r !! str "labelSelector" with Some vs => [hd [] vs] | None => [] end) as ->.
    { pose proof order_nodup as Hnd. pose proof (fun vs => order_elem (str "labelSelector") vs) as Hel.
      destruct (params r !! str "labelSelector") as [vs|].
      - assert ((str "labelSelector", vs) ∈ order) as Hin by (by apply Hel). clear Hord. clear Hel.
        apply elem_of_list_split in Hin as (l1 & l2 & ->). rewrite fmap_app in Hnd. cbn in Hnd.
        apply NoDup_app in Hnd as (_ & Hd & Hn2). apply NoDup_cons in Hn2 as [Hn2 _].
        assert (forall l, str "labelSelector" ∉ l.*1 -> omap sel_of l = []) as Hz.
        { clear. intros l. induction l as [|[k v] l IH]; [done|]. cbn [fmap list_fmap fst]. intros [H1 H2]%not_elem_of_cons.
          cbn [omap list_omap]. unfold sel_of at 1. cbn [fst]. rewrite (proj2 (str_eqb_neq k _)) by done. by apply IH. }
        rewrite omap_app, (Hz l1) by set_solver. change (omap sel_of ((str "labelSelector", vs) :: l2)) with (hd [] vs :: omap sel_of l2).
        by rewrite (Hz l2).
      - assert (forall vs, (str "labelSelector", vs) ∉ order) as Hno. { intros vs Hin. apply Hel in Hin. done. }
        clear -Hno. induction order as [|[k v] l IH]; [done|]. cbn [omap list_omap]. unfold sel_of at 1. cbn [fst].
        destruct (str_eqb k (str "labelSelector")) eqn:E; [apply str_eqb_eq in E as ->; destruct (Hno v); left|].
        apply IH. intros vs Hin. apply (Hno vs). by right. }
    unfold selector_text, params in *. rewrite param_iff. destruct (query_parse (rq_raw r) !! str "labelSelector") as [vs|] eqn:E; cbn; naive_solver.
  Qed.
  Definition cleaned : values :=
    fold_left (fun (q : values) kv => match tag_of kv with Some _ => delete kv.1 q | None => q end) order (params r).
  Lemma cleaned_lookup k : ((exists c, tagged (params r) k c) -> cleaned !! k = None) /\
    ((forall c, ~ tagged (params r) k c) -> cleaned !! k = params r !! k).
  Proof.
    unfold cleaned. rewrite fold_delete_lookup. destruct (existsb _ order) eqn:E.
    - apply existsb_exists in E as ([k' vs] & Hin & Ht). apply elem_of_list_In in Hin.
      destruct (tag_of (k', vs)) as [c|] eqn:Et; [|done]. cbn [fst] in Ht. apply str_eqb_eq in Ht as ->.
      apply (tag_of_iff _ _ _ Hin) in Et. split; [done|]. intros H. by destruct (H c).
    - split; [|done]. intros [c Ht]. exfalso. destruct (tagged_in k c Ht) as (vs & Hin & Htag).
      assert (existsb (fun kv : gostr * list gostr => match tag_of kv with Some _ => str_eqb kv.1 k | None => false end) order = true); [|congruence].
      apply existsb_exists. exists (k, vs). split; [by apply elem_of_list_In|]. rewrite Htag. by apply str_eqb_eq.
  Qed.
  Lemma cleaned_sub k : cleaned !! k = params r !! k \/ cleaned !! k = None /\ exists c, tagged (params r) k c.
  Proof.
    destruct (cleaned_lookup k) as [H1 H2].
    assert (forall kv : gostr * list gostr, Decision (exists c, tag_of kv = Some c)) as Hdec.
    { intros kv. destruct (tag_of kv) as [c|]; [left; eauto|right; by intros [? ?]]. }
    destruct (params r !! k) as [vs|] eqn:E.
    - destruct (Hdec (k, vs)) as [[c Hc]|Hn].
      + right. assert (tagged (params r) k c) as Ht by (apply (tag_of_iff k vs c); [by apply order_elem|done]). split; [|eauto]. apply H1. eauto.
      + left. apply H2. intros c Ht. apply Hn. exists c. apply (tag_of_iff k vs c); [by apply order_elem|done].
    - left. apply H2. intros c (_ & vs & Hvs). by rewrite E in Hvs.
  Qed.
  Lemma cleaned_nonempty k : cleaned !! k <> Some [].
  Proof. destruct (cleaned_sub k) as [->|[-> _]]; [|done]. apply parse_nonempty. Qed.
End parsed.

(** ** Forwarding *)
Lemma is_watch_iff r : is_watch r = true <-> watch_req r.
Proof.
  unfold is_watch, watch_req, occurs. rewrite orb_true_iff, contains_true. unfold params.
  assert (match query_parse (rq_raw r) !! str "watch" with
    | Some w => existsb (str_eqb (to_lower (hd [] w))) [str "1"; str "y"; str "true"] | None => false end = true <->
    exists w, param (query_parse (rq_raw r)) (str "watch") w /\ (to_lower w = str "1" \/ to_lower w = str "y" \/ to_lower w = str "true")) as ->; [|done].
  setoid_rewrite param_iff. destruct (query_parse (rq_raw r) !! str "watch") as [w|]; [|naive_solver].
  rewrite existsb_exists. split.
  - intros (x & Hx & E%str_eqb_eq). exists (hd [] w). split; [eauto|]. rewrite E. destruct Hx as [<-|[<-|[<-|[]]]]; auto.
  - intros (v & (vs & Hvs & <-) & Hv). injection Hvs as <-. destruct Hv as [Hv|[Hv|Hv]]; rewrite Hv; eexists; (split; [|by apply str_eqb_eq]); cbn; auto.
Qed.
Lemma known_method_iff m : known_method m = true <-> m ∈ methods.
Proof.
  unfold known_method. rewrite existsb_exists. split.
  - intros (x & Hx & E%str_eqb_eq). subst. by apply elem_of_list_In.
  - intros H. exists m. split; [by apply elem_of_list_In|by apply str_eqb_eq].
Qed.
Lemma sent_body_same r raw : same_request r (sent_body (with_raw r raw)).
Proof.
  unfold sent_body. destruct (str_eqb (rq_method (with_raw r raw)) (str "GET")) eqn:E; repeat split; try done.
  apply str_eqb_eq in E. cbn in *. by intros [].
Qed.
Lemma sent_body_raw r : rq_raw (sent_body r) = rq_raw r.
Proof. unfold sent_body. by destruct (str_eqb (rq_method r) (str "GET")). Qed.
Lemma pass_relayed cf clients r cl a : proxy_pass cf clients r cl = a ->
  relayed clients (match cl with [] => cf_default cf | _ => cl end) r a.
Proof.
  intros <-. unfold proxy_pass. set (c := match cl with [] => _ | _ => _ end).
  destruct (bool_decide (c ∈ clients)) eqn:Ec; [apply bool_decide_eq_true in Ec|apply bool_decide_eq_false in Ec; by constructor].
  destruct (known_method (rq_method r)) eqn:Em.
  2:{ constructor; [done|]. intros H%known_method_iff. congruence. }
  apply known_method_iff in Em. destruct (is_watch r) eqn:Ew.
  - apply is_watch_iff in Ew.
    assert (forall q, (forall k, q !! k <> Some []) -> forall k, watch_query q !! k <> Some []) as Hne.
    { intros q Hq k. unfold watch_query. cbv zeta. assert (<[str "timeout" := [str "30m"]]> q !! k <> Some []) as H.
      { destruct (decide (k = str "timeout")) as [->|?]; [by rewrite lookup_insert|by rewrite lookup_insert_ne]. }
      destruct (<[str "timeout" := [str "30m"]]> q !! str "labelSelector") as [[|v [|]]|]; try done.
      destruct (str_eqb v (str "<none>")); [|done]. destruct (decide (k = str "labelSelector")) as [->|?]; [by rewrite lookup_delete|by rewrite lookup_delete_ne]. }
    assert (params (sent_body (with_raw r (query_encode (watch_query (query_parse (rq_raw r)))))) = watch_query (params r)) as Hp.
    { unfold params. rewrite sent_body_raw. cbn [rq_raw with_raw]. apply parse_encode. apply Hne. intros k. apply parse_nonempty. }
    constructor; [done|done|done|apply sent_body_same| |].
    + rewrite Hp. unfold watch_query. cbv zeta. rewrite lookup_insert_ne by done.
      destruct (params r !! str "labelSelector") as [[|v [|]]|]; try by rewrite lookup_insert.
      destruct (str_eqb v (str "<none>")); [|by rewrite lookup_insert]. rewrite lookup_delete_ne by done. by rewrite lookup_insert.
    + intros k Hk. rewrite Hp. unfold watch_query. cbv zeta. rewrite (lookup_insert_ne (params r) (str "timeout") (str "labelSelector")) by done.
      destruct (params r !! str "labelSelector") as [[|v [|]]|] eqn:Es; try (left; by rewrite lookup_insert_ne).
      destruct (str_eqb v (str "<none>")) eqn:Ev; [|left; by rewrite lookup_insert_ne]. apply str_eqb_eq in Ev as ->.
      destruct (decide (k = str "labelSelector")) as [->|?].
      * right. split; [done|]. split; [done|]. by rewrite lookup_delete.
      * left. rewrite lookup_delete_ne by done. by rewrite lookup_insert_ne.
  - assert (sent_body r = sent_body (with_raw r (rq_raw r))) as -> by (by destruct r).
    constructor; [done|done| |apply sent_body_same|].
    + intros H%is_watch_iff. congruence.
    + unfold params. by rewrite sent_body_raw.
Qed.
(** The answer depends on nothing but the request and the clients. *)
Lemma pass_kind cf clients r cl : exists c, relayed clients c r (proxy_pass cf clients r cl).
Proof. eexists. by apply pass_relayed. Qed.

(** ** Tags *)
Lemma tagged_not_sel q c : ~ tagged q (str "labelSelector") c.
Proof. by intros [[?|?] _]. Qed.
Lemma has_prefix_drop s : has_prefix cluster_prefix s = true -> s = str "dsm-cluster-" ++ drop (length cluster_prefix) s.
Proof. intros H. apply has_prefix_app in H as [t Ht]. rewrite Ht at 2. rewrite drop_app. exact Ht. Qed.
Lemma delete_body_spec r cl : 
  let '(cl', body) := delete_body (rq_method r) cl (rq_body r) in
  (exists c o, body_tag r c o /\ cl' = c /\ body = Some (encode_opts o)) \/
  (forall c o, ~ body_tag r c o) /\ cl' = cl /\
    body = (if str_eqb (rq_method r) (str "DELETE") then match rq_body r with None => None | Some _ => Some [] end else rq_body r).
Proof.
  unfold delete_body, body_tag. destruct (str_eqb (rq_method r) (str "DELETE")) eqn:Em.
  2:{ right. apply str_eqb_neq in Em. split; [|done]. by intros c o [? _]. }
  apply str_eqb_eq in Em. destruct (rq_body r) as [b|].
  2:{ right. split; [|done]. intros c o (_ & b & ds & ? & _). done. }
  destruct (do_dry (decode_opts b)) as [|d ds] eqn:Ed.
  { right. split; [|done]. intros c o (_ & b' & ds & [= <-] & H & _). by rewrite Ed in H. }
  destruct (has_prefix cluster_prefix d) eqn:Ep.
  - left. apply has_prefix_drop in Ep. eexists _, _. split; [|done]. split; [done|]. exists b, ds. rewrite Ed. split; [done|]. by rewrite <- Ep.
  - right. split; [|done]. intros c o (_ & b' & ds' & [= <-] & H & _). rewrite Ed in H. injection H as H _.
    assert (has_prefix cluster_prefix d = true); [|congruence]. apply has_prefix_app. by exists c.
Qed.
Lemma body_tag_fun r c o c' o' : body_tag r c o -> body_tag r c' o' -> c = c' /\ o = o'.
Proof.
  intros (_ & b & ds & Hb & Hd & ->) (_ & b' & ds' & Hb' & Hd' & ->). rewrite Hb in Hb'. injection Hb' as <-. rewrite Hd in Hd'.
  by injection Hd' as -> <-.
Qed.
Lemma selector_text_fun q s s' : selector_text q s -> selector_text q s' -> s = s'.
Proof. unfold selector_text, param. intros [[vs H]|[H ->]] [[vs' H']|[H' ->]]; congruence. Qed.

(** The parameters of the cleaned request. *)
Definition clean_params (r : request) (order : list (gostr * list gostr)) (labels : option lsel) : values :=
  match labels with
  | Some ls => if is_empty_sel ls then cleaned r order else <[str "labelSelector" := [format_text ls]]> (cleaned r order)
  | None => cleaned r order
  end.
Lemma picked_last r order : order ≡ₚ map_to_list (query_parse (rq_raw r)) ->
  forall cl body, delete_body (rq_method r) (last_def [] (omap name_of order)) (rq_body r) = (cl, body) -> picked r cl.
Proof.
  intros Hord cl body Hd. pose proof (delete_body_spec r (last_def [] (omap name_of order))) as H. rewrite Hd in H.
  destruct H as [(c & o & Ht & -> & _)|(Hno & -> & _)]; [by eapply picked_body|].
  destruct (omap name_of order) as [|x l] eqn:El.
  - apply picked_none; [done|]. intros c Hc. apply (name_in r order Hord) in Hc. rewrite El in Hc. by apply elem_of_nil in Hc.
  - apply picked_param; [done|]. apply (name_in r order Hord). rewrite El, last_def_cons.
    destruct (last (x :: l)) as [y|] eqn:Ey; [|by apply last_None in Ey].
    assert (last_def x l = y) as ->. { rewrite <- (last_def_cons [] x l). unfold last_def. by rewrite Ey. }
    apply last_Some in Ey as [l' ->]. apply elem_of_app. right. by left.
Qed.
Lemma parse_clean_spec cf order r : order ≡ₚ map_to_list (query_parse (rq_raw r)) ->
  exists s cl body, selector_text (params r) s /\
    delete_body (rq_method r) (last_def [] (omap name_of order)) (rq_body r) = (cl, body) /\
    parse_clean cf order r =
      match parse_list_selector s with
      | None => inl (cl, with_body r body)
      | Some (p, labels) =>
          let cl := match cl with [] => hd [] (get_clusters (pg_search p)) | _ => cl end in
          let cl := match cl with [] => cf_default cf | _ => cl end in
          inr (p, labels, cl, with_raw (with_body r body) (query_encode (clean_params r order labels)))
      end.
Proof.
  intros Hord. unfold parse_clean. rewrite tag_fold. fold (params r). fold (cleaned r order).
  destruct (delete_body (rq_method r) (last_def [] (omap name_of order)) (rq_body r)) as [cl body] eqn:Ed.
  exists (last_def [] (omap sel_of order)), cl, body. split; [by apply (sel_in r order Hord)|]. split; [done|].
  destruct (parse_list_selector _) as [[p labels]|]; [|done]. cbv zeta. unfold clean_params. done.
Qed.
Lemma clean_params_lookup r order labels : order ≡ₚ map_to_list (query_parse (rq_raw r)) ->
  query_parse (query_encode (clean_params r order labels)) = clean_params r order labels.
Proof.
  intros Hord. apply parse_encode. intros k. unfold clean_params.
  destruct labels as [ls|]; [|by apply cleaned_nonempty]. destruct (is_empty_sel ls); [by apply cleaned_nonempty|].
  destruct (decide (k = str "labelSelector")) as [->|?]; [by rewrite lookup_insert|rewrite lookup_insert_ne by done; by apply cleaned_nonempty].
Qed.

Lemma untagged_ok cf r order : order ≡ₚ map_to_list (query_parse (rq_raw r)) ->
  match parse_clean cf order r with inl (_, r1) | inr (_, _, _, r1) => untagged r r1 end.
Proof.
  intros Hord. destruct (parse_clean_spec cf order r Hord) as (s & cl & body & Hs & Hd & ->).
  pose proof (delete_body_spec r (last_def [] (omap name_of order))) as Hb. rewrite Hd in Hb.
  assert (forall raw, let r1 := with_raw (with_body r body) raw in
    (rq_method r <> str "DELETE" -> rq_body r1 = rq_body r) /\
    (rq_method r = str "DELETE" -> rq_body r = None -> rq_body r1 = None) /\
    (rq_method r = str "DELETE" -> rq_body r <> None -> (forall c o, ~ body_tag r c o) -> rq_body r1 = Some []) /\
    (forall c o, body_tag r c o -> rq_body r1 = Some (encode_opts o))) as HB.
  { intros raw. cbn [with_raw with_body rq_body]. destruct Hb as [(c & o & Ht & -> & ->)|(Hno & -> & ->)].
    - pose proof Ht as (Hm & b & ds & Hbd & _). rewrite Hbd. split; [done|]. split; [done|]. split; [intros _ _ H; by destruct (H _ _ Ht)|].
      intros c' o' Ht'. by destruct (body_tag_fun _ _ _ _ _ Ht Ht') as [_ ->].
    - split; [|split; [|split]].
      + intros Hm. by rewrite (proj2 (str_eqb_neq _ _) Hm).
      + intros -> ->. by rewrite (proj2 (str_eqb_eq _ _) eq_refl).
      + intros -> Hn _. rewrite (proj2 (str_eqb_eq _ _) eq_refl). by destruct (rq_body r).
      + intros c o Ht. by destruct (Hno _ _ Ht). }
  destruct (parse_list_selector s) as [[p labels]|] eqn:Ep.
  - cbv zeta. unfold untagged. destruct (HB (query_encode (clean_params r order labels))) as (B1 & B2 & B3 & B4).
    do 3 (split; [done|]). do 4 (split; [assumption|]). exists s. split; [done|]. rewrite Ep.
    assert (params (with_raw (with_body r body) (query_encode (clean_params r order labels))) = clean_params r order labels) as Hpar
      by (by apply clean_params_lookup). rewrite !Hpar.
    destruct (cleaned_lookup r order Hord (str "labelSelector")) as [_ Hcs]. specialize (Hcs (fun c => tagged_not_sel _ c)).
    split; [|split].
    + unfold clean_params. destruct labels as [ls|]; [|done]. destruct (is_empty_sel ls); [done|]. by rewrite lookup_insert.
    + intros k c Ht. assert (k <> str "labelSelector") as Hk by (intros ->; by eapply tagged_not_sel).
      assert (cleaned r order !! k = None) as Hc by (apply (cleaned_lookup r order Hord); eauto).
      unfold clean_params. destruct labels as [ls|]; [|done]. destruct (is_empty_sel ls); [done|]. by rewrite lookup_insert_ne.
    + intros k Hk Hn. assert (cleaned r order !! k = params r !! k) as Hc by (by apply (cleaned_lookup r order Hord)).
      unfold clean_params. destruct labels as [ls|]; [|done]. destruct (is_empty_sel ls); [done|]. by rewrite lookup_insert_ne.
  - destruct (HB (rq_raw r)) as (B1 & B2 & B3 & B4). unfold untagged. do 3 (split; [done|]). do 4 (split; [assumption|]).
    exists s. split; [done|]. by rewrite Ep.
Qed.
Lemma target_ok cf r order : order ≡ₚ map_to_list (query_parse (rq_raw r)) ->
  match parse_clean cf order r with
  | inl (cl, _) | inr (_, _, cl, _) => target cf r (match cl with [] => cf_default cf | _ => cl end)
  end.
Proof.
  intros Hord. destruct (parse_clean_spec cf order r Hord) as (s & cl & body & Hs & Hd & ->).
  pose proof (picked_last r order Hord cl body Hd) as Hp.
  destruct (parse_list_selector s) as [[p labels]|] eqn:Ep.
  - cbv zeta. destruct cl as [|a cl].
    + right. split; [done|]. exists s. split; [done|]. rewrite Ep.
      destruct (get_clusters (pg_search p)) as [|[|b x] l]; cbn [hd]; try done; by destruct (cf_default cf).
    + left. done.
  - destruct cl as [|a cl]; [|by left]. right. split; [done|]. exists s. split; [done|]. by rewrite Ep.
Qed.
Lemma only_allowed_iff q : only_allowed q = true <-> forall k, is_Some (q !! k) -> harmless k.
Proof.
  unfold only_allowed. rewrite forallb_forall. unfold harmless. split.
  - intros H k [vs Hk]. apply elem_of_map_to_list, elem_of_list_In in Hk. apply H in Hk. cbn [fst] in Hk.
    unfold allowed_key in Hk. apply existsb_exists in Hk as (x & Hx & E%str_eqb_eq). subst. destruct Hx as [<-|[<-|[<-|[<-|[]]]]]; auto.
  - intros H [k vs] Hin. apply elem_of_list_In, elem_of_map_to_list in Hin. cbn [fst]. unfold allowed_key.
    destruct (H k) as [Hk|[Hk|[Hk|Hk]]]; [eauto|rewrite Hk..]; apply existsb_exists; (eexists; split; [|by apply str_eqb_eq]); cbn; auto.
Qed.
Lemma allowed_cleaned r order labels : order ≡ₚ map_to_list (query_parse (rq_raw r)) ->
  only_allowed (clean_params r order labels) = true <->
  forall k, is_Some (params r !! k) -> harmless k \/ exists c, tagged (params r) k c.
Proof.
  intros Hord. rewrite only_allowed_iff. split.
  - intros H k Hk. destruct (cleaned_sub r order Hord k) as [Hc|[_ Ht]]; [|by right]. left.
    destruct (decide (k = str "labelSelector")) as [->|Hne]; [by left|]. apply H. unfold clean_params.
    destruct labels as [ls|]; [|by rewrite Hc]. destruct (is_empty_sel ls); [by rewrite Hc|]. rewrite lookup_insert_ne by done. by rewrite Hc.
  - intros H k Hk. destruct (decide (k = str "labelSelector")) as [->|Hne]; [by left|].
    assert (is_Some (cleaned r order !! k)) as Hk'.
    { unfold clean_params in Hk. destruct labels as [ls|]; [|done]. destruct (is_empty_sel ls); [done|]. by rewrite lookup_insert_ne in Hk. }
    destruct (cleaned_sub r order Hord k) as [Hc|[Hc _]]; [|rewrite Hc in Hk'; by destruct Hk'].
    destruct (H k) as [?|[c Ht]]; [by rewrite <- Hc|done|]. exfalso.
    destruct (cleaned_lookup r order Hord k) as [Hn _]. rewrite Hn in Hk' by eauto. by destruct Hk'.
Qed.

(** ** Delete options *)
Lemma set_elems_strs l : set_elems [] (map JStr l) = l.
Proof. induction l as [|s l IH]; [done|]. cbn [map set_elems tl hd set_str]. by rewrite IH. Qed.
Lemma jvalid_strs l : Forall (fun s => valid_utf8 s = true) l -> map jvalid (map JStr l) = map JStr l.
Proof. induction 1 as [|s l Hs _ IH]; [done|]. cbn [map jvalid]. by rewrite IH, valid_to_valid. Qed.
Lemma opts_nums o : nums_ok (opts_json o).
Proof.
  unfold opts_json. apply nums_ok_obj. unfold str_memb, opt_mem, pre_json.
  repeat (apply Forall_app; split).
  - destruct (do_kind o); by repeat constructor.
  - destruct (do_api o); by repeat constructor.
  - destruct (do_grace o); [|done]. constructor; [|done]. apply num_lit_itoa.
  - destruct (do_pre o) as [[[u|] [v|]]|]; by repeat constructor.
  - destruct (do_orphan o); by repeat constructor.
  - destruct (do_policy o); by repeat constructor.
  - destruct (do_dry o) as [|d ds]; [done|]. constructor; [|done]. cbn [snd]. apply nums_ok_arr.
    generalize (d :: ds). intros l. induction l; by repeat constructor.
Qed.
Lemma opts_depth o : jdepth (opts_json o) <= 3.
Proof.
  unfold opts_json. apply (jdepth_obj _ 2). unfold str_memb, opt_mem, pre_json.
  repeat (apply Forall_app; split).
  - destruct (do_kind o); repeat constructor.
  - destruct (do_api o); repeat constructor.
  - destruct (do_grace o); repeat constructor.
  - destruct (do_pre o) as [[[u|] [v|]]|]; repeat constructor.
  - destruct (do_orphan o); repeat constructor.
  - destruct (do_policy o); repeat constructor.
  - destruct (do_dry o) as [|d ds]; [done|]. constructor; [|done]. cbn [snd]. apply (jdepth_arr _ 1).
    generalize (d :: ds). intros l. induction l; repeat constructor; done.
Qed.
Definition vmem (kv : gostr * json) : gostr * json := (to_valid kv.1, jvalid kv.2).
Lemma decode_encode o : valid_opts o -> decode_opts (encode_opts o) = o.
Proof.
  intros (H1 & H2 & H3 & H4 & H5 & H6). unfold decode_opts, encode_opts.
  rewrite parse_text; [|apply opts_nums|pose proof (opts_depth o); unfold max_nesting; lia].
  unfold opts_json. cbn [jvalid]. change (fun kv : gostr * json => (to_valid kv.1, jvalid kv.2)) with vmem.
  destruct o as [kind api grace pre orphan policy dry]. cbn [do_kind do_api do_grace do_pre do_orphan do_policy do_dry] in *.
  rewrite !map_app, !fold_left_app. unfold zero_opts.
  assert (fold_left set_opt_field (map vmem (str_memb (str "kind") kind)) (DelOpts [] [] None None None None []) = DelOpts kind [] None None None None []) as ->.
  { destruct kind as [|c s]; [done|]. cbn [str_memb map]. unfold vmem. cbn [fst snd jvalid]. rewrite (valid_to_valid _ H1). done. }
  assert (fold_left set_opt_field (map vmem (str_memb (str "apiVersion") api)) (DelOpts kind [] None None None None []) = DelOpts kind api None None None None []) as ->.
  { destruct api as [|c s]; [done|]. cbn [str_memb map]. unfold vmem. cbn [fst snd jvalid]. rewrite (valid_to_valid _ H2). done. }
  assert (fold_left set_opt_field (map vmem (opt_mem (str "gracePeriodSeconds") (fun z => JNum (itoa z)) grace)) (DelOpts kind api None None None None []) = DelOpts kind api grace None None None []) as ->.
  { destruct grace as [z|]; [|done]. cbn [opt_mem map]. unfold vmem. cbn [fst snd jvalid].
    transitivity (DelOpts kind api (Some (set_int 0 (JNum (itoa z)))) None None None []); [done|]. unfold set_int.
    rewrite parse_int_itoa; [done|]. unfold in_int64. lia. }
  assert (fold_left set_opt_field (map vmem (opt_mem (str "preconditions") pre_json pre)) (DelOpts kind api grace None None None []) = DelOpts kind api grace pre None None []) as ->.
  { destruct pre as [[u v]|]; [|done]. destruct H4 as [Hu Hv]. cbn [opt_mem map]. unfold vmem. cbn [fst snd].
    transitivity (DelOpts kind api grace (Some (set_pre (None, None) (jvalid (pre_json (u, v))))) None None []); [by destruct u, v|]. f_equal. f_equal.
    unfold pre_json. cbn [jvalid fst snd]. destruct u as [u|], v as [v|]; cbn [opt_mem app map fst snd jvalid valid_opt] in *;
      rewrite ?(valid_to_valid u) by done; rewrite ?(valid_to_valid v) by done; done. }
  assert (fold_left set_opt_field (map vmem (opt_mem (str "orphanDependents") JBool orphan)) (DelOpts kind api grace pre None None []) = DelOpts kind api grace pre orphan None []) as ->.
  { by destruct orphan as [b|]. }
  assert (fold_left set_opt_field (map vmem (opt_mem (str "propagationPolicy") JStr policy)) (DelOpts kind api grace pre orphan None []) = DelOpts kind api grace pre orphan policy []) as ->.
  { destruct policy as [s|]; [|done]. cbn [opt_mem map]. unfold vmem. cbn [fst snd jvalid valid_opt] in *. rewrite (valid_to_valid _ H5). done. }
  destruct dry as [|d ds]; [done|]. generalize dependent (d :: ds). intros l Hl. cbn [map fold_left]. unfold vmem. cbn [fst snd jvalid].
  rewrite jvalid_strs by done. transitivity (DelOpts kind api grace pre orphan policy (set_elems [] (map JStr l))); [done|]. by rewrite set_elems_strs.
Qed.
