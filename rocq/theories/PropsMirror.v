(** C79: replies are those of a cache filled from the clusters. *)
From Coq Require Import Ascii String NArith ZArith Lia.
From stdpp Require Import base gmap strings list.
From Verif Require PropsServer PropsFollow PropsWhole.
From Verif Require Import ModelStr ModelStore ModelProxy ModelExtend ModelServer ModelServe ModelWatcher ModelReload ModelLive ModelFollow ModelWhole
  SpecStore SpecWatcher SpecServer SpecServe SpecReload SpecFollow SpecWhole SpecMirror ProofsStore ProofsWatcher.

(** ** What a scan sees *)
Lemma filter_to_list {V} (P : gostr * V -> Prop) `{forall x, Decision (P x)} (m : gmap gostr V) : map_to_list (filter P m) ≡ₚ filter P (map_to_list m).
Proof.
  apply NoDup_Permutation; [apply NoDup_map_to_list|apply NoDup_filter, NoDup_map_to_list|]. intros [k v].
  rewrite elem_of_map_to_list, map_filter_lookup_Some, elem_of_list_filter, elem_of_map_to_list. naive_solver.
Qed.
Lemma filter_split {A} (P : A -> Prop) `{forall x, Decision (P x)} (l : list A) : l ≡ₚ filter P l ++ filter (fun x => ~ P x) l.
Proof.
  induction l as [|x l IH]; [done|]. rewrite !filter_cons. destruct (decide (P x)) as [Hp|Hp].
  - rewrite decide_False by tauto. cbn. by constructor.
  - rewrite decide_True by done. rewrite <- Permutation_middle. by constructor.
Qed.
Definition full {V} (empty : V) (kv : gostr * V) : Prop := kv.2 <> empty.
Definition scan1 (ns : gostr) (nss : clmap) (l : list entry) : Prop := exists order, iter nss order /\ scan_nss ns order l.
Lemma scan_objs_empty l : scan_objs ∅ l -> l = [].
Proof. intros (es & Hi & ->). unfold iter in Hi. rewrite map_to_list_empty in Hi. apply Permutation_nil_r in Hi as ->. done. Qed.
Lemma scan_objs_nil : scan_objs ∅ [].
Proof. exists []. split; [|done]. unfold iter. by rewrite map_to_list_empty. Qed.
Lemma scan_nss_filter ns order l : scan_nss ns order l -> scan_nss ns (filter (full ∅) order) l.
Proof.
  induction 1 as [|n os nss l H1 H2 H IH|n os nss l l' H1 H2 H IH]; [constructor| |]; rewrite filter_cons.
  - destruct (decide _); [by constructor|done].
  - destruct (decide _) as [Hd|Hd]; [by constructor|]. assert (os = ∅) as -> by (apply dec_stable; exact Hd). by rewrite (scan_objs_empty l H2).
Qed.
Lemma scan_nss_empties ns order l more : scan_nss ns order l -> Forall (fun kv => kv.2 = ∅) more -> scan_nss ns (order ++ more) l.
Proof.
  induction 1 as [|n os nss l H1 H2 H IH|n os nss l l' H1 H2 H IH]; intros Hm.
  - induction Hm as [|[n os] more Ho Hm IH]; [constructor|]. cbn in *. subst os. destruct (decide (ns = [] \/ ns = n)) as [Hd|Hd].
    + change (@nil entry) with (@nil entry ++ []). constructor; [done|apply scan_objs_nil|done].
    + constructor; [tauto|tauto|done].
  - cbn. constructor; [done|done|by apply IH].
  - cbn. constructor; [done|done|by apply IH].
Qed.
Lemma empties_forall {V} (empty : V) `{forall x : V, Decision (x = empty)} (l : list (gostr * V)) : Forall (fun kv => kv.2 = empty) (filter (fun x => ~ full empty x) l).
Proof. apply Forall_forall. intros kv [Hn _]%elem_of_list_filter. apply dec_stable. exact Hn. Qed.
Lemma scan1_filter ns nss l : scan1 ns nss l <-> scan1 ns (filter (full ∅) nss) l.
Proof.
  split; intros (order & Hi & Hs); unfold iter in *.
  - exists (filter (full ∅) order). split; [|by apply scan_nss_filter]. unfold iter. rewrite filter_to_list. by rewrite Hi.
  - exists (order ++ filter (fun x => ~ full ∅ x) (map_to_list nss)). split; [|apply scan_nss_empties; [done|apply empties_forall]].
    unfold iter. rewrite Hi, filter_to_list. symmetry. apply filter_split.
Qed.
Lemma scan_cls_pairs ns order l : scan_cls ns order l <-> exists ls, Forall2 (fun kv l => scan1 ns kv.2 l) order ls /\ l = concat ls.
Proof.
  split.
  - induction 1 as [|c nss order cls l l' Hi Hs H (ls & HF & ->)]; [by exists []|]. exists (l :: ls). split; [|done]. constructor; [|done]. by exists order.
  - intros (ls & HF & ->). induction HF as [|[c nss] l order ls (o & Hi & Hs) HF IH]; [constructor|]. cbn. by econstructor.
Qed.
Lemma scan1_empty ns l : scan1 ns ∅ l -> l = [].
Proof. intros (o & Hi & Hs). unfold iter in Hi. rewrite map_to_list_empty in Hi. apply Permutation_nil_r in Hi as ->. by inversion Hs. Qed.
Lemma scan1_nil ns : scan1 ns ∅ [].
Proof. exists []. split; [unfold iter; by rewrite map_to_list_empty|constructor]. Qed.
(** The maps without those that are empty. *)
Definition norm (cs : typemap) : typemap := filter (full ∅) ((fun nss : clmap => filter (full ∅) nss) <$> cs).
Lemma scan_norm ns cs l : scan ns cs l <-> scan ns (norm cs) l.
Proof.
  set (fl := fun nss : clmap => filter (full ∅) nss).
  assert (scan ns cs l <-> scan ns (fl <$> cs) l) as ->.
  { unfold scan, iter. split.
    - intros (order & Hi & Hs). exists (prod_map id fl <$> order). split; [rewrite map_to_list_fmap; by rewrite Hi|].
      apply scan_cls_pairs. apply scan_cls_pairs in Hs as (ls & HF & ->). exists ls. split; [|done]. apply Forall2_fmap_l. eapply Forall2_impl; [exact HF|].
      intros [c nss] l Hl. by apply (scan1_filter ns nss l).
    - intros (order & Hi & Hs). rewrite map_to_list_fmap in Hi. destruct (Permutation_map_inv _ _ Hi) as (order0 & -> & Hp). exists order0. split; [by symmetry|].
      apply scan_cls_pairs. apply scan_cls_pairs in Hs as (ls & HF & ->). exists ls. split; [|done].
      pose proof (proj1 (Forall2_fmap_l (prod_map id fl) (fun (kv : gostr * clmap) l => scan1 ns kv.2 l) order0 ls) HF) as HF'. eapply Forall2_impl; [exact HF'|].
      intros [c nss] l Hl. by apply (scan1_filter ns nss l). }
  unfold norm. fold fl. generalize (fl <$> cs). clear cs. intros cs. unfold scan, iter. split; intros (order & Hi & Hs).
  - exists (filter (full ∅) order). split; [rewrite filter_to_list; by rewrite Hi|]. clear Hi. induction Hs as [|c nss o cls l l' H1 H2 H IH]; [constructor|].
    rewrite filter_cons. destruct (decide _) as [Hd|Hd]; [by econstructor|]. assert (nss = ∅) as -> by (apply dec_stable; exact Hd).
    assert (l = []) as -> by (apply (scan1_empty ns); by exists o). done.
  - set (em := filter (fun x : gostr * clmap => ~ full ∅ x) (map_to_list cs)). exists (order ++ em). split; [rewrite Hi, filter_to_list; symmetry; apply filter_split|].
    assert (Forall (fun kv : gostr * clmap => kv.2 = ∅) em) as He by apply empties_forall. clearbody em. clear Hi.
    apply scan_cls_pairs. apply scan_cls_pairs in Hs as (ls & HF & ->). exists (ls ++ map (fun _ => []) em). split.
    + apply Forall2_app; [done|]. induction He as [|[c nss] m Hm He IH]; [constructor|]. cbn in Hm |- *. subst. constructor; [apply scan1_nil|done].
    + rewrite concat_app. rewrite <- (app_nil_r (concat ls)) at 1. f_equal. clear He. by induction em.
Qed.
(** Caches with the same objects of a type. *)
Definition same_type (g : gvr) (st st' : store) : Prop :=
  (is_Some (st_map st !! g) <-> is_Some (st_map st' !! g)) /\ forall c ns n, lookup_entry st g c ns n = lookup_entry st' g c ns n.
Lemma norm_lookup cs c nss : norm cs !! c = Some nss <-> nss <> ∅ /\ exists nss0, cs !! c = Some nss0 /\ nss = filter (full ∅) nss0.
Proof. unfold norm. rewrite map_filter_lookup_Some, lookup_fmap_Some. unfold full. cbn. naive_solver. Qed.
Lemma norm_get cs c ns n : (nss ← norm cs !! c; os ← nss !! ns; os !! n) = (nss ← cs !! c; os ← nss !! ns; (os : nsmap) !! n).
Proof.
  destruct (norm cs !! c) as [nss|] eqn:En.
  - apply norm_lookup in En as (_ & nss0 & -> & ->). cbn. destruct (filter (full ∅) nss0 !! ns) as [os|] eqn:Eo.
    + apply map_filter_lookup_Some in Eo as [-> _]. done.
    + destruct (nss0 !! ns) as [os|] eqn:Eo'; [|done]. cbn. destruct (decide (os = ∅)) as [->|Hne]; [by rewrite lookup_empty|].
      assert (filter (full ∅) nss0 !! ns = Some os) by (apply map_filter_lookup_Some; done). congruence.
  - cbn. destruct (cs !! c) as [nss0|] eqn:E0; [|done]. cbn. destruct (decide (filter (full ∅) nss0 = ∅)) as [He|Hne].
    + destruct (nss0 !! ns) as [os|] eqn:Eo; [|done]. cbn. destruct (decide (os = ∅)) as [->|Hne]; [by rewrite lookup_empty|].
      assert (filter (full ∅) nss0 !! ns = Some os) as Hs by (apply map_filter_lookup_Some; done). rewrite He in Hs. by rewrite lookup_empty in Hs.
    + assert (norm cs !! c = Some (filter (full ∅) nss0)) by (apply norm_lookup; eauto). congruence.
Qed.
(** In a map without empty maps everything has an entry. *)
Lemma norm_some cs c nss ns os : norm cs !! c = Some nss -> nss !! ns = Some os -> exists n e, os !! n = Some e.
Proof.
  intros (_ & nss0 & _ & ->)%norm_lookup [_ Hf]%map_filter_lookup_Some. unfold full in Hf. cbn in Hf.
  destruct (map_choose os Hf) as (n & e & He). eauto.
Qed.
Lemma norm_some2 cs c nss : norm cs !! c = Some nss -> exists ns os n e, nss !! ns = Some os /\ os !! n = Some e.
Proof.
  intros Hn. pose proof Hn as (Hne & _)%norm_lookup. destruct (map_choose nss Hne) as (ns & os & Ho). destruct (norm_some cs c nss ns os Hn Ho) as (n & e & He). eauto 6.
Qed.
Lemma norm_eq cs cs' : (forall c ns n, (nss ← cs !! c; os ← nss !! ns; (os : nsmap) !! n) = (nss ← cs' !! c; os ← nss !! ns; (os : nsmap) !! n)) -> norm cs = norm cs'.
Proof.
  intros H. assert (forall c ns n, (nss ← norm cs !! c; os ← nss !! ns; (os : nsmap) !! n) = (nss ← norm cs' !! c; os ← nss !! ns; (os : nsmap) !! n)) as Hn by (intros; by rewrite !norm_get).
  clear H. apply map_eq. intros c. destruct (norm cs !! c) as [nss|] eqn:E1, (norm cs' !! c) as [nss'|] eqn:E2; [|exfalso|exfalso|done].
  - f_equal. apply map_eq. intros ns. specialize (Hn c ns). rewrite E1, E2 in Hn. cbn in Hn. destruct (nss !! ns) as [os|] eqn:F1, (nss' !! ns) as [os'|] eqn:F2; [|exfalso|exfalso|done]; cbn in Hn.
    + f_equal. by apply map_eq.
    + destruct (norm_some cs c nss ns os E1 F1) as (n & e & He). rewrite Hn in He. discriminate He.
    + destruct (norm_some cs' c nss' ns os' E2 F2) as (n & e & He). rewrite <- Hn in He. discriminate He.
  - destruct (norm_some2 cs c nss E1) as (ns & os & n & e & H1 & H2). specialize (Hn c ns n). rewrite E1, E2 in Hn. cbn in Hn. rewrite H1 in Hn. cbn in Hn. congruence.
  - destruct (norm_some2 cs' c nss' E2) as (ns & os & n & e & H1 & H2). specialize (Hn c ns n). rewrite E1, E2 in Hn. cbn in Hn. rewrite H1 in Hn. cbn in Hn. congruence.
Qed.
Lemma query_same E g st st' ns p r : same_type g st st' -> query E st g ns p r <-> query E st' g ns p r.
Proof.
  intros [Hd Hl]. unfold query. destruct (st_map st !! g) as [cs|] eqn:E1, (st_map st' !! g) as [cs'|] eqn:E2.
  - enough (forall l, scan ns cs l <-> scan ns cs' l) as Hs by (split; intros (seen & H1 & H2); exists seen; (split; [by apply Hs|done])).
    intros l. rewrite (scan_norm ns cs), (scan_norm ns cs'). rewrite (norm_eq cs cs'); [done|]. intros c m n. specialize (Hl c m n). unfold lookup_entry in Hl. rewrite E1, E2 in Hl. exact Hl.
  - destruct Hd as [Hd _]. destruct Hd as [? ?]; [by eexists|done].
  - destruct Hd as [_ Hd]. destruct Hd as [? ?]; [by eexists|done].
  - done.
Qed.
Lemma same_sym g st st' : same_type g st st' -> same_type g st' st.
Proof. intros [H1 H2]. split; [by rewrite H1|]. intros. by rewrite H2. Qed.
Lemma is_store_same g st st' : same_type g st st' -> is_store_gvr st g = is_store_gvr st' g.
Proof. intros [Hd _]. unfold is_store_gvr. destruct (st_map st !! g) eqn:E1, (st_map st' !! g) eqn:E2; try done; destruct Hd as [H1 H2]; [destruct H1|destruct H2]; try done; by eexists. Qed.
Lemma get_same g st st' c ns n : same_type g st st' -> store_get st g c ns n = store_get st' g c ns n.
Proof. intros [_ Hl]. unfold store_get. by rewrite Hl. Qed.
Lemma proxy_same E cf clients st st' r a : same_type (req_gvr r) st st' -> proxy E cf clients st r a -> proxy E cf clients st' r a.
Proof.
  intros Hs H. pose proof (is_store_same _ _ _ Hs) as Hi.
  destruct H as [order cl r' H1 H2|order p labels cl r' H1 H2 H3|order p labels cl r' H1 H2 H3 H4|order ord p labels cl r' q H1 H2 H3 H4 H5 H6].
  - by eapply proxy_error.
  - eapply proxy_forward; [done|done|by rewrite <- Hi].
  - rewrite (get_same _ _ _ _ _ _ Hs). eapply proxy_get; [done|done|by rewrite <- Hi|done].
  - eapply proxy_list; [done|done|by rewrite <- Hi|done|done|by eapply query_same; [apply same_sym|]].
Qed.
Lemma services_same E cf st st' r s : same_type pod_gvr st st' -> same_type svc_gvr st st' -> services E cf st r s -> services E cf st' r s.
Proof. intros H1 H2 [cluster ord pods svcs Hc Ho Hp Hs]. econstructor; [done|done|by eapply query_same; [apply same_sym|]|by eapply query_same; [apply same_sym|]]. Qed.
Lemma serve_same E cf clients st st' up hr r :
  (forall h q s, dispatch route_handles (cf_token cf) hr = DRun h q s -> match h with HProxy => same_type (req_gvr q) st st' | HServices => same_type pod_gvr st st' /\ same_type svc_gvr st st' | _ => True end) ->
  serve E cf clients st up hr r -> serve E cf clients st' up hr r.
Proof.
  intros Hd H. destruct H as [p H|H|H|h q s p H Hh].
  - by eapply serve_redirect.
  - by eapply serve_missing.
  - by eapply serve_refused.
  - specialize (Hd _ _ _ H). eapply serve_run; [done|]. destruct Hh as [r|r|r s' Hs|r a Ha].
    + constructor.
    + constructor.
    + constructor. destruct Hd. by eapply services_same.
    + constructor. by eapply proxy_same.
Qed.

(** ** What a mirror has *)
Lemma put_unique E cf items ns n o o' : last_put E cf items ns n o -> last_put E cf items ns n o' -> o = o'.
Proof.
  induction items as [|it items IH] using rev_ind; [by intros ?%last_put_nil|]. rewrite !last_put_snoc.
  intros [(t & -> & Ht & Hk)|[Ha Hb]] [(t2 & Hi & Ht2 & Hk2)|[Ha2 Hb2]].
  - by injection Hi as _ ->.
  - exfalso. apply (Hb2 t o eq_refl); [by destruct Ht as [->| ->]|done].
  - exfalso. apply (Hb t2 o' Hi); [by destruct Ht2 as [->| ->]|done].
  - by apply IH.
Qed.
Lemma put_key E cf items ns n o : last_put E cf items ns n o -> obj_key E cf o = (ns, n).
Proof. by intros (a & t & b & _ & _ & H & _). Qed.
Lemma adds_some E conf calls st g c ns n e : run_calls E (new_store conf) calls = Ok st -> (forall k, k ∈ calls -> exists g c o, k = CAdd g c o) ->
  lookup_entry st g c ns n = Some e -> exists o, CAdd g c o ∈ calls /\ obj_key E (default ∅ (conf !! g)) o = (ns, n) /\ e = (build E (default ∅ (conf !! g)) c o).2.
Proof.
  intros Hr Ha Hl. apply (history_some E conf calls st g c ns n e Hr) in Hl as (h1 & k & h2 & o & -> & [Hk Hkey] & _ & ->). exists o. split; [|done].
  assert (k ∈ h1 ++ k :: h2) as Hin by (apply elem_of_app; right; left). destruct (Ha k Hin) as (g' & c' & o' & ->). destruct Hk as [Hk|Hk]; [|discriminate Hk]. by rewrite <- Hk.
Qed.
Lemma adds_none E conf calls st g c ns n o : run_calls E (new_store conf) calls = Ok st -> (forall k, k ∈ calls -> exists g c o, k = CAdd g c o) ->
  CAdd g c o ∈ calls -> obj_key E (default ∅ (conf !! g)) o = (ns, n) -> lookup_entry st g c ns n <> None.
Proof.
  revert st. induction calls as [|k calls IH] using rev_ind; [intros st _ _ H; by apply elem_of_nil in H|].
  intros st Hr Ha Hin Hkey. apply run_snoc in Hr as (st1 & H1 & H2). rewrite (call_lookup E _ _ _ g c ns n H2).
  assert (conf_of st1 g = default ∅ (conf !! g)) as -> by (unfold conf_of; by rewrite (run_conf E _ _ _ H1)).
  destruct (Ha k ltac:(apply elem_of_app; right; left)) as (g' & c' & o' & ->). unfold after. cbn [call_gvr call_cluster].
  destruct (decide (g' = g /\ c' = c)) as [[-> ->]|Hne].
  - destruct (decide (obj_key E (default ∅ (conf !! g)) o' = (ns, n))) as [Hk|Hk]; [done|]. apply IH; [done|intros k Hk'; apply Ha, elem_of_app; by left| |done].
    apply elem_of_app in Hin as [Hin|Hin]; [done|]. apply elem_of_list_singleton in Hin. injection Hin as ->. done.
  - apply IH; [done|intros k Hk'; apply Ha, elem_of_app; by left| |done].
    apply elem_of_app in Hin as [Hin|Hin]; [done|]. apply elem_of_list_singleton in Hin. injection Hin as -> -> ->. tauto.
Qed.
Lemma mirror_lookup E conf ws changes st i g c log ns n : mirrors E conf ws changes st -> alone ws i g c -> changes !! i = Some log ->
  lookup_entry st g c ns n = replay E (default ∅ (conf !! g)) c log ns n.
Proof.
  intros (calls & Hr & Hc) [Hi Hal] Hlog. assert (forall k, k ∈ calls -> exists g c o, k = CAdd g c o) as Ha.
  { intros k Hk. apply Hc in Hk as (i' & g' & c' & l & n1 & n2 & o & _ & _ & _ & ->). eauto. }
  pose proof (replay_last E (default ∅ (conf !! g)) c log ns n) as Hl. destruct (lookup_entry st g c ns n) as [e|] eqn:El.
  - destruct (adds_some E conf calls st g c ns n e Hr Ha El) as (o & Hin & Hkey & ->). apply Hc in Hin as (i' & g' & c' & l & n1 & n2 & o' & Hw & Hch & Hp & [= <- <- <-]).
    assert (i' = i) as -> by (by apply Hal). rewrite Hlog in Hch. injection Hch as <-. pose proof (put_key _ _ _ _ _ _ Hp) as Hkey'. rewrite Hkey in Hkey'. injection Hkey' as <- <-.
    destruct (replay _ _ _ _ _ _) as [e|]; [|by destruct (Hl o)]. destruct Hl as (o2 & Ho2 & ->). by rewrite (put_unique _ _ _ _ _ _ _ Hp Ho2).
  - destruct (replay _ _ _ _ _ _) as [e|]; [|done]. destruct Hl as (o & Ho & _). exfalso.
    apply (adds_none E conf calls st g c ns n o Hr Ha); [|by eapply put_key|done]. apply Hc. exists i, g, c, log, ns, n, o. done.
Qed.
Lemma mirror_other E conf ws changes st g c ns n : mirrors E conf ws changes st -> (g, c) ∉ ws -> lookup_entry st g c ns n = None.
Proof.
  intros (calls & Hr & Hc) Hno. destruct (lookup_entry st g c ns n) as [e|] eqn:El; [|done]. exfalso. 
  assert (forall k, k ∈ calls -> exists g c o, k = CAdd g c o) as Ha.
  { intros k Hk. apply Hc in Hk as (i' & g' & c' & l & n1 & n2 & o & _ & _ & _ & ->). eauto. }
  destruct (adds_some E conf calls st g c ns n e Hr Ha El) as (o & Hin & _). apply Hc in Hin as (i' & g' & c' & l & n1 & n2 & o' & Hw & _ & _ & [= <- <- <-]).
  apply Hno. by eapply elem_of_list_lookup_2.
Qed.
Lemma unwatched E ws conf y0 tr y g c ns n : fstart E ws conf y0 -> fruns E ws conf y0 tr y -> (g, c) ∉ ws -> lookup_entry (ws_store (fs_w y)) g c ns n = None.
Proof.
  intros (H0 & _) H Hno. induction H as [|tr y l y' H IH Hs]; [rewrite H0; apply new_lookup|].
  destruct Hs as [y j g' c' ph l w' f f' Hj Hphj Hfj Hw Hsv|y j f it Hfj Hch|y w' Hw]; cbn [fs_w]; [|done|].
  - inversion Hw as [w1 j1 g1 c1 ph1 l1 st' ph' Hj1 Hph1 Ha|]; subst. cbn [ws_store]. rewrite (act_other E _ _ _ _ _ _ _ _ g c ns n Ha); [done|].
    intros [= -> ->]. apply Hno. by eapply elem_of_list_lookup_2.
  - inversion Hw; subst. done.
Qed.
(** ** Replies *)
Lemma mirror_same E conf ws y0 tr y changes st g : fstart E ws conf y0 -> fruns E ws conf y0 tr y -> NoDup ws -> type_in_step ws y changes g ->
  mirrors E conf ws changes st -> same_type g (ws_store (fs_w y)) st.
Proof.
  intros H0 H Hnd Hin Hm. destruct (PropsFollow.fruns_wruns E ws conf y0 tr y H0 H) as [wtr Hw]. destruct (PropsLive.wruns_history E ws conf wtr _ Hw) as [h Hh]. split.
  - destruct Hm as (calls & Hc & _). by rewrite (run_dom E _ _ _ g Hh), (run_dom E _ _ _ g Hc).
  - intros c ns n. destruct (decide ((g, c) ∈ ws)) as [Hel|Hno]; [|by rewrite (unwatched E ws conf y0 tr y g c ns n H0 H Hno), (mirror_other E conf ws changes st g c ns n Hm Hno)].
    apply elem_of_list_lookup in Hel as [i Hi]. assert (alone ws i g c) as Ha by (split; [done|]; intros j Hj; by eapply NoDup_lookup).
    destruct (Hin i c Hi) as (ph & f & Hph & Hf & [Hrest Hp] & Hch). rewrite (mirror_lookup E conf ws changes st i g c _ ns n Hm Ha Hch).
    destruct (PropsFollow.fruns_inv E ws conf y0 tr y i g c H0 H Ha) as (ph' & f' & Hph' & Hf' & Hinv). rewrite Hph in Hph'. injection Hph' as <-. rewrite Hf in Hf'. injection Hf' as <-.
    destruct Hinv as (_ & l0 & l1 & init & sofar & Hl & Hsn & Hi' & _ & Hsh & _). destruct (PropsFollow.position_take f l0 l1 Hl) as [_ ->].
    rewrite <- (PropsFollow.snapshot_replay E _ l0 init l1) by done. rewrite Hrest, app_nil_r in Hi'. subst init.
    assert (PropsFollow.shown E (default ∅ (conf !! g)) g c (ws_store (fs_w y)) (sofar ++ l1)) as Hsh' by (destruct ph as [| |[]|[]|]; done). apply Hsh'.
Qed.
(** When all watches are in step, every request has exactly the possible replies that it would have if the cache had
    been filled with the objects of the clusters, each as it was after the changes dealt with. *)
Theorem C79_same_reply E cf conf clients up hr r ws y0 tr y changes st : fstart E ws conf y0 -> fruns E ws conf y0 tr y -> NoDup ws ->
  (forall g, type_in_step ws y changes g) -> mirrors E conf ws changes st ->
  serve E cf clients (ws_store (fs_w y)) up hr r <-> serve E cf clients st up hr r.
Proof.
  intros H0 H Hnd Hin Hm. assert (forall g, same_type g (ws_store (fs_w y)) st) as Hs by (intros g; by eapply mirror_same).
  split; intros Hsv; (eapply serve_same; [|exact Hsv]); intros [] q s _; try done; (split || idtac); try apply same_sym; apply Hs.
Qed.
Print Assumptions C79_same_reply.
(** The same for the reads of one type, with any query, when the watches of this type are in step. *)
Theorem C79_same_type E cf conf clients up hr r ws y0 tr y changes st g ns name : fstart E ws conf y0 -> fruns E ws conf y0 tr y -> NoDup ws ->
  type_in_step ws y changes g -> mirrors E conf ws changes st ->
  authorised cf hr -> api_addr g ns name -> rq_method (h_req hr) = str "GET" -> rq_path (h_req hr) = api_path g ns name ->
  serve E cf clients (ws_store (fs_w y)) up hr r <-> serve E cf clients st up hr r.
Proof.
  intros H0 H Hnd Hin Hm Hau Had Hmt Hp. pose proof (mirror_same E conf ws y0 tr y changes st g H0 H Hnd Hin Hm) as Hs.
  destruct (PropsServer.C59_api_paths (cf_token cf) hr g ns name Hau Had Hp) as (vars & Hd & Hg & _); [rewrite Hmt; apply elem_of_list_In; cbn; by left|by intros ?|].
  split; intros Hsv; (eapply serve_same; [|exact Hsv]); intros h q s Hq; rewrite Hd in Hq; injection Hq as <- <- <-; rewrite Hg; [done|by apply same_sym].
Qed.
Print Assumptions C79_same_type.

Lemma fmap_inj_os (l k : list obj) : map (IEvent EvAdded) l = map (IEvent EvAdded) k -> forall o, o ∈ l -> o ∈ k.
Proof.
  intros H o Ho. assert (IEvent EvAdded o ∈ map (IEvent EvAdded) k) as Hin by (rewrite <- H; by apply elem_of_list_fmap_1).
  apply elem_of_list_fmap in Hin as (o' & [= <-] & Hin). done.
Qed.
(** There is such a cache, when the watched types are those of the configuration. *)
Theorem C79_exists E conf ws changes : (forall g c, (g, c) ∈ ws -> is_Some (conf !! g)) -> exists st, mirrors E conf ws changes st.
Proof.
  intros Hc. set (calls := mjoin (imap (fun i gc => match changes !! i with Some log => map (CAdd gc.1 gc.2) (PropsFollow.snap E (default ∅ (conf !! gc.1)) log) | None => [] end) ws)).
  assert (forall k, k ∈ calls <-> exists i g c log ns n o, ws !! i = Some (g, c) /\ changes !! i = Some log /\ last_put E (default ∅ (conf !! g)) log ns n o /\ k = CAdd g c o) as Hk.
  { intros k. unfold calls. rewrite elem_of_list_join. split.
    - intros (l & Hk & Hl). apply elem_of_lookup_imap in Hl as (i & [g c] & -> & Hi). cbn [fst snd] in Hk. destruct (changes !! i) as [log|] eqn:Ech; [|by apply elem_of_nil in Hk].
      apply elem_of_list_fmap in Hk as (o & -> & Ho). destruct (obj_key E (default ∅ (conf !! g)) o) as [ns n] eqn:Eo. exists i, g, c, log, ns, n, o. split; [done|]. split; [done|]. split; [|done].
      destruct (PropsFollow.snapshot_snap E (default ∅ (conf !! g)) log) as (os & Hos & _ & Hput). apply Hput. split; [|done].
      exact (fmap_inj_os _ _ Hos o Ho).
    - intros (i & g & c & log & ns & n & o & Hi & Hch & Hp & ->). eexists. split; [|apply elem_of_lookup_imap; exists i, (g, c); split; [reflexivity|done]]. cbn [fst snd]. rewrite Hch. apply elem_of_list_fmap. exists o. split; [done|].
      destruct (PropsFollow.snapshot_snap E (default ∅ (conf !! g)) log) as (os & Hos & _ & Hput). apply (fmap_inj_os os _ (eq_sym Hos)). exact (proj1 (proj1 (Hput ns n o) Hp)). }
  destruct (proj2 (run_ok_iff E conf calls)) as [st Hst]; [|exists st, calls; by split]. apply Forall_forall. intros k Hin. apply Hk in Hin as (i & g & c & log & ns & n & o & Hi & _ & _ & ->).
  apply (Hc g c). by eapply elem_of_list_lookup_2.
Qed.
Print Assumptions C79_exists.
(** A cache filled with the objects of one moment is right: it has the object that is there, and nothing else. *)
Theorem C79_content E conf ws changes st i g c log ns n : mirrors E conf ws changes st -> alone ws i g c -> changes !! i = Some log ->
  match lookup_entry st g c ns n with
  | Some e => exists o, last_put E (default ∅ (conf !! g)) log ns n o /\ e = (build E (default ∅ (conf !! g)) c o).2
  | None => forall o, ~ last_put E (default ∅ (conf !! g)) log ns n o
  end.
Proof. intros Hm Ha Hl. rewrite (mirror_lookup E conf ws changes st i g c log ns n Hm Ha Hl). apply replay_last. Qed.
Print Assumptions C79_content.

(** ** The running process *)
Lemma all_times (ws : list (gvr * gostr)) (P : nat -> nat -> Prop) : (forall i gc, ws !! i = Some gc -> exists T, forall t, T <= t -> P i t) ->
  exists T, forall t, T <= t -> forall i gc, ws !! i = Some gc -> P i t.
Proof.
  induction ws as [|x ws IH] using rev_ind; intros H; [exists 0; intros t _ i gc Hi; done|].
  destruct IH as [T HT]; [intros i gc Hi; apply (H i gc); by apply lookup_app_l_Some|]. destruct (H (length ws) x) as [T1 HT1]; [by apply list_lookup_middle|].
  exists (Nat.max T T1). intros t Ht i gc Hi. apply lookup_app_Some in Hi as [Hi|[Hge Hi]]; [apply (HT t ltac:(lia) i gc Hi)|].
  assert (i = length ws) as -> by (apply lookup_lt_Some in Hi; cbn in Hi; lia). apply HT1. lia.
Qed.
(** When the files are left alone and all clusters come to rest, the process comes to answer every request as a
    cache filled with the objects that the clusters have, for good, whatever was loaded and cached before. *)
Theorem C79_process E cf kube file ld0 xs ls T : whole_execution E cf kube file ld0 xs ls -> files_rest ls T -> reload_fair xs ls ->
  exists T1 n ld, (forall t, T1 <= t -> handles (wh_sys (xs t)) = (n, n, n, n) /\ PropsLive.last_load kube file ld0 (history ls t) ld) /\
    forall logs T2, T1 <= T2 -> NoDup (ld_watch ld) ->
      (forall i g c, ld_watch ld !! i = Some (g, c) -> watch_fair n i xs ls /\ watch_calm n i ls T2 /\
        exists ph f, at_watch n i (xs T2) ph f /\ logs !! i = Some (fd_log f) /\
          ((exists ns name o, last_put E (default ∅ (ld_index ld !! g)) (fd_log f) ns name o) \/ ph = PStream false)) ->
      exists T', forall st sv hr ta t r, mirrors E (ld_index ld) (ld_watch ld) logs st -> T1 <= ta -> T' <= t -> answered_at E sv xs ls hr ta t r ->
        serve E (ld_conf ld) (dom (ld_clients ld)) st (apis_of (ld_clients ld) sv) hr r.
Proof.
  intros Hex Hrest Hfair. destruct (PropsWhole.C78_settles E cf kube file ld0 xs ls T Hex Hrest Hfair) as (T1 & n & ld & HT1 & Hset). exists T1, n, ld.
  split; [intros t Ht; destruct (Hset t Ht) as (_ & ? & _ & ?); done|]. intros logs T2 HT2 Hnd Hall.
  destruct (PropsWhole.part_execution E cf kube file ld0 xs ls T1 n ld T2 Hex) as (t0 & ys & ks & Ht0 & Hys & Hpex & Hns & Hfi & Hci & _); [intros t Ht; by destruct (Hset t Ht) as (? & ? & ? & _)|done|].
  destruct (all_times (ld_watch ld) (fun i t => exists f', ws_phases (fs_w (ys t)) !! i = Some (PStream false) /\ fs_feeds (ys t) !! i = Some f' /\
    fd_rest f' = [] /\ fd_behind f' = [] /\ logs !! i = Some (fd_log f'))) as [T' HT'].
  { intros i [g c] Hi. destruct (Hall i g c Hi) as (Hwf & Hcalm & ph & f & Hat & Hlog & Hsome).
    assert (alone (ld_watch ld) i g c) as Hal by (split; [done|]; intros j Hj; by eapply NoDup_lookup).
    destruct (PropsWhole.part_of n (xs T2) ld i ph f (proj1 (Hys T2 Ht0)) Hat) as [Hp Hf]. rewrite <- (proj2 (Hys T2 Ht0)) in Hp, Hf.
    destruct (PropsFollow.caught_up E (ld_watch ld) (ld_index ld) ys ks i g c (T2 - t0) f Hpex Hns (Hfi i Hwf) (Hci i Hcalm) Hal Hf) as [Ti HTi].
    { destruct Hsome as [Hs|Hs]; [by left|right]. by rewrite Hp, Hs. }
    exists Ti. intros t Ht. destruct (HTi t Ht) as (f' & A & B & C & D & F). exists f'. rewrite F. done. }
  exists (Nat.max T1 (t0 + T')). intros st sv hr ta t r Hm Hta Ht Hans.
  destruct (PropsWhole.answered_serve E cf kube file ld0 xs ls sv hr ta t r Hex Hans) as (n' & ld' & w & G1 & G2 & _ & G4 & G5); [by apply Hset|intros u W Hu _; apply Hrest; lia|].
  destruct (Hset t ltac:(lia)) as (_ & Hh & Hld' & _). assert (n' = n) as -> by congruence. assert (ld' = ld) as -> by congruence.
  assert (fs_w (ys (t - t0)) = w) as Hw. { destruct (Hys t ltac:(lia)) as [(w' & f1 & Hw' & Hf1 & _) ->]. unfold PropsWhole.part. rewrite Hw', Hf1. cbn. congruence. }
  rewrite <- Hw in G5. destruct (PropsFollow.ex_runs E _ _ ys ks Hpex (t - t0)) as [tr Hr].
  apply (C79_same_reply E (ld_conf ld) (ld_index ld) _ _ hr r (ld_watch ld) (ys 0) tr (ys (t - t0)) logs st (proj1 Hpex) Hr Hnd); [|done|done].
  intros g i c Hi. destruct (HT' (t - t0) ltac:(lia) i (g, c) Hi) as (f' & A & B & C & D & F). exists (PStream false), f'. split; [done|]. split; [done|]. split; [done|].
  rewrite F. f_equal. unfold position. rewrite D. cbn. by rewrite Nat.sub_0_r, take_ge by done.
Qed.
Print Assumptions C79_process.

(** ** Examples *)
Import PropsStore PropsFollow.
(** Two pods of one cluster: the goroutine has dealt with both. *)
Lemma one_step f : fs_feeds (again 7) !! 0 = Some f -> length (fd_rest f) = 0 -> length (fd_behind f) = 0 -> fd_log f = log_ab -> ws_phases (fs_w (again 7)) !! 0 = Some (PStream false) ->
  forall g, type_in_step one_ws (again 7) [log_ab] g.
Proof.
  intros Hf H1 H2 Hl Hp g [|j] c Hi; [|destruct j; discriminate Hi]. exists (PStream false), f. split; [exact Hp|]. split; [exact Hf|]. split; [split; [by apply nil_length_inv|exact I]|].
  unfold position. rewrite H2, Hl. reflexivity.
Qed.
Example C79_ex : exists tr st, fstart ex_env one_ws ex_conf (begin [pa; pb]) /\ fruns ex_env one_ws ex_conf (begin [pa; pb]) tr (again 7) /\ NoDup one_ws /\
  (forall g, type_in_step one_ws (again 7) [log_ab] g) /\ mirrors ex_env ex_conf one_ws [log_ab] st /\
  alone one_ws 0 pods c1 /\ last_put ex_env (default ∅ (ex_conf !! pods)) log_ab (str "default") (str "b") pb /\ is_Some (lookup_entry st pods c1 (str "default") (str "b")).
Proof.
  destruct (cmds_runs ex_env one_ws ex_conf again_cmds (begin [pa; pb]) 7) as (tr & Hr & _). fold (again 7) in Hr. destruct (seen_feed _ _ _ _ _ _ again_7) as (f & Hf & Hf1 & Hf2).
  destruct (C79_exists ex_env ex_conf one_ws [log_ab]) as [st Hst]. { intros g c Hin. apply elem_of_list_singleton in Hin. injection Hin as -> ->. rewrite ex_conf_pods. by eexists. }
  exists tr, st. split; [exact (begin_ok _)|]. split; [exact Hr|]. split; [apply NoDup_singleton|]. split; [apply (one_step f Hf Hf1 Hf2); [exact (log_feed _ _ _ again_log_7 Hf)|exact (seen_phase _ _ _ _ _ again_7)]|].
  split; [exact Hst|]. split; [exact one_alone|]. split; [exact log_ab_b|].
  pose proof (C79_content ex_env ex_conf one_ws [log_ab] st 0 pods c1 log_ab (str "default") (str "b") Hst one_alone eq_refl) as Hc.
  destruct (lookup_entry st pods c1 (str "default") (str "b")) as [e|]; [by eexists|]. exfalso. exact (Hc pb log_ab_b).
Qed.
Print Assumptions C79_ex.
(** The process of C78_ex meets the hypotheses of C79_process too: its configuration watches one type. *)
Example C79_ex_process : exists xs ls T T2 f x st sv ta t, whole_execution ex_env true [] (str "conf") (PropsLive.one_load c1) xs ls /\ files_rest ls T /\ reload_fair xs ls /\ T <= T2 /\
  handles (wh_sys (xs T2)) = (1, 1, 1, 1) /\ NoDup (ld_watch (PropsLive.one_load c2)) /\
  (forall i g c, ld_watch (PropsLive.one_load c2) !! i = Some (g, c) -> watch_fair 1 i xs ls /\ watch_calm 1 i ls T2 /\
    exists ph f', at_watch 1 i (xs T2) ph f' /\ [fd_log f] !! i = Some (fd_log f') /\
      ((exists ns name o, last_put ex_env (default ∅ (ld_index (PropsLive.one_load c2) !! g)) (fd_log f') ns name o) \/ ph = PStream false)) /\
  mirrors ex_env (ld_index (PropsLive.one_load c2)) (ld_watch (PropsLive.one_load c2)) [fd_log f] st /\ T2 <= ta /\
  answered_at ex_env sv xs ls PropsLive.get_a ta t (Some (Reply 200 [BObject x])).
Proof.
  destruct PropsWhole.C78_ex as (xs & ls & T & ta & t & f & x & H1 & _ & H3 & H4 & H5 & H6 & H7 & H8 & H9 & H10 & H11 & _ & H13 & _ & _ & H16 & _ & H18).
  destruct (C79_exists ex_env (ld_index (PropsLive.one_load c2)) (ld_watch (PropsLive.one_load c2)) [fd_log f]) as [st Hst].
  { intros g c Hin. apply elem_of_list_singleton in Hin. injection Hin as -> ->. exact H9. }
  exists xs, ls, T, ta, f, x, st, (Servers (fun _ _ => None) (fun _ _ => None)), ta, t. split; [exact H1|]. split; [exact H3|]. split; [exact H4|]. split; [exact H5|]. split; [exact H6|]. split; [apply NoDup_singleton|].
  split; [|split; [exact Hst|split; [lia|exact H18]]]. intros [|i] g c Hi; [|destruct i; discriminate Hi]. split; [exact H10|]. split; [exact H11|]. exists (PStream false), f. split; [exact H13|]. split; [reflexivity|]. by right.
Qed.
Print Assumptions C79_ex_process.
