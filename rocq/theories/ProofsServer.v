(** Lemmas on paths and the route table. *)
From Coq Require Import Ascii String NArith ZArith Lia.
From stdpp Require Import base gmap strings list.
From Verif Require Import ModelStr ModelJson ModelStore ModelProxy ModelServer SpecPage SpecServer ProofsStr.

(** ** Canonical paths *)
Lemma seg_path_join l : l <> [] -> seg_path l = "/"%char :: join (str "/") l.
Proof.
  intros Hl. destruct l as [|s l]; [done|]. clear Hl. revert s. induction l as [|s' l IH]; intros s.
  - cbn. by rewrite app_nil_r.
  - change (seg_path (s :: s' :: l)) with ("/"%char :: s ++ seg_path (s' :: l)). rewrite IH. done.
Qed.
Lemma split_seg_path l : Forall (fun s => "/"%char ∉ s) l -> split_on "/"%char (seg_path l) = [] :: l.
Proof.
  intros Hl. destruct l as [|s l]; [done|]. change (seg_path (s :: l)) with ([] ++ "/"%char :: (s ++ seg_path l)).
  rewrite split_on_app by set_solver. f_equal. revert s Hl. induction l as [|s' l IH]; intros s Hl.
  - cbn. rewrite app_nil_r. apply split_on_nosep. by inversion Hl.
  - change (seg_path (s' :: l)) with ("/"%char :: s' ++ seg_path l). inversion Hl; subst. rewrite split_on_app by done. by rewrite IH.
Qed.
Lemma seg_path_app l l' : seg_path (l ++ l') = seg_path l ++ seg_path l'.
Proof. unfold seg_path. by rewrite flat_map_app. Qed.
Lemma plain_noslash l : Forall plain_seg l -> Forall (fun s => "/"%char ∉ s) l.
Proof. intros H. eapply Forall_impl; [exact H|]. by intros s (_ & ? & _). Qed.
Lemma clean_seg_plain acc s : plain_seg s -> clean_seg acc s = s :: acc.
Proof.
  intros (H1 & H2 & H3 & H4). unfold clean_seg. apply str_eqb_neq in H1, H3, H4. by rewrite H1, H3, H4.
Qed.
Lemma clean_segs_plain l acc : Forall plain_seg l -> fold_left clean_seg l acc = reverse l ++ acc.
Proof.
  revert acc. induction l as [|s l IH]; intros acc Hl; [done|]. inversion Hl; subst. cbn [fold_left]. rewrite clean_seg_plain, IH by done.
  by rewrite reverse_cons, <- app_assoc.
Qed.
Lemma clean_seg_ok acc s : "/"%char ∉ s -> Forall plain_seg acc -> Forall plain_seg (clean_seg acc s).
Proof.
  intros Hs Ha. unfold clean_seg. destruct (str_eqb_spec s []); [done|]. destruct (str_eqb_spec s (str ".")); [done|].
  destruct (str_eqb_spec s (str "..")); cbn [orb]; [destruct Ha; [constructor|done]|]. by constructor.
Qed.
Lemma clean_segs_ok l acc : Forall (fun s => "/"%char ∉ s) l -> Forall plain_seg acc -> Forall plain_seg (fold_left clean_seg l acc).
Proof.
  revert acc. induction l as [|s l IH]; intros acc Hl Ha; [done|]. inversion Hl; subst. cbn [fold_left]. apply IH; [done|]. by apply clean_seg_ok.
Qed.
Lemma seg_path_last l d : Forall plain_seg l -> last (seg_path l) = Some d -> d <> "/"%char.
Proof.
  intros Hl. destruct l as [|s l] using rev_ind; [done|]. apply Forall_app in Hl as [_ Hs]. inversion Hs as [|? ? (Hn & Hsl & _) _]; subst.
  rewrite seg_path_app. change (seg_path [s]) with ("/"%char :: s ++ []). rewrite app_nil_r.
  destruct s as [|d' s] using rev_ind; [done|]. change ("/"%char :: s ++ [d']) with (("/"%char :: s) ++ [d']). rewrite app_assoc, last_snoc.
  intros [= ->] ->. set_solver.
Qed.
Lemma path_clean_plain l : Forall plain_seg l -> path_clean (seg_path l) = str "/" ++ join (str "/") l /\
  path_clean (seg_path l ++ str "/") = str "/" ++ join (str "/") l.
Proof.
  intros Hl. unfold path_clean. split.
  - rewrite split_seg_path by (by apply plain_noslash). cbn [fold_left]. change (clean_seg [] []) with (@nil gostr).
    rewrite clean_segs_plain by done. by rewrite app_nil_r, reverse_involutive.
  - assert (seg_path l ++ str "/" = seg_path (l ++ [[]])) as -> by (by rewrite seg_path_app).
    rewrite split_seg_path. 2:{ apply Forall_app. split; [by apply plain_noslash|]. constructor; [set_solver|constructor]. }
    cbn [fold_left]. change (clean_seg [] []) with (@nil gostr). rewrite fold_left_app, (clean_segs_plain l) by done.
    rewrite app_nil_r. cbn [fold_left]. change (clean_seg (reverse l) []) with (reverse l). by rewrite reverse_involutive.
Qed.
Lemma canonical_iff p : str_eqb (clean_path p) p = true <-> canonical p.
Proof.
  rewrite str_eqb_eq. split.
  - intros Hp. destruct p as [|c p]; [done|]. unfold clean_path in Hp.
    set (p1 := if ch_eqb c "/"%char then c :: p else "/"%char :: c :: p) in *.
    set (l := reverse (fold_left clean_seg (split_on "/"%char p1) [])).
    assert (Forall plain_seg l) as Hl. { apply Forall_reverse, clean_segs_ok; [apply split_on_nosep_all|done]. }
    assert (path_clean p1 = "/"%char :: join (str "/") l) as Hpc by done.
    rewrite Hpc in Hp. exists l. split; [done|]. destruct (decide (l = [])) as [->|Hne].
    + right. cbn in Hp |- *. rewrite andb_false_r in Hp. done.
    + rewrite <- seg_path_join in Hp by done. destruct (_ && _) in Hp; [right|left]; done.
  - intros (l & Hl & Hp). destruct (path_clean_plain l Hl) as [H1 H2].
    assert (exists p', p = "/"%char :: p') as [p' Hp'].
    { destruct Hp as [[Hne ->]| ->]; [rewrite seg_path_join by done; by eexists|]. destruct l; by eexists. }
    rewrite Hp'. unfold clean_path. assert (ch_eqb "/"%char "/"%char = true) as -> by done. rewrite <- Hp'. clear p' Hp'.
    destruct Hp as [[Hne ->]| ->].
    + rewrite H1. destruct (last (seg_path l)) as [d|] eqn:Ed.
      * assert (ch_eqb d "/"%char = false) as ->. { apply Ascii.eqb_neq. by eapply seg_path_last. } by rewrite seg_path_join.
      * by rewrite seg_path_join.
    + rewrite last_app. change (last (str "/")) with (Some "/"%char). cbn match. assert (ch_eqb "/"%char "/"%char = true) as -> by done. rewrite H2. destruct (decide (l = [])) as [->|Hne]; [done|].
      rewrite <- (seg_path_join l) at 1 by done. change (str "/" ++ join (str "/") l) with ("/"%char :: join (str "/") l). rewrite <- seg_path_join by done.
      destruct (str_eqb_spec (seg_path l) (str "/")) as [He|]; [|done]. exfalso.
      assert (last (seg_path l) = Some "/"%char) as Hla by (by rewrite He). by apply (seg_path_last l _ Hl) in Hla.
Qed.
Lemma clean_path_canonical p : canonical (clean_path p).
Proof.
  destruct p as [|c p]; [exists []; split; [done|by right]|]. unfold clean_path.
  set (p1 := if ch_eqb c "/"%char then c :: p else "/"%char :: c :: p).
  set (l := reverse (fold_left clean_seg (split_on "/"%char p1) [])).
  assert (Forall plain_seg l) as Hl. { apply Forall_reverse, clean_segs_ok; [apply split_on_nosep_all|done]. }
  assert (path_clean p1 = "/"%char :: join (str "/") l) as -> by done.
  exists l. split; [done|]. destruct (decide (l = [])) as [->|Hne].
  - right. cbn [join]. change (str_eqb ["/"%char] (str "/")) with true. cbn [negb]. by rewrite andb_false_r.
  - rewrite <- seg_path_join by done. destruct (_ && _); [right|left]; done.
Qed.
Lemma canonical_slash p : canonical p -> has_prefix (str "/") p = true.
Proof. intros (l & _ & [[Hl ->]| ->]); [rewrite seg_path_join by done|destruct l]; done. Qed.
Lemma join_split c s : join [c] (split_on c s) = s.
Proof.
  induction s as [|x s IH]; [done|]. cbn [split_on]. destruct (ch_eqb x c) eqn:Ex.
  - apply Ascii.eqb_eq in Ex as ->. pose proof (split_on_nonnil c s) as Hn. destruct (split_on c s) as [|q qs] eqn:Es; [done|].
    change (join [c] ([] :: q :: qs)) with ([] ++ [c] ++ join [c] (q :: qs)). by rewrite IH.
  - pose proof (split_on_nonnil c s) as Hn. destruct (split_on c s) as [|q qs] eqn:Es; [done|].
    destruct qs as [|q' qs]; cbn [join] in IH |- *; by rewrite <- IH.
Qed.

(** ** The table *)
Lemma find_route_some rs m p r vars : find_route rs m p = Some (r, vars) -> r ∈ rs /\ route_match r m p = Some vars.
Proof.
  induction rs as [|r' rs IH]; [done|]. cbn [find_route]. destruct (route_match r' m p) as [v|] eqn:E.
  - intros [= <- <-]. split; [left|done].
  - intros H. destruct (IH H). split; [by right|done].
Qed.
Lemma find_route_total m p : has_prefix (str "/") p = true -> exists r vars, find_route route_handles m p = Some (r, vars).
Proof.
  intros Hp. assert (forall rs r, r ∈ rs -> is_Some (route_match r m p) -> exists r' vars, find_route rs m p = Some (r', vars)) as H.
  { induction rs as [|r0 rs IH]; intros r Hr Hs; [by apply elem_of_nil in Hr|]. cbn [find_route].
    destruct (route_match r0 m p) as [v|] eqn:E; [eauto|]. apply elem_of_cons in Hr as [->|Hr]; [by destruct Hs; congruence|by eapply IH]. }
  apply (H _ (Route (str "/") [] HProxy true 200 true)).
  - unfold route_handles. do 12 right. left.
  - unfold route_match. cbn [r_prefix r_path]. by rewrite Hp.
Qed.
Lemma table_auth r : r ∈ route_handles -> r_auth r = false ->
  r = Route (str "/healthy") (str "GET") HHealthy false 0 false \/ r = Route (str "/metrics") (str "GET") HMetrics false 0 false.
Proof.
  unfold route_handles. intros Hr Ha. apply elem_of_cons in Hr as [->|Hr]; [by left|]. apply elem_of_cons in Hr as [->|Hr]; [by right|]. exfalso.
  repeat (apply elem_of_cons in Hr as [->|Hr]; [done|]). by apply elem_of_nil in Hr.
Qed.
Lemma table_handler r : r ∈ route_handles -> r_auth r = true -> (r_handler r = HServices \/ r_handler r = HProxy) /\ r_status r = 200%Z.
Proof.
  unfold route_handles. intros Hr Ha. do 2 (apply elem_of_cons in Hr as [->|Hr]; [done|]).
  repeat (apply elem_of_cons in Hr as [->|Hr]; [split; [cbn; tauto|done]|]). by apply elem_of_nil in Hr.
Qed.
Lemma open_match m p : route_match (Route (str "/healthy") (str "GET") HHealthy false 0 false) m p =
    (if bool_decide (m = str "GET" /\ p = str "/healthy") then Some ∅ else None) /\
  route_match (Route (str "/metrics") (str "GET") HMetrics false 0 false) m p =
    (if bool_decide (m = str "GET" /\ p = str "/metrics") then Some ∅ else None).
Proof.
  assert (forall w, "/"%char ∉ w -> parse_seg w = TLit w ->
    match_segs (template ("/"%char :: w)) (split_on "/"%char p) = if bool_decide (p = "/"%char :: w) then Some ∅ else None) as H.
  { intros w Hw Hpw. unfold template. change ("/"%char :: w) with ([] ++ "/"%char :: w) at 1. rewrite split_on_app, split_on_nosep by set_solver.
    cbn [map]. rewrite Hpw. change (parse_seg []) with (TLit []). destruct (bool_decide_reflect (p = "/"%char :: w)) as [->|Hne].
    - change ("/"%char :: w) with ([] ++ "/"%char :: w). rewrite split_on_app, split_on_nosep by set_solver. cbn [match_segs str_eqb]. by rewrite str_eqb_refl.
    - destruct (split_on "/"%char p) as [|a [|b [|? ?]]] eqn:Es; cbn [match_segs].
      + done.
      + by destruct (str_eqb [] a).
      + destruct (str_eqb_spec [] a) as [<-|]; [|done]. destruct (str_eqb_spec w b) as [<-|]; [|done].
        destruct Hne. rewrite <- (join_split "/"%char p), Es. done.
      + destruct (str_eqb [] a); [|done]. by destruct (str_eqb w b). }
  unfold route_match, method_ok. cbn [r_prefix r_path r_method].
  change (str "/healthy") with ("/"%char :: str "healthy"). change (str "/metrics") with ("/"%char :: str "metrics").
  rewrite !H by (try done; cbn; set_solver).
  change (match str "GET" with [] => existsb (str_eqb m) any_methods | a :: l => str_eqb (a :: l) m end) with (str_eqb (str "GET") m).
  destruct (str_eqb_spec (str "GET") m) as [<-|Hm].
  - split; (erewrite bool_decide_ext; [reflexivity|]; tauto).
  - split; (rewrite bool_decide_false; [done|]; intros [-> _]; by apply Hm).
Qed.

(** ** Dispatch *)
Lemma dispatch_canonical tok hr : canonical (rq_path (h_req hr)) ->
  exists rt vars, rt ∈ route_handles /\ route_match rt (rq_method (h_req hr)) (rq_path (h_req hr)) = Some vars /\
    find_route route_handles (rq_method (h_req hr)) (rq_path (h_req hr)) = Some (rt, vars) /\
    dispatch route_handles tok hr =
      if r_auth rt && negb (str_eqb tok []) && negb (contains (h_auth hr) tok) then DUnauthorized
      else DRun (r_handler rt) (with_vars (h_req hr) vars) (r_status rt).
Proof.
  intros Hc. destruct (find_route_total (rq_method (h_req hr)) (rq_path (h_req hr))) as (rt & vars & Hf); [by apply canonical_slash|].
  exists rt, vars. destruct (find_route_some _ _ _ _ _ Hf) as [? ?]. split_and!; [done..|]. unfold dispatch.
  apply canonical_iff in Hc. rewrite Hc. cbn [negb]. by rewrite Hf.
Qed.
Lemma dispatch_moved tok hr : ~ canonical (rq_path (h_req hr)) ->
  dispatch route_handles tok hr = DRedirect (clean_path (rq_path (h_req hr))).
Proof.
  intros Hc. unfold dispatch. destruct (str_eqb (clean_path (rq_path (h_req hr))) (rq_path (h_req hr))) eqn:E; [|done].
  by apply canonical_iff in E.
Qed.
Lemma public_find r : public r -> exists h, find_route route_handles (rq_method r) (rq_path r) = Some (h, ∅) /\ r_auth h = false /\
  r_handler h = if str_eqb (rq_path r) (str "/healthy") then HHealthy else HMetrics.
Proof.
  intros [Hm [Hp|Hp]]; rewrite Hm, Hp.
  - eexists. split; [vm_compute; reflexivity|done].
  - eexists. split; [vm_compute; reflexivity|done].
Qed.
Lemma private_auth r rt vars : ~ public r -> rt ∈ route_handles -> route_match rt (rq_method r) (rq_path r) = Some vars -> r_auth rt = true.
Proof.
  intros Hp Hr Hm. destruct (r_auth rt) eqn:E; [done|]. exfalso. destruct (open_match (rq_method r) (rq_path r)) as [H1 H2].
  destruct (table_auth rt Hr E) as [-> | ->].
  - rewrite H1 in Hm. clear H1 H2. case_bool_decide as H; [|done]. apply Hp. split; [apply H|]. left. apply H.
  - rewrite H2 in Hm. clear H1 H2. case_bool_decide as H; [|done]. apply Hp. split; [apply H|]. right. apply H.
Qed.
Lemma public_canonical r : public r -> canonical (rq_path r).
Proof.
  intros [_ [-> | ->]]; apply canonical_iff; vm_compute; reflexivity.
Qed.
