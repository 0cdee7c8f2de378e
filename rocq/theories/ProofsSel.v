(** Structured selectors: round trip, meaning of parsed text, Clusters/Namespaces (C06-C09, C12, C16). *)
From Coq Require Import Ascii String NArith ZArith Lia.
From stdpp Require Import base gmap strings list sorting.
From Verif Require Import ModelStr ModelSort ProofsSort ProofsStr ModelLabels SpecLabels ProofsLabels ProofsParse
  ModelPage SpecPage ProofsPage.

(** ** Order of MatchLabels *)
Lemma add_all_perm (l l' : list req) sel rs rs' :
  NoDup (map rkey (sel ++ l)) -> l ≡ₚ l' ->
  StronglySorted (fun a b => str_le (rkey a) (rkey b)) sel ->
  add_all sel (map Some l) = Some rs -> add_all sel (map Some l') = Some rs' -> rs = rs'.
Proof.
  intros Hn HP Hs H1 H2.
  assert (forall l sel rs, StronglySorted (fun a b => str_le (rkey a) (rkey b)) sel ->
    add_all sel (map Some l) = Some rs ->
    StronglySorted (fun a b => str_le (rkey a) (rkey b)) rs /\ rs ≡ₚ sel ++ l) as H.
  { clear. induction l as [|r l IH]; intros sel rs Hs; simpl.
    - intros [= <-]. by rewrite app_nil_r.
    - intros H. apply IH in H as [H1 H2].
      + split; [done|]. rewrite H2. unfold add_req. rewrite gosort_perm, <- app_assoc. done.
      + apply gosort_sorted.
        * intros x. apply str_le_refl.
        * intros x y z. apply str_le_trans.
        * intros x y _ _. apply str_ltb_le.
        * intros x y _ _ ?. done. }
  destruct (H _ _ _ Hs H1) as [S1 P1]. destruct (H _ _ _ Hs H2) as [S2 P2].
  apply (sorted_unique (fun a b => str_le (rkey a) (rkey b))); try done.
  - intros x y Hx Hy H3 H4. pose proof (str_le_antisym _ _ H3 H4) as E.
    rewrite P1 in Hx, Hy. apply elem_of_list_lookup in Hx as [i Hi]. apply elem_of_list_lookup in Hy as [j Hj].
    assert (i = j) as ->; [|congruence].
    eapply (NoDup_lookup _ i j (rkey x) Hn); rewrite list_lookup_fmap; [by rewrite Hi|].
    rewrite Hj. simpl. congruence.
  - by rewrite P1, P2, HP.
Qed.
Lemma add_all_all_some l : forall sel, (exists rs, add_all sel l = Some rs) <-> exists qs, l = map Some qs.
Proof.
  induction l as [|[r|] l IH]; intros sel; simpl.
  - split; [by exists []|eauto].
  - rewrite IH. split; intros [qs E]; [exists (r :: qs); by rewrite E|].
    destruct qs as [|q qs]; [done|]. injection E as <- E. eauto.
  - split; [by intros [??]|]. intros [[|? ?] E]; done.
Qed.
(** The result does not depend on the order in which Go iterates over MatchLabels. *)
Lemma as_selector_order_irrelevant ml ml' me : NoDup (map fst ml) -> ml ≡ₚ ml' ->
  as_selector_from ml me = as_selector_from ml' me.
Proof.
  intros Hn HP. unfold as_selector_from. rewrite !add_all_app.
  set (f := fun kv : gostr * gostr => new_requirement kv.1 OEq [kv.2]).
  destruct (add_all [] (map f ml)) as [rs|] eqn:E1.
  - destruct (add_all [] (map f ml')) as [rs'|] eqn:E2.
    + assert (rs = rs') as ->; [|done].
      assert (exists qs, map f ml = map Some qs) as [qs Eq]. { eapply add_all_all_some. eauto. }
      assert (exists qs, map f ml' = map Some qs) as [qs' Eq']. { eapply add_all_all_some. eauto. }
      rewrite Eq in E1. rewrite Eq' in E2. refine (add_all_perm qs qs' [] rs rs' _ _ (SSorted_nil _) E1 E2).
      * simpl. assert (map rkey qs = map fst ml) as ->; [|done].
        clear -Eq. revert qs Eq. induction ml as [|kv ml IH]; intros [|q qs]; simpl; try done.
        intros [= H1 H2]. unfold f in H1. apply new_requirement_inv in H1 as [-> _]. f_equal. by apply IH.
      * assert (map Some qs ≡ₚ map Some qs') as HH. { rewrite <- Eq, <- Eq'. apply (Permutation_map f HP). }
        apply Permutation_map_inv in HH as (l3 & E3 & HP3).
        assert (l3 = qs) as ->.
        { clear -E3. revert l3 E3. induction qs as [|q qs IH]; intros [|x l3]; simpl; try done.
          intros [= -> H]. f_equal. by apply IH. }
        by symmetry.
    + exfalso. apply add_all_none in E2. assert (None ∈ map f ml) as Hin.
      { by rewrite (Permutation_map f HP). }
      apply (add_all_none _ []) in Hin. congruence.
  - apply add_all_none in E1. assert (None ∈ map f ml') as Hin. { by rewrite <- (Permutation_map f HP). }
    apply (add_all_none _ []) in Hin. by rewrite Hin.
Qed.

(** ** Round trip of a structured selector (C12) *)
Definition normE (e : lreq) : lreq := LReq (lkey e) (lop e) (set_list (lvals e)).
Definition sel_ok (ls : lsel) : Prop := valid_sel_from (map_to_list (mlabels ls)) (mexprs ls).
Definition no_odd (ls : lsel) : Prop := forall e, e ∈ mexprs ls -> ~ odd_empties (lvals e).
Definition nonempty_sel (ls : lsel) : Prop := mlabels ls <> ∅ \/ mexprs ls <> [].

Lemma reqs_from_good ls : sel_ok ls -> Forall good_req (reqs_from (map_to_list (mlabels ls)) (mexprs ls)).
Proof.
  unfold sel_ok, valid_sel_from. rewrite !Forall_forall. intros H r Hr. split; [by apply H|].
  unfold reqs_from in Hr. apply elem_of_app in Hr as [Hr|Hr]; apply elem_of_list_fmap in Hr as (x & -> & _); simpl.
  - by left.
  - destruct (lop x); naive_solver.
Qed.
Lemma reqs_from_printable ls : sel_ok ls -> no_odd ls ->
  Forall printable_req (reqs_from (map_to_list (mlabels ls)) (mexprs ls)).
Proof.
  intros H Hno. pose proof (reqs_from_good ls H) as HF. rewrite Forall_forall in *. intros r Hr.
  split; [by apply HF|]. unfold reqs_from in Hr.
  apply elem_of_app in Hr as [Hr|Hr]; apply elem_of_list_fmap in Hr as (x & -> & Hx); simpl.
  - by intros [n E].
  - by apply Hno.
Qed.
Lemma fmt_reqs_nonempty rs : Forall good_req rs -> rs <> [] -> fmt_reqs rs <> [].
Proof.
  intros HF Hne. destruct HF as [|r rs Hr HF]; [done|]. unfold fmt_reqs. cbn [map].
  assert (fmt_req r <> []) as Hr'.
  { destruct Hr as [Hr Hop]. apply new_requirement_inv in Hr as (_ & Hk & _ & _).
    destruct (key_word _ Hk) as [Hkn _]. destruct (rkey r) eqn:Ek; [done|].
    unfold fmt_req. destruct Hop as [E|[E|[E|[E|E]]]]; rewrite E, ?Ek; done. }
  destruct (map fmt_req rs); [done|]. rewrite join_cons_cons. by destruct (fmt_req r).
Qed.
Lemma parsed_norm r : good_req r -> parsed_req (norm r).
Proof. intros H. split; [exact (norm_good r H)|]. simpl. apply set_list_idem. Qed.
Lemma good_no_cmp r : good_req r -> no_cmp (norm r).
Proof. intros [_ H]. split; cbn [norm rop]; destruct (rop r); intuition congruence. Qed.
Lemma omap_perm {A B} (f : A -> option B) l l' : l ≡ₚ l' -> omap f l ≡ₚ omap f l'.
Proof. intros H. by rewrite H. Qed.

Lemma eqs_of_norm_from ls :
  eqs_of (map norm (reqs_from (map_to_list (mlabels ls)) (mexprs ls))) = map_to_list (mlabels ls).
Proof.
  unfold reqs_from. rewrite map_app, !map_map. unfold eqs_of. rewrite omap_app.
  assert (omap (fun r => if is_eqop (rop r) then match set_list (rvals r) with [v] => Some (rkey r, v) | _ => None end else None)
    (map (fun e => norm (Req (lkey e) (op_of_lsop (lop e)) (lvals e))) (mexprs ls)) = []) as ->.
  { induction (mexprs ls) as [|e es IH]; [done|]. cbn [map omap list_omap]. rewrite IH. by destruct (lop e). }
  rewrite app_nil_r. induction (map_to_list (mlabels ls)) as [|[k v] l IH]; [done|].
  cbn [map omap list_omap norm rop rvals rkey is_eqop fst snd]. rewrite !set_list_singleton. f_equal. exact IH.
Qed.
Lemma exprs_of_norm_from ls :
  exprs_of (map norm (reqs_from (map_to_list (mlabels ls)) (mexprs ls))) = map normE (mexprs ls).
Proof.
  unfold reqs_from. rewrite map_app, !map_map. unfold exprs_of. rewrite omap_app.
  assert (omap (fun r => if is_eqop (rop r) then None else Some (LReq (rkey r) (lsop_of (rop r)) (set_list (rvals r))))
    (map (fun kv : gostr * gostr => norm (Req kv.1 OEq [kv.2])) (map_to_list (mlabels ls))) = []) as ->.
  { by induction (map_to_list (mlabels ls)). }
  induction (mexprs ls) as [|e es IH]; [done|]. cbn [map omap list_omap norm rop rvals rkey app].
  cbn [app] in IH. rewrite set_list_idem. unfold normE at 1.
  destruct (lop e) eqn:E; cbn [op_of_lsop is_eqop lsop_of]; f_equal; exact IH.
Qed.
Lemma foldl_insert_map (l : list (gostr * gostr)) (m : gmap gostr gostr) :
  l ≡ₚ map_to_list m -> foldl (fun m kv => <[kv.1 := kv.2]> m) ∅ l = m.
Proof.
  intros HP. assert (NoDup (map fst l)) as Hn.
  { rewrite HP. apply NoDup_fst_map_to_list. }
  apply map_eq. intros k. destruct (m !! k) as [v|] eqn:E.
  - apply foldl_insert_lookup; [done|]. left. rewrite HP. by apply elem_of_map_to_list.
  - destruct (foldl _ ∅ l !! k) as [v|] eqn:E2; [|done].
    apply foldl_insert_lookup in E2; [|done]. destruct E2 as [H|[_ H]]; [|by rewrite lookup_empty in H].
    rewrite HP in H. apply elem_of_map_to_list in H. congruence.
Qed.
Lemma reqs_from_nonnil ls : nonempty_sel ls -> reqs_from (map_to_list (mlabels ls)) (mexprs ls) <> [].
Proof.
  intros [H|H]; unfold reqs_from.
  - destruct (map_to_list (mlabels ls)) eqn:E; [|done]. apply map_to_list_empty_iff in E. done.
  - destruct (mexprs ls); [done|]. destruct (map_to_list (mlabels ls)); done.
Qed.
Lemma format_parse ls : sel_ok ls -> no_odd ls -> nonempty_sel ls ->
  exists rs es, as_selector ls = Some rs /\ Forall good_req rs /\ rs <> [] /\
    format_selector ls = Some (fmt_reqs rs) /\
    parse_to_label_selector (fmt_reqs rs) = Some (LSel (mlabels ls) es) /\ es ≡ₚ map normE (mexprs ls).
Proof.
  intros Hok Hodd Hne. destruct (as_selector_ok _ _ Hok) as [rs Ers].
  pose proof Ers as Ers'. apply as_selector_some in Ers' as [HP _].
  assert (Forall printable_req rs) as Hp. { rewrite HP. by apply reqs_from_printable. }
  pose proof (printable_good _ Hp) as Hg.
  assert (rs <> []) as Hrs. { intros ->. apply (reqs_from_nonnil ls Hne). by apply Permutation_nil. }
  exists rs, (exprs_of (gosort by_key (map norm rs))). split; [done|]. split; [done|]. split; [done|]. split.
  - unfold format_selector, as_selector. rewrite Ers. pose proof (fmt_reqs_nonempty rs Hg Hrs).
    destruct (fmt_reqs rs); done.
  - unfold parse_to_label_selector. rewrite parse_fmt by done.
    rewrite sel_of_reqs_eq.
    + cbn [mlabels mexprs empty_sel app].
      rewrite (foldl_insert_map _ (mlabels ls)).
      * split; [done|]. unfold exprs_of. rewrite gosort_perm. fold (exprs_of (map norm rs)).
        rewrite <- exprs_of_norm_from. unfold exprs_of. apply omap_perm, Permutation_map, HP.
      * rewrite <- (eqs_of_norm_from ls). unfold eqs_of. apply omap_perm. rewrite gosort_perm.
        apply Permutation_map, HP.
    + rewrite gosort_perm, Forall_fmap. eapply Forall_impl; [exact Hg|]. apply parsed_norm.
    + rewrite gosort_perm, Forall_fmap. eapply Forall_impl; [exact Hg|]. apply good_no_cmp.
Qed.
Lemma lreq_holds_same m a b : same_lreq a b -> lreq_holds m a <-> lreq_holds m b.
Proof.
  intros (H1 & H2 & H3). unfold lreq_holds. rewrite H1, H2. unfold same_set in H3.
  destruct (lop b); try setoid_rewrite H3; done.
Qed.
Lemma same_sel_holds m a b : same_sel a b -> sel_holds m a <-> sel_holds m b.
Proof.
  intros (H1 & es & HP & HF). unfold sel_holds. rewrite H1. setoid_rewrite <- HP.
  assert ((forall e, e ∈ mexprs a -> lreq_holds m e) <-> (forall e, e ∈ es -> lreq_holds m e)) as ->; [|done].
  clear -HF. induction HF as [|x y l l' Hxy HF IH]; [done|].
  rewrite <- !Forall_forall, !Forall_cons, !Forall_forall, IH. by rewrite (lreq_holds_same m x y Hxy).
Qed.
Lemma same_normE l : Forall2 same_lreq (map normE l) l.
Proof.
  induction l as [|e l IH]; constructor; [|done]. repeat split; simpl; apply set_list_elem.
Qed.
Lemma perm_normE es l : es ≡ₚ map normE l -> exists l', l' ≡ₚ l /\ Forall2 same_lreq es l'.
Proof.
  intros H. apply Permutation_map_inv in H as (l3 & -> & HP). exists l3. split; [by symmetry|]. apply same_normE.
Qed.

(** ** What a parsed selector is good for *)
Lemma parsed_sel_ok s ls : parse_to_label_selector s = Some ls -> sel_ok ls /\ no_odd ls.
Proof.
  unfold parse_to_label_selector. destruct (parse_to_requirements s) as [rs|] eqn:E; [|done].
  pose proof (parsed_reqs _ _ E) as HF.
  assert (Forall no_cmp rs \/ Exists (fun r => rop r = OGt \/ rop r = OLt) rs) as [Hc|Hc].
  { clear -rs. induction rs as [|r rs [IH|IH]]; [by left| |by right; right].
    destruct (decide (rop r = OGt)); [by right; left; left|]. destruct (decide (rop r = OLt)); [by right; left; right|].
    left. by constructor. }
  2: { by rewrite sel_of_reqs_cmp. }
  rewrite sel_of_reqs_eq by done. intros [= <-]. cbn [mlabels mexprs empty_sel app].
  rewrite Forall_forall in HF, Hc. split.
  - unfold sel_ok, valid_sel_from, reqs_from. apply Forall_forall. intros r Hr.
    apply elem_of_app in Hr as [Hr|Hr]; apply elem_of_list_fmap in Hr as (x & -> & Hx); cbn [rkey rop rvals].
    + destruct x as [k v]. apply elem_of_map_to_list in Hx. cbn [mlabels] in Hx.
      apply foldl_insert_some in Hx as [Hx|Hx]; [|by rewrite lookup_empty in Hx].
      apply elem_of_eqs in Hx as (r & Hr & _ & <- & Hv); [|by apply Forall_forall].
      destruct (HF r Hr) as [Hn _]. apply new_requirement_inv in Hn as (_ & Hk & Hvs & _).
      rewrite Hv in Hvs. by apply new_requirement_intro; [done|done|eexists].
    + cbn [mexprs] in Hx. apply elem_of_exprs in Hx as (r & Hr & E1 & ->). cbn [lkey lop lvals].
      destruct (HF r Hr) as [Hn Hs]. destruct (Hc r Hr) as [Hc1 Hc2]. rewrite Hs.
      apply new_requirement_inv in Hn as (_ & Hk & Hvs & Ha).
      apply new_requirement_intro; [done|done|]. destruct (rop r); try done. cbn [lsop_of op_of_lsop].
      by destruct Ha as [v ->].
  - intros e He [n En]. cbn [mexprs] in He. apply elem_of_exprs in He as (r & _ & _ & ->). cbn [lvals] in En.
    pose proof (set_list_NoDup (rvals r)) as Hn. rewrite En in Hn. simpl in Hn.
    apply NoDup_cons in Hn as [Hn _]. set_solver.
Qed.
Lemma parse_label_none s : parse_to_label_selector s = None <->
  parse_to_requirements s = None \/
  exists rs, parse_to_requirements s = Some rs /\ exists r, r ∈ rs /\ (rop r = OGt \/ rop r = OLt).
Proof.
  unfold parse_to_label_selector. destruct (parse_to_requirements s) as [rs|] eqn:E; [|naive_solver].
  pose proof (parsed_reqs _ _ E) as HF.
  assert (Forall no_cmp rs \/ Exists (fun r => rop r = OGt \/ rop r = OLt) rs) as [Hc|Hc].
  { clear -rs. induction rs as [|r rs [IH|IH]]; [by left| |by right; right].
    destruct (decide (rop r = OGt)); [by right; left; left|]. destruct (decide (rop r = OLt)); [by right; left; right|].
    left. by constructor. }
  - rewrite sel_of_reqs_eq by done. split; [done|]. intros [?|(rs' & [= <-] & r & Hr & H)]; [done|].
    rewrite Forall_forall in Hc. destruct (Hc r Hr). naive_solver.
  - rewrite sel_of_reqs_cmp by done. split; [|done]. intros _. right. exists rs. split; [done|].
    by apply Exists_exists in Hc.
Qed.
Lemma parse_meaning s rs : parse_to_requirements s = Some rs ->
  (forall r, r ∈ rs -> rop r <> OGt /\ rop r <> OLt) -> eq_keys_distinct rs ->
  exists ls, parse_to_label_selector s = Some ls /\ forall m, sel_holds m ls <-> forall r, r ∈ rs -> req_holds m r.
Proof.
  intros E Hc Hd. unfold parse_to_label_selector. rewrite E.
  pose proof (parsed_reqs _ _ E) as HF.
  assert (Forall no_cmp rs) as Hc'. { apply Forall_forall. exact Hc. }
  rewrite sel_of_reqs_eq by done. eexists. split; [done|]. intros m. by apply sel_of_reqs_holds.
Qed.

(** ** Advanced search parts *)
Section adv.
  Context (uprint : N -> bool).
  Lemma match_adv m vals part sel :
    trim_space part = adv_prefix ++ sel ->
    match_one_from uprint m vals part =
      if str_eqb sel [] then None
      else match parse_to_label_selector sel with
           | None => None
           | Some ls => match as_selector ls with None => None | Some rs => Some (match_reqs rs m) end
           end.
  Proof.
    intros E. unfold match_one_from. cbv zeta. rewrite E, has_prefix_app, drop_app. done.
  Qed.
  Lemma match_adv_sel m vals part sel ls :
    trim_space part = adv_prefix ++ sel -> sel <> [] -> parse_to_label_selector sel = Some ls ->
    exists b, match_one_from uprint m vals part = Some b /\ (b = true <-> sel_holds m ls).
  Proof.
    intros E Hne Hp. rewrite (match_adv m vals part sel E), Hp.
    assert (str_eqb sel [] = false) as -> by (by apply str_eqb_neq).
    destruct (parsed_sel_ok _ _ Hp) as [Hok _]. destruct (as_selector_ok _ _ Hok) as [rs Hrs].
    assert (as_selector ls = Some rs) as Hrs' by exact Hrs. rewrite Hrs'.
    eexists. split; [done|]. by apply as_selector_holds.
  Qed.
End adv.

(** ** Printed selectors end in a visible character *)
Lemma keyc_visible c : keyc c = true -> visible c.
Proof.
  pose proof (all_bytes (fun c => negb (keyc c) || ((33 <=? code c) && (code c <=? 126))%N)) as H.
  specialize (H ltac:(vm_compute; reflexivity) c). simpl in H. destruct (keyc c); [|done].
  intros _. simpl in H. apply andb_true_iff in H as [H1%N.leb_le H2%N.leb_le]. done.
Qed.
Definition ends_visible (s : gostr) : Prop := exists c r, s = r ++ [c] /\ visible c.
Lemma ends_app a b : ends_visible b -> ends_visible (a ++ b).
Proof. intros (c & r & -> & H). exists c, (a ++ r). by rewrite <- app_assoc. Qed.
Lemma ends_chars s : s <> [] -> Forall (fun c => keyc c = true) s -> ends_visible s.
Proof.
  intros Hne HF. destruct s as [|c s _] using rev_ind; [done|]. exists c, s. split; [done|].
  apply Forall_app in HF as [_ HF]. inversion HF; subst. by apply keyc_visible.
Qed.
Lemma fmt_req_ends r : good_req r -> ends_visible (fmt_req r).
Proof.
  intros [Hr Hop]. apply new_requirement_inv in Hr as (_ & Hk & Hv & Ha).
  destruct (valid_key_chars _ Hk) as [Hkn Hkc]. unfold fmt_req.
  destruct Hop as [E|[E|[E|[E|E]]]]; rewrite E in Ha |- *.
  - destruct Ha as [v Ev]. rewrite Ev in Hv |- *. inversion Hv as [|? ? Hv1 _]; subst. simpl fmt_vals.
    apply ends_app. destruct v as [|c v]; [by exists "="%char, []|]. apply ends_app.
    apply ends_chars; [done|]. apply valid_value_chars in Hv1. eapply Forall_impl; [exact Hv1|]. apply ext_keyc.
  - do 3 apply ends_app. by exists ")"%char, [].
  - do 3 apply ends_app. by exists ")"%char, [].
  - by apply ends_chars.
  - apply ends_app. by apply ends_chars.
Qed.
Lemma fmt_reqs_ends rs : Forall good_req rs -> rs <> [] -> ends_visible (fmt_reqs rs).
Proof.
  unfold fmt_reqs. induction 1 as [|r rs Hr HF IH]; [done|]. intros _. cbn [map].
  destruct rs as [|q rs]; [by apply fmt_req_ends|]. cbn [map]. rewrite join_cons_cons.
  do 2 apply ends_app. by apply IH.
Qed.
Lemma trim_adv rs : Forall good_req rs -> rs <> [] ->
  trim_space (adv_prefix ++ fmt_reqs rs) = adv_prefix ++ fmt_reqs rs.
Proof.
  intros HF Hne. apply trim_tight. split.
  - by exists "_"%char, (str "_ckube_as__:" ++ fmt_reqs rs).
  - by apply ends_app, fmt_reqs_ends.
Qed.

(** ** Clusters and Namespaces *)
(** The parts that start with the advanced prefix, and the others. *)
Definition adv_parts (parts : list gostr) : list gostr := List.filter (has_prefix adv_prefix) parts.
Definition other_parts (parts : list gostr) : list gostr :=
  List.filter (fun p => negb (has_prefix adv_prefix p)) parts.
Lemma first_adv_spec parts :
  first_adv parts = match adv_parts parts with p :: _ => p | [] => [] end.
Proof.
  induction parts as [|p ps IH]; [done|]. unfold adv_parts in *. cbn [first_adv List.filter].
  destruct (has_prefix adv_prefix p); [done|exact IH].
Qed.
Lemma search_selector_spec search :
  search_selector search =
    match adv_parts (search_parts search) with
    | [] => Some empty_sel
    | p :: _ => match drop (length adv_prefix) p with [] => Some empty_sel | sel => parse_to_label_selector sel end
    end.
Proof.
  unfold search_selector. cbv zeta. rewrite first_adv_spec.
  destruct (adv_parts (search_parts search)) as [|p ps] eqn:E; [done|].
  assert (has_prefix adv_prefix p = true) as Hp.
  { assert (In p (adv_parts (search_parts search))) as Hin by (rewrite E; by left).
    unfold adv_parts in Hin. by apply filter_In in Hin as [_ ?]. }
  destruct p; [done|]. done.
Qed.
Lemma search_selector_ok search ls : search_selector search = Some ls -> sel_ok ls /\ no_odd ls.
Proof.
  assert (sel_ok empty_sel /\ no_odd empty_sel) as H0.
  { split; [unfold sel_ok, valid_sel_from; simpl; rewrite map_to_list_empty; constructor|].
    intros e He. by apply elem_of_nil in He. }
  rewrite search_selector_spec. destruct (adv_parts (search_parts search)) as [|p ps]; [by intros [= <-]|].
  destruct (drop (length adv_prefix) p); [by intros [= <-]|]. apply parsed_sel_ok.
Qed.

Definition keep (key : gostr) (es : list lreq) : list lreq :=
  List.filter (fun r => negb (str_eqb (lkey r) key)) es.
Lemma elem_of_keep key es e : e ∈ keep key es <-> e ∈ es /\ lkey e <> key.
Proof.
  unfold keep. rewrite elem_of_list_In, filter_In, <- elem_of_list_In, negb_true_iff, str_eqb_neq. done.
Qed.
Lemma restrict_ok key vals ls : valid_key key = true -> sel_ok ls ->
  (sel_ok (restrict key vals ls) <-> vals <> [] /\ Forall (fun v => valid_value v = true) vals).
Proof.
  intros Hk Hok. unfold sel_ok, valid_sel_from, reqs_from in *. cbn [restrict mlabels mexprs].
  rewrite Forall_app in Hok. destruct Hok as [H1 H2]. rewrite Forall_app. cbn [map]. rewrite Forall_cons. split.
  - intros (_ & H & _). cbn in H. apply new_requirement_inv in H as (_ & _ & Hv & Hn). done.
  - intros [Hn Hv]. split; [done|]. split.
    + cbn. by apply new_requirement_intro.
    + rewrite Forall_forall in H2 |- *. intros r Hr. apply H2. apply elem_of_list_fmap in Hr as (e & -> & He).
      apply elem_of_list_fmap. exists e. split; [done|]. change (List.filter _ _) with (keep key (mexprs ls)) in He.
      by apply elem_of_keep in He as [? _].
Qed.
Lemma restrict_no_odd key vals ls : no_odd ls -> ~ odd_empties vals -> no_odd (restrict key vals ls).
Proof.
  intros H Hv e. cbn [restrict mexprs]. rewrite elem_of_cons. intros [->|He]; [done|].
  change (List.filter _ _) with (keep key (mexprs ls)) in He. apply elem_of_keep in He as [He _]. by apply H.
Qed.
Lemma sel_ok_format ls : sel_ok ls <-> exists s, format_selector ls = Some s.
Proof.
  unfold format_selector. split.
  - intros [rs H]%as_selector_ok. unfold as_selector. rewrite H. eauto.
  - intros [s H]. destruct (as_selector ls) as [rs|] eqn:E; [|done].
    by apply as_selector_some in E as [_ ?].
Qed.
Lemma restrict_holds key vals ls m :
  sel_holds m (restrict key vals ls) <->
  (exists v, m !! key = Some v /\ v ∈ vals) /\
  (forall k v, mlabels ls !! k = Some v -> m !! k = Some v) /\
  (forall e, e ∈ mexprs ls -> lkey e <> key -> lreq_holds m e).
Proof.
  unfold sel_holds. cbn [restrict mlabels mexprs]. change (List.filter _ _) with (keep key (mexprs ls)).
  setoid_rewrite elem_of_cons. setoid_rewrite elem_of_keep. split.
  - intros [H1 H2]. split; [|split; [done|naive_solver]]. apply (H2 (LReq key LIn vals)). by left.
  - intros (H1 & H2 & H3). split; [done|]. intros e [->|[He Hk]]; [done|]. by apply H3.
Qed.

(** The common part of Clusters and Namespaces. *)
Lemma restrict_search p key vals ls :
  valid_key key = true -> search_selector (pg_search p) = Some ls ->
  vals <> [] -> Forall (fun v => valid_value v = true) vals -> ~ odd_empties vals ->
  (forall q r, q ∈ other_parts (search_parts (pg_search p)) -> q <> ";"%char :: r) ->
  exists p' rs es, set_search_selector p (restrict key vals ls) = Some p' /\
    p' = set_search p (pg_search p') /\ rs <> [] /\ Forall good_req rs /\
    search_parts (pg_search p') = (adv_prefix ++ fmt_reqs rs) :: other_parts (search_parts (pg_search p)) /\
    parse_to_label_selector (fmt_reqs rs) = Some (LSel (mlabels ls) es) /\
    es ≡ₚ map normE (mexprs (restrict key vals ls)).
Proof.
  intros Hk Hls Hne Hv Hodd Hsemi. destruct (search_selector_ok _ _ Hls) as [Hok Hno].
  destruct (format_parse (restrict key vals ls)) as (rs & es & _ & Hg & Hrs & Hf & Hp & HP).
  { by apply restrict_ok. } { by apply restrict_no_odd. } { by right. }
  unfold set_search_selector. rewrite Hf. eexists _, rs, es. split; [done|]. split; [done|].
  split; [done|]. split; [done|]. split; [|done]. cbn [set_search pg_search].
  change (List.filter _ _) with (other_parts (search_parts (pg_search p))).
  assert (Forall (fun q => q <> []) (other_parts (search_parts (pg_search p)))) as Hn.
  { apply Forall_forall. intros q Hq. unfold other_parts in Hq.
    rewrite elem_of_list_In, filter_In, <- elem_of_list_In in Hq. destruct Hq as [Hq _].
    rewrite search_parts_scan in Hq. pose proof (filter_nonempty_all (scan (pg_search p))) as HF.
    rewrite Forall_forall in HF. by apply HF. }
  apply roundtrip.
  - constructor; [done|done].
  - cbn [tail]. apply Forall_forall. intros q Hq [r ->]. by eapply Hsemi.
Qed.
Lemma restrict_match uprint p key vals ls p' m :
  valid_key key = true -> search_selector (pg_search p) = Some ls ->
  vals <> [] -> Forall (fun v => valid_value v = true) vals -> ~ odd_empties vals ->
  (forall q r, q ∈ other_parts (search_parts (pg_search p)) -> q <> ";"%char :: r) ->
  set_search_selector p (restrict key vals ls) = Some p' ->
  (paginate_match uprint (pg_search p') m = Some true <->
    sel_holds m (restrict key vals ls) /\
    forall q, q ∈ other_parts (search_parts (pg_search p)) -> match_one uprint m q = Some true) /\
  (paginate_match uprint (pg_search p') m = None <->
    exists q, q ∈ other_parts (search_parts (pg_search p)) /\ match_one uprint m q = None).
Proof.
  intros Hk Hls Hne Hv Hodd Hsemi Hset.
  destruct (restrict_search p key vals ls Hk Hls Hne Hv Hodd Hsemi)
    as (p2 & rs & es & E & _ & Hrs & Hg & Hsp & Hpar & HP).
  rewrite Hset in E. injection E as <-.
  unfold paginate_match. rewrite Hsp, match_parts_true, match_parts_err.
  assert (fmt_reqs rs <> []) as Hnn by (by apply fmt_reqs_nonempty).
  destruct (match_adv_sel uprint m (map snd (map_to_list m)) (adv_prefix ++ fmt_reqs rs) (fmt_reqs rs) _
    (trim_adv rs Hg Hrs) Hnn Hpar) as (b & Hb & Hbt).
  assert (sel_holds m (LSel (mlabels ls) es) <-> sel_holds m (restrict key vals ls)) as Heq.
  { apply same_sel_holds. split; [done|]. destruct (perm_normE _ _ HP) as (l' & HP' & HF). exists l'. done. }
  rewrite Heq in Hbt. rewrite Forall_cons, Exists_cons, Forall_forall, Exists_exists.
  unfold match_one at 1. rewrite Hb. split.
  - rewrite <- Hbt. split; (intros [H1 H2]; split; [congruence|exact H2]).
  - unfold match_one at 1. rewrite Hb. split; [intros [H|H]; [done|exact H]|intros H; by right].
Qed.
Lemma set_search_some p ls p' : set_search_selector p ls = Some p' ->
  exists s, p' = set_search p s.
Proof. unfold set_search_selector. destruct (format_selector ls); [|done]. intros [= <-]. eauto. Qed.
Lemma set_search_some_iff p ls : (exists p', set_search_selector p ls = Some p') <-> sel_ok ls.
Proof.
  rewrite sel_ok_format. unfold set_search_selector. destruct (format_selector ls); naive_solver.
Qed.

Lemma first_expr_perm key (es es' : list lreq) : es ≡ₚ es' ->
  (forall e e', e ∈ es -> e' ∈ es -> lkey e = key -> lkey e' = key -> e = e') ->
  first_expr key es = first_expr key es'.
Proof.
  intros HP Hu.
  assert (forall es, (exists e, e ∈ es /\ lkey e = key /\ first_expr key es = lvals e) \/
     first_expr key es = [] /\ forall e, e ∈ es -> lkey e <> key) as H.
  { clear. induction es as [|e es IH]; [right; split; [done|]; intros e He; by apply elem_of_nil in He|].
    simpl. destruct (str_eqb_spec (lkey e) key) as [Hk|Hk].
    - left. exists e. split; [set_solver|done].
    - destruct IH as [(e' & H1 & H2 & H3)|[H1 H2]]; [left; exists e'; set_solver|].
      right. split; [done|]. intros e'. rewrite elem_of_cons. naive_solver. }
  destruct (H es) as [(e & H1 & H2 & H3)|[H1 H2]], (H es') as [(e' & H1' & H2' & H3')|[H1' H2']].
  - rewrite H3, H3'. f_equal. apply Hu; try done. by rewrite HP.
  - rewrite HP in H1. by destruct (H2' e H1).
  - rewrite <- HP in H1'. by destruct (H2 e' H1').
  - congruence.
Qed.
Lemma get_after p key vals ls p' :
  valid_key key = true -> search_selector (pg_search p) = Some ls ->
  vals <> [] -> Forall (fun v => valid_value v = true) vals -> ~ odd_empties vals ->
  (forall q r, q ∈ other_parts (search_parts (pg_search p)) -> q <> ";"%char :: r) ->
  set_search_selector p (restrict key vals ls) = Some p' ->
  exists ls', search_selector (pg_search p') = Some ls' /\ first_expr key (mexprs ls') = set_list vals.
Proof.
  intros Hk Hls Hne Hv Hodd Hsemi Hset.
  destruct (restrict_search p key vals ls Hk Hls Hne Hv Hodd Hsemi)
    as (p2 & rs & es & E & _ & Hrs & Hg & Hsp & Hpar & HP).
  rewrite Hset in E. injection E as <-.
  exists (LSel (mlabels ls) es). split.
  - rewrite search_selector_spec, Hsp. unfold adv_parts. cbn [List.filter]. rewrite has_prefix_app, drop_app.
    pose proof (fmt_reqs_nonempty rs Hg Hrs). rewrite <- Hpar. destruct (fmt_reqs rs); done.
  - cbn [mexprs]. rewrite (first_expr_perm key es _ HP).
    + cbn [restrict mexprs map first_expr normE lkey lvals]. by rewrite str_eqb_refl.
    + intros e e'. rewrite HP. cbn [restrict mexprs map].
      change (List.filter _ _) with (keep key (mexprs ls)).
      assert (forall e, e ∈ normE (LReq key LIn vals) :: map normE (keep key (mexprs ls)) -> lkey e = key ->
        e = normE (LReq key LIn vals)) as Hu.
      { intros x. rewrite elem_of_cons, elem_of_list_fmap. intros [->|(y & -> & Hy)]; [done|].
        apply elem_of_keep in Hy as [_ Hy]. done. }
      intros He He' H1 H2. by rewrite (Hu e), (Hu e').
Qed.
