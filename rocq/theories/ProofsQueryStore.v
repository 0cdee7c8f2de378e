(** Lemmas about queries on the cache. *)
From Coq Require Import Ascii String NArith ZArith Lia.
From stdpp Require Import base gmap strings list sorting.
From Verif Require Import ModelStr ModelSort ProofsSort ProofsStr ModelLabels SpecLabels ProofsLabels ModelPage SpecPage ProofsPage ModelJson
  ModelStore SpecStore ProofsStore.

Local Notation key := (gostr * gostr * gostr)%type.

(** ** The nested loops *)
Definition cs_lookup (cs : typemap) (k : key) : option entry := nss ← cs !! k.1.1; os ← nss !! k.1.2; os !! k.2.

Lemma scan_nss_keys ns c nss order l : iter nss order -> scan_nss ns order l ->
  exists kes : list (key * entry), l = map snd kes /\ NoDup (map fst kes) /\
    forall k e, (k, e) ∈ kes <-> k.1.1 = c /\ (ns = [] \/ ns = k.1.2) /\ (os ← nss !! k.1.2; os !! k.2) = Some e.
Proof.
  intros Hi Hs.
  assert (exists kes : list (key * entry), l = map snd kes /\ NoDup (map fst kes) /\
    forall k e, (k, e) ∈ kes <-> k.1.1 = c /\ (ns = [] \/ ns = k.1.2) /\ exists os, (k.1.2, os) ∈ order /\ os !! k.2 = Some e)
    as (kes & Hl & Hn & Hk).
  - assert (NoDup order.*1) as Hnd by (rewrite Hi; apply NoDup_fst_map_to_list). clear Hi.
    induction Hs as [|n os nss' l H1 H2 Hs IH|n os nss' l l' Ht Ho Hs IH].
    + exists []. split; [done|]. split; [constructor|]. intros k e. split; [by intros ?%elem_of_nil|].
      intros (_ & _ & os & ?%elem_of_nil & _). done.
    + apply NoDup_cons in Hnd as [_ Hnd]. destruct (IH Hnd) as (kes & -> & Hn & Hk).
      exists kes. split; [done|]. split; [done|]. intros k e. rewrite Hk. setoid_rewrite elem_of_cons.
      split.
      * intros (? & ? & os' & ? & ?). eauto 10.
      * intros (? & Hns & os' & [[= Hk2 ->]|?] & ?); [|eauto 10]. exfalso. destruct Hns; congruence.
    + apply NoDup_cons in Hnd as [Hni Hnd]. destruct (IH Hnd) as (kes & -> & Hn & Hk). destruct Ho as (es & Hes & ->).
      exists (map (fun ne => (c, n, ne.1, ne.2)) es ++ kes). split.
      { rewrite map_app, map_map. done. }
      split.
      * rewrite map_app, map_map. cbn. apply NoDup_app. split; [|split; [|done]].
        -- assert (NoDup (es.*1)) as Hes1 by (rewrite Hes; apply NoDup_fst_map_to_list).
           assert (map (fun x : gostr * entry => (c, n, x.1)) es = (fun x => (c, n, x)) <$> es.*1) as ->
             by (by rewrite <- list_fmap_compose).
           apply NoDup_fmap; [|done]. intros ?? [= ->]. done.
        -- intros k (ne & -> & _)%elem_of_list_fmap ((k', e) & Hk' & Hin)%elem_of_list_fmap.
           apply Hk in Hin as (_ & _ & os' & Hin & _). cbn in Hk'. rewrite <- Hk' in Hin. cbn in Hin.
           apply Hni. apply elem_of_list_fmap. by exists (n, os').
      * intros k e. rewrite elem_of_app, Hk. setoid_rewrite elem_of_cons. split.
        -- intros [((n', e') & [= -> ->] & Hin)%elem_of_list_fmap|(? & ? & os' & ? & ?)]; [|eauto 10].
           cbn. split; [done|]. split; [done|]. exists os. split; [by left|].
           rewrite Hes in Hin. by apply elem_of_map_to_list.
        -- intros (Hc & Hns & os' & [[= Hk2 ->]|?] & Hos); [left|right; eauto 10].
           apply elem_of_list_fmap. exists (k.2, e). split; [cbn; rewrite <- Hc, <- Hk2; by destruct k as [[??]?]|].
           rewrite Hes. by apply elem_of_map_to_list.
  - exists kes. split; [done|]. split; [done|]. intros k e. rewrite Hk. do 2 (apply and_iff_compat_l). split.
    + intros (os & Hin & ?). rewrite Hi in Hin. apply elem_of_map_to_list in Hin. by rewrite Hin.
    + destruct (nss !! k.1.2) as [os|] eqn:En; [|done]. cbn. intros ?. exists os. split; [|done].
      rewrite Hi. by apply elem_of_map_to_list.
Qed.
Lemma scan_keys ns cs seen : scan ns cs seen ->
  exists kes : list (key * entry), seen = map snd kes /\ NoDup (map fst kes) /\
    forall k e, (k, e) ∈ kes <-> (ns = [] \/ ns = k.1.2) /\ cs_lookup cs k = Some e.
Proof.
  intros (order & Hi & Hs).
  assert (exists kes : list (key * entry), seen = map snd kes /\ NoDup (map fst kes) /\
    forall k e, (k, e) ∈ kes <-> (ns = [] \/ ns = k.1.2) /\ exists nss, (k.1.1, nss) ∈ order /\ (os ← nss !! k.1.2; os !! k.2) = Some e)
    as (kes & Hl & Hn & Hk).
  - assert (NoDup order.*1) as Hnd by (rewrite Hi; apply NoDup_fst_map_to_list). clear Hi.
    induction Hs as [|c nss ord cls l l' Hit Hn Hs IH].
    + exists []. split; [done|]. split; [constructor|]. intros k e. split; [by intros ?%elem_of_nil|].
      intros (_ & os & ?%elem_of_nil & _). done.
    + apply NoDup_cons in Hnd as [Hni Hnd]. destruct (IH Hnd) as (kes & -> & Hn' & Hk).
      destruct (scan_nss_keys ns c nss ord l Hit Hn) as (kes1 & -> & Hn1 & Hk1).
      exists (kes1 ++ kes). split; [by rewrite map_app|]. split.
      * rewrite map_app. apply NoDup_app. split; [done|]. split; [|done].
        intros k ((k1, e1) & -> & Hin1)%elem_of_list_fmap ((k2, e2) & Heq & Hin2)%elem_of_list_fmap.
        cbn in Heq. subst k2. apply Hk1 in Hin1 as (Hc & _). apply Hk in Hin2 as (_ & nss' & Hin & _).
        rewrite Hc in Hin. apply Hni. apply elem_of_list_fmap. by exists (c, nss').
      * intros k e. rewrite elem_of_app, Hk1, Hk. setoid_rewrite elem_of_cons. split.
        -- intros [(Hc & ? & ?)|(? & nss' & ? & ?)]; [|eauto 10]. split; [done|]. exists nss. split; [|done]. left. by rewrite Hc.
        -- intros (? & nss' & [[= Hc ->]|?] & ?); [left; eauto|right; eauto 10].
  - exists kes. split; [done|]. split; [done|]. intros k e. rewrite Hk. apply and_iff_compat_l. unfold cs_lookup. split.
    + intros (nss & Hin & ?). rewrite Hi in Hin. apply elem_of_map_to_list in Hin. by rewrite Hin.
    + destruct (cs !! k.1.1) as [nss|] eqn:En; [|done]. cbn. intros ?. exists nss. split; [|done].
      rewrite Hi. by apply elem_of_map_to_list.
Qed.
Lemma scan_perm ns cs s1 s2 : scan ns cs s1 -> scan ns cs s2 -> s1 ≡ₚ s2.
Proof.
  intros (k1 & -> & N1 & H1)%scan_keys (k2 & -> & N2 & H2)%scan_keys. apply Permutation_map.
  apply NoDup_Permutation; [exact (NoDup_fmap_1 fst k1 N1)|exact (NoDup_fmap_1 fst k2 N2)|].
  intros [k e]. by rewrite H1, H2.
Qed.
(** There is always a scan. *)
Lemma scan_nss_ex ns order : exists l, scan_nss ns order l.
Proof.
  induction order as [|[n os] order [l IH]]; [by exists []; constructor|].
  destruct (decide (ns = [] \/ ns = n)) as [H|H].
  - eexists. apply scan_nss_take; [done| |exact IH]. exists (map_to_list os). split; [unfold iter; reflexivity|reflexivity].
  - exists l. apply scan_nss_skip; [..|done]; naive_solver.
Qed.
Lemma scan_ex ns cs : exists l, scan ns cs l.
Proof.
  assert (exists l, scan_cls ns (map_to_list cs) l) as [l H]; [|exists l, (map_to_list cs); split; [unfold iter; reflexivity|done]].
  induction (map_to_list cs) as [|[c nss] order [l IH]]; [by exists []; constructor|].
  destruct (scan_nss_ex ns (map_to_list nss)) as [l' H]. eexists. eapply scan_cls_cons; [|done|done]. unfold iter. reflexivity.
Qed.

Section query_proofs.
  Context (E : env).

  (** ** The order of sort_less *)
  Section lex.
    Context (rank : e_num E -> Z).
    Local Notation before := (before E rank).
    Local Notation tie := (tie E rank).
    Local Notation lex_le := (lex_le E rank).
    Lemma tie_refl s a : tie s a a.
    Proof. unfold SpecStore.tie. by destruct (is_int s). Qed.
    Lemma tie_sym s a b : tie s a b -> tie s b a.
    Proof. unfold SpecStore.tie. by destruct (is_int s). Qed.
    Lemma tie_trans s a b c : tie s a b -> tie s b c -> tie s a c.
    Proof. unfold SpecStore.tie. destruct (is_int s); congruence. Qed.
    Lemma before_trans s a b c : before s a b -> before s b c -> before s a c.
    Proof. unfold SpecStore.before. destruct (is_int s), (is_rev s); try lia; eauto using str_ltb_trans. Qed.
    Lemma before_tie s a b c : before s a b -> tie s b c -> before s a c.
    Proof. unfold SpecStore.before, SpecStore.tie. destruct (is_int s), (is_rev s); try lia; congruence. Qed.
    Lemma tie_before s a b c : tie s a b -> before s b c -> before s a c.
    Proof. unfold SpecStore.before, SpecStore.tie. destruct (is_int s), (is_rev s); try lia; congruence. Qed.
    Lemma before_irrefl s a b : before s a b -> before s b a -> False.
    Proof.
      intros H1 H2. pose proof (before_trans _ _ _ _ H1 H2) as H. revert H. unfold SpecStore.before.
      destruct (is_int s), (is_rev s); try lia; by rewrite str_ltb_irrefl.
    Qed.
    Lemma before_not_tie s a b : before s a b -> ~ tie s a b.
    Proof. intros H1 H2. apply (before_irrefl s a b); [done|]. eapply tie_before; [by apply tie_sym|]. eapply before_tie; [done|by apply tie_sym]. Qed.
    Lemma before_total s a b : before s a b \/ tie s a b \/ before s b a.
    Proof.
      unfold SpecStore.before, SpecStore.tie. destruct (is_int s).
      - destruct (is_rev s); lia.
      - destruct (str_ltb (value s a) (value s b)) eqn:E1, (str_ltb (value s b) (value s a)) eqn:E2, (is_rev s); auto;
          right; left; by apply str_ltb_total.
    Qed.
    Lemma lex_refl ss a : lex_le ss a a.
    Proof. induction ss as [|s ss IH]; [done|]. right. split; [apply tie_refl|done]. Qed.
    Lemma lex_trans ss a b c : lex_le ss a b -> lex_le ss b c -> lex_le ss a c.
    Proof.
      induction ss as [|s ss IH]; [done|]. cbn. intros [H1|[H1 L1]] [H2|[H2 L2]].
      - left. eauto using before_trans.
      - left. eauto using before_tie.
      - left. eauto using tie_before.
      - right. split; [eauto using tie_trans|auto].
    Qed.
    Lemma lex_total ss a b : lex_le ss a b \/ lex_le ss b a.
    Proof.
      induction ss as [|s ss IH]; [by left|]. cbn. destruct (before_total s a b) as [?|[?|?]]; auto.
      destruct IH; [left|right]; right; split; auto using tie_sym.
    Qed.
    Lemma lex_antisym ss a b : lex_le ss a b -> lex_le ss b a -> Forall (fun s => tie s a b) ss.
    Proof.
      induction ss as [|s ss IH]; [constructor|]. cbn. intros [H1|[H1 L1]] [H2|[H2 L2]].
      - exfalso. eauto using before_irrefl.
      - exfalso. eapply before_not_tie; [exact H1|by apply tie_sym].
      - exfalso. eapply before_not_tie; [exact H2|by apply tie_sym].
      - constructor; auto.
    Qed.
    Lemma sort_less_ok P ss a b : rank_ok E rank P -> numeric E P ss a -> numeric E P ss b ->
      (sort_less E ss a b).2 = false /\
      ((sort_less E ss a b).1 = true -> lex_le ss a b) /\ ((sort_less E ss a b).1 = false -> lex_le ss b a).
    Proof.
      intros Hrk. induction ss as [|s ss IH]; intros Ha Hb; [by split|].
      apply Forall_cons_1 in Ha as [Ha1 Ha]. apply Forall_cons_1 in Hb as [Hb1 Hb]. specialize (IH Ha Hb). clear Ha Hb.
      cbn [sort_less SpecStore.lex_le]. change (default [] (a !! is_key s)) with (value s a) in *.
      change (default [] (b !! is_key s)) with (value s b) in *.
      unfold SpecStore.before, SpecStore.tie. destruct (is_int s).
      - destruct (Ha1 eq_refl) as (x & Hx & Px), (Hb1 eq_refl) as (y & Hy & Py). unfold num_val. rewrite Hx, Hy.
        destruct (Hrk x y Px Py) as [Hlt Heq].
        destruct (e_eq E x y).
        + assert (rank x = rank y) by tauto. split; [tauto|]. split; intros; right; split; tauto || lia.
        + assert (rank x <> rank y) by (intros ?%Heq; done). cbn [fst snd]. split; [done|].
          destruct (is_rev s), (e_lt E x y); split; intros H'; cbn in H'; try done; left; try tauto;
            enough (~ rank x < rank y)%Z by lia; intros ?%Hlt; done.
      - destruct (str_eqb_spec (value s a) (value s b)) as [Heq|Hne].
        + split; [tauto|]. split; intros; right; split; tauto || congruence.
        + cbn [fst snd]. split; [done|].
          destruct (is_rev s), (str_ltb (value s a) (value s b)) eqn:El; split; intros H'; cbn in H'; try done; left; try done;
            destruct (str_ltb (value s b) (value s a)) eqn:El2; try done; exfalso; apply Hne; by apply str_ltb_total.
    Qed.
  End lex.

  (** ** Sorting *)
  Lemma sort_objs_perm objs s l : sort_objs E objs s = Some l -> l ≡ₚ objs.
  Proof.
    unfold sort_objs. destruct objs as [|o objs]; [by intros [= <-]|].
    destruct (sort_keys _ _) as [[sorts|]|]; [|by intros [= <-]|done].
    destruct (existsb _ _); [done|]. intros [= <-]. apply gosort_perm.
  Qed.
  Lemma sort_objs_sorted rank P objs s sorts l : rank_ok E rank P ->
    (forall o, o ∈ objs -> sort_keys (en_index o) (split_on ","%char (if str_eqb s [] then default_sort else s)) = Some (Some sorts)) ->
    (forall o, o ∈ objs -> numeric E P sorts (en_index o)) ->
    sort_objs E objs s = Some l ->
    StronglySorted (fun a b => lex_le E rank sorts (en_index a) (en_index b)) l.
  Proof.
    intros Hrk Hk Hn. unfold sort_objs. destruct objs as [|o objs]; [intros [= <-]; constructor|].
    rewrite Hk by left. destruct (existsb _ _); [done|]. intros [= <-].
    apply gosort_sorted.
    - intros. apply lex_refl.
    - intros. by eapply lex_trans.
    - intros x y Hx Hy H. by apply (sort_less_ok rank P sorts (en_index x) (en_index y) Hrk (Hn _ Hx) (Hn _ Hy)).
    - intros x y Hx Hy H. by apply (sort_less_ok rank P sorts (en_index x) (en_index y) Hrk (Hn _ Hx) (Hn _ Hy)).
  Qed.
  Lemma sort_objs_some objs s sorts rank P : rank_ok E rank P ->
    (forall o, o ∈ objs -> sort_keys (en_index o) (split_on ","%char (if str_eqb s [] then default_sort else s)) = Some (Some sorts)) ->
    (forall o, o ∈ objs -> numeric E P sorts (en_index o)) ->
    sort_objs E objs s = Some (gosort (entry_less E sorts) objs).
  Proof.
    intros Hrk Hk Hn. unfold sort_objs. destruct objs as [|o objs]; [done|]. rewrite Hk by left.
    destruct (existsb _ _) eqn:Hb; [|done]. exfalso. apply existsb_exists in Hb as ([x y] & Hin & Hbad).
    apply elem_of_list_In, gosort_log_in in Hin as [Hx Hy]. cbn in Hbad. unfold entry_bad in Hbad.
    destruct (sort_less_ok rank P sorts (en_index x) (en_index y) Hrk (Hn _ Hx) (Hn _ Hy)) as [H _]. congruence.
  Qed.

  (** ** Query *)
  Definition matched (search : gostr) (seen : list entry) : list entry :=
    List.filter (fun e => match entry_match E search e with Some true => true | _ => false end) seen.
  Definition seen_err (search : gostr) (seen : list entry) : bool :=
    existsb (fun e => match entry_match E search e with None => true | _ => false end) seen.
  Definition page_of (p : paginate) (l : Z) : Z * Z :=
    if (pg_size p =? 0)%Z then (0%Z, l) else page_bounds (pg_page p) (pg_size p) l.
  Lemma query_seen_eq p seen : query_seen E p seen =
    match matched (pg_search p) seen with
    | [] => Ok (QRes (seen_err (pg_search p) seen) 0 [])
    | _ =>
        match sort_objs E (matched (pg_search p) seen) (pg_sort p) with
        | None => Ok (QRes true 0 [])
        | Some sorted =>
            let b := page_of p (Z.of_nat (length (matched (pg_search p) seen))) in
            match slice sorted b.1 b.2 with
            | None => Panics
            | Some items => Ok (QRes (seen_err (pg_search p) seen) (Z.of_nat (length (matched (pg_search p) seen))) (map en_obj items))
            end
        end
    end.
  Proof.
    unfold query_seen, matched, seen_err, page_of. destruct (List.filter _ seen) as [|e m]; [done|].
    destruct (sort_objs E (e :: m) (pg_sort p)); [|done]. by destruct (if (pg_size p =? 0)%Z then _ else _).
  Qed.
  Lemma elem_of_matched search seen e : e ∈ matched search seen <-> e ∈ seen /\ entry_match E search e = Some true.
  Proof.
    unfold matched. rewrite !elem_of_list_In, filter_In. destruct (entry_match E search e) as [[]|]; naive_solver.
  Qed.
  (** The matches with their keys, in any order. *)
  Lemma scan_matches st g ns cs search seen es : st_map st !! g = Some cs -> scan ns cs seen ->
    es ≡ₚ matched search seen -> exists ks, matches_listed E st g ns search ks es.
  Proof.
    intros Hg (kes & -> & Hnd & Hk)%scan_keys Hp.
    set (f := fun ke : key * entry => match entry_match E search ke.2 with Some true => true | _ => false end).
    assert (matched search (map snd kes) = map snd (List.filter f kes)) as Hm.
    { unfold matched. clear. induction kes as [|[k e] kes IH]; [done|]. cbn. unfold f at 1. cbn.
      destruct (entry_match E search e) as [[]|]; cbn; by rewrite IH. }
    rewrite Hm in Hp.
    assert (exists kes', es = map snd kes' /\ kes' ≡ₚ List.filter f kes) as (kes' & -> & Hp').
    { apply Permutation_map_inv in Hp as (l' & -> & Hp). by exists l'. }
    assert (forall k e, (k, e) ∈ kes' <-> in_scope st g ns k e /\ entry_match E search e = Some true) as Hin.
    { intros k e. rewrite Hp'. rewrite elem_of_list_In, filter_In, <- elem_of_list_In, Hk. unfold f, in_scope, lookup_entry. cbn.
      rewrite Hg. cbn. unfold cs_lookup. destruct (entry_match E search e) as [[]|]; naive_solver. }
    exists (map fst kes'). split; [|split].
    - assert (map fst kes' ≡ₚ map fst (List.filter f kes)) as -> by (by apply Permutation_map). clear -Hnd.
      induction kes as [|[k e] kes IH]; [constructor|]. cbn in *. apply NoDup_cons in Hnd as [Hni Hnd].
      destruct (f (k, e)); [|auto]. cbn. apply NoDup_cons. split; [|auto]. intros (ke & -> & Hin)%elem_of_list_fmap. apply Hni.
      apply elem_of_list_fmap. exists ke. split; [done|]. rewrite elem_of_list_In, filter_In, <- elem_of_list_In in Hin. naive_solver.
    - assert (Forall (fun ke : key * entry => in_scope st g ns ke.1 ke.2 /\ entry_match E search ke.2 = Some true) kes') as HF.
      { apply Forall_forall. intros [k e] ?. by apply Hin. }
      clear -HF. induction HF as [|[k e] kes ? ? IH]; constructor; auto.
    - intros k e H1 H2. apply elem_of_list_fmap. exists (k, e). split; [done|]. by apply Hin.
  Qed.
  Lemma slice_in {A} (l : list A) lo hi : (0 <= lo <= hi)%Z -> slice l lo hi = Some (take (Z.to_nat (hi - lo)) (drop (Z.to_nat lo) l)).
  Proof. intros [H1 H2]. unfold slice. apply Z.leb_le in H1, H2. by rewrite H1, H2. Qed.
  Lemma slice_out {A} (l : list A) lo hi : (lo < 0 \/ hi < lo)%Z -> slice l lo hi = None.
  Proof. intros H. unfold slice. destruct (Z.leb_spec 0 lo), (Z.leb_spec lo hi); try done; lia. Qed.
  Lemma slice_all {A} (l : list A) : slice l 0 (Z.of_nat (length l)) = Some l.
  Proof.
    rewrite slice_in by lia. rewrite drop_0. rewrite firstn_all2; [done|lia].
  Qed.
  Lemma wrap64_id z : (-9223372036854775808 <= z < 9223372036854775808)%Z -> wrap64 z = z.
  Proof. intros. unfold wrap64. rewrite Z.mod_small; lia. Qed.
  Lemma slice_page {A} (l : list A) page size :
    (1 <= page)%Z -> (1 <= size)%Z -> (page * size < 9223372036854775808)%Z ->
    let b := page_bounds page size (Z.of_nat (length l)) in
    slice l b.1 b.2 = Some (take (Z.to_nat size) (drop (Z.to_nat ((page - 1) * size)) l)).
  Proof.
    intros H1 H2 H3 b. subst b. unfold page_bounds.
    assert (0 <= (page - 1) * size)%Z by nia. assert ((page - 1) * size + size = page * size)%Z by lia.
    rewrite (wrap64_id (page - 1)) by nia. rewrite (wrap64_id ((page - 1) * size)) by lia.
    rewrite (wrap64_id ((page - 1) * size + size)) by lia. cbn [fst snd].
    set (s := ((page - 1) * size)%Z) in *. set (n := Z.of_nat (length l)).
    destruct (Z.leb_spec n s), (Z.leb_spec n (s + size)); try lia.
    - rewrite slice_in by lia. f_equal. rewrite Z.sub_diag. cbn [Z.to_nat take].
      rewrite (drop_ge l (Z.to_nat s)) by lia. by rewrite take_nil.
    - rewrite slice_in by lia. f_equal. rewrite !firstn_all2; [done|..]; rewrite drop_length; lia.
    - rewrite slice_in by lia. f_equal. f_equal. lia.
  Qed.

  (** What a query without error returns. *)
  Definition unpaged (p : paginate) : paginate := Paginate (pg_page p) 0 (pg_total p) (pg_sort p) (pg_search p).
  Lemma query_ok st g ns p r : query E st g ns p (Ok r) -> q_err r = false ->
    exists ks es m, matches_listed E st g ns (pg_search p) ks es /\ q_total r = Z.of_nat (length es) /\
      m ≡ₚ es /\ sort_objs E m (pg_sort p) = Some es /\
      (m = [] /\ q_items r = [] \/ m <> [] /\
       exists items, slice es (page_of p (Z.of_nat (length es))).1 (page_of p (Z.of_nat (length es))).2 = Some items /\ q_items r = map en_obj items) /\
      query E st g ns (unpaged p) (Ok (QRes false (q_total r) (map en_obj es))).
  Proof.
    unfold query. destruct (st_map st !! g) as [cs|] eqn:Eg; [|done]. intros (seen & Hs & Hr) He.
    rewrite query_seen_eq in Hr.
    assert (query_seen E (unpaged p) seen = _) as Hu by apply query_seen_eq. cbn [unpaged pg_search pg_sort] in Hu.
    destruct (matched (pg_search p) seen) as [|e0 m0] eqn:Em.
    - injection Hr as ->. cbn in He. destruct (scan_matches st g ns cs (pg_search p) seen [] Eg Hs) as (ks & Hks); [by rewrite Em|].
      exists ks, [], []. split; [done|]. split; [done|]. split; [done|]. split; [done|]. split; [by left|].
      exists seen. split; [done|]. rewrite Hu. cbn. by rewrite He.
    - rewrite <- Em in *. assert (matched (pg_search p) seen <> []) as Hne by (by rewrite Em).
      destruct (sort_objs E (matched (pg_search p) seen) (pg_sort p)) as [es|] eqn:Eso; [|by injection Hr as ->].
      pose proof (sort_objs_perm _ _ _ Eso) as Hp. pose proof (Permutation_length Hp) as Hlen.
      destruct (scan_matches st g ns cs (pg_search p) seen es Eg Hs Hp) as (ks & Hks). cbv zeta in Hr, Hu. rewrite <- Hlen in Hr, Hu.
      destruct (slice es _ _) as [items|] eqn:Esl in Hr; [|done]. injection Hr as ->. cbn [q_err q_total q_items] in *.
      exists ks, es, (matched (pg_search p) seen). split; [done|]. split; [done|]. split; [done|]. split; [done|].
      split; [right; split; [done|]; by exists items|]. exists seen. split; [done|]. rewrite Hu. unfold page_of. cbn [unpaged pg_size].
      change (0 =? 0)%Z with true. cbn [fst snd]. rewrite slice_all. by rewrite He.
  Qed.
End query_proofs.
