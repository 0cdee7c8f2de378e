(** C76: reading a list page by page while the cache changes. *)
From Coq Require Import Ascii String NArith ZArith Lia.
From stdpp Require Import base gmap strings list sorting.
From Verif Require Import ModelStr ModelLabels ModelPage ModelJson ModelQuery ModelStore ModelUrl ModelProxy ModelServer ModelExtend ModelServe
  SpecLabels SpecPage SpecStore SpecProxy SpecList SpecServer SpecServe SpecWalk
  ModelSort ProofsSort ProofsStr ProofsUrl ProofsJson ProofsLabels ProofsPage ProofsStore ProofsQueryStore ProofsIndex ProofsListing ProofsProxy ProofsServer
  PropsQuery PropsStore PropsStore3 PropsProxy PropsList PropsCluster PropsServer PropsServe.

(** ** Sorted lists of names *)
Lemma sorts_irrefl a : ~ sorts_before a a.
Proof. unfold sorts_before. rewrite !str_ltb_irrefl. naive_solver. Qed.
Lemma sorts_trans a b c : sorts_before a b -> sorts_before b c -> sorts_before a c.
Proof.
  destruct a as [[a1 a2] a3], b as [[b1 b2] b3], c as [[d1 d2] d3]. unfold sorts_before. cbn [fst snd].
  intros [H|[-> [H|[-> H]]]] [K|[-> [K|[-> K]]]]; eauto 8 using str_ltb_trans.
Qed.
Lemma named_fun a b o : named a o -> named b o -> a = b.
Proof.
  intros (x & -> & A1 & A2 & A3) (y & [= <-] & B1 & B2 & B3). destruct a as [[? ?] ?], b as [[? ?] ?]. cbn [fst snd] in *. congruence.
Qed.
Lemma sorted_lt (ks : list name3) i j a b : StronglySorted sorts_before ks -> ks !! i = Some a -> ks !! j = Some b -> i < j -> sorts_before a b.
Proof.
  intros Hs. revert i j. induction Hs as [|x ks Hs IH HF]; intros i j Hi Hj Hij; [done|]. destruct j as [|j]; [lia|]. cbn in Hj.
  destruct i as [|i]; cbn in Hi.
  - injection Hi as <-. rewrite Forall_forall in HF. apply HF. by eapply elem_of_list_lookup_2.
  - eapply IH; [done..|lia].
Qed.
Lemma sorted_pos (ks : list name3) i j a b : StronglySorted sorts_before ks -> ks !! i = Some a -> ks !! j = Some b -> sorts_before a b -> i < j.
Proof.
  intros Hs Hi Hj Hab. destruct (decide (i < j)) as [|Hn]; [done|exfalso]. destruct (decide (i = j)) as [->|Hne].
  - rewrite Hi in Hj. injection Hj as <-. by eapply sorts_irrefl.
  - apply (sorts_irrefl a). eapply sorts_trans; [done|]. eapply sorted_lt; [done|exact Hj|exact Hi|lia].
Qed.
Lemma sorted_nodup (ks : list name3) : StronglySorted sorts_before ks -> NoDup ks.
Proof.
  intros Hs. apply NoDup_alt. intros i j a Hi Hj. destruct (Nat.lt_trichotomy i j) as [H|[H|H]]; [|done|]; exfalso; apply (sorts_irrefl a).
  - exact (sorted_lt ks i j a a Hs Hi Hj H).
  - exact (sorted_lt ks j i a a Hs Hj Hi H).
Qed.
(** The position of a name counts the names before it. *)
Lemma rank_le (ks ks' : list name3) k p p' : StronglySorted sorts_before ks -> StronglySorted sorts_before ks' ->
  ks !! p = Some k -> ks' !! p' = Some k -> (forall x, sorts_before x k -> x ∈ ks -> x ∈ ks') -> p <= p'.
Proof.
  intros Hs Hs' Hp Hp' Hx. assert (take p ks ⊆+ take p' ks') as H.
  { apply NoDup_submseteq.
    - pose proof (sorted_nodup ks Hs) as Hn. rewrite <- (take_drop p ks) in Hn. by apply NoDup_app in Hn as [? _].
    - intros x Hin. apply elem_of_list_lookup in Hin as [i Hi]. apply lookup_take_Some in Hi as [Hi Hlt].
      assert (sorts_before x k) as Hk by (eapply (sorted_lt ks i p); eauto).
      assert (x ∈ ks') as Hin' by (apply Hx; [done|by eapply elem_of_list_lookup_2]).
      apply elem_of_list_lookup in Hin' as [j Hj]. pose proof (sorted_pos ks' j p' x k Hs' Hj Hp' Hk).
      apply elem_of_list_lookup. exists j. apply lookup_take_Some. done. }
  apply submseteq_length in H. apply lookup_lt_Some in Hp, Hp'. rewrite !take_length in H. lia.
Qed.

(** ** The items of a page *)
Lemma callers_same ls : (forall e, e ∈ mexprs ls -> lkey e <> str "ckube.daocloud.io/query") -> callers ls = ls.
Proof.
  intros H. destruct ls as [ml es]. unfold callers. cbn [mlabels mexprs] in *. f_equal.
  induction es as [|e es IH]; [done|]. cbn [List.filter]. assert (lkey e <> str "ckube.daocloud.io/query") as He by (apply H; by left).
  apply str_eqb_neq in He. rewrite He. cbn [negb]. f_equal. apply IH. intros x Hx. apply H. by right.
Qed.
Lemma entry_named E conf h st g k e : Forall kube_call h -> run_calls E (new_store conf) h = Ok st ->
  lookup_entry st g k.1.1 k.1.2 k.2 = Some e -> named k (en_obj e).
Proof.
  intros Hk Hr Hl. destruct (C26_builtin_index E conf h st _ _ _ _ _ Hk Hr Hl) as (x & x' & _ & Ho & (A & B & _ & _ & _ & _ & C & _) & _ & _ & D & _ & F & _).
  exists x'. rewrite A, B. done.
Qed.
Lemma sublist_map {A B} (f : A -> B) l k : sublist l k -> sublist (map f l) (map f k).
Proof. induction 1; cbn [map]; by constructor. Qed.
Definition item_before (x y : obj) : Prop := exists a b, named a x /\ named b y /\ sorts_before a b.
Lemma cache_order E conf h st g ns search es : Forall kube_call h -> run_calls E (new_store conf) h = Ok st -> is_Some (conf !! g) ->
  in_cache_order E st g ns [] search es -> StronglySorted item_before (map en_obj es).
Proof.
  intros Hk Hr Hg (all & n & Hq & Hsub). apply new_dom in Hg. rewrite <- (run_dom E _ _ _ g Hr) in Hg. destruct Hg as [cs Hg].
  destruct (default_list E conf h st g ns search cs Hk Hr Hg) as (ks & L & (Hnd & HF & _) & Hso & HL).
  unfold query in Hq. rewrite Hg in Hq. destruct Hq as (seen & Hs & Hq). rewrite query_seen_eq in Hq. cbn [pg_search pg_sort] in Hq.
  assert (map en_obj all = map en_obj L) as Hall.
  { pose proof (HL seen Hs) as Hsort. destruct (matched E search seen) as [|e m] eqn:Em.
    - injection Hsort as <-. destruct (seen_err E search seen); injection Hq as _ ?; done.
    - rewrite <- Em in *. rewrite Hsort in Hq. cbv zeta in Hq. unfold page_of in Hq. cbn [pg_size Z.eqb fst snd] in Hq.
      rewrite <- (Permutation_length (sort_objs_perm E _ _ _ Hsort)), slice_all in Hq. destruct (seen_err E search seen); injection Hq as ?; done. }
  assert (StronglySorted item_before (map en_obj L)) as Hb.
  { clear Hall HL Hq. revert Hnd Hso. induction HF as [|k e ks L [Hke Hme] HF IH]; intros Hnd Hso; [constructor|].
    apply NoDup_cons in Hnd as [Hn1 Hnd]. apply StronglySorted_inv in Hso as [Hs1 Hs2]. cbn [map]. constructor; [by apply IH|].
    apply Forall_forall. intros x Hx. apply elem_of_list_fmap in Hx as (e' & -> & He').
    rewrite Forall_forall in Hs2. specialize (Hs2 _ He'). apply elem_of_list_lookup in He' as [i Hi].
    destruct (Forall2_lookup_r _ _ _ _ _ HF Hi) as (k' & Hki & [Hl' _] & _). destruct Hke as [Hl _].
    exists k, k'. split; [by eapply entry_named|]. split; [by eapply entry_named|].
    destruct (C26_builtin_index E conf h st _ _ _ _ _ Hk Hr Hl) as (x & _ & _ & _ & _ & A & B & B0 & C & C0 & _).
    destruct (C26_builtin_index E conf h st _ _ _ _ _ Hk Hr Hl') as (x' & _ & _ & _ & _ & A' & B' & B0' & C' & C0' & _).
    rewrite B0 in B. rewrite B0' in B'. rewrite C0 in C. rewrite C0' in C'.
    unfold by_key in Hs2. cbn [lex_le] in Hs2. unfold before, tie, value in Hs2. cbn [is_int is_rev is_key] in Hs2. rewrite A, A', B, B', C, C' in Hs2. cbn [default] in Hs2.
    unfold sorts_before. destruct Hs2 as [?|[E1 [?|[E2 [?|[E3 _]]]]]]; [by left|right; split; [done|by left]|right; split; [done|right; done]|].
    exfalso. apply Hn1. cbn in E1, E2, E3. assert (k = k') as ->; [|by eapply elem_of_list_lookup_2].
    destruct k as [[? ?] ?], k' as [[? ?] ?]. cbn [fst snd] in *. congruence. }
  rewrite <- Hall in Hb. apply (sublist_map en_obj) in Hsub.
  clear -Hb Hsub. revert Hb. induction Hsub as [|x a b Hab IH|x a b Hab IH]; intros Hb; [constructor| |].
  - apply StronglySorted_inv in Hb as [H1 H2]. constructor; [by apply IH|]. apply Forall_forall. intros y Hy. rewrite Forall_forall in H2. apply H2. by eapply (elem_of_submseteq a b), sublist_submseteq.
  - apply StronglySorted_inv in Hb as [H1 _]. by apply IH.
Qed.
Lemma page_names E cf conf a ls full i st items total : askable conf a ls -> page_read E cf conf a ls full i st items total ->
  exists ks, StronglySorted sorts_before ks /\ (forall k, k ∈ ks <-> in_list E a ls full st k) /\
    Forall2 (fun k o => named k o /\ store_get st (a_gvr a) k.1.1 k.1.2 k.2 = Some o)
      (take (Z.to_nat (a_size a)) (drop (i * Z.to_nat (a_size a)) ks)) items /\
    total = Z.of_nat (length ks).
Proof.
  intros (Hcf & Ha & Hls & Hpk & Hex & Hu & Hsz) (h & clients & up & hr & p1 & s & api & kind & rem & Hk & Hr & Hbound & Hqlo & Hrange & Hlen & Hmul & Heff & Hfull & Ht & Hm & Hp & Hq & Hacc & Hs & Htot).
  destruct (C60_page E cf conf h st clients up hr (a_gvr a) (a_ns a) (a_sel a) s (asked_page a i) p1 ls _ Hk Hr Hcf Ht Ha Hls Hpk Hqlo Hrange eq_refl Hu Hlen
    ltac:(cbn; lia) Hsz Hmul Heff Hm Hp Hq Hacc Hs) as [[_ Hx]|(ks & es & (Hnd & HF & Hc) & Hio & Hsh)]; [done|].
  rewrite Hfull, (callers_same ls Hex) in *. cbn [pg_sort asked_page] in Hio. cbv zeta in Hsh.
  assert (forall k, k ∈ ks <-> in_list E a ls full st k) as Hin.
  { intros k. split.
    - intros [j Hj]%elem_of_list_lookup. destruct (Forall2_lookup_l _ _ _ _ _ HF Hj) as (e & _ & He). by exists e.
    - intros (e & H1 & H2 & H3). by eapply Hc. }
  assert (StronglySorted sorts_before ks) as Hso.
  { pose proof (cache_order E conf h st _ _ _ _ Hk Hr Hcf Hio) as Hb. clear -Hb HF Hk Hr. revert Hb. induction HF as [|k e ks es [[Hl _] _] HF IH]; intros Hb; [constructor|].
    cbn [map] in Hb. apply StronglySorted_inv in Hb as [H1 H2]. constructor; [by apply IH|]. apply Forall_forall. intros k' [j Hj]%elem_of_list_lookup.
    destruct (Forall2_lookup_l _ _ _ _ _ HF Hj) as (e' & Hj' & [Hl' _] & _). rewrite Forall_forall in H2.
    destruct (H2 (en_obj e')) as (x & y & Hx & Hy & Hxy); [apply elem_of_list_fmap; exists e'; split; [done|by eapply elem_of_list_lookup_2]|].
    rewrite (named_fun _ _ _ (entry_named E conf h st _ k e Hk Hr Hl) Hx), (named_fun _ _ _ (entry_named E conf h st _ k' e' Hk Hr Hl') Hy). done. }
  pose proof (Forall2_length _ _ _ HF) as Hle.
  assert (Z.of_nat (length es) < 2 ^ 63)%Z as Hb.
  { rewrite <- Hle. apply Hbound; [done|]. apply Forall_forall. intros k Hkk. by apply Hin. }
  exists ks. split; [done|]. split; [done|]. specialize (Hsh Hb). destruct (decide _) as [|_]; [done|].
  destruct Hsh as (api' & kind' & rem' & items' & _ & [= <- <- <- <-] & Hit & Htt). split; [|transitivity (Z.of_nat (length es)); [by rewrite Htot|f_equal; symmetry; exact Hle]].
  rewrite Hit. cbn [pg_size pg_page asked_page]. replace (Z.to_nat ((Z.of_nat i + 1 - 1) * a_size a)) with (i * Z.to_nat (a_size a)) by lia.
  change (map en_obj ?l) with (en_obj <$> l). apply Forall2_fmap_r.
  apply Forall2_take, Forall2_drop. eapply Forall2_impl; [exact HF|]. intros k e ([Hl _] & _). split; [by eapply entry_named|].
  unfold store_get. by rewrite Hl.
Qed.

(** ** C76 *)
Section walk.
  Context (E : env) (cf : config) (conf : gmap gvr (gmap gostr gostr)) (a : asked) (ls : lsel) (full : gostr).
  Context (w : list (store * list obj * Z)) (Ha : askable conf a ls) (Hw : walk E cf conf a ls full w).
  Notation size := (Z.to_nat (a_size a)).
  (** Where a name is in the list that page [i] is cut from. *)
  Definition stands (k : name3) (i p : nat) : Prop :=
    exists st items total ks, w !! i = Some (st, items, total) /\ StronglySorted sorts_before ks /\
      (forall x, x ∈ ks <-> in_list E a ls full st x) /\
      Forall2 (fun k o => named k o /\ store_get st (a_gvr a) k.1.1 k.1.2 k.2 = Some o) (take size (drop (i * size) ks)) items /\
      total = Z.of_nat (length ks) /\ ks !! p = Some k.
  Lemma stands_ex k i v : w !! i = Some v -> in_list E a ls full v.1.1 k -> exists p, stands k i p.
  Proof.
    destruct v as [[st items] total]. intros Hi Hin. destruct (page_names E cf conf a ls full i st items total Ha (Hw _ _ _ _ Hi)) as (ks & Hs & Hk & HF & Ht).
    apply Hk in Hin. apply elem_of_list_lookup in Hin as [p Hp]. exists p, st, items, total, ks. done.
  Qed.
  Lemma stands_on k i p st items total : stands k i p -> w !! i = Some (st, items, total) -> i * size <= p < S i * size ->
    exists x o, items !! x = Some o /\ named k o /\ store_get st (a_gvr a) k.1.1 k.1.2 k.2 = Some o.
  Proof.
    intros (st0 & items0 & total0 & ks & Hi & Hs & Hk & HF & Ht & Hp) Hi' Hr. rewrite Hi in Hi'. injection Hi' as -> -> ->.
    assert (take size (drop (i * size) ks) !! (p - i * size) = Some k) as Hl.
    { rewrite lookup_take by lia. rewrite lookup_drop. by replace (i * size + (p - i * size)) with p by lia. }
    destruct (Forall2_lookup_l _ _ _ _ _ HF Hl) as (o & Ho & H1 & H2). by exists (p - i * size), o.
  Qed.
  Lemma on_stands k i st items total x o : w !! i = Some (st, items, total) -> items !! x = Some o -> named k o ->
    stands k i (i * size + x) /\ x < size.
  Proof.
    intros Hi Hx Hn. destruct (page_names E cf conf a ls full i st items total Ha (Hw _ _ _ _ Hi)) as (ks & Hs & Hk & HF & Ht).
    destruct (Forall2_lookup_r _ _ _ _ _ HF Hx) as (k' & Hl & Hn' & _). rewrite (named_fun _ _ _ Hn' Hn) in Hl.
    apply lookup_take_Some in Hl as [Hl Hlt]. rewrite lookup_drop in Hl. split; [|done]. exists st, items, total, ks. done.
  Qed.
  Lemma stands_fun k i p q : stands k i p -> stands k i q -> p = q.
  Proof.
    intros (st & items & total & ks & Hi & Hs & Hk & _ & _ & Hp) (st' & items' & total' & ks' & Hi' & Hs' & Hk' & _ & _ & Hq).
    rewrite Hi in Hi'. injection Hi' as <- <- <-.
    apply Nat.le_antisymm; [apply (rank_le ks ks' k p q Hs Hs' Hp Hq)|apply (rank_le ks' ks k q p Hs' Hs Hq Hp)]; intros x _ Hx; [by apply Hk', Hk|by apply Hk, Hk'].
  Qed.
  Lemma leaves_chain k : none_leaves E a ls full k w -> forall i j v v', i <= j -> w !! i = Some v -> w !! j = Some v' ->
    forall x, sorts_before x k -> in_list E a ls full v.1.1 x -> in_list E a ls full v'.1.1 x.
  Proof.
    intros Hn i j v v' Hij. revert v'. induction Hij as [|j Hij IH]; intros v' Hi Hj x Hx Hin; [congruence|].
    destruct (lookup_lt_is_Some_2 w j) as [u Hu]; [apply lookup_lt_Some in Hj; lia|]. eapply Hn; [exact Hu|done|done|]. by eapply IH.
  Qed.
  Lemma comes_chain k : none_comes E a ls full k w -> forall i j v v', i <= j -> w !! i = Some v -> w !! j = Some v' ->
    forall x, sorts_before x k -> in_list E a ls full v'.1.1 x -> in_list E a ls full v.1.1 x.
  Proof.
    intros Hn i j v v' Hij. revert v'. induction Hij as [|j Hij IH]; intros v' Hi Hj x Hx Hin; [congruence|].
    destruct (lookup_lt_is_Some_2 w j) as [u Hu]; [apply lookup_lt_Some in Hj; lia|]. eapply IH; [done|exact Hu|done|]. by eapply Hn.
  Qed.
  Lemma not_skipped k : none_leaves E a ls full k w -> (forall i v, w !! i = Some v -> in_list E a ls full v.1.1 k) ->
    to_the_end a w -> exists i st items total x o, w !! i = Some (st, items, total) /\ items !! x = Some o /\ named k o /\
      store_get st (a_gvr a) k.1.1 k.1.2 k.2 = Some o.
  Proof.
    intros Hn Hin ([[st items] total] & Hlast & Hend). rewrite last_lookup in Hlast. cbn [snd] in Hend.
    destruct (stands_ex k _ _ Hlast (Hin _ _ Hlast)) as [p Hp]. pose proof (lookup_lt_Some _ _ _ Hlast) as Hlt.
    assert (exists i p, stands k i p /\ i * size <= p < S i * size) as (i & q & Hq & Hr).
    { assert (p < length w * size) as Hpe.
      { destruct Hp as (st0 & items0 & total0 & ks & Hi & _ & _ & _ & Ht & Hp). rewrite Hlast in Hi. injection Hi as <- <- <-. apply lookup_lt_Some in Hp.
        destruct Ha as (_ & _ & _ & _ & _ & _ & Hsz). lia. }
      replace (length w) with (S (pred (length w))) in Hpe by lia. clear Hlast Hend. revert p Hp Hpe Hlt.
      induction (pred (length w)) as [|i IH]; intros p Hp Hpe Hlt; [exists 0, p; split; [done|lia]|].
      destruct (decide (S i * size <= p)) as [Hle|Hle]; [by exists (S i), p|].
      destruct (lookup_lt_is_Some_2 w i) as [v Hv]; [lia|]. destruct (stands_ex k i v Hv (Hin _ _ Hv)) as [q Hq].
      apply (IH q); [done| |lia]. enough (q <= p) by lia.
      destruct Hq as (st1 & items1 & total1 & ks1 & Hi1 & Hs1 & Hk1 & _ & _ & Hq), Hp as (st2 & items2 & total2 & ks2 & Hi2 & Hs2 & Hk2 & _ & _ & Hp).
      eapply (rank_le ks1 ks2 k); [done|done|done|done|]. intros x Hx H1. apply Hk2. apply (Hn _ _ _ Hi1 Hi2 x Hx). by apply Hk1. }
    pose proof Hq as (st1 & items1 & total1 & ks1 & Hi1 & _). destruct (stands_on k i q _ _ _ Hq Hi1 Hr) as (x & o & H). exists i, st1, items1, total1, x, o. done.
  Qed.
  Lemma not_twice k i j st items total st' items' total' x y o o' : none_comes E a ls full k w ->
    w !! i = Some (st, items, total) -> w !! j = Some (st', items', total') ->
    items !! x = Some o -> items' !! y = Some o' -> named k o -> named k o' -> i = j /\ x = y.
  Proof.
    intros Hn Hi Hj Hx Hy Ho Ho'. destruct (on_stands k i st items total x o Hi Hx Ho) as [Sx Lx]. destruct (on_stands k j st' items' total' y o' Hj Hy Ho') as [Sy Ly].
    assert (forall i j x y, i < j -> stands k i (i * size + x) -> stands k j (j * size + y) -> x < size -> y < size -> False) as H.
    { clear -Hn. intros i j x y Hij (st1 & items1 & total1 & ks1 & Hi1 & Hs1 & Hk1 & _ & _ & Hp) (st2 & items2 & total2 & ks2 & Hi2 & Hs2 & Hk2 & _ & _ & Hq) Hx Hy.
      assert (j * size + y <= i * size + x) as Hle; [|nia]. eapply (rank_le ks2 ks1 k); [done|done|done|done|]. intros z Hz H2. apply Hk1.
      apply (comes_chain k Hn i j _ _ ltac:(lia) Hi1 Hi2 z Hz). by apply Hk2. }
    destruct (Nat.lt_trichotomy i j) as [Hij|[->|Hij]]; [by destruct (H i j x y)| |by destruct (H j i y x)].
    split; [done|]. pose proof (stands_fun k j _ _ Sx Sy). lia.
  Qed.
End walk.

(** An object that is in the list all the time, while nothing before it leaves the list, is on a page, as it was
    cached then. *)
Theorem C76_not_skipped E cf conf a ls full w k : askable conf a ls -> walk E cf conf a ls full w -> to_the_end a w ->
  (forall i v, w !! i = Some v -> in_list E a ls full v.1.1 k) -> none_leaves E a ls full k w ->
  exists i st items total x o, w !! i = Some (st, items, total) /\ items !! x = Some o /\ named k o /\
    store_get st (a_gvr a) k.1.1 k.1.2 k.2 = Some o.
Proof. intros Ha Hw He Hin Hn. by eapply not_skipped. Qed.
Print Assumptions C76_not_skipped.
(** While nothing before it comes into the list, an object is at most once on the pages. *)
Theorem C76_not_twice E cf conf a ls full w k i j st items total st' items' total' x y o o' :
  askable conf a ls -> walk E cf conf a ls full w -> none_comes E a ls full k w ->
  w !! i = Some (st, items, total) -> w !! j = Some (st', items', total') ->
  items !! x = Some o -> items' !! y = Some o' -> named k o -> named k o' -> i = j /\ x = y.
Proof. intros Ha Hw Hn. by eapply not_twice. Qed.
Print Assumptions C76_not_twice.
(** Events on objects after it do not matter: it is on the pages exactly once. *)
Lemma call_far E st c st' g (x : name3) : do_call E st c = Ok st' -> ~ touches_key E (st_conf st) c g x.1.1 x.1.2 x.2 ->
  lookup_entry st' g x.1.1 x.1.2 x.2 = lookup_entry st g x.1.1 x.1.2 x.2.
Proof.
  intros Hd Hn. rewrite (call_lookup E st c st' g _ _ _ Hd). unfold after. unfold touches_key in Hn. fold (conf_of st g) in Hn.
  destruct (decide _) as [[H1 H2]|]; [|done].
  destruct c as [g0 c0 o|g0 c0 o|g0 c0 o|g0 c0]; cbn [call_gvr call_cluster] in H1, H2; subst; try (destruct (decide _) as [Hk|]; [|done]);
    exfalso; apply Hn; [right; exists o; split; [|done]; auto..|by left].
Qed.
Lemma calls_far E conf g (x : name3) calls : forall st st', st_conf st = conf -> run_calls E st calls = Ok st' ->
  Forall (fun c => ~ touches_key E conf c g x.1.1 x.1.2 x.2) calls ->
  lookup_entry st' g x.1.1 x.1.2 x.2 = lookup_entry st g x.1.1 x.1.2 x.2.
Proof.
  induction calls as [|c calls IH]; intros st st' Hc Hr HF; cbn in Hr; [congruence|]. apply Forall_cons_1 in HF as [Hx HF].
  destruct (do_call E st c) as [st1|] eqn:Ed; [|done].
  rewrite (IH st1 st'); [|rewrite (call_conf E _ _ _ Ed); done|done|done]. eapply call_far; [done|]. by rewrite Hc.
Qed.
Theorem C76_exactly_once E cf conf a ls full w k : askable conf a ls -> walk E cf conf a ls full w -> to_the_end a w ->
  changes_after E conf a k w -> (exists v, w !! 0 = Some v /\ in_list E a ls full v.1.1 k) ->
  exists i x, forall j y, (exists st items total o, w !! j = Some (st, items, total) /\ items !! y = Some o /\ named k o) <-> j = i /\ y = x.
Proof.
  intros Ha Hw He Hc (v0 & Hv0 & Hin0).
  assert (forall i v v' x, w !! i = Some v -> w !! S i = Some v' -> sorts_before x k \/ x = k -> in_list E a ls full v.1.1 x <-> in_list E a ls full v'.1.1 x) as Hsame.
  { intros i v v' x Hi Hi' Hx. destruct (Hc i v v' Hi Hi') as (calls & Hr & HF).
    assert (st_conf v.1.1 = conf) as Hconf.
    { destruct v as [[st items] total]. destruct (Hw _ _ _ _ Hi) as (h & _ & _ & _ & _ & _ & _ & _ & _ & _ & Hrun & _). exact (run_conf E _ _ _ Hrun). }
    unfold in_list, in_scope. rewrite (calls_far E conf (a_gvr a) x calls _ _ Hconf Hr); [done|]. eapply Forall_impl; [exact HF|]. intros c Hcc. by apply Hcc. }
  assert (forall i v, w !! i = Some v -> in_list E a ls full v.1.1 k) as Hin.
  { intros i. induction i as [|i IH]; intros v Hi; [congruence|]. destruct (lookup_lt_is_Some_2 w i) as [u Hu]; [apply lookup_lt_Some in Hi; lia|].
    eapply (Hsame i u v k); [done|done|by right|by apply IH]. }
  assert (none_leaves E a ls full k w) as Hl by (intros i v v' Hi Hi' x Hx; apply (Hsame i v v' x); auto).
  assert (none_comes E a ls full k w) as Hn by (intros i v v' Hi Hi' x Hx; apply (Hsame i v v' x); auto).
  destruct (C76_not_skipped E cf conf a ls full w k Ha Hw He Hin Hl) as (i & st & items & total & x & o & Hi & Hx & Ho & _).
  exists i, x. intros j y. split.
  - intros (st' & items' & total' & o' & Hj & Hy & Ho'). eapply C76_not_twice; [exact Ha|exact Hw|exact Hn|exact Hj|exact Hi|exact Hy|exact Hx|done|done].
  - intros [-> ->]. by exists st, items, total, o.
Qed.
Print Assumptions C76_exactly_once.

(** ** Walks of two pages of one pod *)
Definition wk : asked := Asked pods (Some (str "default")) [] [] 1.
Definition wk_full : gostr := pg_search (set_clusters (asked_page wk 0) [c1]).2.
Definition wk_store (h : list call) : store := ok_store (run_calls ex_env (new_store ex_conf) h).
Definition wk_req (i : nat) : http_req :=
  HttpReq [] (Request (str "GET") (str "/api/v1/namespaces/default/pods") ∅
    (query_encode {[ str "labelSelector" := [default [] (query_list_options [] (asked_page wk i))] ]}) (Some []) [] []).
Definition wk_answer (st : store) (i : nat) : answer :=
  match parse_list_selector (default [] (query_list_options [] (asked_page wk i))) with
  | Some (p', labels) =>
      list_answer ex_cf (fun _ m => map_to_list m) (ex_lreq [] (asked_page wk i)) pods (add_default_cluster ex_cf p') labels
        (query_with ex_env false st pods (str "default") (store_page (add_default_cluster ex_cf p') labels))
  | None => APanic
  end.
Definition wk_items (st : store) (i : nat) : list obj := match wk_answer st i with AList _ _ _ _ l => l | _ => [] end.
Definition wk_total (st : store) (i : nat) : Z :=
  match wk_answer st i with AList _ _ _ rem l => pg_total (makeup_total (Some rem) (length l) (asked_page wk i)) | _ => 0 end.
Definition wk_is_list (st : store) (i : nat) : bool :=
  match wk_answer st i with AList _ _ p _ _ => str_eqb p (api_path pods (Some (str "default")) None) | _ => false end.
Definition wk_visit (h : list call) (i : nat) : store * list obj * Z := (wk_store h, wk_items (wk_store h) i, wk_total (wk_store h) i).
Definition wk_has (st : store) (n : string) : bool :=
  match lookup_entry st pods c1 (str "default") (str n) with
  | Some e => match entry_match ex_env wk_full e with Some true => true | _ => false end
  | None => false
  end.
Definition on_pods (k : call) : bool := match k with CAdd g _ (OKube _) | CMod g _ (OKube _) | CDel g _ (OKube _) => bool_decide (g = pods) | _ => false end.
Lemma wk_store_ok h : forallb on_pods h = true -> run_calls ex_env (new_store ex_conf) h = Ok (wk_store h) /\ Forall kube_call h.
Proof.
  intros Hh. assert (Forall (fun k => call_gvr k = pods /\ kube_call k) h) as HF.
  { apply Forall_forall. intros k Hk. rewrite forallb_forall in Hh. apply elem_of_list_In in Hk. specialize (Hh k Hk).
    destruct k as [g c [x|]|g c [x|]|g c [x|]|]; cbn in Hh; try done; apply bool_decide_eq_true in Hh; subst; (split; [done|by eexists]). }
  split; [|eapply Forall_impl; [exact HF|]; by intros ? []].
  unfold wk_store. destruct (run_calls ex_env (new_store ex_conf) h) eqn:Hr; [done|]. exfalso.
  destruct (proj2 (run_ok_iff ex_env ex_conf h)) as [st Hst]; [|congruence].
  eapply Forall_impl; [exact HF|]. intros k [-> _]. rewrite ex_conf_pods. by eexists.
Qed.
Lemma bounded E conf h st a ls full ks : Forall kube_call h -> run_calls E (new_store conf) h = Ok st -> NoDup ks ->
  Forall (in_list E a ls full st) ks -> length ks <= length h.
Proof.
  intros Hk Hr Hn HF. set (key := fun k => match k with CAdd _ c (OKube x) | CMod _ c (OKube x) => (c, k_ns x, k_name x) | _ => ([], [], []) end : name3).
  rewrite <- (map_length key h). apply submseteq_length, NoDup_submseteq; [done|]. intros [[c n] m] Hx. rewrite Forall_forall in HF.
  destruct (HF _ Hx) as (e & [Hl _] & _). destruct (C26_builtin_index E conf h st _ _ _ _ _ Hk Hr Hl) as (x & _ & Hc & _ & _ & _ & _ & B & _ & C & _). cbn [fst snd] in *.
  subst. destruct Hc as [Hc|Hc]; apply elem_of_list_fmap; eexists; (split; [|exact Hc]); done.
Qed.
Lemma wk_serve st i h : run_calls ex_env (new_store ex_conf) h = Ok st -> wk_is_list st i = true -> i < 2 ->
  exists api kind rem, serve ex_env ex_cf ex_clients st ex_apis (wk_req i)
    (Some (Reply 200 [BList api kind (api_path pods (Some (str "default")) None) rem (wk_items st i)])) /\
    wk_total st i = pg_total (makeup_total (Some rem) (length (wk_items st i)) (asked_page wk i)).
Proof.
  intros Hr Hl Hi. assert (exists labels, parse_list_selector (default [] (query_list_options [] (asked_page wk i))) = Some (asked_page wk i, labels)) as [labels Hp].
  { destruct i as [|[|i]]; [eexists; vm_compute; reflexivity..|lia]. }
  assert (proxy ex_env ex_cf ex_clients st (ex_lreq [] (asked_page wk i)) (wk_answer st i)) as Hx.
  { unfold wk_answer. rewrite Hp. eapply list_proxy; [exact Hr|by apply ex_lreq_ok|done|]. apply query_with_ok. }
  assert (dispatch route_handles (cf_token ex_cf) (wk_req i) = DRun HProxy (ex_lreq [] (asked_page wk i)) 200) as Hd.
  { destruct i as [|[|i]]; [reflexivity..|lia]. }
  pose proof (serve_run ex_env ex_cf ex_clients st ex_apis _ HProxy _ 200 _ Hd (handle_proxy _ _ _ _ _ _ _ Hx)) as H.
  unfold wk_is_list in Hl. unfold wk_items, wk_total. clear Hx Hd Hp Hr.
  assert (exists api kind p rem items, wk_answer st i = AList api kind p rem items) as (api & kind & p & rem & items & Ha) by (destruct (wk_answer st i); try discriminate Hl; eauto 6).
  rewrite Ha in Hl, H |- *. apply str_eqb_eq in Hl. subst p. exists api, kind, rem. split; [exact H|reflexivity].
Qed.
Lemma wk_askable : askable ex_conf wk (LSel ∅ []).
Proof.
  split; [change (a_gvr wk) with pods; rewrite ex_conf_pods; by eexists|]. split; [|split_and!; [done|done|by intros e ?%elem_of_nil|done|cbn; lia]].
  unfold api_addr, plain_seg. cbn [fst snd pods wk a_gvr a_ns].
  assert (forall s, existsb (fun c => Ascii.eqb c "/"%char) s = false -> "/"%char ∉ s) as Hin.
  { intros s Hs Hi. assert (existsb (fun c => Ascii.eqb c "/"%char) s = true); [|congruence]. apply existsb_exists. exists "/"%char. by rewrite <- elem_of_list_In. }
  split; [by left|]. assert (forall s, s <> [] -> existsb (fun c => Ascii.eqb c "/"%char) s = false -> s <> str "." -> s <> str ".." -> s <> [] /\ "/"%char ∉ s /\ s <> str "." /\ s <> str "..") as Hs; [by auto|].
  split; [by apply Hs|]. split; [by apply Hs|]. split; intros n [= <-]; by apply Hs.
Qed.
Lemma wk_page h i : forallb on_pods h = true -> wk_is_list (wk_store h) i = true -> i < 2 -> (Z.of_nat (length h) < 2 ^ 63)%Z ->
  page_read ex_env ex_cf ex_conf wk (LSel ∅ []) wk_full i (wk_store h) (wk_items (wk_store h) i) (wk_total (wk_store h) i).
Proof.
  intros Hh Hl Hi Hb. destruct (wk_store_ok h Hh) as [Hr Hk]. destruct (wk_serve (wk_store h) i h Hr Hl Hi) as (api & kind & rem & Hs & Ht).
  assert (exists s, query_list_options [] (asked_page wk i) = Some s) as [s Hq].
  { destruct i as [|[|i]]; [eexists; vm_compute; reflexivity..|lia]. }
  eexists h, ex_clients, ex_apis, (wk_req i), (set_clusters (asked_page wk i) [c1]).2, s, api, kind, rem. split_and!; try done.
  - intros ks Hn HF. pose proof (bounded _ _ _ _ _ _ _ _ Hk Hr Hn HF). lia.
  - destruct i as [|[|i]]; [vm_compute; split_and!; congruence..|lia].
  - destruct i as [|[|i]]; [vm_compute; congruence..|lia].
  - destruct i as [|[|i]]; [reflexivity..|lia].
  - apply (effective_default ex_cf). reflexivity.
  - by left.
  - cbn [wk_req h_req rq_raw]. by rewrite Hq.
  - intros (x & y & H). cbn in H. destruct x; done.
Qed.
Lemma wk_in h n : forallb on_pods h = true -> wk_has (wk_store h) n = true ->
  in_list ex_env wk (LSel ∅ []) wk_full (wk_store h) (c1, str "default", str n).
Proof.
  intros Hh. destruct (wk_store_ok h Hh) as [Hr Hk].
  unfold wk_has. destruct (lookup_entry (wk_store h) pods c1 (str "default") (str n)) as [e|] eqn:El; [|done].
  destruct (entry_match ex_env wk_full e) as [[]|] eqn:Em; [|done..]. intros _. exists e. split; [split; [done|by right]|]. split; [done|].
  destruct (entry_named ex_env ex_conf h (wk_store h) pods (c1, str "default", str n) e Hk Hr El) as (x & -> & _). split; cbn [mlabels mexprs].
  - intros k v. by rewrite lookup_empty.
  - by intros ? ?%elem_of_nil.
Qed.
Definition b_key : name3 := (c1, str "default", str "b").
Definition added (n : string) : call := CAdd pods c1 (pod "default" n "1").
(** b is cached all the time, but a, before it, is deleted after the first page: b is on neither page. *)
Definition skip_h1 : list call := [added "a"; added "b"; added "c"].
Definition skip_h2 : list call := skip_h1 ++ [CDel pods c1 (pod "default" "a" "1")].
Definition skip_walk : list (store * list obj * Z) := [wk_visit skip_h1 0; wk_visit skip_h2 1].
Lemma walk_two h1 h2 : forallb on_pods h1 = true -> forallb on_pods h2 = true -> wk_is_list (wk_store h1) 0 = true -> wk_is_list (wk_store h2) 1 = true ->
  (Z.of_nat (length h1) < 2 ^ 63)%Z -> (Z.of_nat (length h2) < 2 ^ 63)%Z ->
  walk ex_env ex_cf ex_conf wk (LSel ∅ []) wk_full [wk_visit h1 0; wk_visit h2 1].
Proof.
  intros H1 H2 L1 L2 B1 B2 i st items total Hi. destruct i as [|[|i]]; cbn in Hi; [| |done]; injection Hi as <- <- <-; by apply wk_page; auto with lia.
Qed.
Definition item_name (o : obj) : option name3 :=
  match o with OKube x => (fun c => (c, k_ns x, k_name x)) <$> k_annos x !! str "ckube.doacloud.io/cluster" | ORaw _ => None end.
Lemma item_name_iff k o : named k o <-> item_name o = Some k.
Proof.
  destruct k as [[c n] m]. unfold named, item_name. cbn [fst snd]. split.
  - intros (x & -> & -> & <- & <-). done.
  - destruct o as [x|]; [|done]. destruct (k_annos x !! _) eqn:Ec; [|done]. intros [= <- <- <-]. by exists x.
Qed.
Definition wk_names (w : list (store * list obj * Z)) : list (list (option name3) * Z) := map (fun v => (map item_name v.1.2, v.2)) w.
Definition at_c1 (n : string) : option name3 := Some (c1, str "default", str n).
Lemma names_on w i st items total : w !! i = Some (st, items, total) -> wk_names w !! i = Some (map item_name items, total).
Proof. intros Hi. unfold wk_names. change (map (fun v => (map item_name v.1.2, v.2)) w) with ((fun v : store * list obj * Z => (map item_name v.1.2, v.2)) <$> w). by rewrite list_lookup_fmap, Hi. Qed.
Example C76_skip_names : wk_names skip_walk = [([at_c1 "a"], 3%Z); ([at_c1 "c"], 2%Z)].
Proof. vm_compute. reflexivity. Qed.
Theorem C76_skipped_refuted : exists E cf conf a ls full w k, askable conf a ls /\ walk E cf conf a ls full w /\ to_the_end a w /\
  (forall i v, w !! i = Some v -> in_list E a ls full v.1.1 k) /\
  (forall i st items total x o, w !! i = Some (st, items, total) -> items !! x = Some o -> ~ named k o).
Proof.
  exists ex_env, ex_cf, ex_conf, wk, (LSel ∅ []), wk_full, skip_walk, b_key. split; [apply wk_askable|]. split; [|split; [|split]].
  - apply walk_two; try done; vm_compute; reflexivity.
  - eexists. split; [done|]. assert (wk_total (wk_store skip_h2) 1 = 2%Z) as Ht by (vm_compute; reflexivity). cbn [snd wk_visit]. rewrite Ht. done.
  - intros i v Hi. destruct i as [|[|i]]; cbn in Hi; [| |done]; injection Hi as <-; apply wk_in; vm_compute; reflexivity.
  - intros i st items total x o Hi Hx Hn%item_name_iff. pose proof (names_on _ _ _ _ _ Hi) as Hl. rewrite C76_skip_names in Hl.
    assert (map item_name items !! x = Some (Some b_key)) as Hlx by (change (map item_name items) with (item_name <$> items); rewrite list_lookup_fmap, Hx; cbn; by rewrite Hn).
    destruct i as [|[|i]]; cbn in Hl; [| |done]; injection Hl as Hl _; rewrite <- Hl in Hlx; (destruct x as [|x]; [by vm_compute in Hlx|done]).
Qed.
Print Assumptions C76_skipped_refuted.
(** b is cached all the time, and a, before it, is added after the first page: b is on both pages. *)
Definition twice_walk : list (store * list obj * Z) := [wk_visit [added "b"] 0; wk_visit [added "b"; added "a"] 1].
Example C76_twice_names : wk_names twice_walk = [([at_c1 "b"], 1%Z); ([at_c1 "b"], 2%Z)].
Proof. vm_compute. reflexivity. Qed.
Theorem C76_twice_refuted : exists E cf conf a ls full w k, askable conf a ls /\ walk E cf conf a ls full w /\ to_the_end a w /\
  exists i j st items total st' items' total' x y o o', w !! i = Some (st, items, total) /\ w !! j = Some (st', items', total') /\
    items !! x = Some o /\ items' !! y = Some o' /\ named k o /\ named k o' /\ i <> j.
Proof.
  assert (walk ex_env ex_cf ex_conf wk (LSel ∅ []) wk_full twice_walk) as Hw by (apply walk_two; try done; vm_compute; reflexivity).
  exists ex_env, ex_cf, ex_conf, wk, (LSel ∅ []), wk_full, twice_walk, b_key. split; [apply wk_askable|]. split; [done|]. split.
  { eexists. split; [done|]. assert (wk_total (wk_store [added "b"; added "a"]) 1 = 2%Z) as Ht by (vm_compute; reflexivity). cbn [snd wk_visit]. rewrite Ht. done. }
  assert (forall i v, twice_walk !! i = Some v -> exists o, v.1.2 !! 0 = Some o /\ named b_key o) as H.
  { intros i [[st items] total] Hi. pose proof (names_on _ _ _ _ _ Hi) as Hl. rewrite C76_twice_names in Hl.
    assert (map item_name items = [at_c1 "b"]) as Hn by (destruct i as [|[|i]]; cbn in Hl; [| |done]; by injection Hl as <- _).
    destruct items as [|o items]; [done|]. injection Hn as Hn _. exists o. split; [done|]. by apply item_name_iff. }
  destruct (H 0 _ eq_refl) as (o & Ho & Hk). destruct (H 1 _ eq_refl) as (o' & Ho' & Hk').
  eexists 0, 1, _, _, _, _, _, _, 0, 0, o, o'. split; [reflexivity|]. split; [reflexivity|]. split; [exact Ho|]. split; [exact Ho'|]. split; [exact Hk|]. split; [exact Hk'|]. discriminate.
Qed.
Print Assumptions C76_twice_refuted.
(** c is added after the first page, after b: b is on exactly one page. *)
Definition once_walk : list (store * list obj * Z) := [wk_visit [added "a"; added "b"] 0; wk_visit [added "a"; added "b"; added "c"; CDel pods c1 (pod "default" "c" "1")] 1].
Example C76_ex : askable ex_conf wk (LSel ∅ []) /\ walk ex_env ex_cf ex_conf wk (LSel ∅ []) wk_full once_walk /\ to_the_end wk once_walk /\
  changes_after ex_env ex_conf wk b_key once_walk /\
  (exists v, once_walk !! 0 = Some v /\ in_list ex_env wk (LSel ∅ []) wk_full v.1.1 b_key) /\
  wk_names once_walk = [([at_c1 "a"], 2%Z); ([at_c1 "b"], 2%Z)].
Proof.
  split; [apply wk_askable|]. split; [|split; [|split; [|split]]].
  - apply walk_two; try done; vm_compute; reflexivity.
  - eexists. split; [done|]. assert (wk_total (wk_store [added "a"; added "b"; added "c"; CDel pods c1 (pod "default" "c" "1")]) 1 = 2%Z) as Ht by (vm_compute; reflexivity).
    cbn [snd wk_visit]. rewrite Ht. done.
  - intros i v v' Hi Hi'. destruct i as [|i]; [|done]. cbn in Hi, Hi'. injection Hi as <-. injection Hi' as <-. cbn [fst wk_visit].
    exists [added "c"; CDel pods c1 (pod "default" "c" "1")]. split.
    + destruct (wk_store_ok [added "a"; added "b"] eq_refl) as [H1 _].
      destruct (wk_store_ok ([added "a"; added "b"] ++ [added "c"; CDel pods c1 (pod "default" "c" "1")]) eq_refl) as [H2 _].
      rewrite run_app, H1 in H2. exact H2.
    + assert (forall x : name3, sorts_before x b_key \/ x = b_key -> x.2 = str "c" -> x.1.2 = str "default" -> x.1.1 = c1 -> False) as Hx.
      { intros [[? ?] ?] H; cbn [fst snd] in *; intros -> -> ->. destruct H as [H|H]; [|by vm_compute in H]. unfold sorts_before in H. cbn [fst snd b_key] in H.
        destruct H as [H|[_ [H|[_ H]]]]; by vm_compute in H. }
      apply Forall_cons; split; [|apply Forall_cons; split; [|apply Forall_nil_2]]; intros x Hb [H|(o & Ho & Hk)]; try done.
      * destruct Ho as [Ho|[Ho|Ho]]; [|done..]. injection Ho as Hc <-. cbn in Hk. injection Hk as Hn Hm. by apply (Hx x Hb).
      * destruct Ho as [Ho|[Ho|Ho]]; [done..|]. injection Ho as Hc <-. cbn in Hk. injection Hk as Hn Hm. by apply (Hx x Hb).
  - eexists. split; [done|]. apply wk_in; vm_compute; reflexivity.
  - vm_compute. reflexivity.
Qed.
