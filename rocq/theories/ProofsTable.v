(** Proofs about table output. *)
From Coq Require Import Ascii String NArith ZArith Lia.
From stdpp Require Import base gmap strings list sorting.
From Verif Require Import ModelStr ModelSort ModelLabels ModelPage ModelJson ModelQuery ModelStore ModelUrl ModelProxy
  SpecPage SpecStore SpecTable ProofsStr ProofsSort ProofsJson.

(** ** The annotation *)
Lemma fold_insert_lookup {A B} (f : A -> gostr * B) l : forall (m0 : gmap gostr B) x,
  fold_left (fun m a => <[(f a).1 := (f a).2]> m) l m0 !! x =
    match List.find (fun a => str_eqb (f a).1 x) (rev l) with Some a => Some (f a).2 | None => m0 !! x end.
Proof.
  induction l as [|a l IH] using rev_ind; intros m0 x; [done|]. rewrite fold_left_app. cbn [fold_left]. rewrite rev_app_distr. cbn [rev app List.find].
  destruct (str_eqb_spec (f a).1 x) as [->|Hne]; [by rewrite lookup_insert|]. by rewrite lookup_insert_ne, IH.
Qed.
Lemma unmarshal_marshal_map m : unmarshal_map (marshal_map m) =
  fold_left (fun m' kv => <[to_valid kv.1 := to_valid kv.2]> m') (gosort (fun a b : gostr * gostr => str_ltb a.1 b.1) (map_to_list m)) ∅.
Proof.
  unfold unmarshal_map, marshal_map. set (l := gosort _ _).
  assert (map (fun kv : gostr * gostr => json_str kv.1 ++ str ":" ++ json_str kv.2) l =
    map mem_text (map (fun kv : gostr * gostr => (kv.1, json_str kv.2, JStr (to_valid kv.2))) l)) as ->.
  { rewrite map_map. done. }
  rewrite json_parse_obj.
  - rewrite map_map, fold_map. done.
  - apply Forall_fmap, Forall_forall. intros [k v] _. cbn. apply val_str.
Qed.
Lemma decoded_dom m x : is_Some (unmarshal_map (marshal_map m) !! x) <-> exists k, is_Some (m !! k) /\ to_valid k = x.
Proof.
  rewrite unmarshal_marshal_map, (fold_insert_lookup (fun kv : gostr * gostr => (to_valid kv.1, to_valid kv.2))).
  cbn [fst snd]. set (l := gosort _ _). assert (forall kv, kv ∈ l <-> m !! kv.1 = Some kv.2) as Hl.
  { intros [k v]. unfold l. rewrite gosort_elem, elem_of_map_to_list. done. }
  destruct (List.find _ (rev l)) as [[k v]|] eqn:E.
  - apply find_some in E as [Hin Hx]. apply in_rev in Hin. apply elem_of_list_In, Hl in Hin. apply str_eqb_eq in Hx. cbn [fst snd] in *.
    split; [|done]. intros _. exists k. split; [by eexists|done].
  - rewrite lookup_empty. split; [by intros [? ?]|]. intros (k & [v Hv] & Hk).
    pose proof (find_none _ _ E (k, v)) as Hn. cbn [fst] in Hn. rewrite Hk, str_eqb_refl in Hn. discriminate Hn.
    rewrite <- in_rev. apply elem_of_list_In, Hl. done.
Qed.
Lemma decoded_value m x : (forall k, is_Some (m !! k) -> valid_utf8 k = true) ->
  unmarshal_map (marshal_map m) !! x = to_valid <$> m !! x.
Proof.
  intros Hv. rewrite unmarshal_marshal_map, (fold_insert_lookup (fun kv : gostr * gostr => (to_valid kv.1, to_valid kv.2))).
  cbn [fst snd]. set (l := gosort _ _). assert (forall kv, kv ∈ l <-> m !! kv.1 = Some kv.2) as Hl.
  { intros [k v]. unfold l. rewrite gosort_elem, elem_of_map_to_list. done. }
  destruct (List.find _ (rev l)) as [[k v]|] eqn:E.
  - apply find_some in E as [Hin Hx]. apply in_rev in Hin. apply elem_of_list_In, Hl in Hin. apply str_eqb_eq in Hx. cbn [fst snd] in *.
    rewrite valid_to_valid in Hx by (apply Hv; by eexists). subst x. by rewrite Hin.
  - rewrite lookup_empty. destruct (m !! x) as [v|] eqn:Ex; [|done]. exfalso.
    pose proof (find_none _ _ E (x, v)) as Hn. cbn [fst] in Hn. rewrite valid_to_valid in Hn by (apply Hv; by eexists).
    rewrite str_eqb_refl in Hn. discriminate Hn. rewrite <- in_rev. apply elem_of_list_In, Hl. done.
Qed.
Lemma marshal_map_nonempty m : marshal_map m <> [].
Proof. done. Qed.

Lemma elem_of_lfilter {A} (f : A -> bool) l x : x ∈ List.filter f l <-> x ∈ l /\ f x = true.
Proof. rewrite !elem_of_list_In. apply filter_In. Qed.

(** ** Columns and cells *)
Lemma col_map_lookup cols : forall j m c, NoDup cols -> (forall c, c ∈ cols -> m !! c = None) ->
  (forall i, cols !! i = Some c -> col_map j cols m !! c = Some (j + i)) /\ (c ∉ cols -> col_map j cols m !! c = m !! c).
Proof.
  induction cols as [|d cols IH]; intros j m c Hnd Hm; [done|]. apply NoDup_cons in Hnd as [Hd Hnd]. cbn [col_map].
  assert (forall c, c ∈ cols -> <[d := j]> m !! c = None) as Hm'.
  { intros c' Hc'. rewrite lookup_insert_ne by (by intros ->). apply Hm. by right. }
  destruct (IH (S j) (<[d := j]> m) c Hnd Hm') as [H1 H2]. split.
  - intros [|i]; cbn; [intros [= ->]|]; [rewrite H2, lookup_insert by done; f_equal; lia|]. intros Hi. rewrite (H1 _ Hi). f_equal. lia.
  - intros Hc. rewrite not_elem_of_cons in Hc. destruct Hc as [Hc1 Hc2]. rewrite H2 by done. by rewrite lookup_insert_ne.
Qed.
Lemma col_map_size cols : forall j m, NoDup cols -> (forall c, c ∈ cols -> m !! c = None) -> size (col_map j cols m) = length cols + size m.
Proof.
  induction cols as [|d cols IH]; intros j m Hnd Hm; [done|]. apply NoDup_cons in Hnd as [Hd Hnd]. cbn [col_map length]. rewrite IH.
  - rewrite map_size_insert_None by (apply Hm; left). lia.
  - done.
  - intros c' Hc'. rewrite lookup_insert_ne by (by intros ->). apply Hm. by right.
Qed.
Section cells.
  Context (cols : list gostr) (Hnd : NoDup cols).
  Notation imap := (col_map 0 cols ∅).
  Lemma imap_lookup j c : cols !! j = Some c -> imap !! c = Some j.
  Proof. intros H. destruct (col_map_lookup cols 0 ∅ c Hnd) as [H1 _]; [intros; apply lookup_empty|]. by rewrite (H1 _ H). Qed.
  Lemma imap_size : size imap = length cols.
  Proof. rewrite col_map_size; [by rewrite map_size_empty, Nat.add_0_r|done|]. intros. apply lookup_empty. Qed.
  Lemma fill_ok es : forall cells, length cells = length cols -> NoDup (map fst es) -> (forall k v, (k, v) ∈ es -> k ∈ cols) ->
    exists row, fill imap es cells = Ok row /\ length row = length cols /\
      forall j c, cols !! j = Some c ->
        (forall v, (c, v) ∈ es -> row !! j = Some (Some v)) /\ (c ∉ map fst es -> row !! j = cells !! j).
  Proof.
    induction es as [|[k v] es IH]; intros cells Hlen Hn Hin.
    - exists cells. split; [done|]. split; [done|]. intros j c Hj. split; [by intros v ?%elem_of_nil|done].
    - cbn [map fst] in Hn. apply NoDup_cons in Hn as [Hk Hn].
      assert (k ∈ cols) as [i Hi]%elem_of_list_lookup by (eapply Hin; left).
      cbn [fill]. rewrite (imap_lookup i k Hi). cbn [default from_option id].
      assert (i < length cols) as Hlt by (by eapply lookup_lt_Some). destruct (Nat.ltb_spec i (length cells)); [|lia].
      destruct (IH (<[i := Some v]> cells)) as (row & Hr & Hl & Hrow).
      + by rewrite insert_length.
      + done.
      + intros k' v' Hk'. eapply Hin. by right.
      + exists row. split; [done|]. split; [done|]. intros j c Hj. destruct (Hrow j c Hj) as [A B]. split.
        * intros v' Hv'. apply elem_of_cons in Hv' as [Heq|Hv']; [|by apply A]. injection Heq as -> ->.
          assert (j = i) as -> by exact (NoDup_lookup cols j i k Hnd Hj Hi). rewrite B; [by apply list_lookup_insert|]. done.
        * cbn [map fst]. rewrite not_elem_of_cons. intros [Hne Hc]. rewrite B by done. apply list_lookup_insert_ne. intros ->. congruence.
  Qed.
  (** A row for the index [idx]. *)
  Lemma fill_map (idx : gmap gostr gostr) es : es ≡ₚ map_to_list idx -> (forall x, is_Some (idx !! x) -> x ∈ cols) ->
    exists row, fill imap es (replicate (size imap) None) = Ok row /\ length row = length cols /\
      forall j c, cols !! j = Some c -> row !! j = Some (idx !! c).
  Proof.
    intros Hes Hidx. destruct (fill_ok es (replicate (size imap) None)) as (row & Hr & Hl & Hrow).
    - by rewrite replicate_length, imap_size.
    - assert (map fst es ≡ₚ map fst (map_to_list idx)) as -> by (by apply Permutation_map). apply NoDup_fst_map_to_list.
    - intros k v Hk. rewrite Hes, elem_of_map_to_list in Hk. apply Hidx. by eexists.
    - exists row. split; [done|]. split; [done|]. intros j c Hj. destruct (Hrow j c Hj) as [A B]. destruct (idx !! c) as [v|] eqn:E.
      + apply A. rewrite Hes. by apply elem_of_map_to_list.
      + rewrite B.
        * apply lookup_replicate_2. rewrite imap_size. by eapply lookup_lt_Some.
        * intros Hc. apply elem_of_list_fmap in Hc as ([k v] & -> & Hc). rewrite Hes, elem_of_map_to_list in Hc. cbn [fst] in *. congruence.
  Qed.
End cells.

(** The index text of an object. *)
Definition has_text (D : gostr -> Prop) (o : obj) (idx : gmap gostr gostr) : Prop :=
  exists k, o = OKube k /\ default [] (k_annos k !! index_anno) <> [] /\ idx = unmarshal_map (default [] (k_annos k !! index_anno)) /\
    forall x, is_Some (idx !! x) <-> D x.
Definition row_of (cols : list gostr) (idx : gmap gostr gostr) (row : list (option gostr)) : Prop :=
  length row = length cols /\ forall j c, cols !! j = Some c -> row !! j = Some (idx !! c).
Section rows.
  Context (ord : nat -> gmap gostr gostr -> list (gostr * gostr)) (Hord : forall n m, ord n m ≡ₚ map_to_list m) (D : gostr -> Prop).
  Lemma print_rows_ok cols (Hnd : NoDup cols) (HD : forall x, D x -> x ∈ cols) items idxs : Forall2 (has_text D) items idxs -> forall i, i <> 0 ->
    exists rows, print_rows ord i items cols (col_map 0 cols ∅) = Ok (Table cols rows) /\ Forall2 (row_of cols) idxs rows.
  Proof.
    induction 1 as [|o idx items idxs (k & -> & Hne & Hidx & Hdom) _ IH]; intros i Hi; [by exists []|].
    cbn [print_rows]. cbv zeta. destruct (default [] (k_annos k !! index_anno)) as [|c0 t] eqn:Et; [done|]. rewrite <- Hidx.
    destruct (Nat.eqb_spec i 0); [lia|].
    destruct (fill_map cols Hnd idx (ord (S i) idx) (Hord _ _)) as (row & Hr & Hl & Hrow); [intros x Hx; by apply HD, Hdom|].
    rewrite Hr. destruct (IH (S i) ltac:(lia)) as (rows & -> & HF). exists (row :: rows). split; [done|]. constructor; [|done]. done.
  Qed.
  Lemma table_cols_nodup idx es : es ≡ₚ map_to_list idx -> NoDup (table_cols idx es).
  Proof.
    intros Hes. unfold table_cols. apply NoDup_app. split; [|split].
    - destruct (idx !! str "namespace"); apply NoDup_ListNoDup; repeat constructor; cbn; intros H; repeat (destruct H as [H|H]; [discriminate H|]); done.
    - intros x Hx. rewrite gosort_elem, elem_of_list_In, filter_In. intros [_ Hn]. apply negb_true_iff in Hn.
      assert (x ∈ [str "cluster"; str "namespace"; str "name"]) as Hx'. { destruct (idx !! str "namespace"); set_solver. }
      assert (existsb (str_eqb x) [str "cluster"; str "namespace"; str "name"] = true); [|congruence].
      apply existsb_exists. exists x. split; [by apply elem_of_list_In|apply str_eqb_refl].
    - assert (gosort str_ltb (List.filter (fun k => negb (existsb (str_eqb k) [str "cluster"; str "namespace"; str "name"])) (map fst es)) ≡ₚ
        List.filter (fun k => negb (existsb (str_eqb k) [str "cluster"; str "namespace"; str "name"])) (map fst es)) as -> by apply gosort_perm.
      apply NoDup_ListNoDup, List.NoDup_filter, NoDup_ListNoDup.
      assert (map fst es ≡ₚ map fst (map_to_list idx)) as -> by (by apply Permutation_map). apply NoDup_fst_map_to_list.
  Qed.
  Lemma table_cols_elem idx es x : es ≡ₚ map_to_list idx ->
    x ∈ table_cols idx es <-> x = str "cluster" \/ x = str "name" \/ is_Some (idx !! x).
  Proof.
    intros Hes. unfold table_cols. rewrite elem_of_app, gosort_elem, elem_of_lfilter, negb_true_iff.
    assert (x ∈ map fst es <-> is_Some (idx !! x)) as ->.
    { rewrite elem_of_list_fmap. split.
      - intros ([k v] & -> & Hkv). rewrite Hes, elem_of_map_to_list in Hkv. by eexists.
      - intros [v Hv]. exists (x, v). split; [done|]. by rewrite Hes, elem_of_map_to_list. }
    assert (existsb (str_eqb x) [str "cluster"; str "namespace"; str "name"] = false <-> x <> str "cluster" /\ x <> str "namespace" /\ x <> str "name") as ->.
    { cbn [existsb]. rewrite !orb_false_iff, !str_eqb_neq. naive_solver. }
    destruct (idx !! str "namespace") eqn:En.
    - rewrite !elem_of_cons, elem_of_nil. destruct (decide (x = str "cluster")), (decide (x = str "namespace")), (decide (x = str "name")); subst; try naive_solver.
    - rewrite !elem_of_cons, elem_of_nil. destruct (decide (x = str "cluster")), (decide (x = str "namespace")), (decide (x = str "name")); subst; try naive_solver.
      split; [naive_solver|]. intros [?|[?|H]]; [naive_solver..|]. rewrite En in H. by destruct H.
  Qed.
  Lemma server_print_ok items idxs idx0 : Forall2 (has_text D) items idxs -> head idxs = Some idx0 ->
    exists t, server_print ord items = Ok t /\ t_cols t = table_cols idx0 (ord 0 idx0) /\ NoDup (t_cols t) /\ Forall2 (row_of (t_cols t)) idxs (t_rows t).
  Proof.
    intros HF. destruct HF as [|o idx items idxs Ho HF]; [done|]. intros [= <-]. destruct Ho as (k & -> & Hne & Hidx & Hdom).
    unfold server_print. cbn [print_rows]. cbv zeta. destruct (default [] (k_annos k !! index_anno)) as [|c0 t] eqn:Et; [done|]. rewrite <- Hidx.
    change (0 =? 0) with true. cbn match. set (cols := table_cols idx (ord 0 idx)).
    assert (NoDup cols) as Hnd by (apply table_cols_nodup, Hord).
    assert (forall x, D x -> x ∈ cols) as HD. { intros x Hx. apply table_cols_elem; [apply Hord|]. right. right. by apply Hdom. }
    destruct (fill_map cols Hnd idx (ord 1 idx) (Hord _ _)) as (row & Hr & Hl & Hrow); [intros x Hx; by apply HD, Hdom|].
    rewrite Hr. destruct (print_rows_ok cols Hnd HD items idxs HF 1 ltac:(lia)) as (rows & -> & HR).
    exists (Table cols (row :: rows)). split; [done|]. split; [done|]. split; [done|]. constructor; [|done]. done.
  Qed.
End rows.
