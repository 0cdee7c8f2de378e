(** QueryListOptions and what the server reads from it. *)
From Coq Require Import Ascii String NArith ZArith Lia.
From stdpp Require Import base gmap strings list sorting.
From Verif Require Import ModelStr ModelSort ProofsSort ProofsStr ModelLabels SpecLabels ProofsLabels ProofsParse
  ModelPage SpecPage ProofsPage ProofsQuote ProofsSel PropsSelector ModelJson ProofsB64 ProofsJson ModelQuery.

Local Notation pk := paginate_key.

(** ** Label values of a query *)
Lemma splitting_elem text x : text <> [] -> x ∈ splitting_value text ->
  x = text /\ length text <= 56 \/
  56 < length text /\ exists j p, x = split_part (56 * j) p /\ 56 * j < length text /\ 0 < length p <= 56 /\ (forall c, c ∈ p -> c ∈ text).
Proof.
  intros Hne Hx. unfold splitting_value, each_part_len in Hx. destruct (Nat.leb_spec (length text) 56).
  - left. by apply elem_of_list_singleton in Hx.
  - right. split; [done|]. apply (split_parts_elem (length text) 0 text) in Hx; [|done|lia].
    destruct Hx as (j & p & -> & _ & Hj & Hp & Ep). exists j, p. split; [done|]. split; [lia|]. split; [done|].
    intros c Hc. rewrite Ep in Hc. rewrite <- (take_drop (56 * (j - 0)) text).
    apply elem_of_app. right. rewrite <- (take_drop 56 (drop (56 * (j - 0)) text)). apply elem_of_app. by left.
Qed.
Lemma split_parts_cover f i rest c : length rest <= f -> 0 < f -> c ∈ rest -> exists x, x ∈ split_parts f i rest /\ c ∈ x.
Proof.
  revert i rest. induction f as [|f IH]; intros i rest Hf H0 Hc; [lia|]. cbn [split_parts]. unfold each_part_len.
  destruct (Nat.leb_spec (length rest) 56) as [Hl|Hl].
  - eexists. split; [by apply elem_of_list_singleton|]. unfold split_part. set_solver.
  - rewrite <- (take_drop 56 rest) in Hc. apply elem_of_app in Hc as [Hc|Hc].
    + eexists. split; [by left|]. unfold split_part. set_solver.
    + destruct (IH (i + 56) (drop 56 rest)) as (x & Hx & Hcx); [rewrite drop_length; lia| |done|].
      { destruct f; [lia|lia]. }
      exists x. split; [by right|done].
Qed.
Lemma splitting_cover text c : c ∈ text -> exists x, x ∈ splitting_value text /\ c ∈ x.
Proof.
  intros Hc. unfold splitting_value, each_part_len. destruct (Nat.leb_spec (length text) 56).
  - exists text. split; [by apply elem_of_list_singleton|done].
  - apply split_parts_cover; [lia|lia|done].
Qed.
Lemma splitting_nonnil text : splitting_value text <> [].
Proof.
  unfold splitting_value, each_part_len. destruct (Nat.leb_spec (length text) 56); [done|].
  destruct text as [|c text]; [simpl in *; lia|]. cbn [length split_parts]. by destruct (_ <=? _).
Qed.
Lemma splitting_nonempty text x : text <> [] -> x ∈ splitting_value text -> x <> [].
Proof.
  intros Hne [[-> _]|(_ & j & p & -> & _)]%splitting_elem; [done| |done]. unfold split_part.
  intros E%(f_equal length). rewrite !app_length in E. simpl in E. lia.
Qed.
Definition no_plus_slash (s : gostr) : Prop := "+"%char ∉ s /\ "/"%char ∉ s.
Lemma b64_letter c : b64c c -> c <> "+"%char -> c <> "/"%char -> letter_digit c.
Proof.
  intros (n & Hn & ->) H1 H2.
  pose proof (N_below (fun n => ch_eqb (b64_char n) "+" || ch_eqb (b64_char n) "/" ||
    (((48 <=? code (b64_char n)) && (code (b64_char n) <=? 57)) || ((65 <=? code (b64_char n)) && (code (b64_char n) <=? 90))
     || ((97 <=? code (b64_char n)) && (code (b64_char n) <=? 122)))%N) 64) as G.
  specialize (G ltac:(by vm_compute) n Hn). cbn beta in G.
  apply ch_eqb_neq in H1, H2. rewrite H1, H2 in G. cbn [orb] in G.
  unfold letter_digit. rewrite !orb_true_iff, !andb_true_iff, !N.leb_le in G. tauto.
Qed.
Lemma legal_letters s : Forall letter_digit s -> length s <= 63 -> legal_value s.
Proof.
  intros HF Hl. split; [done|]. split; [eapply Forall_impl; [exact HF|]; by left|]. split.
  - intros c r ->. by apply Forall_cons in HF as [? _].
  - intros c r ->. apply Forall_app in HF as [_ HF]. by apply Forall_cons in HF as [? _].
Qed.
Lemma isdigit_letter c : isdigit c = true -> letter_digit c.
Proof. unfold isdigit, letter_digit. rewrite andb_true_iff, !N.leb_le. tauto. Qed.
Lemma of_uint_acc_ge u acc : (N.pos acc * 10 ^ N.of_nat (length (uint_digits u)) <= N.pos (Pos.of_uint_acc u acc))%N.
Proof.
  revert acc. induction u as [|u IH|u IH|u IH|u IH|u IH|u IH|u IH|u IH|u IH|u IH]; intros acc;
    cbn [uint_digits length Pos.of_uint_acc]; [rewrite N.pow_0_r; lia|..];
    rewrite Nat2N.inj_succ, N.pow_succ_r';
    (etrans; [|apply IH]); generalize (10 ^ N.of_nat (length (uint_digits u)))%N; intros x;
    rewrite N.mul_assoc; apply N.mul_le_mono_r; lia.
Qed.
Lemma itoa_len n k : (0 < k)%nat -> (n < 10 ^ N.of_nat k)%N -> length (itoa_N n) <= k.
Proof.
  intros Hk Hn. unfold itoa_N. pose proof (DecimalN.Unsigned.of_to n) as H1.
  pose proof (DecimalN.Unsigned.to_of (N.to_uint n)) as H2. rewrite H1 in H2.
  destruct (Nat.le_gt_cases (length (uint_digits (N.to_uint n))) k) as [?|Hgt]; [done|exfalso].
  assert (forall u, N.to_uint n = Decimal.D0 u -> u = Decimal.Nil) as Hz.
  { intros u E. rewrite E in H2. unfold Decimal.unorm in H2. cbn [Decimal.nzhead] in H2.
    destruct (Decimal.nzhead u) eqn:E2; try discriminate H2.
    - by injection H2.
    - exfalso. clear -E2. induction u; cbn [Decimal.nzhead] in E2; try discriminate E2. auto. }
  assert (forall u acc, length (uint_digits (N.to_uint n)) = S (length (uint_digits u)) -> N.pos (Pos.of_uint_acc u acc) = n -> False) as Hb.
  { intros u acc El E. pose proof (of_uint_acc_ge u acc) as Hge. rewrite E in Hge.
    assert (10 ^ N.of_nat k <= 10 ^ N.of_nat (length (uint_digits u)))%N as Hp by (apply N.pow_le_mono_r; lia).
    revert Hge Hp Hn. generalize (10 ^ N.of_nat (length (uint_digits u)))%N (10 ^ N.of_nat k)%N. intros x y Hge Hp Hn.
    assert (x <= N.pos acc * x)%N; [|lia]. rewrite <- (N.mul_1_l x) at 1. apply N.mul_le_mono_r. lia. }
  destruct (N.to_uint n) as [|u|u|u|u|u|u|u|u|u|u] eqn:E; cbn [uint_digits length] in *.
  1: lia. 1: { rewrite (Hz u eq_refl) in Hgt. cbn in Hgt. lia. }
  all: eapply Hb; [reflexivity|exact H1].
Qed.
Lemma pad4_len n : (n < 17858)%N -> length (pad4 (56 * n)) <= 6.
Proof.
  intros H. unfold pad4. rewrite app_length, replicate_length.
  assert (length (itoa_N (56 * n)) <= 6); [|lia]. apply itoa_len; [lia|]. change (10 ^ N.of_nat 6)%N with 1000000%N. lia.
Qed.
Lemma split_part_legal j p : (N.of_nat j < 17858)%N -> 0 < length p <= 56 -> Forall letter_digit p -> legal_value (split_part (56 * j) p).
Proof.
  intros Hj Hp HF. unfold split_part. pose proof (pad4_len (N.of_nat j) Hj) as Hpad.
  replace (N.of_nat (56 * j)) with (56 * N.of_nat j)%N by lia. set (d := pad4 _) in *.
  assert (Forall letter_digit d) as Hd.
  { eapply Forall_impl; [apply pad4_isdigit|]. apply isdigit_letter. }
  split; [rewrite !app_length; change (length (str ".")) with 1; lia|]. split.
  - apply Forall_app. split; [eapply Forall_impl; [exact Hd|]; by left|]. apply Forall_app. split.
    + apply Forall_singleton. right. right. by right.
    + eapply Forall_impl; [exact HF|]. by left.
  - split.
    + intros c r E. assert (exists c' d', d = c' :: d') as (c' & d' & Ed).
      { unfold d, pad4. match goal with |- context [replicate ?n _] => destruct n eqn:En end; [|cbn; eauto].
        destruct (itoa_N _) as [|c' d'] eqn:Ei; [simpl in En; lia|]. cbn. eauto. }
      rewrite Ed in *. injection E as -> _. by apply Forall_cons in Hd as [? _].
    + intros c r E. destruct p as [|c' p' _] using rev_ind; [simpl in Hp; lia|].
      rewrite !app_assoc in E. apply app_inj_tail in E as [_ <-]. apply Forall_app in HF as [_ HF]. by apply Forall_cons in HF as [? _].
Qed.
Lemma split_valid_iff q : q <> [] -> Forall b64c q -> (N.of_nat (length q) <= 1000048)%N ->
  Forall (fun v => valid_value v = true) (splitting_value q) <-> no_plus_slash q.
Proof.
  intros Hne HF Hlen. rewrite Forall_forall. setoid_rewrite valid_value_legal. split.
  - intros H.
    assert (forall c, c ∈ q -> label_char c) as Hall.
    { intros c Hc. destruct (splitting_cover q c Hc) as (x & Hx & Hcx). destruct (H x Hx) as (_ & HL & _).
      rewrite Forall_forall in HL. by apply HL. }
    assert (forall c, label_char c -> c <> "+"%char /\ c <> "/"%char) as Hlc.
    { intros c Hc. unfold label_char, letter_digit in Hc.
      split; intros ->; destruct Hc as [Hc|[Hc|[Hc|Hc]]]; try discriminate Hc; vm_compute in Hc; intuition congruence. }
    split; intros Hin; by destruct (Hlc _ (Hall _ Hin)).
  - intros [H1 H2]. assert (forall c, c ∈ q -> letter_digit c) as Hl.
    { rewrite Forall_forall in HF. intros c Hc. apply b64_letter; [by apply HF|intros ->; done|intros ->; done]. }
    intros x Hx. apply splitting_elem in Hx as [[-> Hs]|(Hs & j & p & -> & Hj & Hp & Hsub)]; [| |done].
    + apply legal_letters; [by apply Forall_forall|lia].
    + apply split_part_legal; [lia|done|]. apply Forall_forall. intros c Hc. by apply Hl, Hsub.
Qed.

(** ** Building the options *)
Lemma pk_valid : valid_key pk = true.
Proof. by vm_compute. Qed.
Lemma add_query_keep q ls : add_query q ls = LSel (mlabels ls) (LReq pk LNotIn (splitting_value q) :: keep pk (mexprs ls)).
Proof. done. Qed.
Lemma keep_sel_ok ls es : sel_ok ls -> (forall e, e ∈ es -> e ∈ mexprs ls) -> sel_ok (LSel (mlabels ls) es).
Proof.
  unfold sel_ok, valid_sel_from, reqs_from. cbn [mlabels mexprs]. rewrite !Forall_app, !Forall_forall. intros [H1 H2] Hs.
  split; [done|]. intros r (e & -> & He)%elem_of_list_fmap. apply (H2 (Req (lkey e) (op_of_lsop (lop e)) (lvals e))).
  apply elem_of_list_fmap. exists e. auto.
Qed.
Lemma add_query_ok q ls : sel_ok ls ->
  sel_ok (add_query q ls) <-> Forall (fun v => valid_value v = true) (splitting_value q).
Proof.
  intros Hok. assert (sel_ok (LSel (mlabels ls) (keep pk (mexprs ls)))) as Hk.
  { apply keep_sel_ok; [done|]. by intros e [? _]%elem_of_keep. }
  rewrite add_query_keep. unfold sel_ok, valid_sel_from, reqs_from in *. cbn [mlabels mexprs map] in *.
  rewrite Forall_app in Hk |- *. rewrite Forall_cons. destruct Hk as [H1 H2]. split.
  - intros (_ & H & _). cbn in H. by apply new_requirement_inv in H as (_ & _ & ? & _).
  - intros Hv. split; [done|]. split; [|done]. cbn [rkey rop rvals op_of_lsop]. apply new_requirement_intro; [apply pk_valid|done|].
    apply splitting_nonnil.
Qed.
Lemma add_query_no_odd q ls : q <> [] -> no_odd ls -> no_odd (add_query q ls).
Proof.
  intros Hq H e. rewrite add_query_keep. cbn [mexprs]. rewrite elem_of_cons. intros [->|[He _]%elem_of_keep]; [|by apply H].
  cbn [lvals]. intros [n E]. assert ([] ∈ splitting_value q) as Hin by (rewrite E; set_solver).
  by apply splitting_nonempty in Hin.
Qed.
Lemma marshal_nonempty p : b64_encode (marshal_page p) <> [].
Proof.
  assert (forall s, b64_encode s = [] -> s = []) as H. { by intros [|a [|b [|c s]]]. }
  intros E%H. by unfold marshal_page in E.
Qed.

(** ** Reading the query *)
Lemma take_query_none cur es : (forall e, e ∈ es -> lkey e <> pk) -> take_query cur es = Some (cur, es).
Proof.
  induction es as [|e es IH]; intros H; [done|]. cbn [take_query].
  assert (str_eqb (lkey e) pk = false) as ->. { apply str_eqb_neq, H. by left. }
  rewrite IH; [done|]. intros e' He'. apply H. by right.
Qed.
Lemma take_query_app cur l1 l2 : (forall e, e ∈ l1 -> lkey e <> pk) ->
  take_query cur (l1 ++ l2) = match take_query cur l2 with Some (q, l) => Some (q, l1 ++ l) | None => None end.
Proof.
  induction l1 as [|e l1 IH]; intros H; [cbn [app]; by destruct (take_query cur l2) as [[??]|]|]. cbn [take_query app].
  assert (str_eqb (lkey e) pk = false) as ->. { apply str_eqb_neq, H. by left. }
  rewrite IH by (intros e' He'; apply H; by right). by destruct (take_query cur l2) as [[??]|].
Qed.
Lemma take_query_one es e l q : es ≡ₚ e :: l -> (forall x, x ∈ l -> lkey x <> pk) -> lkey e = pk -> lvals e <> [] ->
  merge_values (lvals e) = Some q -> exists l', take_query [] es = Some (q, l') /\ l' ≡ₚ l.
Proof.
  intros HP Hl He Hv Hm. assert (e ∈ es) as Hin by (rewrite HP; by left).
  apply elem_of_list_split in Hin as (l1 & l2 & ->). rewrite <- Permutation_middle in HP. apply Permutation_cons_inv in HP.
  exists (l1 ++ l2). split; [|done]. rewrite take_query_app.
  2:{ intros x Hx. apply Hl. rewrite <- HP. set_solver. }
  cbn [take_query]. rewrite He, str_eqb_refl. destruct (lvals e); [done|]. rewrite Hm.
  rewrite take_query_none; [done|]. intros x Hx. apply Hl. rewrite <- HP. set_solver.
Qed.
Lemma set_list_perm l : NoDup l -> set_list l ≡ₚ l.
Proof. intros H. apply NoDup_Permutation; [apply set_list_NoDup|done|]. intros x. apply set_list_elem. Qed.

Lemma query_some sel p s : query_list_options sel p = Some s -> p <> zero_page ->
  exists ls, parse_to_label_selector sel = Some ls /\ format_selector (add_query (b64_encode (marshal_page p)) ls) = Some s.
Proof.
  intros H Hp. unfold query_list_options in H. cbv zeta in H.
  assert (str_eqb (marshal_page p) (str "{}") = false) as E. { apply str_eqb_neq. by rewrite marshal_empty. }
  rewrite E in H. destruct (parse_to_label_selector sel) as [ls|]; [eauto|done].
Qed.
Lemma query_parse sel p s ls :
  parse_to_label_selector sel = Some ls -> query_list_options sel p = Some s -> p <> zero_page ->
  exists es, parse_to_label_selector s = Some (LSel (mlabels ls) es) /\ s <> [] /\
    es ≡ₚ map normE (LReq pk LNotIn (splitting_value (b64_encode (marshal_page p))) :: keep pk (mexprs ls)).
Proof.
  intros Hls H Hp. destruct (query_some _ _ _ H Hp) as (ls' & Hls' & Hf). assert (ls' = ls) as -> by congruence.
  set (q := b64_encode (marshal_page p)) in *.
  destruct (parsed_sel_ok _ _ Hls) as [Hok Hodd].
  assert (sel_ok (add_query q ls)) as Hok2 by (apply sel_ok_format; eauto).
  destruct (format_parse (add_query q ls) Hok2) as (rs & es & _ & Hg & Hne & Hf2 & Hparse & HP).
  { apply add_query_no_odd; [apply marshal_nonempty|done]. }
  { by right. }
  assert (s = fmt_reqs rs) as -> by congruence. exists es. split; [done|]. split; [|done].
  by apply fmt_reqs_nonempty.
Qed.
Lemma query_server sel p s ls :
  parse_to_label_selector sel = Some ls -> mlabels ls !! pk = None ->
  query_list_options sel p = Some s -> p <> zero_page -> page_in_range p ->
  (N.of_nat (length (b64_encode (marshal_page p))) <= 10024)%N ->
  exists es, parse_list_selector s = Some (valid_page p, Some (LSel (mlabels ls) es)) /\
    es ≡ₚ map normE (keep pk (mexprs ls)).
Proof.
  intros Hls Hpk H Hp Hr Hlen. destruct (query_parse _ _ _ _ Hls H Hp) as (es & Hparse & Hs & HP).
  set (q := b64_encode (marshal_page p)) in *. cbn [map] in HP.
  destruct (take_query_one es _ _ q HP) as (l' & Ht & HP').
  - intros x (e & -> & He)%elem_of_list_fmap. cbn. by apply elem_of_keep in He as [_ ?].
  - done.
  - cbn [normE lvals]. intros E%set_list_nil_inv. by apply splitting_nonnil in E.
  - cbn [normE lvals]. apply split_merge; [apply b64_nodot|done|]. apply set_list_perm. by apply splitting_nodup.
  - exists l'. split; [|done]. unfold parse_list_selector. destruct s as [|c s]; [done|]. rewrite Hparse.
    unfold extract_query. cbn [mlabels mexprs]. rewrite Hpk, Ht. unfold decode_query.
    assert (b64_decode q = Some (marshal_page p)) as Hdec by apply b64_roundtrip.
    assert (q <> []) as Hq by apply marshal_nonempty. clearbody q. destruct q; [done|].
    rewrite Hdec, unmarshal_marshal by done. done.
Qed.

(** What the server reads in general. *)
Lemma query_server_any sel p s ls r t :
  parse_to_label_selector sel = Some ls -> mlabels ls !! pk = None ->
  query_list_options sel p = Some s -> p <> zero_page ->
  merge_values (set_list (splitting_value (b64_encode (marshal_page p)))) = Some r -> b64_decode r = Some t -> t <> [] ->
  exists es, parse_list_selector s = Some (unmarshal_page t, Some (LSel (mlabels ls) es)).
Proof.
  intros Hls Hpk H Hp Hm Hdec Ht0. destruct (query_parse _ _ _ _ Hls H Hp) as (es & Hparse & Hs & HP).
  set (q := b64_encode (marshal_page p)) in *. cbn [map] in HP.
  destruct (take_query_one es _ _ r HP) as (l' & Ht & HP').
  - intros x (e & -> & He)%elem_of_list_fmap. cbn. by apply elem_of_keep in He as [_ ?].
  - done.
  - cbn [normE lvals]. intros E%set_list_nil_inv. by apply splitting_nonnil in E.
  - done.
  - exists l'. unfold parse_list_selector. destruct s as [|c s]; [done|]. rewrite Hparse.
    unfold extract_query. cbn [mlabels mexprs]. rewrite Hpk, Ht. unfold decode_query.
    destruct r; [by injection Hdec as <-|]. rewrite Hdec. done.
Qed.

(** ** Repeating *)
Lemma parsed_normE s ls : parse_to_label_selector s = Some ls -> map normE (mexprs ls) = mexprs ls.
Proof.
  unfold parse_to_label_selector. destruct (parse_to_requirements s) as [rs|] eqn:E; [|done].
  pose proof (parsed_reqs _ _ E) as HF. intros H.
  assert (Forall no_cmp rs \/ Exists (fun r => rop r = OGt \/ rop r = OLt) rs) as [Hc|Hc].
  { clear -rs. induction rs as [|r rs [IH|IH]]; [by left| |by right; right].
    destruct (decide (rop r = OGt)); [by right; left; left|]. destruct (decide (rop r = OLt)); [by right; left; right|].
    left. by constructor. }
  2: { by rewrite sel_of_reqs_cmp in H. }
  rewrite sel_of_reqs_eq in H by done. injection H as <-. cbn [mexprs empty_sel app]. clear.
  unfold exprs_of. induction rs as [|r rs IH]; [done|]. cbn [omap list_omap]. destruct (is_eqop (rop r)); [done|].
  cbn [map]. f_equal; [|done]. unfold normE. cbn [lkey lop lvals]. by rewrite set_list_idem.
Qed.
Lemma keep_normE l : keep pk (map normE l) = map normE (keep pk l).
Proof.
  unfold keep. induction l as [|e l IH]; [done|]. cbn [map List.filter]. cbn [normE lkey].
  destruct (negb (str_eqb (lkey e) pk)); cbn [map]; by rewrite IH.
Qed.
Lemma keep_perm l l' : l ≡ₚ l' -> keep pk l ≡ₚ keep pk l'.
Proof.
  induction 1 as [|x l l' HP IH|x y l|l1 l2 l3 H1 IH1 H2 IH2]; [done| | |by etrans]; unfold keep in *; cbn [List.filter].
  - destruct (negb _); by rewrite IH.
  - destruct (negb (str_eqb (lkey x) pk)), (negb (str_eqb (lkey y) pk)); try done. by apply Permutation_swap.
Qed.
Lemma keep_all l : (forall e, e ∈ l -> lkey e <> pk) -> keep pk l = l.
Proof.
  intros H. unfold keep. apply filter_all. apply Forall_forall. intros e He. by apply negb_true_iff, str_eqb_neq, H.
Qed.
(** All keys of a selector. *)
Definition sel_keys (ls : lsel) : list gostr := map fst (map_to_list (mlabels ls)) ++ map lkey (mexprs ls).
Lemma as_selector_perm ml es es' : es ≡ₚ es' -> NoDup (sel_keys (LSel ml es)) -> as_selector (LSel ml es) = as_selector (LSel ml es').
Proof.
  intros HP Hn. unfold as_selector, as_selector_from. cbn [mlabels mexprs]. rewrite !as_selector_list.
  set (f := fun r => new_requirement (rkey r) (rop r) (rvals r)).
  assert (reqs_from (map_to_list ml) es ≡ₚ reqs_from (map_to_list ml) es') as HP2.
  { unfold reqs_from. by rewrite HP. }
  assert (NoDup (map rkey (reqs_from (map_to_list ml) es))) as Hn2.
  { unfold reqs_from. rewrite map_app, !map_map. exact Hn. }
  assert (forall l qs, map f l = map Some qs -> l = qs) as Hf.
  { induction l as [|r l IH]; intros [|q qs]; cbn [map]; try done. intros [= H1 H2]. f_equal; [|by apply IH].
    unfold f in H1. apply new_requirement_inv in H1 as [-> _]. by destruct r. }
  destruct (add_all [] (map f (reqs_from (map_to_list ml) es))) as [rs|] eqn:E1.
  - destruct (add_all_all_some (map f (reqs_from (map_to_list ml) es)) []) as [[qs Eq] _]; [eauto|].
    destruct (add_all [] (map f (reqs_from (map_to_list ml) es'))) as [rs'|] eqn:E2.
    + destruct (add_all_all_some (map f (reqs_from (map_to_list ml) es')) []) as [[qs' Eq'] _]; [eauto|].
      pose proof (Hf _ _ Eq). pose proof (Hf _ _ Eq'). subst qs qs'. rewrite Eq in E1. rewrite Eq' in E2. f_equal.
      exact (add_all_perm _ _ [] rs rs' Hn2 HP2 (SSorted_nil _) E1 E2).
    + exfalso. apply add_all_none in E2. assert (None ∈ map f (reqs_from (map_to_list ml) es)) as Hin.
      { apply elem_of_list_fmap in E2 as (r & Er & Hr). apply elem_of_list_fmap. exists r. by rewrite HP2. }
      apply (add_all_none _ []) in Hin. congruence.
  - symmetry. apply add_all_none. apply add_all_none in E1.
    apply elem_of_list_fmap in E1 as (r & Er & Hr). apply elem_of_list_fmap. exists r. by rewrite <- HP2.
Qed.
Lemma rewrap sel p1 p2 s1 ls : parse_to_label_selector sel = Some ls ->
  NoDup (pk :: map fst (map_to_list (mlabels ls)) ++ map lkey (keep pk (mexprs ls))) ->
  query_list_options sel p1 = Some s1 -> p2 <> zero_page ->
  query_list_options s1 p2 = query_list_options sel p2.
Proof.
  intros Hls Hn H1 Hp2. destruct (decide (marshal_page p1 = str "{}")) as [E0|E0].
  { unfold query_list_options in H1. cbv zeta in H1. rewrite (proj2 (str_eqb_eq _ _) E0) in H1. by injection H1 as <-. }
  assert (p1 <> zero_page) as Hp1 by (intros ->; apply E0; by vm_compute).
  destruct (query_parse _ _ _ _ Hls H1 Hp1) as (es & Hparse & _ & HP).
  unfold query_list_options. cbv zeta. rewrite Hparse, Hls.
  destruct (str_eqb_spec (marshal_page p2) (str "{}")) as [E|_]; [by apply marshal_empty in E|].
  set (q := b64_encode (marshal_page p2)). rewrite !add_query_keep. cbn [mlabels mexprs].
  assert (keep pk es ≡ₚ keep pk (mexprs ls)) as HPk.
  { rewrite (keep_perm _ _ HP). cbn [map]. unfold keep at 1. cbn [List.filter normE lkey]. rewrite str_eqb_refl. cbn [negb].
    rewrite <- keep_normE, (parsed_normE _ _ Hls).
    change (keep pk (keep pk (mexprs ls)) ≡ₚ keep pk (mexprs ls)).
    rewrite keep_all; [done|]. by intros e [_ ?]%elem_of_keep. }
  unfold format_selector.
  rewrite (as_selector_perm _ (LReq pk LNotIn (splitting_value q) :: keep pk es) (LReq pk LNotIn (splitting_value q) :: keep pk (mexprs ls))); [done| |].
  - by rewrite HPk.
  - unfold sel_keys. cbn [mlabels mexprs map lkey]. rewrite <- Permutation_middle. rewrite (Permutation_map lkey HPk). exact Hn.
Qed.

(** ** ASCII payloads *)
Definition safe_byte (c : ascii) : Prop := (code c < 126 /\ code c <> 62 /\ code c <> 63)%N.
Lemma b64_char_safe n : (n < 62)%N -> b64_char n <> "+"%char /\ b64_char n <> "/"%char.
Proof.
  intros H. pose proof (N_below (fun n => negb (ch_eqb (b64_char n) "+") && negb (ch_eqb (b64_char n) "/")) 62) as G.
  specialize (G ltac:(by vm_compute) n H). cbn beta in G. rewrite andb_true_iff, !negb_true_iff, !ch_eqb_neq in G. done.
Qed.
Lemma b64_safe s : Forall safe_byte s -> no_plus_slash (b64_encode s).
Proof.
  assert (forall l, Forall (fun c => exists n, (n < 62)%N /\ c = b64_char n) l -> no_plus_slash l) as Hl.
  { intros l HF. rewrite Forall_forall in HF. split; intros Hin; destruct (HF _ Hin) as (n & Hn & E);
      destruct (b64_char_safe n Hn); congruence. }
  intros HF. apply Hl. clear Hl.
  induction s as [|a|a b|a b c l IH] using triple_ind; cbn [b64_encode]; cbv zeta; [constructor|..].
  - apply Forall_cons in HF as [(A1 & A2 & A3) HF].
    repeat (apply Forall_cons; split); [eexists; split; [|reflexivity]; lia..|constructor].
  - apply Forall_cons in HF as [(A1 & A2 & A3) HF]. apply Forall_cons in HF as [(B1 & B2 & B3) HF].
    repeat (apply Forall_cons; split); [eexists; split; [|reflexivity]; lia..|constructor].
  - apply Forall_cons in HF as [(A1 & A2 & A3) HF]. apply Forall_cons in HF as [(B1 & B2 & B3) HF].
    apply Forall_cons in HF as [(C1 & C2 & C3) HF].
    repeat (apply Forall_cons; split); [eexists; split; [|reflexivity]; lia..|auto].
Qed.
(** ASCII text without '?', '~' and DEL. *)
Definition plain_ascii (s : gostr) : Prop := Forall (fun c => (code c < 126 /\ code c <> 63)%N) s.
Lemma safe_dec l : forallb (fun c => ((code c <? 126) && negb (code c =? 62) && negb (code c =? 63))%N) l = true -> Forall safe_byte l.
Proof.
  rewrite forallb_forall. intros H. apply Forall_forall. intros c Hc. apply elem_of_list_In, H in Hc.
  rewrite !andb_true_iff, !negb_true_iff, N.ltb_lt, !N.eqb_neq in Hc. unfold safe_byte. tauto.
Qed.
Lemma hexdigit_safe n : (n < 16)%N -> safe_byte (hexdigit n).
Proof. intros H. unfold hexdigit. destruct (N.ltb_spec n 10); unfold safe_byte; rewrite code_byte; lia. Qed.
Lemma json_str_safe s : plain_ascii s -> Forall safe_byte (json_str s).
Proof.
  intros HF. unfold json_str. apply Forall_cons. split; [by apply (Forall_cons_1 safe_byte dquote []), safe_dec|].
  apply Forall_app. split; [|by apply safe_dec]. induction HF as [|c s [Hc1 Hc2] HF IH]; [constructor|].
  cbn [json_str_go]. rewrite decode_rune_ascii by lia. cbn [Nat.pred]. apply Forall_app. split; [|done].
  cbn [take]. unfold json_rune.
  destruct ((code c =? 34) || (code c =? 92))%N eqn:E1.
  { apply Forall_cons. split; [by vm_compute|]. constructor; [|constructor]. rewrite orb_true_iff, !N.eqb_eq in E1. unfold safe_byte. lia. }
  destruct (code c =? 10)%N; [by apply safe_dec|]. destruct (code c =? 13)%N; [by apply safe_dec|].
  destruct (code c =? 9)%N; [by apply safe_dec|].
  destruct ((code c <? 32) || (code c =? 60) || (code c =? 62) || (code c =? 38))%N eqn:E2.
  { apply Forall_app. split; [by apply safe_dec|]. unfold hex2. repeat constructor; apply hexdigit_safe, N.mod_lt; lia. }
  destruct ((code c =? 8232) || (code c =? 8233))%N eqn:E3.
  { rewrite orb_true_iff, !N.eqb_eq in E3. lia. }
  constructor; [|constructor]. rewrite !orb_false_iff, !N.eqb_neq in E2. unfold safe_byte. tauto.
Qed.
Lemma itoa_safe z : Forall safe_byte (itoa z).
Proof.
  assert (forall n, Forall safe_byte (itoa_N n)) as H.
  { intros n. pose proof (itoa_N_isdigit n) as HD. apply Forall_forall. intros c Hc. rewrite forallb_forall in HD.
    apply elem_of_list_In, HD in Hc. unfold isdigit in Hc. rewrite andb_true_iff, !N.leb_le in Hc. unfold safe_byte. lia. }
  unfold itoa. destruct z; [apply H|apply H|]. apply Forall_cons. split; [|apply H]. by vm_compute.
Qed.
Lemma join_safe l : Forall (Forall safe_byte) l -> Forall safe_byte (join (str ",") l).
Proof.
  induction 1 as [|x l Hx HF IH]; [constructor|]. destruct l; [done|]. rewrite join_cons_cons.
  apply Forall_app. split; [done|]. apply Forall_app. split; [by apply safe_dec|done].
Qed.
Lemma marshal_safe p : plain_ascii (pg_sort p) -> plain_ascii (pg_search p) -> Forall safe_byte (marshal_page p).
Proof.
  intros H1 H2. unfold marshal_page. apply Forall_app. split; [by apply safe_dec|]. apply Forall_app. split; [|by apply safe_dec].
  apply join_safe.
  assert (forall n z, plain_ascii n -> Forall (Forall safe_byte) (int_field n z)) as Hi.
  { intros n z Hn. unfold int_field. destruct (z =? 0)%Z; [constructor|]. constructor; [|constructor].
    apply Forall_app. split; [by apply json_str_safe|]. apply Forall_app. split; [by apply safe_dec|apply itoa_safe]. }
  assert (forall n s, plain_ascii n -> plain_ascii s -> Forall (Forall safe_byte) (str_field n s)) as Hs.
  { intros n s Hn Hs. unfold str_field. destruct s as [|c s]; [constructor|]. set (x := c :: s) in *. clearbody x. constructor; [|constructor].
    apply Forall_app. split; [by apply json_str_safe|]. apply Forall_app. split; [by apply safe_dec|by apply json_str_safe]. }
  assert (forall n, forallb (fun c => ((code c <? 126) && negb (code c =? 63))%N) n = true -> plain_ascii n) as Hp.
  { intros n H. rewrite forallb_forall in H. apply Forall_forall. intros c Hc. apply elem_of_list_In, H in Hc.
    rewrite andb_true_iff, negb_true_iff, N.ltb_lt, N.eqb_neq in Hc. done. }
  repeat apply Forall_app_2; [apply Hi|apply Hi|apply Hi|apply Hs|apply Hs]; try done; by apply Hp.
Qed.
