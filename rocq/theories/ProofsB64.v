(** base64 and the cutting of a query into label values. *)
From Coq Require Import Ascii String NArith ZArith Lia.
From stdpp Require Import base gmap strings list sorting.
From Verif Require Import ModelStr ModelSort ProofsSort ModelLabels ProofsStr ModelPage ModelJson SpecLabels ProofsLabels.

Ltac Zify.zify_post_hook ::= Z.to_euclidean_division_equations.

(** ** base64 *)
Lemma N_below (P : N -> bool) (n : nat) :
  forallb (fun i => P (N.of_nat i)) (seq 0 n) = true -> forall k, (k < N.of_nat n)%N -> P k = true.
Proof.
  intros H k Hk. rewrite forallb_forall in H. specialize (H (N.to_nat k)).
  rewrite N2Nat.id in H. apply H. apply in_seq. lia.
Qed.
Lemma b64_code_char n : (n < 64)%N -> b64_code (b64_char n) = Some n.
Proof.
  intros H. pose proof (N_below (fun n => match b64_code (b64_char n) with Some m => (m =? n)%N | None => false end) 64) as G.
  specialize (G ltac:(by vm_compute) n H). cbn beta in G. destruct (b64_code (b64_char n)) as [m|]; [|done].
  apply N.eqb_eq in G. by subst.
Qed.
Definition b64c (c : ascii) : Prop := exists n, (n < 64)%N /\ c = b64_char n.
Lemma triple_ind {A} (P : list A -> Prop) :
  P [] -> (forall a, P [a]) -> (forall a b, P [a; b]) ->
  (forall a b c l, P l -> P (a :: b :: c :: l)) -> forall l, P l.
Proof.
  intros H0 H1 H2 H3. fix IH 1. intros l. destruct l as [|a [|b [|c l]]]; [done|apply H1|apply H2|].
  apply H3, IH.
Qed.
Lemma b64_encode_chars s : Forall b64c (b64_encode s).
Proof.
  induction s as [|a|a b|a b c l IH] using triple_ind; cbn [b64_encode]; cbv zeta.
  - constructor.
  - pose proof (code_lt a). repeat (apply Forall_cons; split); [eexists; split; [|reflexivity]; lia..|constructor].
  - pose proof (code_lt a). pose proof (code_lt b).
    repeat (apply Forall_cons; split); [eexists; split; [|reflexivity]; lia..|constructor].
  - pose proof (code_lt a). pose proof (code_lt b). pose proof (code_lt c).
    repeat (apply Forall_cons; split); [eexists; split; [|reflexivity]; lia..|done].
Qed.
Lemma b64c_nonl c : b64c c -> negb ((code c =? 10) || (code c =? 13))%N = true.
Proof.
  intros (n & Hn & ->).
  apply (N_below (fun n => negb ((code (b64_char n) =? 10) || (code (b64_char n) =? 13)))%N 64); [by vm_compute|done].
Qed.
Lemma filter_all {A} (f : A -> bool) l : Forall (fun x => f x = true) l -> List.filter f l = l.
Proof. induction 1 as [|x l Hx Hl IH]; [done|]. cbn. by rewrite Hx, IH. Qed.
Lemma byte_of x a : x = code a -> byte x = a.
Proof. intros ->. apply byte_code. Qed.
Lemma b64_roundtrip s : b64_decode (b64_encode s) = Some s.
Proof.
  unfold b64_decode. rewrite filter_all.
  2:{ eapply Forall_impl; [apply b64_encode_chars|]. apply b64c_nonl. }
  induction s as [|a|a b|a b c l IH] using triple_ind; cbn [b64_encode b64_codes]; cbv zeta.
  - done.
  - pose proof (code_lt a). rewrite !b64_code_char by lia. cbn [b64_groups].
    rewrite (byte_of _ a) by lia. done.
  - pose proof (code_lt a). pose proof (code_lt b). rewrite !b64_code_char by lia. cbn [b64_groups].
    rewrite (byte_of _ a), (byte_of _ b) by lia. done.
  - pose proof (code_lt a). pose proof (code_lt b). pose proof (code_lt c). rewrite !b64_code_char by lia.
    destruct (b64_codes (b64_encode l)) as [ns|]; [|done]. cbn [b64_groups]. rewrite IH.
    rewrite (byte_of _ a), (byte_of _ b), (byte_of _ c) by lia. done.
Qed.

(** ** Cutting a text into label values *)
Definition nodot (s : gostr) : Prop := "."%char ∉ s.
Lemma b64_nodot s : nodot (b64_encode s).
Proof.
  intros H. pose proof (b64_encode_chars s) as HF. rewrite Forall_forall in HF. destruct (HF _ H) as (n & Hn & E).
  pose proof (b64_code_char n Hn) as Hc. rewrite <- E in Hc. by vm_compute in Hc.
Qed.
Lemma uint_digits_isdigit u : forallb isdigit (uint_digits u) = true.
Proof. induction u; cbn [uint_digits forallb]; [done|..]; rewrite IHu, andb_true_r; by vm_compute. Qed.
Lemma itoa_N_isdigit n : forallb isdigit (itoa_N n) = true.
Proof. apply uint_digits_isdigit. Qed.
Lemma pad4_isdigit n : Forall (fun c => isdigit c = true) (pad4 n).
Proof.
  unfold pad4. apply Forall_app. split.
  - apply Forall_replicate. by vm_compute.
  - apply List.Forall_forall. apply forallb_forall. apply itoa_N_isdigit.
Qed.
Lemma pad4_nodot n : nodot (pad4 n).
Proof. intros H. pose proof (pad4_isdigit n) as HF. rewrite Forall_forall in HF. specialize (HF _ H). by vm_compute in HF. Qed.
Lemma split_part_parts i p : nodot p -> split_on "."%char (split_part i p) = [pad4 (N.of_nat i); p].
Proof.
  intros Hp. unfold split_part. change (str ".") with ["."%char]. cbn [app].
  rewrite split_on_app by apply pad4_nodot. by rewrite split_on_nosep.
Qed.
Lemma nodot_take n s : nodot s -> nodot (take n s).
Proof. intros H Hin. apply H. rewrite <- (take_drop n s). set_solver. Qed.
Lemma nodot_drop n s : nodot s -> nodot (drop n s).
Proof. intros H Hin. apply H. rewrite <- (take_drop n s). set_solver. Qed.
Lemma split_parts_merge f i rest : nodot rest -> length rest <= f -> 0 < f -> merge_parts (split_parts f i rest) = Some rest.
Proof.
  revert i rest. induction f as [|f IH]; intros i rest Hd Hf H0; [lia|]. cbn [split_parts].
  destruct (Nat.leb_spec (length rest) each_part_len) as [Hl|Hl]; cbn [merge_parts].
  - rewrite split_part_parts by done. cbn. by rewrite app_nil_r.
  - rewrite split_part_parts by (by apply nodot_take). unfold each_part_len in *.
    rewrite IH; [|by apply nodot_drop|rewrite drop_length; lia|lia].
    cbn [option_map]. by rewrite take_drop.
Qed.
(** The elements: offsets increase in steps of 56 and stay inside the text. *)
Lemma split_parts_elem f k rest x : rest <> [] -> length rest <= f -> x ∈ split_parts f (56 * k) rest ->
  exists j p, x = split_part (56 * j) p /\ k <= j /\ 56 * j < 56 * k + length rest /\ 0 < length p <= 56 /\
    p = take 56 (drop (56 * (j - k)) rest).
Proof.
  revert k rest. induction f as [|f IH]; intros k rest Hne Hf Hx; [by apply elem_of_nil in Hx|].
  assert (0 < length rest) as Hpos. { destruct rest; [done|simpl; lia]. }
  cbn [split_parts] in Hx. unfold each_part_len in *.
  destruct (Nat.leb_spec (length rest) 56) as [Hl|Hl].
  - apply elem_of_list_singleton in Hx as ->. exists k, rest. split; [done|]. split; [lia|]. split; [lia|]. split; [lia|].
    rewrite Nat.sub_diag. cbn [Nat.mul]. change (56 * 0) with 0. rewrite drop_0. by rewrite take_ge.
  - apply elem_of_cons in Hx as [->|Hx].
    + exists k, (take 56 rest). split; [done|]. split; [lia|]. split; [lia|]. split; [rewrite take_length; lia|].
      rewrite Nat.sub_diag. change (56 * 0) with 0. by rewrite drop_0.
    + replace (56 * k + 56) with (56 * S k) in Hx by lia. apply IH in Hx; cycle 1.
      { intros E. apply (f_equal length) in E. rewrite drop_length in E. simpl in E. lia. }
      { rewrite drop_length. lia. }
      destruct Hx as (j & p & -> & Hj & Hb & Hp & ->). rewrite drop_length in Hb. exists j. eexists. split; [done|].
      split; [lia|]. split; [lia|]. split; [done|]. rewrite drop_drop. do 2 f_equal. lia.
Qed.
Lemma str_ltb_app a b x y : length a = length b -> str_ltb a b = true -> str_ltb (a ++ x) (b ++ y) = true.
Proof.
  revert b. induction a as [|c a IH]; intros [|d b] Hl H; simpl in *; try done.
  destruct (code c <? code d)%N; [done|]. destruct (code c =? code d)%N; [|done]. apply IH; [lia|done].
Qed.
Lemma pad4_step : forall i, (i < 178)%N ->
  length (pad4 (56 * i)) = 4 /\ length (pad4 (56 * (i + 1))) = 4 /\ str_ltb (pad4 (56 * i)) (pad4 (56 * (i + 1))) = true.
Proof.
  intros i Hi.
  pose proof (N_below (fun i => (length (pad4 (56 * i)) =? 4) && (length (pad4 (56 * (i + 1))) =? 4)
     && str_ltb (pad4 (56 * i)) (pad4 (56 * (i + 1)))) 178) as G.
  specialize (G ltac:(by vm_compute) i Hi). cbn beta in G.
  rewrite !andb_true_iff, !Nat.eqb_eq in G. tauto.
Qed.
Lemma pad4_lt i j : (i < j <= 178)%N ->
  length (pad4 (56 * i)) = 4 /\ length (pad4 (56 * j)) = 4 /\ str_ltb (pad4 (56 * i)) (pad4 (56 * j)) = true.
Proof.
  intros H. induction j as [|j IH] using N.peano_ind; [lia|].
  destruct (pad4_step j) as (H1 & H2 & H3); [lia|]. rewrite <- N.add_1_r in *.
  destruct (decide (i = j)) as [->|]; [done|]. destruct IH as (H4 & _ & H5); [lia|].
  split; [done|]. split; [done|]. by eapply str_ltb_trans.
Qed.
Lemma split_parts_sorted f k rest : rest <> [] -> length rest <= f -> (N.of_nat (56 * k + length rest) <= 10024)%N ->
  StronglySorted (fun a b => str_ltb a b = true) (split_parts f (56 * k) rest).
Proof.
  revert k rest. induction f as [|f IH]; intros k rest Hne Hf Hb; [constructor|].
  cbn [split_parts]. unfold each_part_len in *.
  destruct (Nat.leb_spec (length rest) 56) as [Hl|Hl]; [repeat constructor|].
  assert (drop 56 rest <> []) as Hne'.
  { intros E. apply (f_equal length) in E. rewrite drop_length in E. simpl in E. lia. }
  replace (56 * k + 56) with (56 * S k) by lia. constructor.
  - apply IH; [done|rewrite drop_length; lia|rewrite drop_length; lia].
  - apply Forall_forall. intros x Hx. apply split_parts_elem in Hx; [|done|rewrite drop_length; lia].
    destruct Hx as (j & p & -> & Hj & Hjb & _). rewrite drop_length in Hjb. unfold split_part.
    destruct (pad4_lt (N.of_nat k) (N.of_nat j)) as (H1 & H2 & H3); [lia|].
    change 56%N with (N.of_nat 56) in H1, H2, H3. rewrite <- (Nat2N.inj_mul 56 k) in H1, H3. rewrite <- (Nat2N.inj_mul 56 j) in H2, H3.
    apply str_ltb_app; [lia|done].
Qed.
Lemma strict_sorted_fix l : StronglySorted (fun a b => str_ltb a b = true) l -> StronglySorted str_le l /\ NoDup l.
Proof.
  induction 1 as [|x l Hl [IH1 IH2] HF]; [split; constructor|]. split; constructor; auto.
  - eapply Forall_impl; [exact HF|]. intros y. apply str_ltb_le.
  - intros Hin. rewrite Forall_forall in HF. specialize (HF _ Hin). by rewrite str_ltb_irrefl in HF.
Qed.
Lemma gosort_fix l : StronglySorted str_le l -> gosort str_ltb l = l.
Proof.
  intros H. apply (sorted_unique str_le); [intros x y _ _; apply str_le_antisym| |apply sort_strings_sorted|done].
  apply gosort_perm.
Qed.
Lemma split_long text : 56 < length text -> (N.of_nat (length text) <= 10024)%N -> StronglySorted (fun a b => str_ltb a b = true) (splitting_value text).
Proof.
  intros H Hl. unfold splitting_value, each_part_len. destruct (Nat.leb_spec (length text) 56); [lia|].
  apply (split_parts_sorted (length text) 0 text); [|lia|lia]. intros ->. simpl in H. lia.
Qed.
Lemma splitting_nodup text : (N.of_nat (length text) <= 10024)%N -> NoDup (splitting_value text).
Proof.
  intros H. destruct (decide (length text <= 56)) as [Hs|].
  - unfold splitting_value, each_part_len. destruct (Nat.leb_spec (length text) 56); [|lia]. apply NoDup_singleton.
  - by apply (strict_sorted_fix _ (split_long text ltac:(lia) H)).
Qed.
Lemma splitting_two text : 56 < length text -> exists a b l, splitting_value text = a :: b :: l.
Proof.
  intros H. unfold splitting_value, each_part_len. destruct (Nat.leb_spec (length text) 56); [lia|].
  destruct (length text) as [|[|n]] eqn:Et; [lia|lia|]. cbn [split_parts]. unfold each_part_len. rewrite Et.
  destruct (Nat.leb_spec (S (S n)) 56); [lia|].
  destruct (length (drop 56 text) <=? 56); eauto.
Qed.
Lemma split_merge text vs : nodot text -> (N.of_nat (length text) <= 10024)%N -> vs ≡ₚ splitting_value text -> merge_values vs = Some text.
Proof.
  intros Hd Hl HP. destruct (decide (length text <= 56)) as [Hs|Hs].
  - unfold splitting_value, each_part_len in HP. destruct (Nat.leb_spec (length text) 56); [|lia].
    symmetry in HP. apply Permutation_singleton_l in HP. by subst.
  - destruct (splitting_two text ltac:(lia)) as (a & b & l & E).
    unfold merge_values. rewrite (sort_strings_unique vs (splitting_value text)) by done.
    destruct vs as [|v [|v' vs]]; [| |].
    + apply Permutation_length in HP. rewrite E in HP. simpl in HP. lia.
    + apply Permutation_length in HP. rewrite E in HP. simpl in HP. lia.
    + rewrite gosort_fix by (by apply strict_sorted_fix, split_long; lia).
      unfold splitting_value, each_part_len. destruct (Nat.leb_spec (length text) 56); [lia|].
      apply split_parts_merge; [done|lia|lia].
Qed.
Lemma splitting_len text x : (N.of_nat (length text) <= 10024)%N -> x ∈ splitting_value text -> length x <= 61.
Proof.
  intros Hl Hx. unfold splitting_value, each_part_len in Hx. destruct (Nat.leb_spec (length text) 56).
  - apply elem_of_list_singleton in Hx as ->. lia.
  - apply (split_parts_elem (length text) 0 text) in Hx; [|intros ->; simpl in *; lia|lia].
    destruct Hx as (j & p & -> & _ & Hj & Hp & _). unfold split_part. rewrite !app_length.
    destruct (decide (j = 0)) as [->|].
    + change (length (str ".")) with 1. change (length (pad4 (N.of_nat (56*0)))) with 4. lia.
    + destruct (pad4_lt 0 (N.of_nat j)) as (_ & H2 & _); [lia|].
      change 56%N with (N.of_nat 56) in H2. rewrite <- Nat2N.inj_mul in H2. rewrite H2. change (length (str ".")) with 1. lia.
Qed.
