(** Lemmas about the plugin. *)
From Coq Require Import Ascii String NArith ZArith Lia.
From stdpp Require Import base gmap strings list.
From Verif Require Import ModelStr ProofsStr ModelPlugin SpecPlugin.

Definition typ_step (t : subcommand) (ia : nat * gostr) : subcommand :=
  if str_eqb ia.2 (str "get") then SGet else if str_eqb ia.2 (str "create") then SCreate else t.
Definition pos_step (n : nat) (p : nat) (ia : nat * gostr) : nat :=
  if (str_eqb ia.2 (str "-l") || str_eqb ia.2 (str "--selector")) && (ia.1 <? n) then S ia.1 else p.
Lemma last_cons_default {A} (x d : A) l : default d (last (x :: l)) = default x (last l).
Proof. rewrite last_cons. by destruct (last l). Qed.
Lemma scan_spec i l k vs n s : keeps i l k -> cluster_values l vs -> i + length l = S n ->
  scan i l s = Scan (default (sc_clusters s) (last vs)) (sc_args s ++ k.*2) (fold_left typ_step k (sc_typ s)) (fold_left (pos_step n) k (sc_pos s)).
Proof.
  intros Hk. revert vs s. induction Hk as [i|i v l k Hk IH|i|i a l k Ha Hk IH]; intros vs s Hv Hn.
  - inversion Hv; subst. cbn. rewrite app_nil_r. by destruct s.
  - inversion Hv; subst; [|done]. cbn [scan]. rewrite str_eqb_refl.
    change (str_eqb (str "--clusters") (str "get")) with false. change (str_eqb (str "--clusters") (str "create")) with false. cbv iota.
    replace (S (S i)) with (i + 2) by lia. erewrite IH; [|done|cbn in Hn; lia]. cbn [sc_clusters sc_args sc_typ sc_pos]. by rewrite last_cons_default.
  - assert (vs = []) as -> by (by inversion Hv). cbn [scan]. rewrite str_eqb_refl.
    change (str_eqb (str "--clusters") (str "get")) with false. change (str_eqb (str "--clusters") (str "create")) with false. cbn. by rewrite app_nil_r.
  - inversion Hv as [|? ? ? ? Heq| |? ? ? ? Hv']; subst; [done|done|]. cbn [scan]. apply str_eqb_neq in Ha. rewrite Ha.
    replace (i + 1) with (S i) in IH by lia. erewrite IH; [|done|cbn in Hn; lia]. cbn [sc_clusters sc_args sc_typ sc_pos fmap list_fmap snd fold_left].
    rewrite <- app_assoc. f_equal. unfold pos_step at 3. cbn [fst snd]. f_equal.
    destruct (str_eqb a (str "-l") || str_eqb a (str "--selector")); [|done]. cbn [andb].
    destruct l as [|b l]; cbn [length] in Hn.
    + by destruct (Nat.ltb_spec i n); [lia|].
    + by destruct (Nat.ltb_spec i n); [|lia].
Qed.
Lemma keeps_total l : forall i, exists k, keeps i l k.
Proof.
  remember (length l) as m eqn:Hm. revert l Hm. induction (lt_wf m) as [m _ IH]. intros l -> i.
  destruct l as [|a l]; [eexists; constructor|]. destruct (decide (a = str "--clusters")) as [->|Ha].
  - destruct l as [|v l]; [eexists; constructor|]. destruct (IH (length l) ltac:(cbn; lia) l eq_refl (i + 2)) as [k Hk]. exists k. by constructor.
  - destruct (IH (length l) ltac:(cbn; lia) l eq_refl (i + 1)) as [k Hk]. eexists. by constructor.
Qed.
Lemma values_total l : exists k, cluster_values l k.
Proof.
  remember (length l) as m eqn:Hm. revert l Hm. induction (lt_wf m) as [m _ IH]. intros l ->.
  destruct l as [|a l]; [eexists; constructor|]. destruct (decide (a = str "--clusters")) as [->|Ha].
  - destruct l as [|v l]; [eexists; constructor|]. destruct (IH (length l) ltac:(cbn; lia) l eq_refl) as [k Hk]. eexists. by constructor.
  - destruct (IH (length l) ltac:(cbn; lia) l eq_refl) as [k Hk]. exists k. by constructor.
Qed.
(** A kept argument stands no earlier on the command line than in the result. *)
Lemma keeps_later i l k q j a : keeps i l k -> k !! q = Some (j, a) -> i + q <= j.
Proof.
  intros Hk. revert q. induction Hk as [i|i v l k Hk IH|i|i b l k Hb Hk IH]; intros q Hq; [done| |done|].
  - specialize (IH _ Hq). lia.
  - destruct q as [|q]; [injection Hq as <- <-; lia|]. specialize (IH _ Hq). lia.
Qed.
Lemma keeps_source i l k q j a : keeps i l k -> k !! q = Some (j, a) -> i <= j /\ l !! (j - i) = Some a.
Proof.
  intros Hk. revert q. induction Hk as [i|i v l k Hk IH|i|i b l k Hb Hk IH]; intros q Hq; [done| |done|].
  - destruct (IH _ Hq) as [? Hl]. split; [lia|]. replace (j - i) with (S (S (j - (i + 2)))) by lia. exact Hl.
  - destruct q as [|q]; [injection Hq as <- <-; split; [lia|]; by rewrite Nat.sub_diag|].
    destruct (IH _ Hq) as [? Hl]. split; [lia|]. replace (j - i) with (S (j - (i + 1))) by lia. exact Hl.
Qed.
Lemma typ_fold k t : (forall j b, (j, b) ∈ k -> b <> str "get" /\ b <> str "create") -> fold_left typ_step k t = t.
Proof.
  revert t. induction k as [|[j b] k IH]; intros t H; [done|]. cbn [fold_left]. rewrite IH.
  - unfold typ_step. cbn [snd]. destruct (H j b ltac:(left)) as [H1%str_eqb_neq H2%str_eqb_neq]. by rewrite H1, H2.
  - intros j' b' Hin. apply (H j'). by right.
Qed.
Lemma typ_of k w t : subcommand_is k w -> fold_left typ_step k t = if str_eqb w (str "get") then SGet else SCreate.
Proof.
  intros (k1 & i & k2 & -> & Hw & Hk2). rewrite fold_left_app. cbn [fold_left]. rewrite typ_fold by done. unfold typ_step. cbn [snd].
  destruct Hw as [-> | ->]; reflexivity.
Qed.
Lemma pos_fold n k p : no_selector n k -> fold_left (pos_step n) k p = p.
Proof.
  revert p. induction k as [|[j b] k IH]; intros p H; [done|]. cbn [fold_left]. rewrite IH.
  - unfold pos_step. cbn [fst snd]. destruct (str_eqb b (str "-l") || str_eqb b (str "--selector")) eqn:Hb; [|done]. cbn [andb].
    destruct (Nat.ltb_spec j n); [|done]. assert (n <= j); [|lia]. apply (H j b); [left|]. apply orb_true_iff in Hb as [?%str_eqb_eq|?%str_eqb_eq]; [by left|by right].
  - intros j' b' Hin. apply (H j'). by right.
Qed.
Lemma pos_of n k i p : last_selector n k i -> fold_left (pos_step n) k p = S i.
Proof.
  intros (k1 & a & k2 & -> & Ha & Hi & Hk2). rewrite fold_left_app. cbn [fold_left]. rewrite pos_fold by done. unfold pos_step. cbn [fst snd].
  assert (str_eqb a (str "-l") || str_eqb a (str "--selector") = true) as -> by (apply orb_true_iff; destruct Ha as [-> | ->]; [left|right]; apply str_eqb_refl).
  by destruct (Nat.ltb_spec i n); [|lia].
Qed.
