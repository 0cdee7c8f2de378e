(** Correctness of the model of Go's sort for comparison functions that need not be strict. *)
From Coq Require Import NArith Lia.
From stdpp Require Import base list sorting.
From Verif Require Import ModelSort.

Section pdq.
  Context {A : Type} `{!Inhabited A} (less : A -> A -> bool) (rnd : nat -> nat -> nat).
  Context (R : A -> A -> Prop) (L : list A).
  Hypothesis Rrefl : forall x, R x x.
  Hypothesis Rtrans : forall x y z, R x y -> R y z -> R x z.
  Hypothesis Hlt : forall x y, x ∈ L -> y ∈ L -> less x y = true -> R x y.
  Hypothesis Hge : forall x y, x ∈ L -> y ∈ L -> less x y = false -> R y x.
  Hypothesis Hrnd : forall len i, 0 < len -> rnd len i < len.
  Local Notation n := (length L).
  Local Notation sst := (@sst A).

  Definition wf (s : sst) : Prop := arr s ≡ₚ L /\ oob s = false.
  Definition get (s : sst) (k : nat) : A := arr s !!! k.
  Definition eqv (x y : A) : Prop := R x y /\ R y x.
  Lemma eqv_refl x : eqv x x. Proof. split; auto. Qed.
  Lemma eqv_sym x y : eqv x y -> eqv y x. Proof. intros []; split; auto. Qed.
  Lemma eqv_trans x y z : eqv x y -> eqv y z -> eqv x z.
  Proof. intros [] []; split; eauto. Qed.

  Record ext (a b : nat) (s s' : sst) : Prop := {
    ext_wf : wf s -> wf s';
    ext_log : exists l, log s' = l ++ log s;
    ext_out : forall k, k < n -> k < a \/ b <= k -> eqv (get s' k) (get s k);
    ext_in : forall k, a <= k < b -> exists k', a <= k' < b /\ eqv (get s' k) (get s k')
  }.
  Lemma ext_refl a b s : ext a b s s.
  Proof. split; intros; eauto using eqv_refl. by exists []. Qed.
  Lemma ext_trans a b s1 s2 s3 : ext a b s1 s2 -> ext a b s2 s3 -> ext a b s1 s3.
  Proof.
    intros [W1 [l1 L1] O1 I1] [W2 [l2 L2] O2 I2]. split.
    - auto.
    - exists (l2 ++ l1). rewrite L2, L1. by rewrite app_assoc.
    - intros k Hk Hk2. eapply eqv_trans; eauto.
    - intros k Hk. destruct (I2 k Hk) as (k' & Hk' & E). destruct (I1 k' Hk') as (k'' & Hk'' & E').
      exists k''. split; [done|]. eapply eqv_trans; eauto.
  Qed.
  Lemma ext_mono a b a' b' s s' : b <= n -> a <= a' -> b' <= b -> ext a' b' s s' -> ext a b s s'.
  Proof.
    intros Hn Ha Hb [W L0 O I]. split; auto.
    - intros k Hk Hk2. apply O; lia.
    - intros k Hk. destruct (decide (a' <= k < b')) as [Hin|Hout].
      + destruct (I k Hin) as (k' & ? & ?). exists k'. split; [lia|done].
      + exists k. split; [lia|]. apply O; lia.
  Qed.

  Lemma wf_len s : wf s -> length (arr s) = n.
  Proof. intros [H _]. by apply Permutation_length. Qed.
  Lemma get_in s k : wf s -> k < n -> get s k ∈ L.
  Proof.
    intros W Hk. pose proof (wf_len s W) as HL. destruct W as [HP _].
    assert (get s k ∈ arr s) as Hin.
    { unfold get. apply elem_of_list_lookup. exists k. apply list_lookup_lookup_total_lt. lia. }
    by rewrite HP in Hin.
  Qed.

  Definition cmps (s : sst) (i j : nat) : sst := SST (arr s) ((get s i, get s j) :: log s) (oob s).
  Definition swp (s : sst) (i j : nat) : sst :=
    SST (<[j := get s i]> (<[i := get s j]> (arr s))) (log s) (oob s).

  Lemma cmp_eq s i j : wf s -> i < n -> j < n -> cmp less i j s = (less (get s i) (get s j), cmps s i j).
  Proof.
    intros W Hi Hj. pose proof (wf_len s W) as HL. unfold cmp, cmps, get.
    rewrite !(list_lookup_lookup_total_lt (arr s)) by lia. done.
  Qed.
  Lemma swap_eq s i j : wf s -> i < n -> j < n -> swap i j s = (tt, swp s i j).
  Proof.
    intros W Hi Hj. pose proof (wf_len s W) as HL. unfold swap, swp, get.
    rewrite !(list_lookup_lookup_total_lt (arr s)) by lia. done.
  Qed.
  Lemma get_cmps s i j k : get (cmps s i j) k = get s k.
  Proof. done. Qed.
  Lemma wf_cmps s i j : wf s -> wf (cmps s i j).
  Proof. intros [? ?]; split; done. Qed.
  Lemma ext_cmps a b s i j : ext a b s (cmps s i j).
  Proof.
    split; intros; rewrite ?get_cmps; eauto using eqv_refl, wf_cmps. by exists [(get s i, get s j)].
  Qed.
  Lemma get_swp s i j k : wf s -> i < n -> j < n -> k < n ->
    get (swp s i j) k = if decide (k = j) then get s i else if decide (k = i) then get s j else get s k.
  Proof.
    intros W Hi Hj Hk. pose proof (wf_len s W) as HL. unfold swp, get; simpl.
    destruct (decide (k = j)) as [->|Hkj].
    - rewrite list_lookup_total_insert; [done|]. rewrite insert_length. lia.
    - rewrite list_lookup_total_insert_ne by done.
      destruct (decide (k = i)) as [->|Hki].
      + rewrite list_lookup_total_insert; [done|]. lia.
      + by rewrite list_lookup_total_insert_ne by done.
  Qed.
  Lemma insert_swap_perm (l : list A) i j x y :
    l !! i = Some x -> l !! j = Some y -> <[j := x]> (<[i := y]> l) ≡ₚ l.
  Proof.
    intros Hi Hj. destruct (decide (i = j)) as [->|Hne].
    { rewrite list_insert_insert. simplify_eq. by rewrite list_insert_id. }
    assert (i < length l) by (eapply lookup_lt_Some; eauto).
    assert (j < length l) by (eapply lookup_lt_Some; eauto).
    apply Permutation_sym. apply Permutation_inj. split; [by rewrite !insert_length|].
    exists (fun k => if decide (k = i) then j else if decide (k = j) then i else k). split.
    - intros k1 k2. repeat case_decide; congruence.
    - intros k. destruct (decide (k = i)) as [->|]; [|destruct (decide (k = j)) as [->|]].
      + rewrite list_lookup_insert by (rewrite insert_length; lia). congruence.
      + rewrite list_lookup_insert_ne by done. rewrite list_lookup_insert by done. congruence.
      + by rewrite !list_lookup_insert_ne by done.
  Qed.
  Lemma wf_swp s i j : wf s -> i < n -> j < n -> wf (swp s i j).
  Proof.
    intros W Hi Hj. pose proof (wf_len s W) as HL. destruct W as [HP HO]. split; [|done].
    unfold swp; simpl. rewrite insert_swap_perm; [done| |];
      unfold get; apply list_lookup_lookup_total_lt; lia.
  Qed.
  Lemma ext_swp a b s i j : wf s -> b <= n -> a <= i < b -> a <= j < b -> ext a b s (swp s i j).
  Proof.
    intros W Hb Hi Hj. split.
    - intros _. apply wf_swp; [done|lia|lia].
    - by exists [].
    - intros k Hk Hk2. rewrite get_swp by (done || lia).
      destruct (decide (k = j)); [lia|]. destruct (decide (k = i)); [lia|]. apply eqv_refl.
    - intros k Hk. rewrite get_swp by (done || lia).
      destruct (decide (k = j)); [exists i|destruct (decide (k = i)); [exists j|exists k]];
        split; auto using eqv_refl.
  Qed.

  (** Bounds that survive [ext]. *)
  Definition low (a b : nat) (s : sst) : Prop :=
    forall k k', k < a -> a <= k' < b -> R (get s k) (get s k').
  Definition sorted_on (a b : nat) (s : sst) : Prop :=
    forall i j, a <= i -> i < j -> j < b -> R (get s i) (get s j).
  Lemma low_ext a b s s' : b <= n -> a <= b -> ext a b s s' -> low a b s -> low a b s'.
  Proof.
    intros Hb Hab E Hl k k' Hk Hk'. destruct (ext_in _ _ _ _ E k' Hk') as (k2 & Hk2 & E2).
    assert (eqv (get s' k) (get s k)) as E1. { apply (ext_out _ _ _ _ E); lia. }
    apply Rtrans with (get s k); [apply E1|]. apply Rtrans with (get s k2); [|apply E2].
    apply Hl; lia.
  Qed.

  (** Steps of the comparison and swap primitives inside a computation. *)
  Lemma less_true s i j : wf s -> i < n -> j < n -> less (get s i) (get s j) = true -> R (get s i) (get s j).
  Proof. intros. apply Hlt; auto using get_in. Qed.
  Lemma less_false s i j : wf s -> i < n -> j < n -> less (get s i) (get s j) = false -> R (get s j) (get s i).
  Proof. intros. apply Hge; auto using get_in. Qed.

  Local Ltac stepc := unfold sbind at 1; rewrite cmp_eq by (done || lia).
  Local Ltac steps := unfold sbind at 1; rewrite swap_eq by (done || lia).

  (** Elements that took part in a comparison. *)
  Definition cov (s : sst) (x : A) : Prop := exists y, (x, y) ∈ log s \/ (y, x) ∈ log s.
  Lemma cov_ext a b s s' x : ext a b s s' -> cov s x -> cov s' x.
  Proof.
    intros X [y Hy]. destruct (ext_log _ _ _ _ X) as [l Hl]. exists y. rewrite Hl.
    destruct Hy; [left|right]; apply elem_of_app; auto.
  Qed.

  (** Insertion sort: the inner loop inserts element j into the sorted [a, j). *)
  Lemma ins_inner_spec a b j : forall s u s',
    wf s -> b <= n -> a <= j < b -> ins_inner less a j s = (u, s') ->
    (forall i k, a <= i -> i < k -> k <= j -> k <> j -> R (get s i) (get s k)) ->
    ext a b s s' /\ sorted_on a (S j) s' /\ (forall k, j < k < n -> get s' k = get s k) /\
    (forall k, a <= k <= j -> exists k', a <= k' <= j /\ get s' k = get s k') /\
    (a < j -> (get s j, get s (j - 1)) ∈ log s').
  Proof.
    revert b. induction j as [|j IH]; intros b s u s' W Hb Hj E HS; simpl in E.
    - apply pair_equal_spec in E as [_ <-]. split; [apply ext_refl|]. split; [intros i k ???; lia|].
      split; [done|]. split; [by eauto|lia].
    - destruct (a <? S j) eqn:Ea.
      2: { apply pair_equal_spec in E as [_ <-]. apply Nat.ltb_ge in Ea.
           split; [apply ext_refl|]. split; [intros i k ???; lia|]. split; [done|]. split; [by eauto|lia]. }
      apply Nat.ltb_lt in Ea. unfold sbind in E. rewrite cmp_eq in E by (done || lia).
      destruct (less (get s (S j)) (get s j)) eqn:El.
      + assert (wf (cmps s (S j) j)) as W1 by by apply wf_cmps.
        rewrite swap_eq in E by (done || lia).
        set (s1 := cmps s (S j) j) in *. set (s2 := swp s1 (S j) j) in *.
        assert (wf s2) as W2. { apply wf_swp; [done|lia|lia]. }
        assert (forall k, k < n -> get s2 k = if decide (k = j) then get s (S j) else if decide (k = S j) then get s j else get s k) as G2.
        { intros k Hk. unfold s2. rewrite get_swp by (done || lia). done. }
        apply (IH (S j)) in E; [|done|lia|lia|].
        2: { intros i k Hi Hik Hkj Hkj'. rewrite !G2 by lia.
             repeat (case_decide; [lia|]). apply HS; lia. }
        destruct E as (E & HS' & HF & HK & _). split; [|split; [|split; [|split]]].
        * apply ext_trans with s1; [apply ext_cmps|]. apply ext_trans with s2.
          { apply ext_swp; [done|lia|lia|lia]. }
          eapply ext_mono; [| | |exact E]; lia.
        * intros i k Hi Hik Hk. destruct (decide (k = S j)) as [->|].
          2: { apply HS'; lia. }
          rewrite (HF (S j)) by lia.
          destruct (ext_in _ _ _ _ E i) as (i' & Hi' & Ei); [lia|].
          apply Rtrans with (get s2 i'); [apply Ei|].
          rewrite !G2 by lia. destruct (decide (S j = j)); [lia|]. destruct (decide (S j = S j)); [|lia].
          destruct (decide (i' = j)) as [->|].
          { apply less_true; (done || lia). }
          destruct (decide (i' = S j)) as [->|]; [lia|]. apply HS; lia.
        * intros k Hk. rewrite HF by lia. rewrite G2 by lia.
          repeat (case_decide; [lia|]). done.
        * intros k Hk. destruct (decide (k = S j)) as [->|].
          { exists j. split; [lia|]. rewrite HF, G2 by lia. repeat case_decide; (done || lia). }
          destruct (HK k) as (k' & Hk' & Ek); [lia|]. rewrite Ek, G2 by lia.
          destruct (decide (k' = j)); [exists (S j)|destruct (decide (k' = S j)); [exists j|exists k']];
            (split; [lia|done]).
        * intros _. destruct (ext_log _ _ _ _ E) as [l Hl]. rewrite Hl. apply elem_of_app. right.
          replace (S j - 1) with j by lia. left.
      + unfold sret in E. apply pair_equal_spec in E as [_ <-]. split; [apply ext_cmps|].
        split; [|split; [done|split; [by eauto|]]].
        2: { intros _. replace (S j - 1) with j by lia. left. }
        intros i k Hi Hik Hk. rewrite !get_cmps. destruct (decide (k = S j)) as [->|].
        2: { apply HS; lia. }
        assert (R (get s j) (get s (S j))) as HR. { apply less_false; (done || lia). }
        destruct (decide (i = j)) as [->|]; [done|]. apply Rtrans with (get s j); [|done]. apply HS; lia.
  Qed.
  Lemma ins_outer_spec a b m : forall i s u s',
    wf s -> b <= n -> a < i -> i + m <= b -> ins_outer less a m i s = (u, s') ->
    sorted_on a i s -> ext a b s s' /\ sorted_on a (i + m) s' /\
    ((i = S a /\ 0 < m) \/ (forall k, a <= k < i -> cov s (get s k)) -> forall k, a <= k < i + m -> cov s' (get s' k)).
  Proof.
    induction m as [|m IH]; intros i s u s' W Hb Ha Hi E HS; simpl in E.
    - apply pair_equal_spec in E as [_ <-]. split; [apply ext_refl|]. rewrite Nat.add_0_r. split; [done|].
      intros [?|?]; [lia|done].
    - unfold sbind in E. destruct (ins_inner less a i s) as [u1 s1] eqn:E1.
      apply (ins_inner_spec a b) in E1; [|done|lia|lia|].
      2: { intros i0 k ????. apply HS; lia. }
      destruct E1 as (X1 & S1 & F1 & P1 & C1). apply IH in E; [|by apply (ext_wf _ _ _ _ X1)|lia|lia|lia|done].
      destruct E as (X2 & S2 & C2). split; [by eapply ext_trans|]. rewrite Nat.add_succ_r. split; [done|].
      intros HC. apply C2. right. intros k Hk.
      destruct (P1 k) as (k' & Hk' & ->); [lia|]. specialize (C1 ltac:(lia)).
      destruct (decide (k' = i)) as [->|]; [by exists (get s (i - 1)); left|].
      destruct (decide (k' = i - 1)) as [->|]; [by exists (get s i); right|].
      destruct HC as [[-> _]|HC]; [lia|]. eapply cov_ext; [exact X1|]. apply HC; lia.
  Qed.
  Lemma insertion_sort_spec a b s u s' :
    wf s -> b <= n -> a <= b -> insertion_sort less a b s = (u, s') ->
    ext a b s s' /\ sorted_on a b s' /\ (S a < b -> forall k, a <= k < b -> cov s' (get s' k)).
  Proof.
    intros W Hb Hab E. unfold insertion_sort in E.
    destruct (decide (a = b)) as [->|].
    { replace (b - S b) with 0 in E by lia. apply pair_equal_spec in E as [_ <-]. split; [apply ext_refl|].
      split; [intros i j; lia|lia]. }
    apply (ins_outer_spec a b) in E; [|done|lia|lia|lia|].
    2: { intros i j; lia. }
    replace (S a + (b - S a)) with b in E by lia. destruct E as (X & S' & C). split_and!; auto.
    intros Hab2. apply C. left. lia.
  Qed.

  (** Heap sort.  [heap_from r hi f]: the heap property at all nodes from r on. *)
  Definition heap_node (hi f : nat) (s : sst) (i : nat) : Prop :=
    (2 * i + 1 < hi -> R (get s (f + (2 * i + 1))) (get s (f + i))) /\
    (2 * i + 2 < hi -> R (get s (f + (2 * i + 2))) (get s (f + i))).
  Definition heap_from (r hi f : nat) (s : sst) : Prop :=
    forall i, r <= i -> i < hi -> heap_node hi f s i.

  (** sift_down repairs the heap at root, given that the rest (from lo on) is a heap, where
      additionally the children of root are below the parent of root. *)
  Lemma sift_down_spec lo hi f : forall fuel root s u s',
    wf s -> f + hi <= n -> root < hi -> hi <= root + fuel -> lo <= root ->
    sift_down less fuel root hi f s = (u, s') ->
    (forall i, lo <= i -> i < hi -> i <> root -> heap_node hi f s i) ->
    (forall p, lo <= p -> (2 * p + 1 = root \/ 2 * p + 2 = root) ->
       (2 * root + 1 < hi -> R (get s (f + (2 * root + 1))) (get s (f + p))) /\
       (2 * root + 2 < hi -> R (get s (f + (2 * root + 2))) (get s (f + p)))) ->
    ext (f + root) (f + hi) s s' /\ heap_from lo hi f s' /\
    (forall k, k < n -> (k < f + root \/ f + hi <= k) -> get s' k = get s k).
  Proof.
    induction fuel as [|fuel IH]; intros root s u s' W Hn Hr Hf Hlo E HH HP; cbn [sift_down] in E.
    { lia. }
    cbv zeta in E.
    destruct (hi <=? 2 * root + 1) eqn:Ec.
    { apply Nat.leb_le in Ec. apply pair_equal_spec in E as [_ <-]. split; [apply ext_refl|]. split; [|done].
      intros i Hi1 Hi2. destruct (decide (i = root)) as [->|]; [|by apply HH].
      split; intros; lia. }
    apply Nat.leb_gt in Ec.
    unfold sbind at 1 in E.
    destruct ((if 2 * root + 1 + 1 <? hi then cmp less (f + (2 * root + 1)) (f + (2 * root + 1) + 1) else sret false) s)
      as [c s1] eqn:E1.
    assert (exists child, (if c then 2 * root + 1 + 1 else 2 * root + 1) = child /\ wf s1 /\ arr s1 = arr s /\
              (child = 2 * root + 1 \/ child = 2 * root + 2) /\
              child < hi /\ ext (f + root) (f + hi) s s1 /\
              R (get s (f + (2 * root + 1))) (get s (f + child)) /\
              (2 * root + 2 < hi -> R (get s (f + (2 * root + 2))) (get s (f + child)))) as (child & Echild & W1 & A1 & Hchild & Hc & X1 & M1 & M2).
    { destruct (2 * root + 1 + 1 <? hi) eqn:E2.
      - apply Nat.ltb_lt in E2. rewrite cmp_eq in E1 by (done || lia).
        apply pair_equal_spec in E1 as [<- <-].
        replace (f + (2 * root + 1) + 1) with (f + (2 * root + 2)) in * by lia.
        destruct (less (get s (f + (2 * root + 1))) (get s (f + (2 * root + 2)))) eqn:El.
        + exists (2 * root + 2). split; [cbv iota; lia|]. split; [by apply wf_cmps|]. split; [done|].
          split; [by right|]. split; [lia|]. split; [apply ext_cmps|].
          split; [by apply less_true; (done || lia)|]. intros _. apply Rrefl.
        + exists (2 * root + 1). split; [cbv iota; lia|]. split; [by apply wf_cmps|]. split; [done|].
          split; [by left|]. split; [lia|]. split; [apply ext_cmps|].
          split; [apply Rrefl|]. intros _. apply less_false; (done || lia).
      - apply Nat.ltb_ge in E2. unfold sret in E1. apply pair_equal_spec in E1 as [<- <-]. exists (2 * root + 1).
        split; [cbv iota; lia|]. split; [done|]. split; [done|].
        split; [by left|]. split; [lia|]. split; [apply ext_refl|].
        split; [apply Rrefl|]. lia. }
    rewrite Echild in E. clear Echild.
    unfold sbind at 1 in E. rewrite cmp_eq in E by (done || lia).
    assert (forall k, get s1 k = get s k) as G1. { intros k. unfold get. by rewrite A1. }
    rewrite !G1 in E.
    set (s2 := cmps s1 (f + root) (f + child)) in *.
    assert (wf s2) as W2 by by apply wf_cmps.
    assert (ext (f + root) (f + hi) s s2) as X2.
    { eapply ext_trans; [exact X1|]. apply ext_cmps. }
    assert (forall k, get s2 k = get s k) as G2. { intros k. unfold s2. by rewrite get_cmps, G1. }
    destruct (less (get s (f + root)) (get s (f + child))) eqn:Ed.
    2: { unfold sret in E. apply pair_equal_spec in E as [_ <-]. split; [done|]. split; [|intros; by rewrite G2].
         assert (R (get s (f + child)) (get s (f + root))) as HR by (apply less_false; (done || lia)).
         intros i Hi1 Hi2. unfold heap_node. rewrite !G2. destruct (decide (i = root)) as [->|]; [|by apply HH].
         split; intros; [eapply Rtrans; [exact M1|done]|].
         eapply Rtrans; [apply M2; lia|done]. }
    assert (R (get s (f + root)) (get s (f + child))) as HR by (apply less_true; (done || lia)).
    unfold sbind at 1 in E. rewrite swap_eq in E by (done || lia).
    set (s3 := swp s2 (f + root) (f + child)) in *.
    assert (wf s3) as W3 by (apply wf_swp; (done || lia)).
    assert (forall k, k < n -> get s3 k = if decide (k = f + child) then get s (f + root) else
               if decide (k = f + root) then get s (f + child) else get s k) as G3.
    { intros k Hk. unfold s3. rewrite get_swp by (done || lia). by rewrite !G2. }
    assert (get s3 (f + child) = get s (f + root)) as Gc.
    { rewrite G3 by lia. destruct (decide _); [done|lia]. }
    assert (get s3 (f + root) = get s (f + child)) as Gr.
    { rewrite G3 by lia. destruct (decide _); [lia|]. destruct (decide _); [done|lia]. }
    assert (forall k, k < hi -> k <> child -> k <> root -> get s3 (f + k) = get s (f + k)) as Go.
    { intros k ???. rewrite G3 by lia. do 2 (destruct (decide _); [lia|]). done. }
    apply IH in E; [|done|lia|lia|lia|lia| |].
    - destruct E as (X3 & H3 & F3). split; [|split; [done|]].
      + eapply ext_trans; [exact X2|]. apply ext_trans with s3; [apply ext_swp; [done|lia|lia|lia]|].
        eapply ext_mono; [| | |exact X3]; lia.
      + intros k Hk1 Hk2. rewrite F3 by lia. rewrite G3 by lia. do 2 (destruct (decide _); [lia|]). done.
    - intros i Hi1 Hi2 Hi3. unfold heap_node. destruct (decide (i = root)) as [->|Hir].
      + rewrite Gr. split; intros Hx.
        * destruct (decide (2 * root + 1 = child)) as [Ec1|]; [rewrite Ec1, Gc; done|].
          rewrite Go by lia. done.
        * destruct (decide (2 * root + 2 = child)) as [Ec1|]; [rewrite Ec1, Gc; done|].
          rewrite Go by lia. by apply M2.
      + rewrite (Go i) by lia. destruct (HH i) as [Q1 Q2]; [lia|lia|lia|].
        assert (forall k, k = 2 * i + 1 \/ k = 2 * i + 2 -> k < hi -> R (get s (f + k)) (get s (f + i)) -> R (get s3 (f + k)) (get s (f + i))) as Hgen2.
        { intros k Hk Hkh HRk. destruct (decide (k = root)) as [->|].
          - rewrite Gr. destruct (HP i) as [P1 P2]; [lia|lia|].
            destruct Hchild as [->| ->]; [apply P1|apply P2]; lia.
          - rewrite Go by lia. done. }
        split; intros Hx; apply Hgen2; auto.
    - intros p Hp1 Hp2. assert (p = root) as -> by lia. rewrite Gr.
      destruct (HH child) as [Q1 Q2]; [lia|lia|lia|].
      split; intros Hx; rewrite Go by lia; [by apply Q1|by apply Q2].
  Qed.

  Lemma heap_build_spec hi f : forall m s u s',
    wf s -> f + hi <= n -> m <= hi -> heap_build less m hi f s = (u, s') ->
    heap_from m hi f s -> ext f (f + hi) s s' /\ heap_from 0 hi f s'.
  Proof.
    induction m as [|m IH]; intros s u s' W Hn Hm E HH; cbn [heap_build] in E.
    - apply pair_equal_spec in E as [_ <-]. split; [apply ext_refl|done].
    - unfold sbind at 1 in E. destruct (sift_down less hi m hi f s) as [u1 s1] eqn:E1.
      apply (sift_down_spec m) in E1; [|done|lia|lia|lia|lia| |].
      2: { intros i ???. apply HH; lia. }
      2: { intros p ??. lia. }
      destruct E1 as (X1 & H1 & _).
      apply IH in E; [|by apply (ext_wf _ _ _ _ X1)|lia|lia|done].
      destruct E as [X2 H2]. split; [|done]. eapply ext_trans; [|exact X2].
      eapply ext_mono; [| | |exact X1]; lia.
  Qed.
  Lemma heap_root hi f s : heap_from 0 hi f s -> forall k, k < hi -> R (get s (f + k)) (get s (f + 0)).
  Proof.
    intros HH k. induction (lt_wf k) as [k _ IH]. intros Hk.
    destruct (decide (k = 0)) as [->|]; [apply Rrefl|].
    assert (exists p, p < k /\ (k = 2 * p + 1 \/ k = 2 * p + 2)) as (p & Hp & Hk2).
    { exists ((k - 1) / 2). pose proof (Nat.div_mod (k - 1) 2). pose proof (Nat.mod_upper_bound (k - 1) 2). lia. }
    destruct (HH p) as [H1 H2]; [lia|lia|].
    apply Rtrans with (get s (f + p)); [|apply IH; lia].
    destruct Hk2 as [->| ->]; [apply H1|apply H2]; lia.
  Qed.
  Lemma heap_pop_spec hi f : forall m s u s',
    wf s -> f + hi <= n -> m <= hi -> heap_pop less m f s = (u, s') ->
    heap_from 0 m f s -> sorted_on (f + m) (f + hi) s ->
    (forall k k', f <= k < f + m -> f + m <= k' < f + hi -> R (get s k) (get s k')) ->
    ext f (f + hi) s s' /\ sorted_on f (f + hi) s'.
  Proof.
    induction m as [|i IH]; intros s u s' W Hn Hm E HH HS HB; cbn [heap_pop] in E.
    - apply pair_equal_spec in E as [_ <-]. split; [apply ext_refl|]. by rewrite Nat.add_0_r in HS.
    - unfold sbind at 1 in E. rewrite swap_eq in E by (done || lia).
      set (s1 := swp s f (f + i)) in *.
      assert (wf s1) as W1 by (apply wf_swp; (done || lia)).
      assert (forall k, k < n -> get s1 k = if decide (k = f + i) then get s f else
               if decide (k = f) then get s (f + i) else get s k) as G1.
      { intros k Hk. unfold s1. rewrite get_swp by (done || lia). done. }
      assert (get s1 (f + i) = get s f) as Gi. { rewrite G1 by lia. by destruct (decide _). }
      assert (forall k, k < n -> k <> f -> k <> f + i -> get s1 k = get s k) as Go.
      { intros k ???. rewrite G1 by lia. do 2 (destruct (decide _); [lia|]). done. }
      assert (forall k, f <= k < f + S i -> R (get s1 k) (get s1 (f + i))) as Hmax.
      { intros k Hk. rewrite Gi. pose proof (heap_root _ _ _ HH) as Hroot.
        rewrite Nat.add_0_r in Hroot.
        rewrite G1 by lia. destruct (decide _); [apply Rrefl|].
        destruct (decide _); [apply Hroot; lia|]. replace k with (f + (k - f)) by lia. apply Hroot; lia. }
      unfold sbind at 1 in E. destruct (sift_down less i 0 i f s1) as [u2 s2] eqn:E2.
      assert (ext f (f + i) s1 s2 /\ heap_from 0 i f s2 /\
              (forall k, k < n -> (k < f \/ f + i <= k) -> get s2 k = get s1 k)) as (X2 & H2 & F2).
      { destruct (decide (i = 0)) as [->|].
        - simpl in E2. apply pair_equal_spec in E2 as [_ <-]. split; [apply ext_refl|].
          split; [intros k; lia|done].
        - apply (sift_down_spec 0) in E2; [|done|lia|lia|lia|lia| |].
          + destruct E2 as (X2 & H2 & F2). rewrite Nat.add_0_r in X2, F2. done.
          + intros k Hk1 Hk2 Hk3. destruct (HH k) as [Q1 Q2]; [lia|lia|]. unfold heap_node.
            split; intros Hx; rewrite !Go by lia; [apply Q1|apply Q2]; lia.
          + intros p Hp1 Hp2. lia. }
      assert (wf s2) as W2 by by apply (ext_wf _ _ _ _ X2).
      assert (ext f (f + hi) s s2) as X02.
      { apply ext_trans with s1; [apply ext_swp; [done|lia|lia|lia]|]. eapply ext_mono; [| | |exact X2]; lia. }
      apply IH in E; [|done|lia|lia|done| |].
      + destruct E as [X3 S3]. split; [|done]. by eapply ext_trans.
      + intros k1 k2 Hk1 Hk Hk2. rewrite !F2 by lia.
        destruct (decide (k1 = f + i)) as [->|].
        * rewrite Gi, Go by lia. apply HB; lia.
        * rewrite !Go by lia. apply HS; lia.
      + intros k k' Hk Hk'. rewrite (F2 k') by lia.
        destruct (ext_in _ _ _ _ X2 k) as (k2 & Hk2 & Ek); [lia|].
        apply Rtrans with (get s1 k2); [apply Ek|].
        destruct (decide (k' = f + i)) as [->|]; [apply Hmax; lia|].
        apply Rtrans with (get s1 (f + i)); [apply Hmax; lia|]. rewrite Gi, Go by lia. apply HB; lia.
  Qed.
  Lemma heap_sort_spec a b s u s' :
    wf s -> b <= n -> a < b -> heap_sort less a b s = (u, s') ->
    ext a b s s' /\ sorted_on a b s'.
  Proof.
    intros W Hb Hab E. unfold heap_sort in E. cbv zeta in E. unfold sbind in E.
    destruct (heap_build less (S ((b - a - 1) / 2)) (b - a) a s) as [u1 s1] eqn:E1.
    pose proof (Nat.div_mod (b - a - 1) 2). pose proof (Nat.mod_upper_bound (b - a - 1) 2).
    apply heap_build_spec in E1; [|done|lia|lia|].
    2: { intros i Hi1 Hi2. split; lia. }
    destruct E1 as [X1 H1]. replace (a + (b - a)) with b in X1 by lia.
    apply (heap_pop_spec (b - a)) in E; [|by apply (ext_wf _ _ _ _ X1)|lia|lia|done| |].
    - replace (a + (b - a)) with b in E by lia. destruct E as [X2 S2]. split; [|done]. by eapply ext_trans.
    - intros i j ???. lia.
    - intros k k' ??. lia.
  Qed.

  (** Partition. *)
  Lemma scan_up_spec a j : forall fuel i s r s',
    wf s -> a < n -> j < n -> i <= S j -> S j <= i + fuel ->
    scan_up less fuel a i j s = (r, s') ->
    wf s' /\ arr s' = arr s /\ (forall a b, ext a b s s') /\ i <= r <= S j /\
    (forall k, i <= k < r -> R (get s k) (get s a)) /\
    (forall k, i <= k -> k <= r -> k <= j -> (get s k, get s a) ∈ log s') /\
    (r <= j -> less (get s r) (get s a) = false).
  Proof.
    induction fuel as [|fuel IH]; intros i s r s' W Ha Hj Hi Hf E; cbn [scan_up] in E.
    { apply pair_equal_spec in E as [<- <-]. split_and!; auto using ext_refl; intros; lia. }
    destruct (i <=? j) eqn:Ei.
    2: { apply Nat.leb_gt in Ei. apply pair_equal_spec in E as [<- <-].
         split_and!; auto using ext_refl; intros; lia. }
    apply Nat.leb_le in Ei. unfold sbind in E. rewrite cmp_eq in E by (done || lia).
    destruct (less (get s i) (get s a)) eqn:El.
    - apply IH in E; [|by apply wf_cmps|lia|lia|lia|lia].
      destruct E as (W' & A' & X' & B' & L' & K' & G'). split; [done|]. split; [done|].
      split; [intros; eapply ext_trans; [apply ext_cmps|apply X']|]. split; [lia|].
      split; [|split; [|intros; by apply G']].
      + intros k Hk. destruct (decide (k = i)) as [->|]; [apply less_true; (done || lia)|]. apply (L' k). lia.
      + intros k Hk1 Hk2 Hk3. destruct (decide (k = i)) as [->|]; [|apply K'; lia].
        destruct (ext_log _ _ _ _ (X' 0 0)) as [l Hl]. rewrite Hl. apply elem_of_app. right. left.
    - apply pair_equal_spec in E as [<- <-]. split; [by apply wf_cmps|]. split; [done|].
      split; [intros; apply ext_cmps|]. split; [lia|]. split; [intros; lia|]. split.
      + intros k ???. assert (k = i) as -> by lia. left.
      + done.
  Qed.
  Lemma scan_down_spec a i : forall fuel j s r s',
    wf s -> a < i -> j < n -> i <= S j -> S j <= i + fuel ->
    scan_down less fuel a i j s = (r, s') ->
    wf s' /\ arr s' = arr s /\ (forall a b, ext a b s s') /\ (i <= S r /\ r <= j) /\
    (forall k, r < k <= j -> R (get s a) (get s k)) /\
    (forall k, r <= k -> k <= j -> i <= k -> (get s k, get s a) ∈ log s') /\
    (i <= r -> less (get s r) (get s a) = true).
  Proof.
    induction fuel as [|fuel IH]; intros j s r s' W Ha Hj Hi Hf E; cbn [scan_down] in E.
    { apply pair_equal_spec in E as [<- <-]. split_and!; auto using ext_refl; intros; lia. }
    destruct (i <=? j) eqn:Ei.
    2: { apply Nat.leb_gt in Ei. apply pair_equal_spec in E as [<- <-].
         split_and!; auto using ext_refl; intros; lia. }
    apply Nat.leb_le in Ei. unfold sbind in E. rewrite cmp_eq in E by (done || lia).
    destruct (less (get s j) (get s a)) eqn:El.
    - apply pair_equal_spec in E as [<- <-]. split; [by apply wf_cmps|]. split; [done|].
      split; [intros; apply ext_cmps|]. split; [lia|]. split; [intros; lia|]. split.
      + intros k ???. assert (k = j) as -> by lia. left.
      + done.
    - apply IH in E; [|by apply wf_cmps|lia|lia|lia|lia].
      destruct E as (W' & A' & X' & B' & L' & K' & G'). split; [done|]. split; [done|].
      split; [intros; eapply ext_trans; [apply ext_cmps|apply X']|]. split; [lia|].
      split; [|split; [|intros; by apply G']].
      + intros k Hk. destruct (decide (k = j)) as [->|]; [apply less_false; (done || lia)|]. apply (L' k). lia.
      + intros k Hk1 Hk2 Hk3. destruct (decide (k = j)) as [->|]; [|apply K'; lia].
        destruct (ext_log _ _ _ _ (X' 0 0)) as [l Hl]. rewrite Hl. apply elem_of_app. right. left.
  Qed.


  (** The loop of partition: everything in (a, i) is below the pivot at a, everything in (j, b)
      above it. *)
  Lemma part_loop_spec a b : forall fuel i j s r s',
    wf s -> b <= n -> a < i -> i <= S j -> j < b -> S j <= i + fuel -> 0 < fuel ->
    part_loop less fuel a i j s = (r, s') ->
    (forall k, a < k < i -> R (get s k) (get s a)) ->
    (forall k, j < k < b -> R (get s a) (get s k)) ->
    (forall k, a < k < b -> k < i \/ j < k -> cov s (get s k)) ->
    ext (S a) b s s' /\ get s' a = get s a /\ a <= r < b /\
    (forall k, a < k <= r -> R (get s' k) (get s' a)) /\
    (forall k, r < k < b -> R (get s' a) (get s' k)) /\
    (forall k, a < k < b -> cov s' (get s' k)).
  Proof.
    induction fuel as [|fuel IH]; intros i j s r s' W Hb Ha Hij Hj Hf Hf0 E HL HR HC; [lia|].
    cbn [part_loop] in E. unfold sbind at 1 in E.
    destruct (scan_up less (S j - i) a i j s) as [i1 s1] eqn:E1.
    apply scan_up_spec in E1; [|done|lia|lia|lia|lia].
    destruct E1 as (W1 & A1 & X1 & B1 & L1 & K1 & G1). unfold sbind at 1 in E.
    assert (forall k, get s1 k = get s k) as Gs1 by (intros; unfold get; by rewrite A1).
    destruct (scan_down less (S j - i1) a i1 j s1) as [j1 s2] eqn:E2.
    apply scan_down_spec in E2; [|done|lia|lia|lia|lia].
    destruct E2 as (W2 & A2 & X2 & B2 & L2 & K2 & G2).
    assert (forall k, get s2 k = get s k) as Gs2 by (intros; unfold get; by rewrite A2, A1).
    assert (forall a b, ext a b s s2) as X02 by (intros; eapply ext_trans; [apply X1|apply X2]).
    assert (forall k, a < k < b -> k < i1 \/ j1 < k -> cov s2 (get s2 k)) as HC2.
    { intros k Hk Hk2. rewrite Gs2. destruct (decide (k < i \/ j < k)) as [Hold|Hnew].
      - eapply cov_ext; [apply (X02 0 0)|]. by apply HC.
      - destruct (decide (k < i1)).
        + eapply cov_ext; [apply (X2 0 0)|]. exists (get s a). left. apply K1; lia.
        + exists (get s1 a). left. rewrite <- Gs1. apply K2; lia. }
    assert (forall k, i1 <= k -> k <= j1 -> (k = i1 \/ k = j1) -> cov s2 (get s2 k)) as HC3.
    { intros k Hk1 Hk2 [->| ->]; rewrite Gs2.
      - eapply cov_ext; [apply (X2 0 0)|]. exists (get s a). left. apply K1; lia.
      - exists (get s1 a). left. rewrite <- Gs1. apply K2; lia. }
    destruct (j1 <? i1) eqn:Eji.
    - apply Nat.ltb_lt in Eji. apply pair_equal_spec in E as [<- <-].
      split; [apply X02|]. split; [apply Gs2|]. split; [lia|]. split; [|split].
      + intros k Hk. rewrite !Gs2. destruct (decide (k < i)); [apply HL; lia|]. apply L1; lia.
      + intros k Hk. rewrite !Gs2. destruct (decide (j < k)); [apply HR; lia|].
        rewrite <- !Gs1. apply L2; lia.
      + intros k Hk. apply HC2; lia.
    - apply Nat.ltb_ge in Eji. unfold sbind at 1 in E. rewrite swap_eq in E by (done || lia).
      set (s3 := swp s2 i1 j1) in *.
      assert (wf s3) as W3 by (apply wf_swp; (done || lia)).
      assert (forall k, k < n -> get s3 k = if decide (k = j1) then get s i1 else if decide (k = i1) then get s j1 else get s k) as G3.
      { intros k Hk. unfold s3. rewrite get_swp by (done || lia). by rewrite !Gs2. }
      assert (get s3 a = get s a) as G3a. { rewrite G3 by lia. do 2 (destruct (decide _); [lia|]). done. }
      assert (ext (S a) b s s3) as X03.
      { eapply ext_trans; [apply X02|]. apply ext_swp; (done || lia). }
      rewrite !Gs1 in G2.
      assert (i1 <> j1) as Hne. { intros ->. rewrite G1 in G2 by lia. discriminate G2. lia. }
      assert (R (get s j1) (get s a)) as Rj by (apply less_true; [done|lia|lia|apply G2; lia]).
      assert (R (get s a) (get s i1)) as Ri by (apply less_false; [done|lia|lia|apply G1; lia]).
      apply IH in E; [|done|lia|lia|lia|lia|lia|lia| | |].
      + destruct E as (X4 & Ga & Br & HL4 & HR4 & HC4).
        split; [by eapply ext_trans|]. split; [congruence|]. done.
      + intros k Hk. rewrite G3a, G3 by lia. destruct (decide (k = j1)) as [->|]; [lia|].
        destruct (decide (k = i1)) as [->|]; [done|].
        destruct (decide (k < i)); [apply HL; lia|]. apply L1; lia.
      + intros k Hk. rewrite G3a, G3 by lia. destruct (decide (k = j1)) as [->|]; [done|].
        destruct (decide (k = i1)) as [->|]; [lia|].
        destruct (decide (j < k)); [apply HR; lia|]. rewrite <- !Gs1. apply L2; lia.
      + intros k Hk Hk2. rewrite G3 by lia. unfold cov. replace (log s3) with (log s2) by done.
        destruct (decide (k = j1)) as [->|]; [rewrite <- Gs2; apply HC3; auto; lia|].
        destruct (decide (k = i1)) as [->|]; [rewrite <- Gs2; apply HC3; auto; lia|].
        rewrite <- Gs2. apply HC2; lia.
  Qed.
  Lemma cov_arr s s' x : log s' = log s -> cov s x -> cov s' x.
  Proof. unfold cov. by intros ->. Qed.

  Lemma partition_spec a b pivot s mid al s' :
    wf s -> b <= n -> S a < b -> a <= pivot < b -> partition less a b pivot s = ((mid, al), s') ->
    ext a b s s' /\ a <= mid < b /\
    (forall k, a <= k < mid -> R (get s' k) (get s' mid)) /\
    (forall k, mid < k < b -> R (get s' mid) (get s' k)) /\
    (forall k, a <= k < b -> cov s' (get s' k)).
  Proof.
    intros W Hb Hab Hp E. unfold partition in E. unfold sbind at 1 in E.
    rewrite swap_eq in E by (done || lia). set (s0 := swp s a pivot) in *.
    assert (wf s0) as W0 by (apply wf_swp; (done || lia)).
    assert (ext a b s s0) as X0 by (apply ext_swp; (done || lia)).
    unfold sbind at 1 in E.
    destruct (scan_up less (b - S a) a (S a) (b - 1) s0) as [i1 s1] eqn:E1.
    apply scan_up_spec in E1; [|done|lia|lia|lia|lia].
    destruct E1 as (W1 & A1 & X1 & B1 & L1 & K1 & G1). unfold sbind at 1 in E.
    assert (forall k, get s1 k = get s0 k) as Gs1 by (intros; unfold get; by rewrite A1).
    destruct (scan_down less (b - i1) a i1 (b - 1) s1) as [j1 s2] eqn:E2.
    apply scan_down_spec in E2; [|done|lia|lia|lia|lia].
    destruct E2 as (W2 & A2 & X2 & B2 & L2 & K2 & G2). rewrite !Gs1 in G2.
    assert (forall k, get s2 k = get s0 k) as Gs2 by (intros; unfold get; by rewrite A2, A1).
    assert (forall a b, ext a b s0 s2) as X02 by (intros; eapply ext_trans; [apply X1|apply X2]).
    assert (cov s2 (get s0 a)) as HCa.
    { eapply cov_ext; [apply (X2 0 0)|]. exists (get s0 (S a)). right. apply K1; lia. }
    assert (forall k, a < k < b -> k <= i1 \/ j1 <= k -> cov s2 (get s0 k)) as HC2.
    { intros k Hk Hk2. destruct (decide (k <= i1)).
      - eapply cov_ext; [apply (X2 0 0)|]. exists (get s0 a). left. apply K1; lia.
      - exists (get s1 a). left. rewrite <- Gs1. apply K2; lia. }
    (* final swap *)
    assert (forall s3 j, wf s3 -> a <= j < b -> ext a b s0 s3 -> cov s3 (get s3 a) ->
      (forall k, a < k <= j -> R (get s3 k) (get s3 a)) ->
      (forall k, j < k < b -> R (get s3 a) (get s3 k)) ->
      (forall k, a < k < b -> cov s3 (get s3 k)) ->
      ext a b s (swp s3 j a) /\ a <= j < b /\
      (forall k, a <= k < j -> R (get (swp s3 j a) k) (get (swp s3 j a) j)) /\
      (forall k, j < k < b -> R (get (swp s3 j a) j) (get (swp s3 j a) k)) /\
      (forall k, a <= k < b -> cov (swp s3 j a) (get (swp s3 j a) k))) as Hfin.
    { intros s3 j W3 Hj X3 Ca HL HR HC. split; [|split; [done|]].
      { eapply ext_trans; [exact X0|]. eapply ext_trans; [exact X3|]. apply ext_swp; (done || lia). }
      assert (forall k, a <= k < b -> get (swp s3 j a) k = if decide (k = a) then get s3 j else if decide (k = j) then get s3 a else get s3 k) as G.
      { intros k Hk. rewrite get_swp by (done || lia). done. }
      split; [|split].
      - intros k Hk. rewrite !G by lia. repeat case_decide; try lia; subst; try apply HL; try lia; try apply Rrefl.
      - intros k Hk. rewrite !G by lia. repeat case_decide; try lia; subst; try apply HR; try lia; try apply Rrefl.
      - intros k Hk. apply cov_arr with s3; [done|]. rewrite G by lia.
        assert (forall k, a <= k < b -> cov s3 (get s3 k)) as HC'.
        { intros k0 Hk0. destruct (decide (k0 = a)) as [->|]; [done|]. apply HC; lia. }
        repeat case_decide; apply HC'; lia. }
    destruct (j1 <? i1) eqn:Eji.
    - apply Nat.ltb_lt in Eji. unfold sbind in E. rewrite swap_eq in E by (done || lia).
      apply pair_equal_spec in E as [E ES]. apply pair_equal_spec in E as [<- <-]. rewrite <- ES.
      apply Hfin; [done|lia|apply X02|by rewrite Gs2| | |].
      + intros k Hk. rewrite !Gs2. apply L1; lia.
      + intros k Hk. rewrite !Gs2. rewrite <- !Gs1. apply L2; lia.
      + intros k Hk. rewrite Gs2. apply HC2; lia.
    - apply Nat.ltb_ge in Eji. unfold sbind at 1 in E. rewrite swap_eq in E by (done || lia).
      set (s3 := swp s2 i1 j1) in *.
      assert (wf s3) as W3 by (apply wf_swp; (done || lia)).
      assert (forall k, k < n -> get s3 k = if decide (k = j1) then get s0 i1 else if decide (k = i1) then get s0 j1 else get s0 k) as G3.
      { intros k Hk. unfold s3. rewrite get_swp by (done || lia). by rewrite !Gs2. }
      assert (get s3 a = get s0 a) as G3a. { rewrite G3 by lia. do 2 (destruct (decide _); [lia|]). done. }
      assert (ext a b s0 s3) as X03.
      { eapply ext_trans; [apply X02|]. apply ext_swp; (done || lia). }
      assert (i1 <> j1) as Hne. { intros ->. rewrite G1 in G2 by lia. discriminate G2. lia. }
      assert (R (get s0 j1) (get s0 a)) as Rj by (apply less_true; [done|lia|lia|apply G2; lia]).
      assert (R (get s0 a) (get s0 i1)) as Ri by (apply less_false; [done|lia|lia|apply G1; lia]).
      unfold sbind at 1 in E. destruct (part_loop less (b - a) a (S i1) (j1 - 1) s3) as [j4 s4] eqn:E4.
      apply (part_loop_spec a b) in E4; [|done|lia|lia|lia|lia|lia|lia| | |].
      + destruct E4 as (X4 & Ga & Br & HL4 & HR4 & HC4).
        assert (wf s4) as W4 by by apply (ext_wf _ _ _ _ X4).
        unfold sbind in E. rewrite swap_eq in E by (done || lia).
        apply pair_equal_spec in E as [E ES]. apply pair_equal_spec in E as [<- <-]. rewrite <- ES.
        apply Hfin; try done.
        * eapply ext_trans; [exact X03|]. eapply ext_mono; [| | |exact X4]; lia.
        * eapply cov_ext; [exact X4|]. rewrite Ga, G3a. apply cov_arr with s2; done.
      + intros k Hk. rewrite G3a, G3 by lia. destruct (decide (k = j1)) as [->|]; [lia|].
        destruct (decide (k = i1)) as [->|]; [done|]. apply L1; lia.
      + intros k Hk. rewrite G3a, G3 by lia. destruct (decide (k = j1)) as [->|]; [done|].
        destruct (decide (k = i1)) as [->|]; [lia|]. rewrite <- !Gs1. apply L2; lia.
      + intros k Hk Hk2. apply cov_arr with s2; [done|]. rewrite G3 by lia.
        destruct (decide (k = j1)) as [->|]; [apply HC2; lia|].
        destruct (decide (k = i1)) as [->|]; apply HC2; lia.
  Qed.

  (** Partition into elements equal to the pivot and the rest. *)
  Lemma escan_up_spec a j : forall fuel i s r s',
    wf s -> a < n -> j < n -> i <= S j -> S j <= i + fuel ->
    escan_up less fuel a i j s = (r, s') ->
    wf s' /\ arr s' = arr s /\ (forall a b, ext a b s s') /\ i <= r <= S j /\
    (forall k, i <= k < r -> R (get s k) (get s a)) /\
    (r <= j -> less (get s a) (get s r) = true).
  Proof.
    induction fuel as [|fuel IH]; intros i s r s' W Ha Hj Hi Hf E; cbn [escan_up] in E.
    { apply pair_equal_spec in E as [<- <-]. split_and!; auto using ext_refl; intros; lia. }
    destruct (i <=? j) eqn:Ei.
    2: { apply Nat.leb_gt in Ei. apply pair_equal_spec in E as [<- <-].
         split_and!; auto using ext_refl; intros; lia. }
    apply Nat.leb_le in Ei. unfold sbind in E. rewrite cmp_eq in E by (done || lia).
    destruct (less (get s a) (get s i)) eqn:El.
    - apply pair_equal_spec in E as [<- <-]. split_and!; auto using ext_cmps, wf_cmps; intros; lia.
    - apply IH in E; [|by apply wf_cmps|lia|lia|lia|lia].
      destruct E as (W' & A' & X' & B' & L' & G'). split_and!; auto; try lia.
      + intros; eapply ext_trans; [apply ext_cmps|apply X'].
      + intros k Hk. destruct (decide (k = i)) as [->|]; [apply less_false; (done || lia)|]. apply (L' k). lia.
  Qed.
  Lemma escan_down_spec a i : forall fuel j s r s',
    wf s -> a < i -> j < n -> i <= S j -> S j <= i + fuel ->
    escan_down less fuel a i j s = (r, s') ->
    wf s' /\ arr s' = arr s /\ (forall a b, ext a b s s') /\ (i <= S r /\ r <= j) /\
    (i <= r -> less (get s a) (get s r) = false).
  Proof.
    induction fuel as [|fuel IH]; intros j s r s' W Ha Hj Hi Hf E; cbn [escan_down] in E.
    { apply pair_equal_spec in E as [<- <-]. split_and!; auto using ext_refl; intros; lia. }
    destruct (i <=? j) eqn:Ei.
    2: { apply Nat.leb_gt in Ei. apply pair_equal_spec in E as [<- <-].
         split_and!; auto using ext_refl; intros; lia. }
    apply Nat.leb_le in Ei. unfold sbind in E. rewrite cmp_eq in E by (done || lia).
    destruct (less (get s a) (get s j)) eqn:El.
    - apply IH in E; [|by apply wf_cmps|lia|lia|lia|lia].
      destruct E as (W' & A' & X' & B' & G'). split_and!; auto; try lia.
      intros; eapply ext_trans; [apply ext_cmps|apply X'].
    - apply pair_equal_spec in E as [<- <-]. split_and!; auto using ext_cmps, wf_cmps; intros; lia.
  Qed.
  Lemma epart_loop_spec a b : forall fuel i j s r s',
    wf s -> b <= n -> a < i -> i <= S j -> j < b -> S j <= i + fuel -> 0 < fuel ->
    epart_loop less fuel a i j s = (r, s') ->
    (forall k, a < k < i -> R (get s k) (get s a)) ->
    ext (S a) b s s' /\ get s' a = get s a /\ a < r <= b /\
    (forall k, a < k < r -> R (get s' k) (get s' a)).
  Proof.
    induction fuel as [|fuel IH]; intros i j s r s' W Hb Ha Hij Hj Hf Hf0 E HL; [lia|].
    cbn [epart_loop] in E. unfold sbind at 1 in E.
    destruct (escan_up less (S j - i) a i j s) as [i1 s1] eqn:E1.
    apply escan_up_spec in E1; [|done|lia|lia|lia|lia].
    destruct E1 as (W1 & A1 & X1 & B1 & L1 & G1). unfold sbind at 1 in E.
    assert (forall k, get s1 k = get s k) as Gs1 by (intros; unfold get; by rewrite A1).
    destruct (escan_down less (S j - i1) a i1 j s1) as [j1 s2] eqn:E2.
    apply escan_down_spec in E2; [|done|lia|lia|lia|lia].
    destruct E2 as (W2 & A2 & X2 & B2 & G2). rewrite !Gs1 in G2.
    assert (forall k, get s2 k = get s k) as Gs2 by (intros; unfold get; by rewrite A2, A1).
    assert (forall a b, ext a b s s2) as X02 by (intros; eapply ext_trans; [apply X1|apply X2]).
    destruct (j1 <? i1) eqn:Eji.
    - apply Nat.ltb_lt in Eji. apply pair_equal_spec in E as [<- <-].
      split; [apply X02|]. split; [apply Gs2|]. split; [lia|].
      intros k Hk. rewrite !Gs2. destruct (decide (k < i)); [apply HL; lia|]. apply L1; lia.
    - apply Nat.ltb_ge in Eji. unfold sbind at 1 in E. rewrite swap_eq in E by (done || lia).
      set (s3 := swp s2 i1 j1) in *.
      assert (wf s3) as W3 by (apply wf_swp; (done || lia)).
      assert (forall k, k < n -> get s3 k = if decide (k = j1) then get s i1 else if decide (k = i1) then get s j1 else get s k) as G3.
      { intros k Hk. unfold s3. rewrite get_swp by (done || lia). by rewrite !Gs2. }
      assert (get s3 a = get s a) as G3a. { rewrite G3 by lia. do 2 (destruct (decide _); [lia|]). done. }
      assert (ext (S a) b s s3) as X03.
      { eapply ext_trans; [apply X02|]. apply ext_swp; (done || lia). }
      assert (i1 <> j1) as Hne. { intros ->. rewrite G1 in G2 by lia. discriminate G2. lia. }
      assert (R (get s j1) (get s a)) as Rj by (apply less_false; [done|lia|lia|apply G2; lia]).
      apply IH in E; [|done|lia|lia|lia|lia|lia|lia|].
      + destruct E as (X4 & Ga & Br & HL4).
        split; [by eapply ext_trans|]. split; [congruence|]. done.
      + intros k Hk. rewrite G3a, G3 by lia. destruct (decide (k = j1)) as [->|]; [lia|].
        destruct (decide (k = i1)) as [->|]; [done|].
        destruct (decide (k < i)); [apply HL; lia|]. apply L1; lia.
  Qed.
  Lemma partition_equal_spec a b pivot s mid s' :
    wf s -> b <= n -> S a < b -> a <= pivot < b -> partition_equal less a b pivot s = (mid, s') ->
    (forall k, a <= k < b -> R (get s pivot) (get s k)) ->
    ext a b s s' /\ a < mid <= b /\
    (forall k k', a <= k < mid -> a <= k' < b -> R (get s' k) (get s' k')).
  Proof.
    intros W Hb Hab Hp E HM. unfold partition_equal in E. unfold sbind at 1 in E.
    rewrite swap_eq in E by (done || lia). set (s0 := swp s a pivot) in *.
    assert (wf s0) as W0 by (apply wf_swp; (done || lia)).
    assert (ext a b s s0) as X0 by (apply ext_swp; (done || lia)).
    apply (epart_loop_spec a b) in E; [|done|lia|lia|lia|lia|lia|lia|intros; lia].
    destruct E as (X1 & Ga & Br & HL).
    assert (ext a b s s') as X. { eapply ext_trans; [exact X0|]. eapply ext_mono; [| | |exact X1]; lia. }
    split; [done|]. split; [done|]. intros k k' Hk Hk'.
    assert (get s' a = get s pivot) as Hga.
    { rewrite Ga. unfold s0. rewrite get_swp by (done || lia). repeat case_decide; congruence. }
    assert (R (get s' a) (get s' k')) as Hak.
    { rewrite Hga. destruct (ext_in _ _ _ _ X k' Hk') as (k2 & Hk2 & E2).
      apply Rtrans with (get s k2); [by apply HM|apply E2]. }
    destruct (decide (k = a)) as [->|]; [done|]. apply Rtrans with (get s' a); [|done]. apply HL. lia.
  Qed.

  (** Partial insertion sort. *)
  Lemma pis_scan_spec b : forall fuel i s r s',
    wf s -> b <= n -> 0 < i -> i <= b -> b <= i + fuel ->
    pis_scan less fuel i b s = (r, s') ->
    wf s' /\ arr s' = arr s /\ (forall a b, ext a b s s') /\ i <= r <= b /\
    (forall k, i <= k < r -> R (get s (k - 1)) (get s k)) /\
    (r < b -> less (get s r) (get s (r - 1)) = true) /\
    (forall k, i <= k -> k <= r -> k < b -> (get s k, get s (k - 1)) ∈ log s').
  Proof.
    induction fuel as [|fuel IH]; intros i s r s' W Hb Hi0 Hi Hf E; cbn [pis_scan] in E.
    { apply pair_equal_spec in E as [<- <-]. split_and!; auto using ext_refl; intros; lia. }
    destruct (i <? b) eqn:Ei.
    2: { apply Nat.ltb_ge in Ei. apply pair_equal_spec in E as [<- <-].
         split_and!; auto using ext_refl; intros; lia. }
    apply Nat.ltb_lt in Ei. unfold sbind in E. rewrite cmp_eq in E by (done || lia).
    destruct (less (get s i) (get s (i - 1))) eqn:El.
    - apply pair_equal_spec in E as [<- <-]. split_and!; auto using ext_cmps, wf_cmps; try (intros; lia).
      intros k ???. assert (k = i) as -> by lia. left.
    - apply IH in E; [|by apply wf_cmps|lia|lia|lia|lia].
      destruct E as (W' & A' & X' & B' & L' & G' & K'). split_and!; auto; try lia.
      + intros; eapply ext_trans; [apply ext_cmps|apply X'].
      + intros k Hk. destruct (decide (k = i)) as [->|]; [apply less_false; (done || lia)|]. apply (L' k). lia.
      + intros k Hk1 Hk2 Hk3. destruct (decide (k = i)) as [->|]; [|apply K'; lia].
        destruct (ext_log _ _ _ _ (X' 0 0)) as [l Hl]. rewrite Hl. apply elem_of_app. right. left.
  Qed.
  (** Below a, shifting can only exchange equivalent elements. *)
  Lemma shift_left_below : forall j s u s',
    wf s -> j < n -> shift_left less j s = (u, s') ->
    (forall k, k < j -> R (get s k) (get s j)) ->
    (forall a b, ext a b s s') /\ (forall k, k < n -> eqv (get s' k) (get s k)) /\
    (forall k, j < k < n -> get s' k = get s k) /\
    (forall k, k <= j -> exists k', k' <= j /\ get s' k = get s k').
  Proof.
    induction j as [|j IH]; intros s u s' W Hj E HL; cbn [shift_left] in E.
    { apply pair_equal_spec in E as [_ <-]. split_and!; eauto using ext_refl, eqv_refl. }
    unfold sbind in E. rewrite cmp_eq in E by (done || lia).
    destruct (less (get s (S j)) (get s j)) eqn:El.
    2: { apply pair_equal_spec in E as [_ <-]. split_and!; eauto using ext_cmps, eqv_refl. }
    assert (wf (cmps s (S j) j)) as W1 by by apply wf_cmps.
    rewrite swap_eq in E by (done || lia).
    set (s1 := cmps s (S j) j) in *. set (s2 := swp s1 (S j) j) in *.
    assert (wf s2) as W2. { apply wf_swp; [done|lia|lia]. }
    assert (forall k, k < n -> get s2 k = if decide (k = j) then get s (S j) else if decide (k = S j) then get s j else get s k) as G2.
    { intros k Hk. unfold s2. rewrite get_swp by (done || lia). done. }
    assert (eqv (get s (S j)) (get s j)) as Heq.
    { split; [by apply less_true; (done || lia)|]. apply HL; lia. }
    assert (forall k, k < n -> eqv (get s2 k) (get s k)) as Q2.
    { intros k Hk. rewrite G2 by lia. repeat case_decide; subst; auto using eqv_refl, eqv_sym. }
    apply IH in E; [|done|lia|].
    2: { intros k Hk. rewrite !G2 by lia. repeat (case_decide; try lia). apply HL. lia. }
    destruct E as (X & Q & F & P). 
    assert (forall k, k < n -> eqv (get s' k) (get s k)) as Q3.
    { intros k Hk. eapply eqv_trans; [by apply Q|by apply Q2]. }
    split; [|split; [done|split]].
    - intros a b. pose proof (X a b) as Xab. split.
      + intros _. by apply (ext_wf _ _ _ _ Xab).
      + destruct (ext_log _ _ _ _ Xab) as [l Hl]. exists (l ++ [(get s (S j), get s j)]). rewrite Hl.
        rewrite <- app_assoc. done.
      + intros; by apply Q3.
      + intros k Hk. destruct (decide (k < n)) as [Hkn|Hkn]; [exists k; auto|].
        exists k. split; [done|]. unfold get.
        pose proof (wf_len _ W). pose proof (wf_len _ (ext_wf _ _ _ _ Xab W2)).
        rewrite !list_lookup_total_alt, !lookup_ge_None_2 by lia. apply eqv_refl.
    - intros k Hk. rewrite F, G2 by lia. repeat (case_decide; try lia). done.
    - intros k Hk. destruct (decide (k = S j)) as [->|].
      { exists j. split; [lia|]. rewrite F, G2 by lia. repeat case_decide; (done || lia). }
      destruct (P k) as (k' & Hk' & Ek); [lia|]. rewrite Ek, G2 by lia.
      destruct (decide (k' = j)); [exists (S j)|destruct (decide (k' = S j)); [exists j|exists k']];
        (split; [lia|done]).
  Qed.
  Lemma shift_left_spec a b : forall j s u s',
    wf s -> b <= n -> a <= j < b -> shift_left less j s = (u, s') ->
    low a b s -> (forall i k, a <= i -> i < k -> k < j -> R (get s i) (get s k)) ->
    ext a b s s' /\ sorted_on a (S j) s' /\ (forall k, j < k < n -> get s' k = get s k) /\
    (forall k, k <= j -> exists k', k' <= j /\ get s' k = get s k').
  Proof.
    induction j as [|j IH]; intros s u s' W Hb Hj E HL HS.
    { cbn [shift_left] in E. apply pair_equal_spec in E as [_ <-]. split_and!; eauto using ext_refl.
      intros i k ???. lia. }
    destruct (decide (a = S j)) as [->|Hane].
    { apply shift_left_below in E; [|done|lia|intros; apply HL; lia].
      destruct E as (X & Q & F & P). split_and!; auto. intros i k ???. lia. }
    cbn [shift_left] in E. unfold sbind in E. rewrite cmp_eq in E by (done || lia).
    destruct (less (get s (S j)) (get s j)) eqn:El.
    2: { apply pair_equal_spec in E as [_ <-]. split_and!; eauto using ext_cmps.
         intros i k Hi Hik Hk. rewrite !get_cmps. destruct (decide (k = S j)) as [->|].
         2: { apply HS; lia. }
         assert (R (get s j) (get s (S j))) as HR. { apply less_false; (done || lia). }
         destruct (decide (i = j)) as [->|]; [done|]. apply Rtrans with (get s j); [|done].
         apply HS; lia. }
    assert (wf (cmps s (S j) j)) as W1 by by apply wf_cmps.
    rewrite swap_eq in E by (done || lia).
    set (s1 := cmps s (S j) j) in *. set (s2 := swp s1 (S j) j) in *.
    assert (wf s2) as W2. { apply wf_swp; [done|lia|lia]. }
    assert (forall k, k < n -> get s2 k = if decide (k = j) then get s (S j) else if decide (k = S j) then get s j else get s k) as G2.
    { intros k Hk. unfold s2. rewrite get_swp by (done || lia). done. }
    assert (ext a b s s2) as X2.
    { apply ext_trans with s1; [apply ext_cmps|]. apply ext_swp; (done || lia). }
    assert (R (get s (S j)) (get s j)) as Rj by (apply less_true; (done || lia)).
    apply IH in E; [|done|lia|lia| |].
    2: { eapply low_ext; [| |exact X2|done]; lia. }
    2: { intros i k Hi Hik Hk. rewrite !G2 by lia. repeat (case_decide; try lia). apply HS; lia. }
    destruct E as (X & S2 & F & P).
    split_and!.
    - by eapply ext_trans.
    - intros i k Hi Hik Hk. destruct (decide (k = S j)) as [->|]; [|apply S2; lia].
      rewrite (F (S j)) by lia. rewrite G2 by lia. destruct (decide (S j = j)); [lia|]. destruct (decide (S j = S j)); [|lia].
      (* element i of s' is one of the first j of s2, all below get s j *)
      destruct (P i) as (i' & Hi' & Ei); [lia|]. rewrite Ei, G2 by lia.
      destruct (decide (i' = j)) as [->|]; [done|]. destruct (decide (i' = S j)); [lia|].
      destruct (decide (i' < a)); [apply HL; lia|]. apply HS; lia.
    - intros k Hk. rewrite F, G2 by lia. repeat (case_decide; try lia). done.
    - intros k Hk. destruct (decide (k = S j)) as [->|].
      { exists j. split; [lia|]. rewrite F, G2 by lia. repeat case_decide; (done || lia). }
      destruct (P k) as (k' & Hk' & Ek); [lia|]. rewrite Ek, G2 by lia.
      destruct (decide (k' = j)); [exists (S j)|destruct (decide (k' = S j)); [exists j|exists k']];
        (split; [lia|done]).
  Qed.
  Lemma shift_right_spec i b : forall fuel j s u s',
    wf s -> b <= n -> i < j -> shift_right less fuel j b s = (u, s') ->
    ext i b s s' /\ (forall k, k < i -> get s' k = get s k).
  Proof.
    induction fuel as [|fuel IH]; intros j s u s' W Hb Hj E; cbn [shift_right] in E.
    { apply pair_equal_spec in E as [_ <-]. split_and!; eauto using ext_refl. }
    destruct (j <? b) eqn:Ej.
    2: { apply pair_equal_spec in E as [_ <-]. split_and!; eauto using ext_refl. }
    apply Nat.ltb_lt in Ej. unfold sbind in E. rewrite cmp_eq in E by (done || lia).
    destruct (less (get s j) (get s (j - 1))) eqn:El.
    2: { apply pair_equal_spec in E as [_ <-]. split_and!; eauto using ext_cmps. }
    assert (wf (cmps s j (j - 1))) as W1 by by apply wf_cmps.
    rewrite swap_eq in E by (done || lia).
    set (s1 := cmps s j (j - 1)) in *. set (s2 := swp s1 j (j - 1)) in *.
    assert (wf s2) as W2. { apply wf_swp; [done|lia|lia]. }
    apply IH in E; [|done|lia|lia]. destruct E as [X F]. split.
    - apply ext_trans with s1; [apply ext_cmps|]. apply ext_trans with s2; [|done]. apply ext_swp; (done || lia).
    - intros k Hk. rewrite F by lia. unfold s2. rewrite get_swp by (done || lia).
      repeat (case_decide; try lia). done.
  Qed.
  Lemma pis_loop_spec a b : forall steps i s r s',
    wf s -> b <= n -> a < i <= b -> S a < b -> pis_loop less steps i a b s = (r, s') ->
    low a b s -> sorted_on a i s ->
    ext a b s s' /\ (r = true -> sorted_on a b s') /\
    (a = 0 -> (i = S a \/ (forall k, k < i -> cov s (get s k))) -> r = true -> forall k, k < b -> cov s' (get s' k)).
  Proof.
    induction steps as [|m IH]; intros i s r s' W Hb Hi Hab E HL HS; cbn [pis_loop] in E.
    { apply pair_equal_spec in E as [<- <-]. split_and!; auto using ext_refl; done. }
    unfold sbind at 1 in E. destruct (pis_scan less (b - i) i b s) as [i1 s1] eqn:E1.
    apply pis_scan_spec in E1; [|done|lia|lia|lia|lia].
    destruct E1 as (W1 & A1 & X1 & B1 & L1 & G1 & K1).
    assert (forall k, get s1 k = get s k) as Gs1 by (intros; unfold get; by rewrite A1).
    assert (forall m, i <= m -> m <= i1 -> sorted_on a m s) as HSm.
    { intros q Hq. induction Hq as [|q Hq IHq]; intros Hq2; [done|].
      intros x y Hx Hxy Hy. destruct (decide (y = q)) as [->|]; [|apply IHq; lia].
      assert (R (get s (q - 1)) (get s q)) as Hlast by (apply L1; lia).
      destruct (decide (x = q - 1)) as [->|]; [done|].
      apply Rtrans with (get s (q - 1)); [|done]. apply IHq; lia. }
    assert (sorted_on a i1 s1) as HS1.
    { intros x y ???. rewrite !Gs1. apply (HSm i1); lia. }
    assert (a = 0 -> (i = S a \/ (forall k, k < i -> cov s (get s k))) -> forall k, k <= i1 -> k < b -> cov s1 (get s1 k)) as HC1.
    { intros Ha0 HC k Hk1 Hk2. rewrite Gs1. destruct (decide (k < i)) as [Hki|Hki].
      - destruct HC as [->|HC].
        + assert (k = 0) as -> by lia. exists (get s (S a)). right.
          replace 0 with (S a - 1) at 1 by lia. apply K1; lia.
        + eapply cov_ext; [apply (X1 0 0)|]. by apply HC.
      - exists (get s (k - 1)). left. apply K1; lia. }
    destruct (i1 =? b) eqn:Eib.
    { apply Nat.eqb_eq in Eib as ->. apply pair_equal_spec in E as [<- <-]. split_and!; auto.
      intros ??? k Hk. apply HC1; auto; lia. }
    apply Nat.eqb_neq in Eib.
    destruct (b - a <? 50). { apply pair_equal_spec in E as [<- <-]. split_and!; auto; done. }
    unfold sbind at 1 in E. rewrite swap_eq in E by (done || lia).
    set (s2 := swp s1 i1 (i1 - 1)) in *.
    assert (wf s2) as W2 by (apply wf_swp; (done || lia)).
    assert (forall k, k < n -> get s2 k = if decide (k = i1 - 1) then get s i1 else if decide (k = i1) then get s (i1 - 1) else get s k) as G2.
    { intros k Hk. unfold s2. rewrite get_swp by (done || lia). by rewrite !Gs1. }
    assert (ext a b s s2) as X2.
    { eapply ext_trans; [apply X1|]. apply ext_swp; (done || lia). }
    assert (low a b s2) as HL2 by (eapply low_ext; [| |exact X2|done]; lia).
    unfold sbind at 1 in E.
    destruct ((if 2 <=? i1 - a then shift_left less (i1 - 1) else sret tt) s2) as [u3 s3] eqn:E3.
    assert (ext a b s2 s3 /\ sorted_on a i1 s3 /\
            (forall k, k <= i1 - 1 -> exists k', k' <= i1 - 1 /\ get s3 k = get s2 k')) as (X3 & S3 & P3).
    { destruct (2 <=? i1 - a) eqn:E2a.
      - apply Nat.leb_le in E2a. apply (shift_left_spec a b) in E3; [|done|lia|lia|done|].
        + destruct E3 as (? & Hs & ? & ?). replace (S (i1 - 1)) with i1 in Hs by lia. done.
        + intros x y Hx Hxy Hy. rewrite !G2 by lia. repeat (case_decide; try lia). apply (HSm i1); lia.
      - apply Nat.leb_gt in E2a. unfold sret in E3. apply pair_equal_spec in E3 as [_ <-].
        split_and!; eauto using ext_refl. intros x y ???. lia. }
    assert (wf s3) as W3 by by apply (ext_wf _ _ _ _ X3).
    unfold sbind at 1 in E.
    destruct ((if 2 <=? b - i1 then shift_right less (b - S i1) (S i1) b else sret tt) s3) as [u4 s4] eqn:E4.
    assert (ext i1 b s3 s4 /\ (forall k, k < i1 -> get s4 k = get s3 k)) as [X4 F4].
    { destruct (2 <=? b - i1).
      - apply (shift_right_spec i1 b) in E4; auto.
      - unfold sret in E4. apply pair_equal_spec in E4 as [_ <-]. split; auto using ext_refl. }
    assert (ext a b s s4) as X04.
    { eapply ext_trans; [exact X2|]. eapply ext_trans; [exact X3|]. eapply ext_mono; [| | |exact X4]; lia. }
    apply IH in E; [|by apply (ext_wf _ _ _ _ X04)|lia|lia|lia| |].
    - destruct E as (X5 & S5 & C5). split; [by eapply ext_trans|]. split; [done|].
      intros Ha0 HC Hr k Hk. apply C5; auto. right. intros k1 Hk1. rewrite F4 by lia.
      destruct (P3 k1) as (k2 & Hk2 & ->); [lia|].
      eapply cov_ext; [exact X4|]. eapply cov_ext; [exact X3|]. apply cov_arr with s1; [done|].
      rewrite G2 by lia. rewrite <- !Gs1. repeat case_decide; apply HC1; auto; lia.
    - eapply low_ext; [| |exact X04|done]; lia.
    - intros x y ???. rewrite !F4 by lia. apply S3; lia.
  Qed.

  (** Pivot choice, reversal and pattern breaking. *)
  Lemma order2_spec x y sw s x' y' sw' s' :
    wf s -> x < n -> y < n -> order2 less x y sw s = ((x', y', sw'), s') ->
    wf s' /\ arr s' = arr s /\ (forall a b, ext a b s s') /\ ((x' = x /\ y' = y) \/ (x' = y /\ y' = x)).
  Proof.
    intros W Hx Hy E. unfold order2, sbind in E. rewrite cmp_eq in E by (done || lia). unfold sret in E.
    destruct (less _ _); repeat apply pair_equal_spec in E as [E ?]; simplify_eq;
      split_and!; auto using wf_cmps, ext_cmps.
  Qed.
  Lemma median_spec x y z sw s r sw' s' :
    wf s -> x < n -> y < n -> z < n -> median less x y z sw s = ((r, sw'), s') ->
    wf s' /\ arr s' = arr s /\ (forall a b, ext a b s s') /\ (r = x \/ r = y \/ r = z).
  Proof.
    intros W Hx Hy Hz E. unfold median in E. unfold sbind at 1 in E.
    destruct (order2 less x y sw s) as [[[x1 y1] sw1] s1] eqn:E1.
    apply order2_spec in E1 as (W1 & A1 & X1 & Q1); [|done..]. unfold sbind at 1 in E.
    destruct (order2 less y1 z sw1 s1) as [[[y2 z2] sw2] s2] eqn:E2.
    apply order2_spec in E2 as (W2 & A2 & X2 & Q2); [|done|naive_solver lia..]. unfold sbind at 1 in E.
    destruct (order2 less x1 y2 sw2 s2) as [[[x3 y3] sw3] s3] eqn:E3.
    apply order2_spec in E3 as (W3 & A3 & X3 & Q3); [|done|naive_solver lia..].
    unfold sret in E. apply pair_equal_spec in E as [E <-]. apply pair_equal_spec in E as [<- <-].
    split; [done|]. split; [congruence|]. split; [|naive_solver].
    intros a b. eapply ext_trans; [apply X1|]. eapply ext_trans; [apply X2|apply X3].
  Qed.
  Lemma choose_pivot_spec a b s p h s' :
    wf s -> b <= n -> a + 12 < b -> choose_pivot less a b s = ((p, h), s') ->
    wf s' /\ arr s' = arr s /\ (forall a b, ext a b s s') /\ a <= p < b.
  Proof.
    intros W Hb Hab E. unfold choose_pivot in E. cbv zeta in E.
    pose proof (Nat.div_mod (b - a) 4) as Hq. pose proof (Nat.mod_upper_bound (b - a) 4) as Hq2.
    set (q := (b - a) / 4) in *. assert (3 <= q) as Hq3 by lia.
    unfold sbind at 1 in E.
    match type of E with (let '(_, _) := ?m s in _) = _ => destruct (m s) as [[j sw] s1] eqn:E1 end.
    unfold sret in E. apply pair_equal_spec in E as [E <-]. apply pair_equal_spec in E as [<- _].
    destruct (8 <=? b - a) eqn:E8. 2: { apply Nat.leb_gt in E8. lia. }
    destruct (50 <=? b - a).
    - unfold median_adjacent in E1. unfold sbind at 1 in E1.
      destruct (median less _ _ _ 0 s) as [[i1 sw1] s2] eqn:M1.
      apply median_spec in M1 as (W2 & A2 & X2 & Q2); [|done|lia..]. unfold sbind at 1 in E1.
      destruct (median less _ _ _ sw1 s2) as [[j1 sw2] s3] eqn:M2.
      apply median_spec in M2 as (W3 & A3 & X3 & Q3); [|done|lia..]. unfold sbind at 1 in E1.
      destruct (median less _ _ _ sw2 s3) as [[k1 sw3] s4] eqn:M3.
      apply median_spec in M3 as (W4 & A4 & X4 & Q4); [|done|lia..].
      apply median_spec in E1 as (W5 & A5 & X5 & Q5); [|done|lia..].
      split; [done|]. split; [congruence|]. split; [|lia].
      intros a' b'. eapply ext_trans; [apply X2|]. eapply ext_trans; [apply X3|].
      eapply ext_trans; [apply X4|apply X5].
    - apply median_spec in E1 as (W5 & A5 & X5 & Q5); [|done|lia..]. split_and!; auto; lia.
  Qed.
  Lemma reverse_loop_spec a b : forall fuel i j s u s',
    wf s -> b <= n -> a <= i -> j < b -> reverse_loop fuel i j s = (u, s') -> ext a b s s'.
  Proof.
    induction fuel as [|fuel IH]; intros i j s u s' W Hb Hi Hj E; cbn [reverse_loop] in E.
    { apply pair_equal_spec in E as [_ <-]. apply ext_refl. }
    destruct (i <? j) eqn:Ei. 2: { apply pair_equal_spec in E as [_ <-]. apply ext_refl. }
    apply Nat.ltb_lt in Ei. unfold sbind in E. rewrite swap_eq in E by (done || lia).
    apply IH in E; [|apply wf_swp; (done || lia)|lia|lia|lia].
    eapply ext_trans; [|exact E]. apply ext_swp; (done || lia).
  Qed.
  Lemma break_patterns_spec a b s u s' :
    wf s -> b <= n -> break_patterns rnd a b s = (u, s') -> ext a b s s'.
  Proof.
    intros W Hb E. unfold break_patterns in E. cbv zeta in E.
    destruct (8 <=? b - a) eqn:E8. 2: { apply pair_equal_spec in E as [_ <-]. apply ext_refl. }
    apply Nat.leb_le in E8.
    pose proof (Nat.div_mod (b - a) 4) as Hq. pose proof (Nat.mod_upper_bound (b - a) 4) as Hq2.
    set (q := (b - a) / 4) in *.
    assert (forall m i s u s', wf s -> i + m = 3 -> break_loop rnd m i (a + q * 2 - 1) a (b - a) s = (u, s') -> ext a b s s') as H.
    { clear s u s' W E. induction m as [|m IH]; intros i s u s' W Hi E; cbn [break_loop] in E.
      { apply pair_equal_spec in E as [_ <-]. apply ext_refl. }
      pose proof (Hrnd (b - a) i ltac:(lia)) as Hr.
      unfold sbind in E. rewrite swap_eq in E by (done || lia).
      apply IH in E; [|apply wf_swp; (done || lia)|lia].
      eapply ext_trans; [|exact E]. apply ext_swp; (done || lia). }
    eapply H; [done| |exact E]. done.
  Qed.

  Theorem pdqsort_spec : forall fuel a b limit wb wp s u s',
    wf s -> b <= n -> a <= b -> b - a < fuel -> pdqsort less rnd fuel a b limit wb wp s = (u, s') ->
    low a b s ->
    ext a b s s' /\ sorted_on a b s' /\
    (a = 0 -> b = n -> 2 <= b -> limit <> 0 -> forall k, k < b -> cov s' (get s' k)).
  Proof.
    induction fuel as [|fuel IH]; intros a b limit wb wp s u s' W Hb Hab Hf E HL; [lia|].
    cbn [pdqsort] in E. cbv zeta in E.
    destruct (b - a <=? 12) eqn:E12.
    { apply insertion_sort_spec in E; [|done|lia|lia]. destruct E as (X & S' & C). split_and!; auto.
      intros -> _ Hb2 _ k Hk. apply C; lia. }
    apply Nat.leb_gt in E12.
    destruct (limit =? 0) eqn:El.
    { apply Nat.eqb_eq in El. apply heap_sort_spec in E; [|done|lia|lia]. destruct E as (X & S').
      split_and!; auto. done. }
    apply Nat.eqb_neq in El.
    unfold sbind at 1 in E.
    match type of E with (let '(_, _) := ?m s in _) = _ => destruct (m s) as [lim s1] eqn:E1 end.
    assert (ext a b s s1) as X1.
    { destruct wb.
      - unfold sret in E1. apply pair_equal_spec in E1 as [_ <-]. apply ext_refl.
      - unfold sbind in E1. destruct (break_patterns rnd a b s) as [u0 s0] eqn:E0.
        unfold sret in E1. apply pair_equal_spec in E1 as [_ <-]. by eapply break_patterns_spec. }
    assert (wf s1) as W1 by by apply (ext_wf _ _ _ _ X1).
    unfold sbind at 1 in E. destruct (choose_pivot less a b s1) as [[p0 h0] s2] eqn:E2.
    apply choose_pivot_spec in E2; [|done|lia|lia]. destruct E2 as (W2 & A2 & X2 & B2).
    unfold sbind at 1 in E.
    match type of E with (let '(_, _) := ?m s2 in _) = _ => destruct (m s2) as [[p1 h1] s3] eqn:E3 end.
    assert (ext a b s2 s3 /\ a <= p1 < b) as [X3 B3].
    { destruct h0; unfold sret in E3.
      - apply pair_equal_spec in E3 as [E3 <-]. apply pair_equal_spec in E3 as [<- <-]. split; [apply ext_refl|done].
      - apply pair_equal_spec in E3 as [E3 <-]. apply pair_equal_spec in E3 as [<- <-]. split; [apply ext_refl|done].
      - unfold sbind, reverse_range in E3. destruct (reverse_loop (b - a) a (b - 1) s2) as [u0 s0] eqn:E0.
        apply pair_equal_spec in E3 as [E3 <-]. apply pair_equal_spec in E3 as [<- <-].
        apply (reverse_loop_spec a b) in E0; [|done|lia|lia|lia]. split; [done|lia]. }
    assert (ext a b s s3) as X03.
    { eapply ext_trans; [exact X1|]. eapply ext_trans; [apply X2|exact X3]. }
    assert (wf s3) as W3 by by apply (ext_wf _ _ _ _ X03).
    assert (low a b s3) as HL3 by (eapply low_ext; [| |exact X03|done]; lia).
    unfold sbind at 1 in E.
    match type of E with (let '(_, _) := ?m s3 in _) = _ => destruct (m s3) as [fin s4] eqn:E4 end.
    assert (ext a b s3 s4 /\ (fin = true -> sorted_on a b s4) /\
            (a = 0 -> fin = true -> forall k, k < b -> cov s4 (get s4 k))) as (X4 & S4 & C4).
    { assert (partial_insertion_sort less a b s3 = (fin, s4) \/ sret false s3 = (fin, s4)) as [E5|E5].
      { destruct wb, wp, h1; auto. }
      - apply pis_loop_spec in E5; [|done|lia|lia|lia|done|intros x y ???; lia].
        destruct E5 as (X & Hs & Hc). split_and!; auto.
      - unfold sret in E5. apply pair_equal_spec in E5 as [<- <-]. split_and!; auto using ext_refl; done. }
    assert (wf s4) as W4 by by apply (ext_wf _ _ _ _ X4).
    assert (ext a b s s4) as X04 by by eapply ext_trans.
    destruct fin.
    { unfold sret in E. apply pair_equal_spec in E as [_ <-]. split_and!; auto. }
    assert (low a b s4) as HL4 by (eapply low_ext; [| |exact X04|done]; lia).
    clear X1 W1 X2 W2 A2 X3 X03 W3 HL3 X4 S4 C4 E1 E3 E4 HL.
    unfold sbind at 1 in E.
    match type of E with (let '(_, _) := ?m s4 in _) = _ => destruct (m s4) as [eq s5] eqn:E5 end.
    assert ((forall a b, ext a b s4 s5) /\ arr s5 = arr s4 /\
            (eq = true -> 0 < a /\ forall k, a <= k < b -> R (get s4 p1) (get s4 k))) as (X5 & A5 & Heq).
    { destruct (0 <? a) eqn:Ea.
      - apply Nat.ltb_lt in Ea. unfold sbind in E5. rewrite cmp_eq in E5 by (done || lia). unfold sret in E5.
        apply pair_equal_spec in E5 as [<- <-]. split; [intros; apply ext_cmps|]. split; [done|].
        destruct (less (get s4 (a - 1)) (get s4 p1)) eqn:Elp; [done|]. intros _. split; [done|]. intros k Hk.
        apply Rtrans with (get s4 (a - 1)); [apply less_false; (done || lia)|]. apply HL4; lia.
      - unfold sret in E5. apply pair_equal_spec in E5 as [<- <-]. split_and!; auto using ext_refl; done. }
    assert (wf s5) as W5 by by apply (ext_wf _ _ _ _ (X5 a b)).
    assert (forall k, get s5 k = get s4 k) as G5 by (intros; unfold get; by rewrite A5).
    assert (ext a b s s5) as X05 by (eapply ext_trans; [exact X04|apply X5]).
    assert (low a b s5) as HL5 by (eapply low_ext; [| |apply X5|done]; lia).
    clear X04 E5 HL4.
    destruct eq.
    - destruct (Heq eq_refl) as [Ha0 Hmin]. unfold sbind at 1 in E.
      destruct (partition_equal less a b p1 s5) as [mid s6] eqn:E6.
      apply partition_equal_spec in E6; [|done|lia|lia|lia|intros; rewrite !G5; by apply Hmin].
      destruct E6 as (X6 & B6 & M6).
      assert (low a b s6) as HL6 by (eapply low_ext; [| |exact X6|done]; lia).
      assert (low mid b s6) as HLm.
      { intros k k' Hk Hk'. destruct (decide (k < a)); [apply HL6; lia|apply M6; lia]. }
      apply IH in E; [|by apply (ext_wf _ _ _ _ X6)|lia|lia|lia|done].
      destruct E as (X7 & S7 & _). split_and!; [|  |lia].
      + eapply ext_trans; [exact X05|]. eapply ext_trans; [exact X6|]. eapply ext_mono; [| | |exact X7]; lia.
      + intros i j Hi Hij Hj. destruct (decide (mid <= i)) as [|Hmi]; [apply S7; lia|].
        destruct (ext_out _ _ _ _ X7 i) as [Ei _]; [lia|lia|].
        apply Rtrans with (get s6 i); [done|].
        destruct (decide (j < mid)) as [Hjm|Hjm].
        * destruct (ext_out _ _ _ _ X7 j) as [_ Ej]; [lia|lia|].
          apply Rtrans with (get s6 j); [apply M6; lia|done].
        * destruct (ext_in _ _ _ _ X7 j) as (j' & Hj' & [_ Ej]); [lia|].
          apply Rtrans with (get s6 j'); [apply M6; lia|done].
    - clear Heq. unfold sbind at 1 in E.
      destruct (partition less a b p1 s5) as [[mid al] s6] eqn:E6.
      apply partition_spec in E6; [|done|lia|lia|lia].
      destruct E6 as (X6 & B6 & L6 & R6 & C6).
      assert (wf s6) as W6 by by apply (ext_wf _ _ _ _ X6).
      assert (low a b s6) as HL6 by (eapply low_ext; [| |exact X6|done]; lia).
      (* the two recursive calls in either order *)
      assert (forall s7 s8, ext a mid s6 s7 -> sorted_on a mid s7 -> ext (S mid) b s7 s8 -> sorted_on (S mid) b s8 ->
              sorted_on a b s8) as Hcomb1.
      { intros s7 s8 X7 S7 X8 S8.
        assert (forall k, a <= k < mid -> R (get s8 k) (get s6 mid)) as HA.
        { intros k Hk. destruct (ext_out _ _ _ _ X8 k) as [E1 _]; [lia|lia|].
          destruct (ext_in _ _ _ _ X7 k) as (k' & Hk' & [E2 _]); [lia|].
          apply Rtrans with (get s7 k); [done|]. apply Rtrans with (get s6 k'); [done|]. apply L6; lia. }
        assert (forall k, mid < k < b -> R (get s6 mid) (get s8 k)) as HB.
        { intros k Hk. destruct (ext_in _ _ _ _ X8 k) as (k' & Hk' & [_ E1]); [lia|].
          destruct (ext_out _ _ _ _ X7 k') as [_ E2]; [lia|lia|].
          apply Rtrans with (get s7 k'); [|done]. apply Rtrans with (get s6 k'); [apply R6; lia|done]. }
        assert (eqv (get s8 mid) (get s6 mid)) as [HM1 HM2].
        { eapply eqv_trans; [apply (ext_out _ _ _ _ X8); lia|]. apply (ext_out _ _ _ _ X7); lia. }
        intros i j Hi Hij Hj.
        destruct (decide (j < mid)).
        { destruct (ext_out _ _ _ _ X8 i) as [E1 _]; [lia|lia|]. destruct (ext_out _ _ _ _ X8 j) as [_ E2]; [lia|lia|].
          apply Rtrans with (get s7 i); [done|]. apply Rtrans with (get s7 j); [apply S7; lia|done]. }
        destruct (decide (mid < i)). { apply S8; lia. }
        apply Rtrans with (get s6 mid).
        - destruct (decide (i = mid)) as [->|]; [done|]. apply HA; lia.
        - destruct (decide (j = mid)) as [->|]; [done|]. apply HB; lia. }
      assert (forall s7 s8, ext (S mid) b s6 s7 -> sorted_on (S mid) b s7 -> ext a mid s7 s8 -> sorted_on a mid s8 ->
              sorted_on a b s8) as Hcomb2.
      { intros s7 s8 X7 S7 X8 S8.
        assert (forall k, a <= k < mid -> R (get s8 k) (get s6 mid)) as HA.
        { intros k Hk. destruct (ext_in _ _ _ _ X8 k) as (k' & Hk' & [E1 _]); [lia|].
          destruct (ext_out _ _ _ _ X7 k') as [E2 _]; [lia|lia|].
          apply Rtrans with (get s7 k'); [done|]. apply Rtrans with (get s6 k'); [done|]. apply L6; lia. }
        assert (forall k, mid < k < b -> R (get s6 mid) (get s8 k)) as HB.
        { intros k Hk. destruct (ext_out _ _ _ _ X8 k) as [_ E1]; [lia|lia|].
          destruct (ext_in _ _ _ _ X7 k) as (k' & Hk' & [_ E2]); [lia|].
          apply Rtrans with (get s7 k); [|done]. apply Rtrans with (get s6 k'); [apply R6; lia|done]. }
        assert (eqv (get s8 mid) (get s6 mid)) as [HM1 HM2].
        { eapply eqv_trans; [apply (ext_out _ _ _ _ X8); lia|]. apply (ext_out _ _ _ _ X7); lia. }
        intros i j Hi Hij Hj.
        destruct (decide (j < mid)). { apply S8; lia. }
        destruct (decide (mid < i)).
        { destruct (ext_out _ _ _ _ X8 i) as [E1 _]; [lia|lia|]. destruct (ext_out _ _ _ _ X8 j) as [_ E2]; [lia|lia|].
          apply Rtrans with (get s7 i); [done|]. apply Rtrans with (get s7 j); [apply S7; lia|done]. }
        apply Rtrans with (get s6 mid).
        - destruct (decide (i = mid)) as [->|]; [done|]. apply HA; lia.
        - destruct (decide (j = mid)) as [->|]; [done|]. apply HB; lia. }
      assert (low a mid s6) as HLl. { intros k k' ??. apply HL6; lia. }
      assert (low (S mid) b s6) as HLr.
      { intros k k' Hk Hk'. destruct (decide (k < a)); [apply HL6; lia|].
        destruct (decide (k = mid)) as [->|]; [apply R6; lia|].
        apply Rtrans with (get s6 mid); [apply L6; lia|apply R6; lia]. }
      assert (forall s7, a = 0 -> b = n -> ext a b s6 s7 -> forall k, k < b -> cov s7 (get s7 k)) as Hcov.
      { intros s7 Ha0 Hbn X7 k Hk. eapply cov_ext; [exact X7|].
        assert (get s7 k ∈ L) as Hin by (apply get_in; [by apply (ext_wf _ _ _ _ X7)|lia]).
        destruct W6 as [P6 O6]. rewrite <- P6 in Hin. apply elem_of_list_lookup_1 in Hin as [k' Hk'].
        pose proof (lookup_lt_Some _ _ _ Hk') as Hlt'. rewrite P6 in Hlt'.
        assert (get s6 k' = get s7 k) as <-. { unfold get at 1. by apply list_lookup_total_correct. }
        apply C6; lia. }
      destruct (mid - a <? b - mid).
      + unfold sbind in E. destruct (pdqsort less rnd fuel a mid lim true true s6) as [u7 s7] eqn:E7.
        apply IH in E7; [|done|lia|lia|lia|done]. destruct E7 as (X7 & S7 & _).
        assert (low (S mid) b s7) as HLr7.
        { intros k k' Hk Hk'. destruct (ext_out _ _ _ _ X7 k') as [_ E1]; [lia|lia|].
          apply Rtrans with (get s6 k'); [|done].
          destruct (decide (a <= k < mid)) as [Hkm|Hkm].
          - destruct (ext_in _ _ _ _ X7 k Hkm) as (k2 & Hk2 & [E2 _]). apply Rtrans with (get s6 k2); [done|]. apply HLr; lia.
          - destruct (ext_out _ _ _ _ X7 k) as [E2 _]; [lia|lia|]. apply Rtrans with (get s6 k); [done|]. apply HLr; lia. }
        apply IH in E; [|by apply (ext_wf _ _ _ _ X7)|lia|lia|lia|done]. destruct E as (X8 & S8 & _).
        assert (ext a b s6 s') as X68.
        { apply ext_trans with s7; (eapply ext_mono; [| | |eassumption]; lia). }
        split_and!.
        * eapply ext_trans; [exact X05|]. by eapply ext_trans.
        * eapply Hcomb1; eauto.
        * intros. by apply Hcov.
      + unfold sbind in E. destruct (pdqsort less rnd fuel (S mid) b lim true true s6) as [u7 s7] eqn:E7.
        apply IH in E7; [|done|lia|lia|lia|done]. destruct E7 as (X7 & S7 & _).
        assert (low a mid s7) as HLr7.
        { intros k k' Hk Hk'. destruct (ext_out _ _ _ _ X7 k') as [_ E1]; [lia|lia|].
          destruct (ext_out _ _ _ _ X7 k) as [E2 _]; [lia|lia|].
          apply Rtrans with (get s6 k); [done|]. apply Rtrans with (get s6 k'); [|done]. apply HLl; lia. }
        apply IH in E; [|by apply (ext_wf _ _ _ _ X7)|lia|lia|lia|done]. destruct E as (X8 & S8 & _).
        assert (ext a b s6 s') as X68.
        { apply ext_trans with s7; (eapply ext_mono; [| | |eassumption]; lia). }
        split_and!.
        * eapply ext_trans; [exact X05|]. by eapply ext_trans.
        * eapply Hcomb2; eauto.
        * intros. by apply Hcov.
  Qed.

  (** The whole sort. *)
  Lemma sort_run_spec s' : s' = sort_run less rnd L ->
    arr s' ≡ₚ L /\ oob s' = false /\
    (forall i j x y, i < j -> arr s' !! i = Some x -> arr s' !! j = Some y -> R x y) /\
    (2 <= n -> forall x, x ∈ L -> exists y, (x, y) ∈ log s' \/ (y, x) ∈ log s').
  Proof.
    intros E. unfold sort_run in E.
    destruct (pdqsort less rnd (S n) 0 n (N.to_nat (N.size (N.of_nat n))) true true (SST L [] false)) as [u s1] eqn:E1.
    simpl in E. subst s'.
    assert (wf (SST L [] false)) as W0 by done.
    apply pdqsort_spec in E1; [|done|lia|lia|lia|intros k k' ??; lia].
    destruct E1 as (X & S1 & C1). pose proof (ext_wf _ _ _ _ X W0) as W1. pose proof (wf_len _ W1) as Hlen.
    destruct W1 as [P1 O1]. split_and!; auto.
    - intros i j x y Hij Hi Hj. pose proof (lookup_lt_Some _ _ _ Hj).
      assert (get s1 i = x) as <- by (unfold get; by apply list_lookup_total_correct).
      assert (get s1 j = y) as <- by (unfold get; by apply list_lookup_total_correct).
      apply S1; lia.
    - intros Hn x Hx. rewrite <- P1 in Hx. apply elem_of_list_lookup_1 in Hx as [k Hk].
      pose proof (lookup_lt_Some _ _ _ Hk).
      assert (get s1 k = x) as <- by (unfold get; by apply list_lookup_total_correct).
      apply C1; try lia. destruct n eqn:En; [lia|]. rewrite N.size_log2 by lia. lia.
  Qed.
End pdq.

Lemma go_rnd_lt len i : 0 < len -> go_rnd len i < len.
Proof.
  intros Hlen. unfold go_rnd. set (x := xs_iter (S i) (N.of_nat len)).
  assert (N.shiftl 1 (N.size (N.of_nat len)) - 1 = N.ones (N.size (N.of_nat len)))%N as ->.
  { rewrite N.ones_equiv, N.shiftl_1_l. lia. }
  rewrite N.land_ones.
  assert (2 ^ N.size (N.of_nat len) <= 2 * N.of_nat len)%N as Hp.
  { rewrite N.size_log2 by lia. rewrite N.pow_succ_r'. pose proof (N.log2_spec (N.of_nat len)). lia. }
  pose proof (N.mod_lt x (2 ^ N.size (N.of_nat len))) as Hm.
  assert (2 ^ N.size (N.of_nat len) <> 0)%N as Hnz by (apply N.pow_nonzero; lia).
  specialize (Hm Hnz). revert Hm. generalize (x mod 2 ^ N.size (N.of_nat len))%N. intros y Hy.
  destruct (len <=? N.to_nat y) eqn:E; [apply Nat.leb_le in E|apply Nat.leb_gt in E]; lia.
Qed.

Section gosort_facts.
  Context {A : Type} (less : A -> A -> bool).

  Lemma gosort_nil : gosort less [] = [].
  Proof. done. Qed.

  (** Whatever the comparison function, the result is a rearrangement and no index is out of
      range. *)
  Lemma gosort_perm_oob l : gosort less l ≡ₚ l /\ oob (sort_run less go_rnd l) = false.
  Proof.
    destruct l as [|x l]; [done|]. pose (Inh := populate x : Inhabited A).
    destruct (sort_run_spec less go_rnd (fun _ _ => True) (x :: l)) with (s' := sort_run less go_rnd (x :: l))
      as (H1 & H2 & _); auto using go_rnd_lt.
  Qed.
  Lemma gosort_perm l : gosort less l ≡ₚ l.
  Proof. apply gosort_perm_oob. Qed.
  Lemma gosort_length l : length (gosort less l) = length l.
  Proof. apply Permutation_length, gosort_perm. Qed.
  Lemma gosort_elem x l : x ∈ gosort less l <-> x ∈ l.
  Proof. by rewrite gosort_perm. Qed.

  (** Every element takes part in a comparison. *)
  Lemma gosort_covers l : 2 <= length l -> forall x, x ∈ l ->
    exists y, (x, y) ∈ gosort_log less l \/ (y, x) ∈ gosort_log less l.
  Proof.
    destruct l as [|x l]; [simpl; lia|]. pose (Inh := populate x : Inhabited A).
    destruct (sort_run_spec less go_rnd (fun _ _ => True) (x :: l)) with (s' := sort_run less go_rnd (x :: l))
      as (_ & _ & _ & H); auto using go_rnd_lt.
  Qed.

  Lemma StronglySorted_lookup (R : A -> A -> Prop) l :
    (forall i j x y, i < j -> l !! i = Some x -> l !! j = Some y -> R x y) -> StronglySorted R l.
  Proof.
    induction l as [|x l IH]; intros H; constructor.
    - apply IH. intros i j a b Hij Hi Hj. apply (H (S i) (S j)); auto with lia.
    - apply Forall_lookup. intros i y Hi. apply (H 0 (S i)); auto with lia.
  Qed.

  (** If [less] lies between the strict and the non-strict version of a preorder, the result is
      sorted. *)
  Lemma gosort_sorted (R : A -> A -> Prop) l :
    (forall x, R x x) -> (forall x y z, R x y -> R y z -> R x z) ->
    (forall x y, x ∈ l -> y ∈ l -> less x y = true -> R x y) ->
    (forall x y, x ∈ l -> y ∈ l -> less x y = false -> R y x) ->
    StronglySorted R (gosort less l).
  Proof.
    intros Hr Ht H1 H2. destruct l as [|x l]; [constructor|]. pose (Inh := populate x : Inhabited A).
    apply StronglySorted_lookup.
    destruct (sort_run_spec less go_rnd R (x :: l)) with (s' := sort_run less go_rnd (x :: l))
      as (_ & _ & H & _); auto using go_rnd_lt.
  Qed.
End gosort_facts.

(** Two sorted rearrangements of the same list agree if the order is antisymmetric on it. *)
Lemma sorted_unique {A} (R : A -> A -> Prop) (l1 l2 : list A) :
  (forall x y, x ∈ l1 -> y ∈ l1 -> R x y -> R y x -> x = y) -> l1 ≡ₚ l2 ->
  StronglySorted R l1 -> StronglySorted R l2 -> l1 = l2.
Proof.
  revert l2. induction l1 as [|x l1 IH]; intros l2 Ha HP H1 H2.
  - symmetry. by apply Permutation_nil.
  - destruct l2 as [|y l2]; [by apply Permutation_sym, Permutation_nil in HP|].
    apply StronglySorted_inv in H1 as [S1 F1]. apply StronglySorted_inv in H2 as [S2 F2].
    rewrite Forall_forall in F1, F2.
    assert (x = y) as ->.
    { assert (x ∈ y :: l2) as Hx by (rewrite <- HP; left).
      assert (y ∈ x :: l1) as Hy by (rewrite HP; left).
      apply elem_of_cons in Hx as [->|Hx]; [done|]. apply elem_of_cons in Hy as [->|Hy]; [done|].
      apply Ha; [left|by right|by apply F1|by apply F2]. }
    f_equal. apply IH; auto.
    + intros a b ??. apply Ha; by right.
    + by apply Permutation_cons_inv in HP.
Qed.
Lemma gosort_unique {A} (less : A -> A -> bool) (R : A -> A -> Prop) (l1 l2 : list A) :
  (forall x, R x x) -> (forall x y z, R x y -> R y z -> R x z) ->
  (forall x y, x ∈ l1 -> y ∈ l1 -> R x y -> R y x -> x = y) ->
  (forall x y, x ∈ l1 -> y ∈ l1 -> less x y = true -> R x y) ->
  (forall x y, x ∈ l1 -> y ∈ l1 -> less x y = false -> R y x) ->
  l1 ≡ₚ l2 -> gosort less l1 = gosort less l2.
Proof.
  intros Hr Ht Ha H1 H2 HP. apply (sorted_unique R).
  - intros x y. rewrite !gosort_elem. apply Ha.
  - by rewrite !gosort_perm.
  - by apply gosort_sorted.
  - apply gosort_sorted; auto; intros x y; rewrite <- HP; auto.
Qed.

(** Only elements of the list are compared. *)
Section log_in.
  Context {A : Type} (less : A -> A -> bool) (rnd : nat -> nat -> nat) (L : list A).
  Definition linv (s : @sst A) : Prop :=
    (forall x, x ∈ arr s -> x ∈ L) /\ (forall x y, (x, y) ∈ log s -> x ∈ L /\ y ∈ L).
  Definition pres {X} (m : @SM A X) : Prop := forall s, linv s -> linv (m s).2.
  Lemma pres_ret {X} (x : X) : pres (sret x).
  Proof. intros s H. done. Qed.
  Lemma pres_bind {X Y} (m : @SM A X) (k : X -> @SM A Y) : pres m -> (forall x, pres (k x)) -> pres (sbind m k).
  Proof.
    intros Hm Hk s H. unfold sbind. specialize (Hm s H). destruct (m s) as [x s1]. by apply Hk.
  Qed.
  Lemma pres_cmp i j : pres (cmp less i j).
  Proof.
    intros s [H1 H2]. unfold cmp. destruct (arr s !! i) as [x|] eqn:Ei; [|done].
    destruct (arr s !! j) as [y|] eqn:Ej; [|done]. split; simpl; [done|].
    intros a b Hab. apply elem_of_cons in Hab as [Hab|Hab]; [|auto]. simplify_eq.
    split; apply H1; eapply elem_of_list_lookup_2; eauto.
  Qed.
  Lemma pres_swap i j : pres (@swap A i j).
  Proof.
    intros s [H1 H2]. unfold swap. destruct (arr s !! i) as [x|] eqn:Ei; [|done].
    destruct (arr s !! j) as [y|] eqn:Ej; [|done]. split; simpl; [|done].
    intros a Ha. rewrite insert_swap_perm in Ha by done. auto.
  Qed.
  Local Hint Resolve pres_ret pres_cmp pres_swap : core.
  Local Ltac pt := repeat (first [apply pres_bind | apply pres_cmp | apply pres_swap | apply pres_ret
                                 | case_match | progress intros | progress auto ]).
  Lemma pres_ins_inner a j : pres (ins_inner less a j).
  Proof. induction j; cbn [ins_inner]; pt. Qed.
  Lemma pres_ins_outer a m i : pres (ins_outer less a m i).
  Proof. revert i. induction m; intros i; cbn [ins_outer]; pt. apply pres_ins_inner. Qed.
  Lemma pres_sift fuel : forall root hi first, pres (sift_down less fuel root hi first).
  Proof. induction fuel; intros; cbn [sift_down]; cbv zeta; pt. Qed.
  Lemma pres_build m hi f : pres (heap_build less m hi f).
  Proof. induction m; cbn [heap_build]; pt. apply pres_sift. Qed.
  Lemma pres_pop m f : pres (heap_pop less m f).
  Proof. induction m; cbn [heap_pop]; pt. apply pres_sift. Qed.
  Lemma pres_scan_up fuel : forall a i j, pres (scan_up less fuel a i j).
  Proof. induction fuel; intros; cbn [scan_up]; pt. Qed.
  Lemma pres_scan_down fuel : forall a i j, pres (scan_down less fuel a i j).
  Proof. induction fuel; intros; cbn [scan_down]; pt. Qed.
  Lemma pres_escan_up fuel : forall a i j, pres (escan_up less fuel a i j).
  Proof. induction fuel; intros; cbn [escan_up]; pt. Qed.
  Lemma pres_escan_down fuel : forall a i j, pres (escan_down less fuel a i j).
  Proof. induction fuel; intros; cbn [escan_down]; pt. Qed.
  Local Hint Resolve pres_scan_up pres_scan_down pres_escan_up pres_escan_down : core.
  Lemma pres_part_loop fuel : forall a i j, pres (part_loop less fuel a i j).
  Proof. induction fuel; intros; cbn [part_loop]; pt. Qed.
  Lemma pres_epart_loop fuel : forall a i j, pres (epart_loop less fuel a i j).
  Proof. induction fuel; intros; cbn [epart_loop]; pt. Qed.
  Local Hint Resolve pres_part_loop pres_epart_loop : core.
  Lemma pres_partition a b p : pres (partition less a b p).
  Proof. unfold partition. pt. Qed.
  Lemma pres_partition_equal a b p : pres (partition_equal less a b p).
  Proof. unfold partition_equal. pt. Qed.
  Lemma pres_pis_scan fuel : forall i b, pres (pis_scan less fuel i b).
  Proof. induction fuel; intros; cbn [pis_scan]; pt. Qed.
  Lemma pres_shift_left j : pres (shift_left less j).
  Proof. induction j; intros; cbn [shift_left]; pt. Qed.
  Lemma pres_shift_right fuel : forall j b, pres (shift_right less fuel j b).
  Proof. induction fuel; intros; cbn [shift_right]; pt. Qed.
  Local Hint Resolve pres_pis_scan pres_shift_left pres_shift_right : core.
  Lemma pres_pis_loop m : forall i a b, pres (pis_loop less m i a b).
  Proof. induction m; intros; cbn [pis_loop]; pt. Qed.
  Lemma pres_break_loop m : forall i idx a len, pres (@break_loop A rnd m i idx a len).
  Proof. induction m; intros; cbn [break_loop]; pt. Qed.
  Lemma pres_break a b : pres (@break_patterns A rnd a b).
  Proof. unfold break_patterns. pt; apply pres_break_loop. Qed.
  Lemma pres_order2 a b sw : pres (order2 less a b sw).
  Proof. unfold order2. pt. Qed.
  Lemma pres_median a b c sw : pres (median less a b c sw).
  Proof. unfold median. pt; apply pres_order2. Qed.
  Local Hint Resolve pres_median pres_break pres_pis_loop pres_partition pres_partition_equal : core.
  Lemma pres_choose a b : pres (choose_pivot less a b).
  Proof. unfold choose_pivot, median_adjacent. pt. Qed.
  Lemma pres_reverse fuel : forall i j, pres (@reverse_loop A fuel i j).
  Proof. induction fuel; intros; cbn [reverse_loop]; pt. Qed.
  Local Hint Resolve pres_choose pres_reverse pres_ins_outer pres_build pres_pop : core.
  Lemma pres_insertion a b : pres (insertion_sort less a b).
  Proof. apply pres_ins_outer. Qed.
  Lemma pres_heap a b : pres (heap_sort less a b).
  Proof. unfold heap_sort. cbv zeta. apply pres_bind; [apply pres_build|intros; apply pres_pop]. Qed.
  Lemma pres_reverse_range a b : pres (@reverse_range A a b).
  Proof. apply pres_reverse. Qed.
  Lemma pres_partial a b : pres (partial_insertion_sort less a b).
  Proof. apply pres_pis_loop. Qed.
  Lemma pres_pdqsort fuel : forall a b limit wb wp, pres (pdqsort less rnd fuel a b limit wb wp).
  Proof.
    induction fuel as [|fuel IH]; intros a b limit wb wp; cbn [pdqsort]; [apply pres_ret|]. cbv zeta.
    destruct (b - a <=? 12); [apply pres_insertion|]. destruct (limit =? 0); [apply pres_heap|].
    apply pres_bind.
    { destruct wb; [apply pres_ret|]. apply pres_bind; [apply pres_break|intros; apply pres_ret]. }
    intros lim. apply pres_bind; [apply pres_choose|]. intros [p h].
    apply pres_bind.
    { destruct h; try apply pres_ret. apply pres_bind; [apply pres_reverse_range|intros; apply pres_ret]. }
    intros [p' h']. apply pres_bind.
    { destruct wb, wp, h'; first [apply pres_ret|apply pres_partial]. }
    intros []; [apply pres_ret|]. apply pres_bind.
    { destruct (0 <? a); [|apply pres_ret]. apply pres_bind; [apply pres_cmp|intros; apply pres_ret]. }
    intros []; (apply pres_bind; [first [apply pres_partition_equal|apply pres_partition]|]); [intros; apply IH|].
    intros [mid al]. destruct (_ <? _); (apply pres_bind; intros; apply IH).
  Qed.
End log_in.
Lemma gosort_log_in {A} (less : A -> A -> bool) l x y :
  (x, y) ∈ gosort_log less l -> x ∈ l /\ y ∈ l.
Proof.
  unfold gosort_log, sort_run. intros H.
  pose proof (pres_pdqsort less go_rnd l (S (length l)) 0 (length l) (N.to_nat (N.size (N.of_nat (length l)))) true true
    (SST l [] false)) as HP.
  destruct HP as [_ HP]; [|by apply HP]. split; simpl; [done|]. intros a b Hab. by apply elem_of_nil in Hab.
Qed.
