(** Proofs about rounding and about reading numbers. *)
From Coq Require Import Ascii String NArith ZArith Lia.
From stdpp Require Import base gmap strings list.
From Verif Require Import ModelStr ModelSort ModelLabels ModelStore ModelNumber SpecPath SpecStore SpecNumber ProofsStr ProofsPath.

(** ** Rounding *)
Lemma half_even_near (a b : N) : (0 < b)%N ->
  (2 * Z.abs (Z.of_N a - Z.of_N (half_even a b) * Z.of_N b) <= Z.of_N b)%Z /\
  (2 * Z.abs (Z.of_N a - Z.of_N (half_even a b) * Z.of_N b) = Z.of_N b -> Z.Even (Z.of_N (half_even a b)))%Z.
Proof.
  intros Hb. unfold half_even. pose proof (N.div_mod a b ltac:(lia)) as Hd. pose proof (N.mod_lt a b ltac:(lia)) as Hm.
  set (q := (a / b)%N) in *. set (r := (a mod b)%N) in *.
  assert (Z.of_N a = Z.of_N b * Z.of_N q + Z.of_N r)%Z as Ha by lia.
  destruct (N.ltb_spec (2 * r) b); [split; [|intros Heq]; nia|].
  destruct (N.ltb_spec b (2 * r)); [split; [|intros Heq]; rewrite N2Z.inj_add; nia|].
  destruct (N.even q) eqn:Eq.
  - split; [nia|]. intros _. apply N.even_spec in Eq as [k ->]. exists (Z.of_N k). lia.
  - split; [rewrite N2Z.inj_add; nia|]. intros _. assert (N.odd q = true) as Ho by (rewrite <- N.negb_even, Eq; done). apply N.odd_spec in Ho as [k ->]. exists (Z.of_N k + 1)%Z. lia.
Qed.
Lemma grid_near (a b q y : Z) : (0 < b)%Z -> (2 * Z.abs (a - q * b) <= b)%Z ->
  (Z.abs (a - q * b) <= Z.abs (a - y * b))%Z /\
  (Z.abs (a - q * b) = Z.abs (a - y * b) -> y <> q -> (y = q + 1 \/ y = q - 1) /\ 2 * Z.abs (a - q * b) = b)%Z.
Proof.
  intros Hb H. destruct (Z.lt_trichotomy y q) as [Hlt|[->|Hlt]].
  - split; [nia|]. intros He _. assert (y = q - 1)%Z by nia. split; [by right|]. subst y. nia.
  - done.
  - split; [nia|]. intros He _. assert (y = q + 1)%Z by nia. split; [by left|]. subst y. nia.
Qed.
Lemma is_double_opp z : is_double z -> is_double (- z).
Proof. intros (m & e & H1 & H2 & ->). exists (- m)%Z, e. split; [lia|]. split; [done|]. lia. Qed.
Lemma pow2_pos e : (0 <= e -> 0 < 2 ^ e)%Z.
Proof. intros. apply Z.pow_pos_nonneg; lia. Qed.

Lemma round_pos_near (a b : N) : (0 < b)%N -> let z := Z.of_N (round_pos a b) in
  is_double z /\ forall y, is_double y ->
    (Z.abs (Z.of_N a - z * Z.of_N b) <= Z.abs (Z.of_N a - y * Z.of_N b))%Z /\
    (Z.abs (Z.of_N a - z * Z.of_N b) = Z.abs (Z.of_N a - y * Z.of_N b) -> y <> z -> (2 * (y - z) | z))%Z.
Proof.
  intros Hb z. unfold z, round_pos. set (u := (a / b)%N). set (k := (N.log2 u - 52)%N). set (K := (2 ^ Z.of_N k)%Z).
  assert (0 < K)%Z as HK by (apply pow2_pos; lia).
  assert (0 < b * 2 ^ k)%N as Hbk by (apply N.mul_pos_pos; [done|]; apply N.neq_0_lt_0, N.pow_nonzero; lia).
  destruct (half_even_near a (b * 2 ^ k) Hbk) as [Hn He]. set (q := half_even a (b * 2 ^ k)) in *.
  assert (Z.of_N (b * 2 ^ k) = Z.of_N b * K)%Z as EBK by (unfold K; by rewrite N2Z.inj_mul, N2Z.inj_pow). rewrite EBK in Hn, He.
  assert (Z.of_N (q * 2 ^ k) = Z.of_N q * K)%Z as EQK by (unfold K; by rewrite N2Z.inj_mul, N2Z.inj_pow). rewrite EQK. clear EBK EQK.
  set (A := Z.of_N a) in *. set (B := Z.of_N b) in *. set (Q := Z.of_N q) in *. assert (0 < B)%Z as HB by lia.
  assert (A < (Z.of_N u + 1) * B)%Z as HuA. { unfold A, B, u. pose proof (N.div_mod a b ltac:(lia)) as Hd. pose proof (N.mod_lt a b ltac:(lia)). nia. }
  assert (Z.of_N u * B <= A)%Z as HuA'. { unfold A, B, u. pose proof (N.div_mod a b ltac:(lia)) as Hd. nia. }
  assert (Z.of_N u < 2 ^ 53 * K)%Z as Hu.
  { destruct (N.eq_dec u 0) as [->|Hu0]; [change (Z.of_N 0) with 0%Z; lia|]. pose proof (proj2 (N.log2_spec u ltac:(lia))) as Hl.
    assert (u < 2 ^ (53 + k))%N as Hl'. { eapply N.lt_le_trans; [exact Hl|]. apply N.pow_le_mono_r; [lia|]. unfold k. lia. }
    rewrite N.pow_add_r in Hl'. apply N2Z.inj_lt in Hl'. rewrite N2Z.inj_mul, !N2Z.inj_pow in Hl'. exact Hl'. }
  assert (Q <= 2 ^ 53)%Z as HQ. { destruct (Z.le_gt_cases Q (2 ^ 53)%Z) as [|Hgt]; [done|]. exfalso.
    assert (0 < B * K)%Z as HD by (apply Z.mul_pos_pos; [done|]; unfold K; apply Z.pow_pos_nonneg; lia).
    assert (A < 2 ^ 53 * (B * K))%Z as H1.
    { eapply Z.lt_le_trans; [exact HuA|]. replace (2 ^ 53 * (B * K))%Z with (2 ^ 53 * K * B)%Z by ring. apply Z.mul_le_mono_nonneg_r; lia. }
    pose proof (Z.mul_le_mono_nonneg_r (2 ^ 53 + 1) Q (B * K) ltac:(lia) ltac:(lia)) as H2. rewrite Z.mul_add_distr_r, Z.mul_1_l in H2.
    clear - H1 H2 HD Hn. revert H1 H2 HD Hn. generalize (2 ^ 53 * (B * K))%Z, (Q * (B * K))%Z, (B * K)%Z. intros x y z. lia. }
  assert (0 <= Q)%Z as HQ0 by lia.
  split.
  { destruct (Z.eq_dec Q (2 ^ 53)%Z) as [->|Hne].
    - exists (2 ^ 52)%Z, (Z.of_N k + 1)%Z. split; [done|]. split; [lia|]. rewrite Z.pow_add_r by lia. fold K. lia.
    - exists Q, (Z.of_N k). split; [lia|]. split; [lia|]. done. }
  assert (forall y, (Z.abs (A - Q * K * B) <= Z.abs (A - y * K * B))%Z /\ (Z.abs (A - Q * K * B) = Z.abs (A - y * K * B) -> y <> Q -> (2 * (y * K - Q * K) | Q * K))%Z) as Hgrid.
  { intros y. replace (Q * K * B)%Z with (Q * (B * K))%Z by lia. replace (y * K * B)%Z with (y * (B * K))%Z by lia.
    destruct (grid_near A (B * K) Q y) as [H1 H2]; [lia|done|]. split; [done|]. intros Heq Hne. destruct (H2 Heq Hne) as [Hy Ht]. destruct (He Ht) as [h Hh]. rewrite Hh in *.
    destruct Hy as [->| ->]; [exists h|exists (- h)%Z]; lia. }
  intros y (m & e & Hm & He0 & ->). destruct (Z.le_gt_cases (Z.of_N k) e) as [Hke|Hke].
  - replace (m * 2 ^ e)%Z with (m * 2 ^ (e - Z.of_N k) * K)%Z.
    + destruct (Hgrid (m * 2 ^ (e - Z.of_N k))%Z) as [H1 H2]. split; [done|]. intros Heq Hne. apply H2; [done|]. intros Heq'. apply Hne. by rewrite Heq'.
    + unfold K. rewrite <- Z.mul_assoc, <- Z.pow_add_r by lia. do 2 f_equal. lia.
  - assert (m * 2 ^ e < 2 ^ 52 * K)%Z as Hlt.
    { assert (2 ^ e * 2 <= K)%Z as H2. { unfold K. replace (2 ^ e * 2)%Z with (2 ^ (e + 1))%Z by (rewrite Z.pow_add_r by lia; lia). apply Z.pow_le_mono_r; lia. }
      pose proof (pow2_pos e He0). assert (m * 2 ^ e < 2 ^ 53 * 2 ^ e)%Z by (apply Z.mul_lt_mono_pos_r; lia).
      assert (2 ^ 53 * 2 ^ e <= 2 ^ 52 * K)%Z; [|lia]. change (2 ^ 53)%Z with (2 ^ 52 * 2)%Z. lia. }
    assert (2 ^ 52 * K <= Z.of_N u)%Z as Hlow.
    { assert (u <> 0%N) as Hu0. { intros Hu0. unfold k in Hke. rewrite Hu0 in Hke. change (N.log2 0 - 52)%N with 0%N in Hke. lia. }
      pose proof (proj1 (N.log2_spec u ltac:(lia))) as Hl. replace (N.log2 u) with (52 + k)%N in Hl by (unfold k in *; lia). rewrite N.pow_add_r in Hl.
      apply N2Z.inj_le in Hl. rewrite N2Z.inj_mul, !N2Z.inj_pow in Hl. exact Hl. }
    destruct (Hgrid (2 ^ 52)%Z) as [H1 _].
    assert (Z.abs (A - 2 ^ 52 * K * B) < Z.abs (A - m * 2 ^ e * B))%Z as H2; [|split; lia].
    assert (2 ^ 52 * K * B <= A)%Z by nia. assert (m * 2 ^ e * B < 2 ^ 52 * K * B)%Z by (apply Z.mul_lt_mono_pos_r; lia). lia.
Qed.
Lemma nearest_pos (m : N) (x : Z) : nearest (Z.of_N m) x (Z.of_N (round_pos (m * 10 ^ Z.to_N x * 2 ^ 1074) (10 ^ Z.to_N (- x)))).
Proof.
  destruct (round_pos_near (m * 10 ^ Z.to_N x * 2 ^ 1074) (10 ^ Z.to_N (- x))) as [H1 H2]; [apply N.neq_0_lt_0, N.pow_nonzero; lia|].
  split; [exact H1|]. intros y Hy. specialize (H2 y Hy). revert H2. unfold gap.
  rewrite !N2Z.inj_mul, !N2Z.inj_pow.
  replace (Z.of_N (Z.to_N x)) with (Z.max 0 x) by lia. replace (Z.of_N (Z.to_N (- x))) with (Z.max 0 (- x)) by lia.
  change (Z.of_N 10) with 10%Z. change (Z.of_N 2) with 2%Z. change (Z.of_N 1074) with 1074%Z. done.
Qed.
Lemma gap_opp n x z : gap (- n) x (- z) = gap n x z.
Proof. unfold gap. lia. Qed.
Lemma nearest_opp n x z : nearest n x z -> nearest (- n) x (- z).
Proof.
  intros [H1 H2]. split; [by apply is_double_opp|]. intros y Hy. destruct (H2 (- y)%Z (is_double_opp y Hy)) as [H3 H4].
  rewrite gap_opp. rewrite <- (Z.opp_involutive y), gap_opp in *. rewrite !Z.opp_involutive in *. split; [done|]. intros He Hne. destruct (H4 He ltac:(lia)) as [h Hh].
  exists h. lia.
Qed.
Lemma nearest_with_sign neg m x : nearest (with_sign neg m) x
  (if neg then - Z.of_N (round_pos (m * 10 ^ Z.to_N x * 2 ^ 1074) (10 ^ Z.to_N (- x))) else Z.of_N (round_pos (m * 10 ^ Z.to_N x * 2 ^ 1074) (10 ^ Z.to_N (- x)))).
Proof. destruct neg; cbn [with_sign]; [apply nearest_opp|]; apply nearest_pos. Qed.
Lemma nearest_fun n x z z' : nearest n x z -> nearest n x z' -> z = z'.
Proof.
  intros [H1 H2] [H3 H4]. destruct (H2 z' H3) as [L1 E1]. destruct (H4 z H1) as [L2 E2]. destruct (Z.eq_dec z z') as [|Hne]; [done|]. exfalso.
  destruct (E1 ltac:(lia) ltac:(lia)) as [h1 Hh1]. destruct (E2 ltac:(lia) ltac:(lia)) as [h2 Hh2].
  assert (z' - z = 2 * (z - z') * h2 - 2 * (z' - z) * h1)%Z as E by lia. assert ((z' - z) * (1 + 2 * (h2 + h1)) = 0)%Z as E' by lia. apply Z.mul_eq_0 in E'. lia.
Qed.
(** A larger number is not rounded to a smaller one. *)
Lemma nearest_mono n1 x1 z1 n2 x2 z2 : nearest n1 x1 z1 -> nearest n2 x2 z2 ->
  (n1 * 10 ^ Z.max 0 x1 * 10 ^ Z.max 0 (- x2) <= n2 * 10 ^ Z.max 0 x2 * 10 ^ Z.max 0 (- x1))%Z -> (z1 <= z2)%Z.
Proof.
  intros [D1 N1] [D2 N2] Hle. destruct (Z.le_gt_cases z1 z2) as [|Hlt]; [done|]. exfalso.
  destruct (N1 z2 D2) as [L1 E1]. destruct (N2 z1 D1) as [L2 E2]. unfold gap in *.
  assert (0 < 10 ^ Z.max 0 (- x1))%Z as P1 by (apply Z.pow_pos_nonneg; lia). assert (0 < 10 ^ Z.max 0 (- x2))%Z as P2 by (apply Z.pow_pos_nonneg; lia).
  set (b1 := (10 ^ Z.max 0 (- x1))%Z) in *. set (b2 := (10 ^ Z.max 0 (- x2))%Z) in *.
  set (a1 := (n1 * 10 ^ Z.max 0 x1 * 2 ^ 1074)%Z) in *. set (a2 := (n2 * 10 ^ Z.max 0 x2 * 2 ^ 1074)%Z) in *.
  assert (a1 * b2 <= a2 * b1)%Z as Hle'. { unfold a1, a2. assert (0 < 2 ^ 1074)%Z by (apply pow2_pos; lia). nia. }
  clearbody b1 b2 a1 a2. clear Hle N1 N2 D1 D2.
  assert ((z1 + z2) * b1 <= 2 * a1)%Z as M1 by nia. assert (2 * a2 <= (z1 + z2) * b2)%Z as M2 by nia.
  assert ((z1 + z2) * b1 = 2 * a1)%Z as M1' by nia. assert (2 * a2 = (z1 + z2) * b2)%Z as M2' by nia.
  destruct (E1 ltac:(nia) ltac:(lia)) as [h1 Hh1]. destruct (E2 ltac:(nia) ltac:(lia)) as [h2 Hh2].
  assert ((z1 - z2) * (1 + 2 * (h2 + h1)) = 0)%Z as E' by lia. apply Z.mul_eq_0 in E'. lia.
Qed.
(** Integers of 53 bits are exact. *)
Lemma nearest_int n x i : (0 <= x)%Z -> i = (n * 10 ^ x)%Z -> (Z.abs i <= 2 ^ 53)%Z -> nearest n x (i * 2 ^ 1074).
Proof.
  intros Hx Hi Hb. assert (gap n x (i * 2 ^ 1074) = 0)%Z as Hg. { unfold gap. replace (Z.max 0 x) with x by lia. replace (Z.max 0 (- x)) with 0%Z by lia. change (10 ^ 0)%Z with 1%Z. rewrite <- Hi. lia. }
  split.
  - destruct (Z.eq_dec (Z.abs i) (2 ^ 53)%Z) as [He|Hne].
    + exists (i / 2)%Z, 1075%Z. assert (i = 2 * (i / 2))%Z as Hd. { assert (i = 2 ^ 53 \/ i = - 2 ^ 53)%Z as [-> | ->] by lia; reflexivity. } split; [lia|]. split; [lia|]. change (2 ^ 1075)%Z with (2 * 2 ^ 1074)%Z. lia.
    + exists i, 1074%Z. split; [lia|]. split; [lia|done].
  - intros y Hy. rewrite Hg. split; [unfold gap; lia|]. intros He Hne. exfalso. apply Hne. unfold gap in He. replace (Z.max 0 x) with x in He by lia. replace (Z.max 0 (- x)) with 0%Z in He by lia. change (10 ^ 0)%Z with 1%Z in He. rewrite <- Hi in He. lia.
Qed.

(** ** Reading *)
Definition fold_dec (n : N) (ds : gostr) : N := fold_left (fun n c => 10 * n + (N_of_ascii c - 48))%N ds n.
Lemma is_digit_ok c : is_digit c = true <-> (48 <= N_of_ascii c <= 57)%N.
Proof. unfold is_digit, between, code. rewrite andb_true_iff, !N.leb_le. done. Qed.
Definition no_digit (r : gostr) : Prop := match r with c :: _ => is_digit c = false | [] => True end.
Lemma read_digits_ok n k ds r : all_digits ds -> no_digit r -> read_digits n k (ds ++ r) = (fold_dec n ds, k + length ds, r).
Proof.
  intros H Hr. revert n k. induction H as [|c ds Hc H IH]; intros n k.
  - rewrite Nat.add_0_r. destruct r as [|c r]; [done|]. cbn [app read_digits]. cbn in Hr. by rewrite Hr.
  - cbn [app read_digits]. apply is_digit_ok in Hc. rewrite Hc, IH. cbn [length]. unfold fold_dec. cbn [fold_left]. f_equal. f_equal. lia.
Qed.
Lemma read_digits_inv n k s n' k' r : read_digits n k s = (n', k', r) ->
  exists ds, s = ds ++ r /\ all_digits ds /\ n' = fold_dec n ds /\ k' = k + length ds /\ no_digit r.
Proof.
  revert n k. induction s as [|c s IH]; intros n k; cbn [read_digits].
  - intros [= <- <- <-]. exists []. split; [done|]. split; [constructor|]. split; [done|]. split; [cbn; lia|done].
  - destruct (is_digit c) eqn:Ec.
    + intros (ds & -> & H & -> & -> & Hr)%IH. exists (c :: ds). split; [done|]. split; [constructor; [by apply is_digit_ok|done]|]. split; [done|]. split; [cbn; lia|done].
    + intros [= <- <- <-]. exists []. split; [done|]. split; [constructor|]. split; [done|]. split; [cbn; lia|done].
Qed.
Lemma read_exp_inv e s e' r : read_exp e s = (e', r) -> exists ds, s = ds ++ r /\ all_digits ds /\ no_digit r.
Proof.
  revert e. induction s as [|c s IH]; intros e; cbn [read_exp].
  - intros [= <- <-]. exists []. split; [done|]. by split; [constructor|].
  - destruct (is_digit c) eqn:Ec.
    + intros (ds & -> & H & Hr)%IH. exists (c :: ds). split; [done|]. split; [|done]. constructor; [by apply is_digit_ok|done].
    + intros [= <- <-]. exists []. split; [done|]. by split; [constructor|].
Qed.
Lemma fold_dec_ge n ds : (n <= fold_dec n ds)%N.
Proof. revert n. induction ds as [|c ds IH]; intros n; [done|]. unfold fold_dec in *. cbn [fold_left]. specialize (IH (10 * n + (N_of_ascii c - 48))%N). lia. Qed.
Lemma fold_dec_ge10 n c ds : (10 * n <= fold_dec n (c :: ds))%N.
Proof. unfold fold_dec. cbn [fold_left]. pose proof (fold_dec_ge (10 * n + (N_of_ascii c - 48)) ds) as H. unfold fold_dec in H. lia. Qed.
Lemma read_exp_ok e ds : all_digits ds -> (fold_dec e ds < 100000)%N -> read_exp e ds = (fold_dec e ds, []).
Proof.
  intros H. revert e. induction H as [|c ds Hc H IH]; intros e Hlt; [done|]. cbn [read_exp]. pose proof (fold_dec_ge10 e c ds) as H10. apply is_digit_ok in Hc. rewrite Hc.
  assert (e < 10000)%N as He by lia. apply N.ltb_lt in He. rewrite He. by apply IH.
Qed.
Lemma no_sign_digit c : is_digit c = true -> ch_eqb c "+"%char = false /\ ch_eqb c "-"%char = false /\ ch_eqb c "."%char = false.
Proof. intros H%is_digit_ok. split_and!; apply ch_eqb_neq; intros ->; vm_compute in H; by destruct H as [H1 H2]. Qed.
(** What may follow a sign. *)
Definition starts_number (s : gostr) : Prop := match s with c :: _ => is_digit c = true \/ c = "."%char | [] => False end.
Lemma read_sign_ok neg sg s : signed neg sg -> starts_number s -> read_sign (sg ++ s) = (neg, s).
Proof.
  destruct neg; cbn [signed].
  - intros -> _. reflexivity.
  - intros [->| ->]; [|reflexivity]. destruct s as [|c s]; [done|]. cbn [starts_number app read_sign]. intros [H| ->]; [|reflexivity].
    apply no_sign_digit in H as (-> & -> & _). done.
Qed.
Lemma read_sign_inv s neg r : read_sign s = (neg, r) -> exists sg, signed neg sg /\ s = sg ++ r.
Proof.
  destruct s as [|c s]; cbn [read_sign]; [intros [= <- <-]; exists []; split; [by left|done]|].
  destruct (ch_eqb c "+"%char) eqn:E1; [|destruct (ch_eqb c "-"%char) eqn:E2]; intros [= <- <-].
  - apply ch_eqb_eq in E1 as ->. exists (str "+"). split; [by right|done].
  - apply ch_eqb_eq in E2 as ->. exists (str "-"). done.
  - exists []. split; [by left|done].
Qed.
Lemma no_digit_e e s : e = "e"%char \/ e = "E"%char -> no_digit (e :: s).
Proof. by intros [->| ->]. Qed.
Lemma exponent_no_digit xt ex : exponent xt ex -> no_digit xt /\ forall c s, xt = c :: s -> ch_eqb c "."%char = false.
Proof. intros [[-> _]|(e & neg & sg & xs & [->| ->] & _ & _ & _ & -> & _)]; (split; [done|]); [done|..]; intros c s [= <- _]; reflexivity. Qed.
Lemma dec_fold ds : dec ds = fold_dec 0 ds.
Proof. done. Qed.
Lemma fold_dec_app n a b : fold_dec n (a ++ b) = fold_dec (fold_dec n a) b.
Proof. apply fold_left_app. Qed.
Lemma decimal_read t n x : decimal t n x -> (Z.of_nat (length t) < 10000)%Z -> (Z.abs x < 90000)%Z ->
  exists neg m, read_float t = Some (neg, m, x) /\ n = with_sign neg m.
Proof.
  intros (neg & sg & i & f & d & ex & xt & Hsg & Hi & Hf & Hne & Hd & Hex & -> & -> & ->) Hlen Hx. exists neg, (dec (i ++ f)). split; [|done].
  rewrite !app_length in Hlen. destruct (exponent_no_digit _ _ Hex) as [Hnd Hdot].
  unfold read_float. rewrite (read_sign_ok neg sg); [|done|].
  2: { destruct Hd as [[-> ->]| ->]; rewrite <- ?app_assoc; destruct i as [|c i]; [done|..]; cbn [app starts_number].
       - left. apply is_digit_ok. by inversion Hi.
       - by right.
       - left. apply is_digit_ok. by inversion Hi. }
  assert (exists k, (let '(n1, k1, s) := read_digits 0 0 (d ++ xt) in
     match s with
     | c :: s' => if ch_eqb c "."%char then let '(n2, k2, r) := read_digits n1 0 s' in (n2, k1 + k2, k2, r) else (n1, k1, 0, s)
     | [] => (n1, k1, 0, s)
     end) = (dec (i ++ f), k, length f, xt) /\ k <> 0) as (k & Hk & Hk0).
  { destruct Hd as [[-> ->]| ->].
    - rewrite read_digits_ok by done. exists (length i). rewrite app_nil_r in *. destruct xt as [|c xt]; [|rewrite (Hdot _ _ (reflexivity _))]; (split; [done|]); by destruct i.
    - rewrite <- !app_assoc. rewrite read_digits_ok by done. change (str "." ++ f ++ xt) with ("."%char :: (f ++ xt)). cbv iota beta. change (ch_eqb "." "."%char) with true. cbv iota.
      rewrite read_digits_ok by done. exists (0 + length i + (0 + length f)). split; [change (dec (i ++ f)) with (fold_dec 0 (i ++ f)); by rewrite fold_dec_app|]. destruct i, f; cbn; try lia. done. }
  destruct (read_digits 0 0 (d ++ xt)) as [[n1 k1] s1]. rewrite Hk. cbv iota beta. apply Nat.eqb_neq in Hk0. rewrite Hk0.
  destruct Hex as [[-> ->]|(e & eneg & esg & xs & He & Hesg & Hxs & Hxne & -> & ->)]; [do 3 f_equal; lia|].
  assert (ch_eqb e "e"%char || ch_eqb e "E"%char = true) as -> by (by destruct He as [->| ->]).
  rewrite (read_sign_ok eneg esg xs); [|done|by destruct xs as [|c xs]; [done|left; apply is_digit_ok; inversion Hxs]].
  assert (dec xs < 100000)%N as Hb. { assert (length f <= length d) by (destruct Hd as [[_ ->]| ->]; [cbn; lia|rewrite !app_length; lia]). destruct eneg; cbn [with_sign] in Hx; lia. }
  rewrite (read_exp_ok 0 xs Hxs) by done. destruct xs as [|c xs]; [done|]. by destruct eneg.
Qed.
Lemma read_decimal t neg m x : read_float t = Some (neg, m, x) -> exists n y, decimal t n y.
Proof.
  unfold read_float. destruct (read_sign t) as [neg0 s] eqn:Es. apply read_sign_inv in Es as (sg & Hsg & ->).
  destruct (read_digits 0 0 s) as [[n1 k1] s1] eqn:E1. apply read_digits_inv in E1 as (i & -> & Hi & -> & -> & Hn1).
  assert (exists d f s2, (d = i /\ f = [] \/ d = i ++ str "." ++ f) /\ all_digits f /\ i ++ s1 = d ++ s2 /\
     match s1 with
     | c :: s' => if ch_eqb c "."%char then let '(n2, k2, r) := read_digits (fold_dec 0 i) 0 s' in (n2, (0 + length i) + k2, k2, r) else (fold_dec 0 i, 0 + length i, 0, s1)
     | [] => (fold_dec 0 i, 0 + length i, 0, s1)
     end = (dec (i ++ f), length (i ++ f), length f, s2)) as (d & f & s2 & Hd & Hf & Hs & ->).
  { assert (exists d f s2, (d = i /\ f = [] \/ d = i ++ str "." ++ f) /\ all_digits f /\ i ++ s1 = d ++ s2 /\ (fold_dec 0 i, 0 + length i, 0, s1) = (dec (i ++ f), length (i ++ f), length f, s2)) as Hnone.
    { exists i, [], s1. split; [by left|]. split; [apply Forall_nil_2|]. split; [done|]. by rewrite !app_nil_r. }
    destruct s1 as [|c s1]; [done|]. destruct (ch_eqb c "."%char) eqn:Ec; [|done]. apply ch_eqb_eq in Ec as ->.
    destruct (read_digits (fold_dec 0 i) 0 s1) as [[n2 k2] r] eqn:E2. apply read_digits_inv in E2 as (f & -> & Hf & -> & -> & Hn2).
    exists (i ++ str "." ++ f), f, r. split; [by right|]. split; [done|]. split; [by rewrite <- !app_assoc|]. change (dec (i ++ f)) with (fold_dec 0 (i ++ f)). rewrite fold_dec_app, app_length. done. }
  destruct (length (i ++ f) =? 0) eqn:E0; [done|]. apply Nat.eqb_neq in E0. assert (i ++ f <> []) as Hne by (intros Hne; by rewrite Hne in E0).
  rewrite Hs. assert (forall ex, exponent s2 ex -> exists n y, decimal (sg ++ d ++ s2) n y) as Hfin.
  { intros ex Hex. eexists _, _. exists neg0, sg, i, f, d, ex, s2. split_and!; done. }
  destruct s2 as [|e s2]; [intros _; apply (Hfin 0%Z); by left|].
  destruct (ch_eqb e "e"%char || ch_eqb e "E"%char) eqn:Ee; [|done].
  assert (e = "e"%char \/ e = "E"%char) as He. { apply orb_true_iff in Ee as [H%ch_eqb_eq|H%ch_eqb_eq]; tauto. }
  destruct (read_sign s2) as [eneg s3] eqn:E3. apply read_sign_inv in E3 as (esg & Hesg & ->).
  destruct s3 as [|c s3]; [done|]. destruct (read_exp 0 (c :: s3)) as [e0 [|? ?]] eqn:E4; [|done]. intros _.
  apply read_exp_inv in E4 as (xs & Hxs & Hall & _). rewrite app_nil_r in Hxs. rewrite Hxs in *.
  apply (Hfin (with_sign eneg (dec xs))). right. exists e, eneg, esg, xs. split_and!; try done. by rewrite <- Hxs.
Qed.
Definition number_char (c : ascii) : Prop := is_digit c = true \/ c ∈ [".";"+";"-";"e";"E"]%char.
Lemma signed_chars neg sg : signed neg sg -> Forall number_char sg.
Proof. destruct neg; cbn [signed]; [intros ->|intros [->| ->]]; [constructor; [|constructor]|constructor|constructor; [|constructor]]; right; rewrite !elem_of_cons; tauto. Qed.
Lemma digits_chars ds : all_digits ds -> Forall number_char ds.
Proof. intros H. eapply Forall_impl; [exact H|]. intros c Hc. left. by apply is_digit_ok. Qed.
Lemma decimal_chars t n x : decimal t n x -> Forall number_char t.
Proof.
  intros (neg & sg & i & f & d & ex & xt & Hsg & Hi & Hf & Hne & Hd & Hex & -> & _ & _).
  apply Forall_app. split; [by eapply signed_chars|]. apply Forall_app. split.
  - destruct Hd as [[-> _]| ->]; [by apply digits_chars|]. apply Forall_app. split; [by apply digits_chars|]. apply Forall_app. split; [|by apply digits_chars].
    constructor; [|constructor]. right. rewrite !elem_of_cons. tauto.
  - destruct Hex as [[-> _]|(e & eneg & esg & xs & He & Hesg & Hxs & _ & -> & _)]; [constructor|]. constructor.
    + right. rewrite !elem_of_cons. destruct He as [->| ->]; tauto.
    + apply Forall_app. split; [by eapply signed_chars|by apply digits_chars].
Qed.
Lemma number_char_plain c : number_char c -> existsb (ch_eqb c) ["_"; "x"; "X"]%char = false.
Proof.
  intros H. cbn [existsb]. rewrite !orb_false_iff. split_and!; try done; apply ch_eqb_neq; intros ->;
    (destruct H as [H|H]; [discriminate H|]; rewrite !elem_of_cons, elem_of_nil in H; naive_solver).
Qed.
Lemma chars_plain t : Forall number_char t -> existsb (fun c => existsb (ch_eqb c) ["_"; "x"; "X"]%char) t = false.
Proof. induction 1 as [|c t Hc H IH]; [done|]. cbn [existsb] in *. pose proof (number_char_plain c Hc) as Hp. cbn [existsb] in Hp. by rewrite Hp, IH. Qed.
Lemma lower_number c : number_char c -> lower_ascii c <> "i"%char /\ lower_ascii c <> "n"%char.
Proof.
  intros [H|H].
  - assert (lower_ascii c = c) as ->. { unfold lower_ascii. apply is_digit_ok in H. destruct ((65 <=? code c)%N && (code c <=? 90)%N) eqn:E; [|done]. apply andb_true_iff in E as [E _]. apply N.leb_le in E. unfold code in E. lia. }
    split; intros ->; discriminate H.
  - rewrite !elem_of_cons, elem_of_nil in H. destruct H as [->|[->|[->|[->|[->|[]]]]]]; split; intros E; vm_compute in E; discriminate E.
Qed.
Lemma chars_not_special t : Forall number_char t -> read_special t = None.
Proof.
  intros H. unfold read_special. assert (forall c, c ∈ to_lower t -> c <> "i"%char /\ c <> "n"%char) as Hl.
  { intros c. unfold to_lower. rewrite elem_of_list_In, in_map_iff. intros (c0 & <- & Hin). apply lower_number. rewrite Forall_forall in H. apply H. by apply elem_of_list_In. }
  destruct (read_sign (to_lower t)) as [neg r] eqn:Er. apply read_sign_inv in Er as (sg & _ & E).
  assert (str_eqb r (str "inf") = false) as ->. { apply not_true_iff_false. intros ->%str_eqb_eq. destruct (Hl "i"%char) as [H1 _]; [|done]. rewrite E. apply elem_of_app. right. by left. }
  assert (str_eqb r (str "infinity") = false) as ->. { apply not_true_iff_false. intros ->%str_eqb_eq. destruct (Hl "i"%char) as [H1 _]; [|done]. rewrite E. apply elem_of_app. right. by left. }
  assert (str_eqb (to_lower t) (str "nan") = false) as ->; [|done]. apply not_true_iff_false. intros E'%str_eqb_eq. destruct (Hl "n"%char) as [_ H1]; [|done]. rewrite E'. by left.
Qed.
Lemma out_of_range_eq : out_of_range = (2 ^ 1024 * 2 ^ 1074)%Z.
Proof. reflexivity. Qed.
Lemma parse_decimal other t n x z : decimal t n x -> (Z.of_nat (length t) < 10000)%Z -> (Z.abs x < 90000)%Z -> nearest n x z ->
  (in_range z -> parse_float other t = Some (FFin z)) /\ (~ in_range z -> parse_float other t = None).
Proof.
  intros Hd Hl Hx Hz. pose proof (decimal_chars _ _ _ Hd) as Hc. destruct (decimal_read _ _ _ Hd Hl Hx) as (neg & m & Hr & ->).
  assert (parse_float other t = to_double neg m x) as ->. { unfold parse_float. by rewrite (chars_plain t Hc), (chars_not_special t Hc), Hr. }
  pose proof (nearest_fun _ _ _ _ Hz (nearest_with_sign neg m x)) as ->. unfold to_double, in_range. cbv zeta. rewrite out_of_range_eq.
  set (v := Z.of_N (round_pos _ _)). assert (0 <= v)%Z by lia. clearbody v.
  destruct (Z.leb_spec (2 ^ 1024 * 2 ^ 1074) v); split; intros Hr'; try done; destruct neg; lia.
Qed.
Lemma parse_some other t v : existsb (fun c => existsb (ch_eqb c) ["_"; "x"; "X"]%char) t = false -> parse_float other t = Some v ->
  (exists n x, decimal t n x) \/ infinite t \/ to_lower t = str "nan".
Proof.
  intros Hp. unfold parse_float. rewrite Hp. destruct (read_special t) as [v0|] eqn:Es.
  - intros _. right. unfold read_special in Es. destruct (read_sign (to_lower t)) as [neg r] eqn:Er. apply read_sign_inv in Er as (sg & Hsg & E).
    destruct (str_eqb r (str "inf") || str_eqb r (str "infinity")) eqn:Ei.
    + left. exists neg, sg, r. split; [done|]. split; [|done]. apply orb_true_iff in Ei as [Ei%str_eqb_eq|Ei%str_eqb_eq]; tauto.
    + destruct (str_eqb (to_lower t) (str "nan")) eqn:En; [|done]. right. by apply str_eqb_eq.
  - destruct (read_float t) as [[[neg n] x]|] eqn:Er; [|done]. intros _. left. by eapply read_decimal.
Qed.
Lemma parse_nan other t : (forall s, other s <> Some FNaN) -> parse_float other t = Some FNaN -> to_lower t = str "nan".
Proof.
  intros Ho. unfold parse_float. destruct (existsb _ t); [by intros ?%Ho|]. destruct (read_special t) as [v0|] eqn:Es.
  - intros [= ->]. unfold read_special in Es. destruct (read_sign (to_lower t)) as [neg r]. destruct (str_eqb r _ || str_eqb r _); [done|].
    destruct (str_eqb (to_lower t) (str "nan")) eqn:En; [|done]. by apply str_eqb_eq.
  - destruct (read_float t) as [[[neg n] x]|]; [|done]. unfold to_double. cbv zeta. by destruct (out_of_range <=? _)%Z.
Qed.

(** ** Texts of integers *)
Lemma itoa_decimal z : decimal (itoa z) z 0.
Proof.
  assert (forall n, all_digits (itoa_N n) /\ itoa_N n <> []) as Hd.
  { intros n. split.
    - unfold all_digits. rewrite Forall_forall. intros c Hc. unfold itoa_N in Hc. induction (N.to_uint n) as [|u IH|u IH|u IH|u IH|u IH|u IH|u IH|u IH|u IH|u IH]; cbn [uint_digits] in Hc; rewrite ?elem_of_cons, ?elem_of_nil in Hc; try done;
        destruct Hc as [->|Hc]; auto; vm_compute; split; discriminate.
    - intros H. pose proof (dec_itoa n) as Hn. rewrite H in Hn. change (dec []) with 0%N in Hn. subst n. discriminate H. }
  destruct z as [|p|p]; cbn [itoa].
  - exists false, [], (itoa_N 0), [], (itoa_N 0), 0%Z, []. split_and!; [by left|apply Hd|constructor|by rewrite app_nil_r; apply Hd|by left|by left|by rewrite app_nil_r|by rewrite app_nil_r, dec_itoa|done].
  - exists false, [], (itoa_N (N.pos p)), [], (itoa_N (N.pos p)), 0%Z, []. split_and!; [by left|apply Hd|constructor|by rewrite app_nil_r; apply Hd|by left|by left|by rewrite app_nil_r|by rewrite app_nil_r, dec_itoa|done].
  - exists true, (str "-"), (itoa_N (N.pos p)), [], (itoa_N (N.pos p)), 0%Z, []. split_and!; [done|apply Hd|constructor|by rewrite app_nil_r; apply Hd|by left|by left|by rewrite app_nil_r|by rewrite app_nil_r, dec_itoa|done].
Qed.
Lemma scientific_decimal z t : scientific z t -> exists n x, decimal t n x /\ (0 <= x < 100)%Z /\ z = (n * 10 ^ x)%Z.
Proof.
  intros (d & r & x & xs & HF & -> & Hd0 & Hr0 & Hx & Hlen & Hle & Hz). apply Forall_cons in HF as [Hd HF]. apply Forall_app in HF as [Hr Hxs].
  set (neg := bool_decide (z < 0)%Z). exists (with_sign neg (dec (d :: r))), (Z.of_nat x - Z.of_nat (length r))%Z. split; [|split].
  - exists neg, (if decide (z < 0)%Z then str "-" else []), [d], r, (d :: match r with [] => [] | _ => str "." ++ r end), (Z.of_nat x), (str "e+" ++ xs).
    split_and!; [unfold neg; destruct (decide (z < 0)%Z) as [Hn|Hn]; [by rewrite bool_decide_true|rewrite bool_decide_false by done; by left]|by constructor|done|done| | | |done|done].
    + destruct r; [by left|by right].
    + right. exists "e"%char, false, (str "+"), xs. split_and!; [by left|by right|done|by destruct xs|done|]. cbn [with_sign]. rewrite Hx. lia.
    + reflexivity.
  - assert (dec xs < 100)%N as Hb; [|lia]. destruct xs as [|c1 [|c2 [|? ?]]]; try done. apply Forall_cons in Hxs as [H1 Hxs]. apply Forall_cons in Hxs as [H2 _]. unfold dec. cbn [fold_left]. lia.
  - assert (Z.abs z = Z.of_N (dec (d :: r)) * 10 ^ (Z.of_nat x - Z.of_nat (length r)))%Z as Ha.
    { rewrite <- (Z2N.id (Z.abs z)) by lia. rewrite Hz, N2Z.inj_mul, N2Z.inj_pow. do 2 f_equal. lia. }
    unfold neg. destruct (decide (z < 0)%Z) as [Hn|Hn]; [rewrite bool_decide_true by done|rewrite bool_decide_false by done]; cbn [with_sign]; lia.
Qed.

Lemma parse_infinite other t : infinite t -> existsb (fun c => existsb (ch_eqb c) ["_"; "x"; "X"]%char) t = false -> is_Some (parse_float other t).
Proof.
  intros (neg & sg & r & Hsg & Hr & E) Hp. unfold parse_float, read_special. rewrite Hp. cbv zeta. rewrite E.
  assert (read_sign (sg ++ r) = (neg, r)) as ->. { destruct neg; cbn [signed] in Hsg; [rewrite Hsg; reflexivity|]. destruct Hsg as [->| ->]; [|reflexivity]. by destruct Hr as [->| ->]. }
  by destruct Hr as [->| ->]; eexists.
Qed.
Lemma parse_nan_some other t : to_lower t = str "nan" -> existsb (fun c => existsb (ch_eqb c) ["_"; "x"; "X"]%char) t = false -> is_Some (parse_float other t).
Proof. intros E Hp. unfold parse_float, read_special. rewrite Hp. cbv zeta. rewrite E. by eexists. Qed.
Lemma nearest_exists n x : exists z, nearest n x z.
Proof.
  pose proof (nearest_with_sign (bool_decide (n < 0)%Z) (Z.abs_N n) x) as H.
  assert (with_sign (bool_decide (n < 0)%Z) (Z.abs_N n) = n) as Hn. { destruct (decide (n < 0)%Z); [rewrite bool_decide_true by done|rewrite bool_decide_false by done]; cbn [with_sign]; lia. }
  rewrite Hn in H. by eexists.
Qed.
Lemma parse_number other t : plain_text t -> (forall n x, decimal t n x -> modest t x) -> is_Some (parse_float other t) <-> number t.
Proof.
  intros Hp Hm. assert (existsb (fun c => existsb (ch_eqb c) ["_"; "x"; "X"]%char) t = false) as Hp'.
  { apply not_true_iff_false. intros (c & Hc & Hx)%existsb_exists. apply elem_of_list_In in Hc. unfold plain_text in Hp. rewrite Forall_forall in Hp. specialize (Hp c Hc).
    apply existsb_exists in Hx as (d & Hd & ->%ch_eqb_eq). by apply elem_of_list_In in Hd. }
  split.
  - intros [v Hv]. destruct (parse_some other t v Hp' Hv) as [(n & x & Hd)|[Hi|Hn]]; [left|by right; left|by right; right].
    destruct (nearest_exists n x) as [z Hz]. exists n, x, z. split; [done|]. split; [done|]. destruct (Hm n x Hd) as [H1 H2].
    destruct (parse_decimal other t n x z Hd H1 H2 Hz) as [_ Hno]. destruct (decide (in_range z)) as [|Hr]; [done|]. rewrite (Hno Hr) in Hv. done.
  - intros [(n & x & z & Hd & Hz & Hr)|[Hi|Hn]]; [|by apply parse_infinite|by apply parse_nan_some].
    destruct (Hm n x Hd) as [H1 H2]. destruct (parse_decimal other t n x z Hd H1 H2 Hz) as [Hyes _]. rewrite (Hyes Hr). by eexists.
Qed.
