(** Lemmas for C67. *)
From Coq Require Import Ascii String NArith ZArith Lia.
From stdpp Require Import base gmap strings list.
From Verif Require Import ModelStr ProofsStr ProofsQuote ModelLabels ProofsLabels ModelPage ModelJson ModelQuery ModelCli SpecCli.

(** ** Integers *)
Definition at_b (s : gostr) (n : nat) (c : ascii) : bool := match s !! n with Some x => ch_eqb x c | None => false end.
Lemma at_b_ok s n c : at_b s n c = true -> s !! n = Some c.
Proof. unfold at_b. destruct (s !! n) as [x|]; [|done]. by intros ->%ch_eqb_eq. Qed.
Lemma digit_of c d : digit_val c = Some d -> (d < 16)%N -> str "0123456789abcdef" !! N.to_nat d = Some c \/ str "0123456789ABCDEF" !! N.to_nat d = Some c.
Proof.
  pose proof (all_bytes (fun c => match digit_val c with Some d => implb (d <? 16)%N
    (at_b (str "0123456789abcdef") (N.to_nat d) c || at_b (str "0123456789ABCDEF") (N.to_nat d) c) | None => true end)
    ltac:(vm_compute; reflexivity) c) as H. cbn beta in H. intros Hd Hlt. rewrite Hd in H. apply N.ltb_lt in Hlt. rewrite Hlt in H. cbn [implb] in H.
  apply orb_true_iff in H as [H|H]; [left|right]; by apply at_b_ok.
Qed.
Lemma digit_iff b c d : (b <= 16)%N -> digit b c d <-> digit_val c = Some d /\ (d < b)%N.
Proof.
  intros Hb. split.
  - intros [Hlt H]. split; [|done]. assert (N.to_nat d < 16) as Hn by lia. rewrite <- (N2Nat.id d). revert H Hn. generalize (N.to_nat d). intros n H Hn.
    do 16 (destruct n as [|n]; [cbn in H; destruct H as [[= <-]|[= <-]]; reflexivity|]). lia.
  - intros [Hd Hlt]. split; [done|]. apply digit_of; [done|lia].
Qed.
(** Reading on after a digit. *)
Inductive tail (b : N) : gostr -> N -> N -> Prop :=
  | t_nil n : tail b [] n n
  | t_digit c d s n m : digit b c d -> tail b s (n * b + d) m -> tail b (c :: s) n m
  | t_under c d s n m : digit b c d -> tail b s (n * b + d) m -> tail b ("_"%char :: c :: s) n m.
Lemma tail_app b s n m : tail b s n m -> forall s' m', tail b s' m m' -> tail b (s ++ s') n m'.
Proof. induction 1; intros s' m' H'; cbn [app]; [done|eapply t_digit; eauto|eapply t_under; eauto]. Qed.
Lemma numeral_tail b s n : numeral b s n <-> exists c d s', s = c :: s' /\ digit b c d /\ tail b s' d n.
Proof.
  split.
  - induction 1 as [c d Hd|s n c d Hn IH Hd|s n c d Hn IH Hd].
    + exists c, d, []. split; [done|]. split; [done|constructor].
    + destruct IH as (c0 & d0 & s' & -> & Hd0 & Ht). exists c0, d0, (s' ++ [c]). split; [done|]. split; [done|].
      eapply tail_app; [exact Ht|]. eapply t_digit; [done|constructor].
    + destruct IH as (c0 & d0 & s' & -> & Hd0 & Ht). exists c0, d0, (s' ++ ["_"%char; c]). split; [done|]. split; [done|].
      eapply tail_app; [exact Ht|]. eapply t_under; [done|constructor].
  - intros (c & d & s' & -> & Hd & Ht).
    enough (forall p x, numeral b p x -> tail b s' x n -> numeral b (p ++ s') n) as H by (apply (H [c] d); [by constructor|done]).
    clear Hd Ht. intros p x Hp Ht. revert p Hp. induction Ht as [x|c1 d1 s x m Hd1 Ht IH|c1 d1 s x m Hd1 Ht IH]; intros p Hp.
    + by rewrite app_nil_r.
    + replace (p ++ c1 :: s) with ((p ++ [c1]) ++ s) by (by rewrite <- app_assoc). apply IH. by apply num_more.
    + replace (p ++ "_"%char :: c1 :: s) with ((p ++ ["_"%char; c1]) ++ s) by (by rewrite <- app_assoc). apply IH. by apply num_under.
Qed.
Definition good_base (b : N) : Prop := b = 2%N \/ b = 8%N \/ b = 10%N \/ b = 16%N.
Definition dig (hex : bool) (c : ascii) : bool :=
  ((48 <=? code c) && (code c <=? 57) || (hex && (97 <=? lower_code c) && (lower_code c <=? 102)))%N.
Lemma digit_dig b c d : good_base b -> digit_val c = Some d -> (d < b)%N -> dig (b =? 16)%N c = true /\ ch_eqb c "_" = false.
Proof.
  intros Hb Hd Hlt.
  pose proof (all_bytes (fun c => match digit_val c with Some d => implb (d <? 16)%N (dig true c && negb (ch_eqb c "_")) && implb (d <? 10)%N (dig false c) | None => true end)
    ltac:(vm_compute; reflexivity) c) as H. cbn beta in H. rewrite Hd in H. apply andb_true_iff in H as [H1 H2].
  assert (d <? 16 = true)%N as E by (apply N.ltb_lt; destruct Hb as [->|[->|[->| ->]]]; lia). rewrite E in H1. cbn [implb] in H1. apply andb_true_iff in H1 as [H1 H3%negb_true_iff].
  split; [|done]. destruct Hb as [->|[->|[->| ->]]]; [| | |exact H1]; (rewrite (proj2 (N.ltb_lt d 10)) in H2 by lia; exact H2).
Qed.
Lemma under_digit hex c s w : dig hex c = true -> under_loop hex (c :: s) w = under_loop hex s SawDigit.
Proof. intros H. cbn [under_loop]. unfold dig in H. by rewrite H. Qed.
Lemma under_no_dig hex : dig hex "_" = false.
Proof. by destruct hex. Qed.
Lemma under_under hex s w : under_loop hex ("_"%char :: s) w = match w with SawDigit => under_loop hex s SawUnder | _ => false end.
Proof. cbn [under_loop]. change ((48 <=? code "_") && (code "_" <=? 57) || hex && (97 <=? lower_code "_") && (lower_code "_" <=? 102))%N with (dig hex "_"). by rewrite under_no_dig. Qed.
Lemma loop_digit b c d s n : digit_val c = Some d -> (d < b)%N -> ch_eqb c "_" = false -> uint_loop b (c :: s) n = uint_loop b s (n * b + d)%N.
Proof. intros Hd Hlt Hc. cbn [uint_loop]. by rewrite Hc, Hd, (proj2 (N.ltb_lt d b) Hlt). Qed.
Lemma good_le b : good_base b -> (b <= 16)%N.
Proof. intros [->|[->|[->| ->]]]; lia. Qed.
Lemma tail_loop b s n m : good_base b -> tail b s n m <-> uint_loop b s n = Some m /\ under_loop (b =? 16)%N s SawDigit = true.
Proof.
  intros Hb. pose proof (good_le b Hb) as Hle. split.
  - induction 1 as [n|c d s n m Hd Ht [IH1 IH2]|c d s n m Hd Ht [IH1 IH2]]; [done|..]; apply digit_iff in Hd as [Hd Hlt]; [|done| |done].
    all: destruct (digit_dig b c d Hb Hd Hlt) as [Hg Hc].
    + rewrite (loop_digit b c d) by done. by rewrite under_digit.
    + rewrite under_under. cbn [uint_loop]. change (ch_eqb "_" "_") with true. cbv iota. change (uint_loop b (c :: s) n = Some m /\ under_loop (b =? 16)%N (c :: s) SawUnder = true).
      rewrite (loop_digit b c d) by done. by rewrite under_digit.
  - remember (length s) as k eqn:Hk. revert s n Hk. induction (lt_wf k) as [k _ IH]. intros s n -> [H1 H2].
    assert (forall c d s' n', length (c :: s') <= length s -> digit_val c = Some d -> (d < b)%N -> uint_loop b s' (n' * b + d)%N = Some m -> under_loop (b =? 16)%N s' SawDigit = true ->
      digit b c d /\ tail b s' (n' * b + d) m) as Hstep.
    { intros c d s' n' Hlen Hd Hlt Hl Hu. split; [by apply digit_iff|]. eapply IH; [|done|done]. cbn [length] in Hlen. lia. }
    assert (forall c s' n' w, uint_loop b (c :: s') n' = Some m -> ch_eqb c "_" = false -> under_loop (b =? 16)%N (c :: s') w = true -> length (c :: s') <= length s ->
      exists d, digit b c d /\ tail b s' (n' * b + d) m) as Hstep'.
    { intros c s' n' w Hl Hc Hu Hlen. cbn [uint_loop] in Hl. rewrite Hc in Hl. destruct (digit_val c) as [d|] eqn:Hd; [|done]. destruct (d <? b)%N eqn:Hlt; [|done]. apply N.ltb_lt in Hlt.
      destruct (digit_dig b c d Hb Hd Hlt) as [Hg _]. rewrite under_digit in Hu by done. exists d. by apply Hstep. }
    destruct s as [|c s]; [injection H1 as <-; constructor|]. destruct (ch_eqb c "_") eqn:Hc.
    + apply ch_eqb_eq in Hc as ->. rewrite under_under in H2. cbn [uint_loop] in H1. change (ch_eqb "_" "_") with true in H1. cbv iota in H1.
      destruct s as [|c s]; [done|]. destruct (ch_eqb c "_") eqn:Hc.
      { apply ch_eqb_eq in Hc as ->. by rewrite under_under in H2. }
      destruct (Hstep' c s n SawUnder) as (d & Hd & Ht); [exact H1|done|done|cbn; lia|]. by eapply t_under.
    + destruct (Hstep' c s n SawDigit) as (d & Hd & Ht); [exact H1|done|done|cbn; lia|]. by eapply t_digit.
Qed.
(** Without underscores the second test is vacuous. *)
Lemma no_under b s n m w : good_base b -> uint_loop b s n = Some m -> existsb (ch_eqb "_") s = false -> w <> SawUnder -> under_loop (b =? 16)%N s w = true.
Proof.
  intros Hb. revert n w. induction s as [|c s IH]; intros n w Hl He Hw; [by destruct w|]. cbn [existsb] in He. apply orb_false_iff in He as [Hc He].
  assert (ch_eqb c "_" = false) as Hc'. { apply ch_eqb_neq. apply ch_eqb_neq in Hc. congruence. }
  cbn [uint_loop] in Hl. rewrite Hc' in Hl. destruct (digit_val c) as [d|] eqn:Hd; [|done]. destruct (d <? b)%N eqn:Hlt; [|done]. apply N.ltb_lt in Hlt.
  destruct (digit_dig b c d Hb Hd Hlt) as [Hg _]. rewrite under_digit by done. by eapply IH.
Qed.
Lemma letter_code x : (lower_code x = 98%N <-> base_letter x 2) /\ (lower_code x = 111%N <-> base_letter x 8) /\ (lower_code x = 120%N <-> base_letter x 16).
Proof.
  assert (forall (f : ascii -> bool) P, (forall c, f c = true) -> (forall c, f c = true -> P c) -> P x) as Hall by (intros f P H1 H2; apply H2, H1).
  split; [|split].
  - split; [|inversion 1; reflexivity]. intros H. pose proof (all_bytes (fun c => implb (lower_code c =? 98)%N (ch_eqb c "b" || ch_eqb c "B")) ltac:(vm_compute; reflexivity) x) as Hb. cbn beta in Hb.
    rewrite H in Hb. cbn in Hb. apply orb_true_iff in Hb as [->%ch_eqb_eq| ->%ch_eqb_eq]; constructor.
  - split; [|inversion 1; reflexivity]. intros H. pose proof (all_bytes (fun c => implb (lower_code c =? 111)%N (ch_eqb c "o" || ch_eqb c "O")) ltac:(vm_compute; reflexivity) x) as Hb. cbn beta in Hb.
    rewrite H in Hb. cbn in Hb. apply orb_true_iff in Hb as [->%ch_eqb_eq| ->%ch_eqb_eq]; constructor.
  - split; [|inversion 1; reflexivity]. intros H. pose proof (all_bytes (fun c => implb (lower_code c =? 120)%N (ch_eqb c "x" || ch_eqb c "X")) ltac:(vm_compute; reflexivity) x) as Hb. cbn beta in Hb.
    rewrite H in Hb. cbn in Hb. apply orb_true_iff in Hb as [->%ch_eqb_eq| ->%ch_eqb_eq]; constructor.
Qed.
Lemma letter_cases x : (exists b, base_letter x b /\ good_base b /\ lower_code x = (if decide (b = 2%N) then 98 else if decide (b = 8%N) then 111 else 120)%N) \/
  (lower_code x <> 98%N /\ lower_code x <> 111%N /\ lower_code x <> 120%N /\ forall b, ~ base_letter x b).
Proof.
  destruct (letter_code x) as (H1 & H2 & H3).
  destruct (decide (lower_code x = 98%N)) as [E|N1]; [left; exists 2%N; split; [by apply H1|]; split; [by left|done]|].
  destruct (decide (lower_code x = 111%N)) as [E|N2]; [left; exists 8%N; split; [by apply H2|]; split; [by right; left|done]|].
  destruct (decide (lower_code x = 120%N)) as [E|N3]; [left; exists 16%N; split; [by apply H3|]; split; [by right; right; right|done]|].
  right. split; [done|]. split; [done|]. split; [done|]. intros b Hb. inversion Hb; subst; first [by apply N1|by apply N2|by apply N3].
Qed.
Lemma letter_fun x b b' : base_letter x b -> base_letter x b' -> b = b'.
Proof. inversion 1; inversion 1; subst; congruence. Qed.
Lemma letter_base x b c t : base_letter x b -> base_of ("0"%char :: x :: c :: t) = (b, c :: t) /\ underscore_ok ("0"%char :: x :: c :: t) = under_loop (b =? 16)%N (c :: t) SawDigit.
Proof. destruct 1; split; reflexivity. Qed.
(** What ParseUint accepts, with the two tests made one. *)
Lemma parse_uint_both s n : parse_uint s = Some n <-> s <> [] /\ uint_loop (base_of s).1 (base_of s).2 0 = Some n /\ (existsb (ch_eqb "_") (base_of s).2 = true -> underscore_ok s = true).
Proof.
  unfold parse_uint. destruct s as [|c s]; [split; [done|intros []; done]|]. destruct (base_of (c :: s)) as [b t]. cbn [fst snd].
  destruct (uint_loop b t 0) as [m|]; [|split; [done|by intros (_ & ? & _)]]. destruct (existsb (ch_eqb "_") t) eqn:He; cbn [andb].
  - destruct (underscore_ok (c :: s)); cbn [negb]; split; [by intros [= ->]|by intros (_ & [= ->] & _)|done|]. intros (_ & _ & H). by specialize (H eq_refl).
  - split; [by intros [= ->]|by intros (_ & [= ->] & _)].
Qed.
Lemma first_digit c b s n m : c <> "_"%char -> uint_loop b (c :: s) n = Some m -> exists d, digit_val c = Some d /\ (d < b)%N.
Proof.
  intros Hc. cbn [uint_loop]. apply ch_eqb_neq in Hc. rewrite Hc. destruct (digit_val c) as [d|]; [|done]. destruct (d <? b)%N eqn:Hlt; [|done].
  intros _. exists d. split; [done|]. by apply N.ltb_lt.
Qed.
Lemma strip_digit c d s : digit_val c = Some d -> (strip_sign (c :: s)) = (false, c :: s).
Proof.
  intros H. cbn [strip_sign]. destruct (ch_eqb c "+") eqn:E1; [apply ch_eqb_eq in E1; subst; done|]. destruct (ch_eqb c "-") eqn:E2; [apply ch_eqb_eq in E2; subst; done|done].
Qed.
(** A number that starts with a digit other than 0, or with an underscore. *)
Lemma dec_ok c s : c <> "0"%char -> ch_eqb c "_" = true \/ (exists d, digit_val c = Some d) -> base_of (c :: s) = (10%N, c :: s) /\ underscore_ok (c :: s) = under_loop false (c :: s) SawStart.
Proof.
  intros H0 Hc. apply ch_eqb_neq in H0. split; [unfold base_of; by rewrite H0|]. unfold underscore_ok.
  assert ((strip_sign (c :: s)).2 = c :: s) as ->.
  { destruct Hc as [->%ch_eqb_eq|[d Hd]]; [done|]. by rewrite (strip_digit _ _ _ Hd). }
  destruct s as [|x s]; [done|]. by rewrite H0.
Qed.
Lemma under_start hex c s : dig hex c = true -> under_loop hex (c :: s) SawStart = under_loop hex s SawDigit.
Proof. apply under_digit. Qed.
Lemma parse_uint_decimal c s n : c <> "0"%char -> parse_uint (c :: s) = Some n <-> numeral 10 (c :: s) n.
Proof.
  intros H0. assert (good_base 10) as Hg by (by right; right; left). rewrite parse_uint_both, numeral_tail. split.
  - intros (_ & Hl & Hu). assert (base_of (c :: s) = (10%N, c :: s)) as Hb by (unfold base_of; apply ch_eqb_neq in H0; by rewrite H0). rewrite Hb in Hl, Hu. cbn [fst snd] in Hl, Hu.
    destruct (decide (c = "_"%char)) as [->|Hc].
    { exfalso. destruct (dec_ok "_" s H0) as [_ Hx]; [by left|]. rewrite Hx, under_under in Hu. specialize (Hu eq_refl). discriminate Hu. }
    destruct (first_digit _ _ _ _ _ Hc Hl) as (d & Hd & Hlt). exists c, d, s. split; [done|]. split; [by apply digit_iff|].
    destruct (digit_dig 10 c d Hg Hd Hlt) as [Hdg Hc']. rewrite (loop_digit 10 c d) in Hl by done.
    apply tail_loop; [done|]. split; [by replace (0 * 10 + d)%N with d in Hl by lia|].
    destruct (existsb (ch_eqb "_") s) eqn:He.
    + destruct (dec_ok c s H0) as [_ Hx]; [right; by exists d|]. rewrite Hx in Hu. change false with (10 =? 16)%N in Hu. rewrite under_digit in Hu by done. apply Hu.
      change (ch_eqb "_" c || existsb (ch_eqb "_") s = true). by rewrite He, orb_true_r.
    + by eapply no_under.
  - intros (c0 & d & s' & [= <- <-] & Hd & Ht). apply digit_iff in Hd as [Hd Hlt]; [|lia]. destruct (digit_dig 10 c d Hg Hd Hlt) as [Hdg Hc'].
    apply tail_loop in Ht as [H1 H2]; [|done]. destruct (dec_ok c s H0) as [Hb Hx]; [right; by exists d|]. rewrite Hb. cbn [fst snd]. split; [done|].
    split; [rewrite (loop_digit 10 c d) by done; by replace (0 * 10 + d)%N with d by lia|]. intros _. rewrite Hx. change false with (10 =? 16)%N. by rewrite under_digit.
Qed.
Lemma tail_zero b s n : good_base b -> s <> [] -> tail b s 0 n <-> numeral b s n \/ exists s', s = "_"%char :: s' /\ numeral b s' n.
Proof.
  intros Hg Hs. split.
  - intros Ht. inversion Ht as [|c d s1 n1 m Hd Ht1|c d s1 n1 m Hd Ht1]; subst; [done| |].
    + left. apply numeral_tail. exists c, d, s1. split; [done|]. split; [done|]. by replace (0 * b + d)%N with d in Ht1 by lia.
    + right. exists (c :: s1). split; [done|]. apply numeral_tail. exists c, d, s1. split; [done|]. split; [done|]. by replace (0 * b + d)%N with d in Ht1 by lia.
  - intros [H|(s' & -> & H)]; apply numeral_tail in H as (c & d & s1 & -> & Hd & Ht).
    + eapply t_digit; [done|]. by replace (0 * b + d)%N with d by lia.
    + eapply t_under; [done|]. by replace (0 * b + d)%N with d by lia.
Qed.
Lemma parse_uint_prefix x b c t n : base_letter x b -> parse_uint ("0"%char :: x :: c :: t) = Some n <-> numeral b (c :: t) n \/ exists s', c :: t = "_"%char :: s' /\ numeral b s' n.
Proof.
  intros Hx. assert (good_base b) as Hg by (destruct Hx; unfold good_base; tauto). rewrite parse_uint_both. destruct (letter_base x b c t Hx) as [-> ->]. cbn [fst snd].
  rewrite <- (tail_zero b (c :: t) n Hg) by done. rewrite tail_loop by done. split.
  - intros (_ & Hl & Hu). split; [done|]. destruct (existsb (ch_eqb "_") (c :: t)) eqn:He; [by apply Hu|by eapply no_under].
  - intros [Hl Hu]. done.
Qed.
Lemma octal_ok s : (forall x t b, s = x :: t -> ~ base_letter x b) -> base_of ("0"%char :: s) = (8%N, s) /\ underscore_ok ("0"%char :: s) = under_loop false s SawDigit.
Proof.
  intros H. destruct s as [|x t]; [done|].
  destruct (letter_cases x) as [(b & Hb & _)|(N1 & N2 & N3 & _)]; [by destruct (H x t b eq_refl)|].
  apply N.eqb_neq in N1, N2, N3. split.
  - unfold base_of. change (ch_eqb "0" "0") with true. cbv iota. rewrite N1, N2, N3. by destruct t.
  - unfold underscore_ok. assert ((strip_sign ("0"%char :: x :: t)).2 = "0"%char :: x :: t) as -> by reflexivity. change (ch_eqb "0" "0") with true. rewrite N1, N2, N3. cbn [orb andb].
    by rewrite under_digit.
Qed.
Lemma parse_uint_octal s n : (forall x t b, s = x :: t -> ~ base_letter x b) -> parse_uint ("0"%char :: s) = Some n <-> numeral 8 ("0"%char :: s) n.
Proof.
  intros H. assert (good_base 8) as Hg by (by right; left). rewrite parse_uint_both, numeral_tail. destruct (octal_ok s H) as [-> ->]. cbn [fst snd].
  assert (digit 8 "0" 0) as Hd by (split; [done|by left]). change false with (8 =? 16)%N. split.
  - intros (_ & Hl & Hu). exists "0"%char, 0%N, s. split; [done|]. split; [done|]. apply tail_loop; [done|]. split; [done|].
    destruct (existsb (ch_eqb "_") s) eqn:He; [by apply Hu|by eapply no_under].
  - intros (c0 & d & s' & [= <- <-] & Hd' & Ht). apply digit_iff in Hd' as [Hd' _]; [|lia]. injection Hd' as <-. apply tail_loop in Ht as [H1 H2]; done.
Qed.
Lemma letter_no_digit x b d c : base_letter x b -> digit 8 x d -> c.
Proof. intros Hx Hd%digit_iff; [|lia]. destruct Hd as [Hd Hlt]. exfalso. destruct Hx; cbn in Hd; injection Hd as <-; lia. Qed.
Lemma numeral_second b c x t n : numeral b (c :: x :: t) n -> x = "_"%char \/ exists d, digit b x d.
Proof. intros (c0 & d0 & s' & [= <- <-] & _ & Ht)%numeral_tail. inversion Ht; subst; [right; eauto|by left]. Qed.
Lemma parse_uint_iff s n : parse_uint s = Some n <-> unsigned s n.
Proof.
  split.
  - intros H. destruct s as [|c s]; [done|]. destruct (decide (c = "0"%char)) as [->|H0]; [|apply u_decimal; [done|]; by apply parse_uint_decimal].
    destruct s as [|x t].
    { apply u_octal. apply parse_uint_octal; [done|exact H]. }
    destruct (letter_cases x) as [(b & Hb & _ & _)|(_ & _ & _ & Hn)].
    + destruct t as [|c t].
      { exfalso. apply parse_uint_both in H as (_ & Hl & _). destruct Hb; discriminate Hl. }
      destruct (proj1 (parse_uint_prefix x b c t n Hb) H) as [H'|(s' & [= -> ->] & H')]; [by eapply u_prefix|by eapply u_prefix_under].
    + apply u_octal. apply parse_uint_octal; [|exact H]. intros x' t' b [= <- <-]. apply Hn.
  - destruct 1 as [c s n H0 H|s n H|x b s n Hx H|x b s n Hx H].
    + by apply parse_uint_decimal.
    + apply parse_uint_octal; [|done]. intros x t b -> Hb. apply numeral_second in H as [->|[d Hd]]; [inversion Hb|by eapply letter_no_digit].
    + destruct s as [|c t]; [by apply numeral_tail in H as (? & ? & ? & ? & _)|]. apply (proj2 (parse_uint_prefix x b c t n Hx)). by left.
    + apply (proj2 (parse_uint_prefix x b "_" s n Hx)). right. by exists s.
Qed.
Lemma unsigned_head s n : unsigned s n -> exists c t d, s = c :: t /\ digit_val c = Some d.
Proof.
  destruct 1 as [c s n H0 H|s n H|x b s n Hx H|x b s n Hx H]; try (exists "0"%char; eexists _, 0%N; split; reflexivity).
  apply numeral_tail in H as (c0 & d & s' & [= <- <-] & Hd & _). apply digit_iff in Hd as [Hd _]; [|lia]. by exists c, s, d.
Qed.
Lemma parse_int_iff s z : parse_int s = Some z <-> int64_text s z.
Proof.
  unfold int64_text. change (2 ^ 63)%Z with 9223372036854775808%Z. split.
  - unfold parse_int. destruct s as [|c s]; [done|]. unfold strip_sign. destruct (ch_eqb c "+") eqn:E1; [|destruct (ch_eqb c "-") eqn:E2].
    1: apply ch_eqb_eq in E1 as ->; destruct (parse_uint s) as [n|] eqn:Hu; [|done]; apply parse_uint_iff in Hu.
    2: apply ch_eqb_eq in E2 as ->; destruct (parse_uint s) as [n|] eqn:Hu; [|done]; apply parse_uint_iff in Hu.
    3: destruct (parse_uint (c :: s)) as [n|] eqn:Hu; [|done]; apply parse_uint_iff in Hu.
    + destruct (n <? _)%N eqn:Hn; [|done]. intros [= <-]. apply N.ltb_lt in Hn. split; [by constructor|lia].
    + destruct (n <=? _)%N eqn:Hn; [|done]. intros [= <-]. apply N.leb_le in Hn. split; [by constructor|lia].
    + destruct (n <? _)%N eqn:Hn; [|done]. intros [= <-]. apply N.ltb_lt in Hn. split; [by constructor|lia].
  - intros [Hs Hr]. destruct Hs as [s n Hu|s n Hu|s n Hu].
    + destruct (unsigned_head _ _ Hu) as (c & t & d & -> & Hd). unfold parse_int. rewrite (strip_digit _ _ _ Hd). rewrite (proj2 (parse_uint_iff _ _) Hu).
      rewrite (proj2 (N.ltb_lt _ _)) by lia. done.
    + unfold parse_int. cbn [strip_sign]. change (ch_eqb "+" "+") with true. cbv iota. rewrite (proj2 (parse_uint_iff _ _) Hu). rewrite (proj2 (N.ltb_lt _ _)) by lia. done.
    + unfold parse_int. cbn [strip_sign]. change (ch_eqb "-" "+") with false. change (ch_eqb "-" "-") with true. cbv iota. rewrite (proj2 (parse_uint_iff _ _) Hu). rewrite (proj2 (N.leb_le _ _)) by lia. done.
Qed.

(** ** Flags *)
Lemma cut_eq_ok s : let '(a, b) := cut_eq s in "="%char ∉ a /\ s = match b with None => a | Some v => a ++ str "=" ++ v end.
Proof.
  induction s as [|c s IH]; [split; [apply not_elem_of_nil|done]|]. cbn [cut_eq]. destruct (ch_eqb c "=") eqn:E.
  - apply ch_eqb_eq in E as ->. split; [apply not_elem_of_nil|done].
  - destruct (cut_eq s) as [a b]. destruct IH as [H1 H2]. apply ch_eqb_neq in E. split; [by apply not_elem_of_cons|]. rewrite H2. by destruct b.
Qed.
Lemma cut_eq_none a : "="%char ∉ a -> cut_eq a = (a, None).
Proof. induction a as [|c a IH]; [done|]. intros [Hc Ha]%not_elem_of_cons. cbn [cut_eq]. assert (ch_eqb c "=" = false) as -> by (apply ch_eqb_neq; congruence). by rewrite IH. Qed.
Lemma cut_eq_some a v : "="%char ∉ a -> cut_eq (a ++ str "=" ++ v) = (a, Some v).
Proof. induction a as [|c a IH]; [done|]. intros [Hc Ha]%not_elem_of_cons. cbn [cut_eq app]. assert (ch_eqb c "=" = false) as -> by (apply ch_eqb_neq; congruence). cbn [app] in IH. by rewrite IH. Qed.
(** A flag: its name and the rest of the command line. *)
Definition flag_step (n : gostr) (value : option gostr) (rest : list gostr) (o : cli_opts) : flags_end :=
  if known n then
    match value, rest with
    | Some v, _ => match set_flag n v o with Some (Some o') => parse_flags rest o' | _ => FBad end
    | None, v :: rest' => match set_flag n v o with Some (Some o') => parse_flags rest' o' | _ => FBad end
    | None, [] => FBad
    end
  else if str_eqb n (str "help") || str_eqb n (str "h") then FHelp else FBad.
Definition starts_name (n : gostr) : Prop := exists c t, n = c :: t /\ c <> "-"%char /\ c <> "="%char.
Lemma parse_flag d n value rest o : dashes d -> starts_name n -> "="%char ∉ n ->
  parse_flags ((d ++ n ++ match value with None => [] | Some v => str "=" ++ v end) :: rest) o = flag_step n value rest o.
Proof.
  intros Hd (c & t & -> & Hc1 & Hc2) He. apply not_elem_of_cons in He as [_ He]. apply ch_eqb_neq in Hc1, Hc2.
  assert (cut_eq (t ++ match value with None => [] | Some v => str "=" ++ v end) = (t, value)) as Hcut.
  { destruct value as [v|]; [by apply cut_eq_some|]. rewrite app_nil_r. by apply cut_eq_none. }
  destruct Hd as [->| ->].
  - change (str "-" ++ (c :: t) ++ match value with None => [] | Some v => str "=" ++ v end) with ("-"%char :: c :: t ++ match value with None => [] | Some v => str "=" ++ v end).
    cbn [parse_flags]. change (ch_eqb "-" "-") with true. cbn [negb]. cbv iota. rewrite Hc1. cbn [andb]. cbv iota. rewrite ?Hc1, Hc2. cbn [orb]. cbv iota. rewrite Hcut. cbv iota zeta. reflexivity.
  - change (str "--" ++ (c :: t) ++ match value with None => [] | Some v => str "=" ++ v end) with ("-"%char :: "-"%char :: c :: t ++ match value with None => [] | Some v => str "=" ++ v end).
    cbn [parse_flags]. change (ch_eqb "-" "-") with true. cbn [negb]. cbv iota. cbn [andb str_eqb]. cbv iota. rewrite Hc1, Hc2. cbn [orb]. cbv iota. rewrite Hcut. cbv iota zeta. reflexivity.
Qed.
Lemma arg_cases a : (forall t, a <> "-"%char :: t) \/ a = str "-" \/ a = str "--" \/
  (exists d n value, dashes d /\ starts_name n /\ "="%char ∉ n /\ a = d ++ n ++ match value with None => [] | Some v => str "=" ++ v end) \/
  (forall rest o, parse_flags (a :: rest) o = FBad).
Proof.
  assert (forall d c t, dashes d -> c <> "-"%char -> c <> "="%char -> exists d' n value, dashes d' /\ starts_name n /\ "="%char ∉ n /\ d ++ c :: t = d' ++ n ++ match value with None => [] | Some v => str "=" ++ v end) as Hn.
  { intros d c t Hd H1 H2. pose proof (cut_eq_ok t) as Hc. destruct (cut_eq t) as [a' b]. destruct Hc as [He Ht]. exists d, (c :: a'), b. split; [done|].
    split; [by exists c, a'|]. split; [by apply not_elem_of_cons|]. f_equal. cbn [app]. f_equal. rewrite Ht. destruct b; [done|]. by rewrite app_nil_r. }
  destruct a as [|c1 t1]; [by left|]. destruct (decide (c1 = "-"%char)) as [->|H1]; [|left; intros t [= ? _]; done].
  destruct t1 as [|c2 t2]; [by right; left|]. destruct (decide (c2 = "-"%char)) as [->|H2].
  - destruct t2 as [|c3 t3]; [by right; right; left|]. right. right. right.
    destruct (decide (c3 = "-"%char)) as [->|H3]; [by right|]. destruct (decide (c3 = "="%char)) as [->|H3']; [by right|]. left. apply (Hn (str "--") c3 t3); [by right|done|done].
  - right. right. right. destruct (decide (c2 = "="%char)) as [->|H2']; [by right|]. left. apply (Hn (str "-") c2 t2); [by left|done|done].
Qed.
Definition number_from (k : list (gostr * gostr)) (n : gostr) (z0 z : Z) : Prop := match last_value k n with None => z = z0 | Some v => int64_text v z end.
Definition text_from (k : list (gostr * gostr)) (n t0 t : gostr) : Prop := t = default t0 (last_value k n).
Definition opts_from (o0 : cli_opts) (k : list (gostr * gostr)) (o : cli_opts) : Prop :=
  number_from k (str "p") (o_page o0) (o_page o) /\ number_from k (str "s") (o_size o0) (o_size o) /\ text_from k (str "sort") (o_sort o0) (o_sort o) /\
  text_from k (str "search") (o_search o0) (o_search o) /\ text_from k (str "c") (o_clusters o0) (o_clusters o).
Lemma last_value_cons n v k m : last_value ((n, v) :: k) m = match last_value k m with Some w => Some w | None => if decide (n = m) then Some v else None end.
Proof.
  unfold last_value. rewrite filter_cons. cbn [fst]. destruct (decide (n = m)) as [->|Hn].
  - cbn [map snd]. by rewrite last_cons.
  - by destruct (last _).
Qed.
Lemma number_cons n v k m z0 z : number_from ((n, v) :: k) m z0 z <-> match last_value k m with Some w => int64_text w z | None => if decide (n = m) then int64_text v z else z = z0 end.
Proof. unfold number_from. rewrite last_value_cons. destruct (last_value k m); [done|]. by destruct (decide _). Qed.
Lemma text_cons n v k m t0 t : text_from ((n, v) :: k) m t0 t <-> text_from k m (if decide (n = m) then v else t0) t.
Proof. unfold text_from. rewrite last_value_cons. destruct (last_value k m); [done|]. by destruct (decide _). Qed.
Lemma set_known n v o : flag_name n -> value_ok n v -> exists o1, set_flag n v o = Some (Some o1) /\ forall k o2, opts_from o1 k o2 <-> opts_from o ((n, v) :: k) o2.
Proof.
  assert (forall k m z1 z, int64_text v z1 -> number_from k m z1 z <-> match last_value k m with Some w => int64_text w z | None => int64_text v z end) as Hnum.
  { intros k m z1 z Hz. unfold number_from. destruct (last_value k m); [done|]. split; [by intros ->|]. intros Hz'. apply parse_int_iff in Hz, Hz'. congruence. }
  intros Hn Hv. destruct o as [p s so se c]. destruct Hn as [->|[->|[->|[->| ->]]]].
  - destruct Hv as [z Hz]; [by left|]. exists (CliOpts z s so se c). split; [unfold set_flag; change (str_eqb (str "p") (str "p")) with true; cbv iota; by rewrite (proj2 (parse_int_iff _ _) Hz)|].
    intros k o2. unfold opts_from. rewrite !number_cons, !text_cons. cbn [o_page o_size o_sort o_search o_clusters]. rewrite (decide_True _ _ (eq_refl (str "p"))). rewrite !decide_False by discriminate. by rewrite (Hnum k (str "p") z).
  - destruct Hv as [z Hz]; [by right|]. exists (CliOpts p z so se c). split; [unfold set_flag; change (str_eqb (str "s") (str "p")) with false; change (str_eqb (str "s") (str "s")) with true; cbv iota; by rewrite (proj2 (parse_int_iff _ _) Hz)|].
    intros k o2. unfold opts_from. rewrite !number_cons, !text_cons. cbn [o_page o_size o_sort o_search o_clusters]. rewrite (decide_True _ _ (eq_refl (str "s"))). rewrite !decide_False by discriminate. by rewrite (Hnum k (str "s") z).
  - exists (CliOpts p s v se c). split; [reflexivity|].
    intros k o2. unfold opts_from. rewrite !number_cons, !text_cons. cbn [o_page o_size o_sort o_search o_clusters]. rewrite (decide_True _ _ (eq_refl (str "sort"))). by rewrite !decide_False by discriminate.
  - exists (CliOpts p s so v c). split; [reflexivity|].
    intros k o2. unfold opts_from. rewrite !number_cons, !text_cons. cbn [o_page o_size o_sort o_search o_clusters]. rewrite (decide_True _ _ (eq_refl (str "search"))). by rewrite !decide_False by discriminate.
  - exists (CliOpts p s so se v). split; [reflexivity|].
    intros k o2. unfold opts_from. rewrite !number_cons, !text_cons. cbn [o_page o_size o_sort o_search o_clusters]. rewrite (decide_True _ _ (eq_refl (str "c"))). by rewrite !decide_False by discriminate.
Qed.
Lemma set_value n v o o1 : set_flag n v o = Some (Some o1) -> flag_name n /\ value_ok n v.
Proof.
  destruct o as [p s so se c]. unfold set_flag, flag_name, value_ok. destruct (str_eqb_spec n (str "p")) as [->|N1].
  { destruct (parse_int v) as [z|] eqn:E; [|done]. intros _. split; [by left|]. intros _. exists z. by apply parse_int_iff. }
  destruct (str_eqb_spec n (str "s")) as [->|N2].
  { destruct (parse_int v) as [z|] eqn:E; [|done]. intros _. split; [by right; left|]. intros _. exists z. by apply parse_int_iff. }
  destruct (str_eqb_spec n (str "sort")) as [->|N3]; [intros _; split; [by right; right; left|by intros [?|?]]|].
  destruct (str_eqb_spec n (str "search")) as [->|N4]; [intros _; split; [by right; right; right; left|by intros [?|?]]|].
  destruct (str_eqb_spec n (str "c")) as [->|N5]; [intros _; split; [by right; right; right; right|by intros [?|?]]|]. done.
Qed.
Lemma known_iff n : known n = true <-> flag_name n.
Proof.
  unfold known. split.
  - unfold set_flag, flag_name. destruct (str_eqb_spec n (str "p")); [tauto|]. destruct (str_eqb_spec n (str "s")); [tauto|]. destruct (str_eqb_spec n (str "sort")); [tauto|].
    destruct (str_eqb_spec n (str "search")); [tauto|]. destruct (str_eqb_spec n (str "c")); [tauto|]. done.
  - intros [->|[->|[->|[->| ->]]]]; reflexivity.
Qed.
Lemma name_starts n : flag_name n \/ n = str "h" \/ n = str "help" -> starts_name n /\ "="%char ∉ n.
Proof.
  intros H. assert (starts_name n /\ existsb (ch_eqb "=") n = false) as [H1 H2].
  { destruct H as [[->|[->|[->|[->| ->]]]]|[->| ->]]; (split; [eexists _, _; split; [reflexivity|]; split; discriminate|reflexivity]). }
  split; [done|]. intros Hin. apply not_true_iff_false in H2. apply H2. apply existsb_exists. exists "="%char. split; [by apply elem_of_list_In|reflexivity].
Qed.
Lemma opts_refl o : opts_from o [] o.
Proof. unfold opts_from, number_from, text_from. done. Qed.
Lemma opts_nil o o' : opts_from o [] o' -> o' = o.
Proof. destruct o, o'. unfold opts_from, number_from, text_from. cbn. intros (-> & -> & -> & -> & ->). done. Qed.
Lemma parse_sound args : forall o, match parse_flags args o with
  | FOk o' => exists k, given args k false /\ opts_from o k o'
  | FHelp => exists k, given args k true
  | FBad => True
  end.
Proof.
  remember (length args) as len eqn:Hlen. revert args Hlen. induction (lt_wf len) as [len _ IH]. intros args -> o.
  destruct args as [|a rest]; [exists []; split; [constructor|apply opts_refl]|].
  destruct (arg_cases a) as [H|[->|[->|[(d & n & value & Hd & Hn & He & ->)|H]]]].
  - assert (parse_flags (a :: rest) o = FOk o) as ->.
    { cbn [parse_flags]. destruct a as [|c1 [|c2 t]]; [done|done|]. assert (ch_eqb c1 "-" = false) as ->; [apply ch_eqb_neq; intros ->; by destruct (H (c2 :: t))|done]. }
    exists []. split; [by apply given_operand|apply opts_refl].
  - exists []. split; [by apply given_dash|apply opts_refl].
  - exists []. split; [by apply given_end|apply opts_refl].
  - rewrite parse_flag by done. unfold flag_step. destruct (known n) eqn:Hk.
    + destruct value as [v|].
      * destruct (set_flag n v o) as [[o1|]|] eqn:Hs; [|done|done]. destruct (set_value _ _ _ _ Hs) as [Hf Hv]. destruct (set_known n v o Hf Hv) as (o1' & Hs' & Ho). assert (o1' = o1) as -> by congruence.
        specialize (IH (length rest) ltac:(cbn; lia) rest eq_refl o1). destruct (parse_flags rest o1) as [o2| |]; [| |done].
        -- destruct IH as (k & Hg & Hfr). exists ((n, v) :: k). split; [by apply given_eq|by apply Ho].
        -- destruct IH as (k & Hg). exists ((n, v) :: k). by apply given_eq.
      * destruct rest as [|v rest]; [done|]. rewrite app_nil_r.
        destruct (set_flag n v o) as [[o1|]|] eqn:Hs; [|done|done]. destruct (set_value _ _ _ _ Hs) as [Hf Hv]. destruct (set_known n v o Hf Hv) as (o1' & Hs' & Ho). assert (o1' = o1) as -> by congruence.
        specialize (IH (length rest) ltac:(cbn; lia) rest eq_refl o1). destruct (parse_flags rest o1) as [o2| |]; [| |done].
        -- destruct IH as (k & Hg & Hfr). exists ((n, v) :: k). split; [by apply given_next|by apply Ho].
        -- destruct IH as (k & Hg). exists ((n, v) :: k). by apply given_next.
    + destruct (str_eqb_spec n (str "help")) as [->|Hh]; [|destruct (str_eqb_spec n (str "h")) as [->|Hh']; [|done]]; cbn [orb]; exists [].
      * destruct value as [v|]; [by apply (given_help_eq d (str "help") v); [|right]|]. rewrite app_nil_r. by apply (given_help d (str "help")); [|right].
      * destruct value as [v|]; [by apply (given_help_eq d (str "h") v); [|left]|]. rewrite app_nil_r. by apply (given_help d (str "h")); [|left].
  - by rewrite H.
Qed.
Lemma parse_complete args k h : given args k h -> forall o, if h then parse_flags args o = FHelp else exists o', parse_flags args o = FOk o' /\ forall o2, opts_from o k o2 -> o2 = o'.
Proof.
  assert (forall n, flag_name n -> known n = true) as Hkn by (intros n; by apply known_iff).
  induction 1 as [|l|l|a l Ha|d n v l k h Hd Hn Hv Hg IH|d n v l k h Hd Hn Hv Hg IH|d n l Hd Hn|d n v l Hd Hn]; intros o.
  - exists o. split; [done|]. apply opts_nil.
  - exists o. split; [done|]. apply opts_nil.
  - exists o. split; [done|]. apply opts_nil.
  - exists o. split; [|apply opts_nil]. cbn [parse_flags]. destruct a as [|c1 [|c2 t]]; [done|done|]. assert (ch_eqb c1 "-" = false) as ->; [apply ch_eqb_neq; intros ->; by destruct (Ha (c2 :: t))|done].
  - destruct (name_starts n (or_introl Hn)) as [Hs He]. rewrite (parse_flag d n (Some v) l o Hd Hs He). unfold flag_step. rewrite Hkn by done.
    destruct (set_known n v o Hn Hv) as (o1 & -> & Ho). specialize (IH o1). destruct h; [done|]. destruct IH as (o' & Hp & Hu). exists o'. split; [done|]. intros o2 H2. by apply Hu, Ho.
  - destruct (name_starts n (or_introl Hn)) as [Hs He]. pose proof (parse_flag d n None (v :: l) o Hd Hs He) as Hp. rewrite app_nil_r in Hp. rewrite Hp. unfold flag_step. rewrite Hkn by done.
    destruct (set_known n v o Hn Hv) as (o1 & -> & Ho). specialize (IH o1). destruct h; [done|]. destruct IH as (o' & Hp' & Hu). exists o'. split; [done|]. intros o2 H2. by apply Hu, Ho.
  - destruct (name_starts n (or_intror Hn)) as [Hs He]. pose proof (parse_flag d n None l o Hd Hs He) as Hp. rewrite app_nil_r in Hp. rewrite Hp. by destruct Hn as [->| ->].
  - destruct (name_starts n (or_intror Hn)) as [Hs He]. rewrite (parse_flag d n (Some v) l o Hd Hs He). by destruct Hn as [->| ->].
Qed.
