(** strconv.Quote and exact search with quotes (C05). *)
From Coq Require Import Ascii String NArith ZArith Lia.
From stdpp Require Import base gmap strings list sorting.
From Verif Require Import ModelStr ModelSort ProofsSort ProofsStr ModelLabels ModelPage SpecPage ProofsPage.

Local Notation dq := dquote.
Local Notation bs := ("\"%char : ascii).

Lemma code_bs : code bs = 92%N.
Proof. done. Qed.
Lemma code_dq : code dq = 34%N.
Proof. done. Qed.

Lemma is_cont_ge lo hi c : (128 <= lo)%N -> is_cont lo hi c = true -> (128 <= code c)%N.
Proof. unfold is_cont. intros H [H1%N.leb_le _]%andb_true_iff. lia. Qed.

(** What decoding one rune says about the bytes. *)
Lemma decode_rune_some s r w : decode_rune s = Some (r, w) ->
  1 <= w <= length s /\
  ((r < 128)%N -> w = 1 /\ exists s', s = byte r :: s') /\
  ((128 <= r)%N -> Forall (fun c => (128 <= code c)%N) (take w s)).
Proof.
  destruct s as [|c s]; [done|]. cbn [decode_rune].
  destruct (N.ltb_spec (code c) 128).
  { intros [= <- <-]. split; [simpl; lia|]. split; [|lia].
    intros _. split; [done|]. exists s. by rewrite byte_code. }
  destruct (N.ltb_spec (code c) 194); [done|].
  destruct (N.ltb_spec (code c) 224).
  { destruct s as [|c1 s]; [done|]. destruct (is_cont 128 191 c1) eqn:E; [|done].
    apply is_cont_ge in E; [|lia]. intros [= <- <-]. split; [simpl; lia|].
    split; [lia|]. intros _. repeat constructor; done. }
  destruct (N.ltb_spec (code c) 240).
  { destruct s as [|c1 [|c2 s]]; [done..|]. cbv zeta.
    assert (128 <= (if (code c =? 224)%N then 160 else 128))%N by (destruct (code c =? 224)%N; lia).
    destruct (is_cont _ _ c1) eqn:E1; [|done]. destruct (is_cont _ _ c2) eqn:E2; [|done].
    pose proof E1 as E1'. apply is_cont_ge in E1; [|done]. apply is_cont_ge in E2; [|lia].
    intros [= <- <-]. split; [simpl; lia|]. split.
    - unfold is_cont in E1'. apply andb_true_iff in E1' as [E1'%N.leb_le _].
      destruct (N.eqb_spec (code c) 224); lia.
    - intros _. repeat constructor; done. }
  destruct (N.ltb_spec (code c) 245); [|done].
  destruct s as [|c1 [|c2 [|c3 s]]]; [done..|]. cbv zeta.
  assert (128 <= (if (code c =? 240)%N then 144 else 128))%N by (destruct (code c =? 240)%N; lia).
  destruct (is_cont _ _ c1) eqn:E1; [|done]. destruct (is_cont _ _ c2) eqn:E2; [|done].
  destruct (is_cont _ _ c3) eqn:E3; [|done].
  pose proof E1 as E1'. apply is_cont_ge in E1; [|done]. apply is_cont_ge in E2; [|lia].
  apply is_cont_ge in E3; [|lia].
  intros [= <- <-]. split; [simpl; lia|]. split.
  - unfold is_cont in E1'. apply andb_true_iff in E1' as [E1'%N.leb_le _].
    destruct (N.eqb_spec (code c) 240); lia.
  - intros _. repeat constructor; done.
Qed.
Lemma decode_rune_ascii c s : (code c < 128)%N -> decode_rune (c :: s) = Some (code c, 1).
Proof. intros H. cbn [decode_rune]. by rewrite (proj2 (N.ltb_lt _ _) H). Qed.

Section quote.
  Context (uprint : N -> bool).
  Local Notation Q := (quote_go uprint 0).

  Lemma quote_go_skip k s : quote_go uprint k s = Q (drop k s).
  Proof.
    revert k. induction s as [|c s IH]; intros [|k]; try done. simpl. apply IH.
  Qed.

  (** A quoted rune is either the raw bytes or starts with a backslash. *)
  Inductive chunk : gostr -> gostr -> Prop :=
  | ch_dq : chunk [dq] [bs; dq]
  | ch_bs : chunk [bs] [bs; bs]
  | ch_raw s : s <> [] -> dq ∉ s -> bs ∉ s -> chunk s s
  | ch_esc s r : s <> [] -> dq ∉ s -> dq ∉ r -> chunk s (bs :: r).

  Lemma hexdigit_not_dq n : (n < 16)%N -> hexdigit n <> dq.
  Proof.
    intros H E. apply (f_equal code) in E. rewrite code_dq in E. unfold hexdigit in E.
    destruct (N.ltb_spec n 10); rewrite code_byte in E; lia.
  Qed.
  Lemma hex2_not_dq n : dq ∉ hex2 n.
  Proof.
    unfold hex2. assert (n / 16 mod 16 < 16)%N by (apply N.mod_lt; lia).
    assert (n mod 16 < 16)%N by (apply N.mod_lt; lia).
    rewrite !elem_of_cons, elem_of_nil. pose proof hexdigit_not_dq. naive_solver.
  Qed.
  Lemma not_elem_high c s : Forall (fun c => (128 <= code c)%N) s -> (code c < 128)%N -> c ∉ s.
  Proof. intros H Hc Hin. rewrite Forall_forall in H. specialize (H _ Hin). simpl in H. lia. Qed.
  Lemma quote_rune_chunk r s w : decode_rune s = Some (r, w) -> chunk (take w s) (quote_rune uprint r (take w s)).
  Proof.
    intros Hd. destruct (decode_rune_some _ _ _ Hd) as (Hw & Hlo & Hhi).
    unfold quote_rune.
    destruct (N.ltb_spec r 128) as [Hr|Hr].
    - destruct (Hlo Hr) as (-> & s' & ->). simpl take. rewrite take_0.
      destruct (N.eqb_spec r 34) as [->|H34]; [constructor|].
      destruct (N.eqb_spec r 92) as [->|H92]; [constructor|]. cbn [orb].
      assert (dq ∉ [byte r]) as Hdq.
      { rewrite elem_of_list_singleton. intros E. apply (f_equal code) in E.
        rewrite code_byte in E by lia. by rewrite <- E in H34. }
      assert (bs ∉ [byte r]) as Hbs.
      { rewrite elem_of_list_singleton. intros E. apply (f_equal code) in E.
        rewrite code_byte in E by lia. by rewrite <- E in H92. }
      destruct ((32 <=? r) && (r <? 127))%N; [by constructor|].
      repeat (match goal with |- context [(r =? ?k)%N] => destruct (r =? k)%N end;
        [apply ch_esc; [done|done|set_solver]|]).
      apply ch_esc; [done|done|]. change (dq ∉ "x"%char :: hex2 r).
      rewrite elem_of_cons. pose proof (hex2_not_dq r). naive_solver.
    - assert ((r =? 34)%N = false) as -> by (apply N.eqb_neq; lia).
      assert ((r =? 92)%N = false) as -> by (apply N.eqb_neq; lia). cbn [orb].
      specialize (Hhi Hr).
      assert (take w s <> []) as Hne.
      { destruct s, w; simpl in *; try lia; done. }
      assert (dq ∉ take w s) by (by eapply not_elem_high).
      assert (bs ∉ take w s) by (by eapply not_elem_high).
      destruct (uprint r); [by constructor|].
      destruct (r <? 65536)%N; (apply ch_esc; [done|done|]).
      + change (dq ∉ "u"%char :: hex4 r). unfold hex4.
        rewrite elem_of_cons, elem_of_app. pose proof hex2_not_dq. naive_solver.
      + change (dq ∉ "U"%char :: hex8 r). unfold hex8, hex4.
        rewrite elem_of_cons, !elem_of_app. pose proof hex2_not_dq. naive_solver.
  Qed.
  Lemma quote_step s : s <> [] -> exists raw rest ch,
    s = raw ++ rest /\ chunk raw ch /\ Q s = ch ++ Q rest /\ length rest < length s.
  Proof.
    destruct s as [|c s]; [done|]. intros _. cbn [quote_go].
    destruct (decode_rune (c :: s)) as [[r w]|] eqn:E.
    - exists (take w (c :: s)), (drop w (c :: s)), (quote_rune uprint r (take w (c :: s))).
      destruct (decode_rune_some _ _ _ E) as (Hw & _ & _).
      split; [by rewrite take_drop|]. split; [by apply quote_rune_chunk|].
      split.
      + f_equal. rewrite quote_go_skip. destruct w; [lia|]. done.
      + rewrite drop_length. simpl in *. lia.
    - exists [c], s, (str "\x" ++ hex2 (code c)). split; [done|]. split.
      + assert (128 <= code c)%N as Hc.
        { destruct (N.lt_ge_cases (code c) 128) as [H|H]; [|done].
          by rewrite decode_rune_ascii in E. }
        apply ch_esc; [done| |].
        * apply not_elem_high; [by repeat constructor|]. done.
        * change (dq ∉ "x"%char :: hex2 (code c)).
          rewrite elem_of_cons. pose proof hex2_not_dq. naive_solver.
      + split; [by rewrite <- app_assoc|]. simpl. lia.
  Qed.
  Lemma chunk_nonnil a b : chunk a b -> a <> [].
  Proof. by destruct 1. Qed.

  Lemma str_len_ind (P : gostr -> Prop) :
    (forall s, (forall t, length t < length s -> P t) -> P s) -> forall s, P s.
  Proof.
    intros H s. assert (forall n t, length t < n -> P t) as HH; [|by apply (HH (S (length s))); lia].
    induction n as [|n IH]; intros t Ht; [lia|]. apply H. intros t' Ht'. apply IH. lia.
  Qed.

  (** A double quote inside quoted text is an escaped one. *)
  Lemma quote_inner v : forall a b, Q v = a ++ dq :: b ->
    exists u w a', v = u ++ dq :: w /\ Q w = b /\ a = a' ++ [bs].
  Proof.
    induction v as [v IH] using str_len_ind. intros a b H.
    destruct (decide (v = [])) as [->|Hne]; [by destruct a|].
    destruct (quote_step v Hne) as (raw & rest & ch & -> & Hch & HQ & Hlen).
    rewrite HQ in H.
    assert (forall a2, Q rest = a2 ++ dq :: b -> a = ch ++ a2 ->
      exists u w a', raw ++ rest = u ++ dq :: w /\ Q w = b /\ a = a' ++ [bs]) as Hrest.
    { intros a2 H2 ->. destruct (IH rest Hlen _ _ H2) as (u & w & a' & -> & Hw & ->).
      exists (raw ++ u), w, (ch ++ a'). by rewrite <- !app_assoc. }
    assert (dq ∉ ch -> exists u w a', raw ++ rest = u ++ dq :: w /\ Q w = b /\ a = a' ++ [bs]) as Hno.
    { intros Hn. apply app_eq_inv in H as [(k & -> & H)|(k & -> & H)].
      - destruct k as [|x k].
        + rewrite app_nil_r in *. symmetry in H. simpl in H. apply (Hrest []); [done|]. by rewrite app_nil_r.
        + injection H as <- H. destruct Hn. apply elem_of_app. right. apply elem_of_cons. by left.
      - by apply (Hrest k). }
    destruct Hch as [| |s Hs Hd Hb|s r Hs Hd Hr].
    - destruct a as [|x a]; [done|]. injection H as <- H. destruct a as [|y a].
      + injection H as H. exists [], rest, []. done.
      + injection H as <- H. apply (Hrest a); done.
    - apply Hno. set_solver.
    - by apply Hno.
    - apply Hno. apply not_elem_of_cons. split; [done|]. done.
  Qed.
  Lemma quote_no_bs v : bs ∉ Q v -> Q v = v.
  Proof.
    induction v as [v IH] using str_len_ind. intros H.
    destruct (decide (v = [])) as [->|Hne]; [done|].
    destruct (quote_step v Hne) as (raw & rest & ch & -> & Hch & HQ & Hlen).
    rewrite HQ in H |- *. destruct Hch; try set_solver.
    rewrite IH; [done|done|set_solver].
  Qed.
  Lemma quote_plain x : Forall plain x -> Q x = x.
  Proof.
    induction 1 as [|c x [H1 [H2 H3]] HF IH]; [done|]. cbn [quote_go].
    rewrite decode_rune_ascii by lia. cbn [Nat.pred]. rewrite IH. unfold quote_rune.
    rewrite (proj2 (N.eqb_neq _ _) H2), (proj2 (N.eqb_neq _ _) H3). cbn [orb].
    rewrite (proj2 (N.ltb_lt (code c) 128)) by lia.
    rewrite (proj2 (N.ltb_lt (code c) 127)) by lia. rewrite (proj2 (N.leb_le 32 (code c))) by lia.
    done.
  Qed.
  Lemma quote_dq u w : exists a, Q (u ++ dq :: w) = a ++ dq :: Q w.
  Proof.
    induction u as [u IH] using str_len_ind.
    destruct (decide (u = [])) as [->|Hne]; [by exists [bs]|].
    destruct (quote_step (u ++ dq :: w)) as (raw & rest & ch & E & Hch & HQ & Hlen); [by destruct u|].
    assert (raw = [dq] \/ dq ∉ raw) as Hraw. { destruct Hch; auto. right. set_solver. }
    apply app_eq_inv in E as [(k & -> & E)|(k & -> & E)].
    - destruct (IH k) as [a Ha].
      { apply chunk_nonnil in Hch. rewrite app_length. destruct raw; [done|]. simpl. lia. }
      exists (ch ++ a). rewrite HQ, E, Ha. by rewrite <- app_assoc.
    - destruct k as [|x k].
      + exists (ch ++ [bs]). rewrite HQ. simpl in E. rewrite <- E, <- app_assoc. done.
      + injection E as <- E. destruct Hraw as [Hraw|Hraw]; [|set_solver].
        destruct u; [done|]. injection Hraw as -> Hraw. by destruct u.
  Qed.

  Lemma plain_no_bs x : Forall plain x -> bs ∉ x.
  Proof. intros H Hin. rewrite Forall_forall in H. by destruct (H _ Hin) as (_ & _ & ?). Qed.
  Lemma snoc_case (b : gostr) : b = [] \/ exists b' c, b = b' ++ [c].
  Proof. destruct b as [|c b] using rev_ind; [by left|]. right. eauto. Qed.

  (** Exact match: the quoted pattern occurs in the quoted value. *)
  Lemma quote_exact x v : Forall plain x ->
    occurs (dq :: x ++ [dq]) (quote uprint v) <-> v = x \/ exists u, v = u ++ dq :: x.
  Proof.
    intros Hx. pose proof (plain_no_bs _ Hx) as Hbs. unfold quote. split.
    - assert (forall w b, Q w ++ [dq] = x ++ dq :: b -> w = x) as Hgen.
      { clear v. intros w b H. destruct (snoc_case b) as [->|(b' & c & ->)].
        - apply app_inj_tail in H as [H _]. rewrite <- H in Hbs. apply quote_no_bs in Hbs. congruence.
        - rewrite app_comm_cons, app_assoc in H. apply app_inj_tail in H as [H _].
          apply quote_inner in H as (u & w' & a' & -> & _ & ->). set_solver. }
      intros (a & b & H). destruct a as [|a0 a].
      + left. injection H as H. rewrite <- app_assoc in H. by eapply Hgen.
      + right. injection H as _ H.
        assert ((x ++ [dq]) ++ b = x ++ dq :: b) as E0 by (by rewrite <- app_assoc).
        rewrite E0 in H. clear E0.
        assert (exists b', x ++ dq :: b = b' ++ [dq]) as (b' & E2).
        { destruct (snoc_case b) as [->|(b' & c & ->)]; [by exists x|].
          exists (x ++ dq :: b').
          assert (a ++ dq :: x ++ dq :: b' ++ [c] = (a ++ dq :: x ++ dq :: b') ++ [c]) as E
            by (rewrite <- app_assoc; simpl; by rewrite <- app_assoc).
          rewrite E in H. apply app_inj_tail in H as [_ <-]. by rewrite <- app_assoc. }
        rewrite E2, app_comm_cons, app_assoc in H. apply app_inj_tail in H as [H _].
        apply quote_inner in H as (u & w & a' & -> & Hw & _). exists u. do 2 f_equal.
        apply (Hgen w b). by rewrite Hw.
    - intros [->|[u ->]].
      + exists [], []. simpl. by rewrite quote_plain, app_nil_r.
      + destruct (quote_dq u x) as [a Ha]. rewrite Ha, quote_plain by done.
        exists (dq :: a), []. simpl. by rewrite app_nil_r, <- app_assoc.
  Qed.
End quote.
