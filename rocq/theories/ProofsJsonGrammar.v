(** The JSON parser reads the grammar of JSON (C80). *)
From Coq Require Import Ascii String NArith ZArith Lia.
From stdpp Require Import base gmap strings list sorting.
From Verif Require Import ModelStr ProofsStr ProofsQuote ModelJson ProofsJson ModelJsonText ProofsJsonText ProofsJsonParse SpecJson.

(** ** UTF-8 *)
Lemma cont_true lo hi n : (n < 256)%N -> (lo <= n <= hi)%N -> is_cont lo hi (byte n) = true.
Proof. intros Hn H. apply is_cont_iff. by rewrite code_byte. Qed.
Lemma utf8_decode r u t : utf8 r u -> decode_rune (u ++ t) = Some (r, length u).
Proof.
  intros [x Hx|a b Ha Hb|a b c x Ha Hb Hc -> Hx Hs|a b c d x Ha Hb Hc Hd -> Hx]; cbn [app decode_rune length]; change ascii_of_N with byte.
  - rewrite code_byte by lia. by rewrite (proj2 (N.ltb_lt _ _) Hx).
  - rewrite (code_byte (192 + a)) by lia. destruct (N.ltb_spec (192 + a) 128); [lia|]. destruct (N.ltb_spec (192 + a) 194); [lia|]. destruct (N.ltb_spec (192 + a) 224); [|lia].
    rewrite (cont_true 128 191 (128 + b)) by lia. rewrite code_byte by lia. do 2 f_equal. lia.
  - rewrite (code_byte (224 + a)) by lia. destruct (N.ltb_spec (224 + a) 128); [lia|]. destruct (N.ltb_spec (224 + a) 194); [lia|]. destruct (N.ltb_spec (224 + a) 224); [lia|].
    destruct (N.ltb_spec (224 + a) 240); [|lia]. cbv zeta. rewrite cont_true, cont_true; [|lia|lia|lia|].
    + rewrite !code_byte by lia. cbn [andb]. do 2 f_equal. lia.
    + destruct (N.eqb_spec (224 + a) 224), (N.eqb_spec (224 + a) 237); lia.
  - rewrite (code_byte (240 + a)) by lia. destruct (N.ltb_spec (240 + a) 128); [lia|]. destruct (N.ltb_spec (240 + a) 194); [lia|]. destruct (N.ltb_spec (240 + a) 224); [lia|].
    destruct (N.ltb_spec (240 + a) 240); [lia|]. destruct (N.ltb_spec (240 + a) 245); [|lia]. cbv zeta. rewrite cont_true, cont_true, cont_true; [|lia|lia|lia|lia|lia|].
    + rewrite !code_byte by lia. cbn [andb]. do 2 f_equal. lia.
    + destruct (N.eqb_spec (240 + a) 240), (N.eqb_spec (240 + a) 244); lia.
Qed.
Lemma char_at c n : code c = n -> c = ascii_of_N n.
Proof. intros <-. symmetry. apply byte_code. Qed.
Lemma decode_utf8 s r w : decode_rune s = Some (r, w) -> utf8 r (take w s).
Proof.
  destruct s as [|c s]; [done|]. cbn [decode_rune]. pose proof (code_lt c).
  destruct (N.ltb_spec (code c) 128) as [H0|H0].
  { intros [= <- <-]. cbn [take]. rewrite (char_at c (code c)) at 2 by done. by constructor. }
  destruct (N.ltb_spec (code c) 194) as [H1|H1]; [done|].
  destruct (N.ltb_spec (code c) 224) as [H2|H2].
  { destruct s as [|c1 s]; [done|]. destruct (is_cont 128 191 c1) eqn:E; [|done]. apply is_cont_iff in E.
    intros [= <- <-]. cbn [take]. rewrite (firstn_O s). rewrite (char_at c (192 + (code c - 192))) at 2 by lia. rewrite (char_at c1 (128 + (code c1 - 128))) at 2 by lia.
    apply u_two; lia. }
  destruct (N.ltb_spec (code c) 240) as [H3|H3].
  { destruct s as [|c1 [|c2 s]]; [done..|]. cbv zeta.
    destruct (is_cont _ _ c1) eqn:E1; [|done]. destruct (is_cont _ _ c2) eqn:E2; [|done].
    apply is_cont_iff in E1, E2. intros [= <- <-]. cbn [take].
    assert (128 <= code c1 <= 191)%N. { destruct (code c =? 224)%N, (code c =? 237)%N; lia. }
    rewrite (char_at c (224 + (code c - 224))) at 2 by lia. rewrite (char_at c1 (128 + (code c1 - 128))) at 2 by lia. rewrite (char_at c2 (128 + (code c2 - 128))) at 2 by lia.
    apply u_three; [lia..|destruct (N.eqb_spec (code c) 224); destruct (code c =? 237)%N; lia|destruct (N.eqb_spec (code c) 237); destruct (code c =? 224)%N; lia]. }
  destruct (N.ltb_spec (code c) 245) as [H4|H4]; [|done].
  destruct s as [|c1 [|c2 [|c3 s]]]; [done..|]. cbv zeta.
  destruct (is_cont _ _ c1) eqn:E1; [|done]. destruct (is_cont _ _ c2) eqn:E2; [|done].
  destruct (is_cont _ _ c3) eqn:E3; [|done]. apply is_cont_iff in E1, E2, E3. intros [= <- <-]. cbn [take].
  assert (128 <= code c1 <= 191)%N. { destruct (code c =? 240)%N, (code c =? 244)%N; lia. }
  rewrite (char_at c (240 + (code c - 240))) at 2 by lia. rewrite (char_at c1 (128 + (code c1 - 128))) at 2 by lia.
  rewrite (char_at c2 (128 + (code c2 - 128))) at 2 by lia. rewrite (char_at c3 (128 + (code c3 - 128))) at 2 by lia.
  apply u_four; [lia..|]. destruct (N.eqb_spec (code c) 240); destruct (N.eqb_spec (code c) 244); lia.
Qed.
Lemma encode_utf8 r u : utf8 r u -> encode_rune r = u.
Proof. intros H. pose proof (utf8_decode r u [] H) as E. rewrite app_nil_r in E. rewrite (decode_encode _ _ _ E). apply firstn_all. Qed.
Lemma utf8_code r : (r < 55296 \/ 57343 < r)%N -> (r <= 1114111)%N -> utf8 r (encode_rune r).
Proof.
  intros Hs Hm. cut (exists u, utf8 r u). { intros [u H]. by rewrite (encode_utf8 r u H). }
  assert (forall a, a mod 64 < 64)%N as Hmod by (intros; apply N.mod_lt; lia).
  assert (forall a, a = 64 * (a / 64) + a mod 64)%N as Hd by (intros; apply N.div_mod; lia).
  destruct (N.lt_ge_cases r 128); [eexists; by constructor|].
  pose proof (Hmod r) as M0. pose proof (Hd r) as D0.
  destruct (N.lt_ge_cases r 2048). { assert (utf8 (r / 64 * 64 + r mod 64) [ascii_of_N (192 + r / 64); ascii_of_N (128 + r mod 64)]) as G by (apply u_two; lia).
    replace (r / 64 * 64 + r mod 64)%N with r in G by lia. eauto. }
  pose proof (Hmod (r / 64)%N) as M1. pose proof (Hd (r / 64)%N) as D1.
  destruct (N.lt_ge_cases r 65536). { eexists. apply (u_three (r / 64 / 64) ((r / 64) mod 64) (r mod 64)); lia. }
  pose proof (Hmod (r / 64 / 64)%N) as M2. pose proof (Hd (r / 64 / 64)%N) as D2.
  eexists. apply (u_four (r / 64 / 64 / 64) ((r / 64 / 64) mod 64) ((r / 64) mod 64) (r mod 64)); lia.
Qed.
(** Bytes below 128 begin and end a code point. *)
Lemma utf8_rest r c u : utf8 r (c :: u) -> Forall (fun x => (128 <= code x)%N) u.
Proof.
  intros H. inversion H; subst; repeat constructor; change ascii_of_N with byte; rewrite code_byte; lia.
Qed.
Lemma utf8_scalar r u : utf8 r u -> ((r < 55296 \/ 57343 < r) /\ r <= 1114111)%N.
Proof. intros [x Hx|a b Ha Hb|a b c x Ha Hb Hc -> Hx Hs|a b c d x Ha Hb Hc Hd -> Hx]; lia. Qed.
Lemma utf8_len r u : utf8 r u -> 1 <= length u.
Proof. intros []; cbn; lia. Qed.

(** ** Strings *)
Lemma hexval_iff c n : hexval c = Some n <-> hex_digit c n.
Proof.
  split.
  - intros H. destruct c as [[] [] [] [] [] [] [] []]; try (vm_compute in H; discriminate H); (vm_compute in H; injection H as <-; vm_compute; (left; reflexivity) || (right; reflexivity)).
  - intros [H|H]; rewrite <- (N2Nat.id n); revert H; generalize (N.to_nat n); intros k H;
      do 16 (destruct k as [|k]; [vm_compute in H; injection H as <-; reflexivity|]); destruct k; discriminate H.
Qed.
Lemma hex4_iff s r : (exists t h, hex4val s = Some r /\ s = h ++ t /\ length h = 4) <-> (exists h t, s = h ++ t /\ hex_code h r).
Proof.
  split.
  - intros (t & h & H & -> & Hl). destruct h as [|a [|b [|c [|d [|]]]]]; try discriminate Hl. cbn [app hex4val] in H.
    destruct (hexval a) as [na|] eqn:Ea; [|done]. destruct (hexval b) as [nb|] eqn:Eb; [|done].
    destruct (hexval c) as [nc|] eqn:Ec; [|done]. destruct (hexval d) as [nd|] eqn:Ed; [|done].
    injection H as <-. exists [a; b; c; d], t. split; [done|]. apply hexval_iff in Ea, Eb, Ec, Ed. by constructor.
  - intros (h & t & -> & H). exists t, h. destruct H as [a b c d na nb nc nd Ha Hb Hc Hd]. apply hexval_iff in Ha, Hb, Hc, Hd.
    cbn [app hex4val length]. by rewrite Ha, Hb, Hc, Hd.
Qed.
Lemma hex4_read h t r : hex_code h r -> hex4val (h ++ t) = Some r.
Proof. intros [a b c d na nb nc nd Ha Hb Hc Hd]. apply hexval_iff in Ha, Hb, Hc, Hd. cbn [app hex4val]. by rewrite Ha, Hb, Hc, Hd. Qed.
Lemma hex4_split s r : hex4val s = Some r -> exists h t, s = h ++ t /\ hex_code h r.
Proof.
  intros H. apply hex4_iff. destruct s as [|a [|b [|c [|d t]]]]; try (cbn in H; repeat (case_match; try done); done).
  exists t, [a; b; c; d]. done.
Qed.
Lemma hex_len h r : hex_code h r -> length h = 4.
Proof. by intros []. Qed.
Lemma hex_bound h r : hex_code h r -> (r < 65536)%N.
Proof.
  assert (forall c n, hex_digit c n -> (n < 16)%N) as Hd.
  { intros c n H. assert (N.to_nat n < 16) as Hn; [|lia]. destruct H as [H|H]; apply lookup_lt_Some in H; exact H. }
  intros [a b c d na nb nc nd Ha%Hd Hb%Hd Hc%Hd Hdd%Hd]. lia.
Qed.
Lemma jstr_short e x t : (e, x) ∈ short_escapes -> jstr 0 ("\"%char :: e :: t) = addp [x] (jstr 0 t).
Proof.
  intros H. unfold short_escapes in H. repeat (apply elem_of_cons in H as [H|H]; [injection H as -> ->; reflexivity|]). by apply elem_of_nil in H.
Qed.
Lemma short_in e x : (code e = 34 \/ code e = 92 \/ code e = 47)%N -> x = e -> (e, x) ∈ short_escapes.
Proof.
  intros H ->. unfold short_escapes. destruct H as [H|[H|H]]; apply char_at in H as ->.
  - apply elem_of_list_here.
  - apply elem_of_list_further, elem_of_list_here.
  - apply elem_of_list_further, elem_of_list_further, elem_of_list_here.
Qed.
Lemma surrogate_iff r s p : surrogate_pair r s = Some p <->
  exists l lo t, s = "\"%char :: "u"%char :: l ++ t /\ hex_code l lo /\ high r /\ low lo /\ p = (65536 + (r - 55296) * 1024 + (lo - 56320))%N.
Proof.
  unfold surrogate_pair, high, low. split.
  - destruct s as [|b [|u s]]; [done..|]. destruct (ch_eqb b "\") eqn:Eb; [|done]. destruct (ch_eqb u "u") eqn:Eu; [|done]. cbn [andb].
    apply ch_eqb_eq in Eb as ->. apply ch_eqb_eq in Eu as ->. destruct (hex4val s) as [lo|] eqn:Eh; [|done].
    destruct ((55296 <=? r) && (r <? 56320) && (56320 <=? lo) && (lo <? 57344))%N eqn:E; [|done].
    rewrite !andb_true_iff, !N.leb_le, !N.ltb_lt in E. intros [= <-].
    apply hex4_split in Eh as (l & t & -> & Hl). exists l, lo, t. repeat (split; [done || lia|]). lia.
  - intros (l & lo & t & -> & Hl & Hr & Hlo & ->). change (ch_eqb "\" "\") with true. change (ch_eqb "u" "u") with true. cbn [andb].
    rewrite (hex4_read _ _ _ Hl). rewrite (proj2 (N.leb_le 55296 r)), (proj2 (N.ltb_lt r 56320)), (proj2 (N.leb_le 56320 lo)), (proj2 (N.ltb_lt lo 57344)) by lia. cbn [andb]. f_equal. lia.
Qed.
Lemma drop_hex {A} (x : A) h t : length h = 4 -> drop 5 (x :: h ++ t) = t.
Proof. intros H. cbn [drop]. by apply drop_app_alt. Qed.
Lemma jstr_sound s v r : jstr 0 s = Some (v, r) -> exists t, s = t ++ quotation :: r /\ chars t v.
Proof.
  revert v r. induction s as [s IH] using (induction_ltof1 _ (@length ascii)). unfold ltof in IH. intros v r.
  destruct s as [|c s]; [done|]. cbn [jstr]. cbv zeta.
  assert (forall x k, match jstr k s with Some (v, r) => Some (x ++ v, r) | None => None end = Some (v, r) ->
    exists t v', drop k s = t ++ quotation :: r /\ chars t v' /\ v = x ++ v') as Hadd.
  { intros x k H. rewrite jstr_skip in H. destruct (jstr 0 (drop k s)) as [[v' r']|] eqn:E; [|done]. injection H as <- <-.
    apply IH in E; [|rewrite drop_length; cbn; lia]. destruct E as (t & E & Ht). eauto. }
  destruct (N.eqb_spec (code c) 34) as [E34|N34].
  { intros [= <- <-]. apply char_at in E34 as ->. exists []. split; [done|constructor]. }
  destruct (N.ltb_spec (code c) 32) as [|H32]; [done|].
  destruct (N.eqb_spec (code c) 92) as [E92|N92].
  - apply char_at in E92 as ->. change (ascii_of_N 92) with "\"%char. destruct s as [|e s]; [done|].
    assert (forall x, (e, x) ∈ short_escapes -> match jstr 1 (e :: s) with Some (v, r) => Some ([x] ++ v, r) | None => None end = Some (v, r) ->
      exists t, "\"%char :: e :: s = t ++ quotation :: r /\ chars t v) as Hs.
    { intros x Hx H. apply (Hadd [x] 1) in H as (t & v' & E & Ht & ->). cbn [drop] in E. rewrite drop_0 in E. subst s. exists ("\"%char :: e :: t). split; [done|]. by apply c_short. }
    destruct ((code e =? 34) || (code e =? 92) || (code e =? 47))%N eqn:Ee.
    { apply Hs, short_in; [|done]. rewrite !orb_true_iff, !N.eqb_eq in Ee. tauto. }
    repeat match goal with |- (if (code e =? ?n)%N then match jstr 1 _ with _ => _ end else _) = _ -> _ =>
      destruct (N.eqb_spec (code e) n) as [En|_]; [apply Hs; apply char_at in En as ->; unfold short_escapes; repeat (apply elem_of_list_here || apply elem_of_list_further)|] end.
    destruct (N.eqb_spec (code e) 117) as [Eu|_]; [|done]. apply char_at in Eu as ->. change (ascii_of_N 117) with "u"%char in *. clear Hs.
    destruct (hex4val s) as [h|] eqn:Eh; [|done]. apply hex4_split in Eh as (hx & t0 & -> & Hh). pose proof (hex_len _ _ Hh) as Hl. pose proof (hex_bound _ _ Hh) as Hb.
    rewrite (drop_app_alt hx t0) by done.
    destruct ((55296 <=? h) && (h <? 57344))%N eqn:Es.
    + apply andb_true_iff in Es as [Es1%N.leb_le Es2%N.ltb_lt]. destruct (surrogate_pair h t0) as [p|] eqn:Ep.
      * apply surrogate_iff in Ep as (l & lo & t1 & -> & Hlo & Hhi & Hlow & ->). pose proof (hex_len _ _ Hlo) as Hll.
        intros H. apply Hadd in H as (t & v' & E & Ht & ->). change 11 with (5 + 6) in E. rewrite <- drop_drop, drop_hex in E by done.
        change (drop 6 ("\"%char :: "u"%char :: l ++ t1)) with (drop 5 ("u"%char :: l ++ t1)) in E. rewrite drop_hex in E by done. subst t1.
        exists ("\"%char :: "u"%char :: hx ++ "\"%char :: "u"%char :: l ++ t). split; [by rewrite <- ?app_comm_cons, <- !app_assoc, <- ?app_comm_cons, <- ?app_assoc|].
        eapply c_pair; [done..| |done]. apply utf8_code; unfold high, low in *; lia.
      * intros H. apply Hadd in H as (t & v' & E & Ht & ->). rewrite drop_hex in E by done. subst t0.
        exists ("\"%char :: "u"%char :: hx ++ t). split; [by rewrite <- ?app_comm_cons, <- !app_assoc|].
        apply c_half with (r := h); [done|unfold high, low; lia| |done].
        intros Hhi l lo t' Hlo Hlow ->. assert (surrogate_pair h (("\"%char :: "u"%char :: l ++ t') ++ quotation :: r) <> None) as Hne; [|done].
        rewrite (proj2 (surrogate_iff h _ (65536 + (h - 55296) * 1024 + (lo - 56320)))); [done|]. exists l, lo, (t' ++ quotation :: r). split; [cbn [app]; by rewrite <- app_assoc|]. done.
    + assert (h < 55296 \/ 57343 < h)%N. { apply andb_false_iff in Es as [E%N.leb_gt|E%N.ltb_ge]; lia. }
      intros H'. apply Hadd in H' as (t & v' & E & Ht & ->). rewrite drop_hex in E by done. subst t0.
      exists ("\"%char :: "u"%char :: hx ++ t). split; [by rewrite <- ?app_comm_cons, <- !app_assoc|].
      eapply c_code; [done| |done]. apply utf8_code; lia.
  - destruct (decode_rune (c :: s)) as [[n w]|] eqn:E.
    + intros H. apply Hadd in H as (t & v' & Ed & Ht & ->). destruct (decode_rune_some _ _ _ E) as (Hw & Hlo & Hhi).
      pose proof (decode_utf8 _ _ _ E) as Hu. exists (take w (c :: s) ++ t).
      assert (drop w (c :: s) = t ++ quotation :: r) as Ed'. { destruct w; [lia|]. exact Ed. }
      split; [by rewrite <- app_assoc, <- Ed', take_drop|].
      assert (c = ascii_of_N n \/ 128 <= n)%N as Hn.
      { destruct (N.lt_ge_cases n 128) as [Hn|Hn]; [left|by right]. destruct (Hlo Hn) as (_ & s' & Es). by injection Es. }
      assert (forall m, n < 128 -> n = m -> code c = m)%N as Hcode.
      { intros m Hlt ->. destruct Hn as [->|]; [|lia]. apply code_byte. lia. }
      apply c_raw with (r := n); [done| | | |done].
      * destruct (N.lt_ge_cases n 128) as [Hl|]; [|lia]. rewrite <- (Hcode n Hl eq_refl). done.
      * intros ->. apply N34. by apply Hcode.
      * intros ->. apply N92. by apply Hcode.
    + intros H. apply Hadd in H as (t & v' & Ed & Ht & ->). rewrite drop_0 in Ed. subst s. exists (c :: t). split; [done|].
      apply c_bad; [|done]. intros n u t' Hu Et. rewrite app_comm_cons, Et, <- app_assoc in E. by rewrite (utf8_decode _ _ _ Hu) in E.
Qed.
Lemma jstr_u h s t v r : hex4val s = Some h -> ((55296 <= h < 57344)%N -> surrogate_pair h (drop 4 s) = None) ->
  jstr 0 (drop 4 s) = Some (v, r) -> t = (if ((55296 <=? h) && (h <? 57344))%N then rune_error else encode_rune h) ->
  jstr 0 ("\"%char :: "u"%char :: s) = Some (t ++ v, r).
Proof.
  intros Hh Hp Hj ->. cbn [jstr]. cbv zeta. change (code "\") with 92%N. change (code "u") with 117%N.
  cbn [N.eqb N.ltb N.compare Pos.eqb Pos.compare Pos.compare_cont orb]. rewrite Hh.
  rewrite (jstr_skip 4 s), Hj.
  destruct ((55296 <=? h) && (h <? 57344))%N eqn:E; [|done].
  apply andb_true_iff in E as [E1%N.leb_le E2%N.ltb_lt]. by rewrite Hp by lia.
Qed.
Lemma jstr_complete t v r : chars t v -> jstr 0 (t ++ quotation :: r) = Some (v, r).
Proof.
  intros H. induction H as [|n u t v Hu H1 H2 H3 Ht IH|b t v Hb Ht IH|e x t v He Ht IH|h n u t v Hh Hu Ht IH|h l hi lo u t v Hh Hhi Hl Hlo Hu Ht IH|h n t v Hh Hs Hno Ht IH].
  - reflexivity.
  - pose proof (utf8_decode n u [] Hu) as E. rewrite app_nil_r in E. pose proof (jstr_raw _ _ _ (t ++ quotation :: r) E H2 H3 H1) as G.
    rewrite firstn_all in G. rewrite <- app_assoc, G, IH. done.
  - assert (decode_rune (b :: t ++ quotation :: r) = None) as E.
    { destruct (decode_rune (b :: t ++ quotation :: r)) as [[n w]|] eqn:E; [|done]. exfalso.
      pose proof (decode_utf8 _ _ _ E) as Hu. destruct (decode_rune_some _ _ _ E) as (Hw & _).
      destruct (decide (w <= S (length t))) as [Hle|Hgt].
      - apply (Hb n _ (drop w (b :: t)) Hu). rewrite app_comm_cons, take_app_le by (cbn; lia). by rewrite take_drop.
      - destruct w as [|w]; [lia|]. cbn [take] in Hu. apply utf8_rest in Hu. rewrite take_app_ge in Hu by lia. apply Forall_app in Hu as [_ Hu].
        destruct (w - length t) as [|m] eqn:Em; [lia|]. cbn [take] in Hu. inversion Hu; subst. by vm_compute in H1. }
    assert (128 <= code b)%N as Hcb.
    { destruct (N.lt_ge_cases (code b) 128) as [Hl|]; [|done]. exfalso. cbn [decode_rune] in E. by rewrite (proj2 (N.ltb_lt _ _) Hl) in E. }
    cbn [app jstr]. cbv zeta. destruct (N.eqb_spec (code b) 34); [lia|]. destruct (N.ltb_spec (code b) 32); [lia|]. destruct (N.eqb_spec (code b) 92); [lia|].
    rewrite E, IH. done.
  - cbn [app]. by rewrite (jstr_short e x), IH.
  - destruct (utf8_scalar _ _ Hu) as [Hsc Hmax]. pose proof (hex_len _ _ Hh) as Hlen. cbn [app]. rewrite <- app_assoc. apply (jstr_u n).
    + by apply hex4_read.
    + lia.
    + rewrite drop_app_alt by done. exact IH.
    + rewrite (encode_utf8 _ _ Hu). destruct ((55296 <=? n) && (n <? 57344))%N eqn:E; [|done]. apply andb_true_iff in E as [E1%N.leb_le E2%N.ltb_lt]. lia.
  - pose proof (hex_len _ _ Hh) as Hlen. pose proof (hex_len _ _ Hl) as Hlen2. cbn [app]. rewrite <- app_assoc. cbn [app]. rewrite <- app_assoc.
    unfold high, low in *. cbn [jstr]. cbv zeta. change (code "\") with 92%N. change (code "u") with 117%N.
    cbn [N.eqb N.ltb N.compare Pos.eqb Pos.compare Pos.compare_cont orb]. rewrite (hex4_read _ _ _ Hh).
    rewrite (proj2 (N.leb_le 55296 hi)), (proj2 (N.ltb_lt hi 57344)) by lia. cbn [andb]. rewrite drop_app_alt by done.
    rewrite (proj2 (surrogate_iff _ _ (65536 + (hi - 55296) * 1024 + (lo - 56320)))).
    2:{ exists l, lo, (t ++ quotation :: r). done. }
    rewrite (jstr_skip 10). change 10 with (4 + 6). rewrite <- drop_drop, drop_app_alt by done.
    change (drop 6 ("\"%char :: "u"%char :: l ++ t ++ quotation :: r)) with (drop 4 (l ++ t ++ quotation :: r)). rewrite drop_app_alt by done.
    rewrite IH. by rewrite (encode_utf8 _ _ Hu).
  - pose proof (hex_len _ _ Hh) as Hlen. cbn [app]. rewrite <- app_assoc. apply (jstr_u n).
    + by apply hex4_read.
    + intros _. rewrite drop_app_alt by done. destruct (surrogate_pair n (t ++ quotation :: r)) as [p|] eqn:E; [|done]. exfalso.
      apply surrogate_iff in E as (l & lo & t' & Et & Hl & Hhi & Hlo & _).
      assert (exists t2, t = "\"%char :: "u"%char :: l ++ t2) as [t2 E2].
      { destruct Hl as [a b c d na nb nc nd Ha Hb Hc Hd].
        assert (forall x m, hex_digit x m -> x <> quotation) as Hq. { intros x m Hx ->. apply hexval_iff in Hx. by vm_compute in Hx. }
        apply Hq in Ha, Hb, Hc, Hd. cbn [app] in Et.
        destruct t as [|x t]; [discriminate Et|]. cbn [app] in Et. injection Et as -> Et.
        destruct t as [|x t]; [discriminate Et|]. cbn [app] in Et. injection Et as -> Et.
        destruct t as [|x t]; [injection Et; congruence|]. cbn [app] in Et. injection Et as -> Et.
        destruct t as [|x t]; [injection Et; congruence|]. cbn [app] in Et. injection Et as -> Et.
        destruct t as [|x t]; [injection Et; congruence|]. cbn [app] in Et. injection Et as -> Et.
        destruct t as [|x t]; [injection Et; congruence|]. cbn [app] in Et. injection Et as -> Et. by exists t. }
      by eapply (Hno Hhi).
    + rewrite drop_app_alt by done. exact IH.
    + destruct ((55296 <=? n) && (n <? 57344))%N eqn:E; [done|]. exfalso. unfold high, low in Hs. apply andb_false_iff in E as [E%N.leb_gt|E%N.ltb_ge]; lia.
Qed.

(** ** Numbers *)
Lemma isdigit_iff c : isdigit c = true <-> a_digit c.
Proof.
  unfold a_digit. split.
  - destruct c as [[] [] [] [] [] [] [] []]; intros H; try (vm_compute in H; discriminate H); cbn [str list_ascii_of_string]; repeat (apply elem_of_list_here || apply elem_of_list_further).
  - intros H. cbn [str list_ascii_of_string] in H. repeat (apply elem_of_cons in H as [->|H]; [reflexivity|]). by apply elem_of_nil in H.
Qed.
Lemma isdigit_false c : ~ a_digit c -> isdigit c = false.
Proof. intros H. destruct (isdigit c) eqn:E; [|done]. by apply isdigit_iff in E. Qed.
Lemma digits_sound s d r : digits s = (d, r) -> s = d ++ r /\ Forall a_digit d.
Proof.
  revert d r. induction s as [|c s IH]; intros d r; cbn [digits].
  - intros [= <- <-]. done.
  - destruct (isdigit c) eqn:Ec; [|by intros [= <- <-]]. destruct (digits s) as [d' r'] eqn:E. intros [= <- <-].
    destruct (IH d' r' eq_refl) as [-> Hd]. split; [done|]. constructor; [by apply isdigit_iff|done].
Qed.
(** What may come after a number. *)
Definition after_num (r : gostr) : Prop :=
  match r with c :: _ => isdigit c = false /\ c <> "."%char /\ c <> "e"%char /\ c <> "E"%char | [] => True end.
Definition no_digit (r : gostr) : Prop := match r with c :: _ => isdigit c = false | [] => True end.
Lemma digits_read d r : digit_list d -> no_digit r -> digits (d ++ r) = (d, r).
Proof.
  intros [_ Hd] Hr. apply digits_app; [|done]. rewrite <- Is_true_true, forallb_True. eapply Forall_impl; [exact Hd|].
  intros c Hc. by apply Is_true_true, isdigit_iff.
Qed.
Definition an_int (i : gostr) : Prop := i = str "0" \/ digit_list i /\ head i <> Some "0"%char.
Definition a_frac (frac : gostr) : Prop := frac = [] \/ exists d, frac = "."%char :: d /\ digit_list d.
Definition an_exp (ex : gostr) : Prop := ex = [] \/ exists e sg d, ex = e :: sg ++ d /\ (e = "e"%char \/ e = "E"%char) /\ (sg = [] \/ sg = str "+" \/ sg = str "-") /\ digit_list d.
Lemma jint_sound s i r : jint s = Some (i, r) -> s = i ++ r /\ an_int i.
Proof.
  unfold jint. destruct s as [|c s]; [done|]. destruct (ch_eqb c "0") eqn:E0.
  { apply ch_eqb_eq in E0 as ->. intros [= <- <-]. split; [done|by left]. }
  destruct (isdigit c) eqn:Ec; [|done]. destruct (digits (c :: s)) as [d q] eqn:Ed. intros [= <- <-].
  pose proof (digits_sound _ _ _ Ed) as [Es Hd]. split; [done|].
  right. cbn [digits] in Ed. rewrite Ec in Ed. destruct (digits s) as [d' r']. injection Ed as <- <-. split; [by split|].
  cbn. intros [= ->]. done.
Qed.
Lemma jfrac_sound s f r : jfrac s = Some (f, r) -> s = f ++ r /\ a_frac f.
Proof.
  unfold jfrac. destruct s as [|c s]; [intros [= <- <-]; split; [done|by left]|]. destruct (ch_eqb c ".") eqn:E.
  - apply ch_eqb_eq in E as ->. destruct (digits s) as [d q] eqn:Ed. destruct (digits_sound _ _ _ Ed) as [-> Hd]. destruct d as [|x d]; [done|].
    intros [= <- <-]. split; [done|]. right. exists (x :: d). by split.
  - intros [= <- <-]. split; [done|by left].
Qed.
Lemma jexp_sound s e r : jexp s = Some (e, r) -> s = e ++ r /\ an_exp e.
Proof.
  unfold jexp. destruct s as [|c s]; [intros [= <- <-]; split; [done|by left]|]. destruct (ch_eqb c "e" || ch_eqb c "E") eqn:E.
  - assert (c = "e"%char \/ c = "E"%char) as Hc. { apply orb_true_iff in E as [E|E]; apply ch_eqb_eq in E; auto. }
    assert (forall sg s2, (sg = [] \/ sg = str "+" \/ sg = str "-") -> s = sg ++ s2 ->
      match digits s2 with ([], _) => None | (d, r) => Some (c :: sg ++ d, r) end = Some (e, r) -> c :: s = e ++ r /\ an_exp e) as H.
    { intros sg s2 Hsg -> H. destruct (digits s2) as [d q] eqn:Ed. destruct (digits_sound _ _ _ Ed) as [-> Hd]. destruct d as [|x d]; [done|].
      injection H as <- <-. split; [cbn [app]; by rewrite <- app_assoc|]. right. exists c, sg, (x :: d). by repeat split. }
    destruct s as [|g s]; [by apply H; [left|]|]. destruct (ch_eqb g "+" || ch_eqb g "-") eqn:Eg.
    + apply H; [|done]. right. apply orb_true_iff in Eg as [Eg|Eg]; apply ch_eqb_eq in Eg as ->; auto.
    + apply H; [by left|done].
  - intros [= <- <-]. split; [done|by left].
Qed.
Lemma jnum_sound s l r : jnum s = Some (l, r) -> s = l ++ r /\ number l.
Proof.
  intros H. assert (exists sg s1, (sg = [] \/ sg = str "-") /\ s = sg ++ s1 /\
    match jint s1 with None => None | Some (i, s2) => match jfrac s2 with None => None | Some (f, s3) => match jexp s3 with None => None | Some (e, s4) => Some (sg ++ i ++ f ++ e, s4) end end end = Some (l, r)) as (sg & s1 & Hsg & -> & H1).
  { unfold jnum in H. destruct s as [|c s]; [done|]. destruct (ch_eqb c "-") eqn:E.
    - apply ch_eqb_eq in E as ->. exists (str "-"), s. auto.
    - exists [], (c :: s). auto. }
  clear H. destruct (jint s1) as [[i s2]|] eqn:E1; [|done]. apply jint_sound in E1 as [-> Hi]. destruct (jfrac s2) as [[f s3]|] eqn:E2; [|done]. apply jfrac_sound in E2 as [-> Hf].
  destruct (jexp s3) as [[e s4]|] eqn:E3; [|done]. apply jexp_sound in E3 as [-> He]. injection H1 as <- <-. split; [by rewrite <- !app_assoc|].
  exists sg, i, f, e. done.
Qed.
Lemma digit_head d : digit_list d -> exists c s, d = c :: s /\ isdigit c = true.
Proof. intros [Hn Hd]. destruct d as [|c d]; [done|]. exists c, d. split; [done|]. inversion Hd; subst. by apply isdigit_iff. Qed.
Lemma jint_read i r : an_int i -> no_digit r -> jint (i ++ r) = Some (i, r).
Proof.
  intros [->|[Hd H0]] Hr; [done|]. destruct (digit_head i Hd) as (c & s & -> & Hc). unfold jint. cbn [app].
  destruct (ch_eqb c "0") eqn:E. { apply ch_eqb_eq in E as ->. by destruct H0. }
  rewrite Hc. rewrite app_comm_cons, digits_read by done. done.
Qed.
Lemma jexp_read e r : an_exp e -> after_num r -> jexp (e ++ r) = Some (e, r).
Proof.
  intros [->|(c & sg & d & -> & Hc & Hsg & Hd)] Hr.
  - cbn [app]. destruct r as [|c r]; [done|]. destruct Hr as (_ & _ & He1 & He2). unfold jexp. rewrite (proj2 (ch_eqb_neq _ _) He1), (proj2 (ch_eqb_neq _ _) He2). done.
  - assert (no_digit r) as Hn. { destruct r; [done|]. by destruct Hr. }
    pose proof (digits_read d r Hd Hn) as Ed. destruct (digit_head d Hd) as (x & d' & -> & Hx).
    unfold jexp. cbn [app]. rewrite <- app_assoc.
    replace (ch_eqb c "e" || ch_eqb c "E") with true by (by destruct Hc as [->| ->]).
    destruct Hsg as [->|[->| ->]].
    + cbn [app] in *. assert (ch_eqb x "+" = false) as ->. { apply ch_eqb_neq. intros ->. done. }
      assert (ch_eqb x "-" = false) as ->. { apply ch_eqb_neq. intros ->. done. } cbn [orb]. by rewrite Ed.
    + change (str "+") with ["+"%char]. cbn [app] in *. change (ch_eqb "+" "+") with true. cbn [orb]. by rewrite Ed.
    + change (str "-") with ["-"%char]. cbn [app] in *. change (ch_eqb "-" "+") with false. change (ch_eqb "-" "-") with true. cbn [orb]. by rewrite Ed.
Qed.
Lemma jfrac_read f r : a_frac f -> no_digit r -> match r with c :: _ => c <> "."%char | [] => True end -> jfrac (f ++ r) = Some (f, r).
Proof.
  intros [->|(d & -> & Hd)] Hn Hr.
  - cbn [app]. destruct r as [|c r]; [done|]. unfold jfrac. by rewrite (proj2 (ch_eqb_neq _ _) Hr).
  - unfold jfrac. cbn [app]. change (ch_eqb "." ".") with true. cbn match. rewrite digits_read by done.
    destruct (digit_head d Hd) as (x & d' & -> & _). done.
Qed.
Lemma jnum_read l r : number l -> after_num r -> jnum (l ++ r) = Some (l, r).
Proof.
  intros (sg & i & f & e & -> & Hsg & Hi & Hf & He) Hr.
  assert (no_digit (e ++ r) /\ match e ++ r with c :: _ => c <> "."%char | [] => True end) as [Hn1 Hn2].
  { destruct He as [->|(c & s & d & -> & Hc & _)]; [cbn [app]; destruct r; [done|]; destruct Hr as (? & ? & _); done|].
    cbn [app]. by destruct Hc as [->| ->]. }
  assert (no_digit (f ++ e ++ r)) as Hn3. { destruct Hf as [->|(d & -> & _)]; done. }
  pose proof (jint_read i (f ++ e ++ r) Hi Hn3) as E1. pose proof (jfrac_read f (e ++ r) Hf Hn1 Hn2) as E2. pose proof (jexp_read e r He Hr) as E3.
  unfold jnum. rewrite <- !app_assoc.
  destruct Hsg as [->| ->].
  - cbn [app]. assert (exists c s, i = c :: s /\ ch_eqb c "-" = false) as (c & s & -> & Hc).
    { destruct Hi as [->|[Hd _]]; [eexists _, _; split; [reflexivity|done]|]. destruct (digit_head i Hd) as (c & s & -> & Hc). exists c, s. split; [done|]. apply ch_eqb_neq. by intros ->. }
    cbn [app] in *. rewrite Hc, E1, E2, E3. done.
  - change (str "-") with ["-"%char]. cbn [app]. change (ch_eqb "-" "-") with true. cbn match. by rewrite E1, E2, E3.
Qed.
Lemma number_head l : number l -> exists c s, l = c :: s /\ (isdigit c = true \/ c = "-"%char).
Proof.
  intros Hl. apply num_head. unfold num_lit. pose proof (jnum_read l [] Hl I) as H. by rewrite app_nil_r in H.
Qed.

(** ** White space *)
Lemma jspace_iff c : jspace c = true <-> c ∈ map ascii_of_N [32; 9; 10; 13]%N.
Proof.
  split.
  - destruct c as [[] [] [] [] [] [] [] []]; intros H; try (vm_compute in H; discriminate H); cbn [map]; repeat (apply elem_of_list_here || apply elem_of_list_further).
  - intros H. cbn [map] in H. repeat (apply elem_of_cons in H as [->|H]; [reflexivity|]). by apply elem_of_nil in H.
Qed.
Lemma skip_space w s : space w -> skip_ws (w ++ s) = skip_ws s.
Proof. intros H. induction H as [|c w Hc _ IH]; [done|]. cbn [app skip_ws]. by rewrite (proj2 (jspace_iff c) Hc). Qed.
Lemma skip_split s : exists w, space w /\ s = w ++ skip_ws s /\ match skip_ws s with c :: _ => jspace c = false | [] => True end.
Proof.
  induction s as [|c s IH]; [exists []; split; [constructor|done]|]. cbn [skip_ws]. destruct (jspace c) eqn:E.
  - destruct IH as (w & Hw & Es & Hh). exists (c :: w). split; [constructor; [by apply jspace_iff|done]|]. split; [cbn [app]; by rewrite <- Es|done].
  - exists []. split; [constructor|done].
Qed.
Lemma skip_skip s : skip_ws (skip_ws s) = skip_ws s.
Proof. destruct (skip_split s) as (w & _ & _ & H). destruct (skip_ws s) as [|c t]; [done|]. by apply skip_ws_none. Qed.
Lemma jval_space f d w s : space w -> jval f d (w ++ s) = jval f d s.
Proof. intros H. destruct f; [done|]. cbn [jval]. by rewrite skip_space. Qed.
Lemma jval_strip f d s : jval f d (skip_ws s) = jval f d s.
Proof. destruct f; [done|]. cbn [jval]. by rewrite skip_skip. Qed.
Lemma jelems_strip f d s : jelems f d (skip_ws s) = jelems f d s.
Proof. destruct f; [done|]. cbn [jelems]. by rewrite jval_strip. Qed.
Lemma jmembers_strip f d s : jmembers f d (skip_ws s) = jmembers f d s.
Proof. destruct f; [done|]. cbn [jmembers]. by rewrite skip_skip. Qed.

(** ** What is read is in the grammar *)
Lemma elements_space n w t l : space w -> elements n t l -> elements n (w ++ t) l.
Proof.
  intros Hw H. inversion H; subst.
  - rewrite app_assoc. apply e_one; [by apply Forall_app|done|done].
  - rewrite app_assoc. apply e_more; [by apply Forall_app|done|done|done].
Qed.
Lemma members_space n w t l : space w -> members n t l -> members n (w ++ t) l.
Proof.
  intros Hw H. inversion H; subst.
  - rewrite app_assoc. apply m_one; [by apply Forall_app|done..].
  - rewrite app_assoc. apply m_more; [by apply Forall_app|done..].
Qed.
Lemma jval_sound f : forall d s,
  (forall v r, jval f d s = Some (v, r) -> exists w t, s = w ++ t ++ r /\ space w /\ value d t v) /\
  (forall l r, jelems f d s = Some (l, r) -> exists t, s = t ++ "]"%char :: r /\ elements d t l) /\
  (forall l r, jmembers f d s = Some (l, r) -> exists t, s = t ++ "}"%char :: r /\ members d t l).
Proof.
  induction f as [|f IH]; intros d s; [done|]. split; [|split].
  - intros v r. cbn [jval]. destruct (skip_split s) as (w & Hw & Es & _). destruct (skip_ws s) as [|c s'] eqn:Esk; [done|]. clear Esk.
    assert (forall t, c :: s' = t ++ r -> value d t v -> exists w t, s = w ++ t ++ r /\ space w /\ value d t v) as Hend.
    { intros t Et Ht. exists w, t. split; [by rewrite <- Et|done]. }
    destruct (N.eqb_spec (code c) 34) as [E34|_].
    { apply char_at in E34 as ->. destruct (jstr 0 s') as [[x q]|] eqn:E; [|done]. intros [= <- <-]. apply jstr_sound in E as (t & -> & Ht).
      apply (Hend (quotation :: t ++ [quotation])); [cbn [app]; by rewrite <- app_assoc|by constructor]. }
    destruct (ch_eqb c "{") eqn:Eb.
    { apply ch_eqb_eq in Eb as ->. destruct d as [|d]; [done|]. destruct (skip_split s') as (w2 & Hw2 & Es2 & _). destruct (skip_ws s') as [|e q] eqn:Esk; [done|].
      destruct (ch_eqb e "}") eqn:Ee.
      - apply ch_eqb_eq in Ee as ->. intros [= <- <-]. apply (Hend ("{"%char :: w2 ++ ["}"%char])); [cbn [app]; by rewrite <- app_assoc, Es2|by constructor].
      - destruct (jmembers f d (e :: q)) as [[l q']|] eqn:E; [|done]. intros [= <- <-]. apply IH in E as (t & E & Ht). rewrite E in Es2.
        apply (Hend ("{"%char :: (w2 ++ t) ++ ["}"%char])); [cbn [app]; by rewrite <- !app_assoc, Es2|]. apply v_object. by apply members_space. }
    destruct (ch_eqb c "[") eqn:Ek.
    { apply ch_eqb_eq in Ek as ->. destruct d as [|d]; [done|]. destruct (skip_split s') as (w2 & Hw2 & Es2 & _). destruct (skip_ws s') as [|e q] eqn:Esk; [done|].
      destruct (ch_eqb e "]") eqn:Ee.
      - apply ch_eqb_eq in Ee as ->. intros [= <- <-]. apply (Hend ("["%char :: w2 ++ ["]"%char])); [cbn [app]; by rewrite <- app_assoc, Es2|by constructor].
      - destruct (jelems f d (e :: q)) as [[l q']|] eqn:E; [|done]. intros [= <- <-]. apply IH in E as (t & E & Ht). rewrite E in Es2.
        apply (Hend ("["%char :: (w2 ++ t) ++ ["]"%char])); [cbn [app]; by rewrite <- !app_assoc, Es2|]. apply v_array. by apply elements_space. }
    destruct (has_prefix (str "true") (c :: s')) eqn:E1.
    { apply has_prefix_drop in E1. intros [= <- <-]. apply (Hend (str "true")); [exact E1|constructor]. }
    destruct (has_prefix (str "false") (c :: s')) eqn:E2.
    { apply has_prefix_drop in E2. intros [= <- <-]. apply (Hend (str "false")); [exact E2|constructor]. }
    destruct (has_prefix (str "null") (c :: s')) eqn:E3.
    { apply has_prefix_drop in E3. intros [= <- <-]. apply (Hend (str "null")); [exact E3|constructor]. }
    destruct (jnum (c :: s')) as [[l q]|] eqn:E; [|done]. intros [= <- <-]. apply jnum_sound in E as [E Hl]. apply (Hend l); [done|by constructor].
  - intros l r. cbn [jelems]. destruct (jval f d s) as [[v q]|] eqn:E; [|done]. apply IH in E as (w & t & -> & Hw & Ht).
    destruct (skip_split q) as (w2 & Hw2 & Eq & _). destruct (skip_ws q) as [|c q']; [done|]. subst q.
    destruct (ch_eqb c "]") eqn:E1.
    { apply ch_eqb_eq in E1 as ->. intros [= <- <-]. exists (w ++ t ++ w2). split; [by rewrite <- !app_assoc|by constructor]. }
    destruct (ch_eqb c ",") eqn:E2; [|done]. apply ch_eqb_eq in E2 as ->. destruct (jelems f d q') as [[l' q'']|] eqn:E3; [|done]. intros [= <- <-]. apply IH in E3 as (t' & -> & Ht').
    exists (w ++ t ++ w2 ++ ","%char :: t'). split; [by rewrite <- !app_assoc|by constructor].
  - intros l r. cbn [jmembers]. destruct (skip_split s) as (w & Hw & Es & _). destruct (skip_ws s) as [|q s1]; [done|]. subst s.
    destruct (N.eqb_spec (code q) 34) as [E34|_]; [|done]. apply char_at in E34 as ->.
    destruct (jstr 0 s1) as [[k s2]|] eqn:E; [|done]. apply jstr_sound in E as (tk & -> & Hk).
    destruct (skip_split s2) as (w2 & Hw2 & Es2 & _). destruct (skip_ws s2) as [|col s3]; [done|]. subst s2.
    destruct (ch_eqb col ":") eqn:Ec; [|done]. apply ch_eqb_eq in Ec as ->.
    destruct (jval f d s3) as [[v r']|] eqn:Ev; [|done]. apply IH in Ev as (w3 & t & -> & Hw3 & Ht).
    destruct (skip_split r') as (w4 & Hw4 & Er & _). destruct (skip_ws r') as [|c r2]; [done|]. subst r'.
    destruct (ch_eqb c "}") eqn:E1.
    { apply ch_eqb_eq in E1 as ->. intros [= <- <-]. exists (w ++ quotation :: tk ++ quotation :: w2 ++ ":"%char :: w3 ++ t ++ w4). split; [|by constructor].
      repeat (rewrite <- app_assoc; cbn [app]). done. }
    destruct (ch_eqb c ",") eqn:E2; [|done]. apply ch_eqb_eq in E2 as ->. destruct (jmembers f d r2) as [[l' q'']|] eqn:E3; [|done]. intros [= <- <-]. apply IH in E3 as (t' & -> & Ht').
    exists (w ++ quotation :: tk ++ quotation :: w2 ++ ":"%char :: w3 ++ t ++ w4 ++ ","%char :: t'). split; [|by constructor].
    repeat (rewrite <- app_assoc; cbn [app]). done.
Qed.

(** ** What is in the grammar is read *)
Scheme value_mind := Minimality for value Sort Prop
  with elements_mind := Minimality for elements Sort Prop
  with members_mind := Minimality for members Sort Prop.
Combined Scheme value_mutind from value_mind, elements_mind, members_mind.
Lemma space_after w c r : space w -> after_num (c :: r) -> after_num (w ++ c :: r).
Proof.
  intros Hw Hc. destruct Hw as [|x w Hx _]; [done|]. cbn [app after_num].
  cbn [map] in Hx. repeat (apply elem_of_cons in Hx as [->|Hx]; [done|]). by apply elem_of_nil in Hx.
Qed.
Lemma value_head n t v : value n t v -> exists c s, t = c :: s /\ jspace c = false /\ c <> "]"%char.
Proof.
  intros H. destruct H; try (eexists _, _; split; [reflexivity|]; split; [reflexivity|discriminate]).
  destruct (number_head _ H) as (c & s & -> & Hc). exists c, s. split; [done|]. destruct (num_start c Hc) as (H1 & _). split; [done|]. intros ->. by destruct Hc.
Qed.
Lemma elements_head n t l : elements n t l -> exists w c s, t = w ++ c :: s /\ space w /\ jspace c = false /\ c <> "]"%char.
Proof.
  intros H. destruct H as [n w1 t w2 v H1 H2 Hv|n w1 t w2 v t' l H1 H2 Hv _]; destruct (value_head _ _ _ Hv) as (c & s & -> & Hc); cbn [app]; eexists w1, c, _; by split.
Qed.
Lemma members_head n t l : members n t l -> exists w s, t = w ++ quotation :: s /\ space w.
Proof. intros H. destruct H; eexists w1, _; by split. Qed.
Lemma value_read :
  (forall n t v, value n t v -> forall f rest, 2 * length t <= S f -> after_num rest -> jval (S f) n (t ++ rest) = Some (v, rest)) /\
  (forall n t l, elements n t l -> forall f rest, 2 * length t <= f -> jelems (S f) n (t ++ "]"%char :: rest) = Some (l, rest)) /\
  (forall n t l, members n t l -> forall f rest, 2 * length t <= f -> jmembers (S f) n (t ++ "}"%char :: rest) = Some (l, rest)).
Proof.
  apply value_mutind.
  - intros n f rest _ _. reflexivity.
  - intros n f rest _ _. reflexivity.
  - intros n f rest _ _. reflexivity.
  - intros n l Hl f rest _ Hr. destruct (number_head l Hl) as (c & s & El & Hc). destruct (num_start c Hc) as (S1 & S2 & S3 & S4 & S5 & S6 & S7).
    pose proof (jnum_read l rest Hl Hr) as H. rewrite El in *. cbn [app] in *. cbn [jval]. rewrite skip_ws_none by done. by rewrite S2, S3, S4, S5, S6, S7, H.
  - intros n t v Ht f rest _ _. cbn [app jval]. rewrite skip_ws_none by done. change (code quotation =? 34)%N with true. cbn match.
    rewrite <- app_assoc. cbn [app]. by rewrite (jstr_complete _ _ _ Ht).
  - intros n w Hw f rest _ _. cbn [app jval]. rewrite skip_ws_none by done. change (code "[" =? 34)%N with false. change (ch_eqb "[" "{") with false. change (ch_eqb "[" "[") with true. cbn match.
    rewrite <- app_assoc, skip_space by done. cbn [app]. rewrite skip_ws_none by done. done.
  - intros n t l Ht IH f rest Hf _. cbn [app jval]. rewrite skip_ws_none by done. change (code "[" =? 34)%N with false. change (ch_eqb "[" "{") with false. change (ch_eqb "[" "[") with true. cbn match.
    cbn [length] in Hf. rewrite app_length in Hf. cbn [length] in Hf. rewrite <- app_assoc. cbn [app].
    assert (exists g, f = S g) as [g ->] by (destruct f; [lia|eauto]).
    specialize (IH g rest ltac:(lia)). rewrite <- jelems_strip in IH.
    destruct (elements_head _ _ _ Ht) as (w & c & s & -> & Hw & Hc & Hne). rewrite <- app_assoc, skip_space in * by done. cbn [app] in *. rewrite skip_ws_none in * by done.
    rewrite (proj2 (ch_eqb_neq _ _) Hne). by rewrite IH.
  - intros n w Hw f rest _ _. cbn [app jval]. rewrite skip_ws_none by done. change (code "{" =? 34)%N with false. change (ch_eqb "{" "{") with true. cbn match.
    rewrite <- app_assoc, skip_space by done. cbn [app]. rewrite skip_ws_none by done. done.
  - intros n t l Ht IH f rest Hf _. cbn [app jval]. rewrite skip_ws_none by done. change (code "{" =? 34)%N with false. change (ch_eqb "{" "{") with true. cbn match.
    cbn [length] in Hf. rewrite app_length in Hf. cbn [length] in Hf. rewrite <- app_assoc. cbn [app].
    assert (exists g, f = S g) as [g ->] by (destruct f; [lia|eauto]).
    specialize (IH g rest ltac:(lia)). rewrite <- jmembers_strip in IH.
    destruct (members_head _ _ _ Ht) as (w & s & -> & Hw). rewrite <- app_assoc, skip_space in * by done. cbn [app] in *. rewrite skip_ws_none in * by done.
    change (ch_eqb quotation "}") with false. by rewrite IH.
  - intros n w1 t w2 v H1 H2 Hv IH f rest Hf. rewrite !app_length in Hf. destruct (value_head _ _ _ Hv) as (c & s & Et & _). assert (1 <= length t) as Hl by (rewrite Et; cbn; lia).
    assert (exists g, f = S g) as [g ->] by (destruct f; [lia|eauto]). rewrite <- !app_assoc.
    change (jelems (S (S g)) n ?x) with (match jval (S g) n x with None => None | Some (v, r) => match skip_ws r with c :: r' => if ch_eqb c "]" then Some ([v], r') else if ch_eqb c "," then match jelems (S g) n r' with Some (l, r'') => Some (v :: l, r'') | None => None end else None | [] => None end end).
    rewrite jval_space by done. rewrite IH; [|lia|by apply space_after]. rewrite skip_space by done. rewrite skip_ws_none by done. done.
  - intros n w1 t w2 v t' l H1 H2 Hv IH Hl' IHl f rest Hf. rewrite !app_length in Hf. cbn [length] in Hf. destruct (value_head _ _ _ Hv) as (c & s & Et & _). assert (1 <= length t) as Hl by (rewrite Et; cbn; lia).
    assert (exists g, f = S g) as [g ->] by (destruct f; [lia|eauto]). rewrite <- !app_assoc. cbn [app].
    change (jelems (S (S g)) n ?x) with (match jval (S g) n x with None => None | Some (v, r) => match skip_ws r with c :: r' => if ch_eqb c "]" then Some ([v], r') else if ch_eqb c "," then match jelems (S g) n r' with Some (l, r'') => Some (v :: l, r'') | None => None end else None | [] => None end end).
    rewrite jval_space by done. rewrite IH; [|lia|by apply space_after]. rewrite skip_space by done. rewrite skip_ws_none by done. change (ch_eqb "," "]") with false. change (ch_eqb "," ",") with true. cbn match.
    by rewrite IHl by lia.
  - intros n w1 k name w2 w3 t w4 v H1 H2 H3 H4 Hk Hv IH f rest Hf.
    destruct (value_head _ _ _ Hv) as (c & s & Et & _). assert (1 <= length t) as Hl by (rewrite Et; cbn; lia).
    repeat (rewrite app_length in Hf; cbn [length] in Hf). assert (exists g, f = S g) as [g ->] by (destruct f; [lia|eauto]).
    repeat (rewrite <- app_assoc; cbn [app]).
    change (jmembers (S (S g)) n ?x) with (match skip_ws x with q :: s1 => if (code q =? 34)%N then match jstr 0 s1 with None => None | Some (k, s2) => match skip_ws s2 with col :: s3 => if ch_eqb col ":" then match jval (S g) n s3 with None => None | Some (v, r) => match skip_ws r with c :: r' => if ch_eqb c "}" then Some ([(k, v)], r') else if ch_eqb c "," then match jmembers (S g) n r' with Some (l, r'') => Some ((k, v) :: l, r'') | None => None end else None | [] => None end end else None | [] => None end end else None | [] => None end).
    rewrite (skip_space w1) by done. rewrite skip_ws_none by done. change (code quotation =? 34)%N with true. cbn match. rewrite (jstr_complete _ _ _ Hk).
    rewrite (skip_space w2) by done. rewrite skip_ws_none by done. change (ch_eqb ":" ":") with true. cbn match. rewrite jval_space by done. rewrite IH; [|lia|by apply space_after].
    rewrite skip_space by done. rewrite skip_ws_none by done. done.
  - intros n w1 k name w2 w3 t w4 v t' l H1 H2 H3 H4 Hk Hv IH Hl' IHl f rest Hf.
    destruct (value_head _ _ _ Hv) as (c & s & Et & _). assert (1 <= length t) as Hl by (rewrite Et; cbn; lia).
    repeat (rewrite app_length in Hf; cbn [length] in Hf). assert (exists g, f = S g) as [g ->] by (destruct f; [lia|eauto]).
    repeat (rewrite <- app_assoc; cbn [app]).
    change (jmembers (S (S g)) n ?x) with (match skip_ws x with q :: s1 => if (code q =? 34)%N then match jstr 0 s1 with None => None | Some (k, s2) => match skip_ws s2 with col :: s3 => if ch_eqb col ":" then match jval (S g) n s3 with None => None | Some (v, r) => match skip_ws r with c :: r' => if ch_eqb c "}" then Some ([(k, v)], r') else if ch_eqb c "," then match jmembers (S g) n r' with Some (l, r'') => Some ((k, v) :: l, r'') | None => None end else None | [] => None end end else None | [] => None end end else None | [] => None end).
    rewrite (skip_space w1) by done. rewrite skip_ws_none by done. change (code quotation =? 34)%N with true. cbn match. rewrite (jstr_complete _ _ _ Hk).
    rewrite (skip_space w2) by done. rewrite skip_ws_none by done. change (ch_eqb ":" ":") with true. cbn match. rewrite jval_space by done. rewrite IH; [|lia|by apply space_after].
    rewrite skip_space by done. rewrite skip_ws_none by done. change (ch_eqb "," "}") with false. change (ch_eqb "," ",") with true. cbn match.
    by rewrite IHl by lia.
Qed.
Lemma parse_means s v : json_parse s = Some v <-> json_means s v.
Proof.
  unfold json_parse, json_means. change (N.to_nat 10000) with max_nesting. generalize max_nesting. intros n. split.
  - destruct (jval (2 * length s + 2) n s) as [[x r]|] eqn:E; [|done]. apply jval_sound in E as (w & t & -> & Hw & Ht).
    destruct (skip_split r) as (w2 & Hw2 & Er & _). destruct (skip_ws r); [|done]. rewrite app_nil_r in Er. subst w2. intros [= <-]. by exists w, t, r.
  - intros (w1 & t & w2 & -> & H1 & H2 & Ht).
    replace (2 * length (w1 ++ t ++ w2) + 2) with (S (S (2 * length (w1 ++ t ++ w2)))) by lia. rewrite jval_space by done.
    rewrite (proj1 value_read n t v Ht).
    + assert (skip_ws w2 = []) as ->; [|done]. rewrite <- (app_nil_r w2) at 1. by rewrite skip_space.
    + rewrite !app_length. lia.
    + destruct H2 as [|x w Hx _]; [done|]. cbn [map] in Hx. repeat (apply elem_of_cons in Hx as [->|Hx]; [done|]). by apply elem_of_nil in Hx.
Qed.
