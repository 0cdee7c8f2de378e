(** JSON round trip of a Paginate. *)
From Coq Require Import Ascii String NArith ZArith Lia DecimalN DecimalFacts.
From stdpp Require Import base gmap strings list sorting.
From Verif Require Import ModelStr ModelSort ProofsSort ProofsStr ModelLabels ModelPage SpecPage ProofsPage ProofsQuote ModelJson ProofsB64.

(** ** Runes *)
Lemma is_cont_iff lo hi c : is_cont lo hi c = true <-> (lo <= code c <= hi)%N.
Proof. unfold is_cont. by rewrite andb_true_iff, !N.leb_le. Qed.
Lemma decode_rune_app s r w t : decode_rune s = Some (r, w) -> decode_rune (take w s ++ t) = Some (r, w).
Proof.
  intros H. pose proof (decode_rune_some _ _ _ H) as [Hw _]. revert H.
  destruct s as [|c s]; [done|]. cbn [decode_rune].
  destruct (N.ltb_spec (code c) 128) as [H0|H0].
  { intros [= <- <-]. cbn [take app decode_rune]. by rewrite (proj2 (N.ltb_lt _ _) H0). }
  destruct (N.ltb_spec (code c) 194) as [H1|H1]; [done|].
  destruct (N.ltb_spec (code c) 224) as [H2|H2].
  { destruct s as [|c1 s]; [done|]. destruct (is_cont 128 191 c1) eqn:E; [|done].
    intros [= <- <-]. cbn [take app decode_rune]. rewrite E.
    rewrite (proj2 (N.ltb_ge _ _) H0), (proj2 (N.ltb_ge _ _) H1), (proj2 (N.ltb_lt _ _) H2). done. }
  destruct (N.ltb_spec (code c) 240) as [H3|H3].
  { destruct s as [|c1 [|c2 s]]; [done..|]. cbv zeta.
    destruct (is_cont _ _ c1) eqn:E1; [|done]. destruct (is_cont _ _ c2) eqn:E2; [|done].
    intros [= <- <-]. cbn [take app decode_rune]. cbv zeta.
    rewrite (proj2 (N.ltb_ge _ _) H0), (proj2 (N.ltb_ge _ _) H1), (proj2 (N.ltb_ge _ _) H2), (proj2 (N.ltb_lt _ _) H3), E1, E2. done. }
  destruct (N.ltb_spec (code c) 245) as [H4|H4]; [|done].
  destruct s as [|c1 [|c2 [|c3 s]]]; [done..|]. cbv zeta.
  destruct (is_cont _ _ c1) eqn:E1; [|done]. destruct (is_cont _ _ c2) eqn:E2; [|done].
  destruct (is_cont _ _ c3) eqn:E3; [|done].
  intros [= <- <-]. cbn [take app decode_rune]. cbv zeta.
  rewrite (proj2 (N.ltb_ge _ _) H0), (proj2 (N.ltb_ge _ _) H1), (proj2 (N.ltb_ge _ _) H2), (proj2 (N.ltb_ge _ _) H3),
    (proj2 (N.ltb_lt _ _) H4), E1, E2, E3. done.
Qed.
Lemma decode_encode s r w : decode_rune s = Some (r, w) -> encode_rune r = take w s.
Proof.
  destruct s as [|c s]; [done|]. cbn [decode_rune]. pose proof (code_lt c).
  destruct (N.ltb_spec (code c) 128) as [H0|H0].
  { intros [= <- <-]. cbn [take]. unfold encode_rune. rewrite (proj2 (N.ltb_lt _ _) H0). by rewrite byte_code. }
  destruct (N.ltb_spec (code c) 194) as [H1|H1]; [done|].
  destruct (N.ltb_spec (code c) 224) as [H2|H2].
  { destruct s as [|c1 s]; [done|]. destruct (is_cont 128 191 c1) eqn:E; [|done]. apply is_cont_iff in E.
    intros [= <- <-]. cbn [take]. rewrite (firstn_O s). set (r := ((code c - 192) * 64 + (code c1 - 128))%N).
    assert (128 <= r < 2048)%N by (unfold r; lia). unfold encode_rune.
    destruct (N.ltb_spec r 128); [lia|]. destruct (N.ltb_spec r 2048); [|lia].
    f_equal; [|f_equal]; apply byte_of; unfold r; lia. }
  destruct (N.ltb_spec (code c) 240) as [H3|H3].
  { destruct s as [|c1 [|c2 s]]; [done..|]. cbv zeta.
    destruct (is_cont _ _ c1) eqn:E1; [|done]. destruct (is_cont _ _ c2) eqn:E2; [|done].
    apply is_cont_iff in E1, E2. intros [= <- <-]. cbn [take].
    set (r := ((code c - 224) * 4096 + (code c1 - 128) * 64 + (code c2 - 128))%N).
    assert (128 <= code c1 <= 191)%N. { destruct (code c =? 224)%N, (code c =? 237)%N; lia. }
    assert (2048 <= r < 65536)%N. { unfold r. destruct (N.eqb_spec (code c) 224); destruct (code c =? 237)%N; lia. }
    assert (r < 55296 \/ 57343 < r)%N. { unfold r. destruct (N.eqb_spec (code c) 237); destruct (code c =? 224)%N; lia. }
    unfold encode_rune. destruct (N.ltb_spec r 128); [lia|]. destruct (N.ltb_spec r 2048); [lia|].
    destruct ((_ && _ || _)%N) eqn:E.
    { apply orb_true_iff in E as [[E3%N.leb_le E4%N.leb_le]%andb_true_iff|E%N.ltb_lt]; lia. }
    destruct (N.ltb_spec r 65536); [|lia].
    f_equal; [|f_equal; [|f_equal]]; apply byte_of; unfold r; lia. }
  destruct (N.ltb_spec (code c) 245) as [H4|H4]; [|done].
  destruct s as [|c1 [|c2 [|c3 s]]]; [done..|]. cbv zeta.
  destruct (is_cont _ _ c1) eqn:E1; [|done]. destruct (is_cont _ _ c2) eqn:E2; [|done].
  destruct (is_cont _ _ c3) eqn:E3; [|done]. apply is_cont_iff in E1, E2, E3. intros [= <- <-]. cbn [take].
  set (r := ((code c - 240) * 262144 + (code c1 - 128) * 4096 + (code c2 - 128) * 64 + (code c3 - 128))%N).
  assert (128 <= code c1 <= 191)%N. { destruct (code c =? 240)%N, (code c =? 244)%N; lia. }
  assert (65536 <= r <= 1114111)%N.
  { unfold r. destruct (N.eqb_spec (code c) 240); destruct (N.eqb_spec (code c) 244); lia. }
  unfold encode_rune. destruct (N.ltb_spec r 128); [lia|]. destruct (N.ltb_spec r 2048); [lia|].
  destruct ((_ && _ || _)%N) eqn:E.
  { apply orb_true_iff in E as [[E4%N.leb_le E5%N.leb_le]%andb_true_iff|E%N.ltb_lt]; lia. }
  destruct (N.ltb_spec r 65536); [lia|].
  f_equal; [|f_equal; [|f_equal; [|f_equal]]]; apply byte_of; unfold r; lia.
Qed.

(** ** Strings *)
Lemma json_str_skip k s : json_str_go k s = json_str_go 0 (drop k s).
Proof. revert k. induction s as [|c s IH]; intros [|k]; try done. simpl. apply IH. Qed.
Lemma to_valid_skip k s : to_valid_go k s = take k s ++ to_valid_go 0 (drop k s).
Proof. revert k. induction s as [|c s IH]; intros [|k]; try done. simpl. by rewrite IH. Qed.
Lemma jstr_skip k s : jstr k s = jstr 0 (drop k s).
Proof. revert k. induction s as [|c s IH]; intros [|k]; try done. cbn [jstr drop]. apply IH. Qed.
Lemma json_str_some s r w : decode_rune s = Some (r, w) ->
  json_str_go 0 s = json_rune r (take w s) ++ json_str_go 0 (drop w s).
Proof.
  intros H. destruct (decode_rune_some _ _ _ H) as [Hw _]. destruct s as [|c s]; [done|].
  cbn [json_str_go]. rewrite H. rewrite json_str_skip. do 2 f_equal. destruct w; [lia|]. done.
Qed.
Lemma to_valid_some s r w : decode_rune s = Some (r, w) ->
  to_valid_go 0 s = take w s ++ to_valid_go 0 (drop w s).
Proof.
  intros H. destruct (decode_rune_some _ _ _ H) as [Hw _]. destruct s as [|c s]; [done|].
  cbn [to_valid_go]. rewrite H. rewrite to_valid_skip. destruct w; [lia|]. done.
Qed.
Definition addp (x : gostr) (o : option (gostr * gostr)) : option (gostr * gostr) :=
  match o with Some (v, r) => Some (x ++ v, r) | None => None end.
(** Reading an escape or a raw rune. *)
Lemma jstr_esc e x t :
  match code e with
  | 34 | 92 | 47 => x = [e]
  | 110 => x = [byte 10] | 114 => x = [byte 13] | 116 => x = [byte 9]
  | _ => False
  end%N ->
  jstr 0 ("\"%char :: e :: t) = addp x (jstr 0 t).
Proof.
  intros H. cbn [jstr]. cbv zeta. change (code "\") with 92%N.
  cbn [N.eqb N.ltb N.compare Pos.eqb Pos.compare Pos.compare_cont].
  assert (jstr 1 (e :: t) = jstr 0 t) as Hsk by done. cbn [jstr] in Hsk.
  revert H. destruct (code e) as [|p]; [done|].
  do 8 (try (destruct p as [p|p|]; try done)); intros ->; done.
Qed.
Lemma jstr_u4 a b c d va vb vc vd r t :
  hexval a = Some va -> hexval b = Some vb -> hexval c = Some vc -> hexval d = Some vd ->
  r = (((va * 16 + vb) * 16 + vc) * 16 + vd)%N -> (r < 55296 \/ 57343 < r)%N ->
  jstr 0 (str "\u" ++ a :: b :: c :: d :: t) = addp (encode_rune r) (jstr 0 t).
Proof.
  intros Ha Hb Hc Hd -> Hr. change (str "\u") with ["\"%char; "u"%char]. cbn [app jstr]. cbv zeta.
  change (code "\") with 92%N. change (code "u") with 117%N.
  cbn [N.eqb N.ltb N.compare Pos.eqb Pos.compare Pos.compare_cont orb].
  unfold hex4val. rewrite Ha, Hb, Hc, Hd.
  destruct (_ && _)%N eqn:E; [|done].
  apply andb_true_iff in E as [E1%N.leb_le E2%N.ltb_lt]. lia.
Qed.
Lemma jstr_raw s r w t : decode_rune s = Some (r, w) -> (r <> 34 -> r <> 92 -> 32 <= r ->
  jstr 0 (take w s ++ t) = addp (take w s) (jstr 0 t))%N.
Proof.
  intros H H1 H2 H3. pose proof (decode_rune_app _ _ _ t H) as Ha. destruct (decode_rune_some _ _ _ H) as (Hw & Hlo & Hhi).
  destruct s as [|c s]; [done|]. destruct w as [|w]; [lia|]. cbn [take app] in *.
  assert (32 <= code c /\ code c <> 34 /\ code c <> 92)%N as (Hc1 & Hc2 & Hc3).
  { destruct (decide (r < 128)%N) as [Hr|Hr].
    - destruct (Hlo Hr) as (_ & s' & E). injection E as -> _. rewrite code_byte by lia. done.
    - specialize (Hhi ltac:(lia)). inversion Hhi; subst. lia. }
  cbn [jstr]. cbv zeta. rewrite (proj2 (N.eqb_neq _ _) Hc2), (proj2 (N.eqb_neq _ _) Hc3), (proj2 (N.ltb_ge _ _) Hc1), Ha.
  cbn [Nat.pred]. rewrite jstr_skip. cbn [length] in Hw. 
  assert (length (take w s) = w) as Hl by (rewrite take_length; lia).
  rewrite drop_app_alt by done. cbn [take]. rewrite take_app_alt by done. done.
Qed.
Lemma hexval_digit n : (n < 16)%N -> hexval (hexdigit n) = Some n.
Proof.
  intros H. pose proof (N_below (fun n => match hexval (hexdigit n) with Some m => (m =? n)%N | None => false end) 16) as G.
  specialize (G ltac:(by vm_compute) n H). cbn beta in G. destruct (hexval (hexdigit n)); [|done].
  apply N.eqb_eq in G. by subst.
Qed.
Lemma jstr_rune s r w t : decode_rune s = Some (r, w) ->
  jstr 0 (json_rune r (take w s) ++ t) = addp (take w s) (jstr 0 t).
Proof.
  intros H. destruct (decode_rune_some _ _ _ H) as (Hw & Hlo & Hhi). pose proof (decode_encode _ _ _ H) as He.
  assert (forall x, (x < 128)%N -> r = x -> take w s = [byte x]) as Hone.
  { intros x Hx ->. destruct (Hlo Hx) as (-> & s' & ->). done. }
  unfold json_rune.
  destruct (N.eqb_spec r 34) as [E34|N34].
  { rewrite (Hone 34%N) by (done || lia). cbn [orb]. cbn [app]. rewrite (jstr_esc (byte 34) [byte 34]); done. }
  destruct (N.eqb_spec r 92) as [E|N92].
  { rewrite (Hone 92%N) by (done || lia). cbn [orb]. cbn [app]. rewrite (jstr_esc (byte 92) [byte 92]); done. }
  cbn [orb].
  destruct (N.eqb_spec r 10) as [E|N10].
  { rewrite (Hone 10%N) by (done || lia). change (str "\n") with ["\"%char; "n"%char]. cbn [app].
    rewrite (jstr_esc "n" [byte 10]); done. }
  destruct (N.eqb_spec r 13) as [E|N13].
  { rewrite (Hone 13%N) by (done || lia). change (str "\r") with ["\"%char; "r"%char]. cbn [app].
    rewrite (jstr_esc "r" [byte 13]); done. }
  destruct (N.eqb_spec r 9) as [E|N9].
  { rewrite (Hone 9%N) by (done || lia). change (str "\t") with ["\"%char; "t"%char]. cbn [app].
    rewrite (jstr_esc "t" [byte 9]); done. }
  destruct ((_ || _ || _ || _)%N) eqn:E.
  { assert (r < 128)%N as Hr. { rewrite !orb_true_iff, N.ltb_lt, !N.eqb_eq in E. lia. }
    change (str "\u00") with (str "\u" ++ ["0"%char; "0"%char]). rewrite <- !app_assoc. unfold hex2. cbn [app].
    rewrite (jstr_u4 _ _ _ _ 0 0 (r / 16 mod 16) (r mod 16) r); [by rewrite He|done|done| | | |lia].
    - apply hexval_digit. apply N.mod_lt. lia.
    - apply hexval_digit. apply N.mod_lt. lia.
    - lia. }
  destruct ((r =? 8232)%N || (r =? 8233)%N) eqn:E2.
  { assert (r = 8232 \/ r = 8233)%N as Hr. { rewrite orb_true_iff, !N.eqb_eq in E2. done. }
    rewrite <- He, <- app_assoc. unfold hex4, hex2. cbn [app].
    rewrite (jstr_u4 _ _ _ _ (r / 256 / 16 mod 16) (r / 256 mod 16) (r / 16 mod 16) (r mod 16) r); [done|..|lia].
    1-4: apply hexval_digit, N.mod_lt; lia.
    lia. }
  apply jstr_raw with (1 := H); [done|done|]. rewrite !orb_false_iff, N.ltb_ge in E. tauto.
Qed.
Lemma jstr_json_str s t : jstr 0 (json_str_go 0 s ++ dquote :: t) = Some (to_valid s, t).
Proof.
  unfold to_valid. induction s as [s IH] using (induction_ltof1 _ (@length ascii)). unfold ltof in IH.
  destruct s as [|c s]; [done|]. destruct (decode_rune (c :: s)) as [[r w]|] eqn:E.
  - rewrite (json_str_some _ _ _ E), (to_valid_some _ _ _ E), <- app_assoc, (jstr_rune _ _ _ _ E).
    destruct (decode_rune_some _ _ _ E) as [Hw _].
    rewrite IH by (rewrite drop_length; lia). done.
  - cbn [json_str_go to_valid_go]. rewrite E. change (str "\ufffd") with (str "\u" ++ ["f"%char;"f"%char;"f"%char;"d"%char]).
    rewrite <- !app_assoc. cbn [app].
    rewrite (jstr_u4 _ _ _ _ 15 15 15 13 65533); [|done..|lia].
    rewrite IH by (simpl; lia). done.
Qed.
Lemma valid_to_valid s : valid_utf8 s = true -> to_valid s = s.
Proof.
  unfold valid_utf8, to_valid. generalize 0 as k. induction s as [|c s IH]; intros k H; [done|].
  destruct k; cbn [valid_utf8_go to_valid_go] in *.
  - destruct (decode_rune (c :: s)) as [[r w]|]; [|done]. by rewrite IH.
  - by rewrite IH.
Qed.

(** ** Numbers *)
Lemma digits_app d rest : forallb isdigit d = true ->
  (match rest with c :: _ => isdigit c = false | [] => True end) -> digits (d ++ rest) = (d, rest).
Proof.
  intros Hd Hr. induction d as [|c d IH].
  - destruct rest as [|c r]; [done|]. cbn [app digits]. by rewrite Hr.
  - cbn [forallb] in Hd. apply andb_true_iff in Hd as [Hc Hd]. cbn [app digits]. rewrite Hc, IH by done. done.
Qed.
Lemma uint_digits_nonnil u : u <> Decimal.Nil -> uint_digits u <> [].
Proof. by destruct u. Qed.
Lemma to_uint_nonzero n : n <> 0%N -> forall u, N.to_uint n <> Decimal.D0 u.
Proof.
  intros Hn u E. pose proof (DecimalN.Unsigned.to_of (N.to_uint n)) as H. rewrite DecimalN.Unsigned.of_to in H.
  destruct (N.to_uint n) eqn:En; try discriminate E. 
  unfold Decimal.unorm in H. destruct (Decimal.nzhead (Decimal.D0 u0)) eqn:Enz; try discriminate H.
  - injection H as ->. assert (N.of_uint (N.to_uint n) = 0%N) as H0 by (by rewrite En). rewrite DecimalN.Unsigned.of_to in H0. done.
  - by apply DecimalFacts.nzhead_nonzero in Enz.
Qed.
Lemma to_uint_nonnil n : N.to_uint n <> Decimal.Nil.
Proof. intros E. pose proof (DecimalN.Unsigned.of_to n) as H. rewrite E in H. simpl in H. subst. by vm_compute in E. Qed.
Definition ends_num (rest : gostr) : Prop :=
  match rest with c :: _ => c = ","%char \/ c = "}"%char \/ c = "]"%char | [] => True end.
Lemma jnum_itoa z rest : ends_num rest -> jnum (itoa z ++ rest) = Some (itoa z, rest).
Proof.
  intros Hr.
  assert (jfrac rest = Some ([], rest) /\ jexp rest = Some ([], rest) /\ (match rest with c :: _ => isdigit c = false | [] => True end)) as (Hf & He & Hd).
  { destruct rest as [|c r]; [done|]. by destruct Hr as [->|[->| ->]]. }
  assert (forall n, n <> 0%N -> jint (itoa_N n ++ rest) = Some (itoa_N n, rest) /\ exists c r, itoa_N n = c :: r /\ isdigit c = true) as Hpos.
  { intros n Hn. pose proof (itoa_N_isdigit n) as HD. unfold itoa_N in *. pose proof (to_uint_nonzero n Hn) as Hz.
    pose proof (to_uint_nonnil n) as Hnn. destruct (uint_digits (N.to_uint n)) as [|c d] eqn:Ed.
    { by destruct (uint_digits_nonnil _ Hnn). }
    assert (c <> "0"%char) as Hc. { intros ->. destruct (N.to_uint n); try discriminate Ed; by eapply Hz. }
    split; [|exists c, d; split; [done|]; cbn [forallb] in HD; by apply andb_true_iff in HD as [? _]].
    unfold jint. cbn [app]. rewrite (proj2 (ch_eqb_neq _ _) Hc). cbn [forallb] in HD. pose proof HD as HD'. apply andb_true_iff in HD as [HD1 HD2].
    rewrite HD1. change (c :: d ++ rest) with ((c :: d) ++ rest). rewrite digits_app; [done|done|done]. }
  unfold jnum, itoa. destruct z as [|p|p].
  - change (itoa_N 0) with ["0"%char]. cbn [app]. cbn [ch_eqb]. change (ch_eqb "0" "-") with false. cbn match.
    unfold jint. cbn match. change (ch_eqb "0" "0") with true. cbn match. rewrite Hf, He. done.
  - destruct (Hpos (Npos p) ltac:(done)) as (Hj & c & r & E & Hc). rewrite E in *. cbn [app] in *.
    assert (ch_eqb c "-" = false) as ->. { apply ch_eqb_neq. intros ->. by vm_compute in Hc. }
    rewrite Hj, Hf, He. by rewrite app_nil_r.
  - destruct (Hpos (Npos p) ltac:(done)) as (Hj & _). cbn [app]. change (ch_eqb "-" "-") with true. cbn match.
    rewrite Hj, Hf, He. by rewrite app_nil_r.
Qed.
Lemma digits_uint_digits u : digits_uint (uint_digits u) = Some u.
Proof. induction u; cbn [uint_digits digits_uint]; [done|..]; by rewrite IHu. Qed.
Lemma parse_int_itoa z : in_int64 z = true -> parse_int (itoa z) = Some z.
Proof.
  intros Hz. unfold parse_int, itoa.
  assert (forall n, itoa_N n <> [] /\ digits_uint (itoa_N n) = Some (N.to_uint n)) as Hn.
  { intros n. unfold itoa_N. split; [|apply digits_uint_digits]. apply uint_digits_nonnil, to_uint_nonnil. }
  destruct z as [|p|p]; [by vm_compute| |].
  - destruct (Hn (Npos p)) as [H1 H2]. pose proof (itoa_N_isdigit (Npos p)) as HD. destruct (itoa_N (Npos p)) as [|c r] eqn:E; [done|].
    assert (ch_eqb c "-" = false) as ->.
    { apply ch_eqb_neq. intros ->. cbn [forallb] in HD. apply andb_true_iff in HD as [HD _]. by vm_compute in HD. }
    rewrite H2, DecimalN.Unsigned.of_to. cbn [Z.of_N]. by rewrite Hz.
  - destruct (Hn (Npos p)) as [H1 H2]. change (ch_eqb "-" "-") with true. cbn match.
    destruct (itoa_N (Npos p)) as [|c r] eqn:E; [done|]. rewrite H2, DecimalN.Unsigned.of_to. cbn [Z.of_N].
    change (- Z.pos p)%Z with (Z.neg p). by rewrite Hz.
Qed.

(** ** Objects *)
Lemma skip_ws_none c s : jspace c = false -> skip_ws (c :: s) = c :: s.
Proof. intros H. cbn [skip_ws]. by rewrite H. Qed.
(** [v] is the text of the value [j]. *)
Definition val_text (v : gostr) (j : json) : Prop :=
  forall f d rest, ends_num rest -> jval (S f) d (v ++ rest) = Some (j, rest).
Lemma val_str s : val_text (json_str s) (JStr (to_valid s)).
Proof.
  intros f d rest _. cbn [jval]. unfold json_str. cbn [app]. rewrite skip_ws_none by done.
  change (code dquote =? 34)%N with true. cbn match.
  rewrite <- app_assoc. cbn [app]. by rewrite jstr_json_str.
Qed.
Lemma val_int z : val_text (itoa z) (JNum (itoa z)).
Proof.
  intros f d rest Hr. cbn [jval]. pose proof (jnum_itoa z rest Hr) as Hn.
  assert (exists c s', itoa z = c :: s' /\ (isdigit c = true \/ c = "-"%char)) as (c & s' & E & Hc).
  { assert (forall n, exists c s', itoa_N n = c :: s' /\ isdigit c = true) as Hd.
    { intros n. pose proof (itoa_N_isdigit n) as HD. destruct (itoa_N n) as [|c s'] eqn:E.
      - by destruct (uint_digits_nonnil _ (to_uint_nonnil n)).
      - exists c, s'. split; [done|]. cbn [forallb] in HD. by apply andb_true_iff in HD as [? _]. }
    unfold itoa. destruct z as [|p|p]; [destruct (Hd 0%N) as (c & s' & ? & ?); eauto| |].
    - destruct (Hd (Npos p)) as (c & s' & ? & ?). eauto.
    - eauto. }
  rewrite E in *. cbn [app] in *.
  assert (jspace c = false /\ (code c =? 34)%N = false /\ ch_eqb c "{" = false /\ ch_eqb c "[" = false /\
    ch_eqb c "t" = false /\ ch_eqb c "f" = false /\ ch_eqb c "n" = false) as (H1 & H2 & H3 & H4 & H5 & H6 & H7).
  { assert (forall x, isdigit x = false -> x <> "-"%char -> ch_eqb c x = false) as Hx.
    { intros x Hx Hm. apply ch_eqb_neq. intros ->. destruct Hc; congruence. }
    rewrite !Hx by done. unfold jspace. destruct Hc as [Hc| ->]; [|done]. unfold isdigit in Hc.
    apply andb_true_iff in Hc as [Hc1%N.leb_le Hc2%N.leb_le].
    repeat match goal with |- context [(code c =? ?n)%N] => destruct (N.eqb_spec (code c) n); [lia|] end. done. }
  rewrite skip_ws_none by done. rewrite H2, H3, H4.
  assert (forall k, ch_eqb k c = ch_eqb c k) as Hsym.
  { intros k. apply eq_true_iff_eq. rewrite !ch_eqb_eq. naive_solver. }
  assert (has_prefix (str "true") (c :: s' ++ rest) = false) as ->. { cbn [str list_ascii_of_string has_prefix]. by rewrite Hsym, H5. }
  assert (has_prefix (str "false") (c :: s' ++ rest) = false) as ->. { cbn [str list_ascii_of_string has_prefix]. by rewrite Hsym, H6. }
  assert (has_prefix (str "null") (c :: s' ++ rest) = false) as ->. { cbn [str list_ascii_of_string has_prefix]. by rewrite Hsym, H7. }
  by rewrite Hn.
Qed.
(** Members: name, text, value. *)
Definition mem_text (m : gostr * gostr * json) : gostr := json_str m.1.1 ++ str ":" ++ m.1.2.
Lemma jmembers_text ms : ms <> [] -> Forall (fun m => val_text m.1.2 m.2) ms ->
  forall f d rest, length ms <= f ->
  jmembers (S f) d (join (str ",") (map mem_text ms) ++ "}"%char :: rest) =
    Some (map (fun m => (to_valid m.1.1, m.2)) ms, rest).
Proof.
  induction ms as [|[[k v] j] ms IH]; intros Hne HF f d rest Hf; [done|].
  apply Forall_cons in HF as [Hv HF]. cbn [fst snd] in Hv. cbn [length] in Hf. assert (exists g, f = S g) as [g Eg] by (exists (pred f); lia).
  assert (exists tl, join (str ",") (map mem_text ((k, v, j) :: ms)) ++ "}"%char :: rest
    = json_str k ++ str ":" ++ v ++ tl /\
    (ms = [] /\ tl = "}"%char :: rest \/ ms <> [] /\ tl = ","%char :: join (str ",") (map mem_text ms) ++ "}"%char :: rest)) as (tl & -> & Htl).
  { destruct ms as [|m ms].
    - exists ("}"%char :: rest). split; [|by left]. cbn [map join]. unfold mem_text. cbn [fst snd]. by rewrite <- !app_assoc.
    - exists (","%char :: join (str ",") (map mem_text (m :: ms)) ++ "}"%char :: rest). split; [|by right].
      cbn [map]. rewrite join_cons_cons. unfold mem_text at 1. cbn [fst snd]. by rewrite <- !app_assoc. }
  cbn [jmembers]. unfold json_str. cbn [app]. rewrite skip_ws_none by done. change (code dquote =? 34)%N with true. cbn match.
  rewrite <- app_assoc. cbn [app]. rewrite jstr_json_str. change (str ":") with [":"%char]. cbn [app].
  rewrite skip_ws_none by done. change (ch_eqb ":" ":") with true. cbn match.
  rewrite Eg at 1. rewrite Hv. 2:{ destruct Htl as [[_ ->]|[_ ->]]; cbn; auto. }
  destruct Htl as [[-> ->]|[Hms ->]].
  - rewrite skip_ws_none by done. done.
  - rewrite skip_ws_none by done. change (ch_eqb "," "}") with false. change (ch_eqb "," ",") with true. cbn match.
    rewrite Eg, IH; [done|done|done|lia].
Qed.
Lemma json_parse_obj ms : Forall (fun m => val_text m.1.2 m.2) ms ->
  json_parse (str "{" ++ join (str ",") (map mem_text ms) ++ str "}") = Some (JObj (map (fun m => (to_valid m.1.1, m.2)) ms)).
Proof.
  intros HF. unfold json_parse. set (t := str "{" ++ _ ++ str "}").
  assert (length ms + 2 <= length t) as Hlen.
  { unfold t. rewrite !app_length. change (length (str "{")) with 1. change (length (str "}")) with 1.
    assert (length ms <= length (join (str ",") (map mem_text ms))); [|lia]. clear.
    induction ms as [|m [|m' ms] IH]; [done| |].
    - cbn [map join length]. unfold mem_text. rewrite !app_length. unfold json_str. cbn [length]. lia.
    - cbn [map]. rewrite join_cons_cons, !app_length. cbn [map length] in *. change (length (str ",")) with 1. lia. }
  replace (2 * length t + 2) with (S (S (2 * length t))) by lia.
  assert (exists d, max_nesting = S d) as [d Ed]. { exists (N.to_nat 9999). unfold max_nesting. lia. }
  rewrite Ed. unfold t at 2. change (str "{") with ["{"%char]. change (str "}") with ["}"%char]. cbn [app].
  cbn [jval]. rewrite skip_ws_none by done. change (code "{" =? 34)%N with false. change (ch_eqb "{" "{") with true. cbn match.
  destruct ms as [|m ms].
  - cbn [map join app]. rewrite skip_ws_none by done. done.
  - assert (exists e r, join (str ",") (map mem_text (m :: ms)) ++ ["}"%char] = e :: r /\ e = dquote) as (e & r & E & ->).
    { destruct ms; eexists _, _; split; reflexivity. }
    pose proof (jmembers_text (m :: ms) ltac:(done) HF (2 * length t) d []) as Hm. rewrite E in *.
    rewrite skip_ws_none by done. change (ch_eqb dquote "}") with false. cbn match.
    rewrite Hm by lia. done.
Qed.

(** ** Paginate *)
Definition int_mem (name : gostr) (z : Z) : list (gostr * gostr * json) :=
  if (z =? 0)%Z then [] else [(name, itoa z, JNum (itoa z))].
Definition str_mem (name s : gostr) : list (gostr * gostr * json) :=
  match s with [] => [] | _ => [(name, json_str s, JStr (to_valid s))] end.
Definition page_mems (p : paginate) : list (gostr * gostr * json) :=
  int_mem (str "page") (pg_page p) ++ int_mem (str "page_size") (pg_size p) ++ int_mem (str "total") (pg_total p) ++
  str_mem (str "sort") (pg_sort p) ++ str_mem (str "search") (pg_search p).
Lemma marshal_mems p : marshal_page p = str "{" ++ join (str ",") (map mem_text (page_mems p)) ++ str "}".
Proof.
  unfold marshal_page, page_mems. rewrite !map_app.
  assert (forall n z, int_field n z = map mem_text (int_mem n z)) as Hi.
  { intros n z. unfold int_field, int_mem. by destruct (z =? 0)%Z. }
  assert (forall n s, str_field n s = map mem_text (str_mem n s)) as Hs. { intros n s. by destruct s. }
  by rewrite !Hi, !Hs.
Qed.
Definition valid_page (p : paginate) : paginate :=
  Paginate (pg_page p) (pg_size p) (pg_total p) (to_valid (pg_sort p)) (to_valid (pg_search p)).
Definition page_in_range (p : paginate) : Prop :=
  in_int64 (pg_page p) = true /\ in_int64 (pg_size p) = true /\ in_int64 (pg_total p) = true.
Lemma fold_map {A B C} (g : C -> B -> C) (h : A -> B) l c :
  fold_left g (map h l) c = fold_left (fun c a => g c (h a)) l c.
Proof. revert c. induction l as [|a l IH]; intros c; [done|]. cbn. apply IH. Qed.
Lemma unmarshal_marshal p : page_in_range p -> unmarshal_page (marshal_page p) = valid_page p.
Proof.
  intros (H1 & H2 & H3). unfold unmarshal_page. rewrite marshal_mems, json_parse_obj.
  2:{ unfold page_mems. repeat apply Forall_app_2.
      1-3: unfold int_mem; match goal with |- context [(?z =? 0)%Z] => destruct (z =? 0)%Z end; repeat constructor; apply val_int.
      1-2: unfold str_mem; match goal with |- context [match ?s with [] => _ | _ => _ end] => destruct s eqn:E end; repeat constructor; rewrite <- E; apply val_str. }
  unfold page_mems. rewrite !map_app, !fold_left_app.
  assert (forall p z, in_int64 z = true -> fold_left set_field (map (fun m => (to_valid m.1.1, m.2)) (int_mem (str "page") z))
     (Paginate 0 (pg_size p) (pg_total p) (pg_sort p) (pg_search p)) = Paginate z (pg_size p) (pg_total p) (pg_sort p) (pg_search p)) as E1.
  { intros q z Hz. unfold int_mem. destruct (Z.eqb_spec z 0) as [->|]; [done|]. cbn [map fold_left fst snd].
    unfold set_field. change (fold_key _) with (str "page"). cbn [str_eqb].
    change (str_eqb (str "page") (str "page")) with true. cbn match. unfold set_int. by rewrite parse_int_itoa. }
  assert (forall p z, in_int64 z = true -> fold_left set_field (map (fun m => (to_valid m.1.1, m.2)) (int_mem (str "page_size") z))
     (Paginate (pg_page p) 0 (pg_total p) (pg_sort p) (pg_search p)) = Paginate (pg_page p) z (pg_total p) (pg_sort p) (pg_search p)) as E2.
  { intros q z Hz. unfold int_mem. destruct (Z.eqb_spec z 0) as [->|]; [done|]. cbn [map fold_left fst snd].
    unfold set_field. change (fold_key _) with (str "page_size").
    change (str_eqb (str "page_size") (str "page")) with false. change (str_eqb (str "page_size") (str "page_size")) with true.
    cbn match. unfold set_int. by rewrite parse_int_itoa. }
  assert (forall p z, in_int64 z = true -> fold_left set_field (map (fun m => (to_valid m.1.1, m.2)) (int_mem (str "total") z))
     (Paginate (pg_page p) (pg_size p) 0 (pg_sort p) (pg_search p)) = Paginate (pg_page p) (pg_size p) z (pg_sort p) (pg_search p)) as E3.
  { intros q z Hz. unfold int_mem. destruct (Z.eqb_spec z 0) as [->|]; [done|]. cbn [map fold_left fst snd].
    unfold set_field. change (fold_key _) with (str "total").
    change (str_eqb (str "total") (str "page")) with false. change (str_eqb (str "total") (str "page_size")) with false.
    change (str_eqb (str "total") (str "total")) with true.
    cbn match. unfold set_int. by rewrite parse_int_itoa. }
  assert (forall p s, fold_left set_field (map (fun m => (to_valid m.1.1, m.2)) (str_mem (str "sort") s))
     (Paginate (pg_page p) (pg_size p) (pg_total p) [] (pg_search p)) = Paginate (pg_page p) (pg_size p) (pg_total p) (to_valid s) (pg_search p)) as E4.
  { intros q s. destruct s as [|c s]; [done|]. set (x := c :: s). unfold str_mem, x. cbn [map fold_left fst snd]. fold x.
    unfold set_field. change (fold_key _) with (str "sort").
    change (str_eqb (str "sort") (str "page")) with false. change (str_eqb (str "sort") (str "page_size")) with false.
    change (str_eqb (str "sort") (str "total")) with false. change (str_eqb (str "sort") (str "sort")) with true. done. }
  assert (forall p s, fold_left set_field (map (fun m => (to_valid m.1.1, m.2)) (str_mem (str "search") s))
     (Paginate (pg_page p) (pg_size p) (pg_total p) (pg_sort p) []) = Paginate (pg_page p) (pg_size p) (pg_total p) (pg_sort p) (to_valid s)) as E5.
  { intros q s. destruct s as [|c s]; [done|]. set (x := c :: s). unfold str_mem, x. cbn [map fold_left fst snd]. fold x.
    unfold set_field. change (fold_key _) with (str "search").
    change (str_eqb (str "search") (str "page")) with false. change (str_eqb (str "search") (str "page_size")) with false.
    change (str_eqb (str "search") (str "total")) with false. change (str_eqb (str "search") (str "sort")) with false.
    change (str_eqb (str "search") (str "search")) with true. done. }
  unfold zero_page.
  rewrite (E1 (Paginate 0 0 0 [] [])) by done. cbn [pg_size pg_total pg_sort pg_search].
  rewrite (E2 (Paginate (pg_page p) 0 0 [] [])) by done. cbn [pg_page pg_total pg_sort pg_search].
  rewrite (E3 (Paginate (pg_page p) (pg_size p) 0 [] [])) by done. cbn [pg_page pg_size pg_sort pg_search].
  rewrite (E4 (Paginate (pg_page p) (pg_size p) (pg_total p) [] [])). cbn [pg_page pg_size pg_total pg_search].
  rewrite (E5 (Paginate (pg_page p) (pg_size p) (pg_total p) (to_valid (pg_sort p)) [])). done.
Qed.
Lemma marshal_empty p : marshal_page p = str "{}" <-> p = zero_page.
Proof.
  split; [|by intros ->]. rewrite marshal_mems. intros H.
  destruct (page_mems p) as [|m ms] eqn:E.
  - unfold page_mems in E. apply app_nil in E as [Ea E]. apply app_nil in E as [Eb E]. apply app_nil in E as [Ec E].
    apply app_nil in E as [Ed Ee]. destruct p as [a b c d e]. cbn [pg_page pg_size pg_total pg_sort pg_search] in *.
    unfold int_mem in *. destruct (Z.eqb_spec a 0); [|done]. destruct (Z.eqb_spec b 0); [|done].
    destruct (Z.eqb_spec c 0); [|done]. destruct d; [|done]. destruct e; [|done]. by subst.
  - exfalso. assert (exists r, join (str ",") (map mem_text (m :: ms)) = dquote :: r) as [r Er].
    { destruct ms; eexists; reflexivity. }
    rewrite Er in H. discriminate H.
Qed.
