(** What the JSON parser returns: valid UTF-8 strings and bounded nesting. *)
From Coq Require Import Ascii String NArith ZArith Lia.
From stdpp Require Import base gmap strings list sorting.
From Verif Require Import ModelStr ProofsStr ProofsQuote ModelJson ProofsJson ModelJsonText ProofsJsonText.

Definition one_rune (p : gostr) : Prop := exists r, decode_rune p = Some (r, length p).
Lemma valid_go_skip k s : valid_utf8_go k s = valid_utf8_go 0 (drop k s).
Proof. revert k. induction s as [|c s IH]; intros [|k]; try done. simpl. apply IH. Qed.
Lemma valid_rune p v : one_rune p -> valid_utf8 v = true -> valid_utf8 (p ++ v) = true.
Proof.
  intros [r Hp] Hv. pose proof (decode_rune_app _ _ _ v Hp) as H. rewrite firstn_all in H.
  destruct p as [|c p]; [done|]. unfold valid_utf8 in *. cbn [app] in *. cbn [valid_utf8_go]. rewrite H.
  rewrite valid_go_skip. cbn [length Nat.pred]. by rewrite drop_app.
Qed.
Lemma one_rune_take s r w : decode_rune s = Some (r, w) -> one_rune (take w s).
Proof.
  intros H. exists r. pose proof (decode_rune_app _ _ _ [] H) as H2. rewrite app_nil_r in H2. rewrite H2.
  destruct (decode_rune_some _ _ _ H) as [Hw _]. rewrite take_length. do 2 f_equal. lia.
Qed.
Lemma one_rune_error : one_rune rune_error.
Proof. exists 65533%N. vm_compute. reflexivity. Qed.
Lemma one_rune_encode r : one_rune (encode_rune r).
Proof.
  unfold encode_rune. destruct (N.ltb_spec r 128) as [H1|H1].
  { exists r. cbn [decode_rune length]. rewrite code_byte by lia. destruct (N.ltb_spec r 128); [done|lia]. }
  destruct (N.ltb_spec r 2048) as [H2|H2].
  { eexists. cbn [decode_rune length]. assert (r / 64 < 32)%N by (apply N.div_lt_upper_bound; lia). assert (2 <= r / 64)%N by (apply N.div_le_lower_bound; lia).
    assert (r mod 64 < 64)%N by (apply N.mod_lt; lia). rewrite code_byte by lia.
    destruct (N.ltb_spec (192 + r / 64) 128); [lia|]. destruct (N.ltb_spec (192 + r / 64) 194); [lia|]. destruct (N.ltb_spec (192 + r / 64) 224); [|lia].
    rewrite (proj2 (is_cont_iff _ _ _)); [reflexivity|]. rewrite code_byte by lia. lia. }
  destruct (((55296 <=? r) && (r <=? 57343)) || (1114111 <? r))%N eqn:Es; [apply one_rune_error|].
  apply orb_false_iff in Es as [Es Eh]. apply N.ltb_ge in Eh.
  assert (r < 55296 \/ 57343 < r)%N as Hs.
  { apply andb_false_iff in Es as [E|E]; apply N.leb_gt in E; lia. }
  assert (forall a, a mod 64 < 64)%N as Hm by (intros; apply N.mod_lt; lia). pose proof (Hm r) as Hm0. pose proof (Hm (r / 64)%N) as Hm1. pose proof (Hm (r / 4096)%N) as Hm2.
  assert (r = 64 * (r / 64) + r mod 64)%N as D1 by (apply N.div_mod; lia).
  assert (r / 64 = 64 * (r / 64 / 64) + (r / 64) mod 64)%N as D2 by (apply N.div_mod; lia). rewrite N.div_div in D2 by lia. change (64 * 64)%N with 4096%N in D2.
  destruct (N.ltb_spec r 65536) as [H3|H3].
  { assert (r / 4096 < 16)%N by (apply N.div_lt_upper_bound; lia).
    eexists. cbn [decode_rune length]. rewrite (code_byte (224 + r / 4096)) by lia.
    destruct (N.ltb_spec (224 + r / 4096) 128); [lia|]. destruct (N.ltb_spec (224 + r / 4096) 194); [lia|]. destruct (N.ltb_spec (224 + r / 4096) 224); [lia|].
    destruct (N.ltb_spec (224 + r / 4096) 240); [|lia]. cbv zeta.
    rewrite (proj2 (is_cont_iff _ _ _)).
    2:{ rewrite code_byte by lia. destruct (N.eqb_spec (224 + r / 4096) 224); destruct (N.eqb_spec (224 + r / 4096) 237); lia. }
    rewrite (proj2 (is_cont_iff _ _ _)); [reflexivity|]. rewrite code_byte by lia. lia. }
  assert (r / 4096 = 64 * (r / 4096 / 64) + (r / 4096) mod 64)%N as D3 by (apply N.div_mod; lia). rewrite N.div_div in D3 by lia. change (4096 * 64)%N with 262144%N in D3.
  assert (r / 262144 < 5)%N by (apply N.div_lt_upper_bound; lia).
  eexists. cbn [decode_rune length]. rewrite (code_byte (240 + r / 262144)) by lia.
  destruct (N.ltb_spec (240 + r / 262144) 128); [lia|]. destruct (N.ltb_spec (240 + r / 262144) 194); [lia|]. destruct (N.ltb_spec (240 + r / 262144) 224); [lia|].
  destruct (N.ltb_spec (240 + r / 262144) 240); [lia|]. destruct (N.ltb_spec (240 + r / 262144) 245); [|lia]. cbv zeta.
  rewrite (proj2 (is_cont_iff _ _ _)).
  2:{ rewrite code_byte by lia. destruct (N.eqb_spec (240 + r / 262144) 240); destruct (N.eqb_spec (240 + r / 262144) 244); lia. }
  rewrite (proj2 (is_cont_iff _ _ _)) by (rewrite code_byte by lia; lia).
  rewrite (proj2 (is_cont_iff _ _ _)) by (rewrite code_byte by lia; lia). reflexivity.
Qed.
Lemma one_rune_ascii c : (code c < 128)%N -> one_rune [c].
Proof. intros H. exists (code c). cbn [decode_rune length]. by rewrite (proj2 (N.ltb_lt _ _) H). Qed.

Lemma jstr_valid k s v r : jstr k s = Some (v, r) -> valid_utf8 v = true.
Proof.
  revert k v r. induction s as [|c s IH]; intros k v r; [destruct k; done|]. destruct k as [|k]; [|apply (IH k)].
  cbn [jstr]. 
  assert (forall x k', one_rune x -> match jstr k' s with Some (v, r) => Some (x ++ v, r) | None => None end = Some (v, r) -> valid_utf8 v = true) as Hadd.
  { intros x k' Hx H. destruct (jstr k' s) as [[v' r']|] eqn:E; [|done]. injection H as <- <-. apply valid_rune; [done|]. by eapply IH. }
  destruct (code c =? 34)%N; [by intros [= <- <-]|]. destruct (code c <? 32)%N; [done|].
  destruct (code c =? 92)%N.
  - destruct s as [|e s']; [done|].
    destruct ((code e =? 34) || (code e =? 92) || (code e =? 47))%N eqn:Ee.
    { apply Hadd. apply one_rune_ascii. rewrite !orb_true_iff, !N.eqb_eq in Ee. lia. }
    repeat match goal with |- (if (code e =? ?n)%N then match jstr 1 _ with _ => _ end else _) = _ -> _ =>
      destruct (code e =? n)%N; [apply Hadd; apply one_rune_ascii; vm_compute; reflexivity|] end.
    destruct (code e =? 117)%N; [|done]. destruct (hex4val s') as [h|]; [|done].
    destruct ((55296 <=? h) && (h <? 57344))%N.
    + destruct (surrogate_pair h (drop 4 s')) as [p|]; apply Hadd; [apply one_rune_encode|apply one_rune_error].
    + apply Hadd, one_rune_encode.
  - destruct (decode_rune (c :: s)) as [[h w]|] eqn:E; [|apply Hadd, one_rune_error].
    apply Hadd. by eapply one_rune_take.
Qed.

(** Strings and keys are valid UTF-8. *)
Inductive parsed : json -> Prop :=
| q_null : parsed JNull
| q_bool b : parsed (JBool b)
| q_num l : parsed (JNum l)
| q_str s : valid_utf8 s = true -> parsed (JStr s)
| q_arr l : Forall parsed l -> parsed (JArr l)
| q_obj l : Forall (fun kv => valid_utf8 kv.1 = true /\ parsed kv.2) l -> parsed (JObj l).
Lemma jval_parsed f : forall d s,
  (forall j r, jval f d s = Some (j, r) -> parsed j /\ jdepth j <= d) /\
  (forall l r, jelems f d s = Some (l, r) -> Forall (fun j => parsed j /\ jdepth j <= d) l) /\
  (forall l r, jmembers f d s = Some (l, r) -> Forall (fun kv => valid_utf8 kv.1 = true /\ parsed kv.2 /\ jdepth kv.2 <= d) l).
Proof.
  induction f as [|f IH]; intros d s; [done|]. split; [|split].
  - intros j r. cbn [jval]. destruct (skip_ws s) as [|c s']; [done|].
    destruct (code c =? 34)%N.
    { destruct (jstr 0 s') as [[v q]|] eqn:E; [|done]. intros [= <- <-]. split; [constructor; by eapply jstr_valid|cbn; lia]. }
    destruct (ch_eqb c "{").
    { destruct d as [|d]; [done|]. destruct (skip_ws s') as [|e q]; [done|]. destruct (ch_eqb e "}").
      - intros [= <- <-]. split; [repeat constructor|cbn; lia].
      - destruct (jmembers f d (e :: q)) as [[l q']|] eqn:E; [|done]. intros [= <- <-]. apply IH in E. split.
        + constructor. eapply Forall_impl; [exact E|]. cbn. tauto.
        + apply jdepth_obj. eapply Forall_impl; [exact E|]. cbn. tauto. }
    destruct (ch_eqb c "[").
    { destruct d as [|d]; [done|]. destruct (skip_ws s') as [|e q]; [done|]. destruct (ch_eqb e "]").
      - intros [= <- <-]. split; [repeat constructor|cbn; lia].
      - destruct (jelems f d (e :: q)) as [[l q']|] eqn:E; [|done]. intros [= <- <-]. apply IH in E. split.
        + constructor. eapply Forall_impl; [exact E|]. cbn. tauto.
        + apply jdepth_arr. eapply Forall_impl; [exact E|]. cbn. tauto. }
    repeat match goal with |- (if has_prefix ?p ?q then _ else _) = _ -> _ => destruct (has_prefix p q); [intros [= <- <-]; split; [constructor|cbn; lia]|] end.
    destruct (jnum (c :: s')) as [[l q]|]; [|done]. intros [= <- <-]. split; [constructor|cbn; lia].
  - intros l r. cbn [jelems]. destruct (jval f d s) as [[v q]|] eqn:E; [|done]. apply IH in E.
    destruct (skip_ws q) as [|c q']; [done|]. destruct (ch_eqb c "]"); [intros [= <- <-]; constructor; [done|constructor]|].
    destruct (ch_eqb c ","); [|done]. destruct (jelems f d q') as [[l' q'']|] eqn:E2; [|done]. intros [= <- <-]. apply IH in E2. by constructor.
  - intros l r. cbn [jmembers]. destruct (skip_ws s) as [|q s1]; [done|]. destruct (code q =? 34)%N; [|done].
    destruct (jstr 0 s1) as [[k s2]|] eqn:E; [|done]. apply jstr_valid in E. destruct (skip_ws s2) as [|col s3]; [done|]. destruct (ch_eqb col ":"); [|done].
    destruct (jval f d s3) as [[v r']|] eqn:Ev; [|done]. apply IH in Ev.
    destruct (skip_ws r') as [|c r2]; [done|]. destruct (ch_eqb c "}"); [intros [= <- <-]; constructor; [done|constructor]|].
    destruct (ch_eqb c ","); [|done]. destruct (jmembers f d r2) as [[l' q'']|] eqn:E2; [|done]. intros [= <- <-]. apply IH in E2. by constructor.
Qed.
Lemma json_parse_parsed s j : json_parse s = Some j -> parsed j /\ jdepth j <= max_nesting.
Proof.
  unfold json_parse. destruct (jval _ _ _) as [[v r]|] eqn:E; [|done]. apply jval_parsed in E.
  destruct (skip_ws r); [|done]. by intros [= <-].
Qed.
