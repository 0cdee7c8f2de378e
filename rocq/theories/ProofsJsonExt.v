(** A JSON value at the start of a longer text. *)
From Coq Require Import Ascii String NArith ZArith Lia.
From stdpp Require Import base gmap strings list.
From Verif Require Import ModelStr ProofsStr ProofsQuote ModelJson ProofsJson ModelJsonText ProofsJsonText ProofsJsonParse.

Definition quoted (s : gostr) : Prop := exists q, q ∈ s /\ code q = 34%N.
Lemma jstr_quoted k s v r : jstr k s = Some (v, r) -> quoted (drop k s).
Proof.
  revert k v r. induction s as [|c s IH]; intros k v r; [destruct k; done|]. destruct k as [|k]; [|apply (IH k)].
  cbn [jstr drop].
  assert (forall (x : gostr) k', match jstr k' s with Some (v, r) => Some (x ++ v, r) | None => None end = Some (v, r) -> quoted (c :: s)) as Hadd.
  { intros x k' H. destruct (jstr k' s) as [[v' r']|] eqn:E; [|done]. destruct (IH _ _ _ E) as (q & Hq & Hc). exists q. split; [|done]. right.
    rewrite <- (take_drop k' s). apply elem_of_app. by right. }
  destruct (code c =? 34)%N eqn:Ec. { intros _. exists c. split; [left|]. by apply N.eqb_eq. }
  destruct (code c <? 32)%N; [done|]. destruct (code c =? 92)%N.
  - destruct s as [|e s']; [done|]. destruct ((code e =? 34) || (code e =? 92) || (code e =? 47))%N; [apply Hadd|].
    repeat match goal with |- (if (code e =? ?n)%N then match jstr 1 _ with _ => _ end else _) = _ -> _ => destruct (code e =? n)%N; [apply Hadd|] end.
    destruct (code e =? 117)%N; [|done]. destruct (hex4val s') as [h|]; [|done].
    destruct ((55296 <=? h) && (h <? 57344))%N; [|apply Hadd].
    destruct (surrogate_pair h (drop 4 s')) as [p|]; apply Hadd.
  - destruct (decode_rune (c :: s)) as [[h w]|] eqn:E; apply Hadd.
Qed.
Lemma quoted_nil : ~ quoted [].
Proof. intros (q & Hq & _). by apply elem_of_nil in Hq. Qed.
Lemma quoted_cons c s : quoted (c :: s) -> code c = 34%N \/ quoted s.
Proof. intros (q & [->|Hq]%elem_of_cons & Hc); [by left|right; by exists q]. Qed.
Lemma cont_quote lo hi c : code c = 34%N -> (128 <= lo)%N -> is_cont lo hi c = false.
Proof. intros Hc Hl. unfold is_cont. rewrite Hc. apply andb_false_intro1. apply N.leb_gt. lia. Qed.
Lemma decode_rune_ext c s t : quoted s -> decode_rune (c :: s ++ t) = decode_rune (c :: s).
Proof.
  intros H. unfold decode_rune.
  destruct (code c <? 128)%N; [done|]. destruct (code c <? 194)%N; [done|].
  destruct (code c <? 224)%N. { destruct s as [|c1 s]; [by destruct quoted_nil|done]. }
  assert (128 <= (if (code c =? 224)%N then 160%N else 128%N))%N as H1 by (match goal with |- context [if ?b then _ else _] => destruct b end; apply N.leb_le; reflexivity).
  assert (128 <= (if (code c =? 240)%N then 144%N else 128%N))%N as H2 by (match goal with |- context [if ?b then _ else _] => destruct b end; apply N.leb_le; reflexivity).
  destruct (code c <? 240)%N.
  { destruct s as [|c1 [|c2 s]]; [by destruct quoted_nil| |done]. apply quoted_cons in H as [H|H%quoted_nil]; [|done]. cbn [app].
    destruct t as [|c2 t]; [done|]. by rewrite (cont_quote _ _ _ H). }
  destruct (code c <? 245)%N; [|done].
  destruct s as [|c1 [|c2 [|c3 s]]]; [by destruct quoted_nil| | |done].
  - apply quoted_cons in H as [H|H%quoted_nil]; [|done]. cbn [app].
    destruct t as [|c2 [|c3 t]]; [done..|]. by rewrite (cont_quote _ _ _ H).
  - cbn [app]. destruct t as [|c3 t]; [done|]. apply quoted_cons in H as [H|[H|H%quoted_nil]%quoted_cons]; [..|done].
    + by rewrite (cont_quote _ _ _ H).
    + rewrite (cont_quote 128 191 c2 H) by lia. by rewrite andb_false_r.
Qed.
Lemma hexval_quote c : code c = 34%N -> hexval c = None.
Proof. intros H. unfold hexval. by rewrite H. Qed.
Lemma hex4val_ext s t : quoted s -> hex4val (s ++ t) = hex4val s.
Proof.
  intros H. destruct s as [|a [|b [|c [|d s]]]]; [by destruct quoted_nil| | | |done]; cbn [app];
    repeat match goal with H : quoted (_ :: _) |- _ => apply quoted_cons in H as [H|H] end;
    try (by destruct (quoted_nil H)); apply hexval_quote in H; unfold hex4val;
    repeat match goal with |- context [match ?t with _ => _ end] => is_var t; destruct t end;
    rewrite ?H; try done; repeat match goal with |- context [hexval ?x] => destruct (hexval x) end; done.
Qed.
Lemma surrogate_ext h s t : quoted s -> surrogate_pair h (s ++ t) = surrogate_pair h s.
Proof.
  intros H. destruct s as [|b [|u s]]; [by destruct quoted_nil| |].
  - apply quoted_cons in H as [H|H%quoted_nil]; [|done]. unfold surrogate_pair. cbn [app]. destruct t as [|u t]; [done|].
    assert (ch_eqb b "\" = false) as ->; [|done]. apply not_true_iff_false. intros Hb%ch_eqb_eq. by subst b.
  - unfold surrogate_pair. cbn [app]. destruct (ch_eqb b "\" && ch_eqb u "u") eqn:E; [|done]. rewrite hex4val_ext; [done|].
    apply andb_true_iff in E as [Hb%ch_eqb_eq Hu%ch_eqb_eq]. subst. apply quoted_cons in H as [H|[H|H]%quoted_cons]; done.
Qed.
Lemma jstr_ext k s t v r : jstr k s = Some (v, r) -> jstr k (s ++ t) = Some (v, r ++ t).
Proof.
  revert k v r. induction s as [|c s IH]; intros k v r; [destruct k; done|]. destruct k as [|k]; [|apply (IH k)].
  change ((c :: s) ++ t) with (c :: (s ++ t)). cbn [jstr].
  assert (forall (x : gostr) k', match jstr k' s with Some (v, r) => Some (x ++ v, r) | None => None end = Some (v, r) ->
    match jstr k' (s ++ t) with Some (v, r) => Some (x ++ v, r) | None => None end = Some (v, r ++ t)) as Hadd.
  { intros x k' H. destruct (jstr k' s) as [[v' r']|] eqn:E; [|done]. rewrite (IH _ _ _ E). by injection H as <- <-. }
  assert (forall (x : gostr) k', match jstr k' s with Some (v, r) => Some (x ++ v, r) | None => None end = Some (v, r) -> quoted (drop k' s)) as Hq.
  { intros x k' H. destruct (jstr k' s) as [[v' r']|] eqn:E; [|done]. by eapply jstr_quoted. }
  destruct (code c =? 34)%N eqn:Ec. { intros [= <- <-]. done. }
  destruct (code c <? 32)%N; [done|]. destruct (code c =? 92)%N.
  - destruct s as [|e s']; [done|]. change ((e :: s') ++ t) with (e :: (s' ++ t)) in *. cbv iota. destruct ((code e =? 34) || (code e =? 92) || (code e =? 47))%N; [apply Hadd|].
    repeat match goal with |- (if (code e =? ?n)%N then match jstr 1 _ with _ => _ end else _) = _ -> _ => destruct (code e =? n)%N; [apply Hadd|] end.
    destruct (code e =? 117)%N; [|done].
    destruct s' as [|x1 [|x2 [|x3 [|x4 s']]]]; [done..|]. change ((x1 :: x2 :: x3 :: x4 :: s') ++ t) with (x1 :: x2 :: x3 :: x4 :: (s' ++ t)) in *.
    assert (hex4val (x1 :: x2 :: x3 :: x4 :: s' ++ t) = hex4val (x1 :: x2 :: x3 :: x4 :: s')) as -> by done.
    destruct (hex4val (x1 :: x2 :: x3 :: x4 :: s')) as [h|]; [|done].
    destruct ((55296 <=? h) && (h <? 57344))%N; [|apply Hadd]. cbn [drop]. rewrite ?drop_0.
    intros H. assert (quoted s') as Hs.
    { destruct (surrogate_pair h s'); apply Hq in H; [|done]. destruct H as (q & Hin & Hc). exists q. split; [|done].
      cbn [drop] in Hin. by apply elem_of_list_lookup in Hin as [i Hi]; rewrite lookup_drop in Hi; apply elem_of_list_lookup_2 in Hi. }
    rewrite (surrogate_ext _ _ _ Hs). destruct (surrogate_pair h s') as [p|]; by apply Hadd.
  - intros H. assert (quoted s) as Hs.
    { destruct (decode_rune (c :: s)) as [[h w]|]; apply Hq in H; destruct H as (q & Hin & Hc); exists q; (split; [|done]);
        by apply elem_of_list_lookup in Hin as [i Hi]; rewrite lookup_drop in Hi; apply elem_of_list_lookup_2 in Hi. }
    rewrite (decode_rune_ext _ _ _ Hs). destruct (decode_rune (c :: s)) as [[h w]|] eqn:E; [|by apply Hadd].
    apply (Hadd (take w (c :: s))) in H. assert (take w (c :: s ++ t) = take w (c :: s)) as ->; [|done].
    change (c :: s ++ t) with ((c :: s) ++ t). apply take_app_le. by apply decode_rune_some in E as [? _]; lia.
Qed.

(** ** Values *)
Lemma skip_ws_ext s c r t : skip_ws s = c :: r -> skip_ws (s ++ t) = c :: r ++ t.
Proof. induction s as [|x s IH]; [done|]. cbn. destruct (jspace x); [done|]. intros [= -> ->]. done. Qed.
Lemma skip_ws_all s t : skip_ws s = [] -> skip_ws (s ++ t) = skip_ws t.
Proof. induction s as [|x s IH]; [done|]. cbn. destruct (jspace x); [done|discriminate]. Qed.
Lemma has_prefix_first p c s : has_prefix p (c :: s) = true -> match p with a :: _ => a = c | [] => True end.
Proof. intros [r Hr]%has_prefix_true. destruct p; [done|]. by injection Hr. Qed.
Lemma jnum_first c s x : jnum (c :: s) = Some x -> c <> "t"%char /\ c <> "f"%char /\ c <> "n"%char.
Proof.
  unfold jnum. destruct (ch_eqb c "-") eqn:E; [apply ch_eqb_eq in E as ->; done|]. cbn [jint].
  destruct (ch_eqb c "0") eqn:E0; [apply ch_eqb_eq in E0 as ->; done|]. destruct (isdigit c) eqn:Ed; [|done]. intros _.
  split; [|split]; intros ->; discriminate Ed.
Qed.
Lemma has_prefix_ext p s t : has_prefix p s = true -> has_prefix p (s ++ t) = true /\ drop (length p) (s ++ t) = drop (length p) s ++ t.
Proof. intros [r ->]%has_prefix_true. rewrite <- app_assoc, has_prefix_app. split; [done|]. by rewrite !drop_app. Qed.
Lemma jval_ext f : forall f' d d' s t, f <= f' -> ends_num t ->
  (forall j r, jval f d s = Some (j, r) -> jdepth j <= d' -> jval f' d' (s ++ t) = Some (j, r ++ t)) /\
  (forall l r, jelems f d s = Some (l, r) -> Forall (fun j => jdepth j <= d') l -> jelems f' d' (s ++ t) = Some (l, r ++ t)) /\
  (forall l r, jmembers f d s = Some (l, r) -> Forall (fun kv => jdepth kv.2 <= d') l -> jmembers f' d' (s ++ t) = Some (l, r ++ t)).
Proof.
  induction f as [|f IH]; intros f' d d' s t Hf Ht; [done|]. destruct f' as [|f']; [lia|]. assert (f <= f') as Hf' by lia. split; [|split].
  - intros j r. cbn [jval]. destruct (skip_ws s) as [|c s'] eqn:Es; [done|]. rewrite (skip_ws_ext _ _ _ t Es).
    destruct (code c =? 34)%N.
    { destruct (jstr 0 s') as [[v q]|] eqn:E; [|done]. intros [= <- <-] _. by rewrite (jstr_ext _ _ t _ _ E). }
    destruct (ch_eqb c "{").
    { destruct d as [|d]; [done|]. destruct (skip_ws s') as [|e q] eqn:Es'; [done|]. rewrite (skip_ws_ext _ _ _ t Es'). destruct (ch_eqb e "}").
      - intros [= <- <-] Hd. destruct d'; [cbn in Hd; lia|done].
      - destruct (jmembers f d (e :: q)) as [[l q']|] eqn:E; [|done]. intros [= <- <-] Hd. destruct d' as [|d']; [cbn in Hd; lia|].
        apply jdepth_obj in Hd. destruct (IH f' d d' (e :: q) t Hf' Ht) as (_ & _ & IHm).
        change (e :: q ++ t) with ((e :: q) ++ t). by rewrite (IHm _ _ E Hd). }
    destruct (ch_eqb c "[").
    { destruct d as [|d]; [done|]. destruct (skip_ws s') as [|e q] eqn:Es'; [done|]. rewrite (skip_ws_ext _ _ _ t Es'). destruct (ch_eqb e "]").
      - intros [= <- <-] Hd. destruct d'; [cbn in Hd; lia|done].
      - destruct (jelems f d (e :: q)) as [[l q']|] eqn:E; [|done]. intros [= <- <-] Hd. destruct d' as [|d']; [cbn in Hd; lia|].
        apply jdepth_arr in Hd. destruct (IH f' d d' (e :: q) t Hf' Ht) as (_ & IHe & _).
        change (e :: q ++ t) with ((e :: q) ++ t). by rewrite (IHe _ _ E Hd). }
    change (c :: s' ++ t) with ((c :: s') ++ t). intros H _. revert H.
    assert (forall p, match p with a :: _ => a <> c | [] => False end -> has_prefix p ((c :: s') ++ t) = false) as Hno.
    { intros p Hp. apply not_true_iff_false. intros H%has_prefix_first. by destruct p. }
    destruct (has_prefix (str "true") (c :: s')) eqn:E1.
    { destruct (has_prefix_ext _ _ t E1) as [-> Hdr]. intros [= <- <-]. f_equal. f_equal. exact Hdr. }
    destruct (has_prefix (str "false") (c :: s')) eqn:E2.
    { rewrite (Hno (str "true")) by (apply has_prefix_first in E2; cbn in *; congruence).
      destruct (has_prefix_ext _ _ t E2) as [-> Hdr]. intros [= <- <-]. f_equal. f_equal. exact Hdr. }
    destruct (has_prefix (str "null") (c :: s')) eqn:E3.
    { rewrite (Hno (str "true")), (Hno (str "false")) by (apply has_prefix_first in E3; cbn in *; congruence).
      destruct (has_prefix_ext _ _ t E3) as [-> Hdr]. intros [= <- <-]. f_equal. f_equal. exact Hdr. }
    destruct (jnum (c :: s')) as [[l q]|] eqn:E; [|done]. intros [= <- <-]. destruct (jnum_first _ _ _ E) as (? & ? & ?).
    rewrite (Hno (str "true")), (Hno (str "false")), (Hno (str "null")) by (cbn; congruence).
    by rewrite (jnum_ext _ _ _ _ E Ht).
  - intros l r. cbn [jelems]. destruct (IH f' d d' s t Hf' Ht) as (IHv & _ & _). destruct (jval f d s) as [[v q]|] eqn:E; [|done].
    destruct (skip_ws q) as [|c q'] eqn:Eq; [done|]. intros H Hd.
    assert (jdepth v <= d') as Hv.
    { destruct (ch_eqb c "]"); [injection H as <- <-; by inversion Hd|]. destruct (ch_eqb c ","); [|done]. destruct (jelems f d q') as [[l' q'']|]; [|done].
      injection H as <- <-. by inversion Hd. }
    rewrite (IHv _ _ eq_refl Hv), (skip_ws_ext _ _ _ t Eq). destruct (ch_eqb c "]"); [by injection H as <- <-|]. destruct (ch_eqb c ","); [|done].
    destruct (jelems f d q') as [[l' q'']|] eqn:E2; [|done]. injection H as <- <-. destruct (IH f' d d' q' t Hf' Ht) as (_ & IHe & _).
    inversion Hd; subst. by rewrite (IHe _ _ E2).
  - intros l r. cbn [jmembers]. destruct (skip_ws s) as [|q s1] eqn:Es; [done|]. rewrite (skip_ws_ext _ _ _ t Es). destruct (code q =? 34)%N; [|done].
    destruct (jstr 0 s1) as [[k s2]|] eqn:Ek; [|done]. rewrite (jstr_ext _ _ t _ _ Ek). destruct (skip_ws s2) as [|col s3] eqn:Es2; [done|].
    rewrite (skip_ws_ext _ _ _ t Es2). destruct (ch_eqb col ":"); [|done].
    destruct (IH f' d d' s3 t Hf' Ht) as (IHv & _ & _). destruct (jval f d s3) as [[v r']|] eqn:Ev; [|done].
    destruct (skip_ws r') as [|c r2] eqn:Er; [done|]. intros H Hd.
    assert (jdepth v <= d') as Hv.
    { destruct (ch_eqb c "}"); [injection H as <- <-; by inversion Hd|]. destruct (ch_eqb c ","); [|done]. destruct (jmembers f d r2) as [[l' q'']|]; [|done].
      injection H as <- <-. by inversion Hd. }
    rewrite (IHv _ _ eq_refl Hv), (skip_ws_ext _ _ _ t Er). destruct (ch_eqb c "}"); [by injection H as <- <-|]. destruct (ch_eqb c ","); [|done].
    destruct (jmembers f d r2) as [[l' q'']|] eqn:E2; [|done]. injection H as <- <-. destruct (IH f' d d' r2 t Hf' Ht) as (_ & _ & IHm).
    inversion Hd; subst. by rewrite (IHm _ _ E2).
Qed.
