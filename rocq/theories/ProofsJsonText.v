(** Decoding an encoded value gives it back, with invalid UTF-8 replaced. *)
From Coq Require Import Ascii String NArith ZArith Lia.
From stdpp Require Import base gmap strings list.
From Verif Require Import ModelStr ProofsStr ModelJson ProofsJson ModelJsonText.

Lemma json_ind' (P : json -> Prop) :
  P JNull -> (forall b, P (JBool b)) -> (forall l, P (JNum l)) -> (forall s, P (JStr s)) ->
  (forall l, Forall P l -> P (JArr l)) -> (forall l, Forall (fun kv => P kv.2) l -> P (JObj l)) -> forall j, P j.
Proof.
  intros H1 H2 H3 H4 H5 H6. fix IH 1. intros [|b|l|s|l|l].
  - exact H1.
  - apply H2.
  - apply H3.
  - apply H4.
  - apply H5. induction l as [|x l IHl]; constructor; [apply IH|exact IHl].
  - apply H6. induction l as [|[k v] l IHl]; constructor; [apply IH|exact IHl].
Qed.

(** Number literals as the JSON grammar has them. *)
Definition num_lit (l : gostr) : Prop := jnum l = Some (l, []).
(** Nesting depth. *)
Fixpoint jdepth (j : json) : nat :=
  match j with
  | JArr l => S (foldr (fun x n => Nat.max (jdepth x) n) 0 l)
  | JObj l => S (foldr (fun kv n => Nat.max (jdepth kv.2) n) 0 l)
  | _ => 0
  end.
Fixpoint nums_ok (j : json) : Prop :=
  match j with
  | JNum l => num_lit l
  | JArr l => foldr (fun x p => nums_ok x /\ p) True l
  | JObj l => foldr (fun kv p => nums_ok kv.2 /\ p) True l
  | _ => True
  end.
Lemma nums_ok_arr l : nums_ok (JArr l) <-> Forall nums_ok l.
Proof. cbn. induction l as [|x l IH]; cbn; [by split|]. by rewrite Forall_cons, IH. Qed.
Lemma nums_ok_obj l : nums_ok (JObj l) <-> Forall (fun kv => nums_ok kv.2) l.
Proof. cbn. induction l as [|x l IH]; cbn; [by split|]. by rewrite Forall_cons, IH. Qed.
Lemma jdepth_arr l d : jdepth (JArr l) <= S d <-> Forall (fun x => jdepth x <= d) l.
Proof. cbn. induction l as [|x l IH]; cbn; [split; [done|lia]|]. rewrite Forall_cons, <- IH. lia. Qed.
Lemma jdepth_obj l d : jdepth (JObj l) <= S d <-> Forall (fun kv => jdepth kv.2 <= d) l.
Proof. cbn. induction l as [|x l IH]; cbn; [split; [done|lia]|]. rewrite Forall_cons, <- IH. lia. Qed.
(** The value that is read back. *)
Fixpoint jvalid (j : json) : json :=
  match j with
  | JStr s => JStr (to_valid s)
  | JArr l => JArr (map jvalid l)
  | JObj l => JObj (map (fun kv => (to_valid kv.1, jvalid kv.2)) l)
  | j => j
  end.

(** ** Numbers *)
Lemma digits_ext l d r rest : digits l = (d, r) -> (match rest with c :: _ => isdigit c = false | [] => True end) ->
  digits (l ++ rest) = (d, r ++ rest).
Proof.
  revert d r. induction l as [|c l IH]; intros d r H Hr.
  - cbn in H. injection H as <- <-. cbn [app]. destruct rest as [|c rest]; [done|]. cbn [digits]. by rewrite Hr.
  - cbn [digits app] in *. destruct (isdigit c); [|by injection H as <- <-].
    destruct (digits l) as [d' r'] eqn:E. injection H as <- <-. by rewrite (IH d' r').
Qed.
Lemma jnum_ext l t r rest : jnum l = Some (t, r) -> ends_num rest -> jnum (l ++ rest) = Some (t, r ++ rest).
Proof.
  intros H Hr.
  assert (jfrac rest = Some ([], rest) /\ jexp rest = Some ([], rest) /\ (match rest with c :: _ => isdigit c = false | [] => True end)) as (Hf & He & Hd).
  { destruct rest as [|c q]; [done|]. by destruct Hr as [->|[->| ->]]. }
  assert (forall l t r, jint l = Some (t, r) -> jint (l ++ rest) = Some (t, r ++ rest)) as Hi.
  { clear l t r H. intros [|c l] t r H; [done|]. unfold jint in *. cbn [app]. destruct (ch_eqb c "0"); [by injection H as <- <-|].
    destruct (isdigit c) eqn:Ec; [|done]. apply (f_equal (fun x => default ([], []) x)) in H. change (digits (c :: l) = (t, r)) in H. change (c :: l ++ rest) with ((c :: l) ++ rest). by rewrite (digits_ext _ _ _ _ H Hd). }
  assert (forall l t r, jfrac l = Some (t, r) -> jfrac (l ++ rest) = Some (t, r ++ rest)) as Hfr.
  { clear l t r H. intros [|c l] t r H; [by injection H as <- <-|]. unfold jfrac in *. cbn [app]. destruct (ch_eqb c "."); [|by injection H as <- <-].
    destruct (digits l) as [[|x d] q] eqn:E; [done|]. injection H as <- <-. by rewrite (digits_ext _ _ _ _ E Hd). }
  assert (forall l t r, jexp l = Some (t, r) -> jexp (l ++ rest) = Some (t, r ++ rest)) as Hex.
  { clear l t r H. intros [|c l] t r H; [by injection H as <- <-|]. unfold jexp in *. cbn [app].
    destruct (ch_eqb c "e" || ch_eqb c "E"); [|by injection H as <- <-].
    destruct l as [|g l]; [done|]. cbn [app]. destruct (ch_eqb g "+" || ch_eqb g "-").
    - destruct (digits l) as [[|x d] q] eqn:E; [done|]. injection H as <- <-. by rewrite (digits_ext _ _ _ _ E Hd).
    - change (g :: l ++ rest) with ((g :: l) ++ rest).
      destruct (digits (g :: l)) as [[|x d] q] eqn:E; [done|]. injection H as <- <-. by rewrite (digits_ext _ _ _ _ E Hd). }
  unfold jnum in *. destruct l as [|c l]; [done|]. cbn [app]. destruct (ch_eqb c "-").
  - destruct (jint l) as [[i s2]|] eqn:E1; [|done]. rewrite (Hi _ _ _ E1). destruct (jfrac s2) as [[f s3]|] eqn:E2; [|done].
    rewrite (Hfr _ _ _ E2). destruct (jexp s3) as [[e s4]|] eqn:E3; [|done]. rewrite (Hex _ _ _ E3). by injection H as <- <-.
  - change (c :: l ++ rest) with ((c :: l) ++ rest).
    destruct (jint (c :: l)) as [[i s2]|] eqn:E1; [|done]. rewrite (Hi _ _ _ E1). destruct (jfrac s2) as [[f s3]|] eqn:E2; [|done].
    rewrite (Hfr _ _ _ E2). destruct (jexp s3) as [[e s4]|] eqn:E3; [|done]. rewrite (Hex _ _ _ E3). by injection H as <- <-.
Qed.
Lemma num_head l : num_lit l -> exists c s, l = c :: s /\ (isdigit c = true \/ c = "-"%char).
Proof.
  unfold num_lit, jnum. destruct l as [|c s]; [done|]. intros H. exists c, s. split; [done|].
  destruct (ch_eqb c "-") eqn:E; [right; by apply ch_eqb_eq in E|]. left. unfold jint in H.
  destruct (ch_eqb c "0") eqn:E0; [by apply ch_eqb_eq in E0 as ->|]. by destruct (isdigit c).
Qed.
Lemma num_lit_itoa z : num_lit (itoa z).
Proof. unfold num_lit. pose proof (jnum_itoa z [] I) as H. by rewrite app_nil_r in H. Qed.

(** A first character that starts a number. *)
Lemma num_start c : isdigit c = true \/ c = "-"%char ->
  jspace c = false /\ (code c =? 34)%N = false /\ ch_eqb c "{" = false /\ ch_eqb c "[" = false /\
  (forall s, has_prefix (str "true") (c :: s) = false) /\ (forall s, has_prefix (str "false") (c :: s) = false) /\
  (forall s, has_prefix (str "null") (c :: s) = false).
Proof.
  intros Hc.
  assert (forall x, isdigit x = false -> x <> "-"%char -> ch_eqb c x = false) as Hx.
  { intros x Hx Hm. apply ch_eqb_neq. intros ->. destruct Hc; congruence. }
  assert (forall x, isdigit x = false -> x <> "-"%char -> ch_eqb x c = false) as Hx'.
  { intros x Hx1 Hm. apply ch_eqb_neq. intros <-. destruct Hc; congruence. }
  rewrite !Hx by done. cbn [str list_ascii_of_string has_prefix]. rewrite !Hx' by done.
  unfold jspace. destruct Hc as [Hc| ->]; [|done]. unfold isdigit in Hc.
  apply andb_true_iff in Hc as [Hc1%N.leb_le Hc2%N.leb_le].
  repeat match goal with |- context [(code c =? ?n)%N] => destruct (N.eqb_spec (code c) n); [lia|] end. done.
Qed.

(** ** Values *)
Definition reads (f d : nat) (j : json) : Prop :=
  forall rest, ends_num rest -> jval (S f) d (json_text j ++ rest) = Some (jvalid j, rest).
Lemma text_head j : nums_ok j -> exists c s, json_text j = c :: s /\ jspace c = false /\ c <> "]"%char.
Proof.
  intros Hn. destruct j as [|[]|l|s|l|l]; try (eexists _, _; split; [reflexivity|]; done).
  destruct (num_head l Hn) as (c & s & -> & Hc). exists c, s. split; [done|]. destruct (num_start c Hc) as (H & _).
  split; [done|]. intros ->. by destruct Hc.
Qed.
Lemma text_nonnil j : nums_ok j -> 1 <= length (json_text j).
Proof. intros (c & s & -> & _)%text_head. cbn. lia. Qed.
Lemma join_len_cons (s : gostr) x y l : length (join s (x :: y :: l)) = length x + length s + length (join s (y :: l)).
Proof. rewrite join_cons_cons, !app_length. lia. Qed.
Definition mtext (kv : gostr * json) : gostr := json_str kv.1 ++ str ":" ++ json_text kv.2.
Lemma reads_elems l d : l <> [] ->
  Forall (fun j => nums_ok j /\ forall f, 2 * length (json_text j) <= S f -> reads f d j) l ->
  forall f rest, 2 * length (join (str ",") (map json_text l)) <= f ->
  jelems (S f) d (join (str ",") (map json_text l) ++ "]"%char :: rest) = Some (map jvalid l, rest).
Proof.
  induction l as [|j l IH]; intros Hne HF f rest Hf; [done|]. apply Forall_cons_1 in HF as [[Hn Hj] HF].
  pose proof (text_nonnil j Hn) as Hlen.
  assert (exists g, f = S g) as [g ->].
  { destruct f; [|eauto]. exfalso. destruct l; cbn [map] in Hf; [cbn [join] in Hf; lia|]. rewrite join_len_cons in Hf. lia. }
  destruct l as [|j2 l].
  - cbn [map join] in *. cbn [jelems]. rewrite Hj; [|lia|cbn; auto]. rewrite skip_ws_none by done. done.
  - cbn [map] in *. rewrite join_len_cons in Hf. change (length (str ",")) with 1 in Hf. rewrite join_cons_cons, <- !app_assoc.
    change (str "," ++ join (str ",") (json_text j2 :: map json_text l) ++ "]"%char :: rest)
      with (","%char :: join (str ",") (json_text j2 :: map json_text l) ++ "]"%char :: rest).
    change (jelems (S (S g)) d ?t) with (match jval (S g) d t with
      | None => None | Some (v, r) => match skip_ws r with
        | c :: r' => if ch_eqb c "]"%char then Some ([v], r') else if ch_eqb c ","%char then
           match jelems (S g) d r' with Some (l, r'') => Some (v :: l, r'') | None => None end else None | [] => None end end).
    rewrite Hj; [|lia|cbn; auto]. rewrite skip_ws_none by done.
    change (ch_eqb "," "]") with false. change (ch_eqb "," ",") with true. cbn match.
    rewrite IH; [done|done|done|]. lia.
Qed.
Lemma reads_members l d : l <> [] ->
  Forall (fun kv : gostr * json => nums_ok kv.2 /\ forall f, 2 * length (json_text kv.2) <= S f -> reads f d kv.2) l ->
  forall f rest, 2 * length (join (str ",") (map mtext l)) <= f ->
  jmembers (S f) d (join (str ",") (map mtext l) ++ "}"%char :: rest) = Some (map (fun kv => (to_valid kv.1, jvalid kv.2)) l, rest).
Proof.
  induction l as [|[k j] l IH]; intros Hne HF f rest Hf; [done|]. apply Forall_cons_1 in HF as [[Hn Hj] HF]. cbn [snd] in Hn, Hj.
  pose proof (text_nonnil j Hn) as Hlen.
  assert (2 + length (json_text j) <= length (mtext (k, j))) as Hml.
  { unfold mtext, json_str. cbn [fst snd]. rewrite !app_length. cbn [length]. rewrite app_length. cbn [length]. lia. }
  assert (2 * length (mtext (k, j)) <= f) as Hf1.
  { destruct l; cbn [map] in Hf; [cbn [join] in Hf; lia|]. rewrite join_len_cons in Hf. lia. }
  assert (exists g, f = S g) as [g ->] by (exists (pred f); lia).
  assert (forall tl, ends_num tl -> jmembers (S (S g)) d (mtext (k, j) ++ tl) =
    match skip_ws tl with
    | c :: r' => if ch_eqb c "}"%char then Some ([(to_valid k, jvalid j)], r')
                 else if ch_eqb c ","%char then
                   match jmembers (S g) d r' with
                   | Some (l, r'') => Some ((to_valid k, jvalid j) :: l, r'')
                   | None => None
                   end
                 else None
    | [] => None
    end) as Hstep.
  { intros tl Htl. unfold mtext, json_str. cbn [fst snd]. cbn [jmembers]. rewrite <- !app_assoc. cbn [app]. rewrite skip_ws_none by done.
    change (code dquote =? 34)%N with true. cbn match. rewrite <- app_assoc. cbn [app].
    rewrite jstr_json_str. change (str ":") with [":"%char]. cbn [app].
    rewrite skip_ws_none by done. change (ch_eqb ":" ":") with true. cbn match.
    rewrite Hj; [done|lia|done]. }
  destruct l as [|kv2 l].
  - cbn [map join]. rewrite Hstep by (cbn; auto). rewrite skip_ws_none by done. done.
  - cbn [map] in *. rewrite join_len_cons in Hf. change (length (str ",")) with 1 in Hf. rewrite join_cons_cons, <- !app_assoc.
    change (str "," ++ join (str ",") (mtext kv2 :: map mtext l) ++ "}"%char :: rest)
      with (","%char :: join (str ",") (mtext kv2 :: map mtext l) ++ "}"%char :: rest).
    rewrite Hstep by (cbn; auto). rewrite skip_ws_none by done.
    change (ch_eqb "," "}") with false. change (ch_eqb "," ",") with true. cbn match.
    rewrite IH; [done|done|done|]. lia.
Qed.
Lemma reads_text j d f : nums_ok j -> jdepth j <= d -> 2 * length (json_text j) <= S f -> reads f d j.
Proof.
  revert d f. induction j as [|b|l|s|l IH|l IH] using json_ind'; intros d f Hn Hd Hf rest Hr.
  - reflexivity.
  - by destruct b.
  - cbn [json_text jvalid]. destruct (num_head l Hn) as (c & s & E & Hc). pose proof (jnum_ext l l [] rest Hn Hr) as Hj.
    destruct (num_start c Hc) as (H1 & H2 & H3 & H4 & H5 & H6 & H7). rewrite E in *. cbn [app] in *. cbn [jval].
    rewrite skip_ws_none by done. by rewrite H2, H3, H4, H5, H6, H7, Hj.
  - apply (val_str s f d rest Hr).
  - apply nums_ok_arr in Hn. destruct d as [|d]; [cbn in Hd; lia|]. apply jdepth_arr in Hd.
    cbn [json_text jvalid] in *. change (str "[") with ["["%char] in *. change (str "]") with ["]"%char] in *.
    rewrite !app_length in Hf. cbn [length] in Hf. cbn [app]. rewrite <- app_assoc. cbn [app].
    cbn [jval]. rewrite skip_ws_none by done. change (code "[" =? 34)%N with false. change (ch_eqb "[" "{") with false.
    change (ch_eqb "[" "[") with true. cbn match.
    destruct l as [|j l]; [cbn [map join app]; by rewrite skip_ws_none by done|].
    assert (exists c s, join (str ",") (map json_text (j :: l)) ++ "]"%char :: rest = c :: s /\ jspace c = false /\ c <> "]"%char) as (c & s & E & Hc & Hc').
    { apply Forall_cons_1 in Hn as [Hn _]. destruct (text_head j Hn) as (c & s & E & H). cbn [map].
      destruct l; cbn [map]; [cbn [join]|rewrite join_cons_cons]; rewrite E; eexists _, _; (split; [reflexivity|done]). }
    assert (exists g, f = S g) as [g ->] by (exists (pred f); lia).
    pose proof (reads_elems (j :: l) d ltac:(done)) as Hel. rewrite E in *.
    rewrite skip_ws_none by done. rewrite (proj2 (ch_eqb_neq _ _) Hc'). rewrite <- E in *. rewrite Hel; [done| |lia].
    rewrite Forall_forall in *. intros x Hx. split; [by apply Hn|]. intros f' Hf'. apply IH; auto.
  - apply nums_ok_obj in Hn. destruct d as [|d]; [cbn in Hd; lia|]. apply jdepth_obj in Hd.
    cbn [json_text jvalid] in *. change (str "{") with ["{"%char] in *. change (str "}") with ["}"%char] in *.
    change (map (fun kv : gostr * json => json_str kv.1 ++ str ":" ++ json_text kv.2) l) with (map mtext l) in *.
    rewrite !app_length in Hf. cbn [length] in Hf. cbn [app]. rewrite <- app_assoc. cbn [app].
    cbn [jval]. rewrite skip_ws_none by done. change (code "{" =? 34)%N with false. change (ch_eqb "{" "{") with true. cbn match.
    destruct l as [|kv l]; [cbn [map join app]; by rewrite skip_ws_none by done|].
    assert (exists s, join (str ",") (map mtext (kv :: l)) ++ "}"%char :: rest = dquote :: s) as (s & E).
    { cbn [map]. destruct l; cbn [map]; [cbn [join]|rewrite join_cons_cons]; eexists; reflexivity. }
    assert (exists g, f = S g) as [g ->] by (exists (pred f); lia).
    pose proof (reads_members (kv :: l) d ltac:(done)) as Hel. rewrite E in *.
    rewrite skip_ws_none by done. change (ch_eqb dquote "}") with false. cbn match. rewrite <- E in *. rewrite Hel; [done| |lia].
    rewrite Forall_forall in *. intros x Hx. split; [by apply Hn|]. intros f' Hf'. apply IH; auto.
Qed.
Theorem parse_text j : nums_ok j -> jdepth j <= max_nesting -> json_parse (json_text j) = Some (jvalid j).
Proof.
  intros Hn Hd. unfold json_parse. replace (2 * length (json_text j) + 2) with (S (S (2 * length (json_text j)))) by lia.
  pose proof (reads_text j max_nesting (S (2 * length (json_text j))) Hn Hd ltac:(lia) [] I) as H.
  rewrite app_nil_r in H. by rewrite H.
Qed.
