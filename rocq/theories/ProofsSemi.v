(** A selector text followed by a literal ';' never parses; consequences for restricted searches. *)
From Coq Require Import Ascii String NArith ZArith Lia.
From stdpp Require Import base gmap strings list sorting.
From Verif Require Import ModelStr ModelSort ProofsSort ProofsStr ModelLabels SpecLabels ProofsLabels ProofsParse ModelPage SpecPage ProofsPage ProofsSel.

Local Notation semi := ";"%char.
Definition semi_free (it : item) : Prop := it.1 = TId -> semi ∉ it.2.

(** ** Lexer *)
Lemma scan_ident_semi a b : Forall (fun c => is_nul c = false) a ->
  let '(w, r) := scan_ident (a ++ semi :: b) in
  semi ∈ w \/ exists a', Forall (fun c => is_nul c = false) a' /\ r = a' ++ semi :: b /\ length a' <= length a.
Proof.
  induction a as [|c a IH]; intros Ha.
  - cbn [app scan_ident]. change (is_nul semi) with false. change (is_special semi || is_ws semi) with false. cbv iota.
    destruct (scan_ident b) as [w r]. left. by left.
  - apply Forall_cons in Ha as [Hc Ha]. cbn [app scan_ident]. rewrite Hc. destruct (is_special c || is_ws c).
    + right. exists (c :: a). split; [by constructor|]. done.
    + specialize (IH Ha). destruct (scan_ident (a ++ semi :: b)) as [w r]. destruct IH as [IH|(a' & H1 & H2 & H3)]; [left; by right|].
      right. exists a'. repeat split; [done|done|cbn; lia].
Qed.
Lemma skip_ws_semi a b : Forall (fun c => is_nul c = false) a ->
  exists a', skip_ws (a ++ semi :: b) = a' ++ semi :: b /\ Forall (fun c => is_nul c = false) a' /\ length a' <= length a.
Proof.
  induction 1 as [|c a Hc Ha IH]; [by exists []|]. cbn [app skip_ws]. destruct (is_ws c).
  - destruct IH as (a' & H1 & H2 & H3). exists a'. repeat split; [done|done|cbn; lia].
  - exists (c :: a). repeat split; [by constructor|done].
Qed.
Lemma drop_nul_semi a b : Forall (fun c => is_nul c = false) a -> drop_nul (a ++ semi :: b) = a ++ semi :: b.
Proof. destruct a as [|c a]; [done|]. intros [Hc _]%Forall_cons. cbn [app drop_nul]. by rewrite Hc. Qed.
Lemma keyword_semi w : semi ∈ w -> keyword w = TId.
Proof.
  intros H. unfold keyword. destruct (str_eqb w (str "in")) eqn:E1.
  { apply str_eqb_eq in E1. subst. exfalso. revert H. apply (bool_decide_unpack (semi ∉ str "in")). by vm_compute. }
  destruct (str_eqb w (str "notin")) eqn:E2; [|done].
  apply str_eqb_eq in E2. subst. exfalso. revert H. apply (bool_decide_unpack (semi ∉ str "notin")). by vm_compute.
Qed.
Lemma lex_semi f : forall a b, Forall (fun c => is_nul c = false) a -> length a < f ->
  Exists (fun it : item => it.1 = TId /\ semi ∈ it.2) (lex f (a ++ semi :: b)).
Proof.
  induction f as [|f IH]; intros a b Ha Hf; [lia|]. cbn [lex].
  destruct (skip_ws_semi a b Ha) as (a' & Hsk & Ha' & Hl). rewrite Hsk. destruct a' as [|c a'].
  - cbn [app]. change (is_nul semi) with false. change (special1 semi) with (@None token). cbv iota.
    pose proof (scan_ident_semi [] b (Forall_nil_2 _)) as H. cbn [app] in H. destruct (scan_ident (semi :: b)) as [w r] eqn:E.
    cbn [scan_ident] in E. change (is_nul semi) with false in E. change (is_special semi || is_ws semi) with false in E. cbv iota in E.
    destruct (scan_ident b). injection E as <- <-. apply Exists_cons. left. split; [apply keyword_semi; by left|by left].
  - cbn [app]. pose proof Ha' as [Hc Ha'']%Forall_cons. rewrite Hc. cbn in Hl. destruct (special1 c) as [t|] eqn:Esp.
    + assert (exists it a2, scan_special c t (a' ++ semi :: b) = (it, a2 ++ semi :: b) /\ Forall (fun c => is_nul c = false) a2 /\ length a2 <= length a') as (it & a2 & -> & H2 & H3).
      { destruct a' as [|d a'].
        - cbn [app scan_special]. assert (special2 c semi = None) as ->. { unfold special2. by destruct (ch_eqb c "="%char), (ch_eqb c "!"%char). }
          eexists _, []. split; [done|]. done.
        - cbn [app scan_special]. apply Forall_cons in Ha'' as [Hd Ha3]. destruct (special2 c d).
          + eexists _, a'. rewrite drop_nul_semi by done. split; [done|]. split; [done|cbn; lia].
          + eexists _, (d :: a'). split; [cbn [drop_nul app]; by rewrite Hd|]. split; [by constructor|done]. }
      apply Exists_cons. right. apply IH; [done|lia].
    + cbn [app] in Hsk. apply skip_ws_head in Hsk. cbn [scan_ident]. rewrite Hc.
      destruct (is_special c || is_ws c) eqn:Es; [rewrite Hsk, orb_false_r in Es; unfold is_special in Es; by rewrite Esp in Es|].
      pose proof (scan_ident_semi a' b Ha'') as H. destruct (scan_ident (a' ++ semi :: b)) as [w r]. apply Exists_cons.
      destruct H as [H|(a2 & H1 & -> & H3)]; [left; split; [apply keyword_semi; by right|by right]|right]. apply IH; [done|lia].
Qed.

(** ** Parser *)
Lemma value_semi v : valid_value v = true -> semi ∉ v.
Proof. intros H Hin. apply valid_value_chars in H. rewrite Forall_forall in H. specialize (H _ Hin). by vm_compute in H. Qed.
Lemma key_semi v : valid_key v = true -> semi ∉ v.
Proof. intros H Hin. apply valid_key_chars in H as [_ H]. rewrite Forall_forall in H. specialize (H _ Hin). by vm_compute in H. Qed.
Lemma parse_idents_used ts : forall acc vs rest, parse_idents acc ts = Some (vs, rest) ->
  exists used, ts = used ++ rest /\ Forall (fun it => vtok it.1 = TId -> it.2 ∈ vs) used /\ (forall x, x ∈ acc -> x ∈ vs).
Proof.
  induction ts as [ts IH] using (induction_ltof1 _ (@length item)). unfold ltof in IH. intros acc vs rest H.
  destruct ts as [|[t lit] ts]; [done|]. cbn [parse_idents] in H. destruct (vtok t) eqn:Et; try done.
  - assert (forall acc', (forall x, x ∈ acc -> x ∈ acc') -> forall ts', length ts' <= length ts ->
      (exists pre, ts = pre ++ ts' /\ Forall (fun it => vtok it.1 <> TId) pre) -> parse_idents acc' ts' = Some (vs, rest) ->
      exists used, (t, lit) :: ts = used ++ rest /\ Forall (fun it => vtok it.1 = TId -> it.2 ∈ vs) used /\ (forall x, x ∈ acc -> x ∈ vs)) as Hrec.
    { intros acc' Hacc ts' Hl (pre & -> & Hpre) Hp. destruct (IH ts' ltac:(cbn; lia) acc' vs rest Hp) as (used & -> & HF & Hx).
      exists ((t, lit) :: pre ++ used). split; [cbn; by rewrite app_assoc|]. split; [|auto]. constructor; [cbn; by rewrite Et|].
      apply Forall_app. split; [|done]. eapply Forall_impl; [exact Hpre|]. done. }
    assert (forall x, x ∈ acc -> x ∈ match acc with [] => [[]] | _ => acc end) as Hacc by (destruct acc; [by intros x ?%elem_of_nil|done]).
    destruct ts as [|[u lu] ts'].
    + apply (Hrec _ Hacc [] ltac:(done)); [by exists []|done].
    + destruct u; try (apply (Hrec _ Hacc ((_, lu) :: ts') ltac:(done)); [by exists []|exact H]).
      * injection H as <- <-. exists [(t, lit)]. split; [done|]. split; [constructor; [cbn; by rewrite Et|done]|].
        intros x Hx. apply elem_of_app. left. auto.
      * apply (Hrec (match acc with [] => [[]] | _ => acc end ++ [[]])) with (ts' := ts'); [set_solver|cbn; lia| |done].
        exists [(TComma, lu)]. split; [done|]. by constructor.
  - destruct (look ts) eqn:El; try done.
    + injection H as <- <-. exists [(t, lit)]. split; [done|]. split; [constructor; [set_solver|done]|set_solver].
    + destruct (IH ts ltac:(cbn; lia) _ _ _ H) as (used & -> & HF & Hx). exists ((t, lit) :: used). split; [done|].
      split; [constructor; [|done]|]; set_solver.
Qed.
Lemma parse_req_used ts r rest : parse_req ts = Some (r, rest) -> exists used, ts = used ++ rest /\ Forall semi_free used.
Proof.
  unfold parse_req. intros H.
  assert (exists neg pre ts', ts = pre ++ ts' /\ Forall semi_free pre /\ (match ts with (TNot, _) :: r => (true, r) | _ => (false, ts) end) = (neg, ts')) as (neg & pre & ts' & -> & Hpre & E).
  { destruct ts as [|[t lit] ts]; [by exists false, [], []|].
    destruct t; try (eexists false, [], _; split; [reflexivity|]; split; [constructor|reflexivity]).
    exists true, [(TNot, lit)], ts. by repeat constructor. }
  rewrite E in H. clear E. enough (exists used, ts' = used ++ rest /\ Forall semi_free used) as (used & -> & Hu).
  { exists (pre ++ used). split; [by rewrite app_assoc|]. by apply Forall_app. }
  destruct ts' as [|[t key] ts']; [done|]. destruct (vtok t) eqn:Et; try done. destruct (valid_key key) eqn:Ek; [|done].
  assert (semi_free (t, key)) as Hkey by (intros _; by apply key_semi).
  destruct neg.
  { destruct (new_requirement key ONotExists []); [|done]. injection H as _ <-. exists [(t, key)]; split; [done|]; constructor; [done|constructor]. }
  assert (forall o, match parse_op ts' with
     | Some (op, rest0) => match (match op with OIn | ONotIn => parse_values rest0 | _ => parse_exact rest0 end) with
         | Some (vs, rest1) => option_map (fun r => (r, rest1)) (new_requirement key op (set_list vs)) | None => None end
     | None => None end = Some (o, rest) -> exists used, (t, key) :: ts' = used ++ rest /\ Forall semi_free used) as Hgen.
  { intros o Hp. destruct (parse_op ts') as [[op rest0]|] eqn:Eop; [|done]. destruct ts' as [|[u lu] ts']; [done|].
    assert (rest0 = ts' /\ semi_free (u, lu)) as [-> Hop]. { cbn in Eop. destruct u; try discriminate Eop; injection Eop as _ <-; (split; [done|]); intros Hx; discriminate Hx. }
    destruct (match op with OIn | ONotIn => parse_values ts' | _ => parse_exact ts' end) as [[vs rest1]|] eqn:Ev; [|done].
    destruct (new_requirement key op (set_list vs)) as [rq|] eqn:En; [|done]. injection Hp as _ <-.
    apply new_requirement_inv in En. 
    destruct En as (_ & _ & En & _).
    assert (forall v, v ∈ vs -> semi ∉ v) as Hvs.
    { intros v Hv. apply value_semi. rewrite Forall_forall in En. apply En. by apply set_list_elem. }
    enough (exists used, ts' = used ++ rest1 /\ Forall semi_free used) as (used & -> & Hu).
    { exists ((t, key) :: (u, lu) :: used). split; [done|]. by repeat constructor. }
    assert (parse_values ts' = Some (vs, rest1) \/ parse_exact ts' = Some (vs, rest1)) as [Hv|Hv] by (destruct op; auto).
    - unfold parse_values in Hv. destruct ts' as [|[[] l0] ts']; try done.
      assert (semi_free (TOpen, l0)) as Ho by done.
      assert (forall vs' rest', parse_idents [] ts' = Some (vs', rest') ->
        match rest' with (TClosed, _) :: rest2 => Some (vs', rest2) | _ => None end = Some (vs, rest1) ->
        exists used, (TOpen, l0) :: ts' = used ++ rest1 /\ Forall semi_free used) as Hid.
      { intros vs' rest' Hi Hm. destruct rest' as [|[[] l1] rest']; try done. injection Hm as <- <-.
        destruct (parse_idents_used _ _ _ _ Hi) as (used & -> & Hu & _). exists ((TOpen, l0) :: used ++ [(TClosed, l1)]).
        split; [cbn; by rewrite <- app_assoc|]. constructor; [done|]. apply Forall_app. split; [|by repeat constructor].
        eapply Forall_impl; [exact Hu|]. intros it Hit Hv1. apply Hvs, Hit. by rewrite Hv1. }
      destruct (vtok (look ts')) eqn:El; try done.
      + injection Hv as <- <-. destruct ts' as [|[[] l1] ts']; try done. exists [(TOpen, l0); (TClosed, l1)]; split; [done|]; by repeat constructor.
      + destruct (parse_idents [] ts') as [[vs' rest']|]; [|done]. by eapply Hid.
      + destruct (parse_idents [] ts') as [[vs' rest']|]; [|done]. by eapply Hid.
    - unfold parse_exact in Hv. assert ((vs, rest1) = ([[]], ts') \/ exists t1 l1, ts' = (t1, l1) :: rest1 /\ vtok t1 = TId /\ vs = [l1]) as [Hx|(t1 & l1 & -> & Ht1 & ->)].
      { destruct ts' as [|[t1 l1] ts']; [cbn in Hv; left; congruence|]. cbn [look] in Hv.
        destruct t1; cbn [vtok] in Hv; try done; try (left; congruence); right; injection Hv as <- <-; eauto 10. }
      + injection Hx as -> ->. by exists [].
      + exists [(t1, l1)]. split; [done|]. constructor; [|done]. intros _. apply Hvs. by left. }
  destruct (look ts') eqn:El; try by eapply Hgen.
  - destruct (new_requirement key OExists []); [|done]. injection H as _ <-. exists [(t, key)]; split; [done|]; constructor; [done|constructor].
  - destruct (new_requirement key OExists []); [|done]. injection H as _ <-. exists [(t, key)]; split; [done|]; constructor; [done|constructor].
Qed.
(** The tokens of a text: one end token, at the end. *)
Definition one_end (ts : list item) : Prop := exists l x, ts = l ++ [(TEnd, x)] /\ Forall (fun it : item => it.1 <> TEnd) l.
Lemma keyword_not_end w : keyword w <> TEnd.
Proof. unfold keyword. by destruct (str_eqb w (str "in")), (str_eqb w (str "notin")). Qed.
Lemma special_not_end c t s it r : special1 c = Some t -> scan_special c t s = (it, r) -> it.1 <> TEnd.
Proof.
  intros H1 H2. assert (t <> TEnd). { unfold special1 in H1. repeat (destruct (ch_eqb c _); [by injection H1 as <-|]). done. }
  destruct s as [|d s]; cbn [scan_special] in H2; [by injection H2 as <- _|]. destruct (special2 c d) as [t2|] eqn:E2; injection H2 as <- _; [|done].
  unfold special2 in E2. cbn. intros ->. by destruct (ch_eqb d "="%char), (ch_eqb c "="%char), (ch_eqb c "!"%char).
Qed.
Lemma lex_one_end f s : one_end (lex f s).
Proof.
  revert s. induction f as [|f IH]; intros s; cbn [lex]; [by exists [], []|].
  destruct (skip_ws s) as [|c s']; [by exists [], []|]. destruct (is_nul c); [by exists [], []|].
  destruct (special1 c) as [t|] eqn:E1.
  - destruct (scan_special c t s') as [it r] eqn:E. destruct (IH r) as (l & x & -> & Hl). exists (it :: l), x. split; [done|].
    constructor; [by eapply special_not_end|done].
  - destruct (scan_ident (c :: s')) as [w r]. destruct (IH r) as (l & x & -> & Hl). exists ((keyword w, w) :: l), x. split; [done|].
    constructor; [apply keyword_not_end|done].
Qed.
Lemma one_end_app used ts : one_end (used ++ ts) -> ts <> [] -> one_end ts.
Proof.
  intros (l & x & E & Hl) Hne. revert l E Hl. induction used as [|it used IH]; intros l E Hl; [by exists l, x|].
  destruct l as [|it' l].
  - cbn in E. injection E as _ E. by apply app_eq_nil in E as [_ ?].
  - cbn in E. injection E as -> E. apply Forall_cons in Hl as [_ Hl]. by apply (IH l).
Qed.
Lemma one_end_cons x ts : one_end ((TEnd, x) :: ts) -> ts = [].
Proof.
  intros (l & y & E & Hl). destruct l as [|it l]; [by injection E|]. injection E as <- _. by apply Forall_cons in Hl as [? _].
Qed.
Lemma parse_reqs_used f : forall ts rs, one_end ts -> parse_reqs f ts = Some rs -> Forall semi_free ts.
Proof.
  induction f as [|f IH]; intros ts rs Hend H; [done|]. cbn [parse_reqs] in H.
  assert (match parse_req ts with
          | Some (r, (t, _) :: rest) =>
              match t with
              | TEnd => Some [r]
              | TComma => match vtok (look rest) with TId | TNot => option_map (cons r) (parse_reqs f rest) | _ => None end
              | _ => None
              end
          | _ => None
          end = Some rs -> Forall semi_free ts) as Hgen.
  { intros Hp. destruct (parse_req ts) as [[r [|[t lt] rest]]|] eqn:Er; try done.
    destruct (parse_req_used _ _ _ Er) as (used & -> & Hu). apply Forall_app. split; [done|].
    pose proof (one_end_app _ _ Hend ltac:(done)) as He. destruct t; try done.
    - apply one_end_cons in He. subst. by repeat constructor.
    - constructor; [done|].
      assert (vtok (look rest) = TId \/ vtok (look rest) = TNot) as Hlk by (destruct (vtok (look rest)); auto; done).
      assert (rest <> []) as Hne by (intros ->; by destruct Hlk).
      apply (one_end_app [(TComma, lt)]) in He; [|done].
      assert (exists rs', parse_reqs f rest = Some rs') as [rs' Hrs'].
      { destruct Hlk as [E|E]; rewrite E in Hp; destruct (parse_reqs f rest); try done; eauto. }
      by eapply IH. }
  destruct (vtok (look ts)) eqn:El; try done; try by apply Hgen.
  destruct ts as [|[t l] ts]; [done|]. cbn in El. destruct t; try done. apply one_end_cons in Hend as ->. by repeat constructor.
Qed.
Theorem semi_never_parses a b : Forall (fun c => is_nul c = false) a -> parse_to_label_selector (a ++ semi :: b) = None.
Proof.
  intros Ha. unfold parse_to_label_selector, parse_to_requirements.
  destruct (parse_reqs (S (length (lex_all (a ++ semi :: b)))) (lex_all (a ++ semi :: b))) as [rs|] eqn:E; [|done]. exfalso.
  apply parse_reqs_used in E; [|apply lex_one_end].
  assert (Exists (fun it : item => it.1 = TId /\ semi ∈ it.2) (lex_all (a ++ semi :: b))) as Hx.
  { unfold lex_all. apply lex_semi; [done|]. rewrite app_length. lia. }
  apply Exists_exists in Hx as (it & Hin & H1 & H2). rewrite Forall_forall in E. by apply (E it Hin).
Qed.

(** ** Trimming keeps the text up to the semicolon *)
Lemma has_prefix_no_semi p x y : semi ∉ p -> has_prefix p (x ++ semi :: y) = true -> length p <= length x.
Proof.
  revert x. induction p as [|c p IH]; intros x Hn H; [cbn; lia|]. destruct x as [|d x].
  - cbn [app has_prefix] in H. apply andb_true_iff in H as [H%ch_eqb_eq _]. subst. destruct Hn. by left.
  - cbn [app has_prefix] in H. apply andb_true_iff in H as [_ H]. cbn. apply le_n_S, IH; [|done]. intros Hin. apply Hn. by right.
Qed.
Lemma trim_front_semi ps n : Forall (fun p => semi ∉ p) ps -> forall x y, exists x', trim_front ps n (x ++ semi :: y) = x' ++ semi :: y.
Proof.
  intros Hps. induction n as [|n IH]; intros x y; cbn [trim_front]; [by exists x|].
  destruct (strip_len ps (x ++ semi :: y)) as [m|] eqn:E; [|by exists x].
  assert (m <= length x) as Hm.
  { clear IH. induction ps as [|p ps IHp]; [done|]. apply Forall_cons in Hps as [Hp Hps]. cbn [strip_len] in E.
    destruct (has_prefix p (x ++ semi :: y)) eqn:Ep; [injection E as <-; by eapply has_prefix_no_semi|by apply IHp]. }
  rewrite drop_app_le by done. apply IH.
Qed.
Lemma trim_space_semi c x y : visible c -> exists y', trim_space (c :: x ++ semi :: y) = c :: x ++ semi :: y'.
Proof.
  intros Hc. unfold trim_space. assert (trim_left (c :: x ++ semi :: y) = c :: x ++ semi :: y) as ->.
  { unfold trim_left. apply trim_front_fix. by apply strip_len_none, space_heads. }
  unfold trim_right. generalize (length (c :: x ++ semi :: y)). intros n.
  replace (reverse (c :: x ++ semi :: y)) with (reverse y ++ semi :: reverse x ++ [c]).
  2:{ change (c :: x ++ semi :: y) with ([c] ++ x ++ [semi] ++ y). rewrite !reverse_app, <- !app_assoc. done. }
  destruct (trim_front_semi (map reverse spaces) n) with (x := reverse y) (y := reverse x ++ [c]) as [x' ->].
  { apply Forall_forall. intros p Hp. assert (existsb (fun p => existsb (ch_eqb semi) p) (map reverse spaces) = false) as Hb by (by vm_compute).
    intros Hin. assert (existsb (fun p => existsb (ch_eqb semi) p) (map reverse spaces) = true); [|congruence].
    apply existsb_exists. exists p. split; [by apply elem_of_list_In|]. apply existsb_exists. exists semi.
    split; [by apply elem_of_list_In|by apply ch_eqb_eq]. }
  exists (reverse x'). change (x' ++ semi :: reverse x ++ [c]) with (x' ++ [semi] ++ reverse x ++ reverse [c]).
  rewrite !reverse_app, !reverse_involutive, <- !app_assoc. done.
Qed.

(** ** Printed selectors *)
Definition okc (c : ascii) : bool := negb (ch_eqb c semi) && negb (is_nul c).
Lemma keyc_okc c : keyc c = true -> okc c = true.
Proof.
  pose proof (all_bytes (fun c => negb (keyc c) || okc c)) as H. specialize (H ltac:(vm_compute; reflexivity) c). simpl in H.
  intros E. by rewrite E in H.
Qed.
Local Notation okw := (Forall (fun c => okc c = true)).
Lemma okw_dec s : forallb okc s = true -> okw s.
Proof. intros H. apply Forall_forall. intros c Hc. rewrite forallb_forall in H. apply H. by apply elem_of_list_In. Qed.
Lemma join_okw sp l : okw sp -> Forall (fun s => okw s) l -> okw (join sp l).
Proof.
  intros Hs. induction 1 as [|s l Hx Hl IH]; [constructor|]. destruct l as [|s' l]; [done|].
  change (join sp (s :: s' :: l)) with (s ++ sp ++ join sp (s' :: l)). rewrite !Forall_app. done.
Qed.
Lemma value_okw v : valid_value v = true -> okw v.
Proof. intros H%valid_value_chars. eapply Forall_impl; [exact H|]. intros c Hc%ext_keyc. by apply keyc_okc. Qed.
Lemma fmt_req_okw r : good_req r -> okw (fmt_req r).
Proof.
  intros [Hr Hop]. apply new_requirement_inv in Hr as (_ & Hk & Hv & Ha).
  destruct (valid_key_chars _ Hk) as [_ Hkc]. assert (okw (rkey r)) as Hkw by (eapply Forall_impl; [exact Hkc|]; apply keyc_okc).
  assert (okw (fmt_vals (rvals r))) as Hvw.
  { assert (okw (join (str ",") (gosort str_ltb (rvals r)))) as Hj.
    { apply join_okw; [by apply okw_dec|]. rewrite Forall_forall in Hv |- *. intros v Hin. apply value_okw, Hv. by rewrite gosort_perm in Hin. }
    unfold fmt_vals. destruct (rvals r) as [|v [|]]; [exact Hj| |exact Hj]. apply Forall_cons in Hv as [Hv _]. by apply value_okw. }
  unfold fmt_req. destruct Hop as [E|[E|[E|[E|E]]]]; rewrite E in Ha |- *; rewrite ?Forall_app; repeat split; try done; by apply okw_dec.
Qed.

Lemma fmt_reqs_okw rs : Forall good_req rs -> okw (fmt_reqs rs).
Proof.
  intros H. unfold fmt_reqs. apply join_okw; [by apply okw_dec|]. apply Forall_forall. rewrite Forall_forall in H.
  intros s (r & -> & Hr)%elem_of_list_fmap. by apply fmt_req_okw, H.
Qed.
Lemma okw_esc s : okw s -> esc s = s.
Proof.
  induction 1 as [|c s Hc _ IH]; [done|]. cbn [esc]. rewrite IH. unfold okc in Hc. by destruct (ch_eqb c semi).
Qed.
Lemma okw_nul s : okw s -> Forall (fun c => is_nul c = false) s.
Proof. intros H. eapply Forall_impl; [exact H|]. intros c Hc. unfold okc in Hc. by destruct (is_nul c), (ch_eqb c semi). Qed.

(** ** Restricted searches *)
Lemma joined_first A qs : okw A -> A <> [] -> exists p ps, search_parts (join_parts (A :: qs)) = (A ++ p) :: ps /\
  (p = [] \/ exists y, p = semi :: y) /\ (semi_headed (join_parts qs) -> exists y, p = semi :: y).
Proof.
  intros HA Hne. rewrite join_parts_esc. cbn [map].
  assert (exists p ps, scan (join [semi] (esc A :: map esc qs)) = (A ++ p) :: ps /\ (p = [] \/ exists y, p = semi :: y) /\
    (semi_headed (join_parts qs) -> exists y, p = semi :: y)) as (p & ps & E & H1 & H2).
  { rewrite join_parts_esc. destruct qs as [|q qs].
    - exists [], []. rewrite app_nil_r. cbn [map join]. pose proof (scan_esc A []) as E. rewrite app_nil_r in E. rewrite E. cbn. rewrite app_nil_r.
      split; [done|]. split; [by left|]. intros [r Hr]. done.
    - cbn [map]. change (join [semi] (esc A :: esc q :: map esc qs)) with (esc A ++ semi :: join [semi] (esc q :: map esc qs)).
      set (t := join [semi] (esc q :: map esc qs)). rewrite scan_esc. destruct t as [|d t]; [|].
      + cbn. exists [semi], []. split; [done|]. split; [right; by exists []|]. by intros [r Hr].
      + rewrite scan_eq, ch_eqb_refl. destruct (ch_eqb_spec d semi) as [->|Hd].
        * pose proof (scan_nonnil t) as Hn. destruct (scan t) as [|p ps] eqn:Et; [done|]. cbn. exists (semi :: p), ps. split; [done|].
          split; [right; by eexists|]. by eexists.
        * cbn [push_all]. exists [], (scan (d :: t)). split; [done|]. split; [by left|]. intros [r [= -> _]]. done. }
  exists p, (List.filter (fun p => negb (str_eqb p [])) ps). rewrite search_parts_scan, E. cbn [List.filter].
  assert (str_eqb (A ++ p) [] = false) as ->. { apply str_eqb_neq. by destruct A. } done.
Qed.
Lemma semi_adv_error uprint m vals A y : okw A -> match_one_from uprint m vals (adv_prefix ++ A ++ semi :: y) = None.
Proof.
  intros HA. destruct (trim_space_semi "_"%char (str "_ckube_as__:" ++ A) y) as [y' E]; [by vm_compute|].
  rewrite (match_adv uprint m vals (adv_prefix ++ A ++ semi :: y) (A ++ semi :: y')).
  - rewrite semi_never_parses by (by apply okw_nul). by destruct (str_eqb _ _).
  - change (adv_prefix ++ A ++ semi :: y) with ("_"%char :: (str "_ckube_as__:" ++ A) ++ semi :: y). exact E.
Qed.
Section safe.
  Context (uprint : N -> bool) (p : paginate) (key : gostr) (vals : list gostr) (ls : lsel) (p' : paginate).
  Context (Hk : valid_key key = true) (Hls : search_selector (pg_search p) = Some ls)
    (Hne : vals <> []) (Hv : Forall (fun v => valid_value v = true) vals) (Hodd : ~ odd_empties vals)
    (Hset : set_search_selector p (restrict key vals ls) = Some p').
  Lemma restrict_safe m : paginate_match uprint (pg_search p') m = Some true -> sel_holds m (restrict key vals ls).
  Proof.
    intros Hm. destruct (search_selector_ok _ _ Hls) as [Hok Hno].
    destruct (format_parse (restrict key vals ls)) as (rs & es & _ & Hg & Hrs & Hf & Hp & HP).
    { by apply restrict_ok. } { by apply restrict_no_odd. } { by right. }
    unfold set_search_selector in Hset. rewrite Hf in Hset. pose proof (f_equal (from_option pg_search []) Hset) as Hset'.
    cbn [from_option set_search pg_search] in Hset'. rewrite <- Hset' in Hm. clear Hset'.
    unfold paginate_match in Hm. rewrite match_parts_true in Hm.
    assert (okw (adv_prefix ++ fmt_reqs rs)) as HA. { apply Forall_app. split; [by apply okw_dec|by apply fmt_reqs_okw]. }
    destruct (joined_first (adv_prefix ++ fmt_reqs rs) (other_parts (search_parts (pg_search p))) HA ltac:(done)) as (q & qs & E & [->|[y ->]] & _);
      unfold other_parts in E; rewrite E in Hm; apply Forall_cons in Hm as [Hm _]; unfold match_one in Hm.
    - rewrite app_nil_r in Hm.
      destruct (match_adv_sel uprint m (map snd (map_to_list m)) (adv_prefix ++ fmt_reqs rs) (fmt_reqs rs) _
        (trim_adv rs Hg Hrs) ltac:(by apply fmt_reqs_nonempty) Hp) as (b & Hb & Hbt).
      rewrite Hb in Hm. injection Hm as ->. apply proj1 in Hbt. specialize (Hbt eq_refl).
      assert (sel_holds m (LSel (mlabels (restrict key vals ls)) es) <-> sel_holds m (restrict key vals ls)) as Heq.
      { apply same_sel_holds. split; [done|]. destruct (perm_normE _ _ HP) as (l' & HP' & HF). exists l'. done. }
      by apply Heq.
    - rewrite <- app_assoc in Hm. by rewrite semi_adv_error in Hm by (by apply fmt_reqs_okw).
  Qed.
  Lemma restrict_semi r q qs m : other_parts (search_parts (pg_search p)) = q :: qs -> q = semi :: r ->
    paginate_match uprint (pg_search p') m = None.
  Proof.
    intros Hq ->. destruct (search_selector_ok _ _ Hls) as [Hok Hno].
    destruct (format_parse (restrict key vals ls)) as (rs & es & _ & Hg & Hrs & Hf & Hp & HP).
    { by apply restrict_ok. } { by apply restrict_no_odd. } { by right. }
    unfold set_search_selector in Hset. rewrite Hf in Hset. pose proof (f_equal (from_option pg_search []) Hset) as Hset'.
    cbn [from_option set_search pg_search] in Hset'. rewrite <- Hset'. clear Hset'.
    unfold paginate_match. rewrite match_parts_err.
    assert (okw (adv_prefix ++ fmt_reqs rs)) as HA. { apply Forall_app. split; [by apply okw_dec|by apply fmt_reqs_okw]. }
    destruct (joined_first (adv_prefix ++ fmt_reqs rs) (other_parts (search_parts (pg_search p))) HA ltac:(done)) as (t & ts & E & _ & Ht).
    unfold other_parts in E. rewrite E. apply Exists_cons. left. destruct Ht as [y ->].
    { rewrite Hq, join_parts_esc. cbn [map esc]. rewrite ch_eqb_refl. destruct qs; by eexists. }
    unfold match_one. rewrite <- app_assoc. apply semi_adv_error. by apply fmt_reqs_okw.
  Qed.
End safe.
