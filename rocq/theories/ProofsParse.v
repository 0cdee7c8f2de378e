(** Parsing what was printed; meaning of parsed selectors (C06, C12, C16). *)
From Coq Require Import Ascii String NArith ZArith Lia.
From stdpp Require Import base gmap strings list sorting.
From Verif Require Import ModelStr ModelSort ProofsSort ProofsStr ModelLabels SpecLabels ProofsLabels.

(** ** Value lists *)
Lemma sorted_empties l : StronglySorted str_le l ->
  exists k ws, l = replicate k [] ++ ws /\ Forall (fun w => w <> []) ws.
Proof.
  induction 1 as [|x l Hs IH HF].
  - by exists 0, [].
  - destruct x as [|c x].
    + destruct IH as (k & ws & -> & H). by exists (S k), ws.
    + exists 0, ((c :: x) :: l). split; [done|]. constructor; [done|].
      eapply Forall_impl; [exact HF|]. intros w Hw ->. done.
Qed.
Lemma vtoks_empties k w ws : vtoks (replicate k [] ++ w :: ws) = replicate k comma ++ vtoks (w :: ws).
Proof.
  induction k as [|k IH]; [done|].
  destruct k as [|k]; [done|]. change (replicate (S (S k)) [] ++ w :: ws) with ([] :: [] :: replicate k [] ++ w :: ws).
  rewrite vtoks_cons. change ([] :: replicate k [] ++ w :: ws) with (replicate (S k) [] ++ w :: ws).
  by rewrite IH.
Qed.
Lemma vtoks_all_empty k : vtoks (replicate (S k) []) = replicate k comma.
Proof.
  induction k as [|k IH]; [done|]. change (replicate (S (S k)) []) with ([] :: [] :: replicate k (@nil ascii)).
  rewrite vtoks_cons. change ([] :: replicate k []) with (replicate (S k) (@nil ascii)). by rewrite IH.
Qed.
Lemma keyword_vtok w : vtok (keyword w) = TId.
Proof. unfold keyword. by destruct (str_eqb w (str "in")), (str_eqb w (str "notin")). Qed.
Lemma idents_id acc w t :
  parse_idents acc ((keyword w, w) :: comma :: t) = parse_idents (acc ++ [w]) (comma :: t).
Proof.
  change (parse_idents acc ((keyword w, w) :: comma :: t)) with
    (match vtok (keyword w) with
     | TId => parse_idents (acc ++ [w]) (comma :: t)
     | TComma => parse_idents (match acc with [] => [[]] | _ => acc end ++ [[]]) t
     | _ => None end).
  by rewrite keyword_vtok.
Qed.
Lemma idents_plain ws : Forall (fun w => w <> []) ws -> ws <> [] -> forall acc l rest,
  parse_idents acc (vtoks ws ++ (TClosed, l) :: rest) = Some (acc ++ ws, (TClosed, l) :: rest).
Proof.
  induction 1 as [|w ws Hw HF IH]; [done|]. intros _ acc l rest.
  destruct ws as [|v ws].
  - simpl. destruct w as [|c w]; [done|]. simpl. by rewrite keyword_vtok.
  - rewrite vtoks_cons, <- app_assoc. destruct w as [|c w]; [done|]. inversion HF as [|? ? Hv _]; subst.
    assert (exists x y, vtoks (v :: ws) ++ (TClosed, l) :: rest = (keyword v, x) :: y) as (x & y & E).
    { destruct v as [|d v]; [done|]. destruct ws; [by eexists _, _|]. rewrite vtoks_cons. by eexists _, _. }
    cbn [idt app]. rewrite idents_id.
    assert (parse_idents (acc ++ [c :: w]) (comma :: vtoks (v :: ws) ++ (TClosed, l) :: rest) =
            parse_idents (acc ++ [c :: w]) (vtoks (v :: ws) ++ (TClosed, l) :: rest)) as ->.
    { rewrite E. pose proof (keyword_vtok v) as Hk. cbn [parse_idents comma vtok].
      destruct (acc ++ [c :: w]) as [|a0 ac] eqn:Ea; [by destruct acc|].
      destruct (keyword v); done. }
    rewrite IH by done. by rewrite <- app_assoc.
Qed.
Lemma nat_ind2 (P : nat -> Prop) : P 0 -> P 1 -> (forall n, P n -> P (S (S n))) -> forall n, P n.
Proof. intros H0 H1 H2 n. assert (P n /\ P (S n)) as [? _]; [|done]. induction n as [|n [??]]; auto. Qed.

Lemma idents_comma2 acc t : parse_idents acc (comma :: comma :: t) =
  parse_idents (match acc with [] => [[]] | _ => acc end ++ [[]]) t.
Proof. done. Qed.
Lemma idents_empties k : forall acc ws l rest, Forall (fun w => w <> []) ws -> ws <> [] ->
  (acc = [] \/ [] ∈ acc) -> 1 <= k \/ [] ∈ acc ->
  exists acc', parse_idents acc (replicate k comma ++ vtoks ws ++ (TClosed, l) :: rest)
     = Some (acc', (TClosed, l) :: rest) /\ same_set acc' (acc ++ [[]] ++ ws).
Proof.
  induction k as [| |k IH] using nat_ind2; intros acc ws l rest HF Hne Hacc Hk.
  - destruct Hk as [?|Hk]; [lia|]. eexists. split; [by apply idents_plain|]. intros x. set_solver.
  - cbn [replicate app].
    destruct ws as [|v ws]; [done|]. inversion HF as [|? ? Hv _]; subst.
    assert (exists x y, vtoks (v :: ws) ++ (TClosed, l) :: rest = (keyword v, x) :: y) as (x & y & E).
    { destruct v as [|d v]; [done|]. destruct ws; [by eexists _, _|]. rewrite vtoks_cons. by eexists _, _. }
    assert (parse_idents acc (comma :: vtoks (v :: ws) ++ (TClosed, l) :: rest) =
            parse_idents (match acc with [] => [[]] | _ => acc end) (vtoks (v :: ws) ++ (TClosed, l) :: rest)) as ->.
    { rewrite E. pose proof (keyword_vtok v) as Hkv. cbn [parse_idents comma vtok]. destruct (keyword v); done. }
    eexists. split; [by apply idents_plain|]. intros z. destruct acc; set_solver.
  - cbn [replicate app]. rewrite idents_comma2.
    destruct (IH (match acc with [] => [[]] | _ => acc end ++ [[]]) ws l rest HF Hne) as (acc' & E & H).
    + right. set_solver.
    + right. set_solver.
    + exists acc'. split; [exact E|]. intros x. rewrite (H x). destruct acc; set_solver.
Qed.
Lemma idents_all_empty j : forall acc l rest,
  exists acc', parse_idents acc (replicate (S (2 * j)) comma ++ (TClosed, l) :: rest)
     = Some (acc', (TClosed, l) :: rest) /\ same_set acc' (acc ++ [[]]).
Proof.
  induction j as [|j IH]; intros acc l rest.
  - eexists. split; [done|]. intros x. destruct acc; set_solver.
  - replace (S (2 * S j)) with (S (S (S (2 * j)))) by lia. cbn [replicate app]. rewrite idents_comma2.
    destruct (IH (match acc with [] => [[]] | _ => acc end ++ [[]]) l rest) as (acc' & E & H).
    cbn [replicate app] in E. exists acc'. split; [exact E|]. intros x. rewrite (H x). destruct acc; set_solver.
Qed.
Lemma parse_values_ok vs rest : vs <> [] -> ~ odd_empties vs ->
  exists vs', parse_values ((TOpen, str "(") :: vtoks (gosort str_ltb vs) ++ (TClosed, str ")") :: rest)
     = Some (vs', rest) /\ same_set vs' vs.
Proof.
  intros Hne Hodd. destruct (sorted_empties _ (sort_strings_sorted vs)) as (k & ws & E & HF).
  assert (forall x, x ∈ vs <-> x ∈ replicate k [] ++ ws) as Hin.
  { intros x. by rewrite <- E, gosort_elem. }
  rewrite E. destruct ws as [|w ws].
  - rewrite app_nil_r in *. destruct k as [|k].
    { exfalso. apply Hne. pose proof (gosort_length str_ltb vs) as Hl. rewrite E in Hl. by destruct vs. }
    rewrite vtoks_all_empty.
    destruct (Nat.Even_or_Odd k) as [[j ->]|[j ->]].
    + destruct j as [|j].
      * exists [[]]. split; [done|]. intros x. by rewrite Hin.
      * exfalso. apply Hodd. exists j.
        pose proof (gosort_perm str_ltb vs) as HP. rewrite E in HP.
        apply replicate_Permutation in HP. rewrite <- HP. f_equal. lia.
    + destruct (idents_all_empty j [] (str ")") rest) as (acc' & Ea & Hs).
      replace (2 * j + 1) with (S (2 * j)) by lia. exists acc'. split.
      * cbn [parse_values]. cbn [replicate app look comma vtok]. cbn [replicate app comma] in Ea. rewrite Ea. done.
      * intros x. rewrite (Hs x), Hin. replace (S (2 * j + 1)) with (S (S (2 * j))) by lia.
        rewrite elem_of_replicate. set_solver by lia.
  - rewrite vtoks_empties, <- app_assoc.
    destruct k as [|k].
    + exists (w :: ws). split; [|intros x; by rewrite Hin].
      cbn [replicate app].
      pose proof (idents_plain (w :: ws) HF ltac:(done) [] (str ")") rest) as Hp.
      inversion HF as [|? ? Hw _]; subst.
      assert (exists x y, vtoks (w :: ws) ++ (TClosed, str ")") :: rest = (keyword w, x) :: y) as (x & y & Ex).
      { destruct w as [|d w]; [done|]. destruct ws; [by eexists _, _|]. rewrite vtoks_cons. by eexists _, _. }
      rewrite Ex in Hp |- *. cbn [parse_values look]. rewrite keyword_vtok, Hp. done.
    + destruct (idents_empties (S k) [] (w :: ws) (str ")") rest HF ltac:(done)) as (acc' & Ea & Hs).
      { by left. } { left. lia. }
      exists acc'. split.
      * cbn [replicate app parse_values look comma vtok]. cbn [replicate app comma] in Ea. rewrite Ea. done.
      * intros x. rewrite (Hs x), Hin. rewrite !elem_of_app, elem_of_replicate, elem_of_list_singleton, elem_of_nil.
        naive_solver lia.
Qed.

(** ** Requirements *)
Definition norm (r : req) : req := Req (rkey r) (rop r) (set_list (rvals r)).
Definition fin (t : token) : Prop := t = TEnd \/ t = TComma.
Definition printable_req (r : req) : Prop := good_req r /\ ~ odd_empties (rvals r).

Lemma Forall_set_list (P : gostr -> Prop) vs : Forall P vs -> Forall P (set_list vs).
Proof. rewrite !Forall_forall. intros H x Hx. apply H. by apply set_list_elem. Qed.
Lemma norm_good r : good_req r -> new_requirement (rkey r) (rop r) (set_list (rvals r)) = Some (norm r).
Proof.
  intros [Hr Hop]. apply new_requirement_inv in Hr as (_ & Hk & Hv & Ha).
  apply new_requirement_intro; [done|by apply Forall_set_list|].
  destruct Hop as [E|[E|[E|[E|E]]]]; rewrite E in Ha |- *.
  - destruct Ha as [v ->]. exists v. apply set_list_singleton.
  - intros H%set_list_nil_inv. done.
  - intros H%set_list_nil_inv. done.
  - by rewrite Ha.
  - by rewrite Ha.
Qed.

Lemma idt_cons k rest : k <> [] -> idt k ++ rest = (keyword k, k) :: rest.
Proof. by destruct k. Qed.
Lemma keyword_not_not k : keyword k <> TNot.
Proof. unfold keyword. by destruct (str_eqb k (str "in")), (str_eqb k (str "notin")). Qed.

Lemma parse_req_ident k rest : parse_req ((keyword k, k) :: rest) =
  if valid_key k then
    match look rest with
    | TEnd | TComma => option_map (fun r => (r, rest)) (new_requirement k OExists [])
    | _ => match parse_op rest with
           | Some (op, rest) =>
               match (match op with OIn | ONotIn => parse_values rest | _ => parse_exact rest end) with
               | Some (vs, rest) => option_map (fun r => (r, rest)) (new_requirement k op (set_list vs))
               | None => None
               end
           | None => None
           end
    end
  else None.
Proof.
  unfold parse_req. pose proof (keyword_vtok k) as Hk. pose proof (keyword_not_not k).
  destruct (keyword k); try done.
Qed.
Lemma parse_req_ok r t l rest : printable_req r -> fin t ->
  parse_req (toks r ++ (t, l) :: rest) = Some (norm r, (t, l) :: rest).
Proof.
  intros [Hg Hodd] Hf. pose proof (norm_good r Hg) as Hn.
  destruct Hg as [Hr Hop]. apply new_requirement_inv in Hr as (_ & Hk & Hv & Ha).
  destruct (key_word _ Hk) as [Hkn _].
  unfold toks. destruct Hop as [E|[E|[E|[E|E]]]]; rewrite E in Ha, Hn |- *.
  - destruct Ha as [v Ev]. rewrite Ev in Hn |- *. rewrite set_list_singleton in Hn.
    rewrite <- app_assoc, idt_cons, parse_req_ident, Hk by done. cbn [app look parse_op vtoks].
    assert (parse_exact (idt v ++ (t, l) :: rest) = Some ([v], (t, l) :: rest)) as ->.
    { destruct v as [|c v].
      - simpl. by destruct Hf as [->| ->].
      - cbn [idt app]. unfold parse_exact. cbn [look].
        pose proof (keyword_vtok (c :: v)) as Hkv. destruct (keyword (c :: v)); try done. }
    rewrite set_list_singleton, Hn. done.
  - rewrite <- app_assoc, idt_cons, parse_req_ident, Hk by done. cbn [app look parse_op]. rewrite <- app_assoc.
    destruct (parse_values_ok (rvals r) ((t, l) :: rest) Ha Hodd) as (vs' & Hp & Hs).
    match goal with |- context [parse_values ?x] =>
      replace (parse_values x) with (Some (vs', (t, l) :: rest)) by (symmetry; exact Hp) end.
    rewrite (set_list_same _ _ Hs), Hn. done.
  - rewrite <- app_assoc, idt_cons, parse_req_ident, Hk by done. cbn [app look parse_op]. rewrite <- app_assoc.
    destruct (parse_values_ok (rvals r) ((t, l) :: rest) Ha Hodd) as (vs' & Hp & Hs).
    match goal with |- context [parse_values ?x] =>
      replace (parse_values x) with (Some (vs', (t, l) :: rest)) by (symmetry; exact Hp) end.
    rewrite (set_list_same _ _ Hs), Hn. done.
  - rewrite idt_cons, parse_req_ident, Hk by done. cbn [look].
    rewrite Ha, set_list_nil in Hn. rewrite Hn. by destruct Hf as [->| ->].
  - rewrite <- app_comm_cons, idt_cons by done. cbn [parse_req]. rewrite keyword_vtok, Hk.
    rewrite Ha, set_list_nil in Hn. by rewrite Hn.
Qed.
Lemma toks_head r rest : good_req r -> vtok (look (toks r ++ rest)) = TId \/ vtok (look (toks r ++ rest)) = TNot.
Proof.
  intros [Hr Hop]. apply new_requirement_inv in Hr as (_ & Hk & Hv & Ha).
  destruct (key_word _ Hk) as [Hkn _]. unfold toks.
  destruct Hop as [E|[E|[E|[E|E]]]]; rewrite E; rewrite <- ?app_assoc; try (by right);
    left; rewrite idt_cons by done; cbn [look]; apply keyword_vtok.
Qed.
Lemma parse_reqs_ok rs : Forall printable_req rs -> rs <> [] -> forall fuel, length rs <= fuel ->
  parse_reqs fuel (toks_all rs ++ [(TEnd, [])]) = Some (map norm rs).
Proof.
  induction 1 as [|r rs Hr HF IH]; [done|]. intros _ fuel Hf.
  destruct fuel as [|fuel]; [simpl in Hf; lia|]. cbn [parse_reqs].
  destruct rs as [|q rs].
  - cbn [toks_all].
    assert (parse_req (toks r ++ [(TEnd, [])]) = Some (norm r, [(TEnd, [])])) as E.
    { apply parse_req_ok; [done|by left]. }
    destruct (toks_head r [(TEnd, [])] (proj1 Hr)) as [-> | ->]; by rewrite E.
  - rewrite toks_all_cons, <- app_assoc.
    assert (parse_req (toks r ++ comma :: toks_all (q :: rs) ++ [(TEnd, [])]) =
      Some (norm r, comma :: toks_all (q :: rs) ++ [(TEnd, [])])) as E.
    { apply parse_req_ok; [done|by right]. }
    inversion HF as [|? ? Hq _]; subst.
    assert (vtok (look (toks_all (q :: rs) ++ [(TEnd, [])])) = TId \/
            vtok (look (toks_all (q :: rs) ++ [(TEnd, [])])) = TNot) as Hh.
    { destruct rs as [|q' rs]; [apply toks_head, Hq|]. rewrite toks_all_cons, <- app_assoc. apply toks_head, Hq. }
    assert (parse_reqs fuel (toks_all (q :: rs) ++ [(TEnd, [])]) = Some (map norm (q :: rs))) as E2.
    { apply IH; [done|]. simpl in *. lia. }
    change ((comma :: toks_all (q :: rs)) ++ [(TEnd, [])]) with (comma :: toks_all (q :: rs) ++ [(TEnd, [])]).
    destruct (toks_head r (comma :: toks_all (q :: rs) ++ [(TEnd, [])]) (proj1 Hr)) as [-> | ->]; rewrite E;
      unfold comma at 1; destruct Hh as [-> | ->]; by rewrite E2.
Qed.
Lemma toks_len r : good_req r -> 1 <= length (toks r).
Proof.
  intros Hg. destruct (toks_head r [] Hg) as [H|H]; rewrite app_nil_r in H; destruct (toks r); simpl in *; try done; lia.
Qed.
Lemma toks_all_len rs : Forall good_req rs -> length rs <= length (toks_all rs).
Proof.
  induction 1 as [|r rs Hr HF IH]; [done|]. pose proof (toks_len r Hr).
  destruct rs as [|q rs]; [done|]. rewrite toks_all_cons, app_length. simpl in *. lia.
Qed.
Lemma printable_good rs : Forall printable_req rs -> Forall good_req rs.
Proof. intros H. eapply Forall_impl; [exact H|]. by intros r []. Qed.
Theorem parse_fmt rs : Forall printable_req rs -> rs <> [] ->
  parse_to_requirements (fmt_reqs rs) = Some (gosort by_key (map norm rs)).
Proof.
  intros HF Hne. unfold parse_to_requirements. cbv zeta. rewrite lex_reqs by (by apply printable_good).
  rewrite parse_reqs_ok; [done|done|done|].
  rewrite app_length. pose proof (toks_all_len rs (printable_good _ HF)). lia.
Qed.

(** ** What the parser returns *)
Definition parsed_req (r : req) : Prop :=
  new_requirement (rkey r) (rop r) (rvals r) = Some r /\ set_list (rvals r) = rvals r.
Lemma parse_req_parsed ts r rest : parse_req ts = Some (r, rest) -> parsed_req r.
Proof.
  unfold parse_req. destruct (match ts with (TNot, _) :: r0 => (true, r0) | _ => (false, ts) end) as [neg ts'].
  destruct ts' as [|[t key] rest']; [done|]. destruct (vtok t); try done.
  destruct (valid_key key); [|done].
  assert (forall op vs rest1, option_map (fun r => (r, rest1)) (new_requirement key op (set_list vs)) = Some (r, rest) -> parsed_req r) as H.
  { intros op vs rest1 H. destruct (new_requirement key op (set_list vs)) as [r'|] eqn:E; [|done].
    simpl in H. injection H as -> ->. destruct (new_requirement_inv _ _ _ _ E) as [-> _]. split; [done|].
    simpl. apply set_list_idem. }
  destruct neg; [apply (H ONotExists [])|].
  assert (match parse_op rest' with
          | Some (op, rest) =>
              match (match op with OIn | ONotIn => parse_values rest | _ => parse_exact rest end) with
              | Some (vs, rest0) => option_map (fun r => (r, rest0)) (new_requirement key op (set_list vs))
              | None => None
              end
          | None => None
          end = Some (r, rest) -> parsed_req r) as H2.
  { destruct (parse_op rest') as [[op rest2]|]; [|done].
    destruct (match op with OIn | ONotIn => parse_values rest2 | _ => parse_exact rest2 end) as [[vs rest3]|]; [|done].
    apply H. }
  destruct (look rest'); first [exact H2 | apply (H OExists [])].
Qed.
Lemma parse_reqs_parsed fuel : forall ts rs, parse_reqs fuel ts = Some rs -> Forall parsed_req rs.
Proof.
  induction fuel as [|fuel IH]; intros ts rs; [done|]. cbn [parse_reqs].
  assert (match parse_req ts with
          | Some (r, (t, _) :: rest) =>
              match t with
              | TEnd => Some [r]
              | TComma => match vtok (look rest) with
                          | TId | TNot => option_map (cons r) (parse_reqs fuel rest)
                          | _ => None
                          end
              | _ => None
              end
          | _ => None
          end = Some rs -> Forall parsed_req rs) as H.
  { destruct (parse_req ts) as [[r [|[t l] rest]]|] eqn:E; [done| |done].
    apply parse_req_parsed in E. destruct t; try done.
    - intros [= <-]. constructor; [exact E|apply Forall_nil_2].
    - assert (option_map (cons r) (parse_reqs fuel rest) = Some rs -> Forall parsed_req rs) as H.
      { destruct (parse_reqs fuel rest) as [rs'|] eqn:E2; [|done]. simpl. intros [= <-]. constructor; [done|]. by eapply IH. }
      destruct (vtok (look rest)); try done. }
  destruct (vtok (look ts)); try done. intros [= <-]. constructor.
Qed.
Lemma parsed_reqs s rs : parse_to_requirements s = Some rs -> Forall parsed_req rs.
Proof.
  unfold parse_to_requirements. destruct (parse_reqs _ _) as [rs'|] eqn:E; [|done]. simpl.
  intros [= <-]. rewrite gosort_perm. by eapply parse_reqs_parsed.
Qed.

(** ** From requirements to a structured selector *)
Definition is_eqop (o : selop) : bool := match o with OEq | ODEq => true | _ => false end.
Definition lsop_of (o : selop) : lsop :=
  match o with OIn => LIn | ONotIn | ONe => LNotIn | OExists => LExists | _ => LNotExists end.
Definition eqs_of (rs : list req) : list (gostr * gostr) :=
  omap (fun r => if is_eqop (rop r) then match set_list (rvals r) with [v] => Some (rkey r, v) | _ => None end else None) rs.
Definition exprs_of (rs : list req) : list lreq :=
  omap (fun r => if is_eqop (rop r) then None else Some (LReq (rkey r) (lsop_of (rop r)) (set_list (rvals r)))) rs.
Definition no_cmp (r : req) : Prop := rop r <> OGt /\ rop r <> OLt.

Lemma sel_of_reqs_eq rs : forall ls, Forall parsed_req rs -> Forall no_cmp rs ->
  sel_of_reqs ls rs = Some (LSel (foldl (fun m kv => <[kv.1 := kv.2]> m) (mlabels ls) (eqs_of rs)) (mexprs ls ++ exprs_of rs)).
Proof.
  induction rs as [|r rs IH]; intros ls HF Hc.
  - simpl. rewrite app_nil_r. by destruct ls.
  - inversion HF as [|? ? [Hr Hs] HF']; subst. inversion Hc as [|? ? [Hc1 Hc2] Hc']; subst.
    apply new_requirement_inv in Hr as (_ & _ & _ & Ha). cbn [sel_of_reqs].
    unfold eqs_of, exprs_of. cbn [omap list_omap]. fold (eqs_of rs). fold (exprs_of rs).
    destruct (rop r) eqn:E; try done; cbn [is_eqop lsop_of].
    all: try (rewrite IH by done; cbn [mlabels mexprs]; by rewrite <- app_assoc).
    all: destruct Ha as [v Ha]; rewrite Hs, Ha; rewrite IH by done; done.
Qed.
Lemma sel_of_reqs_cmp rs : forall ls, Exists (fun r => rop r = OGt \/ rop r = OLt) rs -> sel_of_reqs ls rs = None.
Proof.
  induction rs as [|r rs IH]; intros ls H; [by apply Exists_nil in H|].
  apply Exists_cons in H as [H|H]; cbn [sel_of_reqs].
  - by destruct H as [-> | ->].
  - destruct (rop r); try (by rewrite IH); try done; destruct (set_list (rvals r)) as [|? [|? ?]]; try done; by rewrite IH.
Qed.

(** Meaning of the pieces. *)
Lemma foldl_insert_lookup (l : list (gostr * gostr)) : forall (m0 : gmap gostr gostr) k v,
  NoDup (map fst l) ->
  (foldl (fun m kv => <[kv.1 := kv.2]> m) m0 l !! k = Some v <-> (k, v) ∈ l \/ k ∉ map fst l /\ m0 !! k = Some v).
Proof.
  induction l as [|[a b] l IH]; intros m0 k v Hn; simpl.
  - rewrite elem_of_nil. set_solver.
  - simpl in Hn. apply NoDup_cons in Hn as [Ha Hn]. rewrite IH by done.
    rewrite elem_of_cons. destruct (decide (k = a)) as [->|Hk].
    + rewrite lookup_insert. split.
      * intros [H|[H [= ->]]]; [by left; right|]. by left; left.
      * intros [[[= ->]|H]|[H _]]; [by right|by left|]. set_solver.
    + rewrite lookup_insert_ne by done. rewrite elem_of_cons. naive_solver.
Qed.
Lemma foldl_insert_some (l : list (gostr * gostr)) : forall (m0 : gmap gostr gostr) k v,
  foldl (fun m kv => <[kv.1 := kv.2]> m) m0 l !! k = Some v -> (k, v) ∈ l \/ m0 !! k = Some v.
Proof.
  induction l as [|[a b] l IH]; intros m0 k v; simpl; [by right|].
  intros [H|H]%IH; [left; set_solver|]. destruct (decide (k = a)) as [->|Hk].
  - rewrite lookup_insert in H. injection H as ->. left. set_solver.
  - rewrite lookup_insert_ne in H by done. by right.
Qed.
Lemma elem_of_eqs k v rs : Forall parsed_req rs ->
  (k, v) ∈ eqs_of rs <-> exists r, r ∈ rs /\ is_eqop (rop r) = true /\ rkey r = k /\ rvals r = [v].
Proof.
  intros HF. unfold eqs_of. rewrite elem_of_list_omap. rewrite Forall_forall in HF. split.
  - intros (r & Hr & E). exists r. split; [done|]. destruct (is_eqop (rop r)); [|done].
    destruct (HF r Hr) as [_ Hs]. rewrite Hs in E.
    destruct (rvals r) as [|w [|? ?]]; try done. by injection E as -> ->.
  - intros (r & Hr & E1 & E2 & E3). exists r. split; [done|]. rewrite E1, E3, set_list_singleton. by rewrite E2.
Qed.
Lemma elem_of_exprs e rs : e ∈ exprs_of rs <->
  exists r, r ∈ rs /\ is_eqop (rop r) = false /\ e = LReq (rkey r) (lsop_of (rop r)) (set_list (rvals r)).
Proof.
  unfold exprs_of. rewrite elem_of_list_omap. split.
  - intros (r & Hr & E). exists r. destruct (is_eqop (rop r)); [done|]. by injection E as <-.
  - intros (r & Hr & E & ->). exists r. by rewrite E.
Qed.
Lemma expr_holds r m : no_cmp r -> is_eqop (rop r) = false ->
  lreq_holds m (LReq (rkey r) (lsop_of (rop r)) (set_list (rvals r))) <-> req_holds m r.
Proof.
  intros [H1 H2] He. unfold lreq_holds, req_holds. cbn [lop lkey lvals].
  destruct (rop r); try done; cbn [lsop_of]; by setoid_rewrite set_list_elem.
Qed.
Lemma eq_keys_NoDup rs : Forall parsed_req rs -> eq_keys_distinct rs -> NoDup (map fst (eqs_of rs)).
Proof.
  induction rs as [|r rs IH]; intros HF H; [constructor|].
  inversion HF as [|? ? Hr HF']; subst.
  assert (NoDup (map fst (eqs_of rs))) as Hn.
  { apply IH; [done|]. intros i j a b Hi Hj Hij. apply (H (S i) (S j)); [done|done|lia]. }
  unfold eqs_of. cbn [omap list_omap]. fold (eqs_of rs).
  destruct (is_eqop (rop r)) eqn:E; [|done].
  destruct (set_list (rvals r)) as [|v [|? ?]]; [done| |done].
  cbn [map fst]. constructor; [|done]. intros Hin.
  apply elem_of_list_fmap in Hin as ([k w] & Hk & Hin). simpl in Hk. subst k.
  apply elem_of_eqs in Hin as (q & Hq & Eq & Hqk & _); [|done].
  apply elem_of_list_lookup in Hq as [j Hj].
  apply (H 0 (S j) r q); try done.
  - destruct (rop r); naive_solver.
  - destruct (rop q); naive_solver.
Qed.
Lemma sel_of_reqs_holds rs m : Forall parsed_req rs -> Forall no_cmp rs -> eq_keys_distinct rs ->
  sel_holds m (LSel (foldl (fun m kv => <[kv.1 := kv.2]> m) ∅ (eqs_of rs)) (exprs_of rs)) <->
  (forall r, r ∈ rs -> req_holds m r).
Proof.
  intros HF Hc Hd. pose proof (eq_keys_NoDup rs HF Hd) as Hn. unfold sel_holds. cbn [mlabels mexprs].
  rewrite Forall_forall in Hc.
  assert (forall r, r ∈ rs -> is_eqop (rop r) = true -> exists v, rvals r = [v]) as Hone.
  { intros r Hr He. rewrite Forall_forall in HF. destruct (HF r Hr) as [Hx _].
    apply new_requirement_inv in Hx as (_ & _ & _ & Ha). destruct (rop r); done. }
  split.
  - intros [H1 H2] r Hr. destruct (is_eqop (rop r)) eqn:E.
    + destruct (Hone r Hr E) as [v Hv].
      assert (m !! rkey r = Some v) as Hm.
      { apply H1. apply foldl_insert_lookup; [done|]. left. apply elem_of_eqs; [done|]. eauto 10. }
      unfold req_holds. destruct (rop r); try done; exists v; (split; [done|]); rewrite Hv; set_solver.
    + apply expr_holds; [by apply Hc|done|]. apply H2. apply elem_of_exprs. eauto.
  - intros H. split.
    + intros k v Hl. apply foldl_insert_lookup in Hl; [|done]. destruct Hl as [Hin|[_ Hl]]; [|by rewrite lookup_empty in Hl].
      apply elem_of_eqs in Hin as (r & Hr & E & <- & Hv); [|done]. specialize (H r Hr).
      unfold req_holds in H. rewrite Hv in H.
      assert (exists w, m !! rkey r = Some w /\ w ∈ [v]) as (w & Hw & Hin) by (by destruct (rop r)).
      apply elem_of_list_singleton in Hin as ->. done.
    + intros e He. apply elem_of_exprs in He as (r & Hr & E & ->). apply expr_holds; [by apply Hc|done|]. by apply H.
Qed.

(** ** Matching *)
Lemma has_value_elem vs v : has_value vs v = true <-> v ∈ vs.
Proof.
  unfold has_value. rewrite existsb_exists. split.
  - intros (x & Hx & E%str_eqb_eq). subst. by apply elem_of_list_In.
  - intros H. exists v. split; [by apply elem_of_list_In|apply str_eqb_refl].
Qed.
Lemma match_req_holds m r : match_req m r = true <-> req_holds m r.
Proof.
  unfold match_req, req_holds. destruct (m !! rkey r) as [v|].
  - destruct (rop r); rewrite ?negb_true_iff, <- ?not_true_iff_false, ?has_value_elem; naive_solver.
  - destruct (rop r); naive_solver.
Qed.
Lemma match_reqs_holds m rs : match_reqs rs m = true <-> forall r, r ∈ rs -> req_holds m r.
Proof.
  unfold match_reqs. rewrite forallb_In, Forall_forall. by setoid_rewrite match_req_holds.
Qed.

(** ** Structured selectors to requirements *)
Definition reqs_from (ml : list (gostr * gostr)) (me : list lreq) : list req :=
  map (fun kv => Req kv.1 OEq [kv.2]) ml ++ map (fun e => Req (lkey e) (op_of_lsop (lop e)) (lvals e)) me.
Lemma add_all_app sel a b : add_all sel (a ++ b) = match add_all sel a with Some s => add_all s b | None => None end.
Proof. revert sel. induction a as [|[r|] a IH]; intros sel; simpl; auto. Qed.
Lemma add_all_some l : forall sel rs, add_all sel l = Some rs ->
  exists qs, l = map Some qs /\ rs ≡ₚ sel ++ qs.
Proof.
  induction l as [|[r|] l IH]; intros sel rs; simpl; [| |done].
  - intros [= ->]. exists []. by rewrite app_nil_r.
  - intros (qs & -> & HP)%IH. exists (r :: qs). split; [done|].
    rewrite HP. unfold add_req. rewrite gosort_perm, <- app_assoc. done.
Qed.
Lemma add_all_none l : forall sel, add_all sel l = None <-> None ∈ l.
Proof.
  induction l as [|[r|] l IH]; intros sel; simpl.
  - rewrite elem_of_nil. done.
  - rewrite IH, elem_of_cons. naive_solver.
  - rewrite elem_of_cons. naive_solver.
Qed.
Definition valid_sel_from (ml : list (gostr * gostr)) (me : list lreq) : Prop :=
  Forall (fun r => new_requirement (rkey r) (rop r) (rvals r) = Some r) (reqs_from ml me).
Lemma as_selector_list ml me :
  map (fun kv : gostr * gostr => new_requirement kv.1 OEq [kv.2]) ml ++
    map (fun e => new_requirement (lkey e) (op_of_lsop (lop e)) (lvals e)) me =
  map (fun r => new_requirement (rkey r) (rop r) (rvals r)) (reqs_from ml me).
Proof. unfold reqs_from. by rewrite map_app, !map_map. Qed.
Lemma as_selector_some ml me rs : as_selector_from ml me = Some rs ->
  rs ≡ₚ reqs_from ml me /\ valid_sel_from ml me.
Proof.
  unfold as_selector_from. rewrite as_selector_list. intros (qs & E & HP)%add_all_some. simpl in HP.
  unfold valid_sel_from.
  assert (forall qs l, map (fun r => new_requirement (rkey r) (rop r) (rvals r)) l = map Some qs -> l = qs /\
    Forall (fun r => new_requirement (rkey r) (rop r) (rvals r) = Some r) l) as H.
  { clear. induction qs as [|q qs IH]; intros [|r l]; simpl; try done.
    intros [= H1 H2]. destruct (IH l H2) as [-> HF]. pose proof H1 as H1'. apply new_requirement_inv in H1 as [-> _].
    destruct r as [k o v]; simpl in *. split; [done|]. by constructor. }
  destruct (H _ _ E) as [-> HF]. done.
Qed.
Lemma as_selector_ok ml me : valid_sel_from ml me -> exists rs, as_selector_from ml me = Some rs.
Proof.
  unfold as_selector_from, valid_sel_from. rewrite as_selector_list. intros HF.
  destruct (add_all [] _) as [rs|] eqn:E; [eauto|]. apply add_all_none in E.
  apply elem_of_list_fmap in E as (r & E & Hr). rewrite Forall_forall in HF. rewrite (HF r Hr) in E. done.
Qed.
Lemma as_selector_sorted ml me rs : as_selector_from ml me = Some rs ->
  StronglySorted (fun a b => str_le (rkey a) (rkey b)) rs.
Proof.
  unfold as_selector_from. set (l := _ ++ _). clearbody l.
  assert (forall sel, StronglySorted (fun a b => str_le (rkey a) (rkey b)) sel -> add_all sel l = Some rs ->
    StronglySorted (fun a b => str_le (rkey a) (rkey b)) rs) as H.
  { induction l as [|[r|] l IH]; intros sel Hs; simpl; [by intros [= <-]| |done].
    apply IH. apply gosort_sorted.
    - intros x. apply str_le_refl.
    - intros x y z. apply str_le_trans.
    - intros x y _ _. apply str_ltb_le.
    - intros x y _ _ H. exact H. }
  apply H. constructor.
Qed.
Lemma reqs_from_holds m ls :
  (forall r, r ∈ reqs_from (map_to_list (mlabels ls)) (mexprs ls) -> req_holds m r) <-> sel_holds m ls.
Proof.
  unfold reqs_from, sel_holds. setoid_rewrite elem_of_app. setoid_rewrite elem_of_list_fmap. split.
  - intros H. split.
    + intros k v Hkv. destruct (H (Req k OEq [v])) as (w & Hw & Hin).
      * left. exists (k, v). split; [done|]. by apply elem_of_map_to_list.
      * simpl in Hin. apply elem_of_list_singleton in Hin as ->. done.
    + intros e He. specialize (H (Req (lkey e) (op_of_lsop (lop e)) (lvals e)) ltac:(right; eauto)).
      unfold req_holds in H. unfold lreq_holds. simpl in H. by destruct (lop e).
  - intros [H1 H2] r [([k v] & -> & Hkv%elem_of_map_to_list)|(e & -> & He)].
    + exists v. split; [by apply H1|]. simpl. set_solver.
    + specialize (H2 e He). unfold req_holds. unfold lreq_holds in H2. simpl. by destruct (lop e).
Qed.
Lemma as_selector_holds m ls rs : as_selector ls = Some rs -> match_reqs rs m = true <-> sel_holds m ls.
Proof.
  unfold as_selector. intros [HP _]%as_selector_some. rewrite match_reqs_holds.
  setoid_rewrite HP. apply reqs_from_holds.
Qed.
(** The iteration order of MatchLabels is irrelevant for success and meaning. *)
Lemma as_selector_order ls ml : ml ≡ₚ map_to_list (mlabels ls) ->
  (as_selector_from ml (mexprs ls) = None <-> as_selector ls = None).
Proof.
  intros HP. unfold as_selector, as_selector_from. rewrite !add_all_none, !elem_of_app, !elem_of_list_fmap.
  by setoid_rewrite HP.
Qed.
