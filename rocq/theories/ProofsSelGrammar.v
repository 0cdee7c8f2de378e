(** The label selector parser accepts the grammar of SpecSelText.v, with its meaning (C81). *)
From Coq Require Import Ascii String NArith ZArith Lia.
From stdpp Require Import base gmap strings list sorting.
From Verif Require Import ModelStr ModelSort ProofsSort ProofsStr ModelLabels SpecLabels ProofsLabels ProofsParse
  ProofsSel PropsSelector SpecSelText.

(** ** Characters *)
Lemma is_ws_blank c : is_ws c = true <-> blank c.
Proof. unfold is_ws, blank. rewrite !orb_true_iff, !N.eqb_eq. tauto. Qed.
Lemma is_nul_nul c : is_nul c = true <-> nul c.
Proof. unfold is_nul, nul. by rewrite N.eqb_eq. Qed.
Lemma is_special_elem c : is_special c = true <-> c ∈ str "=!(),<>".
Proof.
  assert (Bool.eqb (is_special c) (bool_decide (c ∈ str "=!(),<>")) = true) as H.
  { revert c. apply all_bytes. vm_compute. reflexivity. }
  apply eqb_prop in H. rewrite H. by rewrite bool_decide_eq_true.
Qed.
Lemma wordc_char c : wordc c = true <-> word_char c.
Proof.
  unfold wordc, word_char. rewrite andb_true_iff, negb_orb, andb_true_iff, !negb_true_iff.
  rewrite <- is_ws_blank, <- is_nul_nul, <- is_special_elem.
  destruct (is_nul c), (is_special c), (is_ws c); naive_solver.
Qed.
Lemma word_chars w : word w <-> Forall word_char w.
Proof. unfold word. apply Forall_iff. intros c. apply wordc_char. Qed.

(** ** Lexing *)
Definition tok (x : gostr) : token :=
  if str_eqb x (str "=") then TEq else if str_eqb x (str "==") then TDEq
  else if str_eqb x (str "!=") then TNe else if str_eqb x (str "!") then TNot
  else if str_eqb x (str "(") then TOpen else if str_eqb x (str ")") then TClosed
  else if str_eqb x (str ",") then TComma else if str_eqb x (str "<") then TLt
  else if str_eqb x (str ">") then TGt else keyword x.
Definition tokof (x : gostr) : item := (tok x, x).
Lemma tok_word x : x ∉ symbols -> tok x = keyword x.
Proof.
  unfold symbols. intros H. unfold tok.
  repeat match goal with |- context [str_eqb x ?y] =>
    let E := fresh "E" in destruct (str_eqb x y) eqn:E; [apply str_eqb_eq in E; exfalso; apply H; rewrite E; set_solver|] end.
  done.
Qed.
Lemma symbols_not_word x : x ∈ symbols -> ~ Forall word_char x.
Proof.
  intros H HF. rewrite <- word_chars in HF. unfold word in HF.
  rewrite <- forallb_In in HF.
  assert (forallb (fun x => negb (forallb wordc x)) symbols = true) as Hs by (vm_compute; reflexivity).
  rewrite forallb_forall in Hs. apply elem_of_list_In in H. specialize (Hs x H). by rewrite HF in Hs.
Qed.
Lemma word_not_symbol x : Forall word_char x -> x ∉ symbols.
Proof. intros H Hs. by apply (symbols_not_word x). Qed.

Lemma laid_no_nul s l : laid s l -> no_nul s.
Proof.
  unfold no_nul. intros H. destruct H as [|c t l Hc _|x t l Hx _ _|x t l Hx HF _ _].
  - done.
  - simpl. assert (is_nul c = false) as ->; [|done]. unfold is_nul, blank in *. apply N.eqb_neq. lia.
  - unfold symbols in Hx. repeat (apply elem_of_cons in Hx as [->|Hx]; [done|]). by apply elem_of_nil in Hx.
  - destruct HF as [|c x Hc HF]; [done|]. simpl. assert (is_nul c = false) as ->; [|done].
    apply wordc_char in Hc. unfold wordc in Hc. apply andb_true_iff in Hc as [Hc _]. by apply negb_true_iff.
Qed.
Lemma laid_stops s l : laid s l -> (forall c, head s = Some c -> ~ word_char c) -> stops s.
Proof.
  intros Hl H. destruct s as [|c s]; [by left|]. right. exists c, s. split; [done|].
  pose proof (laid_no_nul _ _ Hl) as Hn. specialize (H c eq_refl). rewrite <- wordc_char in H.
  unfold no_nul in Hn. simpl in Hn. destruct (is_nul c) eqn:En.
  - exfalso. apply (f_equal length) in Hn. simpl in Hn. lia.
  - split; [done|]. unfold wordc in H. rewrite En in H. simpl in H. by destruct (is_special c || is_ws c).
Qed.
Lemma lex_blank c s : blank c -> lex_all (c :: s) = lex_all s.
Proof.
  intros H%is_ws_blank. unfold lex_all. cbn [length].
  rewrite (lex_fuel s (S (length s)) (S (S (length s)))) by lia. cbn [lex skip_ws]. by rewrite H.
Qed.
Lemma lex_double c t s : special1 c <> None -> is_nul c = false -> special2 c "="%char = Some t -> no_nul s ->
  lex_all (c :: "="%char :: s) = (t, [c; "="%char]) :: lex_all s.
Proof.
  intros Hs Hn H2 Hnn. destruct (special1 c) as [t1|] eqn:E; [|done].
  unfold lex_all at 1. cbn [lex skip_ws]. rewrite (special1_ws _ _ E), Hn, E.
  unfold scan_special. rewrite H2, Hnn. f_equal. apply lex_fuel; simpl; lia.
Qed.
Lemma laid_lex s l : laid s l -> lex_all s = map tokof l ++ [(TEnd, [])].
Proof.
  induction 1 as [|c t l Hc Hl IH|x t l Hx Hh Hl IH|x t l Hx HF Hh Hl IH].
  - done.
  - by rewrite lex_blank.
  - pose proof (laid_no_nul _ _ Hl) as Hn. cbn [map app]. rewrite <- IH.
    assert (forall c d r, (c = "="%char \/ c = "!"%char -> head t <> Some "="%char) -> t = d :: r -> special2 c d = None) as H2.
    { intros c d r Hc ->. destruct (decide (c = "="%char \/ c = "!"%char)) as [Hd|Hd].
      - apply special2_not_eq. intros ->. by apply (Hc Hd).
      - apply special2_other; naive_solver. }
    unfold symbols in Hx. repeat (apply elem_of_cons in Hx as [->|Hx];
      [first [ apply (lex_double _ _ t); done
             | apply (lex_special _ _ t); [done|done|done|intros d r; apply H2; intros Hd; apply Hh; naive_solver] ]|]).
    by apply elem_of_nil in Hx.
  - cbn [map app]. rewrite <- IH. unfold tokof. rewrite tok_word by (by apply word_not_symbol).
    apply lex_word; [done|by apply word_chars|by eapply laid_stops].
Qed.

(** Every text without a NUL byte has lexemes. *)
Lemma word_run s : exists w t, s = w ++ t /\ Forall word_char w /\ (forall c, head t = Some c -> ~ word_char c).
Proof.
  induction s as [|c s (w & t & -> & Hw & Ht)].
  - exists [], []. repeat split; [constructor|done].
  - destruct (wordc c) eqn:E.
    + apply wordc_char in E. exists (c :: w), t. repeat split; [by constructor|done].
    + exists [], (c :: w ++ t). repeat split; [constructor|]. intros d [= <-]. rewrite <- wordc_char. by rewrite E.
Qed.
Lemma laid_total s : Forall (fun c => ~ nul c) s -> exists l, laid s l.
Proof.
  remember (length s) as n eqn:Hn. revert s Hn. induction n as [n IH] using (well_founded_induction lt_wf).
  intros s -> HF. destruct s as [|c s]; [eexists; constructor|].
  inversion HF as [|? ? Hc HF']; subst.
  destruct (is_ws c) eqn:Ew.
  { destruct (IH (length s) ltac:(simpl; lia) s eq_refl HF') as [l Hl]. exists l.
    apply laid_blank; [by apply is_ws_blank|done]. }
  destruct (is_special c) eqn:Es.
  { apply is_special_elem in Es.
    assert ([c] ∈ symbols) as Hsym.
    { unfold symbols. unfold str in Es. simpl in Es. 
      repeat (apply elem_of_cons in Es as [->|Es]; [set_solver|]). by apply elem_of_nil in Es. }
    destruct (decide ((c = "="%char \/ c = "!"%char) /\ head s = Some "="%char)) as [[Hc2 Hh]|Hno].
    - destruct s as [|d s]; [done|]. injection Hh as ->. inversion HF' as [|? ? _ HF2]; subst.
      destruct (IH (length s) ltac:(simpl; lia) s eq_refl HF2) as [l Hl]. exists ([c; "="%char] :: l).
      apply (laid_symbol [c; "="%char] s l); [|naive_solver|done].
      unfold symbols. destruct Hc2 as [-> | ->]; set_solver.
    - destruct (IH (length s) ltac:(simpl; lia) s eq_refl HF') as [l Hl]. exists ([c] :: l).
      apply (laid_symbol [c] s l); [done| |done]. intros Hx Hh. apply Hno. split; [|done].
      destruct Hx as [[= ->]|[= ->]]; auto. }
  destruct (word_run (c :: s)) as (w & t & E & Hw & Ht).
  assert (word_char c) as Hwc.
  { apply wordc_char. unfold wordc. rewrite Es, Ew. destruct (is_nul c) eqn:En; [|done]. by apply is_nul_nul in En. }
  destruct w as [|c' w].
  { simpl in E. subst t. exfalso. by apply (Ht c). }
  rewrite E in HF. apply Forall_app in HF as [_ HFt].
  assert (length t < length (c :: s)) as Hlt. { rewrite E, app_length. simpl. lia. }
  destruct (IH (length t) Hlt t eq_refl HFt) as [l Hl]. exists ((c' :: w) :: l). rewrite E.
  by apply laid_word.
Qed.
Lemma laid_lexemes s l : laid s l -> Forall (fun x => x <> [] /\ (x ∈ symbols \/ Forall word_char x)) l.
Proof.
  induction 1 as [|c t l Hc Hl IH|x t l Hx Hh Hl IH|x t l Hx HF Hh Hl IH]; try done; constructor; auto.
  split; [|by left]. intros ->. unfold symbols in Hx. set_solver.
Qed.

(** ** Keys *)
Lemma last_is_iff p s : last_is p s = true <-> exists r c, s = r ++ [c] /\ p c = true.
Proof.
  unfold last_is. destruct s as [|c s] using rev_ind.
  - split; [done|]. intros (r & c & E & _). by destruct r.
  - rewrite last_snoc. split; [naive_solver|]. intros (r & c' & E & Hc).
    apply app_inj_2 in E as [_ [= ->]]; done.
Qed.
Lemma lowdig_iff c : is_lowdig c = true <-> low_digit c.
Proof.
  unfold is_lowdig, is_digit, is_lower, between, low_digit. rewrite orb_true_iff, !andb_true_iff, !N.leb_le. tauto.
Qed.
Lemma dns_label_iff x : dns_label x = true <-> dns_part x.
Proof.
  unfold dns_label, dns_part. rewrite !andb_true_iff, last_is_iff, forallb_In.
  assert (Forall (fun c => is_lowdig c || ch_eqb c "-"%char = true) x <->
          Forall (fun c => low_digit c \/ c = "-"%char) x) as ->.
  { apply Forall_iff. intros c. by rewrite orb_true_iff, lowdig_iff, ch_eqb_eq. }
  destruct x as [|c x]; simpl; [naive_solver|]. rewrite lowdig_iff. split.
  - intros [[H1 (r & d & E & Hd)] HF]. split; [done|]. split; [done|].
    split; [by intros ? ? [= <- <-]|]. intros d' r' E'. rewrite E in E'.
    apply app_inj_2 in E' as [_ [= ->]]; [|done]. by apply lowdig_iff.
  - intros (_ & HF & H1 & H2). split; [|done]. split; [by apply (H1 c x)|].
    destruct (exists_last (l:=c :: x) ltac:(done)) as (r & d & E). exists r, d. split; [done|].
    apply lowdig_iff. by apply (H2 d r).
Qed.
Lemma dns_part_nodot x : dns_part x -> "."%char ∉ x.
Proof.
  intros (_ & HF & _) H. rewrite Forall_forall in HF. destruct (HF _ H) as [Hl|Hl]; [|done].
  unfold low_digit in Hl. vm_compute in Hl. destruct Hl as [[? ?]|[? ?]]; done.
Qed.
Lemma dotted_iff p : forallb dns_label (split_on "."%char p) = true <-> dotted p.
Proof.
  rewrite forallb_In. split.
  - intros HF. rewrite <- (join_split "."%char p). pose proof (split_on_nonnil "."%char p) as Hne.
    induction HF as [|x l Hx HF IH]; [done|]. apply dns_label_iff in Hx.
    destruct l as [|y l]; [by apply dotted_one|]. rewrite join_cons_cons. cbn [app].
    apply dotted_more; [done|]. by apply IH.
  - induction 1 as [x Hx|x y Hx Hy IH].
    + rewrite split_on_nosep by (by apply dns_part_nodot). constructor; [by apply dns_label_iff|constructor].
    + rewrite split_on_app by (by apply dns_part_nodot). constructor; [by apply dns_label_iff|done].
Qed.
Lemma valid_name_iff n : valid_name n = true <-> legal_name n.
Proof.
  unfold legal_name. rewrite <- valid_value_legal. unfold valid_name, valid_value.
  destruct n as [|c n]; [|naive_solver]. simpl. naive_solver.
Qed.
Lemma ext_noslash x : Forall (fun c => is_ext c = true) x -> "/"%char ∉ x.
Proof. intros HF H. rewrite Forall_forall in HF. specialize (HF _ H). by vm_compute in HF. Qed.
Lemma valid_key_iff k : valid_key k = true <-> legal_key k.
Proof.
  unfold legal_key. split.
  - unfold valid_key. intros H. pose proof (join_split "/"%char k) as E.
    destruct (split_on "/"%char k) as [|p [|n [|? ?]]]; try done.
    + left. simpl in E. subst p. by apply valid_name_iff.
    + right. exists p, n. apply andb_true_iff in H as [H1 H2]. unfold dns1123 in H1.
      apply andb_true_iff in H1 as [H1 H3]. apply Nat.leb_le in H1.
      split; [by rewrite <- E|]. split; [by apply dotted_iff|]. split; [done|]. by apply valid_name_iff.
  - intros [H|(p & n & -> & Hp & Hl & Hn)].
    + apply valid_name_iff in H. pose proof (proj2 (valid_name_chars _ H)) as HF.
      unfold valid_key. by rewrite split_on_nosep by (by apply ext_noslash).
    + apply valid_name_iff in Hn. apply dotted_iff in Hp.
      assert (dns1123 p = true) as Hd. { unfold dns1123. rewrite Hp. apply andb_true_iff. split; [by apply Nat.leb_le|done]. }
      unfold valid_key. rewrite split_on_app by (by apply ext_noslash, dns_chars).
      rewrite split_on_nosep by (by apply ext_noslash, valid_name_chars). by rewrite Hd, Hn.
Qed.
Lemma legal_key_word k : legal_key k -> k <> [] /\ k ∉ symbols.
Proof.
  intros [H1 H2]%valid_key_iff%key_word. split; [done|]. by apply word_not_symbol, word_chars.
Qed.
Lemma legal_value_word v : legal_value v -> v ∉ symbols.
Proof. intros H%valid_value_legal%value_word. by apply word_not_symbol, word_chars. Qed.

(** ** Values between parentheses *)
Definition nz (acc : list gostr) : list gostr := match acc with [] => [[]] | _ => acc end.
Definition closed : item := (TClosed, str ")").
Lemma tokof_word w : w ∉ symbols -> tokof w = (keyword w, w).
Proof. intros H. unfold tokof. by rewrite tok_word. Qed.
Lemma tokof_comma : tokof (str ",") = comma. Proof. done. Qed.
Lemma tokof_closed : tokof (str ")") = closed. Proof. done. Qed.
Lemma idents_word_closed acc w r : parse_idents acc ((keyword w, w) :: closed :: r) = Some (acc ++ [w], closed :: r).
Proof. cbn [parse_idents]. by rewrite keyword_vtok. Qed.
Lemma idents_comma_closed acc r : parse_idents acc (comma :: closed :: r) = Some (nz acc ++ [[]], closed :: r).
Proof. done. Qed.
Lemma idents_comma_word acc w r :
  parse_idents acc (comma :: (keyword w, w) :: r) = parse_idents (nz acc) ((keyword w, w) :: r).
Proof. pose proof (keyword_vtok w). cbn [parse_idents comma vtok]. unfold nz. by destruct (keyword w). Qed.
Lemma nz_set acc ps : (acc = [] \/ [] ∈ acc) -> same_set (nz acc ++ ps) (acc ++ [] :: ps).
Proof. intros H x. destruct acc as [|a acc]; simpl; [set_solver|]. destruct H as [H|H]; [done|]. set_solver. Qed.
Lemma nz_snoc acc w : nz (acc ++ [w]) = acc ++ [w].
Proof. by destruct acc. Qed.
Definition starts (l : list gostr) : Prop := exists w l', l = w :: l' /\ w ∉ symbols.
Definition two_commas (l : list gostr) : Prop := exists a, l = a ++ [str ","; str ","].
Lemma two_commas_cons x l : two_commas l -> two_commas (x :: l).
Proof. intros [a ->]. by exists (x :: a). Qed.

Definition reads_at_piece (l ps : list gostr) : Prop := forall acc rest,
  (acc = [] \/ [] ∈ acc \/ starts l) -> l <> [] -> ~ two_commas l ->
  exists vs, parse_idents acc (map tokof l ++ closed :: rest) = Some (vs, closed :: rest) /\ same_set vs (acc ++ ps).
Definition reads_at_comma (l ps : list gostr) : Prop := forall acc rest, ~ two_commas (str "," :: l) ->
  exists vs, parse_idents acc (comma :: map tokof l ++ closed :: rest) = Some (vs, closed :: rest) /\ same_set vs (nz acc ++ ps).
Lemma reads_comma_step l ps : pieces l ps ->
  (forall l' ps', length l' <= length l -> pieces l' ps' -> reads_at_piece l' ps') -> reads_at_comma l ps.
Proof.
  intros Hp IH acc rest Hc. destruct Hp as [|w Hw Hwn|l ps Hp|w l ps Hw Hwn Hp].
  - cbn [map app]. rewrite idents_comma_closed. eexists. split; [done|]. by intros x.
  - cbn [map app]. rewrite (tokof_word w Hw), idents_comma_word, idents_word_closed. eexists. split; [done|]. by intros x.
  - cbn [map app]. rewrite tokof_comma, idents_comma2. fold (nz acc).
    destruct (IH l ps ltac:(simpl; lia) Hp (nz acc ++ [[]]) rest) as (vs & E & Hs).
    + right. left. set_solver.
    + intros ->. apply Hc. by exists [].
    + intros H. by apply Hc, two_commas_cons, two_commas_cons.
    + exists vs. split; [exact E|]. intros x. rewrite (Hs x). by rewrite <- app_assoc.
  - assert (pieces (w :: str "," :: l) (w :: ps)) as Hp' by (by constructor).
    destruct (IH _ _ ltac:(done) Hp' (nz acc) rest) as (vs & E & Hs).
    + right. right. by eexists _, _.
    + done.
    + intros H. by apply Hc, two_commas_cons.
    + exists vs. split; [|done]. rewrite <- E. cbn [map app]. rewrite (tokof_word w Hw). apply idents_comma_word.
Qed.
Lemma reads_pieces n : forall l ps, length l <= n -> pieces l ps -> reads_at_piece l ps.
Proof.
  induction n as [|n IH]; intros l ps Hn Hp acc rest Hacc Hne Hc.
  { by destruct l; simpl in Hn; [|lia]. }
  destruct Hp as [|w Hw Hwn|l ps Hp|w l ps Hw Hwn Hp]; simpl in Hn.
  - done.
  - cbn [map app]. rewrite (tokof_word w Hw), idents_word_closed. eexists. split; [done|]. by intros x.
  - assert (reads_at_comma l ps) as Hr.
    { apply reads_comma_step; [done|]. intros l' ps' Hl. apply IH. lia. }
    destruct (Hr acc rest Hc) as (vs & E & Hs). exists vs. split; [exact E|].
    assert (acc = [] \/ [] ∈ acc) as Ha.
    { destruct Hacc as [?|[?|(w & l' & [= <- _] & Hw)]]; [by left|by right|]. exfalso. apply Hw. unfold symbols. set_solver. }
    intros x. rewrite (Hs x). by apply nz_set.
  - assert (reads_at_comma l ps) as Hr.
    { apply reads_comma_step; [done|]. intros l' ps' Hl. apply IH. lia. }
    destruct (Hr (acc ++ [w]) rest) as (vs & E & Hs).
    { intros H. by apply Hc, two_commas_cons. }
    exists vs. split.
    + cbn [map app]. rewrite (tokof_word w Hw), tokof_comma, idents_id. exact E.
    + intros x. rewrite (Hs x), nz_snoc, <- app_assoc. done.
Qed.
Lemma pieces_head l ps : pieces l ps -> l <> [] -> exists y l', l = y :: l' /\ (y = str "," \/ y ∉ symbols).
Proof. intros [|w Hw _|l' vs _|w l' vs Hw _ _]; [done|..]; intros _; eexists _, _; (split; [done|]); auto. Qed.
Lemma values_read l ps rest : pieces l ps -> ~ two_commas l ->
  exists vs, parse_values (tokof (str "(") :: map tokof l ++ closed :: rest) = Some (vs, rest) /\ same_set vs ps.
Proof.
  intros Hp Hc. destruct (decide (l = [])) as [->|Hne].
  - inversion Hp; subst. exists [[]]. split; [done|]. by intros x.
  - destruct (reads_pieces (length l) l ps ltac:(done) Hp [] rest) as (vs & E & Hs); [by left|done|done|].
    exists vs. split; [|done].
    destruct (pieces_head _ _ Hp Hne) as (y & l' & -> & Hy).
    assert (vtok (look (map tokof (y :: l') ++ closed :: rest)) = TId \/ vtok (look (map tokof (y :: l') ++ closed :: rest)) = TComma) as Hl.
    { cbn [map app]. destruct Hy as [->|Hy]; [by right|]. left. rewrite (tokof_word y Hy). apply keyword_vtok. }
    assert (forall r, parse_values (tokof (str "(") :: r) =
      match vtok (look r) with
      | TId | TComma => match parse_idents [] r with Some (vs, (TClosed, _) :: rest') => Some (vs, rest') | _ => None end
      | TClosed => Some ([[]], drop 1 r)
      | _ => None end) as Hpv by done.
    rewrite Hpv, E. destruct Hl as [-> | ->]; done.
Qed.

(** ... and back *)
Definition ends : list item := [(TEnd, [])].
Lemma other_symbol acc y r : y ∈ symbols -> y <> str "," -> parse_idents acc (tokof y :: r) = None.
Proof.
  intros Hy Hc. unfold symbols in Hy.
  repeat (apply elem_of_cons in Hy as [->|Hy]; [done|]). by apply elem_of_nil in Hy.
Qed.
Lemma comma_other acc y r : y ∈ symbols -> y <> str "," -> y <> str ")" -> parse_idents acc (comma :: tokof y :: r) = None.
Proof.
  intros Hy Hc Hd. unfold symbols in Hy.
  repeat (apply elem_of_cons in Hy as [->|Hy]; [done|]). by apply elem_of_nil in Hy.
Qed.
Definition piece_read (l : list gostr) : Prop := forall acc vs rest,
  (acc = [] \/ [] ∈ acc \/ starts l) -> parse_idents acc (map tokof l ++ ends) = Some (vs, rest) ->
  exists l1 l2 ps, l = l1 ++ str ")" :: l2 /\ rest = closed :: map tokof l2 ++ ends /\ pieces l1 ps /\ same_set vs (acc ++ ps).
Definition comma_read (l : list gostr) : Prop := forall acc vs rest,
  parse_idents acc (comma :: map tokof l ++ ends) = Some (vs, rest) ->
  exists l1 l2 ps, l = l1 ++ str ")" :: l2 /\ rest = closed :: map tokof l2 ++ ends /\ pieces l1 ps /\ same_set vs (nz acc ++ ps).
Lemma comma_read_step l : (forall l', length l' <= length l -> Forall (fun x => x <> []) l' -> piece_read l') ->
  Forall (fun x => x <> []) l -> comma_read l.
Proof.
  intros IH HF acc vs rest E. destruct l as [|y l]; [done|]. inversion HF as [|? ? Hy HF']; subst.
  cbn [map app] in E.
  destruct (decide (y = str ",")) as [->|Hyc].
  { rewrite tokof_comma, idents_comma2 in E. fold (nz acc) in E.
    destruct (IH l ltac:(simpl; lia) HF' (nz acc ++ [[]]) vs rest ltac:(right; left; set_solver) E) as (l1 & l2 & ps & -> & -> & Hp & Hs).
    exists (str "," :: l1), l2, ([] :: ps). split; [done|]. split; [done|]. split; [by constructor|].
    intros x. rewrite (Hs x). by rewrite <- app_assoc. }
  destruct (decide (y = str ")")) as [->|Hyd].
  { rewrite tokof_closed, idents_comma_closed in E. injection E as <- <-.
    exists [], l, [[]]. split; [done|]. split; [done|]. split; [constructor|]. by intros x. }
  destruct (decide (y ∈ symbols)) as [Hs|Hs].
  { by rewrite comma_other in E. }
  rewrite (tokof_word y Hs), idents_comma_word in E.
  apply (IH (y :: l)); [done|done| |].
  - right. right. by eexists _, _.
  - cbn [map app]. by rewrite (tokof_word y Hs).
Qed.
Lemma pieces_read n : forall l, length l <= n -> Forall (fun x => x <> []) l -> piece_read l.
Proof.
  induction n as [|n IH]; intros l Hn HF acc vs rest Hacc E.
  { destruct l; simpl in Hn; [|lia]. done. }
  destruct l as [|y l]; [done|]. inversion HF as [|? ? Hy HF']; subst. simpl in Hn. cbn [map app] in E.
  destruct (decide (y = str ",")) as [->|Hyc].
  { assert (comma_read l) as Hr. { apply comma_read_step; [|done]. intros l' Hl. apply IH. lia. }
    assert (acc = [] \/ [] ∈ acc) as Ha.
    { destruct Hacc as [?|[?|(w & l' & [= <- _] & Hw)]]; [by left|by right|]. exfalso. apply Hw. unfold symbols. set_solver. }
    destruct (Hr acc vs rest E) as (l1 & l2 & ps & -> & -> & Hp & Hs).
    exists (str "," :: l1), l2, ([] :: ps). split; [done|]. split; [done|]. split; [by constructor|].
    intros x. rewrite (Hs x). by apply nz_set. }
  destruct (decide (y ∈ symbols)) as [Hs|Hs].
  { by rewrite other_symbol in E. }
  rewrite (tokof_word y Hs) in E.
  destruct l as [|z l].
  { cbn [map app ends parse_idents] in E. rewrite keyword_vtok in E. done. }
  cbn [map app] in E.
  destruct (decide (z = str ",")) as [->|Hzc].
  { inversion HF' as [|? ? _ HF2]; subst.
    assert (comma_read l) as Hr. { apply comma_read_step; [|done]. intros l' Hl. apply IH. simpl in Hn. lia. }
    rewrite tokof_comma, idents_id in E.
    destruct (Hr _ vs rest E) as (l1 & l2 & ps & -> & -> & Hp & Hss).
    exists (y :: str "," :: l1), l2, (y :: ps). split; [done|]. split; [done|]. split; [by constructor|].
    intros x. rewrite (Hss x), nz_snoc, <- app_assoc. done. }
  destruct (decide (z = str ")")) as [->|Hzd].
  { rewrite tokof_closed, idents_word_closed in E. injection E as <- <-.
    exists [y], l, [y]. split; [done|]. split; [done|]. split; [by constructor|]. by intros x. }
  exfalso. cbn [parse_idents] in E. rewrite keyword_vtok in E.
  assert (look (tokof z :: map tokof l ++ ends) <> TComma /\ look (tokof z :: map tokof l ++ ends) <> TClosed) as [H1 H2].
  { cbn [look tokof]. destruct (decide (z ∈ symbols)) as [Hz|Hz].
    - unfold symbols in Hz. repeat (apply elem_of_cons in Hz as [->|Hz]; [done|]). by apply elem_of_nil in Hz.
    - rewrite tok_word by done. pose proof (keyword_vtok z) as Hk. split; intros Hx; by rewrite Hx in Hk. }
  destruct (look (tokof z :: map tokof l ++ ends)); done.
Qed.
Lemma values_back l vs rest : Forall (fun x => x <> []) l -> parse_values (map tokof l ++ ends) = Some (vs, rest) ->
  exists l1 l2 ps, l = str "(" :: l1 ++ str ")" :: l2 /\ rest = map tokof l2 ++ ends /\ pieces l1 ps /\ same_set vs ps.
Proof.
  intros HF E. destruct l as [|y l]; [done|]. inversion HF as [|? ? Hy HF']; subst. cbn [map app] in E.
  assert (y = str "(") as ->.
  { destruct (decide (y ∈ symbols)) as [Hs|Hs].
    - unfold symbols in Hs. repeat (apply elem_of_cons in Hs as [->|Hs]; [done|]). by apply elem_of_nil in Hs.
    - rewrite (tokof_word y Hs) in E. pose proof (keyword_vtok y). cbn [parse_values] in E. by destruct (keyword y). }
  assert (forall r, parse_values (tokof (str "(") :: r) =
      match vtok (look r) with
      | TId | TComma => match parse_idents [] r with Some (vs, (TClosed, _) :: rest') => Some (vs, rest') | _ => None end
      | TClosed => Some ([[]], drop 1 r)
      | _ => None end) as Hpv by done.
  rewrite Hpv in E.
  assert (forall E : match parse_idents [] (map tokof l ++ ends) with Some (vs, (TClosed, _) :: rest') => Some (vs, rest') | _ => None end = Some (vs, rest),
    exists l1 l2 ps, str "(" :: l = str "(" :: l1 ++ str ")" :: l2 /\ rest = map tokof l2 ++ ends /\ pieces l1 ps /\ same_set vs ps) as Hgo.
  { intros E2. destruct (parse_idents [] (map tokof l ++ ends)) as [[vs' rest']|] eqn:Ep; [|done].
    destruct (pieces_read (length l) l ltac:(done) HF' [] vs' rest' ltac:(by left) Ep) as (l1 & l2 & ps & -> & -> & Hp & Hs).
    cbn [closed] in E2. injection E2 as <- <-. exists l1, l2, ps. done. }
  destruct (vtok (look (map tokof l ++ ends))) eqn:El; try done; try (by apply Hgo).
  destruct l as [|z l]; [done|]. cbn [map app look tokof] in El.
  assert (z = str ")") as ->.
  { destruct (decide (z ∈ symbols)) as [Hs|Hs].
    - unfold symbols in Hs. repeat (apply elem_of_cons in Hs as [->|Hs]; [done|]). by apply elem_of_nil in Hs.
    - rewrite tok_word in El by done. by rewrite keyword_vtok in El. }
  cbn [map app drop] in E. injection E as <- <-.
  exists [], l, [[]]. split; [done|]. split; [done|]. split; [constructor|]. by intros x.
Qed.

(** ** One requirement *)
Lemma Forall_legal vs : Forall legal_value vs <-> Forall (fun v => valid_value v = true) vs.
Proof. apply Forall_iff. intros v. by rewrite valid_value_legal. Qed.
Lemma tok_op x o : (x, o) ∈ [(str "=", OEq); (str "==", ODEq); (str "!=", ONe)] ->
  forall rest, parse_op (tokof x :: rest) = Some (o, rest) /\ (look (tokof x :: rest) <> TEnd /\ look (tokof x :: rest) <> TComma) /\
    (o = OEq \/ o = ODEq \/ o = ONe).
Proof.
  intros H rest. repeat (apply elem_of_cons in H as [H|H]; [injection H as -> ->; naive_solver|]). by apply elem_of_nil in H.
Qed.
Lemma tok_member x o : (x, o) ∈ [(str "in", OIn); (str "notin", ONotIn)] ->
  forall rest, parse_op (tokof x :: rest) = Some (o, rest) /\ (look (tokof x :: rest) <> TEnd /\ look (tokof x :: rest) <> TComma) /\
    (o = OIn \/ o = ONotIn).
Proof.
  intros H rest. repeat (apply elem_of_cons in H as [H|H]; [injection H as -> ->; naive_solver|]). by apply elem_of_nil in H.
Qed.
Lemma parse_req_op k o rest rest' : valid_key k = true -> look rest <> TEnd -> look rest <> TComma ->
  parse_op rest = Some (o, rest') ->
  parse_req ((keyword k, k) :: rest) =
    match (match o with OIn | ONotIn => parse_values rest' | _ => parse_exact rest' end) with
    | Some (vs, rest) => option_map (fun r => (r, rest)) (new_requirement k o (set_list vs))
    | None => None
    end.
Proof.
  intros Hk H1 H2 Ho. rewrite parse_req_ident, Hk, Ho. destruct (look rest); done.
Qed.
Lemma parse_exact_word v rest : v ∉ symbols -> parse_exact (tokof v :: rest) = Some ([v], rest).
Proof.
  intros H. rewrite (tokof_word v H). pose proof (keyword_vtok v) as Hk. unfold parse_exact. cbn [look].
  rewrite Hk. destruct (keyword v); done.
Qed.
Lemma req_read l r t x rest : says_req l r -> ~ gap l -> fin t ->
  parse_req (map tokof l ++ (t, x) :: rest) = Some (norm r, (t, x) :: rest).
Proof.
  intros Hs Hg Hf. destruct Hs as [k Hk|k Hk|k y o v Hk Ho Hv Hl|k y o Hk Ho|k y o l vs Hk Ho Hp Hl];
    destruct (legal_key_word _ Hk) as [Hkn Hks]; apply valid_key_iff in Hk as Hkv; cbn [map app];
    try rewrite (tokof_word k Hks).
  - rewrite parse_req_ident, Hkv. cbn [look].
    rewrite (new_requirement_intro k OExists []) by (done || constructor).
    unfold norm. cbn [rkey rop rvals]. rewrite set_list_nil. by destruct Hf as [-> | ->].
  - assert (tokof (str "!") = (TNot, str "!")) as -> by done. cbn [parse_req]. rewrite keyword_vtok, Hkv.
    rewrite (new_requirement_intro k ONotExists []) by (done || constructor).
    unfold norm. cbn [rkey rop rvals]. by rewrite set_list_nil.
  - destruct (tok_op y o Ho (tokof v :: (t, x) :: rest)) as (Hop & [Hl1 Hl2] & Hoo).
    etrans; [apply (parse_req_op k o _ _ Hkv Hl1 Hl2 Hop)|]. rewrite parse_exact_word by (by apply legal_value_word).
    apply valid_value_legal in Hl. unfold norm. cbn [rkey rop rvals].
    assert (exists v', [v] = [v']) as Hone by eauto.
    destruct Hoo as [->|[-> | ->]]; rewrite set_list_singleton;
      (rewrite new_requirement_intro; [done|done|by repeat constructor|done]).
  - destruct (tok_op y o Ho ((t, x) :: rest)) as (Hop & [Hl1 Hl2] & Hoo).
    etrans; [apply (parse_req_op k o _ _ Hkv Hl1 Hl2 Hop)|].
    assert (parse_exact ((t, x) :: rest) = Some ([[]], (t, x) :: rest)) as -> by (by destruct Hf as [-> | ->]).
    unfold norm. cbn [rkey rop rvals].
    assert (exists v', [[]] = [v' : gostr]) as Hone by eauto.
    destruct Hoo as [->|[-> | ->]]; rewrite set_list_singleton;
      (rewrite new_requirement_intro; [done|done|by repeat constructor|done]).
  - rewrite map_app, <- app_assoc. cbn [map app]. rewrite tokof_closed.
    destruct (tok_member y o Ho (tokof (str "(") :: map tokof l ++ closed :: (t, x) :: rest)) as (Hop & [Hl1 Hl2] & Hoo).
    etrans; [apply (parse_req_op k o _ _ Hkv Hl1 Hl2 Hop)|].
    destruct (values_read l vs ((t, x) :: rest) Hp) as (vs' & E & Hss).
    { intros [a ->]. apply Hg. exists (k :: y :: str "(" :: a), []. by rewrite <- app_assoc. }
    unfold norm. cbn [rkey rop rvals].
    assert (set_list vs <> []) as Hne. { intros H%set_list_nil_inv. subst vs. inversion Hp. }
    assert (Forall (fun v => valid_value v = true) (set_list vs)) as Hvv. { apply Forall_set_list. by apply Forall_legal. }
    destruct Hoo as [-> | ->]; rewrite E, (set_list_same _ _ Hss); (rewrite new_requirement_intro; done).
Qed.

Lemma member_inv r : set_list (rvals r) = rvals r -> forall vs, same_set (rvals r) vs -> r = norm (Req (rkey r) (rop r) vs).
Proof. intros E vs H. unfold norm. cbn [rkey rop rvals]. rewrite <- (set_list_same _ _ H), E. by destruct r. Qed.
Lemma word_of_tok y : vtok (tok y) = TId -> y ∉ symbols.
Proof.
  intros H Hs. unfold symbols in Hs. repeat (apply elem_of_cons in Hs as [->|Hs]; [done|]). by apply elem_of_nil in Hs.
Qed.
Lemma keyword_in y : (keyword y = TIn -> y = str "in") /\ (keyword y = TNotIn -> y = str "notin").
Proof.
  unfold keyword. destruct (str_eqb y (str "in")) eqn:E1; [apply str_eqb_eq in E1; done|].
  destruct (str_eqb y (str "notin")) eqn:E2; [apply str_eqb_eq in E2; done|]. done.
Qed.
Lemma op_back l o rest : parse_op (map tokof l ++ ends) = Some (o, rest) -> o <> OGt -> o <> OLt ->
  exists x l', l = x :: l' /\ rest = map tokof l' ++ ends /\
    ((x, o) ∈ [(str "=", OEq); (str "==", ODEq); (str "!=", ONe)] \/ (x, o) ∈ [(str "in", OIn); (str "notin", ONotIn)]).
Proof.
  intros E Hg Hl. destruct l as [|x l]; [done|]. exists x, l. split; [done|]. cbn [map app] in E.
  destruct (decide (x ∈ symbols)) as [Hs|Hs].
  - unfold symbols in Hs. 
    repeat (apply elem_of_cons in Hs as [->|Hs]; [first [done | injection E as <- <-; first [done | split; [done|]; left; set_solver]]|]).
    by apply elem_of_nil in Hs.
  - rewrite (tokof_word x Hs) in E. destruct (keyword_in x) as [H1 H2]. cbn [parse_op] in E.
    pose proof (keyword_vtok x) as Hk.
    destruct (keyword x) eqn:Ek; try done; injection E as <- <-; (split; [done|]); right.
    + rewrite (H1 eq_refl). set_solver.
    + rewrite (H2 eq_refl). set_solver.
Qed.
Lemma exact_back l vs rest : parse_exact (map tokof l ++ ends) = Some (vs, rest) ->
  vs = [[]] /\ rest = map tokof l ++ ends \/ exists v l', l = v :: l' /\ v ∉ symbols /\ vs = [v] /\ rest = map tokof l' ++ ends.
Proof.
  intros E. destruct l as [|x l].
  - injection E as <- <-. by left.
  - cbn [map app] in E |- *. destruct (decide (x ∈ symbols)) as [Hs|Hs].
    + unfold symbols in Hs. repeat (apply elem_of_cons in Hs as [->|Hs]; [first [done|injection E as <- <-; by left]|]).
      by apply elem_of_nil in Hs.
    + rewrite parse_exact_word in E by done. injection E as <- <-. right. by exists x, l.
Qed.
Lemma req_back l r rest : Forall (fun x => x <> []) l -> parse_req (map tokof l ++ ends) = Some (r, rest) -> no_cmp r ->
  exists l1 l2 r0, l = l1 ++ l2 /\ rest = map tokof l2 ++ ends /\ says_req l1 r0 /\ r = norm r0.
Proof.
  intros HF E [Hc1 Hc2]. pose proof (parse_req_parsed _ _ _ E) as [Hr Hset].
  apply new_requirement_inv in Hr as (_ & Hkey & Hvals & Har).
  destruct l as [|y l]; [done|]. inversion HF as [|? ? Hy HF']; subst. cbn [map app] in E.
  destruct (decide (y = str "!")) as [->|Hyn].
  { assert (tokof (str "!") = (TNot, str "!")) as Et by done. rewrite Et in E.
    destruct l as [|k l]; [done|]. cbn [map app parse_req] in E. unfold tokof at 1 in E.
    destruct (vtok (tok k)) eqn:Ek; try done. destruct (valid_key k) eqn:Hk; [|done].
    rewrite (new_requirement_intro k ONotExists []) in E by (done || constructor). simpl in E. injection E as <- <-.
    exists [str "!"; k], l, (Req k ONotExists []). split; [done|]. split; [done|].
    split; [constructor; by apply valid_key_iff|]. unfold norm. cbn [rkey rop rvals]. by rewrite set_list_nil. }
  destruct (decide (y ∈ symbols)) as [Hs|Hs].
  { exfalso. unfold symbols in Hs. repeat (apply elem_of_cons in Hs as [->|Hs]; [done|]). by apply elem_of_nil in Hs. }
  rewrite (tokof_word y Hs), parse_req_ident in E. destruct (valid_key y) eqn:Hk; [|done].
  assert (legal_key y) as Hky by (by apply valid_key_iff).
  assert (option_map (fun r => (r, map tokof l ++ ends)) (new_requirement y OExists []) = Some (r, rest) ->
    exists l1 l2 r0, y :: l = l1 ++ l2 /\ rest = map tokof l2 ++ ends /\ says_req l1 r0 /\ r = norm r0) as Hex.
  { rewrite (new_requirement_intro y OExists []) by (done || constructor). simpl. intros [= <- <-].
    exists [y], l, (Req y OExists []). split; [done|]. split; [done|]. split; [by constructor|].
    unfold norm. cbn [rkey rop rvals]. by rewrite set_list_nil. }
  assert (match parse_op (map tokof l ++ ends) with
           | Some (op, rest) =>
               match (match op with OIn | ONotIn => parse_values rest | _ => parse_exact rest end) with
               | Some (vs, rest) => option_map (fun r => (r, rest)) (new_requirement y op (set_list vs))
               | None => None
               end
           | None => None
           end = Some (r, rest) ->
    exists l1 l2 r0, y :: l = l1 ++ l2 /\ rest = map tokof l2 ++ ends /\ says_req l1 r0 /\ r = norm r0) as Hop.
  2:{ destruct (look (map tokof l ++ ends)); first [by apply Hop | by apply Hex]. }
  clear E Hex. intros E. destruct (parse_op (map tokof l ++ ends)) as [[o rest1]|] eqn:Eo; [|done].
  assert (forall vs rest2, option_map (fun r => (r, rest2)) (new_requirement y o (set_list vs)) = Some (r, rest) ->
    r = Req y o (set_list vs) /\ rest2 = rest /\ Forall legal_value vs /\ o <> OGt /\ o <> OLt) as Hnew.
  { intros vs rest2 H. destruct (new_requirement y o (set_list vs)) as [r'|] eqn:En; [|done]. simpl in H. injection H as -> ->.
    apply new_requirement_inv in En as (-> & _ & Hv & _). split; [done|]. split; [done|].
    split; [|done]. apply Forall_legal. rewrite Forall_forall in Hv |- *. intros x Hx. apply Hv. by apply set_list_elem. }
  destruct (match o with OIn | ONotIn => parse_values rest1 | _ => parse_exact rest1 end) as [[vs rest2]|] eqn:Ev; [|done].
  destruct (Hnew _ _ E) as (-> & -> & Hlv & Hg & Hlt).
  destruct (op_back l o rest1 Eo Hg Hlt) as (x & l' & -> & -> & Hx).
  inversion HF' as [|? ? Hxn HFl]; subst.
  destruct Hx as [Hx|Hx].
  - assert (parse_exact (map tokof l' ++ ends) = Some (vs, rest)) as Ee.
    { destruct (tok_op x o Hx []) as (_ & _ & [->|[-> | ->]]); done. }
    apply exact_back in Ee as [[-> ->]|(v & l2 & -> & Hv & -> & ->)].
    + exists [y; x], l', (Req y o [[]]). split; [done|]. split; [done|]. split; [by constructor|]. done.
    + exists [y; x; v], l2, (Req y o [v]). inversion HFl as [|? ? Hvn _]; subst. inversion Hlv as [|? ? Hvl _]; subst.
      split; [done|]. split; [done|]. split; [by constructor|]. done.
  - assert (parse_values (map tokof l' ++ ends) = Some (vs, rest)) as Ee.
    { destruct (tok_member x o Hx []) as (_ & _ & [-> | ->]); done. }
    apply values_back in Ee as (l1 & l2 & ps & -> & -> & Hp & Hss); [|done].
    exists (y :: x :: str "(" :: l1 ++ [str ")"]), l2, (Req y o ps).
    split; [cbn [app]; by rewrite <- app_assoc|]. split; [done|]. split.
    + constructor; [done|done|done|]. rewrite Forall_forall in Hlv |- *. intros z Hz. apply Hlv. by apply Hss.
    + unfold norm. cbn [rkey rop rvals]. by rewrite (set_list_same _ _ Hss).
Qed.

(** ** The whole text *)
Lemma gap_app l l' : gap l -> gap (l ++ l').
Proof. intros (a & b & ->). exists a, (b ++ l'). by rewrite <- app_assoc. Qed.
Lemma gap_app_r l l' : gap l' -> gap (l ++ l').
Proof. intros (a & b & ->). exists (l ++ a), b. by rewrite <- app_assoc. Qed.
Lemma says_req_head l r : says_req l r -> exists y l', l = y :: l' /\ (y = str "!" \/ y ∉ symbols).
Proof.
  intros [k Hk|k Hk|k y o v Hk Ho Hv Hl|k y o Hk Ho|k y o l' vs Hk Ho Hp Hl]; try apply legal_key_word in Hk as [_ Hk];
    eexists _, _; (split; [done|]); auto.
Qed.
Lemma says_some_head l rs : says_some l rs -> exists y l', l = y :: l' /\ (y = str "!" \/ y ∉ symbols).
Proof.
  intros [l' r H|l' r l2 rs' H _]; [by eapply says_req_head|].
  destruct (says_req_head _ _ H) as (y & l3 & -> & Hy). exists y, (l3 ++ str "," :: l2). done.
Qed.
Lemma look_head y l rest : y = str "!" \/ y ∉ symbols -> vtok (look (map tokof (y :: l) ++ rest)) = TId \/ vtok (look (map tokof (y :: l) ++ rest)) = TNot.
Proof.
  intros [->|H]; [by right|]. left. cbn [map app]. rewrite (tokof_word y H). apply keyword_vtok.
Qed.
Lemma parse_reqs_more fuel ts r x rest rs : vtok (look ts) = TId \/ vtok (look ts) = TNot ->
  parse_req ts = Some (r, (TComma, x) :: rest) -> vtok (look rest) = TId \/ vtok (look rest) = TNot ->
  parse_reqs fuel rest = Some rs -> parse_reqs (S fuel) ts = Some (r :: rs).
Proof. intros H1 E H2 E2. cbn [parse_reqs]. rewrite E. destruct H1 as [-> | ->], H2 as [-> | ->]; by rewrite E2. Qed.
Lemma reqs_read l rs : says_some l rs -> ~ gap l -> forall fuel, length l < fuel ->
  parse_reqs fuel (map tokof l ++ ends) = Some (map norm rs).
Proof.
  induction 1 as [l r H|l r l' rs H Hs IH]; intros Hg fuel Hf; (destruct fuel as [|fuel]; [lia|]).
  - cbn [parse_reqs]. pose proof (req_read l r TEnd [] [] H Hg ltac:(by left)) as E. fold ends in E.
    destruct (says_req_head _ _ H) as (y & l' & -> & Hy).
    destruct (look_head y l' ends Hy) as [-> | ->]; by rewrite E.
  - assert (~ gap l) as Hg1. { intros G. by apply Hg, gap_app. }
    assert (~ gap l') as Hg2. { intros G. apply Hg, gap_app_r. destruct G as (a & b & ->). by exists (str "," :: a), b. }
    rewrite app_length in Hf. cbn [length] in Hf.
    specialize (IH Hg2 fuel ltac:(lia)).
    pose proof (req_read l r TComma (str ",") (map tokof l' ++ ends) H Hg1 ltac:(by right)) as E.
    rewrite map_app, <- app_assoc. cbn [map app]. change (tokof (str ",")) with (TComma, str ",").
    destruct (says_some_head _ _ Hs) as (z & l2 & -> & Hz).
    destruct (says_req_head _ _ H) as (y & l3 & -> & Hy).
    cbn [map]. eapply parse_reqs_more; [by apply (look_head y l3)|exact E|by apply (look_head z l2)|exact IH].
Qed.
Lemma reqs_back fuel : forall l rs, Forall (fun x => x <> []) l -> parse_reqs fuel (map tokof l ++ ends) = Some rs ->
  Forall no_cmp rs -> exists rs0, rs = map norm rs0 /\ says l rs0.
Proof.
  induction fuel as [|fuel IH]; intros l rs HF E Hc; [done|]. cbn [parse_reqs] in E.
  assert (match parse_req (map tokof l ++ ends) with
          | Some (r, (t, _) :: rest) =>
              match t with
              | TEnd => Some [r]
              | TComma => match vtok (look rest) with
                          | TId | TNot => option_map (cons r) (parse_reqs fuel rest)
                          | _ => None
                          end
              | _ => None
              end
          | _ => None
          end = Some rs -> exists rs0, rs = map norm rs0 /\ says l rs0) as H.
  { clear E. intros E. destruct (parse_req (map tokof l ++ ends)) as [[r rest]|] eqn:Er; [|done].
    destruct rest as [|[t x] rest]; [done|].
    destruct t; try done.
    - injection E as <-. inversion Hc as [|? ? Hcr _]; subst.
      destruct (req_back l r _ HF Er Hcr) as (l1 & l2 & r0 & -> & E2 & Hs & ->).
      exists [r0]. split; [done|]. right. destruct l2 as [|z l2]; [rewrite app_nil_r; by constructor|].
      exfalso. cbn [map app] in E2. injection E2 as E2 _ _.
      destruct (decide (z ∈ symbols)) as [Hz|Hz].
      + unfold symbols in Hz. repeat (apply elem_of_cons in Hz as [->|Hz]; [done|]). by apply elem_of_nil in Hz.
      + rewrite tok_word in E2 by done. pose proof (keyword_vtok z) as Hk. by rewrite <- E2 in Hk.
    - assert (option_map (cons r) (parse_reqs fuel rest) = Some rs /\ (vtok (look rest) = TId \/ vtok (look rest) = TNot)) as [E3 Hl].
      { destruct (vtok (look rest)); try done; auto. }
      destruct (parse_reqs fuel rest) as [rs'|] eqn:E4; [|done]. injection E3 as <-.
      inversion Hc as [|? ? Hcr Hcs]; subst.
      destruct (req_back l r _ HF Er Hcr) as (l1 & l2 & r0 & -> & E2 & Hs & ->).
      destruct l2 as [|z l2]; [done|]. cbn [map app] in E2. injection E2 as E2 -> ->.
      assert (z = str ",") as ->.
      { destruct (decide (z ∈ symbols)) as [Hz|Hz].
        - unfold symbols in Hz. repeat (apply elem_of_cons in Hz as [->|Hz]; [done|]). by apply elem_of_nil in Hz.
        - rewrite tok_word in E2 by done. pose proof (keyword_vtok z) as Hk. by rewrite <- E2 in Hk. }
      apply Forall_app in HF as [_ HF2]. inversion HF2 as [|? ? _ HF3]; subst.
      destruct (IH l2 rs' HF3 E4 Hcs) as (rs0 & -> & [[-> ->]|Hss]).
      + cbn [map app ends look vtok] in Hl. by destruct Hl.
      + exists (r0 :: rs0). split; [done|]. right. by constructor. }
  destruct (vtok (look (map tokof l ++ ends))) eqn:El; try done; try (by apply H).
  injection E as <-. exists []. split; [done|]. left. split; [|done].
  destruct l as [|z l]; [done|]. exfalso. cbn [map app look tokof] in El.
  destruct (decide (z ∈ symbols)) as [Hz|Hz].
  - unfold symbols in Hz. repeat (apply elem_of_cons in Hz as [->|Hz]; [done|]). by apply elem_of_nil in Hz.
  - rewrite tok_word, keyword_vtok in El by done. done.
Qed.

Theorem asks_parse s rs : asks_plainly s rs -> parse_to_requirements s = Some (gosort by_key (map norm rs)).
Proof.
  intros (l & Hl & Hs & Hg). unfold parse_to_requirements. cbv zeta. rewrite (laid_lex _ _ Hl). fold ends.
  destruct Hs as [[-> ->]|Hs]; [done|].
  rewrite (reqs_read l rs Hs Hg); [done|]. rewrite app_length, map_length. simpl. lia.
Qed.
Theorem parse_asks s rs : Forall (fun c => ~ nul c) s -> parse_to_requirements s = Some rs -> Forall no_cmp rs ->
  exists rs0, asks s rs0 /\ rs ≡ₚ map norm rs0.
Proof.
  intros Hn E Hc. destruct (laid_total s Hn) as [l Hl]. unfold parse_to_requirements in E. cbv zeta in E.
  rewrite (laid_lex _ _ Hl) in E. fold ends in E.
  destruct (parse_reqs _ _) as [rs'|] eqn:Er; [|done]. simpl in E. injection E as <-.
  rewrite gosort_perm in Hc.
  assert (Forall (fun x => x <> []) l) as HF.
  { eapply Forall_impl; [by eapply laid_lexemes|]. by intros x [? _]. }
  destruct (reqs_back _ l rs' HF Er Hc) as (rs0 & -> & Hs).
  exists rs0. split; [by exists l|]. apply gosort_perm.
Qed.
