(** Proofs for Go templates: parsing what is spelled, and evaluation. *)
From Coq Require Import Ascii String NArith ZArith Lia.
From stdpp Require Import base gmap strings list sorting.
From Verif Require Import ModelStr ModelSort ModelLabels ModelPage ModelJson ModelJsonText ModelQuery ModelStore ModelUrl ModelProxy ModelObjType ModelPath ModelTmpl
  SpecPage SpecObjType SpecPath SpecTmpl ProofsStr ProofsQuote ProofsJson ProofsJsonText ProofsObjType ProofsPath.

(** ** Characters *)
Lemma letter_ok c : letter c = true <-> first_char c.
Proof. unfold letter, first_char. rewrite !orb_true_iff, !andb_true_iff, !N.leb_le, N.eqb_eq. lia. Qed.
Lemma alnum_ok c : alnum c = true <-> later_char c.
Proof.
  unfold alnum, later_char. rewrite orb_true_iff, letter_ok. unfold is_digit, between, code. rewrite andb_true_iff, !N.leb_le. done.
Qed.
Lemma blank_ok c : tspace c = true <-> N_of_ascii c ∈ [32; 9; 13; 10]%N.
Proof.
  unfold tspace. rewrite existsb_exists. split.
  - intros (x & Hx & ->%N.eqb_eq). by apply elem_of_list_In.
  - intros H. exists (N_of_ascii c). split; [by apply elem_of_list_In|apply N.eqb_refl].
Qed.
Lemma plain_byte_ok c : plain_byte c = true <-> (N_of_ascii c < 128)%N /\ N_of_ascii c ∉ [34; 92; 10]%N.
Proof.
  unfold plain_byte. rewrite andb_true_iff, N.ltb_lt, negb_true_iff, <- not_true_iff_false, existsb_exists. split; intros [H1 H2]; (split; [done|]).
  - intros Hin. apply H2. exists (N_of_ascii c). split; [by apply elem_of_list_In|apply N.eqb_refl].
  - intros (x & Hx & E%N.eqb_eq). apply H2. rewrite E. by apply elem_of_list_In.
Qed.

(** ** Lexing *)
(** What may follow a token: blank, pipe or the end of the action. *)
Definition stops (s : gostr) : Prop := exists c r, s = c :: r /\ (tspace c = true \/ c = "|"%char \/ c = "}"%char).
Lemma stop_char c : tspace c = true \/ c = "|"%char \/ c = "}"%char -> alnum c = false /\ ch_eqb c "." = false.
Proof.
  intros [H|[->| ->]]; [|done|done]. apply blank_ok in H. rewrite !elem_of_cons, elem_of_nil in H.
  rewrite <- (ascii_N_embedding c). destruct H as [->|[->|[->|[->|[]]]]]; done.
Qed.
Lemma stops_blank w s : blanks w -> stops s -> stops (w ++ s).
Proof.
  intros H Hs. destruct w as [|c w]; [done|]. exists c, (w ++ s). split; [done|]. left. apply blank_ok. by apply Forall_cons in H as [H _].
Qed.
Lemma lex_blank l b w s : blanks w -> lex (LGap l b) false (w ++ s) = lex (LGap l (match w with [] => b | _ => true end)) false s.
Proof.
  intros H. revert b. induction H as [|c w Hc H IH]; intros b; [done|]. cbn [app lex lex_step]. unfold gap_step. rewrite (proj2 (blank_ok c) Hc). rewrite IH. by destruct w.
Qed.
Lemma lex_names l p n f s : n <> [] \/ (exists c r, f = c :: r /\ first_char c) -> Forall later_char f ->
  lex (LField l p n) false (f ++ s) = lex (LField l p (rev f ++ n)) false s.
Proof.
  intros Hn H. revert n Hn. induction H as [|c f Hc H IH]; intros n Hn; [done|]. cbn [app lex lex_step].
  rewrite (proj2 (alnum_ok c) Hc). assert (letter c || negb (str_eqb n []) = true) as ->.
  { destruct Hn as [Hn|(c' & r & [= <- <-] & Hf)]; [|by rewrite (proj2 (letter_ok c) Hf)]. apply orb_true_iff. right. destruct n; done. }
  cbn [andb]. rewrite IH by (by left). cbn [rev]. by rewrite <- app_assoc.
Qed.
Lemma ident_later f : ident f -> Forall later_char f.
Proof. destruct f as [|c r]; [done|]. intros [H1 H2]. constructor; [by left|done]. Qed.
Lemma lex_ident l p f s : ident f -> lex (LField l p []) false (f ++ s) = lex (LField l p (rev f)) false s.
Proof.
  intros H. rewrite lex_names; [by rewrite app_nil_r|right|by apply ident_later]. destruct f as [|c r]; [done|]. destruct H. eauto.
Qed.
Lemma lex_end_field l p n s : n <> [] -> stops s -> lex (LField l p n) false s = lex (LGap (KField (rev (rev n :: p)) :: l) false) false s.
Proof.
  intros Hn (c & r & -> & Hc). destruct (stop_char c Hc) as [H1 H2]. cbn [lex lex_step toks_of]. rewrite H1, H2. cbn [andb]. destruct n as [|d n]; [done|]. done.
Qed.
Lemma lex_more l p n ps s : n <> [] -> Forall ident ps -> stops s ->
  lex (LField l p n) false (mjoin (map (fun f => str "." ++ f) ps) ++ s) = lex (LGap (KField (rev (rev n :: p) ++ ps) :: l) false) false s.
Proof.
  intros Hn H Hs. revert p n Hn. induction H as [|f ps Hf H IH]; intros p n Hn.
  - cbn [map]. change (mjoin []) with ([] : gostr). rewrite app_nil_r. by apply lex_end_field.
  - cbn [map]. rewrite mjoin_cons', <- !app_assoc. change (str "." ++ ?x) with ("."%char :: x). 
    transitivity (lex (LField l (rev n :: p) []) false (f ++ mjoin (map (fun f => str "." ++ f) ps) ++ s)).
    { cbn [lex lex_step]. change (alnum "." && _) with false. destruct n as [|d n]; [done|]. done. }
    rewrite lex_ident by done. rewrite IH by (apply rev_nil; by destruct f). f_equal. f_equal. f_equal. f_equal.
    rewrite rev_involutive. cbn [rev]. rewrite <- !app_assoc. done.
Qed.
Lemma lex_arg l a s : good_arg a -> stops s ->
  lex (LGap l true) false (arg_text a ++ s) = lex (LGap (match a with TField p => KField p | TConst c => KStr c end :: l) false) false s.
Proof.
  intros Ha Hs. destruct a as [p|t]; cbn [good_arg arg_text] in *.
  - destruct Ha as [Hne Hp]. destruct Hp as [|f p Hf Hp]; [done|]. cbn [map]. rewrite mjoin_cons', <- !app_assoc. change (str "." ++ ?x) with ("."%char :: x).
    transitivity (lex (LField l [] []) false (f ++ mjoin (map (fun f => str "." ++ f) p) ++ s)); [done|].
    rewrite lex_ident by done. rewrite lex_more by (done || (apply rev_nil; by destruct f)). by rewrite rev_involutive.
  - rewrite <- !app_assoc. transitivity (lex (LStr l []) false (t ++ dq1 ++ s)); [done|].
    assert (forall n, lex (LStr l n) false (t ++ dq1 ++ s) = lex (LGap (KStr (rev n ++ t) :: l) false) false s) as H; [|by rewrite H].
    induction Ha as [|c t Hc Ht IH]; intros n.
    + cbn [app]. rewrite app_nil_r. done.
    + cbn [app lex lex_step]. assert (N.eqb (N_of_ascii c) 34 = false) as ->. { apply N.eqb_neq. intros E. apply (proj2 Hc). rewrite E. by left. }
      rewrite (proj2 (plain_byte_ok c) Hc). cbn [app] in IH. rewrite IH. cbn [rev]. by rewrite <- app_assoc.
Qed.
Definition tok_of (a : targ) : tok := match a with TField p => KField p | TConst c => KStr c end.
Lemma lex_word l w s : ident w -> stops s -> lex (LGap l true) false (w ++ s) = lex (LGap (KWord w :: l) false) false s.
Proof.
  destruct w as [|c w]; [done|]. intros [Hc Hw] Hs. 
  assert (forall n, lex (LWord l n) false (w ++ s) = lex (LGap (KWord (rev n ++ w) :: l) false) false s) as H.
  { induction Hw as [|d w Hd Hw IH]; intros n.
    - cbn [app]. destruct Hs as (e & r & -> & He). destruct (stop_char e He) as [H1 _]. cbn [lex lex_step toks_of]. rewrite H1, app_nil_r. done.
    - cbn [app lex lex_step]. rewrite (proj2 (alnum_ok d) Hd). rewrite IH. cbn [rev]. by rewrite <- app_assoc. }
  cbn [app]. transitivity (lex (LWord l [c]) false (w ++ s)); [|apply H].
  cbn [lex lex_step]. unfold gap_step.
  assert (tspace c = false) as ->. { apply not_true_iff_false. intros E%blank_ok. unfold first_char in Hc. rewrite !elem_of_cons, elem_of_nil in E. lia. }
  assert (forall d, ~ first_char d -> ch_eqb c d = false) as Hne. { intros d Hd. apply ch_eqb_neq. by intros ->. }
  rewrite !Hne by (vm_compute; intros [[? ?]|[[? ?]|?]]; congruence || (by auto)).
  assert (N.eqb (N_of_ascii c) 34 = false) as ->. { apply N.eqb_neq. unfold first_char in Hc. lia. }
  by rewrite (proj2 (letter_ok c) Hc).
Qed.
Lemma lex_may l b b' s : stops s -> lex (LGap l b) false s = lex (LGap l b') false s.
Proof.
  intros (c & r & -> & H). cbn [lex lex_step toks_of]. unfold gap_step. destruct H as [->|[->| ->]]; [done|..].
  - done.
  - change (tspace "}") with false. change (ch_eqb "}" "|") with false. change (ch_eqb "}" "}") with true. cbn iota. done.
Qed.
Lemma stops_args l u s : spells_args l u -> stops s -> stops (u ++ s).
Proof. intros [|w a l' u' Hw Hne Ha H] Hs; [done|]. rewrite <- app_assoc. destruct w as [|c w]; [done|]. exists c. eexists. split; [reflexivity|]. left. apply blank_ok. by apply Forall_cons in Hw as [Hw _]. Qed.
Lemma lex_args ks l u s : spells_args l u -> stops s -> lex (LGap ks false) false (u ++ s) = lex (LGap (rev (map tok_of l) ++ ks) false) false s.
Proof.
  intros H Hs. revert ks. induction H as [|w a l u Hw Hne Ha H IH]; intros ks; [done|]. rewrite <- !app_assoc, lex_blank by done.
  destruct w as [|c w]; [done|]. rewrite lex_arg by (done || by eapply stops_args). rewrite IH. cbn [map rev]. by rewrite <- app_assoc.
Qed.
Lemma fn_ident f : ident (fn_name f).
Proof. destruct f; (split; [right; left; by vm_compute|]); repeat (apply Forall_cons_2; [left; right; left; by vm_compute|]); constructor. Qed.
Lemma word_ident (w : string) : w = "if"%string \/ w = "else"%string \/ w = "end"%string -> ident (str w).
Proof. intros [->|[->| ->]]; (split; [right; left; by vm_compute|]); repeat (apply Forall_cons_2; [left; right; left; by vm_compute|]); constructor. Qed.
Definition call_toks (c : fn * list targ) : list tok := KWord (fn_name c.1) :: map tok_of c.2.
Lemma lex_call ks f l u s : spells_args l u -> stops s ->
  lex (LGap ks true) false (fn_name f ++ u ++ s) = lex (LGap (rev (call_toks (f, l)) ++ ks) false) false s.
Proof.
  intros H Hs. rewrite lex_word by (apply fn_ident || by eapply stops_args). rewrite (lex_args _ l) by done. unfold call_toks. cbn [fst snd rev]. by rewrite <- app_assoc.
Qed.
Definition calls_toks (cs : list (fn * list targ)) : list tok := mjoin (map (fun c => KPipe :: call_toks c) cs).
Lemma calls_stop cs u s : spells_calls cs u -> stops s -> stops (u ++ s).
Proof.
  intros [|w w' f l v cs' u' Hw Hw' Hl H] Hs; [done|]. rewrite <- !app_assoc. apply stops_blank; [done|]. exists "|"%char. eexists. split; [reflexivity|]. by right; left.
Qed.
Lemma lex_calls ks cs u s : spells_calls cs u -> stops s -> lex (LGap ks false) false (u ++ s) = lex (LGap (rev (calls_toks cs) ++ ks) false) false s.
Proof.
  intros H Hs. revert ks. induction H as [|w w' f l v cs u Hw Hw' Hl H IH]; intros ks; [done|]. rewrite <- !app_assoc, lex_blank by done.
  match goal with |- lex (LGap _ ?b) _ (str "|" ++ ?r) = _ => transitivity (lex (LGap (KPipe :: ks) true) false r); [done|] end.
  rewrite lex_blank by done. replace (match w' with [] => true | _ => true end) with true by (by destruct w'). rewrite (lex_call _ _ l) by (done || by eapply calls_stop).
  rewrite IH. unfold calls_toks. cbn [map]. rewrite mjoin_cons'. cbn [app rev]. rewrite rev_app_distr, <- !app_assoc. done.
Qed.
Definition cmd_toks (c : tcmd) : list tok := match c with CArg a => [tok_of a] | CCall f l => call_toks (f, l) end.
Definition pipe_toks (p : tpipe) : list tok := cmd_toks p.1 ++ calls_toks p.2.
Lemma lex_pipe ks p u s : spells_pipe p u -> stops s -> lex (LGap ks true) false (u ++ s) = lex (LGap (rev (pipe_toks p) ++ ks) false) false s.
Proof.
  intros (a & b & -> & Ha & Hb) Hs. destruct p as [c cs]. cbn [fst snd] in *. rewrite <- app_assoc. unfold pipe_toks. cbn [fst snd].
  rewrite rev_app_distr, <- app_assoc. rewrite <- (lex_calls _ cs b) by done. destruct Ha as [a Ha|f l v Hl]; cbn [cmd_toks].
  - rewrite lex_arg by (done || by eapply calls_stop). done.
  - rewrite <- app_assoc, (lex_call _ _ l) by (done || by eapply calls_stop). done.
Qed.
(** Text that is over or followed by an action. *)
Definition opens (s : gostr) : Prop := s = [] \/ exists r, s = str "{{" ++ r.
Lemma lex_pending t s : opens s -> lex (LText t) false s = cons_item (rev t) <$> lex (LText []) false s.
Proof.
  intros [->|(r & ->)]; [cbn [lex rev]; by destruct (rev t)|]. change (str "{{" ++ r) with ("{"%char :: "{"%char :: r). cbn [lex].
  change (has_prefix (str "{{") ("{"%char :: "{"%char :: r)) with true. cbn iota. cbn [rev].
  destruct (lex (LGap [] true) false r) as [l|]; [|done]. done.
Qed.
Lemma lex_plain t u s : "{"%char ∉ u -> lex (LText t) false (u ++ s) = lex (LText (rev u ++ t)) false s.
Proof.
  revert t. induction u as [|c u IH]; intros t H; [done|]. apply not_elem_of_cons in H as [H1 H2]. cbn [app rev]. rewrite <- app_assoc. cbn [app].
  rewrite <- IH by done. cbn [lex]. change (has_prefix (str "{{") (c :: u ++ s)) with (ch_eqb "{"%char c && has_prefix ["{"%char] (u ++ s)).
  by rewrite (proj2 (ch_eqb_neq "{"%char c)) by done.
Qed.
Lemma lex_close ks b s : lex (LGap ks b) false (str "}}" ++ s) = cons (ItAct (rev ks)) <$> lex (LText []) false s.
Proof. reflexivity. Qed.
Lemma stops_close s : stops (str "}}" ++ s).
Proof. exists "}"%char. eexists. split; [reflexivity|]. by right; right. Qed.
Lemma lex_action w u w' ks s : blanks w -> blanks w' ->
  (forall r, stops r -> lex (LGap [] true) false (u ++ r) = lex (LGap ks false) false r) ->
  lex (LText []) false (action w u w' ++ s) = cons (ItAct (rev ks)) <$> lex (LText []) false s.
Proof.
  intros Hw Hw' H. unfold action. rewrite <- !app_assoc.
  match goal with |- lex _ _ (str "{{" ++ ?r) = _ => transitivity (lex (LGap [] true) false r) end.
  { change (str "{{" ++ ?r) with ("{"%char :: "{"%char :: r). cbn [lex]. change (has_prefix (str "{{") ("{"%char :: "{"%char :: ?r)) with true. cbn iota. cbn [rev].
    match goal with |- _ <$> ?x = _ => by destruct x end. }
  rewrite lex_blank by done. replace (match w with [] => true | _ => true end) with true by (by destruct w).
  rewrite H by (apply stops_blank, stops_close; done). rewrite lex_blank by done. apply lex_close.
Qed.
Lemma opens_action w u w' s : opens (action w u w' ++ s).
Proof. right. unfold action. rewrite <- !app_assoc. by eexists. Qed.
Lemma spells_opens l s : spells l s -> (forall u m, l <> NText u :: m) -> opens s.
Proof. intros [|t l' s' ? ? ? ?| | |] Hn; [by left|by destruct (Hn t l')|..]; apply opens_action. Qed.

(** ** Parsing *)
Lemma arg_tok a : arg_of (tok_of a) = Some a.
Proof. by destruct a. Qed.
Lemma args_toks l : mapM arg_of (map tok_of l) = Some l.
Proof. induction l as [|a l IH]; [done|]. cbn [map mapM]. rewrite arg_tok, IH. done. Qed.
Lemma fn_of_name f : fn_of (fn_name f) = Some f.
Proof. by destruct f. Qed.
Lemma call_of_toks c : call_of (call_toks c) = Some c.
Proof. destruct c as [f l]. unfold call_toks, call_of. cbn [fst snd]. by rewrite fn_of_name, args_toks. Qed.
Lemma cmd_of_toks c : cmd_of (cmd_toks c) = Some c.
Proof.
  destruct c as [a|f l]; cbn [cmd_toks].
  - unfold cmd_of. by rewrite arg_tok.
  - unfold cmd_of. pose proof (call_of_toks (f, l)) as H. unfold call_toks in *. cbn [fst snd] in *. destruct l as [|a l]; cbn [map] in *.
    + cbn [arg_of]. by rewrite H.
    + by rewrite H.
Qed.
Lemma segments_app cur ks r : Forall (fun k => k <> KPipe) ks -> segments cur (ks ++ r) = segments (rev ks ++ cur) r.
Proof.
  intros H. revert cur. induction H as [|k ks Hk H IH]; intros cur; [done|]. cbn [app rev]. rewrite <- app_assoc. cbn [app].
  destruct k; try done; cbn [segments]; apply IH.
Qed.
Lemma toks_no_pipe l : Forall (fun k => k <> KPipe) (map tok_of l).
Proof. apply Forall_forall. intros k Hk. apply elem_of_list_In, in_map_iff in Hk as (a & <- & _). by destruct a. Qed.
Lemma segments_calls cur cs : segments cur (calls_toks cs) = rev cur :: map call_toks cs.
Proof.
  revert cur. induction cs as [|[f l] cs IH]; intros cur; [done|]. unfold calls_toks. cbn [map]. rewrite mjoin_cons'. cbn [app segments]. f_equal.
  fold (calls_toks cs). change (segments [] (KWord (fn_name f) :: map tok_of l ++ calls_toks cs) = call_toks (f, l) :: map call_toks cs).
  cbn [segments]. rewrite segments_app by apply toks_no_pipe. rewrite IH, rev_app_distr, rev_involutive. done.
Qed.
Lemma pipe_of_toks p : pipe_of (pipe_toks p) = Some p.
Proof.
  destruct p as [c cs]. unfold pipe_of, pipe_toks. cbn [fst snd]. rewrite segments_app.
  - rewrite segments_calls. rewrite app_nil_r, rev_involutive, cmd_of_toks.
    assert (mapM call_of (map call_toks cs) = Some cs) as ->; [|done]. induction cs as [|c' cs IH]; [done|]. cbn [map mapM]. rewrite call_of_toks, IH. done.
  - destruct c as [a|f l]; cbn [cmd_toks].
    + constructor; [by destruct a|constructor].
    + constructor; [done|]. apply toks_no_pipe.
Qed.
Lemma pipe_item stack cur p l : parse_nodes stack cur (ItAct (pipe_toks p) :: l) = parse_nodes stack (NPipe p :: cur) l.
Proof.
  cbn [parse_nodes]. pose proof (pipe_of_toks p) as H. destruct p as [c cs]. unfold pipe_toks in *. cbn [fst snd] in *.
  destruct c as [a|f args]; cbn [cmd_toks app] in *.
  - destruct a as [q|t]; cbn [tok_of] in *; by rewrite H.
  - unfold call_toks in *. cbn [fst snd app] in *.
    assert (str_eqb (fn_name f) (str "else") = false) as E1 by (by destruct f). assert (str_eqb (fn_name f) (str "end") = false) as E2 by (by destruct f).
    assert (str_eqb (fn_name f) (str "if") = false) as E3 by (by destruct f).
    destruct (map tok_of args ++ calls_toks cs) as [|k ks].
    + by rewrite E1, E2, H.
    + by rewrite E3, H.
Qed.
Lemma if_item stack cur p l : parse_nodes stack cur (ItAct (KWord (str "if") :: pipe_toks p) :: l) = parse_nodes ((p, cur, None) :: stack) [] l.
Proof.
  cbn [parse_nodes]. pose proof (pipe_of_toks p) as H. destruct (pipe_toks p) as [|k ks] eqn:E.
  - exfalso. destruct p as [[a|f args] cs]; discriminate E.
  - change (str_eqb (str "if") (str "if")) with true. cbn iota. by rewrite H.
Qed.
Lemma spelled ns e : spells ns e -> exists its,
  (forall s, opens s -> lex (LText []) false (e ++ s) = app its <$> lex (LText []) false s) /\
  forall stack cur rest, parse_nodes stack cur (its ++ rest) = parse_nodes stack (rev ns ++ cur) rest.
Proof.
  assert (forall l l' : list titem, forall o : option (list titem), app l <$> (app l' <$> o) = app (l ++ l') <$> o) as Hoo.
  { intros l l' [x|]; [|done]. cbn. by rewrite app_assoc. }
  assert (forall x (o : option (list titem)), cons x <$> o = app [x] <$> o) as Hc by (by intros x []).
  induction 1 as [|t l s Ht Hb Hl H (its & IH1 & IH2)|p w u w' l s Hw Hp Hw' H (its & IH1 & IH2)
    |p w w1 u w' yes y w2 w3 l s Hw Hw1 Hw1n Hp Hw' Hy (iy & Y1 & Y2) Hw2 Hw3 H (its & IH1 & IH2)
    |p w w1 u w' yes y w4 w5 no n w2 w3 l s Hw Hw1 Hw1n Hp Hw' Hy (iy & Y1 & Y2) Hw4 Hw5 Hn (iN & N1 & N2) Hw2 Hw3 H (its & IH1 & IH2)].
  - exists []. split; [|done]. intros s _. cbn [app]. by destruct (lex _ _ s).
  - exists (ItText t :: its). split.
    + intros r Hr. rewrite <- app_assoc, lex_plain by done. rewrite app_nil_r. rewrite lex_pending.
      * rewrite rev_involutive, IH1 by done. destruct t as [|c t]; [done|]. cbn [cons_item]. by destruct (lex _ _ r).
      * pose proof (spells_opens l s H Hl) as [->|(r' & ->)]; [done|]. right. rewrite <- app_assoc. by eexists.
    + intros stack cur rest. cbn [app parse_nodes]. rewrite IH2. cbn [rev]. by rewrite <- app_assoc.
  - exists (ItAct (pipe_toks p) :: its). split.
    + intros r Hr. rewrite <- app_assoc. rewrite (lex_action _ _ _ (rev (pipe_toks p))) by (done || (intros r' Hr'; rewrite (lex_pipe [] p) by done; by rewrite app_nil_r)).
      rewrite rev_involutive, IH1 by done. rewrite Hc, Hoo. done.
    + intros stack cur rest. cbn [app]. rewrite pipe_item, IH2. cbn [rev]. by rewrite <- app_assoc.
  - assert (forall r, stops r -> lex (LGap [] true) false ((str "if" ++ w1 ++ u) ++ r) = lex (LGap (rev (KWord (str "if") :: pipe_toks p)) false) false r) as Hif.
    { intros r Hr. rewrite <- !app_assoc. rewrite lex_word; [|apply word_ident; auto|destruct w1 as [|c w1]; [done|]; exists c; eexists; split; [reflexivity|]; left; apply blank_ok; by apply Forall_cons in Hw1 as [Hw1 _]].
      rewrite lex_blank by done. destruct w1 as [|c w1]; [done|]. rewrite (lex_pipe _ p) by done. done. }
    assert (forall r, stops r -> lex (LGap [] true) false (str "end" ++ r) = lex (LGap (rev [KWord (str "end")]) false) false r) as Hend.
    { intros r Hr. rewrite lex_word by (done || apply word_ident; auto). done. }
    exists (ItAct (KWord (str "if") :: pipe_toks p) :: iy ++ ItAct [KWord (str "end")] :: its). split.
    + intros r Hr. rewrite <- !app_assoc. rewrite (lex_action _ _ _ _ _ Hw Hw' Hif), rev_involutive. rewrite Y1 by apply opens_action.
      rewrite (lex_action _ _ _ _ _ Hw2 Hw3 Hend), rev_involutive. rewrite IH1 by done. rewrite !Hc, !Hoo. cbn [app]. by rewrite <- ?app_assoc.
    + intros stack cur rest. cbn [app]. rewrite if_item. rewrite <- app_assoc. cbn [app]. rewrite Y2. cbn [parse_nodes].
      change (str_eqb (str "end") (str "else")) with false. change (str_eqb (str "end") (str "end")) with true. cbn iota.
      rewrite IH2, app_nil_r, rev_involutive. cbn [rev]. by rewrite <- app_assoc.
  - assert (forall r, stops r -> lex (LGap [] true) false ((str "if" ++ w1 ++ u) ++ r) = lex (LGap (rev (KWord (str "if") :: pipe_toks p)) false) false r) as Hif.
    { intros r Hr. rewrite <- !app_assoc. rewrite lex_word; [|apply word_ident; auto|destruct w1 as [|c w1]; [done|]; exists c; eexists; split; [reflexivity|]; left; apply blank_ok; by apply Forall_cons in Hw1 as [Hw1 _]].
      rewrite lex_blank by done. destruct w1 as [|c w1]; [done|]. rewrite (lex_pipe _ p) by done. done. }
    assert (forall r, stops r -> lex (LGap [] true) false (str "end" ++ r) = lex (LGap (rev [KWord (str "end")]) false) false r) as Hend.
    { intros r Hr. rewrite lex_word by (done || apply word_ident; auto). done. }
    assert (forall r, stops r -> lex (LGap [] true) false (str "else" ++ r) = lex (LGap (rev [KWord (str "else")]) false) false r) as Hels.
    { intros r Hr. rewrite lex_word by (done || apply word_ident; auto). done. }
    exists (ItAct (KWord (str "if") :: pipe_toks p) :: iy ++ ItAct [KWord (str "else")] :: iN ++ ItAct [KWord (str "end")] :: its). split.
    + intros r Hr. rewrite <- !app_assoc. rewrite (lex_action _ _ _ _ _ Hw Hw' Hif), rev_involutive. rewrite Y1 by apply opens_action.
      rewrite (lex_action _ _ _ _ _ Hw4 Hw5 Hels), rev_involutive. rewrite N1 by apply opens_action.
      rewrite (lex_action _ _ _ _ _ Hw2 Hw3 Hend), rev_involutive. rewrite IH1 by done. rewrite !Hc, !Hoo. cbn [app]. by rewrite <- !app_assoc.
    + intros stack cur rest. cbn [app]. rewrite if_item. rewrite <- app_assoc. cbn [app]. rewrite Y2. cbn [parse_nodes].
      change (str_eqb (str "else") (str "else")) with true. cbn iota. rewrite <- app_assoc. cbn [app]. rewrite N2. cbn [parse_nodes].
      change (str_eqb (str "end") (str "else")) with false. change (str_eqb (str "end") (str "end")) with true. cbn iota.
      rewrite IH2, !app_nil_r, !rev_involutive. cbn [rev]. by rewrite <- app_assoc.
Qed.
Lemma parse_spelled ns e : spells ns e -> tmpl_parse e = Some ns.
Proof.
  intros H. destruct (spelled ns e H) as (its & H1 & H2). unfold tmpl_parse. rewrite <- (app_nil_r e), H1 by (by left).
  change (lex (LText []) false []) with (Some (cons_item [] [])). cbn [cons_item fmap option_fmap option_map]. rewrite H2. cbn [parse_nodes].
  by rewrite app_nil_r, rev_involutive.
Qed.

(** ** Evaluation *)
Section eval.
  Context (JE : jenv) (P : jpenv) (uprint : N -> bool) (j : json).
  Let root := iface JE j.
  Let im : option json -> option json := fmap (iface JE).

  Lemma tfield_none p : fold_left tfield p (Some None) = Some None.
  Proof using Type. induction p as [|k p IH]; [done|exact IH]. Qed.
  Lemma tfield_error p : fold_left tfield p None = None.
  Proof using Type. induction p as [|k p IH]; [done|exact IH]. Qed.
  Lemma tfield_found d p v : at_path d p v -> fold_left tfield p (Some (Some (iface JE d))) = Some (Some (iface JE v)).
  Proof using Type.
    induction 1 as [d|l k v p w Hd Hw IH]; [done|]. cbn [fold_left]. destruct (iface_members_obj JE l) as (m & -> & Hm). cbn [tfield].
    rewrite (proj2 (Hm k (iface JE v))) by (by exists v). exact IH.
  Qed.
  Lemma tfield_app d p v k q : at_path d p v -> fold_left tfield (p ++ k :: q) (Some (Some (iface JE d))) = fold_left tfield q (tfield (Some (Some (iface JE v))) k).
  Proof using Type. intros H. rewrite fold_left_app, (tfield_found d p v H). done. Qed.
  Lemma look_ok p v : look JE j p v -> eval_arg root (TField p) = Some (im v).
  Proof using Type.
    intros [w Hw Hv|Hn|p1 k p2 l -> Hl Hk]; cbn [eval_arg].
    - unfold root. rewrite (tfield_found _ _ _ Hw). cbn. destruct w as [| |n| | |]; try done. cbn [valued] in Hv. cbn [iface]. destruct (je_norm JE n); done.
    - unfold root. rewrite (tfield_found _ _ _ Hn). done.
    - unfold root. rewrite (tfield_app _ _ _ _ _ Hl). destruct (iface_members_obj JE l) as (m & -> & Hm). cbn [tfield].
      destruct (get k m) as [w|] eqn:E; [|by rewrite tfield_none]. apply Hm in E as (x & Hx & _). by apply denotes_elem in Hx.
  Qed.
  Lemma stuck_ok p : stuck j p -> eval_arg root (TField p) = None.
  Proof using Type.
    intros (p1 & k & p2 & v & -> & Hv & Hno). cbn [eval_arg]. unfold root. rewrite (tfield_app _ _ _ _ _ Hv).
    destruct v as [| |n|s|l|l]; cbn [iface tfield]; try (by rewrite tfield_error).
    - destruct (je_norm JE n); cbn [tfield]; by rewrite tfield_error.
    - by destruct (Hno l).
  Qed.
  Lemma operand_ok a v : operand JE j a v -> eval_arg root a = Some (im v).
  Proof using Type. intros [p w Hw|s]; [by apply look_ok|done]. Qed.
  Lemma bad_operand_ok a : bad_operand j a -> eval_arg root a = None.
  Proof using Type. destruct a; [apply stuck_ok|done]. Qed.
  Lemma operands_ok l vs : Forall2 (operand JE j) l vs -> mapM (eval_arg root) l = Some (map im vs).
  Proof using Type. induction 1 as [|a v l vs Ha H IH]; [done|]. cbn [mapM map]. rewrite (operand_ok _ _ Ha), IH. done. Qed.
  Lemma bad_operands_ok l : Exists (bad_operand j) l -> mapM (eval_arg root) l = None.
  Proof using Type.
    induction 1 as [a l Ha|a l H IH]; cbn [mapM].
    - rewrite (bad_operand_ok _ Ha). done.
    - rewrite IH. by destruct (eval_arg root a).
  Qed.
  Lemma shows_scalar v t : scalar v -> shows JE v t -> fmt_any P (str "v") (fun s => s) (iface JE v) = t.
  Proof using Type.
    intros Hs H. pose proof (shows_ok JE P v t H) as Ht. destruct v as [|b|l|s|l|l]; try done. destruct H; cbn [iface] in *; try done; by rewrite H in *.
  Qed.
  Lemma shown_ok v : forall t, shown JE v t -> fmt_any P (str "v") (fun s => s) (iface JE v) = t.
  Proof using Type.
    induction v as [|b|n|s|l IH|l IH] using json_ind'; intros t H; try (inversion H; subst; [done|by apply shows_scalar]); try (inversion H; subst; by apply shows_scalar).
    - inversion H as [| |l0 ts HF| ]; subst; [done|]. cbn [iface fmt_any]. do 2 f_equal. f_equal. clear H. induction HF as [|x u l ts Hx HF IHF]; [done|].
      apply Forall_cons in IH as [I1 I2]. cbn [map]. by rewrite (I1 _ Hx), (IHF I2).
    - inversion H as [| | |l0 l' ts Hp Hs HF]; subst; [done|]. rewrite iface_obj.
      rewrite (puts_unique _ (map (fun kv => (kv.1, iface JE kv.2)) l')).
      + cbn [fmt_any]. do 2 f_equal. f_equal. assert (Forall (fun kv => forall t, shown JE kv.2 t -> fmt_any P (str "v") (fun s => s) (iface JE kv.2) = t) l') as IH' by (by rewrite <- Hp).
        clear -HF IH'. remember (l'.*2) as vs eqn:Ev. revert l' Ev IH'. induction HF as [|x u vs ts Hx HF IHF]; intros l' Ev IH'; destruct l' as [|[k v] l']; try discriminate Ev; [done|].
        cbn in Ev. injection Ev as -> ->. apply Forall_cons in IH' as [I1 I2]. cbn [snd] in I1. cbn [fmap list_fmap map zip_with fst snd]. rewrite (I1 _ Hx). f_equal. by apply IHF.
      + by rewrite Hp.
      + clear -Hs. induction Hs as [|x l' Hs IH HF]; [constructor|]. cbn [map]. constructor; [done|]. apply Forall_forall. intros y Hy. apply elem_of_list_In, in_map_iff in Hy as (z & <- & Hz).
        rewrite Forall_forall in HF. apply elem_of_list_In in Hz. exact (HF z Hz).
  Qed.
  Lemma formats_s v t : formats JE (str "s") v t -> sprint_s P (iface JE v) = t.
  Proof using Type.
    intros H. unfold sprint_s. remember (str "s") as verb eqn:Ev. destruct H as [s _|s E _|b t H|l t H]; subst verb.
    - done.
    - discriminate E.
    - pose proof (shows_ok JE P _ _ H) as Ht. cbn [iface] in *. cbn [fmt_any]. rewrite Ht. done.
    - pose proof (shows_ok JE P _ _ H) as Ht. assert (exists n, je_norm JE l = Some n) as (n & Hn) by (inversion H; eauto). cbn [iface] in *. rewrite Hn in *. cbn [fmt_any]. rewrite Ht. done.
  Qed.
  Lemma formats_q v t : formats JE (str "q") v t -> sprint_q P uprint (Some (iface JE v)) = t.
  Proof using Type.
    intros H. unfold sprint_q. remember (str "q") as verb eqn:Ev. destruct H as [s E|s _ Hp|b t H|l t H]; subst verb.
    - discriminate E.
    - cbn [iface fmt_any]. unfold quote. by rewrite (quote_plain uprint s Hp).
    - pose proof (shows_ok JE P _ _ H) as Ht. cbn [iface] in *. cbn [fmt_any]. rewrite Ht. done.
    - pose proof (shows_ok JE P _ _ H) as Ht. assert (exists n, je_norm JE l = Some n) as (n & Hn) by (inversion H; eauto). cbn [iface] in *. rewrite Hn in *. cbn [fmt_any]. rewrite Ht. done.
  Qed.
  Lemma as_str_text s : as_str (im (Some (JStr s))) = Some s.
  Proof using Type. done. Qed.
  Lemma as_str_not v : ~ is_text v -> as_str (im v) = None.
  Proof using Type.
    intros H. destruct v as [v|]; [|done]. destruct v as [| |n|s| |]; try done.
    - cbn. by destruct (je_norm JE n).
    - destruct H. by exists s.
  Qed.
  Lemma texts_ok l : mapM as_str (map im (map (fun s => Some (JStr s)) l)) = Some l.
  Proof using Type. induction l as [|s l IH]; [done|]. cbn [map mapM]. rewrite as_str_text, IH. done. Qed.
  Lemma result_ok f vs t : result JE f vs t -> call P uprint f (map im vs) = Some t.
  Proof using Type.
    intros [d|d v t' H|v t' H| |sep l]; cbn [map].
    - done.
    - cbn [call]. rewrite as_str_text. cbn [im fmap option_fmap option_map]. by rewrite (formats_s _ _ H).
    - cbn [call]. cbn [im fmap option_fmap option_map]. by rewrite (formats_q _ _ H).
    - done.
    - cbn [call]. rewrite as_str_text, texts_ok. done.
  Qed.
  Lemma misused_ok f vs : misused f vs -> call P uprint f (map im vs) = None.
  Proof using Type.
    destruct f; cbn [misused].
    - intros [H|(d & r & -> & H)].
      + destruct vs as [|a [|b [|c vs]]]; done.
      + cbn [map call]. destruct r as [|b [|c r]]; cbn [map]; try done. by rewrite (as_str_not _ H).
    - intros H. destruct vs as [|a [|b vs]]; done.
    - intros [->|H]; [done|]. destruct vs as [|a vs]; [by inversion H|]. cbn [map call]. apply Exists_cons in H as [H|H].
      + by rewrite (as_str_not _ H).
      + assert (mapM as_str (map im vs) = None) as ->; [|by destruct (as_str (im a))].
        induction H as [v l Hv|v l H IH]; cbn [map mapM]; [by rewrite (as_str_not _ Hv)|]. rewrite IH. by destruct (as_str (im v)).
  Qed.
  Lemma applied_ok f l last v : applied JE j f l last v -> eval_call P uprint root f l (map im last) = Some (im v).
  Proof using Type.
    intros [vs t H1 H2]. unfold eval_call. rewrite (operands_ok _ _ H1). rewrite <- map_app, (result_ok _ _ _ H2). done.
  Qed.
  Lemma misapplied_ok f l last : misapplied JE j f l last -> eval_call P uprint root f l (map im last) = None.
  Proof using Type.
    intros [H|(vs & H1 & H2)]; unfold eval_call; [by rewrite (bad_operands_ok _ H)|]. rewrite (operands_ok _ _ H1), <- map_app, (misused_ok _ _ H2). done.
  Qed.
  Lemma goes_ok v cs v' : goes JE j v cs v' -> eval_calls P uprint root (im v) cs = Some (im v').
  Proof using Type.
    induction 1 as [v|v f l v' cs v'' Ha H IH]; [done|]. cbn [eval_calls]. apply applied_ok in Ha. cbn [map] in Ha. by rewrite Ha.
  Qed.
  Lemma breaks_ok v cs : breaks JE j v cs -> eval_calls P uprint root (im v) cs = None.
  Proof using Type.
    induction 1 as [v f l cs Ha|v f l v' cs Ha H IH]; cbn [eval_calls].
    - apply misapplied_ok in Ha. cbn [map] in Ha. by rewrite Ha.
    - apply applied_ok in Ha. cbn [map] in Ha. by rewrite Ha.
  Qed.
  Lemma begins_ok c v : begins JE j c v -> eval_cmd P uprint root c = Some (im v).
  Proof using Type. intros [a w H|f l w H]; cbn [eval_cmd]; [by apply operand_ok|]. by apply (applied_ok f l []). Qed.
  Lemma yields_ok p v : yields JE j p v -> eval_pipe P uprint root p = Some (im v).
  Proof using Type. intros (u & H1 & H2). unfold eval_pipe. rewrite (begins_ok _ _ H1). by apply goes_ok. Qed.
  Lemma fails_ok p : fails JE j p -> eval_pipe P uprint root p = None.
  Proof using Type.
    unfold eval_pipe. intros [H|(u & H1 & H2)].
    - destruct p as [[a|f l] cs]; cbn [fst eval_cmd] in *; [by rewrite (bad_operand_ok _ H)|]. pose proof (misapplied_ok f l [] H) as E. cbn [map] in E. by rewrite E.
    - rewrite (begins_ok _ _ H1). by apply breaks_ok.
  Qed.
  Lemma displays_ok v t : displays JE v t -> tprint P (im v) = t.
  Proof using Type. intros [|w t' H1 H2]; [done|]. cbn. by apply shown_ok. Qed.
  Lemma put_ne {A} k (v : A) l : put k v l <> [].
  Proof using Type. destruct l as [|[k' v'] l]; cbn; [done|]. destruct (str_eqb k k'); [done|]. by destruct (str_ltb k k'). Qed.
  Lemma holds_ok v : holds JE v <-> truth (im v) = true.
  Proof using Type.
    destruct v as [v|]; [|done]. destruct v as [|b|n|s|l|l]; cbn [holds im fmap option_fmap option_map iface truth].
    - done.
    - done.
    - split.
      + intros (t & -> & H1 & H2). cbn [truth]. destruct (str_eqb t (str "0")) eqn:E1; [by apply str_eqb_eq in E1|]. destruct (str_eqb t (str "-0")) eqn:E2; [by apply str_eqb_eq in E2|]. done.
      + destruct (je_norm JE n) as [t|]; [|done]. cbn [truth]. intros H. exists t. split; [done|]. split; intros ->; discriminate H.
    - destruct s; done.
    - destruct l; done.
    - destruct l as [|[k v] l]; [done|]. cbn [fold_left]. split; [|done]. intros _.
      assert (forall m, m <> [] -> fold_left (fun m kv => put kv.1 (iface JE kv.2) m) l m <> []) as Hne.
      { clear. induction l as [|x l IH]; intros m Hm; [done|]. cbn [fold_left]. apply IH, put_ne. }
      specialize (Hne (put k (iface JE v) []) (put_ne _ _ _)). cbn [fst snd]. by destruct (fold_left _ l _).
  Qed.
  Lemma writes_ok ns s b : writes JE j ns s b -> exec_nodes P uprint root ns = (s, b).
  Proof using Type.
    unfold exec_nodes. induction 1 as [|t l s b H IH|p v t l s b Hp Hd H IH|p l Hp|p v yes no ns s1 l s2 b Hp Hc Hn IHn H IH|p v yes no ns s1 l Hp Hc Hn IHn|p yes no l Hp]; cbn [run_all exec_node].
    - done.
    - by rewrite IH.
    - rewrite (yields_ok _ _ Hp), (displays_ok _ _ Hd). by rewrite IH.
    - by rewrite (fails_ok _ Hp).
    - rewrite (yields_ok _ _ Hp). destruct Hc as [[Hh ->]|[Hh ->]]; rewrite holds_ok in Hh.
      + rewrite Hh, IHn, IH. done.
      + apply not_true_is_false in Hh. rewrite Hh, IHn, IH. done.
    - rewrite (yields_ok _ _ Hp). destruct Hc as [[Hh ->]|[Hh ->]]; rewrite holds_ok in Hh.
      + rewrite Hh, IHn. done.
      + apply not_true_is_false in Hh. rewrite Hh, IHn. done.
    - by rewrite (fails_ok _ Hp).
  Qed.
End eval.
