(** Label selectors: printing, parsing, matching. *)
From Coq Require Import Ascii String NArith ZArith Lia.
From stdpp Require Import base gmap strings list sorting.
From Verif Require Import ModelStr ModelSort ProofsSort ProofsStr ModelLabels SpecLabels.

(** ** Sets as lists *)
Lemma set_list_elem x l : x ∈ set_list l <-> x ∈ l.
Proof. unfold set_list. by rewrite gosort_elem, elem_of_remove_dups. Qed.
Lemma set_list_NoDup l : NoDup (set_list l).
Proof. unfold set_list. rewrite gosort_perm. apply NoDup_remove_dups. Qed.
Lemma set_list_sorted l : StronglySorted str_le (set_list l).
Proof. apply sort_strings_sorted. Qed.
Lemma set_list_same a b : same_set a b -> set_list a = set_list b.
Proof.
  intros H. apply sort_strings_unique, NoDup_Permutation.
  - apply NoDup_remove_dups.
  - apply NoDup_remove_dups.
  - intros x. rewrite !elem_of_remove_dups. apply H.
Qed.
Lemma set_list_idem l : set_list (set_list l) = set_list l.
Proof. apply set_list_same. intros x. apply set_list_elem. Qed.
Lemma set_list_nil : set_list [] = [].
Proof. done. Qed.
Lemma set_list_nil_inv l : set_list l = [] -> l = [].
Proof.
  destruct l as [|x l]; [done|]. intros H. assert (x ∈ set_list (x :: l)) as Hx.
  { apply set_list_elem. set_solver. }
  rewrite H in Hx. by apply elem_of_nil in Hx.
Qed.
Lemma set_list_fix l : NoDup l -> StronglySorted str_le l -> set_list l = l.
Proof.
  intros Hn Hs. apply (sorted_unique str_le).
  - intros x y _ _. apply str_le_antisym.
  - apply NoDup_Permutation; [apply set_list_NoDup|done|]. intros x. apply set_list_elem.
  - apply set_list_sorted.
  - done.
Qed.

Lemma set_list_singleton v : set_list [v] = [v].
Proof. apply set_list_fix; [apply NoDup_singleton|]. by repeat constructor. Qed.

(** ** Characters *)
Definition wordc (c : ascii) : bool := negb (is_nul c) && negb (is_special c || is_ws c).
Definition keyc (c : ascii) : bool := is_ext c || ch_eqb c "/"%char.

Lemma all_bytes (P : ascii -> bool) :
  forallb P (map (fun n => byte (N.of_nat n)) (seq 0 256)) = true -> forall c, P c = true.
Proof.
  intros H c. rewrite forallb_forall in H. apply H. apply in_map_iff.
  exists (N.to_nat (code c)). rewrite N2Nat.id, byte_code. split; [done|].
  apply in_seq. pose proof (code_lt c). lia.
Qed.
Lemma keyc_wordc c : keyc c = true -> wordc c = true.
Proof.
  pose proof (all_bytes (fun c => negb (keyc c) || wordc c)) as H.
  specialize (H ltac:(vm_compute; reflexivity) c). simpl in H. destruct (keyc c), (wordc c); done.
Qed.
Lemma ext_keyc c : is_ext c = true -> keyc c = true.
Proof. unfold keyc. by intros ->. Qed.
Lemma lowdig_ext c : is_lowdig c || ch_eqb c "-"%char = true -> is_ext c = true.
Proof.
  pose proof (all_bytes (fun c => negb (is_lowdig c || ch_eqb c "-"%char) || is_ext c)) as H.
  specialize (H ltac:(vm_compute; reflexivity) c). simpl in H.
  destruct (is_lowdig c || ch_eqb c "-"%char), (is_ext c); done.
Qed.

Lemma forallb_In {A} (f : A -> bool) l : forallb f l = true <-> Forall (fun x => f x = true) l.
Proof.
  rewrite forallb_forall, Forall_forall. by setoid_rewrite elem_of_list_In.
Qed.
Lemma join_Forall (P : ascii -> Prop) sp ps :
  Forall P sp -> Forall (Forall P) ps -> Forall P (join sp ps).
Proof.
  intros Hs HF. induction HF as [|p ps Hp HF IH]; [constructor|].
  destruct ps as [|q ps]; [done|]. rewrite join_cons_cons. by rewrite !Forall_app.
Qed.

Lemma valid_value_chars v : valid_value v = true -> Forall (fun c => is_ext c = true) v.
Proof.
  unfold valid_value, qname_re. intros [_ H]%andb_true_iff. destruct v as [|c v]; [constructor|].
  apply andb_true_iff in H as [_ H]. by apply forallb_In.
Qed.
Lemma valid_name_chars v : valid_name v = true -> v <> [] /\ Forall (fun c => is_ext c = true) v.
Proof.
  unfold valid_name, qname_re. intros [_ H]%andb_true_iff. destruct v as [|c v]; [done|].
  apply andb_true_iff in H as [_ H]. split; [done|]. by apply forallb_In.
Qed.
Lemma dns_chars s : dns1123 s = true -> Forall (fun c => is_ext c = true) s.
Proof.
  unfold dns1123. intros [_ H]%andb_true_iff. apply forallb_In in H.
  rewrite <- (join_split "."%char s). apply join_Forall; [by repeat constructor|].
  eapply Forall_impl; [exact H|]. simpl. intros p Hp. unfold dns_label in Hp.
  apply andb_true_iff in Hp as [_ Hp]. apply forallb_In in Hp.
  eapply Forall_impl; [exact Hp|]. simpl. apply lowdig_ext.
Qed.
Lemma valid_key_chars k : valid_key k = true -> k <> [] /\ Forall (fun c => keyc c = true) k.
Proof.
  unfold valid_key. intros H. pose proof (join_split "/"%char k) as E.
  destruct (split_on "/"%char k) as [|p [|q [|? ?]]]; try done.
  - simpl in E. subst. apply valid_name_chars in H as [Hne HF]. split; [done|].
    eapply Forall_impl; [exact HF|]. apply ext_keyc.
  - simpl in E. apply andb_true_iff in H as [H1 H2].
    apply valid_name_chars in H2 as [Hne HF]. apply dns_chars in H1. subst k. split; [by destruct p|].
    apply Forall_app. split; [eapply Forall_impl; [exact H1|]; apply ext_keyc|].
    constructor; [done|]. eapply Forall_impl; [exact HF|]; apply ext_keyc.
Qed.
Definition word (w : gostr) : Prop := Forall (fun c => wordc c = true) w.
Lemma key_word k : valid_key k = true -> k <> [] /\ word k.
Proof.
  intros [H1 H2]%valid_key_chars. split; [done|]. eapply Forall_impl; [exact H2|]. apply keyc_wordc.
Qed.
Lemma value_word v : valid_value v = true -> word v.
Proof.
  intros H%valid_value_chars. eapply Forall_impl; [exact H|]. simpl. intros c Hc. by apply keyc_wordc, ext_keyc.
Qed.

(** ** Lexing *)
Lemma skip_ws_len s : length (skip_ws s) <= length s.
Proof. induction s as [|c s IH]; simpl; [done|]. destruct (is_ws c); simpl; lia. Qed.
Lemma drop_nul_len s : length (drop_nul s) <= length s.
Proof. destruct s as [|c s]; simpl; [done|]. destruct (is_nul c); simpl; lia. Qed.
Lemma scan_ident_len s b r : scan_ident s = (b, r) -> length r <= length s.
Proof.
  revert b r. induction s as [|c s IH]; intros b r; simpl; [by intros [= <- <-]|].
  destruct (is_nul c); [intros [= <- <-]; simpl; lia|].
  destruct (is_special c || is_ws c); [intros [= <- <-]; simpl; lia|].
  destruct (scan_ident s) as [b' r']. intros [= <- <-]. pose proof (IH _ _ eq_refl). lia.
Qed.
Lemma scan_special_len c t s it r : scan_special c t s = (it, r) -> length r <= length s.
Proof.
  unfold scan_special. destruct s as [|d s]; [by intros [= <- <-]|].
  pose proof (drop_nul_len s). pose proof (drop_nul_len (d :: s)).
  destruct (special2 c d); intros [= <- <-]; simpl in *; lia.
Qed.
Lemma special1_ws c t : special1 c = Some t -> is_ws c = false.
Proof.
  pose proof (all_bytes (fun c => negb (is_special c) || negb (is_ws c))) as H.
  specialize (H ltac:(vm_compute; reflexivity) c). simpl in H. unfold is_special in H.
  intros E. rewrite E in H. by destruct (is_ws c).
Qed.
Lemma skip_ws_head s c r : skip_ws s = c :: r -> is_ws c = false.
Proof.
  induction s as [|d s IH]; simpl; [done|]. destruct (is_ws d) eqn:E; [done|]. by intros [= -> ->].
Qed.
Lemma lex_fuel s : forall f f', length s < f -> length s < f' -> lex f s = lex f' s.
Proof.
  assert (forall n s, length s < n -> forall f f', length s < f -> length s < f' -> lex f s = lex f' s) as H.
  { induction n as [|n IH]; intros t Hn f f' Hf Hf'; [lia|].
    destruct f as [|f]; [lia|]. destruct f' as [|f']; [lia|]. simpl.
    pose proof (skip_ws_len t) as Hl. destruct (skip_ws t) as [|c r] eqn:E; [done|].
    simpl in Hl. apply skip_ws_head in E.
    destruct (is_nul c) eqn:En; [done|].
    destruct (special1 c) as [tk|] eqn:Es.
    - destruct (scan_special c tk r) as [it r'] eqn:E2. apply scan_special_len in E2. f_equal. apply IH; lia.
    - unfold is_special. rewrite Es, E. cbn [orb].
      destruct (scan_ident r) as [b r'] eqn:E2. apply scan_ident_len in E2. f_equal. apply IH; lia. }
  intros f f' H1 H2. by apply (H (S (length s))); [lia|..].
Qed.
Definition stops (s : gostr) : Prop :=
  s = [] \/ exists c r, s = c :: r /\ is_nul c = false /\ (is_special c || is_ws c) = true.
Lemma scan_word w s : word w -> stops s -> scan_ident (w ++ s) = (w, s).
Proof.
  intros Hw Hs. induction Hw as [|c w Hc Hw IH]; simpl.
  - destruct Hs as [->|(c & r & -> & H1 & H2)]; [done|]. simpl. by rewrite H1, H2.
  - unfold wordc in Hc. apply andb_true_iff in Hc as [H1 H2]. apply negb_true_iff in H1, H2.
    by rewrite H1, H2, IH.
Qed.
Lemma lex_word w s : w <> [] -> word w -> stops s -> lex_all (w ++ s) = (keyword w, w) :: lex_all s.
Proof.
  intros Hne Hw Hs. destruct w as [|c w]; [done|]. inversion Hw as [|? ? Hc Hw']; subst.
  unfold wordc in Hc. apply andb_true_iff in Hc as [H1 H2]. apply negb_true_iff in H1, H2.
  unfold lex_all at 1. cbn [lex app skip_ws]. apply orb_false_iff in H2 as [H2 H3]. rewrite H3, H1.
  unfold is_special in H2. destruct (special1 c) eqn:E; [done|].
  change (c :: w ++ s) with ((c :: w) ++ s). rewrite scan_word by done. f_equal.
  apply lex_fuel; [|lia]. cbn [app length]. rewrite app_length. lia.
Qed.
Lemma lex_nil : lex_all [] = [(TEnd, [])].
Proof. done. Qed.
Lemma lex_space s : lex_all (" "%char :: s) = lex_all s.
Proof.
  unfold lex_all. cbn [length]. rewrite (lex_fuel s (S (length s)) (S (S (length s)))) by lia. done.
Qed.
Definition no_nul (s : gostr) : Prop := drop_nul s = s.
Lemma lex_special c t s : special1 c = Some t -> is_nul c = false -> no_nul s ->
  (forall d r, s = d :: r -> special2 c d = None) ->
  lex_all (c :: s) = (t, [c]) :: lex_all s.
Proof.
  intros Hs Hn Hnn H2. unfold lex_all at 1. cbn [lex skip_ws]. rewrite (special1_ws _ _ Hs), Hn, Hs.
  unfold scan_special. destruct s as [|d s].
  - done.
  - rewrite (H2 d s eq_refl), Hnn. f_equal.
Qed.
Lemma word_no_nul w s : word w -> no_nul s -> no_nul (w ++ s).
Proof.
  intros Hw Hs. destruct Hw as [|c w Hc Hw]; [done|]. unfold no_nul. simpl.
  unfold wordc in Hc. apply andb_true_iff in Hc as [H1%negb_true_iff _]. by rewrite H1.
Qed.
Lemma word_not_eq w s d r : word w -> (forall d r, s = d :: r -> d <> "="%char) ->
  w ++ s = d :: r -> d <> "="%char.
Proof.
  intros Hw Hs. destruct Hw as [|c w Hc Hw]; simpl; [apply Hs|].
  intros [= -> _] ->. done.
Qed.
Lemma special2_not_eq c d : d <> "="%char -> special2 c d = None.
Proof. intros H. unfold special2. by rewrite (proj2 (ch_eqb_neq _ _) H). Qed.
Lemma special2_other c d : c <> "="%char -> c <> "!"%char -> special2 c d = None.
Proof.
  intros H1 H2. unfold special2. rewrite (proj2 (ch_eqb_neq _ _) H1), (proj2 (ch_eqb_neq _ _) H2).
  by destruct (ch_eqb d _).
Qed.

(** ** Tokens of a printed selector *)
Definition idt (w : gostr) : list item := match w with [] => [] | _ => [(keyword w, w)] end.
Definition comma : item := (TComma, str ",").
Fixpoint vtoks (vs : list gostr) : list item :=
  match vs with
  | [] => []
  | [v] => idt v
  | v :: vs' => idt v ++ comma :: vtoks vs'
  end.
Lemma vtoks_cons v w vs : vtoks (v :: w :: vs) = idt v ++ comma :: vtoks (w :: vs).
Proof. done. Qed.
Lemma lex_word' w s : word w -> stops s -> lex_all (w ++ s) = idt w ++ lex_all s.
Proof.
  intros Hw Hs. destruct w as [|c w]; [done|]. by apply lex_word.
Qed.
Lemma stops_char c s : is_nul c = false -> is_special c || is_ws c = true -> stops (c :: s).
Proof. intros H1 H2. right. eauto. Qed.
Lemma lex_comma s : no_nul s -> lex_all (","%char :: s) = comma :: lex_all s.
Proof. intros H. apply lex_special; try done. intros d r _. by apply special2_other. Qed.
Lemma no_nul_stops s : stops s -> no_nul s.
Proof. intros [->|(c & r & -> & H & _)]; [done|]. unfold no_nul. simpl. by rewrite H. Qed.
Lemma lex_values vs s : Forall word vs -> stops s ->
  lex_all (join (str ",") vs ++ s) = vtoks vs ++ lex_all s.
Proof.
  intros HF Hs. induction HF as [|v vs Hv HF IH]; [done|].
  destruct vs as [|w vs].
  - simpl. by apply lex_word'.
  - rewrite join_cons_cons, vtoks_cons, <- !app_assoc. rewrite lex_word'; [|done|by apply stops_char].
    f_equal. change (str "," ++ join (str ",") (w :: vs) ++ s) with (","%char :: join (str ",") (w :: vs) ++ s).
    rewrite lex_comma; [|].
    + by rewrite IH.
    + inversion HF as [|? ? Hw HF']; subst. destruct vs as [|x vs].
      * simpl. by apply word_no_nul, no_nul_stops.
      * rewrite join_cons_cons, <- app_assoc. by apply word_no_nul.
Qed.

(** Requirements that a structured selector can turn into, with legal parts. *)
Definition good_req (r : req) : Prop :=
  new_requirement (rkey r) (rop r) (rvals r) = Some r /\
  (rop r = OEq \/ rop r = OIn \/ rop r = ONotIn \/ rop r = OExists \/ rop r = ONotExists).
Definition toks (r : req) : list item :=
  match rop r with
  | ONotExists => (TNot, str "!") :: idt (rkey r)
  | OExists => idt (rkey r)
  | OIn => idt (rkey r) ++ (TIn, str "in") :: (TOpen, str "(") :: vtoks (gosort str_ltb (rvals r)) ++ [(TClosed, str ")")]
  | ONotIn => idt (rkey r) ++ (TNotIn, str "notin") :: (TOpen, str "(") :: vtoks (gosort str_ltb (rvals r)) ++ [(TClosed, str ")")]
  | _ => idt (rkey r) ++ (TEq, str "=") :: vtoks (rvals r)
  end.
Fixpoint toks_all (rs : list req) : list item :=
  match rs with
  | [] => []
  | [r] => toks r
  | r :: rs' => toks r ++ comma :: toks_all rs'
  end.
Lemma toks_all_cons r q rs : toks_all (r :: q :: rs) = toks r ++ comma :: toks_all (q :: rs).
Proof. done. Qed.

Lemma new_requirement_inv k op vs r : new_requirement k op vs = Some r ->
  r = Req k op vs /\ valid_key k = true /\ Forall (fun v => valid_value v = true) vs /\
  match op with
  | OIn | ONotIn => vs <> []
  | OEq | ODEq | ONe | OGt | OLt => exists v, vs = [v]
  | OExists | ONotExists => vs = []
  end.
Proof.
  unfold new_requirement. intros H. destruct (_ && _) eqn:E; [|done]. injection H as <-.
  apply andb_true_iff in E as [E E3]. apply andb_true_iff in E as [E1 E2].
  split; [done|]. split; [done|]. split; [by apply forallb_In|].
  destruct op; try (by destruct vs as [|v [|? ?]]; eauto).
Qed.
Lemma new_requirement_intro k op vs : valid_key k = true -> Forall (fun v => valid_value v = true) vs ->
  match op with
  | OIn | ONotIn => vs <> []
  | OEq | ODEq | ONe | OGt | OLt => exists v, vs = [v]
  | OExists | ONotExists => vs = []
  end -> new_requirement k op vs = Some (Req k op vs).
Proof.
  intros H1 H2%forallb_In H3. unfold new_requirement. rewrite H1, H2.
  destruct op; match type of H3 with ex _ => by destruct H3 as [v ->] | _ <> _ => by destruct vs | _ => by subst end.
Qed.

Lemma fmt_vals_sorted vs : fmt_vals vs = join (str ",") (gosort str_ltb vs).
Proof. by destruct vs as [|v [|? ?]]. Qed.
Lemma sorted_word vs : Forall (fun v => valid_value v = true) vs -> Forall word (gosort str_ltb vs).
Proof.
  intros H. rewrite gosort_perm. eapply Forall_impl; [exact H|]. apply value_word.
Qed.
Lemma paren_part vs s : Forall (fun v => valid_value v = true) vs -> no_nul s ->
  lex_all (str "(" ++ fmt_vals vs ++ str ")" ++ s) =
  (TOpen, str "(") :: vtoks (gosort str_ltb vs) ++ (TClosed, str ")") :: lex_all s.
Proof.
  intros HF Hs. rewrite fmt_vals_sorted.
  change (str "(" ++ join (str ",") (gosort str_ltb vs) ++ str ")" ++ s)
    with ("("%char :: join (str ",") (gosort str_ltb vs) ++ str ")" ++ s).
  pose proof (sorted_word vs HF) as Hw.
  rewrite (lex_special "("%char TOpen); [|done|done| |intros d r _; by apply special2_other].
  - rewrite lex_values; [|done|by apply stops_char].
    change (str ")" ++ s) with (")"%char :: s).
    rewrite (lex_special ")"%char TClosed); [done|done|done|done|intros d r _; by apply special2_other].
  - destruct Hw as [|v l Hv Hw]; [done|]. destruct l.
    + simpl. by apply word_no_nul.
    + rewrite join_cons_cons, <- app_assoc. by apply word_no_nul.
Qed.
Lemma lex_req r s : good_req r -> stops s -> (forall d t, s = d :: t -> d <> "="%char) ->
  lex_all (fmt_req r ++ s) = toks r ++ lex_all s.
Proof.
  intros [Hr Hop] Hs Heq. apply new_requirement_inv in Hr as (_ & Hk & Hv & Ha).
  destruct (key_word _ Hk) as [Hkn Hkw].
  unfold fmt_req, toks. destruct Hop as [E|[E|[E|[E|E]]]]; rewrite E in Ha |- *.
  - destruct Ha as [v Ev]. rewrite Ev in Hv |- *. inversion Hv as [|? ? Hv1 _]; subst.
    pose proof (value_word _ Hv1) as Hvw.
    rewrite <- !app_assoc. rewrite lex_word'; [|done|by apply stops_char]. f_equal.
    change (str "=" ++ fmt_vals [v] ++ s) with ("="%char :: v ++ s).
    rewrite (lex_special "="%char TEq); [|done|done| |].
    + cbn [app]. f_equal. simpl vtoks. by apply lex_word'.
    + by apply word_no_nul, no_nul_stops.
    + intros d t Ht. apply special2_not_eq. eapply word_not_eq; [exact Hvw| |exact Ht]. done.
  - rewrite <- !app_assoc. rewrite lex_word'; [|done|by apply stops_char]. f_equal.
    change (str " in (" ++ ?x) with (" "%char :: str "in" ++ " "%char :: str "(" ++ x).
    rewrite lex_space, lex_word; [|done|by repeat constructor|by apply stops_char].
    rewrite lex_space, paren_part; [|done|by apply no_nul_stops].
    rewrite <- !app_comm_cons, <- app_assoc. done.
  - rewrite <- !app_assoc. rewrite lex_word'; [|done|by apply stops_char]. f_equal.
    change (str " notin (" ++ ?x) with (" "%char :: str "notin" ++ " "%char :: str "(" ++ x).
    rewrite lex_space, lex_word; [|done|by repeat constructor|by apply stops_char].
    rewrite lex_space, paren_part; [|done|by apply no_nul_stops].
    rewrite <- !app_comm_cons, <- app_assoc. done.
  - by apply lex_word'.
  - change ((str "!" ++ rkey r) ++ s) with ("!"%char :: rkey r ++ s).
    rewrite (lex_special "!"%char TNot); [|done|done| |].
    + cbn [app]. f_equal. by apply lex_word'.
    + by apply word_no_nul, no_nul_stops.
    + intros d t Ht. apply special2_not_eq. eapply word_not_eq; [exact Hkw| |exact Ht]. done.
Qed.
Lemma fmt_req_no_nul r s : good_req r -> no_nul (fmt_req r ++ s).
Proof.
  intros [Hr Hop]. apply new_requirement_inv in Hr as (_ & Hk & _ & _).
  destruct (key_word _ Hk) as [Hkn Hkw]. destruct (rkey r) as [|c k] eqn:Ek; [done|].
  inversion Hkw as [|? ? Hc _]; subst. unfold wordc in Hc. apply andb_true_iff in Hc as [H1%negb_true_iff _].
  unfold no_nul, fmt_req. destruct Hop as [E|[E|[E|[E|E]]]]; rewrite E, ?Ek; simpl; by rewrite ?H1.
Qed.
Lemma lex_reqs rs : Forall good_req rs -> lex_all (fmt_reqs rs) = toks_all rs ++ [(TEnd, [])].
Proof.
  unfold fmt_reqs. induction 1 as [|r rs Hr HF IH]; [done|].
  destruct rs as [|q rs].
  - simpl. rewrite <- (app_nil_r (fmt_req r)), lex_req; try done. by left.
  - cbn [map]. rewrite join_cons_cons, toks_all_cons, <- app_assoc.
    rewrite lex_req; [|done|by apply stops_char|by intros d t [= <- _]]. f_equal.
    change (str "," ++ ?x) with (","%char :: x). rewrite lex_comma.
    + cbn [map] in IH. by rewrite IH.
    + inversion HF; subst. destruct (map fmt_req rs) as [|y ys] eqn:Ey.
      * simpl. rewrite <- (app_nil_r (fmt_req q)). by apply fmt_req_no_nul.
      * rewrite join_cons_cons. by apply fmt_req_no_nul.
Qed.
