(** Proofs for index expressions. *)
From Coq Require Import Ascii String NArith ZArith Lia.
From stdpp Require Import base gmap strings list sorting.
From Verif Require Import ModelStr ModelSort ModelLabels ModelPage ModelJson ModelJsonText ModelQuery ModelStore ModelUrl ModelProxy ModelObjType ModelPath
  SpecPage SpecObjType SpecPath ProofsStr ProofsB64 ProofsJson ProofsJsonText ProofsObjType.

(** ** Parsing *)
Lemma special_ok c : c ∈ special <-> escapable c = true.
Proof.
  unfold escapable. rewrite existsb_exists. split.
  - intros H. exists c. split; [by apply elem_of_list_In|]. by apply ch_eqb_eq.
  - intros (x & H & <-%ch_eqb_eq). by apply elem_of_list_In.
Qed.
Definition good_char (c : ascii) : Prop := (33 <= N_of_ascii c <= 126)%N /\ c <> "{"%char /\ c <> "}"%char /\ c <> "\"%char.
Lemma name_char_ok c : good_char c -> c ∉ special -> name_char c = true.
Proof.
  intros (H1 & H2 & H3 & H4) H5. unfold name_char. rewrite (proj2 (N.leb_le _ _)) by lia. rewrite (proj2 (N.leb_le _ _)) by lia.
  cbn [andb]. apply negb_true_iff. apply not_true_iff_false. intros (x & Hx & <-%ch_eqb_eq)%existsb_exists.
  apply elem_of_list_In in Hx. unfold special in H5. rewrite !not_elem_of_cons in H5. rewrite !elem_of_cons in Hx. destruct Hx as [->|[->|[->|[->|[->|[->|[->|[->|[->|Hx]]]]]]]]]; try tauto; by apply elem_of_nil in Hx.
Qed.
Lemma escaped_cons c f : escaped (c :: f) = (if decide (c ∈ special) then ["\"%char; c] else [c]) ++ escaped f.
Proof. reflexivity. Qed.
Lemma dots_cons f p : dots (f :: p) = (str "." ++ escaped f) ++ dots p.
Proof. reflexivity. Qed.
Lemma go_name l n f s : Forall good_char f -> jp_go (InName l n) (escaped f ++ s) = jp_go (InName l (rev f ++ n)) s.
Proof.
  intros H. revert n. induction H as [|c f Hc H IH]; intros n; [done|]. rewrite escaped_cons, <- app_assoc.
  cbn [rev]. rewrite <- (app_assoc (rev f)). cbn [app]. destruct (decide (c ∈ special)) as [Hs|Hs].
  - cbn [app jp_go]. rewrite (proj2 (ch_eqb_eq _ _) eq_refl). rewrite (proj1 (special_ok c) Hs). apply IH.
  - cbn [app jp_go]. rewrite (proj2 (ch_eqb_neq c "\"%char)) by apply Hc. rewrite (name_char_ok c Hc Hs). apply IH.
Qed.
Lemma end_name_ok l n : n <> [] -> n <> str "*" -> end_name l n = Some (SField (rev n) :: l).
Proof.
  intros H1 H2. unfold end_name. destruct n as [|c n]; [done|]. destruct (str_eqb (c :: n) (str "*")) eqn:E; [|done].
  apply str_eqb_eq in E. done.
Qed.
Lemma go_end l n c s : n <> [] -> n <> str "*" -> c = "."%char \/ c = "["%char \/ c = "}"%char ->
  jp_go (InName l n) (c :: s) = jp_go (InAction (SField (rev n) :: l)) (c :: s).
Proof. intros H1 H2 [->|[->| ->]]; cbn [jp_go]; rewrite (end_name_ok l n H1 H2); reflexivity. Qed.
Lemma rev_star f : f <> str "*" -> rev f <> str "*".
Proof. intros H E. apply H. rewrite <- (rev_involutive f), E. done. Qed.
Lemma rev_nil f : f <> [] -> rev f <> ([] : gostr).
Proof. intros H E. apply H. by rewrite <- (rev_involutive f), E. Qed.
Lemma go_dots l p c s : Forall good_name p -> c = "."%char \/ c = "["%char \/ c = "}"%char ->
  jp_go (InAction l) (dots p ++ c :: s) = jp_go (InAction (rev (map SField p) ++ l)) (c :: s).
Proof.
  intros H Hc. revert l. induction H as [|f p (H1 & H2 & H3) H IH]; intros l; [done|]. rewrite dots_cons. cbn [map rev]. rewrite <- !app_assoc. change (str ".") with ["."%char]. cbn [app].
  transitivity (jp_go (InName l []) (escaped f ++ dots p ++ c :: s)); [done|]. rewrite go_name by exact H3. rewrite app_nil_r.
  assert (exists c' s', dots p ++ c :: s = c' :: s' /\ (c' = "."%char \/ c' = "["%char \/ c' = "}"%char)) as (c' & s' & E & Hc').
  { destruct p as [|f' p]; [by exists c, s|]. exists "."%char. eexists. split; [reflexivity|]. by left. }
  rewrite E, go_end; [|by apply rev_nil|by apply rev_star|done]. rewrite rev_involutive, <- E. apply IH.
Qed.
Lemma go_close l s : l <> [] -> jp_go (InAction l) ("}"%char :: s) = cons (PPath (rev l)) <$> jp_go (InText []) s.
Proof. by destruct l. Qed.
Lemma rev_fields p l : rev (rev (map SField p) ++ l) = rev l ++ map SField p.
Proof. by rewrite rev_app_distr, rev_involutive. Qed.
Lemma app_ne {A} (a b : list A) : a <> [] -> a ++ b <> [].
Proof. by destruct a. Qed.
Lemma rev_map_ne p : p <> [] -> rev (map SField p) <> [].
Proof. intros H E. apply H. destruct p as [|f p]; [done|]. apply (f_equal length) in E. rewrite rev_length in E. done. Qed.
Lemma go_text t u s : "{"%char ∉ u -> jp_go (InText t) (u ++ s) = jp_go (InText (rev u ++ t)) s.
Proof.
  revert t. induction u as [|c u IH]; intros t H; [done|]. apply not_elem_of_cons in H as [H1 H2]. cbn [app rev]. rewrite <- app_assoc. cbn [app].
  cbn [jp_go]. rewrite (proj2 (ch_eqb_neq c "{"%char)) by congruence. by apply IH.
Qed.
Lemma go_field t p s : p <> [] -> Forall good_name p ->
  jp_go (InText t) (field_expr p ++ s) = cons_text (rev t) <$> (cons (PPath (map SField p)) <$> jp_go (InText []) s).
Proof.
  intros H1 H2. unfold field_expr. rewrite <- !app_assoc. change (str "{" ++ ?x) with ("{"%char :: x). cbn [jp_go].
  rewrite (proj2 (ch_eqb_eq _ _) eq_refl). f_equal. change (str "}" ++ s) with ("}"%char :: s).
  rewrite go_dots by (done || (right; by right)). rewrite app_nil_r, go_close by (by apply rev_map_ne). by rewrite rev_involutive.
Qed.
Lemma go_items t p q s : Forall good_name p -> Forall good_name q -> 
  jp_go (InText t) (items_expr p q ++ s) = cons_text (rev t) <$> (cons (PPath (map SField p ++ SAll :: map SField q)) <$> jp_go (InText []) s).
Proof.
  intros Hp Hq. unfold items_expr. rewrite <- !app_assoc. change (str "{" ++ ?x) with ("{"%char :: x). cbn [jp_go].
  rewrite (proj2 (ch_eqb_eq _ _) eq_refl). f_equal. change (str "[*]") with ["["%char; "*"%char; "]"%char]. cbn [app].
  rewrite go_dots by (done || (right; by left)). rewrite app_nil_r.
  transitivity (jp_go (InAction (SAll :: rev (map SField p))) (dots q ++ str "}" ++ s)); [done|].
  change (str "}" ++ s) with ("}"%char :: s). rewrite go_dots by (done || (right; by right)). rewrite go_close.
  - rewrite rev_fields. cbn [rev]. rewrite rev_involutive, <- app_assoc. done.
  - destruct (rev (map SField q)); done.
Qed.
Lemma parse_items p q : Forall good_name p -> Forall good_name q -> 
  jp_parse (items_expr p q) = Some [PPath (map SField p ++ SAll :: map SField q)].
Proof. intros Hp Hq. unfold jp_parse. rewrite <- (app_nil_r (items_expr p q)). by rewrite go_items. Qed.

(** ** No template *)
Lemma contains_cons c s : contains (c :: s) (str "{{") = has_prefix (str "{{") (c :: s) || contains s (str "{{").
Proof.
  unfold contains. change (index_of (str "{{") (c :: s)) with (if has_prefix (str "{{") (c :: s) then Some 0 else match index_of (str "{{") s with Some n => Some (S n) | None => None end).
  destruct (has_prefix _ _); [done|]. by destruct (index_of _ s).
Qed.
Lemma contains_plain u s : "{"%char ∉ u -> contains (u ++ s) (str "{{") = contains s (str "{{").
Proof.
  induction u as [|c u IH]; intros H; [done|]. apply not_elem_of_cons in H as [H1 H2]. cbn [app]. rewrite contains_cons.
  change (has_prefix (str "{{") (c :: u ++ s)) with (ch_eqb "{"%char c && has_prefix ["{"%char] (u ++ s)).
  rewrite (proj2 (ch_eqb_neq "{"%char c)) by done. cbn [andb orb]. by apply IH.
Qed.
Lemma escaped_plain f : good_name f -> "{"%char ∉ escaped f.
Proof.
  intros (_ & _ & H) Hin. unfold escaped in Hin. apply elem_of_list_join in Hin as (l & Hl & Hin). apply elem_of_list_In, in_map_iff in Hin as (c & <- & Hc).
  apply elem_of_list_In in Hc. rewrite Forall_forall in H. specialize (H c Hc) as (_ & Hb & _).
  destruct (decide (c ∈ special)); rewrite !elem_of_cons, elem_of_nil in Hl.
  - destruct Hl as [Hl|[Hl|[]]]; [discriminate Hl|by subst c].
  - destruct Hl as [Hl|[]]. by subst c.
Qed.
Lemma dots_plain p : Forall good_name p -> "{"%char ∉ dots p.
Proof.
  intros H Hin. unfold dots in Hin. apply elem_of_list_join in Hin as (l & Hl & Hin). apply elem_of_list_In, in_map_iff in Hin as (f & <- & Hf).
  apply elem_of_list_In in Hf. rewrite Forall_forall in H. apply elem_of_app in Hl as [Hl|Hl].
  - change (str ".") with ["."%char] in Hl. apply elem_of_cons in Hl as [Hl|Hl]; [discriminate Hl|by apply elem_of_nil in Hl].
  - by destruct (escaped_plain f (H f Hf)).
Qed.
Lemma contains_open u s : "{"%char ∉ u -> u <> [] -> contains (str "{" ++ u ++ s) (str "{{") = contains s (str "{{").
Proof.
  intros H Hne. destruct u as [|c u]; [done|]. change (str "{" ++ (c :: u) ++ s) with ("{"%char :: (c :: u) ++ s). rewrite contains_cons.
  apply not_elem_of_cons in H as H'. destruct H' as [H1 H2].
  change (has_prefix (str "{{") ("{"%char :: (c :: u) ++ s)) with (ch_eqb "{"%char "{"%char && (ch_eqb "{"%char c && true)).
  rewrite (proj2 (ch_eqb_neq "{"%char c)) by done. rewrite andb_false_r. cbn [orb]. by rewrite contains_plain.
Qed.
Lemma dots_ne p : p <> [] -> dots p <> [].
Proof. by destruct p. Qed.
Lemma field_no_template p s : p <> [] -> Forall good_name p -> contains (field_expr p ++ s) (str "{{") = contains s (str "{{").
Proof.
  intros H1 H2. unfold field_expr. rewrite <- !app_assoc. rewrite contains_open by (by apply dots_plain || by apply dots_ne).
  change (str "}") with ["}"%char]. apply contains_plain. intros [H|H]%elem_of_cons; [discriminate H|by apply elem_of_nil in H].
Qed.
Lemma items_no_template p q s : Forall good_name p -> Forall good_name q -> contains (items_expr p q ++ s) (str "{{") = contains s (str "{{").
Proof.
  intros H1 H2. unfold items_expr. rewrite <- !app_assoc. rewrite (app_assoc (dots p)), contains_open.
  - rewrite contains_plain; [|by apply dots_plain]. change (str "}") with ["}"%char]. apply contains_plain. intros [H|H]%elem_of_cons; [discriminate H|by apply elem_of_nil in H].
  - intros [H|H]%elem_of_app; [exact (dots_plain p H1 H)|]. change (str "[*]") with ["["%char; "*"%char; "]"%char] in H. rewrite !elem_of_cons in H.
    destruct H as [H|[H|[H|H]]]; try discriminate H. by apply elem_of_nil in H.
  - by destruct (dots p).
Qed.
Lemma has_brace s u : contains (s ++ str "{" ++ u) (str "{") = true.
Proof. apply contains_true. by exists s, u. Qed.

(** ** Following a path *)
Lemma denotes_map {A B} (f : A -> B) (l : list (gostr * A)) k v :
  denotes (map (fun kv => (kv.1, f kv.2)) l) k v <-> exists j, denotes l k j /\ v = f j.
Proof.
  unfold denotes. split.
  - intros (l1 & l2 & El & Hk). apply map_eq_app in El as (a1 & a2 & -> & <- & El). destruct a2 as [|[k' j] a2]; [done|].
    cbn in El. injection El as <- <- <-. exists j. split; [|done]. exists a1, a2. split; [done|].
    intros ([k2 v2] & E2 & Hin)%elem_of_list_fmap. apply Hk. apply elem_of_list_fmap. exists (k2, f v2). split; [done|].
    apply elem_of_list_In. apply in_map_iff. exists (k2, v2). split; [done|]. by apply elem_of_list_In.
  - intros (j & (l1 & l2 & -> & Hk) & ->). exists (map (fun kv => (kv.1, f kv.2)) l1), (map (fun kv => (kv.1, f kv.2)) l2).
    split; [by rewrite map_app|]. intros ([k2 v2] & E2 & Hin)%elem_of_list_fmap. apply elem_of_list_In, in_map_iff in Hin as ([k3 v3] & E3 & Hin).
    apply Hk, elem_of_list_fmap. exists (k3, v3). cbn in *. split; [congruence|by apply elem_of_list_In].
Qed.
Lemma denotes_fun {A} (l : list (gostr * A)) k v w : denotes l k v -> denotes l k w -> v = w.
Proof.
  intros (l1 & l2 & El & H2) (m1 & m2 & Em' & H3). rewrite El in Em'.
  clear El. revert m1 Em'. induction l1 as [|x l1 IH]; intros [|y m1] Em'; cbn in Em'.
  - congruence.
  - injection Em' as <- ->. destruct H2. rewrite fmap_app. apply elem_of_app. right. by left.
  - injection Em' as -> <-. destruct H3. rewrite fmap_app. apply elem_of_app. right. by left.
  - injection Em' as <- Em'. by eapply IH.
Qed.
Lemma denotes_elem {A} (l : list (gostr * A)) k v : denotes l k v -> k ∈ l.*1.
Proof. intros (l1 & l2 & -> & _). rewrite fmap_app. apply elem_of_app. right. by left. Qed.

Lemma mjoin_app' {A} (a b : list (list A)) : mjoin (a ++ b) = mjoin a ++ mjoin b.
Proof. induction a as [|x a IH]; [done|]. change (mjoin ((x :: a) ++ b)) with (x ++ mjoin (a ++ b)). rewrite IH. change (mjoin (x :: a)) with (x ++ mjoin a). by rewrite app_assoc. Qed.
Lemma mjoin_cons' {A} (x : list A) a : mjoin (x :: a) = x ++ mjoin a.
Proof. reflexivity. Qed.

Section path.
  Context (JE : jenv) (P : jpenv).
  Lemma iface_members_obj l : exists m, iface JE (JObj l) = JObj m /\ forall k w, get k m = Some w <-> exists j, denotes l k j /\ w = iface JE j.
  Proof.
    eexists. split; [apply iface_obj|]. intros k w. rewrite <- (denotes_map (iface JE)).
    destruct (get_puts (map (fun kv => (kv.1, iface JE kv.2)) l) [] k) as [[Hn ->]|(x & Hw & ->)].
    - split; [done|]. intros H%denotes_elem. done.
    - split; [by intros [= <-]|]. intros Hv. f_equal. by eapply denotes_fun.
  Qed.
  Definition along (p : list gostr) (v : json) : list json := default [] (find_path (map SField p) [v]).
  Lemma find_fields p vs : find_path (map SField p) vs = Some (mjoin (map (along p) vs)).
  Proof.
    revert vs. induction p as [|f p IH]; intros vs.
    - cbn [map find_path]. f_equal. unfold along. cbn [map find_path default]. induction vs as [|v vs IHv]; [done|]. cbn [map]. rewrite mjoin_cons'. cbn [app]. by f_equal.
    - cbn [map find_path]. rewrite IH. f_equal. induction vs as [|v vs IHv]; [done|]. cbn [map]. rewrite !mjoin_cons', map_app, mjoin_app'.
      f_equal; [|exact IHv]. unfold along at 2. cbn [map find_path]. rewrite mjoin_cons', app_nil_r, IH. done.
  Qed.
  Lemma along_cons f p v : along (f :: p) v = match field_of f v with [w] => along p w | _ => [] end.
  Proof.
    unfold along at 1. cbn [map find_path]. rewrite mjoin_cons', app_nil_r, find_fields. cbn [default].
    destruct v; try done. cbn [field_of]. destruct (get f _) as [w|]; [|done]. cbn [map]. by rewrite mjoin_cons', app_nil_r.
  Qed.
  Lemma along_found j p v : at_path j p v -> along p (iface JE j) = [iface JE v].
  Proof.
    induction 1 as [j|l k v p w Hd Hw IH]; [done|]. rewrite along_cons. destruct (iface_members_obj l) as (m & -> & Hm). cbn [field_of].
    rewrite (proj2 (Hm k (iface JE v))) by (by exists v). exact IH.
  Qed.
  Lemma along_missing j p : missing j p -> along p (iface JE j) = [].
  Proof.
    revert j. induction p as [|k p IH]; intros j Hm; [by destruct (Hm j); constructor|]. rewrite along_cons.
    destruct j as [| |l|s|l|l]; try done.
    - cbn [iface]. by destruct (je_norm JE l).
    - destruct (iface_members_obj l) as (m & -> & Hg). cbn [field_of]. destruct (get k m) as [w|] eqn:Ek; [|done].
      apply Hg in Ek as (v & Hv & ->). apply IH. intros x Hx. eapply Hm. by econstructor.
  Qed.
  Lemma path_dec j p : (exists v, at_path j p v) \/ missing j p.
  Proof.
    revert j. induction p as [|k p IH]; intros j; [left; exists j; constructor|].
    destruct j as [| |l|s|l|l]; try (right; intros v Hv; inversion Hv; fail).
    destruct (iface_members_obj l) as (m & _ & Hg). destruct (get k m) as [w|] eqn:Ek.
    - apply Hg in Ek as (v & Hv & ->). destruct (IH v) as [[x Hx]|Hx].
      + left. exists x. by econstructor.
      + right. intros x Hx'. inversion Hx' as [|l' k' v' p' w' Hd Hw]; subst. rewrite (denotes_fun _ _ _ _ Hd Hv) in Hw. by eapply Hx.
    - right. intros x Hx. inversion Hx as [|l' k' v' p' w' Hd Hw]; subst. assert (get k m = Some (iface JE v')) by (apply Hg; by exists v'). congruence.
  Qed.
  Lemma at_path_fun j p v w : at_path j p v -> at_path j p w -> v = w.
  Proof.
    intros H. revert w. induction H as [j|l k v p w Hd Hw IH]; intros w' H'; inversion H' as [|l' k' v' p' w'' Hd' Hw']; subst; [done|].
    apply IH. by rewrite (denotes_fun _ _ _ _ Hd Hd').
  Qed.
  Lemma at_path_app j p q v : at_path j (p ++ q) v <-> exists u, at_path j p u /\ at_path u q v.
  Proof.
    revert j. induction p as [|k p IH]; intros j; cbn [app].
    - split; [intros H; exists j; split; [constructor|done]|]. intros (u & Hu & H). by inversion Hu; subst.
    - split.
      + intros H. inversion H as [|l k' u' p' w Hd Hw]; subst. apply IH in Hw as (u & Hu & Hq). exists u. split; [by econstructor|done].
      + intros (u & Hu & Hq). inversion Hu as [|l k' u' p' w Hd Hw]; subst. econstructor; [done|]. apply IH. by exists u.
  Qed.

  (** ** Numbers *)
  Lemma dec_app a b : dec (a ++ b) = (dec a * 10 ^ N.of_nat (length b) + dec b)%N.
  Proof.
    unfold dec. rewrite fold_left_app. generalize (fold_left (fun n c => 10 * n + (N_of_ascii c - 48))%N a 0%N) as n. revert a.
    assert (forall n, fold_left (fun n c => 10 * n + (N_of_ascii c - 48))%N b n = n * 10 ^ N.of_nat (length b) + fold_left (fun n c => 10 * n + (N_of_ascii c - 48)) b 0)%N as H; [|by intros].
    induction b as [|c b IH]; intros n; [cbn; lia|]. cbn [fold_left length]. rewrite IH. rewrite (IH (10 * 0 + _)%N).
    rewrite Nat2N.inj_succ, N.pow_succ_r'. lia.
  Qed.
  Lemma dec_uint u acc : fold_left (fun n c => 10 * n + (N_of_ascii c - 48))%N (uint_digits u) (N.pos acc) = N.pos (Pos.of_uint_acc u acc).
  Proof. revert acc. induction u; intros acc; [done|..]; cbn [uint_digits fold_left Pos.of_uint_acc]; rewrite <- IHu; f_equal;
    match goal with |- context [N_of_ascii ?c] => let y := eval vm_compute in (N_of_ascii c) in change (N_of_ascii c) with y end; lia. Qed.
  Lemma dec_digits u : dec (uint_digits u) = N.of_uint u.
  Proof.
    unfold dec. induction u; [done|..]; cbn [uint_digits fold_left]; [exact IHu|..];
      match goal with |- fold_left _ _ ?x = _ => let y := eval vm_compute in x in change x with y end; by rewrite dec_uint.
  Qed.
  Lemma dec_itoa n : dec (itoa_N n) = n.
  Proof. unfold itoa_N. by rewrite dec_digits, DecimalN.Unsigned.of_to. Qed.
  Lemma itoa_first n : n <> 0%N -> exists d r, itoa_N n = d :: r /\ d <> "0"%char.
  Proof.
    intros Hn. unfold itoa_N. pose proof (to_uint_nonzero n Hn) as Hz. pose proof (to_uint_nonnil n) as Hnn.
    destruct (N.to_uint n) as [|u|u|u|u|u|u|u|u|u|u]; [done|by destruct (Hz u)|..]; cbn [uint_digits]; eexists _, _; (split; [reflexivity|discriminate]).
  Qed.
  Lemma drop_zeros_spec ds : exists k, ds = drop_zeros ds ++ replicate k "0"%char /\ forall r, drop_zeros ds <> r ++ str "0".
  Proof.
    induction ds as [|c ds (k & E & H)]; [exists 0; split; [done|]; by intros []|]. cbn [drop_zeros]. destruct (drop_zeros ds) as [|d r].
    - cbn [app] in E. destruct (ch_eqb c "0"%char) eqn:Ec.
      + apply ch_eqb_eq in Ec as ->. exists (S k). split; [cbn [replicate app]; by f_equal|]. by intros [].
      + apply ch_eqb_neq in Ec. exists k. split; [cbn [app]; by f_equal|]. intros [|x [|y r]]; [|discriminate|discriminate]. change (str "0") with ["0"%char]. cbn [app]. intros E'. apply Ec. congruence.
    - exists k. split; [cbn [app] in *; congruence|]. intros [|x r']; [discriminate|]. intros E'. cbn [app] in E'. injection E' as -> E'. by destruct (H r').
  Qed.
  Lemma digit_range c : isdigit c = true -> (48 <= N_of_ascii c <= 57)%N.
  Proof. destruct c as [[] [] [] [] [] [] [] []]; vm_compute; intros; try discriminate; split; discriminate. Qed.
  Lemma itoa_digits n : Forall (fun c => 48 <= N_of_ascii c <= 57)%N (itoa_N n).
  Proof. apply Forall_forall. intros c Hc. apply digit_range. pose proof (itoa_N_isdigit n) as H. rewrite forallb_forall in H. apply H. by apply elem_of_list_In. Qed.
  Lemma dec_zeros k : dec (replicate k "0"%char) = 0%N.
  Proof. unfold dec. induction k as [|k IH]; [done|]. cbn [replicate fold_left]. exact IH. Qed.
  Lemma dec_bounds d r : d <> "0"%char -> Forall (fun c => 48 <= N_of_ascii c <= 57)%N (d :: r) ->
    (10 ^ N.of_nat (length r) <= dec (d :: r) < 10 ^ N.of_nat (S (length r)))%N.
  Proof.
    intros Hd H. assert (forall l, Forall (fun c => 48 <= N_of_ascii c <= 57)%N l -> dec l < 10 ^ N.of_nat (length l))%N as Hup.
    { clear. intros l H. induction H as [|c l Hc H IH]; [by vm_compute|]. change (c :: l) with ([c] ++ l). rewrite dec_app. cbn [length app].
      rewrite Nat2N.inj_succ, N.pow_succ_r'. unfold dec at 1. cbn [fold_left]. nia. }
    split; [|exact (Hup (d :: r) H)]. change (d :: r) with ([d] ++ r). rewrite dec_app. apply Forall_cons in H as [H1 H2].
    assert (dec [d] <> 0)%N; [|nia]. unfold dec. cbn [fold_left]. intros E. apply Hd. rewrite <- (ascii_N_embedding d). replace (N_of_ascii d) with 48%N by lia. done.
  Qed.
  Lemma dec_inj a b : length a = length b -> Forall (fun c => 48 <= N_of_ascii c <= 57)%N a -> Forall (fun c => 48 <= N_of_ascii c <= 57)%N b -> dec a = dec b -> a = b.
  Proof.
    revert b. induction a as [|x a IH] using rev_ind; intros b Hl Ha Hb E.
    - destruct b; done.
    - destruct (exists_last (l:=b)) as (b' & y & ->). { intros ->. rewrite app_length in Hl. cbn in Hl. lia. }
      rewrite !app_length in Hl. cbn [length] in Hl. apply Forall_app in Ha as [Ha Hx]. apply Forall_app in Hb as [Hb Hy]. apply Forall_cons in Hx as [Hx _]. apply Forall_cons in Hy as [Hy _].
      rewrite !dec_app in E. cbn [length] in E. change (10 ^ N.of_nat 1)%N with 10%N in E. unfold dec in E at 2 4. cbn [fold_left] in E.
      assert (dec a = dec b' /\ N_of_ascii x = N_of_ascii y) as [E1 E2] by lia. f_equal; [apply IH; done || lia|].
      rewrite <- (ascii_N_embedding x), <- (ascii_N_embedding y), E2. done.
  Qed.
  Lemma fmt_large z : (1000000 <= Z.abs z <= 2 ^ 53)%Z -> scientific z (fmt_int z).
  Proof.
    intros [Hz Hz2]. unfold fmt_int, fmt_nat. set (n := Z.abs_N z). assert (1000000 <= n <= 2 ^ 53)%N as Hn by (unfold n; lia).
    rewrite (proj2 (N.ltb_ge _ _)) by lia. destruct (itoa_first n) as (d & r & Ed & Hd); [lia|].
    destruct (drop_zeros_spec (itoa_N n)) as (k & Ek & Hk). pose proof (itoa_digits n) as HD. pose proof (dec_itoa n) as Hdec.
    set (x := length (itoa_N n) - 1). assert (x < 16) as Hx16.
    { unfold x. rewrite Ed in *. cbn [length]. destruct (dec_bounds d r Hd HD) as [Hb _]. rewrite Hdec in Hb. destruct (Nat.lt_ge_cases (length r) 16); [lia|]. exfalso.
      assert (10 ^ 16 <= 10 ^ N.of_nat (length r))%N by (apply N.pow_le_mono_r; lia). assert (2 ^ 53 < 10 ^ 16)%N by (by vm_compute). lia. }
    destruct (drop_zeros (itoa_N n)) as [|d' r'] eqn:E0.
    { exfalso. cbn [app] in Ek. rewrite Ek, dec_zeros in Hdec. lia. }
    assert (d' = d) as -> by (rewrite Ed in Ek; cbn [app] in Ek; congruence).
    assert (length (itoa_N n) = S (length r' + k)) as Hlen by (rewrite Ek; cbn [app length]; by rewrite app_length, replicate_length).
    exists d, r', x, ((if x <? 10 then str "0" else []) ++ itoa_N (N.of_nat x)).
    assert (dec (itoa_N (N.of_nat x)) = N.of_nat x) as Hx by apply dec_itoa.
    split; [|split; [|split; [done|]]].
    - rewrite Ek in HD. apply Forall_cons in HD as [HD1 HD2]. apply Forall_app in HD2 as [HD2 _]. apply Forall_cons. split; [done|].
      apply Forall_app. split; [done|]. apply Forall_app. split; [|apply itoa_digits]. destruct (x <? 10); [|constructor]. repeat constructor; vm_compute; discriminate.
    - destruct (decide (z < 0)%Z) as [Hneg|Hneg]; [rewrite (proj2 (Z.ltb_lt _ _)) by done|rewrite (proj2 (Z.ltb_ge _ _)) by lia]; cbn [app]; by destruct r'.
    - split; [|split; [|split; [|split]]].
      + intros r2 E2. apply (Hk (d :: r2)). cbn [app]. by f_equal.
      + destruct (x <? 10); [|done]. change (str "0") with ["0"%char]. cbn [app]. unfold dec at 1. cbn [fold_left]. exact Hx.
      + do 16 (destruct x as [|x]; [vm_compute; reflexivity|]). lia.
      + unfold x. lia.
      + rewrite <- Zabs2N.abs_N_spec. fold n. rewrite <- Hdec at 1. transitivity (dec ((d :: r') ++ replicate k "0"%char)); [by rewrite <- Ek|].
        rewrite dec_app, dec_zeros, replicate_length. replace (x - length r') with k by (unfold x; lia). lia.
  Qed.
  Lemma ends_unique (a b : gostr) j k : a ++ replicate j "0"%char = b ++ replicate k "0"%char -> (forall r, a <> r ++ str "0") -> (forall r, b <> r ++ str "0") -> a = b.
  Proof.
    revert k. induction j as [|j IH]; intros k E Ha Hb.
    - destruct k as [|k]; [by rewrite !app_nil_r in E|]. exfalso. cbn [replicate] in E. rewrite app_nil_r in E.
      rewrite <- replicate_S, replicate_S_end, app_assoc in E. by eapply Ha.
    - destruct k as [|k].
      + exfalso. rewrite replicate_S_end, app_assoc, app_nil_r in E. symmetry in E. by eapply Hb.
      + rewrite !replicate_S_end, !app_assoc in E. apply app_inj_tail in E as [E _]. by eapply IH.
  Qed.
  Lemma scientific_fun z a b : scientific z a -> scientific z b -> a = b.
  Proof.
    intros (d & r & x & xs & HD & -> & Hd & Hr & Hxs & Hlx & Hlr & E) (d' & r' & x' & xs' & HD' & -> & Hd' & Hr' & Hxs' & Hlx' & Hlr' & E').
    apply Forall_cons in HD as [HD1 HD2]. apply Forall_app in HD2 as [HD2 HD3]. apply Forall_cons in HD' as [HD1' HD2']. apply Forall_app in HD2' as [HD2' HD3'].
    assert (forall e s y, (e <> "0"%char) -> Forall (fun c => 48 <= N_of_ascii c <= 57)%N (e :: s) -> length s <= y ->
      (10 ^ N.of_nat y <= dec (e :: s) * 10 ^ N.of_nat (y - length s) < 10 ^ N.of_nat (S y))%N) as Hb.
    { intros e s y He Hs Hy. destruct (dec_bounds e s He Hs) as [B1 B2]. replace (N.of_nat y) with (N.of_nat (length s) + N.of_nat (y - length s))%N at 1 by lia.
      replace (N.of_nat (S y)) with (N.of_nat (S (length s)) + N.of_nat (y - length s))%N by lia. rewrite !N.pow_add_r.
      assert (0 < 10 ^ N.of_nat (y - length s))%N by (apply N.neq_0_lt_0, N.pow_nonzero; lia). nia. }
    assert (x = x') as <-.
    { destruct (Hb d r x) as [B1 B2]; [done|by constructor|done|]. destruct (Hb d' r' x') as [B1' B2']; [done|by constructor|done|]. rewrite <- E in *. rewrite <- E' in *.
      assert (N.of_nat x < N.of_nat (S x'))%N by (apply (N.pow_lt_mono_r_iff 10); lia). assert (N.of_nat x' < N.of_nat (S x))%N by (apply (N.pow_lt_mono_r_iff 10); lia). lia. }
    assert (xs = xs') as <- by (apply dec_inj; done || congruence).
    assert (d :: r = d' :: r') as E2; [|by injection E2 as -> ->].
    apply (ends_unique _ _ (x - length r) (x - length r')).
    - assert (forall k, Forall (fun c => 48 <= N_of_ascii c <= 57)%N (replicate k "0"%char)) as Hrep.
      { intros k. apply Forall_replicate. vm_compute. split; discriminate. }
      apply dec_inj.
      + cbn [app length]. rewrite !app_length, !replicate_length. lia.
      + apply Forall_app. split; [by constructor|done].
      + apply Forall_app. split; [by constructor|done].
      + rewrite !dec_app, !dec_zeros, !replicate_length. lia.
    - intros [|y s] E2; [change (str "0") with ["0"%char] in E2; cbn [app] in E2; congruence|]. cbn [app] in E2. apply (Hr s). congruence.
    - intros [|y s] E2; [change (str "0") with ["0"%char] in E2; cbn [app] in E2; congruence|]. cbn [app] in E2. apply (Hr' s). congruence.
  Qed.

  (** ** Values *)
  Lemma num_text_int z : (Z.abs z <= 2 ^ 53)%Z -> num_text P (itoa z) = fmt_int z.
  Proof.
    intros Hz. unfold num_text. rewrite parse_int_itoa by (unfold in_int64; apply andb_true_iff; split; [apply Z.leb_le|apply Z.ltb_lt]; lia).
    rewrite (proj2 (str_eqb_eq _ _) eq_refl). rewrite (proj2 (Z.leb_le _ _)) by done. done.
  Qed.
  Lemma fmt_small z : (Z.abs z < 1000000)%Z -> fmt_int z = itoa z.
  Proof.
    intros Hz. unfold fmt_int, fmt_nat. rewrite (proj2 (N.ltb_lt _ _)) by lia. destruct z as [|q|q]; cbn; try done.
  Qed.
  Lemma shows_ok v t : shows JE v t -> value_text P (iface JE v) = t.
  Proof.
    intros H. destruct H as [s| | |l z Hl Hz|l z t Hl Hz Ht|l|l]; try done.
    - cbn [iface]. rewrite Hl. cbn [value_text]. rewrite num_text_int by lia. by apply fmt_small.
    - cbn [iface]. rewrite Hl. cbn [value_text]. rewrite num_text_int by lia. eapply scientific_fun; [by apply fmt_large|done].
  Qed.
  Lemma iface_kind v : match v with JArr _ => exists l, iface JE v = JArr l | JObj _ => exists l, iface JE v = JObj l | _ => True end.
  Proof. destruct v; try done; by eexists. Qed.
  Lemma gathers_ok q vs ts : gathers JE q vs ts -> map (value_text P) (mjoin (map (along q) (map (iface JE) vs))) = ts.
  Proof.
    induction 1 as [|v w t vs ts Hw Ht H IH|v vs ts Hm H IH]; [done|..]; cbn [map]; rewrite mjoin_cons', map_app.
    - rewrite (along_found _ _ _ Hw). cbn [map app]. f_equal; [by apply shows_ok|exact IH].
    - rewrite (along_missing _ _ Hm). exact IH.
  Qed.
  Lemma json_map_obj l : json_map JE (JObj l) = iface JE (JObj l).
  Proof. unfold json_map. by rewrite iface_obj. Qed.
  Lemma along_map j p : p <> [] -> along p (json_map JE j) = along p (iface JE j).
  Proof.
    intros Hp. unfold json_map. destruct p as [|k p]; [done|]. destruct (iface JE j) eqn:E; try done; by rewrite !along_cons.
  Qed.
End path.
