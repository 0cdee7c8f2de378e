(** C01-C05: the search language. *)
From Coq Require Import Ascii String NArith ZArith Lia.
From stdpp Require Import base gmap strings list sorting.
From Verif Require Import ModelStr ModelSort ProofsSort ProofsStr ModelLabels ModelPage SpecPage ProofsPage ProofsQuote.

Local Notation semi := (";"%char : ascii).

(** C01: writing parts and reading them back is the identity exactly when every part is non-empty
    and no part but the first starts with ';'. *)
Theorem C01_search_parts_roundtrip (ps : list gostr) :
  search_parts (join_parts ps) = ps <->
  (forall p, p ∈ ps -> p <> []) /\ (forall p r, p ∈ tail ps -> p <> semi :: r).
Proof.
  rewrite C01_proof, !Forall_forall. unfold semi_headed. split.
  - intros [H1 H2]. split; [exact H1|]. intros p r Hp ->. eapply H2; [done|]. by eexists.
  - intros [H1 H2]. split; [exact H1|]. intros p Hp [r ->]. by eapply H2.
Qed.
Print Assumptions C01_search_parts_roundtrip.
Example C01_ex_good : search_parts (join_parts [str ";a=1;"; str "b;;"; str "c"]) = [str ";a=1;"; str "b;;"; str "c"].
Proof. apply C01_search_parts_roundtrip. split; [|intros p r]; cbn [tail]; repeat setoid_rewrite elem_of_cons; setoid_rewrite elem_of_nil; naive_solver. Qed.
Theorem C01_roundtrip_refuted : exists ps, search_parts (join_parts ps) <> ps /\ (forall p, p ∈ ps -> p <> []).
Proof.
  exists [str "a"; str ";b"]. split; [by vm_compute|].
  intros p. rewrite !elem_of_cons, elem_of_nil. naive_solver.
Qed.
Example C01_ex_bad : search_parts (join_parts [str "a"; str ";b"]) = [str "a;"; str "b"].
Proof. reflexivity. Qed.

(** C02: every search string has exactly one reading in the grammar, and its non-empty parts are
    the parts the code finds. *)
Theorem C02_search_grammar (s : gostr) :
  exists raw, reads s raw /\ (forall raw', reads s raw' -> raw' = raw) /\
              search_parts s = base.filter (fun p => p <> []) raw.
Proof.
  destruct (reads_total s) as [raw H]. exists raw. split; [done|]. split.
  - intros raw' H'. by eapply reads_unique.
  - by apply C02_proof.
Qed.
Print Assumptions C02_search_grammar.
Example C02_ex : search_parts (str "a=1;;2;;;b;;c;") = [str "a=1;2;"; str "b;c;"].
Proof. reflexivity. Qed.
(** The exception is real: the last single ';' stays in the text. *)
Theorem C02_trailing_separator_kept_refuted : exists s, search_parts (s ++ [semi]) <> search_parts s.
Proof. exists (str "a"). by vm_compute. Qed.

(** C03: conjunction.  A part "taken alone" is the search consisting of this one part. *)
Lemma match_alone (uprint : N -> bool) m p : p <> [] -> paginate_match uprint (join_parts [p]) m = match_one uprint m p.
Proof.
  intros Hp. unfold paginate_match. rewrite roundtrip; [done| |constructor]. by repeat constructor.
Qed.
Lemma search_parts_nonempty s p : p ∈ search_parts s -> p <> [].
Proof.
  rewrite search_parts_scan. intros Hp. pose proof (filter_nonempty_all (scan s)) as H.
  rewrite Forall_forall in H. by apply H.
Qed.
Theorem C03_conjunction (uprint : N -> bool) (s : gostr) (m : gmap gostr gostr) :
  (paginate_match uprint s m = Some true <->
     forall p, p ∈ search_parts s -> paginate_match uprint (join_parts [p]) m = Some true) /\
  (paginate_match uprint s m = None <->
     exists p, p ∈ search_parts s /\ paginate_match uprint (join_parts [p]) m = None) /\
  (search_parts s = [] -> paginate_match uprint s m = Some true).
Proof.
  unfold paginate_match at 1 3. rewrite match_parts_true, match_parts_err, Forall_forall, Exists_exists.
  split; [|split].
  - split; intros H p Hp; specialize (H p Hp); pose proof (search_parts_nonempty _ _ Hp);
      [rewrite match_alone by done|rewrite match_alone in H by done]; exact H.
  - split; intros (p & Hp & H); exists p; (split; [done|]); pose proof (search_parts_nonempty _ _ Hp);
      [rewrite match_alone by done|rewrite match_alone in H by done]; exact H.
  - unfold paginate_match. by intros ->.
Qed.
Print Assumptions C03_conjunction.
(** The result does not depend on the order of the parts. *)
Theorem C03_order_irrelevant (uprint : N -> bool) m (ps qs : list gostr) :
  ps ≡ₚ qs -> match_parts uprint m ps = match_parts uprint m qs.
Proof.
  intros HP.
  assert (match_parts uprint m ps = Some true <-> match_parts uprint m qs = Some true) as H1.
  { rewrite !match_parts_true. by rewrite HP. }
  assert (match_parts uprint m ps = None <-> match_parts uprint m qs = None) as H2.
  { rewrite !match_parts_err, !Exists_exists. by setoid_rewrite HP. }
  destruct (match_parts uprint m ps) as [[]|], (match_parts uprint m qs) as [[]|]; naive_solver.
Qed.
Definition ex_index : gmap gostr gostr :=
  <[str "name" := str "nginx-1"]> (<[str "namespace" := str "kube-system"]> {[str "cluster" := str "c1"]}).
Example C03_ex : paginate_match (fun _ => true) (str "name=nginx;namespace=!default;c1") ex_index = Some true /\
  paginate_match (fun _ => true) (str "name=nginx;nosuch=1;name=zzz") ex_index = None /\
  paginate_match (fun _ => true) (str "name=nginx;name=zzz") ex_index = Some false.
Proof. by vm_compute. Qed.

(** C04: a part key=value (white space around it ignored). *)
Theorem C04_key_search (uprint : N -> bool) (m : gmap gostr gostr) vals (part key value : gostr) :
  vals ≡ₚ map snd (map_to_list m) ->
  trim_space part = key ++ str "=" ++ value -> key <> [] -> "="%char ∉ key ->
  (forall sel, trim_space part <> adv_prefix ++ sel) ->
  match m !! key with
  | None => match_one_from uprint m vals part = None
  | Some w => exists b, match_one_from uprint m vals part = Some b /\ (b = true <-> wants uprint value w)
  end.
Proof.
  intros _ H1 H2 H3 H4. apply (C04_key_proof uprint m vals part key value); try done.
  destruct (has_prefix adv_prefix (trim_space part)) eqn:E; [|done].
  apply has_prefix_true in E as [r E]. by destruct (H4 r).
Qed.
(** ... and a part without key: text without '=', or starting with '='. *)
Theorem C04_fuzzy_search (uprint : N -> bool) (m : gmap gostr gostr) vals (part value : gostr) :
  vals ≡ₚ map snd (map_to_list m) ->
  trim_space part <> [] ->
  (trim_space part = value /\ "="%char ∉ value \/ trim_space part = str "=" ++ value) ->
  (forall sel, trim_space part <> adv_prefix ++ sel) ->
  exists b, match_one_from uprint m vals part = Some b /\ (b = true <-> wants_any uprint value m).
Proof.
  intros H0 H1 H2 H3. apply C04_fuzzy_proof; try done.
  destruct (has_prefix adv_prefix (trim_space part)) eqn:E; [|done].
  apply has_prefix_true in E as [r E]. by destruct (H3 r).
Qed.
Lemma wants_any_neg (uprint : N -> bool) x m : (forall y, x <> "!"%char :: y) ->
  wants_any uprint ("!"%char :: x) m <-> ~ wants_any uprint x m.
Proof.
  intros Hx. destruct (wants_any_cases uprint x m) as [(y & -> & _)|[_ ->]]; [by destruct (Hx y)|].
  simpl. naive_solver.
Qed.
Lemma wants_neg (uprint : N -> bool) x w : (forall y, x <> "!"%char :: y) ->
  wants uprint ("!"%char :: x) w <-> ~ wants uprint x w.
Proof.
  intros Hx. rewrite (wants_bool _ x). destruct (parse_value_cases x) as [(y & -> & _)|[-> _]]; [by destruct (Hx y)|].
  simpl. unfold occurs. rewrite <- contains_true. by destruct (contains _ _).
Qed.
(** A leading '!' on the value is exactly the complement and keeps errors. *)
Theorem C04_negation (uprint : N -> bool) (m : gmap gostr gostr) vals (p q key x : gostr) :
  vals ≡ₚ map snd (map_to_list m) -> (forall y, x <> "!"%char :: y) -> "="%char ∉ key ->
  (trim_space p = key ++ str "=" ++ x /\ trim_space q = key ++ str "=!" ++ x /\ key <> [] \/
   trim_space p = x /\ trim_space q = str "!" ++ x /\ x <> [] /\ "="%char ∉ x) ->
  (forall sel, trim_space p <> adv_prefix ++ sel) -> (forall sel, trim_space q <> adv_prefix ++ sel) ->
  match_one_from uprint m vals q = option_map negb (match_one_from uprint m vals p).
Proof.
  intros Hv Hx He [(Hp & Hq & Hk)|(Hp & Hq & Hk & Hex)] Hap Haq.
  - pose proof (C04_key_search uprint m vals p key x Hv Hp Hk He Hap) as Rp.
    assert (trim_space q = key ++ str "=" ++ "!"%char :: x) as Hq' by (by rewrite Hq).
    pose proof (C04_key_search uprint m vals q key _ Hv Hq' Hk He Haq) as Rq.
    destruct (m !! key) as [w|]; [|by rewrite Rp, Rq].
    destruct Rp as (b & -> & Hb), Rq as (b' & -> & Hb'). rewrite wants_neg in Hb' by done.
    simpl. f_equal. destruct b, b'; naive_solver.
  - destruct (C04_fuzzy_search uprint m vals p x) as (b & -> & Hb); auto; [congruence|].
    destruct (C04_fuzzy_search uprint m vals q ("!"%char :: x)) as (b' & -> & Hb'); auto.
    + by rewrite Hq.
    + left. split; [done|]. set_solver.
    + rewrite wants_any_neg in Hb' by done. simpl. f_equal. destruct b, b'; naive_solver.
Qed.
Print Assumptions C04_key_search.
Print Assumptions C04_fuzzy_search.
Print Assumptions C04_negation.
Example C04_ex : match_one (fun _ => true) ex_index (str " name=ginx ") = Some true /\
  match_one (fun _ => true) ex_index (str "name=!ginx") = Some false /\
  match_one (fun _ => true) ex_index (str "!system") = Some false /\
  match_one (fun _ => true) ex_index (str "!nowhere") = Some true /\
  match_one (fun _ => true) ex_index (str "nokey=x") = None.
Proof. by vm_compute. Qed.
Example C04_ex_hyp : trim_space (str " name=ginx ") = str "name" ++ str "=" ++ str "ginx".
Proof. reflexivity. Qed.

(** C05: a search key="x", written with the package's own writer. *)
Definition quoted (x : gostr) : gostr := dquote :: x ++ [dquote].
Theorem C05_exact_match (uprint : N -> bool) (m : gmap gostr gostr) (key x v : gostr) :
  key <> [] -> "="%char ∉ key -> (exists c r, key = c :: r /\ visible c) ->
  (forall sel, key ++ str "=" ++ quoted x <> adv_prefix ++ sel) ->
  Forall plain x -> m !! key = Some v ->
  exists b, paginate_match uprint (join_parts [key ++ str "=" ++ quoted x]) m = Some b /\
            (b = true <-> v = x \/ exists u, v = u ++ dquote :: x).
Proof.
  intros Hk He (c & r & -> & Hc) Ha Hx Hm. rewrite match_alone by done.
  assert (trim_space ((c :: r) ++ str "=" ++ quoted x) = (c :: r) ++ str "=" ++ quoted x) as Ht.
  { apply trim_tight. split; [by eexists _, _|]. exists dquote, ((c :: r) ++ str "=" ++ dquote :: x). split.
    - unfold quoted. rewrite <- !app_assoc. done.
    - by vm_compute. }
  pose proof (C04_key_search uprint m _ _ _ _ (reflexivity (map snd (map_to_list m))) Ht Hk He) as H.
  rewrite Hm in H. destruct H as (b & Hb & H); [by rewrite Ht|].
  exists b. split; [exact Hb|]. rewrite H. apply (quote_exact uprint x v Hx).
Qed.
Print Assumptions C05_exact_match.
(** Without double quotes in the value the match is exact. *)
Corollary C05_exact_without_quotes (uprint : N -> bool) (m : gmap gostr gostr) (key x v : gostr) :
  key <> [] -> "="%char ∉ key -> (exists c r, key = c :: r /\ visible c) ->
  (forall sel, key ++ str "=" ++ quoted x <> adv_prefix ++ sel) ->
  Forall plain x -> m !! key = Some v -> dquote ∉ v ->
  exists b, paginate_match uprint (join_parts [key ++ str "=" ++ quoted x]) m = Some b /\ (b = true <-> v = x).
Proof.
  intros H1 H2 H3 H4 H5 H6 Hd.
  destruct (C05_exact_match uprint m key x v H1 H2 H3 H4 H5 H6) as (b & Hb & H).
  exists b. split; [done|]. rewrite H. split; [|by left]. intros [?|[u ->]]; [done|]. set_solver.
Qed.
Theorem C05_exact_refuted : exists (m : gmap gostr gostr) key x v,
  m !! key = Some v /\ v <> x /\ Forall plain x /\
  paginate_match (fun _ => true) (join_parts [key ++ str "=" ++ quoted x]) m = Some true.
Proof.
  exists {[str "k" := str "a" ++ dquote :: str "b"]}, (str "k"), (str "b"), (str "a" ++ dquote :: str "b").
  split; [done|]. split; [done|]. split; [|by vm_compute]. by repeat constructor.
Qed.
Example C05_ex : paginate_match (fun _ => true) (join_parts [str "name" ++ str "=" ++ quoted (str "nginx-1")]) ex_index = Some true /\
  paginate_match (fun _ => true) (join_parts [str "name" ++ str "=" ++ quoted (str "nginx")]) ex_index = Some false.
Proof. by vm_compute. Qed.
