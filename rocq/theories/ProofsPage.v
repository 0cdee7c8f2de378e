(** Proofs about the search language (C01-C05). *)
From Coq Require Import Ascii String NArith ZArith Lia.
From stdpp Require Import base gmap strings list sorting.
From Verif Require Import ModelStr ModelSort ProofsSort ProofsStr ModelLabels ModelPage SpecPage.

Local Notation semi := (";"%char : ascii).

(** ** Escaping and reading *)
Definition push (c : ascii) (l : list gostr) : list gostr :=
  match l with p :: ps => (c :: p) :: ps | [] => [[c]] end.
Definition push_all (a : gostr) (l : list gostr) : list gostr :=
  match l with p :: ps => (a ++ p) :: ps | [] => [a] end.

Fixpoint scan (s : gostr) : list gostr :=
  match s with
  | [] => [[]]
  | c :: s' =>
      if ch_eqb c semi then
        match s' with
        | [] => [[semi]]
        | d :: s'' => if ch_eqb d semi then push semi (scan s'') else [] :: scan s'
        end
      else push c (scan s')
  end.

Lemma scan_nonnil s : scan s <> [].
Proof.
  destruct s as [|c s]; simpl; [done|]. destruct (ch_eqb c semi).
  - destruct s as [|d s]; [done|]. destruct (ch_eqb d semi); [|done]. destruct (scan s); done.
  - destruct (scan s); done.
Qed.

Lemma str_ind2 (P : gostr -> Prop) :
  P [] -> (forall c, P [c]) -> (forall c d s, P s -> P (d :: s) -> P (c :: d :: s)) -> forall s, P s.
Proof.
  intros H0 H1 H2 s. assert (P s /\ forall c, P (c :: s)) as [? _]; [|done].
  induction s as [|c s [IH1 IH2]]; [auto|]. split; [auto|]. intros d. apply H2; auto.
Qed.

Lemma scan_reads s : reads s (scan s).
Proof.
  induction s as [|c|c d s IH1 IH2] using str_ind2.
  - constructor.
  - simpl. destruct (ch_eqb_spec c semi) as [->|Hn]; [apply reads_last|].
    constructor; [done|constructor].
  - cbn [scan]. fold (scan (d :: s)). destruct (ch_eqb_spec c semi) as [->|Hn].
    + destruct (ch_eqb_spec d semi) as [->|Hd].
      * destruct (scan s) as [|p ps] eqn:E; [by destruct (scan_nonnil s)|]. by apply reads_semi.
      * apply reads_sep; [done|]. cbn [scan] in IH2. rewrite (proj2 (ch_eqb_neq _ _) Hd) in IH2. exact IH2.
    + change (if ch_eqb d semi then _ else _) with (scan (d :: s)).
      destruct (scan (d :: s)) as [|p ps] eqn:E; [by destruct (scan_nonnil (d :: s))|]. by constructor.
Qed.
Lemma reads_fun s l : reads s l -> scan s = l.
Proof.
  induction 1 as [|c s p ps Hc H IH|s p ps H IH|c s ps Hc H IH|]; simpl; try done.
  - rewrite (proj2 (ch_eqb_neq _ _) Hc), IH. done.
  - by rewrite IH.
  - rewrite (proj2 (ch_eqb_neq _ _) Hc). f_equal. simpl in IH.
    by rewrite (proj2 (ch_eqb_neq _ _) Hc) in IH.
Qed.

(** Text in which separators come in pairs. *)
Inductive aligned : gostr -> Prop :=
| al_nil : aligned []
| al_lit c s : c <> semi -> aligned s -> aligned (c :: s)
| al_semi s : aligned s -> aligned (semi :: semi :: s).
Lemma aligned_app a b : aligned a -> aligned b -> aligned (a ++ b).
Proof. induction 1; simpl; auto using aligned. Qed.

Lemma trim_part_lit c s : c <> semi -> trim_part (c :: s) = c :: trim_part s.
Proof.
  intros Hc. unfold trim_part, replace_all. cbn [replace_go].
  assert (has_prefix (str ";;") (c :: s) = false) as ->; [|done].
  simpl. assert (ch_eqb semi c = false) as ->; [|done]. apply ch_eqb_neq. congruence.
Qed.
Lemma trim_part_semi s : trim_part (semi :: semi :: s) = semi :: trim_part s.
Proof. done. Qed.
Lemma trim_aligned a s : aligned a -> trim_part (a ++ s) = trim_part a ++ trim_part s.
Proof.
  induction 1 as [|c a Hc Ha IH|a Ha IH].
  - done.
  - cbn [app]. rewrite !trim_part_lit by done. by rewrite IH.
  - cbn [app]. rewrite !trim_part_semi. by rewrite IH.
Qed.

Lemma push_all_push a c l : push_all a (push c l) = push_all (a ++ [c]) l.
Proof. destruct l; simpl; [done|]. by rewrite <- app_assoc. Qed.
Lemma push_all_nil l : l <> [] -> push_all [] l = l.
Proof. by destruct l. Qed.

Lemma raw_parts_eq cur c d s :
  raw_parts cur (c :: d :: s) =
    if ch_eqb c semi then
      if ch_eqb d semi then raw_parts (d :: c :: cur) s else reverse cur :: raw_parts [] (d :: s)
    else raw_parts (c :: cur) (d :: s).
Proof. done. Qed.
Lemma scan_eq c d s :
  scan (c :: d :: s) =
    if ch_eqb c semi then if ch_eqb d semi then push semi (scan s) else [] :: scan (d :: s)
    else push c (scan (d :: s)).
Proof. done. Qed.

Lemma raw_parts_scan s : forall cur, aligned (reverse cur) ->
  map trim_part (raw_parts cur s) = push_all (trim_part (reverse cur)) (scan s).
Proof.
  induction s as [|c|c d s IH1 IH2] using str_ind2; intros cur Hal.
  - simpl. by rewrite app_nil_r.
  - simpl. rewrite reverse_cons, trim_aligned by done.
    destruct (ch_eqb_spec c semi) as [->|Hc]; [done|]. rewrite trim_part_lit by done. done.
  - rewrite raw_parts_eq, scan_eq. destruct (ch_eqb_spec c semi) as [->|Hc].
    + destruct (ch_eqb_spec d semi) as [->|Hd].
      * rewrite IH1.
        -- rewrite !reverse_cons, <- app_assoc. cbn [app].
           rewrite trim_aligned by done. rewrite trim_part_semi. by rewrite push_all_push.
        -- rewrite !reverse_cons, <- app_assoc. apply aligned_app; [done|]. apply al_semi, al_nil.
      * cbn [map]. rewrite IH2 by constructor. cbn [push_all].
        rewrite app_nil_r. f_equal. apply push_all_nil, scan_nonnil.
    + rewrite IH2.
      * rewrite reverse_cons, trim_aligned by done.
        rewrite trim_part_lit by done. by rewrite push_all_push.
      * rewrite reverse_cons. apply aligned_app; [done|]. apply al_lit; [done|apply al_nil].
Qed.

Lemma search_parts_scan s :
  search_parts s = List.filter (fun p => negb (str_eqb p [])) (scan s).
Proof.
  unfold search_parts. rewrite raw_parts_scan by constructor. f_equal.
  apply push_all_nil, scan_nonnil.
Qed.

Lemma C02_proof s raw :
  reads s raw -> search_parts s = base.filter (fun p => p <> []) raw.
Proof.
  intros H. rewrite search_parts_scan, (reads_fun _ _ H). clear H.
  induction raw as [|p ps IH]; [done|]. rewrite filter_cons. cbn [List.filter].
  destruct p as [|c p]; cbn [str_eqb negb].
  - rewrite decide_False by (intros H; by apply H). done.
  - rewrite decide_True by done. by rewrite IH.
Qed.
Lemma reads_total s : exists raw, reads s raw.
Proof. eexists. apply scan_reads. Qed.
Lemma reads_unique s a b : reads s a -> reads s b -> a = b.
Proof. intros H1%reads_fun H2%reads_fun. congruence. Qed.

(** ** Writing *)
Fixpoint esc (p : gostr) : gostr :=
  match p with [] => [] | c :: p' => (if ch_eqb c semi then [semi; semi] else [c]) ++ esc p' end.
Lemma esc_replace p : replace_all p (str ";") (str ";;") = esc p.
Proof.
  unfold replace_all. induction p as [|c p IH]; [done|]. cbn [replace_go esc].
  assert (has_prefix (str ";") (c :: p) = ch_eqb semi c) as ->.
  { change (ch_eqb semi c && has_prefix [] p = ch_eqb semi c). by rewrite has_prefix_nil, andb_true_r. }
  destruct (ch_eqb_spec c semi) as [->|Hc].
  - rewrite ch_eqb_refl. change (Nat.pred (length (str ";"))) with 0. by rewrite IH.
  - assert (ch_eqb semi c = false) as ->; [apply ch_eqb_neq; congruence|]. by rewrite IH.
Qed.
Lemma join_parts_esc ps : join_parts ps = join [semi] (map esc ps).
Proof.
  unfold join_parts. f_equal. apply map_ext. intros. apply esc_replace.
Qed.
Lemma scan_esc p s : scan (esc p ++ s) = push_all p (scan s).
Proof.
  induction p as [|c p IH]; simpl.
  - symmetry. apply push_all_nil, scan_nonnil.
  - destruct (ch_eqb_spec c semi) as [->|Hc]; simpl.
    + rewrite IH. pose proof (scan_nonnil s). destruct (scan s); done.
    + rewrite (proj2 (ch_eqb_neq _ _) Hc), IH. destruct (scan s); done.
Qed.
Lemma scan_sep p c s : c <> semi -> scan (esc p ++ semi :: c :: s) = p :: scan (c :: s).
Proof.
  intros Hc. rewrite scan_esc. simpl. rewrite (proj2 (ch_eqb_neq _ _) Hc). simpl.
  by rewrite app_nil_r.
Qed.

Definition semi_headed (p : gostr) : Prop := exists r, p = semi :: r.
Lemma esc_nil p : esc p = [] <-> p = [].
Proof. destruct p as [|c p]; simpl; [done|]. destruct (ch_eqb c semi); done. Qed.

Lemma scan_join p ps :
  Forall (fun q => q <> [] /\ ~ semi_headed q) ps -> scan (join [semi] (map esc (p :: ps))) = p :: ps.
Proof.
  revert p. induction ps as [|q ps IH]; intros p HF.
  - cbn [map join]. rewrite <- (app_nil_r (esc p)), scan_esc. simpl. by rewrite app_nil_r.
  - inversion HF as [|? ? [Hq1 Hq2] HF']; subst. cbn [map]. rewrite join_cons_cons.
    pose proof (IH q HF') as IH'. cbn [map] in IH'.
    destruct q as [|c q]; [done|].
    assert (c <> semi) as Hc. { intros ->. apply Hq2. by exists q. }
    destruct (join [semi] (esc (c :: q) :: map esc ps)) as [|d s] eqn:E.
    + by rewrite <- E in IH'; rewrite E in IH'.
    + assert (d = c) as ->.
      { simpl in E. rewrite (proj2 (ch_eqb_neq _ _) Hc) in E. simpl in E. destruct (map esc ps); by simplify_eq/=. }
      cbn [app]. rewrite scan_sep by done. by rewrite IH'.
Qed.

Lemma filter_nonempty ps : Forall (fun p => p <> []) ps ->
  List.filter (fun p => negb (str_eqb p [])) ps = ps.
Proof. induction 1 as [|p ps Hp HF IH]; [done|]. simpl. destruct p; [done|]. simpl. by rewrite IH. Qed.
Lemma filter_nonempty_all ps :
  Forall (fun p => p <> []) (List.filter (fun p => negb (str_eqb p [])) ps).
Proof. induction ps as [|p ps IH]; simpl; [done|]. destruct p; simpl; [done|]. by constructor. Qed.

Lemma roundtrip ps :
  Forall (fun p => p <> []) ps -> Forall (fun q => ~ semi_headed q) (tail ps) ->
  search_parts (join_parts ps) = ps.
Proof.
  intros H1 H2. rewrite search_parts_scan, join_parts_esc.
  destruct ps as [|p ps]; [done|]. rewrite scan_join.
  - by apply filter_nonempty.
  - simpl in H2. inversion H1; subst. rewrite Forall_forall in *. intros q Hq. split; [|by apply H2].
    apply H4. done.
Qed.

Lemma roundtrip_bad p ps :
  Forall (fun q => q <> []) (p :: ps) ->
  List.filter (fun q => negb (str_eqb q [])) (scan (join [semi] (map esc (p :: ps)))) = p :: ps ->
  Forall (fun q => ~ semi_headed q) ps.
Proof.
  revert p. induction ps as [|q ps IH]; intros p HF; [constructor|].
  cbn [map]. rewrite join_cons_cons. inversion HF as [|? ? Hp HF']; subst.
  inversion HF' as [|? ? Hq HF'']; subst.
  destruct q as [|c q]; [done|]. destruct (ch_eqb_spec c semi) as [->|Hc].
  - intros H. exfalso. rewrite scan_esc in H.
    assert (exists t l, scan ([semi] ++ join [semi] (esc (semi :: q) :: map esc ps)) = (semi :: t) :: l)
      as (t & l & E).
    { cbn [esc]. rewrite ch_eqb_refl.
      assert (exists r, join [semi] (([semi; semi] ++ esc q) :: map esc ps) = [semi; semi] ++ r) as [r ->].
      { destruct (map esc ps); [by eexists|]. rewrite join_cons_cons. by eexists. }
      cbn [app scan]. rewrite !ch_eqb_refl.
      match goal with |- context [push _ ?x] => destruct x end; simpl; eauto. }
    rewrite E in H. simpl in H. destruct p; [done|]. simpl in H.
    injection H as Hl Hr. assert (length (p ++ semi :: t) = length p) by congruence.
    rewrite app_length in *. simpl in *. lia.
  - assert (exists r, join [semi] (map esc ((c :: q) :: ps)) = c :: r) as [r E].
    { cbn [map esc]. rewrite (proj2 (ch_eqb_neq _ _) Hc).
      destruct (map esc ps); [by eexists|]. rewrite join_cons_cons. by eexists. }
    cbn [map] in E. rewrite E. cbn [app]. rewrite scan_sep by done. rewrite <- E.
    destruct p; [done|]. cbn [List.filter]. simpl negb. intros H. injection H as H.
    constructor.
    + intros [r' Hr']. by injection Hr'.
    + by eapply IH.
Qed.

Lemma C01_proof ps :
  search_parts (join_parts ps) = ps <->
  Forall (fun p => p <> []) ps /\ Forall (fun q => ~ semi_headed q) (tail ps).
Proof.
  split; [|intros [??]; by apply roundtrip].
  intros H. assert (Forall (fun p => p <> []) ps) as HF.
  { rewrite <- H. apply filter_nonempty_all. }
  split; [done|]. destruct ps as [|p ps]; [constructor|]. apply (roundtrip_bad p); [done|].
  by rewrite search_parts_scan, join_parts_esc in H.
Qed.

(** ** Conjunction (C03) *)
Section conj.
  Context (uprint : N -> bool).
  Lemma match_loop_spec m n parts :
    match_loop uprint m n parts =
      if existsb (fun p => match match_one uprint m p with None => true | _ => false end) parts then None
      else Some (n + length (List.filter (fun p => match match_one uprint m p with Some true => true | _ => false end) parts)).
  Proof.
    revert n. induction parts as [|p ps IH]; intros n; simpl; [by rewrite Nat.add_0_r|].
    destruct (match_one uprint m p) as [[]|]; simpl; [| |done]; rewrite IH; destruct (existsb _ ps); try done.
    f_equal. simpl. lia.
  Qed.
  Lemma filter_len_all {A} (f : A -> bool) l : length (List.filter f l) <= length l.
  Proof. induction l as [|x l IH]; simpl; [done|]. destruct (f x); simpl; lia. Qed.
  Lemma filter_len_eq {A} (f : A -> bool) l :
    length (List.filter f l) = length l <-> Forall (fun x => f x = true) l.
  Proof.
    induction l as [|x l IH]; simpl; [done|].
    pose proof (filter_len_all f l). rewrite Forall_cons. destruct (f x); simpl; [|split; [lia|naive_solver]].
    rewrite <- IH. naive_solver lia.
  Qed.
  Lemma match_parts_true m parts :
    match_parts uprint m parts = Some true <-> Forall (fun p => match_one uprint m p = Some true) parts.
  Proof.
    assert (match match_loop uprint m 0 parts with None => None | Some n => Some (Nat.eqb n (length parts)) end = Some true
      <-> Forall (fun p => match_one uprint m p = Some true) parts) as Hgen.
    { rewrite match_loop_spec. destruct (existsb _ parts) eqn:E.
      - split; [done|]. rewrite existsb_exists in E. destruct E as (p & Hp%elem_of_list_In & E).
        intros HF. rewrite Forall_forall in HF. by rewrite (HF p Hp) in E.
      - simpl. split.
        + intros [= H%Nat.eqb_eq%filter_len_eq]. eapply Forall_impl; [done|]. simpl. intros x.
          by destruct (match_one uprint m x) as [[]|].
        + intros HF. f_equal. apply Nat.eqb_eq, filter_len_eq.
          eapply Forall_impl; [done|]. simpl. by intros x ->. }
    destruct parts as [|p [|q ps]]; [exact Hgen| |exact Hgen]. simpl.
    by rewrite Forall_singleton.
  Qed.
  Lemma match_parts_err m parts :
    match_parts uprint m parts = None <-> Exists (fun p => match_one uprint m p = None) parts.
  Proof.
    assert (match match_loop uprint m 0 parts with None => None | Some n => Some (Nat.eqb n (length parts)) end = None
      <-> Exists (fun p => match_one uprint m p = None) parts) as Hgen.
    { rewrite match_loop_spec, Exists_exists. destruct (existsb _ parts) eqn:E.
      - split; [|done]. intros _. rewrite existsb_exists in E. destruct E as (p & Hp%elem_of_list_In & E).
        exists p. split; [done|]. by destruct (match_one uprint m p).
      - split; [done|]. intros (p & Hp & H). assert (existsb
          (fun p => match match_one uprint m p with Some _ => false | None => true end) parts = true); [|congruence].
        apply existsb_exists. exists p. split; [by apply elem_of_list_In|]. by rewrite H. }
    destruct parts as [|p [|q ps]]; [exact Hgen| |exact Hgen]. simpl.
    rewrite Exists_cons, Exists_nil. naive_solver.
  Qed.
End conj.

(** ** Trimming *)
Lemma space_heads c s : visible c -> Forall (fun p => has_prefix p (c :: s) = false) spaces.
Proof.
  intros [H1 H2]. unfold spaces. cbn [map].
  repeat apply Forall_cons_2; try apply Forall_nil_2; cbn [has_prefix];
    match goal with |- ch_eqb (byte ?n) c && _ = false =>
      assert (ch_eqb (byte n) c = false) as ->; [|done];
      apply ch_eqb_neq; intros <-; rewrite code_byte in H1, H2 by lia; lia end.
Qed.
Lemma space_lasts c s : visible c -> Forall (fun p => has_prefix p (c :: s) = false) (map reverse spaces).
Proof.
  intros [H1 H2]. let x := eval vm_compute in (map reverse spaces) in
    let y := eval vm_compute in (map (map code) (map reverse spaces)) in
    change (map reverse spaces) with x; assert (x = map (map byte) y) as -> by (vm_compute; reflexivity).
  cbn [map].
  repeat apply Forall_cons_2; try apply Forall_nil_2; cbn [has_prefix];
    match goal with |- ch_eqb (byte ?n) c && _ = false =>
      assert (ch_eqb (byte n) c = false) as ->; [|done];
      apply ch_eqb_neq; intros <-; rewrite code_byte in H1, H2 by lia; lia end.
Qed.
Lemma trim_tight s : tight s -> trim_space s = s.
Proof.
  intros [(c & r & -> & Hc) (d & r' & E & Hd)]. unfold trim_space.
  assert (trim_left (c :: r) = c :: r) as ->.
  { apply trim_front_fix, strip_len_none, space_heads, Hc. }
  unfold trim_right. rewrite E, reverse_app. simpl.
  rewrite trim_front_fix.
  - change (d :: reverse r') with (reverse [d] ++ reverse r'). by rewrite <- reverse_app, reverse_involutive.
  - apply strip_len_none, space_lasts, Hd.
Qed.

(** ** Key and fuzzy search (C04) *)
Section fuzzy.
  Context (uprint : N -> bool).
  Lemma match_one_key m vals part key value :
    trim_space part = key ++ str "=" ++ value -> key <> [] -> "="%char ∉ key ->
    has_prefix adv_prefix (trim_space part) = false ->
    match_one_from uprint m vals part =
      match m !! key with
      | None => None
      | Some w => Some (xorb (snd (parse_value value)) (contains (quote uprint w) (fst (parse_value value))))
      end.
  Proof.
    intros E Hk He Ha. unfold match_one_from. cbv zeta. rewrite Ha. rewrite E.
    assert (str_eqb (key ++ str "=" ++ value) [] = false) as ->. { by destruct key. }
    change (str "=") with ["="%char]. cbn [app]. rewrite index_of_char by done.
    rewrite take_app, drop_app_ge by lia.
    replace (S (length key) - length key) with 1 by lia. simpl drop. rewrite drop_0.
    destruct (parse_value value) as [x rv]. destruct key; [done|]. done.
  Qed.
  Lemma match_one_fuzzy m vals part value :
    trim_space part <> [] ->
    (trim_space part = value /\ "="%char ∉ value \/ trim_space part = str "=" ++ value) ->
    has_prefix adv_prefix (trim_space part) = false ->
    match_one_from uprint m vals part =
      Some (fuzzy uprint (fst (parse_value value)) (snd (parse_value value)) vals).
  Proof.
    intros Hne E Ha. unfold match_one_from. cbv zeta. rewrite Ha.
    assert (str_eqb (trim_space part) [] = false) as ->. { by apply str_eqb_neq. }
    destruct E as [[E Hn]|E]; rewrite E.
    - change (str "=") with ["="%char]. rewrite (proj2 (index_of_char_none _ _)) by done. destruct (parse_value value). done.
    - change (str "=" ++ value) with (["="%char] ++ value). change (str "=") with ["="%char].
      assert (index_of ["="%char] (["="%char] ++ value) = Some 0) as ->.
      { apply (index_of_char "="%char [] value). set_solver. }
      cbn [length take app drop]. rewrite drop_0. destruct (parse_value value). done.
  Qed.
  Lemma fuzzy_spec value vs :
    (fuzzy uprint value false vs = true <-> Exists (fun v => occurs value (quote uprint v)) vs) /\
    (fuzzy uprint value true vs = true <-> Forall (fun v => ~ occurs value (quote uprint v)) vs).
  Proof.
    induction vs as [|v vs [IH1 IH2]]; simpl; [by rewrite Exists_nil|].
    destruct (contains (quote uprint v) value) eqn:E.
    - apply contains_true in E. rewrite Exists_cons, Forall_cons. unfold occurs. naive_solver.
    - assert (~ occurs value (quote uprint v)) as Hn.
      { intros H. apply contains_true in H. congruence. }
      rewrite Exists_cons, Forall_cons. naive_solver.
  Qed.
  Lemma parse_value_cases q :
    (exists x, q = "!"%char :: x /\ parse_value q = (x, true)) \/
    (parse_value q = (q, false) /\ forall x, q <> "!"%char :: x).
  Proof.
    destruct q as [|c q]; [by right|]. simpl. destruct (ch_eqb_spec c "!"%char) as [->|H]; [left; eauto|].
    right. split; [done|]. naive_solver.
  Qed.
  Lemma wants_bool q w : wants uprint q w <->
    xorb (snd (parse_value q)) (contains (quote uprint w) (fst (parse_value q))) = true.
  Proof.
    destruct (parse_value_cases q) as [(x & -> & ->)|[-> Hn]].
    - simpl. unfold occurs. rewrite <- contains_true. destruct (contains _ _); simpl; naive_solver.
    - transitivity (occurs q (quote uprint w)).
      + unfold wants. destruct q as [|c q]; [done|]. destruct (ascii_dec c "!"%char) as [->|Hc]; [naive_solver|].
        destruct c as [[] [] [] [] [] [] [] []]; done.
      + simpl. unfold occurs. rewrite <- contains_true. by destruct (contains _ _).
  Qed.
  Lemma wants_any_cases q m :
    (exists x, q = "!"%char :: x /\ parse_value q = (x, true) /\
       (wants_any uprint q m <-> forall k w, m !! k = Some w -> ~ occurs x (quote uprint w))) \/
    (parse_value q = (q, false) /\
       (wants_any uprint q m <-> exists k w, m !! k = Some w /\ occurs q (quote uprint w))).
  Proof.
    destruct (parse_value_cases q) as [(x & -> & E)|[E Hn]]; [left; eauto|]. right. split; [done|].
    unfold wants_any. destruct q as [|c q]; [done|].
    destruct (ascii_dec c "!"%char) as [->|Hc]; [naive_solver|].
    destruct c as [[] [] [] [] [] [] [] []]; done.
  Qed.
  Lemma C04_key_proof m vals part key value :
    trim_space part = key ++ str "=" ++ value -> key <> [] -> "="%char ∉ key ->
    has_prefix adv_prefix (trim_space part) = false ->
    match m !! key with
    | None => match_one_from uprint m vals part = None
    | Some w => exists b, match_one_from uprint m vals part = Some b /\ (b = true <-> wants uprint value w)
    end.
  Proof.
    intros E Hk He Ha. rewrite (match_one_key m vals part key value) by done.
    destruct (m !! key) as [w|]; [|done]. eexists. split; [done|]. by rewrite wants_bool.
  Qed.
  Lemma C04_fuzzy_proof m vals part value :
    vals ≡ₚ map snd (map_to_list m) ->
    trim_space part <> [] ->
    (trim_space part = value /\ "="%char ∉ value \/ trim_space part = str "=" ++ value) ->
    has_prefix adv_prefix (trim_space part) = false ->
    exists b, match_one_from uprint m vals part = Some b /\ (b = true <-> wants_any uprint value m).
  Proof.
    intros Hp Hne E Ha. rewrite (match_one_fuzzy m vals part value) by done.
    eexists. split; [done|].
    assert (forall v, v ∈ vals <-> exists k, m !! k = Some v) as Hv.
    { intros v. rewrite Hp, elem_of_list_fmap. split.
      - intros ([k w] & -> & H%elem_of_map_to_list). eauto.
      - intros [k H]. exists (k, v). by rewrite elem_of_map_to_list. }
    destruct (wants_any_cases value m) as [(x & -> & -> & ->)|[-> ->]]; cbn [fst snd].
    - rewrite (proj2 (fuzzy_spec x vals)), Forall_forall. setoid_rewrite Hv. naive_solver.
    - rewrite (proj1 (fuzzy_spec value vals)), Exists_exists. setoid_rewrite Hv. naive_solver.
  Qed.
End fuzzy.
