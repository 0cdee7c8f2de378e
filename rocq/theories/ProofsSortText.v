(** The sort syntax. *)
From Coq Require Import Ascii String NArith ZArith Lia.
From stdpp Require Import base gmap strings list sorting.
From Verif Require Import ModelStr ModelSort ProofsSort ProofsStr ModelLabels ModelPage SpecPage ProofsPage ModelJson
  ModelStore SpecStore ProofsStore ProofsQueryStore ProofsIndex.

Lemma trim_space_tight s : tight s -> trim_space (" "%char :: s) = s.
Proof.
  intros Ht. pose proof Ht as [(c & r & -> & Hc) _]. unfold trim_space.
  assert (trim_left (" "%char :: c :: r) = trim_left (c :: r)) as ->.
  { unfold trim_left. assert (forall n, trim_front spaces (S n) (" "%char :: c :: r) = trim_front spaces n (c :: r)) as H by reflexivity.
    exact (H (length (c :: r))). }
  exact (trim_tight _ Ht).
Qed.
Lemma plain_key_nin k c : plain_key k -> (code c <= 33)%N \/ c = ","%char -> c ∉ k.
Proof. intros [_ HF] Hc Hin. rewrite Forall_forall in HF. destruct (HF c Hin) as [H1 H2]. destruct Hc; [lia|done]. Qed.
Lemma plain_key_head k : plain_key k -> exists c r, k = c :: r /\ visible c.
Proof.
  intros [Hne HF]. destruct k as [|c r]; [done|]. exists c, r. split; [done|]. apply Forall_cons_1 in HF as [[H _] _].
  unfold visible. lia.
Qed.
Lemma sort_item_tight s : plain_key (is_key s) -> tight (sort_item s).
Proof.
  intros Hk. destruct (plain_key_head _ Hk) as (c & r & Hc & Hv). unfold sort_item. split.
  - rewrite Hc. by eexists c, _.
  - destruct (is_rev s).
    + exists "c"%char. eexists (is_key s ++ str (if is_int s then "!int" else "!str") ++ str " des").
      split; [by rewrite <- !app_assoc|]. by vm_compute.
    + exists "c"%char. eexists (is_key s ++ str (if is_int s then "!int" else "!str") ++ str " as").
      split; [by rewrite <- !app_assoc|]. by vm_compute.
Qed.
Lemma contains_char c a b : contains (a ++ c :: b) [c] = true.
Proof. apply contains_true. by exists a, b. Qed.
Lemma sort_part_item i s p : plain_key (is_key s) -> p = sort_item s \/ p = " "%char :: sort_item s ->
  sort_part i p = match i !! is_key s with Some _ => PKey s | None => PErr end.
Proof.
  intros Hk Hp. assert (trim_space p = sort_item s) as Ht.
  { destruct Hp as [->| ->]; [by apply trim_tight, sort_item_tight|by apply trim_space_tight, sort_item_tight]. }
  unfold sort_part, sort_typ. rewrite Ht. cbv zeta.
  destruct (plain_key_head _ Hk) as (c & r & Hc & _).
  assert (str_eqb (sort_item s) [] = false) as ->.
  { apply str_eqb_neq. unfold sort_item. rewrite Hc. done. }
  set (kt := is_key s ++ str (if is_int s then "!int" else "!str")).
  assert (sort_item s = kt ++ " "%char :: str (if is_rev s then "desc" else "asc")) as Hs.
  { unfold sort_item, kt. rewrite <- app_assoc. by destruct (is_rev s). }
  assert (" "%char ∉ kt) as Hsp.
  { unfold kt. rewrite elem_of_app. intros [H|H]; [by eapply plain_key_nin in H; [|exact Hk|left; vm_compute]|].
    destruct (is_int s); revert H; cbn; set_solver. }
  rewrite Hs. change (str " ") with [" "%char]. rewrite contains_char. rewrite split_on_app by done.
  rewrite (split_on_nosep " "%char (str (if is_rev s then "desc" else "asc"))) by (destruct (is_rev s); cbn; set_solver).
  assert (contains kt (str "!") = true) as Hex.
  { unfold kt. change (str "!") with ["!"%char]. destruct (is_int s); apply contains_char. }
  assert (split_on "!"%char kt = [is_key s; str (if is_int s then "int" else "str")]) as Hsx.
  { unfold kt. destruct (is_int s).
    - change (is_key s ++ str "!int") with (is_key s ++ "!"%char :: str "int"). rewrite split_on_app; [done|].
      eapply plain_key_nin; [done|]. left. by vm_compute.
    - change (is_key s ++ str "!str") with (is_key s ++ "!"%char :: str "str"). rewrite split_on_app; [done|].
      eapply plain_key_nin; [done|]. left. by vm_compute. }
  rewrite Hex, Hsx. destruct s as [kk ii rr]. cbn [is_key is_int is_rev] in *. by destruct ii, rr.
Qed.
Lemma sort_item_comma s : plain_key (is_key s) -> ","%char ∉ sort_item s.
Proof.
  intros Hk. unfold sort_item. rewrite !elem_of_app. intros [H|[H|H]].
  - eapply plain_key_nin; [exact Hk| |exact H]. by right.
  - destruct (is_int s); revert H; cbn; set_solver.
  - destruct (is_rev s); revert H; cbn; set_solver.
Qed.
Lemma sort_keys_text i l : Forall (fun s => plain_key (is_key s)) l ->
  sort_keys i (split_on ","%char (sort_text l)) =
  if forallb (fun s => match i !! is_key s with Some _ => true | None => false end) l then Some (Some l) else None.
Proof.
  intros HF.
  assert (forall pre, pre = [] \/ pre = [" "%char] -> l <> [] -> sort_keys i (split_on ","%char (pre ++ sort_text l)) =
    if forallb (fun s => match i !! is_key s with Some _ => true | None => false end) l then Some (Some l) else None) as H.
  { induction HF as [|s l Hk HF IH]; [done|]. intros pre Hpre _.
    assert (sort_part i (pre ++ sort_item s) = match i !! is_key s with Some _ => PKey s | None => PErr end) as Hsp.
    { apply sort_part_item; [done|]. destruct Hpre as [->| ->]; auto. }
    assert (","%char ∉ pre ++ sort_item s) as Hc.
    { rewrite elem_of_app. intros [H|H]; [destruct Hpre as [->| ->]; set_solver|by eapply sort_item_comma in H]. }
    destruct l as [|s' l].
    - cbn [sort_text]. rewrite split_on_nosep by done. cbn [sort_keys forallb]. rewrite Hsp. by destruct (i !! is_key s).
    - change (sort_text (s :: s' :: l)) with (sort_item s ++ str ", " ++ sort_text (s' :: l)).
      change (str ", ") with ([","%char] ++ [" "%char]). rewrite <- app_assoc, app_assoc.
      change ([","%char] ++ [" "%char] ++ sort_text (s' :: l)) with (","%char :: ([" "%char] ++ sort_text (s' :: l))).
      rewrite split_on_app by done. cbn [sort_keys]. rewrite Hsp, IH by auto. cbn [forallb].
      destruct (i !! is_key s); [|done]. cbn [andb]. by destruct (_ && _). }
  destruct l as [|s l]; [reflexivity|]. apply (H []); auto.
Qed.
Lemma sort_text_nonempty l : l <> [] -> Forall (fun s => plain_key (is_key s)) l -> str_eqb (sort_text l) [] = false.
Proof.
  intros Hne HF. apply str_eqb_neq. destruct l as [|s l]; [done|]. apply Forall_cons_1 in HF as [[Hk _] _].
  destruct (is_key s) as [|c r] eqn:Ek; [done|]. destruct l; cbn [sort_text]; unfold sort_item; rewrite Ek; done.
Qed.
(** An item with two or more inner spaces. *)
Lemma sort_part_words i a b c : tight (a ++ " "%char :: b ++ " "%char :: c) ->
  sort_part i (a ++ " "%char :: b ++ " "%char :: c) = PStop.
Proof.
  intros Ht. unfold sort_part. rewrite trim_tight by done. cbv zeta.
  assert (str_eqb (a ++ " "%char :: b ++ " "%char :: c) [] = false) as -> by (apply str_eqb_neq; by destruct a).
  change (str " ") with [" "%char]. rewrite contains_char.
  assert (forall x y, exists p ps, split_on " "%char (x ++ " "%char :: y) = p :: ps ++ split_on " "%char y) as Hsplit.
  { intros x y. induction x as [|d x IH]; [by exists [], []|]. destruct IH as (p & ps & IH). cbn [app split_on]. rewrite IH.
    destruct (ch_eqb d " "%char); [by exists [], (p :: ps)|by exists (d :: p), ps]. }
  destruct (Hsplit a (b ++ " "%char :: c)) as (p & ps & ->). destruct (Hsplit b c) as (q & qs & ->).
  pose proof (split_on_nonnil " "%char c). destruct (split_on " "%char c) as [|t ts]; [done|].
  destruct ps as [|p2 [|p3 ps]]; [destruct qs as [|q2 qs]; done| |done]. cbn. done.
Qed.
