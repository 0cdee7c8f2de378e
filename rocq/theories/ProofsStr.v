(** Facts about the string functions of ModelStr. *)
From Coq Require Import Ascii String NArith ZArith Lia.
From stdpp Require Import base gmap strings list sorting.
From Verif Require Import ModelStr ModelSort ProofsSort.

Global Arguments ch_eqb : simpl never.
Global Arguments code : simpl never.
Global Arguments byte : simpl never.

Lemma ch_eqb_eq a b : ch_eqb a b = true <-> a = b.
Proof. apply Ascii.eqb_eq. Qed.
Lemma ch_eqb_neq a b : ch_eqb a b = false <-> a <> b.
Proof. apply Ascii.eqb_neq. Qed.
Lemma ch_eqb_refl a : ch_eqb a a = true.
Proof. by apply ch_eqb_eq. Qed.
Lemma ch_eqb_spec a b : reflect (a = b) (ch_eqb a b).
Proof. apply Ascii.eqb_spec. Qed.

Lemma code_inj a b : code a = code b -> a = b.
Proof.
  unfold code. intros H. rewrite <- (ascii_N_embedding a), <- (ascii_N_embedding b). by rewrite H.
Qed.
Lemma code_lt a : (code a < 256)%N.
Proof. unfold code. apply N_ascii_bounded. Qed.
Lemma code_byte n : (n < 256)%N -> code (byte n) = n.
Proof. apply N_ascii_embedding. Qed.
Lemma byte_code c : byte (code c) = c.
Proof. apply ascii_N_embedding. Qed.

Lemma str_eqb_eq a b : str_eqb a b = true <-> a = b.
Proof.
  revert b. induction a as [|x a IH]; intros [|y b]; simpl; try done.
  rewrite andb_true_iff, ch_eqb_eq, IH. naive_solver.
Qed.
Lemma str_eqb_neq a b : str_eqb a b = false <-> a <> b.
Proof. rewrite <- str_eqb_eq. destruct (str_eqb a b); naive_solver. Qed.
Lemma str_eqb_refl a : str_eqb a a = true.
Proof. by apply str_eqb_eq. Qed.
Lemma str_eqb_spec a b : reflect (a = b) (str_eqb a b).
Proof. destruct (str_eqb a b) eqn:E; constructor; [by apply str_eqb_eq | by apply str_eqb_neq]. Qed.
Lemma str_eqb_comm a b : str_eqb a b = str_eqb b a.
Proof. destruct (str_eqb_spec a b), (str_eqb_spec b a); naive_solver. Qed.
Lemma str_eqb_nil_r a : str_eqb a [] = match a with [] => true | _ => false end.
Proof. by destruct a. Qed.

(** ** The order on strings *)
Lemma str_ltb_irrefl a : str_ltb a a = false.
Proof. induction a as [|x a IH]; simpl; [done|]. by rewrite N.ltb_irrefl, N.eqb_refl. Qed.
Lemma str_ltb_trans a b c : str_ltb a b = true -> str_ltb b c = true -> str_ltb a c = true.
Proof.
  revert b c. induction a as [|x a IH]; intros [|y b] [|z c]; simpl; try done.
  destruct (N.ltb_spec (code x) (code y)), (N.ltb_spec (code y) (code z)); intros ??.
  - rewrite (proj2 (N.ltb_lt (code x) (code z))); [done | lia].
  - destruct (N.eqb_spec (code y) (code z)); [|done].
    rewrite (proj2 (N.ltb_lt (code x) (code z))); [done | lia].
  - destruct (N.eqb_spec (code x) (code y)); [|done].
    rewrite (proj2 (N.ltb_lt (code x) (code z))); [done | lia].
  - destruct (N.eqb_spec (code x) (code y)), (N.eqb_spec (code y) (code z)); try done.
    rewrite (proj2 (N.ltb_ge (code x) (code z))), (proj2 (N.eqb_eq (code x) (code z))) by lia.
    eauto.
Qed.
Lemma str_ltb_total a b : str_ltb a b = false -> str_ltb b a = false -> a = b.
Proof.
  revert b. induction a as [|x a IH]; intros [|y b]; simpl; try done.
  destruct (N.ltb_spec (code x) (code y)), (N.ltb_spec (code y) (code x)); try done.
  rewrite (proj2 (N.eqb_eq (code x) (code y))), (proj2 (N.eqb_eq (code y) (code x))) by lia.
  intros ??. f_equal; [apply code_inj; lia | eauto].
Qed.
Definition str_le (a b : gostr) : Prop := str_ltb b a = false.
Lemma str_le_refl a : str_le a a.
Proof. apply str_ltb_irrefl. Qed.
Lemma str_ltb_le a b : str_ltb a b = true -> str_le a b.
Proof.
  unfold str_le. intros H. destruct (str_ltb b a) eqn:E; [|done].
  pose proof (str_ltb_trans _ _ _ H E). by rewrite str_ltb_irrefl in *.
Qed.
Lemma str_le_trans a b c : str_le a b -> str_le b c -> str_le a c.
Proof.
  unfold str_le. intros H1 H2. destruct (str_ltb c a) eqn:E; [|done].
  destruct (str_ltb a b) eqn:E2.
  - by rewrite (str_ltb_trans _ _ _ E E2) in H2.
  - by rewrite <- (str_ltb_total _ _ E2 H1), E in H2.
Qed.
Lemma str_le_antisym a b : str_le a b -> str_le b a -> a = b.
Proof. intros H1 H2. by apply str_ltb_total. Qed.
Lemma str_le_total a b : str_le a b \/ str_le b a.
Proof. unfold str_le. destruct (str_ltb b a) eqn:E; [right; by apply str_ltb_le | by left]. Qed.

(** Sorting strings. *)
Lemma sort_strings_sorted l : StronglySorted str_le (gosort str_ltb l).
Proof.
  apply gosort_sorted.
  - intros x. apply str_le_refl.
  - intros x y z. apply str_le_trans.
  - intros x y _ _. apply str_ltb_le.
  - intros x y _ _ H. exact H.
Qed.
Lemma sort_strings_unique l l' : l ≡ₚ l' -> gosort str_ltb l = gosort str_ltb l'.
Proof.
  intros H. eapply (gosort_unique str_ltb str_le); try done.
  - intros x. apply str_le_refl.
  - intros x y z. apply str_le_trans.
  - intros x y _ _. apply str_le_antisym.
  - intros x y _ _. apply str_ltb_le.
Qed.

(** ** Prefixes, occurrences *)
Lemma has_prefix_app p r : has_prefix p (p ++ r) = true.
Proof. induction p as [|x p IH]; simpl; [done|]. by rewrite ch_eqb_refl. Qed.
Lemma has_prefix_true p s : has_prefix p s = true <-> exists r, s = p ++ r.
Proof.
  split; [|intros [r ->]; apply has_prefix_app].
  revert s. induction p as [|x p IH]; intros s; simpl; [eauto|].
  destruct s as [|y s]; [done|].
  rewrite andb_true_iff, ch_eqb_eq. intros [-> [r ->]%IH]. by exists r.
Qed.
Lemma has_prefix_drop p s : has_prefix p s = true -> s = p ++ drop (length p) s.
Proof. intros [r ->]%has_prefix_true. by rewrite drop_app. Qed.
Lemma has_prefix_nil s : has_prefix [] s = true.
Proof. by destruct s. Qed.

Lemma index_of_some sub s n :
  index_of sub s = Some n -> s = take n s ++ sub ++ drop (n + length sub) s.
Proof.
  revert n. induction s as [|c s IH]; intros n; simpl.
  - destruct sub; simpl; [|done]. by intros [= <-].
  - destruct (has_prefix sub (c :: s)) eqn:E.
    + intros [= <-]. simpl. by apply has_prefix_drop.
    + destruct (index_of sub s) as [k|]; [|done]. intros [= <-]. simpl. f_equal. by apply IH.
Qed.
Lemma index_of_min sub s n a b :
  index_of sub s = Some n -> s = a ++ sub ++ b -> n <= length a.
Proof.
  revert n a. induction s as [|c s IH]; intros n a; simpl.
  - destruct sub; simpl; [|done]. intros [= <-] _. lia.
  - destruct (has_prefix sub (c :: s)) eqn:E; [intros [= <-] _; lia|].
    destruct (index_of sub s) as [k|] eqn:K; [|done]. intros [= <-].
    destruct a as [|x a]; simpl; intros H.
    + assert (has_prefix sub (c :: s) = true); [|congruence]. apply has_prefix_true. eauto.
    + injection H as -> H. pose proof (IH _ _ eq_refl H). lia.
Qed.
Lemma index_of_none sub s a b : index_of sub s = None -> s <> a ++ sub ++ b.
Proof.
  revert a. induction s as [|c s IH]; intros a; simpl.
  - destruct sub; simpl; [done|]. intros _. destruct a; done.
  - destruct (has_prefix sub (c :: s)) eqn:E; [done|].
    destruct (index_of sub s) as [k|] eqn:K; [done|]. intros _ H.
    destruct a as [|x a]; simpl in H.
    + assert (has_prefix sub (c :: s) = true); [|congruence]. apply has_prefix_true. eauto.
    + injection H as -> H. by eapply IH.
Qed.
Lemma contains_true s sub : contains s sub = true <-> exists a b, s = a ++ sub ++ b.
Proof.
  unfold contains. split.
  - destruct (index_of sub s) as [n|] eqn:E; [|done]. intros _.
    apply index_of_some in E. eauto.
  - intros (a & b & H). destruct (index_of sub s) as [n|] eqn:E; [done|].
    by destruct (index_of_none _ _ a b E).
Qed.
(** The first '=' splits. *)
Lemma index_of_char_none c s : index_of [c] s = None <-> c ∉ s.
Proof.
  split.
  - intros H Hin. apply elem_of_list_split in Hin as (a & b & ->).
    by destruct (index_of_none _ _ a b H).
  - intros Hn. destruct (index_of [c] s) as [n|] eqn:E; [|done].
    apply index_of_some in E. destruct Hn. rewrite E. set_solver.
Qed.
Lemma index_of_char c a b : c ∉ a -> index_of [c] (a ++ c :: b) = Some (length a).
Proof.
  intros Hn. induction a as [|x a IH]; simpl.
  - by rewrite ch_eqb_refl.
  - assert (ch_eqb c x = false) as ->.
    { apply ch_eqb_neq. intros ->. set_solver. }
    simpl. rewrite IH; [done|]. set_solver.
Qed.

(** ** Join and split *)
Lemma join_cons_cons sp p q ps : join sp (p :: q :: ps) = p ++ sp ++ join sp (q :: ps).
Proof. done. Qed.
Lemma split_on_nosep c s : c ∉ s -> split_on c s = [s].
Proof.
  induction s as [|x s IH]; intros Hn; simpl; [done|].
  assert (ch_eqb x c = false) as ->. { apply ch_eqb_neq. intros ->. set_solver. }
  by rewrite IH by set_solver.
Qed.
Lemma split_on_app c a s : c ∉ a -> split_on c (a ++ c :: s) = a :: split_on c s.
Proof.
  induction a as [|x a IH]; intros Hn; simpl.
  - by rewrite ch_eqb_refl.
  - assert (ch_eqb x c = false) as ->. { apply ch_eqb_neq. intros ->. set_solver. }
    by rewrite IH by set_solver.
Qed.
Lemma split_on_join c parts :
  parts <> [] -> Forall (fun p => c ∉ p) parts -> split_on c (join [c] parts) = parts.
Proof.
  intros Hne HF. induction HF as [|p ps Hp HF IH]; [done|].
  destruct ps as [|q ps].
  - simpl. by apply split_on_nosep.
  - rewrite join_cons_cons. cbn [app]. rewrite split_on_app by done. by rewrite IH.
Qed.
Lemma split_on_nonnil c s : split_on c s <> [].
Proof. induction s as [|x s IH]; simpl; [done|]. repeat case_match; done. Qed.
Lemma join_split c s : join [c] (split_on c s) = s.
Proof.
  induction s as [|x s IH]; simpl; [done|].
  pose proof (split_on_nonnil c s).
  destruct (ch_eqb_spec x c) as [->|].
  - destruct (split_on c s) as [|p ps]; [done|]. rewrite join_cons_cons. cbn [app]. by rewrite IH.
  - destruct (split_on c s) as [|p ps]; [done|]. destruct ps; simpl in *; by rewrite <- IH.
Qed.
Lemma split_on_nosep_all c s : Forall (fun p => c ∉ p) (split_on c s).
Proof.
  induction s as [|x s IH]; simpl; [constructor; [set_solver|done]|].
  destruct (ch_eqb_spec x c) as [->|]; [constructor; [set_solver|done]|].
  destruct (split_on c s) as [|p ps]; [constructor; [set_solver|done]|].
  inversion IH; subst. constructor; [set_solver | done].
Qed.

(** ** White space *)
Lemma strip_len_none ps s :
  strip_len ps s = None <-> Forall (fun p => has_prefix p s = false) ps.
Proof.
  induction ps as [|p ps IH]; simpl; [done|].
  destruct (has_prefix p s) eqn:E.
  - split; [done|]. intros H. inversion H; congruence.
  - rewrite IH. split; [by constructor | by inversion 1].
Qed.
Lemma trim_front_fix ps n s : strip_len ps s = None -> trim_front ps n s = s.
Proof. destruct n; simpl; [done|]. by intros ->. Qed.
