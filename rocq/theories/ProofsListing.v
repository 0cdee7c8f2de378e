(** Lemmas that combine history, scan, sort and page. *)
From Coq Require Import Ascii String NArith ZArith Lia.
From stdpp Require Import base gmap strings list sorting.
From Verif Require Import ModelStr ModelSort ProofsSort ProofsStr ModelLabels SpecLabels ProofsLabels ModelPage SpecPage ProofsPage ModelJson
  ModelStore SpecStore ProofsStore ProofsQueryStore ProofsIndex ProofsSortText.

Local Notation key := (gostr * gostr * gostr)%type.

(** ** Infixes *)
Definition infix_of (x y : gostr) : Prop := exists a b, y = a ++ x ++ b.
Lemma infix_refl x : infix_of x x. Proof. exists [], []. by rewrite app_nil_r. Qed.
Lemma infix_trans x y z : infix_of x y -> infix_of y z -> infix_of x z.
Proof. intros (a & b & ->) (c & d & ->). exists (c ++ a), (b ++ d). by rewrite !app_assoc. Qed.
Lemma trim_front_suffix ps n s : exists a, s = a ++ trim_front ps n s.
Proof.
  revert s. induction n as [|n IH]; intros s; cbn [trim_front]; [by exists []|].
  destruct (strip_len ps s) as [m|]; [|by exists []]. destruct (IH (drop m s)) as [a Ha].
  exists (take m s ++ a). rewrite <- app_assoc, <- Ha. symmetry. apply take_drop.
Qed.
Lemma trim_space_infix s : infix_of (trim_space s) s.
Proof.
  unfold trim_space. apply (infix_trans _ (trim_left s)).
  - unfold trim_right. set (t := trim_left s). destruct (trim_front_suffix (map reverse spaces) (length t) (reverse t)) as [a Ha].
    exists [], (reverse a). rewrite app_nil_l, <- reverse_app, <- Ha. by rewrite reverse_involutive.
  - destruct (trim_front_suffix spaces (length s) s) as [a Ha]. exists a, []. rewrite app_nil_r. exact Ha.
Qed.
Lemma split_on_infix c s p : p ∈ split_on c s -> infix_of p s.
Proof.
  revert p. induction s as [|x s IH]; intros p; cbn [split_on].
  - intros ->%elem_of_list_singleton. apply infix_refl.
  - destruct (ch_eqb x c).
    + intros [->|H]%elem_of_cons; [by exists [], (x :: s)|]. eapply infix_trans; [by apply IH|]. exists [x], []. by rewrite app_nil_r.
    + destruct (split_on c s) as [|q qs] eqn:Es.
      * intros ->%elem_of_list_singleton. by exists [], s.
      * intros [->|H]%elem_of_cons.
        -- pose proof (join_split c s) as Hj. rewrite Es in Hj. destruct qs as [|q' qs].
           ++ cbn in Hj. subst. apply infix_refl.
           ++ rewrite join_cons_cons in Hj. exists [], ([c] ++ join [c] (q' :: qs)). cbn. by rewrite <- Hj.
        -- eapply infix_trans; [apply IH; by right|]. exists [x], []. by rewrite app_nil_r.
Qed.
Lemma split_pair_infix k t s : split_on "!"%char s = [k; t] -> s = k ++ "!"%char :: t.
Proof. intros H. pose proof (join_split "!"%char s) as Hj. rewrite H in Hj. cbn in Hj. by rewrite <- Hj. Qed.
(** A numeric sort key needs "!int" in the text. *)
Lemma sort_part_int i p s : sort_part i p = PKey s -> is_int s = true -> infix_of (str "!int") p.
Proof.
  intros H Hi. eapply infix_trans; [|apply trim_space_infix]. revert H. unfold sort_part. cbv zeta. set (t := trim_space p).
  assert (forall x rev, sort_typ i x rev = PKey s -> infix_of (str "!int") x) as Hgo.
  { intros x rev. unfold sort_typ. destruct (contains x (str "!")).
    - destruct (split_on "!"%char x) as [|k [|ty [|? ?]]] eqn:Es; try done. destruct (str_eqb_spec ty (str "int")) as [->|].
      + intros _. apply split_pair_infix in Es as ->. exists k, []. by rewrite app_nil_r.
      + destruct (str_eqb ty (str "str")); [|done]. destruct (i !! k); [|done]. intros [= <-]. done.
    - destruct (i !! x); [|done]. intros [= <-]. done. }
  destruct (str_eqb t []); [done|]. destruct (contains t (str " ")); [|apply Hgo].
  destruct (split_on " "%char t) as [|k [|d [|? ?]]] eqn:Es; try done.
  assert (infix_of k t) as Hk by (apply (split_on_infix " "%char); rewrite Es; left).
  destruct (str_eqb d (str "desc")); [intros H; eapply infix_trans; [by eapply Hgo|done]|].
  destruct (str_eqb d (str "asc")); [|done]. intros H; eapply infix_trans; [by eapply Hgo|done].
Qed.
Lemma sort_keys_int i ps sorts : sort_keys i ps = Some (Some sorts) -> (forall p, p ∈ ps -> ~ infix_of (str "!int") p) ->
  Forall (fun s => is_int s = false) sorts.
Proof.
  revert sorts. induction ps as [|p ps IH]; intros sorts; cbn [sort_keys]; [intros [= <-]; constructor|].
  intros H Hp. assert (forall q, q ∈ ps -> ~ infix_of (str "!int") q) as Hp' by (intros; apply Hp; by right).
  destruct (sort_part i p) as [| | |s] eqn:Es; try done; [by apply IH|].
  destruct (sort_keys i ps) as [[l|]|]; try done. injection H as <-. constructor; [|by apply IH].
  destruct (is_int s) eqn:Ei; [|done]. exfalso. eapply Hp; [by left|]. by eapply sort_part_int.
Qed.

Section listing.
  Context (E : env).
  Lemma sort_less_noint sorts a b : Forall (fun s => is_int s = false) sorts -> (sort_less E sorts a b).2 = false.
  Proof.
    induction 1 as [|s ss Hs _ IH]; [done|]. cbn [sort_less]. rewrite Hs. by destruct (str_eqb _ _).
  Qed.
  (** Whether sortObjs fails, when no key is numeric. *)
  Lemma sort_objs_err objs o s : ~ infix_of (str "!int") s -> o ∈ objs ->
    (forall x y, x ∈ objs -> y ∈ objs -> same_keys (en_index x) (en_index y)) ->
    sort_objs E objs s = None <-> sort_keys (en_index o) (split_on ","%char (if str_eqb s [] then default_sort else s)) = None.
  Proof.
    intros Hs Ho Hk. unfold sort_objs. destruct objs as [|x objs]; [by apply elem_of_nil in Ho|].
    rewrite (sort_keys_same (en_index o) (en_index x)) by (apply Hk; [done|left]).
    destruct (sort_keys (en_index x) _) as [[sorts|]|] eqn:Es; [|done|done].
    assert (Forall (fun s => is_int s = false) sorts) as HF.
    { eapply sort_keys_int; [exact Es|]. intros p Hp Hinf. apply Hs. destruct (str_eqb_spec s []) as [->|].
      - exfalso. assert (split_on ","%char default_sort = [str "cluster"; str " namespace"; str " name"]) as Hd by reflexivity.
        rewrite Hd in Hp. rewrite !elem_of_cons in Hp.
        assert (contains p (str "!int") = true) as Hcc by (by apply contains_true).
        destruct Hp as [->|[->|[->|Hp%elem_of_nil]]]; [vm_compute in Hcc; discriminate Hcc..|done].
      - eapply infix_trans; [exact Hinf|]. by eapply split_on_infix. }
    destruct (existsb _ _) eqn:Hb; [|done]. exfalso. apply existsb_exists in Hb as ([a b] & _ & Hbad).
    cbn in Hbad. unfold entry_bad in Hbad. rewrite sort_less_noint in Hbad by done. done.
  Qed.

  (** The error of a query. *)
  Lemma seen_scope st g ns cs seen e : st_map st !! g = Some cs -> scan ns cs seen -> e ∈ seen <-> exists k, in_scope st g ns k e.
  Proof.
    intros Hg (kes & -> & _ & Hk)%scan_keys. rewrite elem_of_list_fmap. unfold in_scope, lookup_entry. rewrite Hg. cbn [mbind option_bind].
    split.
    - intros ((k & e') & -> & Hin). apply Hk in Hin as [? ?]. by exists k.
    - intros (k & ? & ?). exists (k, e). split; [done|]. apply Hk. done.
  Qed.
  Lemma query_err conf h st g ns p r k0 e0 : Forall kube_call h -> run_calls E (new_store conf) h = Ok st ->
    query E st g ns p (Ok r) -> in_scope st g ns k0 e0 -> entry_match E (pg_search p) e0 <> Some false ->
    ~ infix_of (str "!int") (pg_sort p) ->
    q_err r = true <-> entry_match E (pg_search p) e0 = None \/
      sort_keys (en_index e0) (split_on ","%char (if str_eqb (pg_sort p) [] then default_sort else pg_sort p)) = None.
  Proof.
    intros Hk Hr Hq H0 Hm Hs. unfold query in Hq. destruct (st_map st !! g) as [cs|] eqn:Eg; [|done].
    destruct Hq as (seen & Hscan & Hq). rewrite query_seen_eq in Hq. cbv zeta in Hq.
    pose proof (fun e => seen_scope st g ns cs seen e Eg Hscan) as Hseen.
    assert (forall x y, x ∈ seen -> y ∈ seen -> same_keys (en_index x) (en_index y)) as Hsk.
    { intros x y (kx & Hx)%Hseen (ky & Hy)%Hseen. by eapply (entries_same_keys E conf h st h st). }
    assert (e0 ∈ seen) as He0 by (apply Hseen; eauto).
    destruct (entry_match E (pg_search p) e0) as [[]|] eqn:Em; [|done|].
    - assert (e0 ∈ matched E (pg_search p) seen) as Hin by (by apply elem_of_matched).
      assert (seen_err E (pg_search p) seen = false) as Hse.
      { destruct (seen_err E (pg_search p) seen) eqn:Hse; [|done]. exfalso. apply existsb_exists in Hse as (x & Hx & Hxe).
        apply elem_of_list_In in Hx. destruct (entry_match E (pg_search p) x) eqn:Ex; [done|].
        rewrite (entry_match_err E (pg_search p) x e0) in Em; [done|by apply Hsk|done]. }
      pose proof (sort_objs_err (matched E (pg_search p) seen) e0 (pg_sort p) Hs Hin) as Herr.
      assert (forall x y, x ∈ matched E (pg_search p) seen -> y ∈ matched E (pg_search p) seen -> same_keys (en_index x) (en_index y)) as Hsk'.
      { intros x y [? _]%elem_of_matched [? _]%elem_of_matched. by apply Hsk. }
      specialize (Herr Hsk').
      destruct (matched E (pg_search p) seen) as [|x m] eqn:Emm; [by apply elem_of_nil in Hin|]. rewrite <- Emm in *.
      destruct (sort_objs E (matched E (pg_search p) seen) (pg_sort p)) as [es|].
      + destruct (slice es _ _); [|done]. injection Hq as ->. cbn [q_err]. rewrite Hse. split; [done|]. intros [|H]; [done|].
        apply Herr in H. done.
      + injection Hq as ->. split; [|done]. intros _. right. by apply Herr.
    - assert (seen_err E (pg_search p) seen = true) as Hse.
      { apply existsb_exists. exists e0. split; [by apply elem_of_list_In|]. by rewrite Em. }
      split; [by left|]. intros _. rewrite Hse in Hq.
      destruct (matched E (pg_search p) seen) as [|x m]; [by injection Hq as ->|].
      destruct (sort_objs E (x :: m) (pg_sort p)) as [es|]; [|by injection Hq as ->].
      destruct (slice es _ _); [|done]. by injection Hq as ->.
  Qed.

  (** The default sort never fails and its result does not depend on the scan. *)
  Lemma default_sort_objs conf h st g ns objs : Forall kube_call h -> run_calls E (new_store conf) h = Ok st ->
    (forall e, e ∈ objs -> exists k, in_scope st g ns k e) ->
    sort_objs E objs [] = Some (gosort (entry_less E by_key) objs).
  Proof.
    intros Hk Hr Hsc. apply (sort_objs_some E objs [] by_key (fun _ => 0%Z) (fun _ => False)); [apply by_key_rank| |intros; apply by_key_numeric].
    intros o (k & [Hlk _])%Hsc. destruct (kube_entry E conf h st g _ _ _ _ Hk Hr Hlk) as (ko & _ & _ & ->).
    destruct (build_index E (default ∅ (conf !! g)) k.1.1 ko) as (A & B & C & _). apply default_keys; by eexists.
  Qed.
  Lemma default_sort_unique conf h st g ns o1 o2 : Forall kube_call h -> run_calls E (new_store conf) h = Ok st ->
    (forall e, e ∈ o1 -> exists k, in_scope st g ns k e) -> o1 ≡ₚ o2 ->
    gosort (entry_less E by_key) o1 = gosort (entry_less E by_key) o2.
  Proof.
    intros Hk Hr Hsc Hp.
    apply (gosort_unique _ (fun a b => lex_le E (fun _ => 0%Z) by_key (en_index a) (en_index b))).
    - intros. apply lex_refl.
    - intros. by eapply lex_trans.
    - intros x y (kx & Hx)%Hsc (ky & Hy)%Hsc H1 H2. pose proof (lex_antisym E _ _ _ _ H1 H2) as HF.
      by destruct (same_key_same_entry E conf h st g ns kx x ky y Hk Hr Hx Hy HF).
    - intros x y Hx Hy H. by apply (sort_less_ok E (fun _ => 0%Z) (fun _ => False) by_key (en_index x) (en_index y) (by_key_rank E) (by_key_numeric E _ _) (by_key_numeric E _ _)).
    - intros x y Hx Hy H. by apply (sort_less_ok E (fun _ => 0%Z) (fun _ => False) by_key (en_index x) (en_index y) (by_key_rank E) (by_key_numeric E _ _) (by_key_numeric E _ _)).
    - done.
  Qed.

  (** ** Executable scans, for examples *)
  Definition rev_if {A} (b : bool) (l : list A) : list A := if b then reverse l else l.
  Definition scan_order (b : bool) (ns : gostr) (cs : typemap) : list entry :=
    flat_map (fun cn : gostr * clmap =>
      flat_map (fun no : gostr * nsmap =>
        if decide (ns = [] \/ ns = no.1) then map snd (rev_if b (map_to_list no.2)) else []) (rev_if b (map_to_list cn.2)))
      (rev_if b (map_to_list cs)).
  Lemma rev_if_perm {A} b (l : list A) : rev_if b l ≡ₚ l.
  Proof. destruct b; [apply reverse_Permutation|done]. Qed.
  Lemma scan_order_ok b ns cs : scan ns cs (scan_order b ns cs).
  Proof.
    exists (rev_if b (map_to_list cs)). split; [apply rev_if_perm|]. unfold scan_order.
    induction (rev_if b (map_to_list cs)) as [|[c nss] l IH]; [constructor|]. cbn [flat_map].
    apply (scan_cls_cons ns c nss (rev_if b (map_to_list nss))); [apply rev_if_perm| |exact IH].
    cbn [snd]. induction (rev_if b (map_to_list nss)) as [|[n os] l' IH']; [constructor|]. cbn [flat_map fst snd].
    destruct (decide (ns = [] \/ ns = n)) as [H|H].
    - apply scan_nss_take; [done| |exact IH']. exists (rev_if b (map_to_list os)). split; [apply rev_if_perm|done].
    - apply scan_nss_skip; [naive_solver|naive_solver|exact IH'].
  Qed.
  Definition query_with (b : bool) (st : store) (g : gvr) (ns : gostr) (p : paginate) : result qres :=
    match st_map st !! g with None => Panics | Some cs => query_seen E p (scan_order b ns cs) end.
  Lemma query_with_ok b st g ns p : query E st g ns p (query_with b st g ns p).
  Proof. unfold query, query_with. destruct (st_map st !! g); [|done]. eexists. split; [apply scan_order_ok|done]. Qed.
End listing.
