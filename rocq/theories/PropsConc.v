(** The concurrent store: C30, C31, C61.  The statements are about [ModelConc]; the helpers of [ProofsConc] only appear in proofs
    and to run the examples. *)
From Coq Require Import Ascii String NArith ZArith Lia.
From stdpp Require Import base gmap strings list.
From Verif Require Import ModelStr ModelSort ModelLabels ModelPage ModelJson ModelStore ModelConc SpecConc ProofsConc PropsStore.

(** ** C30 *)
(** Every Get returns the value that its key has in a state in which the Get itself takes a step, so between its call and its return. *)
Theorem C30_get s0 i g c ns n tr s r : initial s0 -> c_pcs s0 !! i = Some (TGet GExC g c ns n) -> cruns s0 tr s ->
  c_pcs s !! i = Some (TDone r) -> exists t t', (t, i, t') ∈ tr /\ r = RObj (value t (g, c, ns, n)).
Proof. intros H. apply get_result. by apply initial_ok. Qed.
(** Every finished add, modify or delete writes its key in exactly one of its steps and changes nothing else. *)
Theorem C30_put s0 i g c ns n v tr s r : initial s0 -> c_pcs s0 !! i = Some (TPut (AInitC false) g c ns n v) -> cruns s0 tr s ->
  c_pcs s !! i = Some (TDone r) ->
  exists later t t' earlier, tr = later ++ (t, i, t') :: earlier /\ value t' (g, c, ns, n) = v /\
    (forall k, k <> (g, c, ns, n) -> value t' k = value t k) /\
    forall x, x ∈ later ++ earlier -> x.1.2 = i -> quiet_step x.
Proof. intros H H0 Hr Hd. by destruct (put_result _ _ _ _ _ _ _ _ _ _ (initial_ok _ H) H0 Hr Hd) as [_ ?]. Qed.
(** Every finished clean has made each key of its type and cluster empty at one of its steps, and has changed nothing else. *)
Theorem C30_clean s0 i g c tr s r : initial s0 -> c_pcs s0 !! i = Some (TClean BExists g c) -> cruns s0 tr s ->
  c_pcs s !! i = Some (TDone r) ->
  (forall ns n, exists t t', (t, i, t') ∈ tr /\ value t' (g, c, ns, n) = None) /\
  (forall t t', (t, i, t') ∈ tr -> forall k, value t' k = value t k \/ (k.1.1 = (g, c) /\ value t' k = None)).
Proof. intros H H0 Hr Hd. by destruct (clean_result _ _ _ _ _ _ _ (initial_ok _ H) H0 Hr Hd) as [_ ?]. Qed.
(** In between, the value of a key is what the writes to it, in the order of their steps, leave. *)
Theorem C30_values s0 tr s k : initial s0 -> cruns s0 tr s -> value s k = foldr (effect k) (value s0 k) tr.
Proof. intros H. apply cruns_value. by apply initial_ok. Qed.
(** So a value never changes but by a put of this key or a clean of its type and cluster that is in progress. *)
Theorem C30_changes s0 tr s t i t' k : initial s0 -> cruns s0 tr s -> (t, i, t') ∈ tr -> value t' k <> value t k ->
  (exists v, putting t i k v /\ value t' k = v) \/ (cleaning t i k.1.1.1 k.1.1.2 /\ value t' k = None).
Proof.
  intros H Hr Hin Hne. destruct (cruns_trace _ _ _ _ _ _ Hr Hin) as (tr' & Hr' & Hs & _).
  rewrite (cstep_value _ _ _ k (cruns_ok _ _ _ (initial_ok _ H) Hr') Hs) in *. unfold effect in *. cbn [fst snd] in *.
  unfold putting, cleaning. destruct (c_pcs t !! i) as [p|]; [|done]. destruct p as [a g c ns n v|a g c| | | |]; try done.
  - destruct a as [| | | | |w| | |]; try done. destruct w; [|done]. destruct (decide _) as [->|]; [|done]. left. exists v. split; [|done]. eexists. done.
  - destruct a as [| | |nss w]; try done. destruct nss as [|ns nss]; [done|]. destruct w; [|done]. destruct (decide _) as [He|]; [|done]. right. rewrite He. split; [|done]. eexists. done.
Qed.
(** No call panics, whatever the others do. *)
Theorem C30_no_panic s0 tr s i : initial s0 -> cruns s0 tr s -> c_pcs s !! i <> Some TPanic.
Proof. intros H Hr Hp. exact (cruns_ok _ _ _ (initial_ok _ H) Hr i _ Hp). Qed.
(** Alone, the calls of this model do what the calls of the sequential model do. *)
Theorem C30_alone_event E st g c o ns n e v tr s r : build E (conf_of st g) c o = (ns, n, e) -> v = Some e \/ v = None ->
  cruns (CSys (st_map st) [TPut (AInitC false) g c ns n v]) tr s -> c_pcs s = [TDone r] ->
  exists st', match v with Some _ => on_added E st g c o | None => on_deleted E st g c o end = Ok st' /\ c_map s = st_map st'.
Proof.
  intros Hb Hv Hr Hd. pose proof (put_alone _ _ _ _ _ _ _ _ _ Hr Hd) as Hp.
  destruct Hv as [-> | ->]; unfold on_added, on_deleted, on_event; rewrite Hb; unfold set_obj in Hp; rewrite Hp; eexists; split; reflexivity.
Qed.
Theorem C30_alone_clean st g c tr s r : cruns (CSys (st_map st) [TClean BExists g c]) tr s -> c_pcs s = [TDone r] ->
  exists err, clean st g c = Ok (err, Store (st_conf st) (c_map s) (st_gauge st)).
Proof. intros Hr Hd. destruct st as [conf m gauge]. simpl in *. by eapply clean_alone. Qed.
Theorem C30_alone_get st g c ns n tr s r : cruns (CSys (st_map st) [TGet GExC g c ns n]) tr s -> c_pcs s = [TDone r] ->
  c_map s = st_map st /\ r = RObj (lookup_entry st g c ns n).
Proof.
  intros Hr Hd. destruct (get_alone _ _ _ _ _ _ _ _ Hr Hd) as [Hm ->]. split; [done|]. f_equal. unfold obj_at, objects, namespaces, lookup_entry.
  destruct (st_map st !! g) as [cs|]; simpl; [|done]. by destruct (cs !! c).
Qed.

(** ** C31 *)
(** The result of a query: no key twice, only keys of the namespace asked for, and for each namespace in scope exactly what it
    contains in one state in which the query takes a step. *)
Theorem C31_namespaces s0 i g qns tr s r : initial s0 -> c_pcs s0 !! i = Some (TQuery QStart g qns []) -> cruns s0 tr s ->
  c_pcs s !! i = Some (TDone r) ->
  exists l, r = RList l /\ NoDup (map fst l) /\ (forall k e, (k, e) ∈ l -> in_scope qns k.1.2) /\
    forall c ns, in_scope qns ns -> exists t t', (t, i, t') ∈ tr /\ forall n e, ((c, ns, n), e) ∈ l <-> value t (g, c, ns, n) = Some e.
Proof. intros H H0 Hr Hd. exact (query_inv _ _ _ _ _ _ _ (initial_ok _ H) H0 Hr Hd). Qed.
(** What is collected was there during the query. *)
Theorem C31_real s0 i g qns tr s l c ns n e : initial s0 -> c_pcs s0 !! i = Some (TQuery QStart g qns []) -> cruns s0 tr s ->
  c_pcs s !! i = Some (TDone (RList l)) -> ((c, ns, n), e) ∈ l -> exists t t', (t, i, t') ∈ tr /\ value t (g, c, ns, n) = Some e.
Proof.
  intros H H0 Hr Hd Hin. destruct (C31_namespaces _ _ _ _ _ _ _ H H0 Hr Hd) as (l' & [= <-] & _ & Hsc & Hall).
  destruct (Hall c ns (Hsc _ _ Hin)) as (t & t' & Ht & Hx). exists t, t'. split; [done|]. by apply Hx.
Qed.
(** What is there throughout is collected, once. *)
Theorem C31_present s0 i g qns tr s l c ns n e : initial s0 -> c_pcs s0 !! i = Some (TQuery QStart g qns []) -> cruns s0 tr s ->
  c_pcs s !! i = Some (TDone (RList l)) -> in_scope qns ns -> (forall t t', (t, i, t') ∈ tr -> value t (g, c, ns, n) = Some e) ->
  ((c, ns, n), e) ∈ l /\ forall e', ((c, ns, n), e') ∈ l -> e' = e.
Proof.
  intros H H0 Hr Hd Hs Hp. destruct (C31_namespaces _ _ _ _ _ _ _ H H0 Hr Hd) as (l' & [= <-] & _ & Hsc & Hall).
  destruct (Hall c ns Hs) as (t & t' & Ht & Hx). split; [by apply Hx, (Hp t t')|]. intros e' He'. apply Hx in He'. rewrite (Hp t t' Ht) in He'. by injection He'.
Qed.
(** If nobody changes the type while the query runs, it is a query of the sequential model. *)
Theorem C31_quiet s0 i g cs qns tr s r : initial s0 -> c_pcs s0 !! i = Some (TQuery QStart g qns []) -> cruns s0 tr s ->
  c_pcs s !! i = Some (TDone r) -> (forall t t', (t, i, t') ∈ tr -> c_map t !! g = Some cs) ->
  exists l, r = RList l /\ scan qns cs (map snd l).
Proof. intros H H0 Hr Hd Hq. exact (query_quiet _ _ _ _ _ _ _ _ (initial_ok _ H) H0 Hr Hd Hq). Qed.

(** ** C61 *)
(** No deadlock: as long as a call is not finished, some call can take a step. *)
Theorem C61_no_deadlock s0 tr s i : initial s0 -> cruns s0 tr s -> i < length (c_pcs s0) -> ~ finished s i -> exists j s', cstep s j s'.
Proof.
  intros H Hr Hi Hf. rewrite <- (cruns_length _ _ _ Hr) in Hi. destruct (lookup_lt_is_Some_2 _ _ Hi) as [p Hp].
  eapply no_deadlock; [by eapply cruns_ok; [apply initial_ok|]|exact Hp|]. intros r ->. apply Hf. by exists r.
Qed.
(** There is no infinite execution (so no livelock and no starvation), whatever the scheduler does. *)
Theorem C61_terminates (f : nat -> csys) : ~ forall k, exists i, cstep (f k) i (f (S k)).
Proof.
  intros H. assert (Hall : forall s, Acc (fun s' s => exists i, cstep s i s') s -> forall k, f k <> s).
  { induction 1 as [s _ IH]. intros k <-. destruct (H k) as [i Hi]. exact (IH (f (S k)) (ex_intro _ i Hi) (S k) eq_refl). }
  exact (Hall (f 0) (csys_wf _) 0 eq_refl).
Qed.
(** Every execution can be continued until all calls have returned. *)
Theorem C61_completes s0 tr s : initial s0 -> cruns s0 tr s -> exists tr' s', cruns s0 (tr' ++ tr) s' /\ forall i, i < length (c_pcs s0) -> finished s' i.
Proof.
  intros H Hr. destruct (can_finish s) as (tr' & s' & Hr' & Hf); [by eapply cruns_ok; [apply initial_ok|]|].
  pose proof (cruns_app _ _ _ _ _ Hr Hr') as Hr2. exists tr', s'. split; [done|]. intros i Hi. rewrite <- (cruns_length _ _ _ Hr2) in Hi.
  destruct (lookup_lt_is_Some_2 _ _ Hi) as [p Hp]. destruct (Hf _ _ Hp) as [r ->]. by exists r.
Qed.

(** ** Examples *)
Definition dns : gostr := str "d".
Definition en1 : entry := Entry ∅ (ORaw JNull).
Definition en2 : entry := Entry ∅ (ORaw (JBool true)).
(** x in namespace d of c1; c2 has the namespace without objects. *)
Definition ex_tree : tree := {[ pods := {[ c1 := {[ dns := {[ str "x" := en1 ]} ]}; c2 := {[ dns := ∅ ]} ]} ]}.
Lemma ex_tree_pods : is_Some (ex_tree !! pods).
Proof. eexists. apply lookup_singleton. Qed.
(** A Get of x is overtaken by a put and returns the new value; a clean; another Get. *)
Definition ex30 : csys := CSys ex_tree
  [TGet GExC pods c1 dns (str "x"); TPut (AInitC false) pods c1 dns (str "x") (Some en2); TClean BExists pods c1; TGet GExC pods c1 dns (str "x")].
Lemma ex30_initial : initial ex30.
Proof. unfold initial, ex30. cbn [c_pcs]. repeat (constructor; [split; [constructor|]; try exact ex_tree_pods; exact I|]). constructor. Qed.
Definition ex30_run : list nat := replicate 5 0 ++ replicate 12 1 ++ [0] ++ replicate 6 2 ++ replicate 6 3.
Example C30_ex : exists tr s, cruns ex30 tr s /\ length tr = 30 /\ c_pcs s = [TDone (RObj (Some en2)); TDone RNone; TDone RNone; TDone (RObj None)].
Proof.
  destruct (exec_find (fun r => (length r.1, c_pcs r.2)) ex30 ex30_run (30, [TDone (RObj (Some en2)); TDone RNone; TDone RNone; TDone (RObj None)])) as (tr & s & Hr & H); [vm_compute; reflexivity|].
  exists tr, s. split; [exact Hr|]. cbn [fst snd] in H. apply pair_equal_spec in H as [H1 H2]. exact (conj H1 H2).
Qed.
(** Two watchers have passed initResourceNamespace when a query begins; the query sees c2 before both writes and c1 after. *)
Definition ex31 : csys := CSys ex_tree
  [TQuery QStart pods [] []; TPut (AInitC false) pods c1 dns (str "x") (Some en2); TPut (AInitC false) pods c2 dns (str "y") (Some en1)].
Lemma ex31_initial : initial ex31.
Proof. unfold initial, ex31. cbn [c_pcs]. repeat (constructor; [split; [constructor|exact ex_tree_pods]|]). constructor. Qed.
Definition ex31_run : list nat :=
  replicate 7 1 ++ replicate 7 2 ++ replicate 5 0 ++ [2; 2; 1; 1] ++ replicate 6 0 ++ replicate 3 1 ++ replicate 3 2.
Definition ex31_out : list (key * entry) := [((c1, dns, str "x"), en2)].
Definition has (s : csys) (k : okey) (b : option bool) : bool :=
  match value s k, b with
  | Some e, Some b => match en_obj e with ORaw (JBool true) => b | _ => negb b end
  | None, None => true
  | _, _ => false
  end.
(** When x is new, y is there. *)
Definition ordered (s : csys) : bool := negb (has s (pods, c1, dns, str "x") (Some true)) || negb (has s (pods, c2, dns, str "y") None).
Lemma ex31_runs : exists tr s, cruns ex31 tr s /\ c_pcs s = [TDone (RList ex31_out); TDone RNone; TDone RNone] /\
  ordered ex31 = true /\ forallb (fun x => ordered x.2) tr = true.
Proof.
  destruct (exec_find (fun r => (c_pcs r.2, ordered ex31, forallb (fun x => ordered x.2) r.1)) ex31 ex31_run
    ([TDone (RList ex31_out); TDone RNone; TDone RNone], true, true)) as (tr & s & Hr & H); [vm_compute; reflexivity|].
  exists tr, s. split; [exact Hr|]. cbn [fst snd] in H. apply pair_equal_spec in H as [H H3]. apply pair_equal_spec in H as [H1 H2]. exact (conj H1 (conj H2 H3)).
Qed.
Example C31_ex : exists tr s, cruns ex31 tr s /\ c_pcs s !! 0 = Some (TDone (RList ex31_out)).
Proof. destruct ex31_runs as (tr & s & Hr & Hp & _). exists tr, s. split; [done|]. by rewrite Hp. Qed.
(** So the result of a query over several namespaces need not be the content of the store in any one state. *)
Theorem C31_not_atomic_refuted : exists s0 i g tr s l, initial s0 /\ c_pcs s0 !! i = Some (TQuery QStart g [] []) /\ cruns s0 tr s /\
  c_pcs s !! i = Some (TDone (RList l)) /\
  forall t, t = s0 \/ (exists u j, (u, j, t) ∈ tr) -> ~ forall c ns n e, ((c, ns, n), e) ∈ l <-> value t (g, c, ns, n) = Some e.
Proof.
  destruct ex31_runs as (tr & s & Hr & Hp & H0 & Hall). exists ex31, 0, pods, tr, s, ex31_out.
  split; [exact ex31_initial|]. split; [reflexivity|]. split; [exact Hr|]. split; [by rewrite Hp|].
  intros t Ht. assert (Ho : ordered t = true).
  { destruct Ht as [->|(u & j & Hin)]; [exact H0|]. rewrite forallb_forall in Hall. apply (Hall (u, j, t)). by apply elem_of_list_In. }
  clear Ht H0 Hall Hr Hp. intros Hsnap.
  assert (Hx : value t (pods, c1, dns, str "x") = Some en2) by (apply Hsnap; left).
  assert (Hy : value t (pods, c2, dns, str "y") = None).
  { destruct (value t (pods, c2, dns, str "y")) as [e|] eqn:Hv; [|done]. apply Hsnap in Hv. apply elem_of_list_singleton in Hv. discriminate Hv. }
  unfold ordered, has in Ho. rewrite Hx, Hy in Ho. discriminate Ho.
Qed.
(** A state where calls wait for each other: the query has the clusters locked, the put waits for it, the Get waits for the put. *)
Definition ex61 : csys := CSys ex_tree
  [TQuery QStart pods [] []; TPut (AInitC false) pods c1 dns (str "x") None; TGet GExC pods c1 dns (str "x")].
Lemma ex61_initial : initial ex61.
Proof. unfold initial, ex61. cbn [c_pcs]. repeat (constructor; [split; [constructor|]; try exact ex_tree_pods; exact I|]). constructor. Qed.
Example C61_ex : exists tr s, cruns ex61 tr s /\ ~ finished s 1 /\ ~ finished s 2 /\ forall j s', cstep s j s' -> j = 0.
Proof.
  destruct (exec_find (fun r => c_pcs r.2) ex61 [0; 1]
    [TQuery (QClus [c2; c1]) pods [] []; TPut (AInitC true) pods c1 dns (str "x") None; TGet GExC pods c1 dns (str "x")]) as (tr & s & Hr & H); [vm_compute; reflexivity|].
  cbn [snd] in H. exists tr, s. split; [exact Hr|]. clear Hr. split_and!.
  - intros [r Hr]. rewrite H in Hr. discriminate Hr.
  - intros [r Hr]. rewrite H in Hr. discriminate Hr.
  - intros j s' Hs. destruct (cstep_pcs _ _ _ Hs) as (p & p' & Hp & _ & Ht). rewrite H in Hp. destruct j as [|[|[|j]]]; [done| | |done].
    + exfalso. injection Hp as <-. inversion Ht; subst. match goal with Hw : others _ _ _ |- _ => apply (Hw 0 (TQuery (QClus [c2; c1]) pods [] [])); [by rewrite H|done|reflexivity] end.
    + exfalso. injection Hp as <-. inversion Ht; subst. match goal with Hw : others _ _ _ |- _ => apply (Hw 1 (TPut (AInitC true) pods c1 dns (str "x") None)); [by rewrite H|done|reflexivity] end.
Qed.
