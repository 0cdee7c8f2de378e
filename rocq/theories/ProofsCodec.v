(** Proofs about decoding events and printing cached objects. *)
From Coq Require Import Ascii String NArith ZArith Lia.
From stdpp Require Import base gmap strings list sorting.
From Verif Require Import ModelStr ModelSort ModelLabels ModelJson ModelJsonText ModelStore ModelProxy ModelObjType ModelFake ModelWatcher ModelCodec
  SpecStore SpecWatcher SpecObjType SpecCodec ProofsStr ProofsSort ProofsQuote ProofsLabels ProofsJson ProofsJsonText ProofsJsonParse ProofsStore ProofsWatcher ProofsObjType ProofsFakePages PropsObjType.

(** ** Interpreting a document *)
Lemma parse_gv_text (g : gvr) api : proper g -> api_text g.1.1 g.1.2 api -> parse_gv api = Some (g.1.1, g.1.2).
Proof.
  destruct g as [[gr v] rt]. cbn [fst snd]. intros (Hg & Hv & Hne) Ha. cbn [fst snd] in *. unfold parse_gv.
  destruct Ha as [[-> ->]|[Hgr ->]].
  - rewrite split_on_nosep by done. destruct (str_eqb v []) eqn:E1; [by apply str_eqb_eq in E1|].
    destruct (str_eqb v (str "/")) eqn:E2; [|done]. apply str_eqb_eq in E2 as ->. destruct Hv. left.
  - change (str "/") with ["/"%char]. cbn [app]. rewrite split_on_app by done. rewrite split_on_nosep by done.
    destruct gr as [|x gr]; [done|]. cbn [app]. destruct (str_eqb (x :: gr ++ "/"%char :: v) []) eqn:E1; [by apply str_eqb_eq in E1|].
    destruct (str_eqb (x :: gr ++ "/"%char :: v) ["/"%char]) eqn:E2; [|done]. apply str_eqb_eq in E2. injection E2 as -> E2. by destruct gr.
Qed.
Lemma type_fields api kind (l : list (gostr * json)) :
  (forall k v, (k, v) ∈ l -> (fold_key2 k = str "apiversion" -> k = str "apiVersion" /\ v = JStr api) /\ (fold_key2 k = str "kind" -> k = str "kind" /\ v = JStr kind)) ->
  forall a0 k0, exists a k, fold_left type_field l (Some (a0, k0)) = Some (a, k) /\
    ((str "apiVersion", JStr api) ∈ l \/ a0 = api -> a = api) /\ ((str "kind", JStr kind) ∈ l \/ k0 = kind -> k = kind).
Proof.
  induction l as [|[k v] l IH]; intros Hl a0 k0.
  { exists a0, k0. split; [done|]. split; intros [H|H]; try done; by apply elem_of_nil in H. }
  assert (forall k' v', (k', v') ∈ l -> (fold_key2 k' = str "apiversion" -> k' = str "apiVersion" /\ v' = JStr api) /\ (fold_key2 k' = str "kind" -> k' = str "kind" /\ v' = JStr kind)) as Hl'.
  { intros k' v' Hin. apply Hl. by right. }
  specialize (IH Hl'). destruct (Hl k v ltac:(left)) as [H1 H2]. cbn [fold_left]. unfold type_field at 2. cbn [fst snd].
  destruct (str_eqb (fold_key2 k) (str "apiversion")) eqn:E1.
  - apply str_eqb_eq in E1. destruct (H1 E1) as [-> ->]. destruct (IH api k0) as (a & k & Hf & Ha & Hk). exists a, k. split; [exact Hf|]. split.
    + intros _. apply Ha. by right.
    + intros [Hin|Hin]; [|apply Hk; by right]. apply elem_of_cons in Hin as [Hin|Hin]; [discriminate Hin|apply Hk; by left].
  - destruct (str_eqb (fold_key2 k) (str "kind")) eqn:E2.
    + apply str_eqb_eq in E2. destruct (H2 E2) as [-> ->]. destruct (IH a0 kind) as (a & k & Hf & Ha & Hk). exists a, k. split; [exact Hf|]. split.
      * intros [Hin|Hin]; [|apply Ha; by right]. apply elem_of_cons in Hin as [Hin|Hin]; [discriminate Hin|apply Ha; by left].
      * intros _. apply Hk. by right.
    + destruct (IH a0 k0) as (a & k' & Hf & Ha & Hk). exists a, k'. split; [exact Hf|]. split.
      * intros [Hin|Hin]; [|apply Ha; by right]. apply elem_of_cons in Hin as [Hin|Hin]; [|apply Ha; by left].
        exfalso. apply pair_equal_spec in Hin as [<- _]. revert E1. vm_compute. discriminate.
      * intros [Hin|Hin]; [|apply Hk; by right]. apply elem_of_cons in Hin as [Hin|Hin]; [|apply Hk; by left].
        exfalso. apply pair_equal_spec in Hin as [<- _]. revert E2. vm_compute. discriminate.
Qed.
Lemma interpret_document g kind s : proper g -> document g kind s -> interpret s = Some (g.1.1, g.1.2, kind).
Proof.
  intros Hp (_ & api & l & Hs & Ha & Hia & Hik & Hl). unfold interpret. rewrite Hs.
  destruct (type_fields api kind l Hl [] []) as (a & k & -> & Ha' & Hk'). rewrite Ha', Hk' by (by left). by rewrite (parse_gv_text g api Hp Ha).
Qed.
Lemma decode_document JE g kind s : document g kind s -> exists o, decode_obj JE s = Ok o.
Proof.
  intros (_ & api & l & Hs & Ha & Hia & Hik & Hl). destruct (decode_obj JE s) as [o|] eqn:Hd; [by exists o|].
  apply C45_panics in Hd as (l' & k & j & Hs' & Hk & (l1 & l2 & Hll & _) & Hj). exfalso. rewrite Hs in Hs'. injection Hs' as <-.
  assert ((k, j) ∈ l) as Hin by (rewrite Hll; set_solver). destruct (Hl k j Hin) as [H1 H2].
  apply elem_of_cons in Hk as [->|Hk]; [destruct H1 as [_ ->]; [reflexivity|]; by eapply Hj|].
  apply elem_of_list_singleton in Hk as ->. destruct H2 as [_ ->]; [reflexivity|]; by eapply Hj.
Qed.
Lemma decode_readable JE cd reg g kind s o : proper g -> document g kind s -> cd_known cd (g.1.1, g.1.2, kind) = false ->
  (g.1.1, g.1.2, kind) ∈ reg -> decode_obj JE s = Ok o -> decode_any JE cd reg s = DObj o.
Proof.
  intros Hp Hd Hk Hr Ho. unfold decode_any. rewrite (interpret_document g kind s Hp Hd). destruct Hp as (_ & _ & Hv). destruct Hd as [Hk' _].
  destruct kind; [done|]. destruct (g.1.2) eqn:E; [done|]. rewrite Hk. rewrite bool_decide_true by done. by rewrite Ho.
Qed.
Lemma decode_unregistered JE cd reg g kind s : proper g -> document g kind s -> cd_known cd (g.1.1, g.1.2, kind) = false ->
  (g.1.1, g.1.2, kind) ∉ reg -> decode_any JE cd reg s = DError.
Proof.
  intros Hp Hd Hk Hr. unfold decode_any. rewrite (interpret_document g kind s Hp Hd). destruct Hp as (_ & _ & Hv). destruct Hd as [Hk' _].
  destruct kind; [done|]. destruct (g.1.2) eqn:E; [done|]. rewrite Hk. by rewrite bool_decide_false.
Qed.

(** ** The items of a stream *)
Definition item_type (t : gostr) : ev_type := default EvOther (watch_type t).
Definition item_of (JE : jenv) (e : raw_event) : item :=
  IEvent (item_type (re_type e)) (match decode_obj JE (re_text e) with Ok o => to_obj o | Panics => ORaw JNull end).
Lemma about_type g kind e : about g kind e -> watch_type (re_type e) = Some (item_type (re_type e)) /\
  (re_type e ∉ changes -> item_type (re_type e) = EvOther) /\
  (re_type e ∈ changes -> item_type (re_type e) <> EvOther) /\
  (item_type (re_type e) = EvAdded \/ item_type (re_type e) = EvModified <-> re_type e = str "ADDED" \/ re_type e = str "MODIFIED").
Proof.
  intros [[Ht|Ht] _].
  - unfold changes in *. apply elem_of_cons in Ht as [Ht|Ht]; [|apply elem_of_cons in Ht as [Ht|Ht]; [|apply elem_of_list_singleton in Ht]]; rewrite Ht.
    all: split; [reflexivity|]; split; [intros Hn; destruct Hn; set_solver|]; split; [discriminate|].
    + split; intros _; by left.
    + split; intros _; by right.
    + split; intros [H|H]; discriminate H.
  - rewrite Ht. split; [reflexivity|]. split; [reflexivity|]. split; [|split; intros [H|H]; discriminate H].
    intros H. apply elem_of_cons in H as [H|H]; [discriminate H|]. apply elem_of_cons in H as [H|H]; [discriminate H|]. apply elem_of_list_singleton in H. discriminate H.
Qed.
Lemma deliver_readable JE cd g kind evs : proper g -> cd_known cd (g.1.1, g.1.2, kind) = false ->
  Forall (about g kind) evs -> Forall (readable g kind) evs -> deliver JE cd evs = (map (item_of JE) evs ++ [IClosed], false).
Proof.
  intros Hp Hk HF HR. induction HF as [|e evs He HF IH]; [done|]. apply Forall_cons in HR as [Hr HR]. cbn [deliver map app].
  destruct (about_type g kind e He) as [-> _]. destruct He as [_ Hd]. destruct (decode_document JE g kind _ Hd) as [o Ho].
  rewrite (decode_readable JE cd _ g kind _ o Hp Hd Hk Hr Ho). rewrite (IH HR). unfold item_of. by rewrite Ho.
Qed.
Lemma deliver_unregistered JE cd g kind e evs : proper g -> cd_known cd (g.1.1, g.1.2, kind) = false ->
  about g kind e -> ~ readable g kind e -> deliver JE cd (e :: evs) = (undecodable, false).
Proof.
  intros Hp Hk He Hr. cbn [deliver]. destruct (about_type g kind e He) as [-> _]. destruct He as [_ Hd].
  by rewrite (decode_unregistered JE cd _ g kind _ Hp Hd Hk Hr).
Qed.
(** A prefix of the items of a stream, without or with its end. *)
Lemma prefix_items {A} (l p : list A) x : p `prefix_of` l ++ [x] -> exists n, n <= length l /\ (p = take n l \/ n = length l /\ p = l ++ [x]).
Proof.
  intros [k Hk]. destruct k as [|y k _] using rev_ind.
  - rewrite app_nil_r in Hk. subst p. exists (length l). split; [lia|]. by right.
  - rewrite app_assoc in Hk. apply app_inj_tail in Hk as [Hk _]. exists (length p). split; [rewrite Hk, app_length; lia|]. left. by rewrite Hk, take_app.
Qed.

(** ** What is registered *)
Lemma registered_incl cd started : forall reg reg', registered cd reg started = Ok reg' -> reg ⊆ reg'.
Proof.
  induction started as [|[px g] rest IH]; intros reg reg'; [by intros [= <-]|]. cbn [registered]. unfold register.
  destruct (cd_known cd _ || bool_decide _); [by apply IH|]. destruct (g.1.2); [done|]. intros H%IH. set_solver.
Qed.
Lemma registered_iff cd started : forall reg reg', registered cd reg started = Ok reg' ->
  forall k, k ∈ reg' <-> k ∈ reg \/ cd_known cd k = false /\ exists px g, (px, g) ∈ started /\ watch_gvk px g = k.
Proof.
  induction started as [|[px g] rest IH]; intros reg reg'.
  { intros [= <-] k. split; [by left|]. intros [H|(_ & px & g & H & _)]; [done|by apply elem_of_nil in H]. }
  cbn [registered]. unfold register. destruct (cd_known cd (watch_gvk px g)) eqn:Ek; cbn [orb].
  - intros H k. rewrite (IH _ _ H k). split.
    + intros [?|(? & px' & g' & ? & ?)]; [by left|]. right. split; [done|]. exists px', g'. split; [by right|done].
    + intros [?|(Hk & px' & g' & Hin & Heq)]; [by left|]. right. split; [done|]. apply elem_of_cons in Hin as [Hin|Hin]; [|by exists px', g'].
      injection Hin as -> ->. congruence.
  - case_bool_decide as Hr.
    + intros H k. rewrite (IH _ _ H k). split.
      * intros [?|(? & px' & g' & ? & ?)]; [by left|]. right. split; [done|]. exists px', g'. split; [by right|done].
      * intros [?|(Hk & px' & g' & Hin & Heq)]; [by left|]. apply elem_of_cons in Hin as [Hin|Hin]; [|right; split; [done|]; by exists px', g'].
        injection Hin as -> ->. left. by rewrite <- Heq.
    + destruct (g.1.2) eqn:Ev; [done|]. intros H k. rewrite (IH _ _ H k). rewrite elem_of_union, elem_of_singleton. split.
      * intros [[->|?]|(? & px' & g' & ? & ?)]; [|by left|].
        -- right. split; [done|]. exists px, g. split; [left|done].
        -- right. split; [done|]. exists px', g'. split; [by right|done].
      * intros [?|(Hk & px' & g' & Hin & Heq)]; [left; by right|]. apply elem_of_cons in Hin as [Hin|Hin]; [|right; split; [done|]; by exists px', g'].
        injection Hin as -> ->. left. left. done.
Qed.

(** ** The cache and the documents *)
Lemma last_sent_snoc JE evs e ns n o : last_sent JE (evs ++ [e]) ns n o <->
  (re_type e = str "ADDED" \/ re_type e = str "MODIFIED") /\ decode_obj JE (re_text e) = Ok o /\ (me_namespace (t_meta o), me_name (t_meta o)) = (ns, n) \/
  last_sent JE evs ns n o /\ (forall o', re_type e ∈ changes -> decode_obj JE (re_text e) = Ok o' -> (me_namespace (t_meta o'), me_name (t_meta o')) <> (ns, n)).
Proof.
  split.
  - intros (b & x & a & Heq & Ht & Hd & Hk & Ha). destruct a as [|y a _] using rev_ind.
    + apply app_inj_tail in Heq as [-> ->]. by left.
    + rewrite app_comm_cons, app_assoc in Heq. apply app_inj_tail in Heq as [-> ->]. right. split.
      * exists b, x, a. split; [done|]. split; [done|]. split; [done|]. split; [done|]. intros e' o' Hin. apply Ha. apply elem_of_app. by left.
      * intros o' Hc Ho'. apply (Ha y); [|done|done]. apply elem_of_app. right. left.
  - intros [(Ht & Hd & Hk)|[(b & x & a & -> & Ht & Hd & Hk & Ha) He]].
    + exists evs, e, []. split; [done|]. split; [done|]. split; [done|]. split; [done|]. intros e' o' Hin. by apply elem_of_nil in Hin.
    + exists b, x, (a ++ [e]). split; [by rewrite app_comm_cons, app_assoc|]. split; [done|]. split; [done|]. split; [done|].
      intros e' o' Hin Hc Ho'. apply elem_of_app in Hin as [Hin|Hin]; [by apply (Ha e')|]. apply elem_of_list_singleton in Hin as ->. by apply He.
Qed.
Lemma put_changes t : t = str "ADDED" \/ t = str "MODIFIED" -> t ∈ changes.
Proof. unfold changes. intros [->| ->]; set_solver. Qed.
Lemma last_sent_fun JE evs ns n o o' : last_sent JE evs ns n o -> last_sent JE evs ns n o' -> o = o'.
Proof.
  revert o o'. induction evs as [|e evs IH] using rev_ind; intros o o'.
  { intros (b & x & a & Heq & _). by destruct b. }
  rewrite !last_sent_snoc. intros [(Ht & Hd & Hk)|[H1 H2]] [(Ht' & Hd' & Hk')|[H1' H2']].
  - congruence.
  - destruct (H2' o (put_changes _ Ht) Hd Hk).
  - destruct (H2 o' (put_changes _ Ht') Hd' Hk').
  - by apply IH.
Qed.
Section docs.
  Context (E : env).
  Lemma replay_docs JE g kind cf c evs ns n : Forall (about g kind) evs ->
    match replay E cf c (map (item_of JE) evs) ns n with
    | Some en => exists o, last_sent JE evs ns n o /\ en = (build E cf c (to_obj o)).2
    | None => forall o, ~ last_sent JE evs ns n o
    end.
  Proof.
    induction evs as [|e evs IH] using rev_ind; intros HF.
    { cbn. intros o (b & x & a & Heq & _). by destruct b. }
    apply Forall_app in HF as [HF He]. apply Forall_cons in He as [He _]. specialize (IH HF). rewrite map_app. cbn [map]. rewrite replay_snoc.
    destruct (about_type g kind e He) as (_ & Hno & Hch & Hput). destruct (decode_document JE g kind _ (proj2 He)) as [o Ho].
    unfold item_of. rewrite Ho. set (old := replay E cf c (map (item_of JE) evs) ns n) in *.
    assert (obj_key E cf (to_obj o) = (me_namespace (t_meta o), me_name (t_meta o))) as Hkey by reflexivity.
    assert ((me_namespace (t_meta o), me_name (t_meta o)) <> (ns, n) \/ re_type e ∉ changes ->
      match old with Some en => exists o', last_sent JE (evs ++ [e]) ns n o' /\ en = (build E cf c (to_obj o')).2 | None => forall o', ~ last_sent JE (evs ++ [e]) ns n o' end) as Hold.
    { intros Hne. assert (forall o', last_sent JE (evs ++ [e]) ns n o' <-> last_sent JE evs ns n o') as Hiff.
      { intros o'. rewrite last_sent_snoc. split.
        - intros [(Ht & Hd & Hk)|[H _]]; [|done]. rewrite Ho in Hd. injection Hd as <-. apply put_changes in Ht. by destruct Hne.
        - intros H. right. split; [done|]. intros o2 Hc Hd. rewrite Ho in Hd. injection Hd as <-. by destruct Hne. }
      destruct old as [en|]; [destruct IH as (o' & H & ->); exists o'; split; [by apply Hiff|done]|]. intros o' H%Hiff. by apply (IH o'). }
    destruct (item_type (re_type e)) eqn:Et; cbn [item_after]; rewrite ?Hkey.
    - destruct (decide _) as [Hk|Hk]; [|apply Hold; by left]. exists o. split; [|done]. apply last_sent_snoc. left. split; [apply Hput; by left|done].
    - destruct (decide _) as [Hk|Hk]; [|apply Hold; by left]. exists o. split; [|done]. apply last_sent_snoc. left. split; [apply Hput; by right|done].
    - destruct (decide _) as [Hk|Hk]; [|apply Hold; by left]. intros o' H. apply last_sent_snoc in H as [(Ht & _)|[_ H]].
      + destruct Hput as [_ Hput]. by destruct (Hput Ht).
      + apply (H o); [|done|done]. destruct (decide (re_type e ∈ changes)) as [|Hn]; [done|]. specialize (Hno Hn). done.
    - apply Hold. right. intros Hc. by destruct (Hch Hc).
  Qed.
  (** The calls that a run of the watchers makes. *)
  Lemma runs_calls ws conf tr w : wruns E ws (wstart ws conf) tr w ->
    exists h, run_calls E (new_store conf) h = Ok (ws_store w) /\
      forall k, k ∈ h -> (exists g c, k = CClean g c) \/ exists j g c x, WAct j (LRecv x) ∈ tr /\ k ∈ event_call g c x.
  Proof.
    intros H. assert ((exists h, run_calls E (new_store conf) h = Ok (ws_store w) /\
      forall k, k ∈ h -> (exists g c, k = CClean g c) \/ exists j g c x, WAct j (LRecv x) ∈ tr /\ k ∈ event_call g c x) /\
      forall j f x, ws_phases w !! j = Some (PGot f x) -> WAct j (LRecv x) ∈ tr) as [? _]; [|done].
    induction H as [|tr w l w' H [(h & Hh & Hin) Hph] Hs].
    { split; [exists []; split; [done|]; intros k Hk; by apply elem_of_nil in Hk|]. intros j f x Hj. cbn in Hj. rewrite list_lookup_fmap in Hj. by destruct (ws !! j). }
    assert (forall h2, (forall k, k ∈ h2 -> (exists g c, k = CClean g c) \/ exists j g c x, WAct j (LRecv x) ∈ tr /\ k ∈ event_call g c x) ->
      forall k, k ∈ h ++ h2 -> (exists g c, k = CClean g c) \/ exists j g c x, WAct j (LRecv x) ∈ l :: tr /\ k ∈ event_call g c x) as Happ.
    { intros h2 H2 k Hk. apply elem_of_app in Hk as [Hk|Hk]; [apply Hin in Hk|apply H2 in Hk]; (destruct Hk as [?|(j & g & c & x & ? & ?)]; [by left|right; exists j, g, c, x; split; [by right|done]]). }
    assert (forall h2 st', run_calls E (ws_store w) h2 = Ok st' -> run_calls E (new_store conf) (h ++ h2) = Ok st') as Hrun.
    { intros h2 st' H2. rewrite run_app. by rewrite Hh. }
    destruct Hs as [w j g c ph l st' ph' Hj Hphj Ha|w]; cbn [ws_store ws_phases] in *.
    - assert (forall f x, ph' = PGot f x -> WAct j (LRecv x) ∈ WAct j l :: tr) as Hnew.
      { intros f x ->. inversion Ha; subst; [left|right; by eapply Hph|]. by destruct i. }
      split.
      + inversion Ha; subst; try (exists h; split; [done|]; intros k Hk; specialize (Happ []); rewrite app_nil_r in Happ; apply Happ; [|done]; intros ? Hx; by apply elem_of_nil in Hx).
        * exists (h ++ [CClean g c]). split; [by apply Hrun|]. apply Happ. intros k Hk. apply elem_of_list_singleton in Hk as ->. left. by eexists _, _.
        * exists (h ++ event_call g c i). split; [by apply Hrun|]. apply Happ. intros k Hk. right. exists j, g, c, i. split; [by eapply Hph|done].
      + intros j' f x Hj'. destruct (decide (j = j')) as [<-|Hne].
        * rewrite list_lookup_insert in Hj' by (by eapply lookup_lt_Some). injection Hj' as Hj'. by eapply Hnew.
        * rewrite list_lookup_insert_ne in Hj' by done. right. by eapply Hph.
    - split; [|intros j f x Hj; right; by eapply Hph]. exists h. split; [done|]. intros k Hk. specialize (Happ []). rewrite app_nil_r in Happ. apply Happ; [|done].
      intros ? Hx. by apply elem_of_nil in Hx.
  Qed.
  (** A goroutine that only receives errors and closed streams never stores anything. *)
  Lemma runs_nothing ws conf tr w i g c : wruns E ws (wstart ws conf) tr w -> alone ws i g c ->
    (forall t o, WAct i (LRecv (IEvent t o)) ∈ tr -> t = EvOther) -> forall ns n, lookup_entry (ws_store w) g c ns n = None.
  Proof.
    intros H [Hi Hal] Hx ns n.
    assert (lookup_entry (ws_store w) g c ns n = None /\ forall f t o, ws_phases w !! i = Some (PGot f (IEvent t o)) -> t = EvOther) as [? _]; [|done].
    induction H as [|tr w l w' H IH Hs].
    { split; [|intros f t o Hj; cbn in Hj; rewrite list_lookup_fmap in Hj; by destruct (ws !! i)]. cbn. unfold lookup_entry. cbn. rewrite lookup_fmap.
      destruct (conf !! g); cbn; [|done]. by rewrite (lookup_empty (M:=gmap gostr)). }
    destruct IH as [IH1 IH2]; [intros t o Ht; apply (Hx t o); by right|].
    destruct Hs as [w j g' c' ph l st' ph' Hj Hphj Ha|w]; cbn [ws_store ws_phases] in *; [|done]. destruct (decide (j = i)) as [->|Hne].
    - rewrite Hi in Hj. injection Hj as <- <-. rewrite list_lookup_insert by (by eapply lookup_lt_Some). split.
      + inversion Ha as [| | | | | |st1 st2 x Hc|st1 st2 x Hc]; subst; try done.
        * destruct (clean_lookup E _ _ _ _ g c ns n Hc) as [_ ->]. by rewrite decide_True.
        * destruct (item_lookup E _ _ _ _ _ g c ns n Hc) as [_ ->]. rewrite decide_True by done. destruct x as [t o|]; [|done].
          rewrite (IH2 false t o Hphj). done.
      + intros f t o [= ->]. inversion Ha; subst; [apply (Hx t o); left|by eapply IH2|]. by destruct i0.
    - split; [|by rewrite list_lookup_insert_ne]. rewrite <- IH1. eapply act_other; [exact Ha|]. intros [= -> ->]. by apply Hne, Hal.
  Qed.
End docs.

(** ** Printing *)
Lemma valid_ascii s : Forall (fun c => (code c < 128)%N) s -> valid_utf8 s = true.
Proof. induction 1 as [|c s Hc _ IH]; [done|]. change (c :: s) with ([c] ++ s). apply valid_rune; [by apply one_rune_ascii|done]. Qed.
Lemma hex_ascii n : (code (hexdigit (n mod 16)) < 128)%N.
Proof.
  assert (n mod 16 < 16)%N by (apply N.mod_lt; lia). unfold hexdigit. destruct (N.ltb_spec (n mod 16) 10); rewrite code_byte; lia.
Qed.
Lemma json_rune_valid s r w : decode_rune s = Some (r, w) -> valid_utf8 (json_rune r (take w s)) = true.
Proof.
  intros H. assert (valid_utf8 (take w s) = true) as Hv by (rewrite <- (app_nil_r (take w s)); apply valid_rune; [by eapply one_rune_take|done]).
  unfold json_rune. destruct ((r =? 34) || (r =? 92))%N eqn:E1; [by apply (valid_app ["\"%char])|].
  destruct (r =? 10)%N; [reflexivity|]. destruct (r =? 13)%N; [reflexivity|]. destruct (r =? 9)%N; [reflexivity|].
  destruct ((r <? 32) || (r =? 60) || (r =? 62) || (r =? 38))%N eqn:E2.
  { apply valid_app; [reflexivity|]. apply valid_ascii. unfold hex2. repeat (apply Forall_cons_2; [apply hex_ascii|]). constructor. }
  destruct ((r =? 8232) || (r =? 8233))%N; [|done]. apply valid_app; [reflexivity|]. apply valid_ascii. unfold hex4, hex2. cbn [app]. repeat (apply Forall_cons_2; [apply hex_ascii|]). constructor.
Qed.

Lemma json_go_valid s : forall k, valid_utf8 (json_str_go k s) = true.
Proof.
  induction s as [|c s IH]; intros k; [done|]. destruct k as [|k]; cbn [json_str_go]; [|apply IH].
  destruct (decode_rune (c :: s)) as [[r w]|] eqn:Ed; [|by apply valid_app]. apply valid_app; [by apply json_rune_valid|apply IH].
Qed.
Lemma json_str_valid s : valid_utf8 (json_str s) = true.
Proof. unfold json_str. apply (valid_app [dquote]); [reflexivity|]. apply valid_app; [apply json_go_valid|reflexivity]. Qed.
Lemma join_valid sep l : valid_utf8 sep = true -> Forall (fun s => valid_utf8 s = true) l -> valid_utf8 (join sep l) = true.
Proof.
  intros Hs. induction 1 as [|x l Hx HF IH]; [done|]. destruct l as [|y l]; [done|]. cbn [join]. apply valid_app; [done|]. by apply valid_app.
Qed.
Lemma marshal_map_valid m : valid_utf8 (marshal_map m) = true.
Proof.
  unfold marshal_map. apply valid_app; [reflexivity|]. apply valid_app; [|reflexivity]. apply join_valid; [reflexivity|]. apply Forall_forall.
  intros s Hs. apply elem_of_list_fmap in Hs as (kv & -> & _). apply valid_app; [apply json_str_valid|]. apply valid_app; [reflexivity|apply json_str_valid].
Qed.
(** Members with fixed distinct names determine the fields. *)
Lemma members_inj fs : forall fs', NoDup fs.*1 -> fs'.*1 = fs.*1 -> members fs = members fs' -> fs = fs'.
Proof.
  assert (forall fs k, k ∉ fs.*1 -> k ∉ (members fs).*1) as Hin.
  { clear. intros fs k Hk ([k' v] & -> & Hv%members_elem)%elem_of_list_fmap. apply Hk. apply elem_of_list_fmap. by exists (k', Some v). }
  induction fs as [|[k o] fs IH]; intros [|[k' o'] fs'] Hnd Hk Hm; try done. cbn [fmap list_fmap fst] in *. injection Hk as -> Hk. apply NoDup_cons in Hnd as [Hn Hnd].
  pose proof Hn as Hn'. rewrite <- Hk in Hn'. apply Hin in Hn, Hn'.
  rewrite !members_cons in Hm. destruct o as [v|], o' as [v'|]; cbn [app] in Hm.
  - injection Hm as -> Hm. f_equal. by apply IH.
  - destruct Hn'. rewrite <- Hm. left.
  - destruct Hn. rewrite Hm. left.
  - f_equal. by apply IH.
Qed.
Definition set_annos (m : meta) (a : gmap gostr gostr) : meta :=
  Meta (me_name m) (me_generate m) (me_namespace m) (me_self m) (me_uid m) (me_version m) (me_generation m) (me_created m) (me_deleted m)
    (me_grace m) (me_labels m) a (me_owners m) (me_finalizers m) (me_cluster m).
Lemma cons_inv {A} (x y : A) l m : x :: l = y :: m -> x = y /\ l = m.
Proof. intros [= -> ->]. done. Qed.
Lemma meta_json_annos m m' a : meta_json m = meta_json m' -> meta_json (set_annos m a) = meta_json (set_annos m' a).
Proof.
  unfold meta_json. intros H. apply (f_equal (fun j => match j with JObj l => l | _ => [] end)) in H. cbv beta iota in H. apply members_inj in H; [| |reflexivity].
  - unfold meta_fields in H |- *. cbn [me_name me_generate me_namespace me_self me_uid me_version me_generation me_created me_deleted me_grace me_labels me_annos me_owners me_finalizers me_cluster set_annos].
    repeat match goal with H : _ :: _ = _ :: _ |- _ => apply cons_inv in H; destruct H as [? H] end.
    repeat match goal with H : (?k, _) = (?k, _) |- _ => apply pair_equal_spec in H as [_ ->] end. reflexivity.
  - unfold meta_fields. cbn [fmap list_fmap fst]. apply NoDup_ListNoDup. repeat (constructor; [cbn [In]; intuition discriminate|]). constructor.
Qed.
Lemma head_split o : members (head_fields o) = members [(str "kind", ne_str (t_kind o)); (str "apiVersion", ne_str (t_api o))] ++ [(str "metadata", meta_json (t_meta o))].
Proof. unfold head_fields. rewrite !members_cons. cbn [members flat_map]. rewrite ?app_nil_r, <- ?app_assoc. reflexivity. Qed.
Lemma to_obj_data o k : to_obj o = OKube k -> k_data k = JObj (t_data o ++ members (head_fields o)).
Proof. unfold to_obj. intros [= <-]. reflexivity. Qed.
Lemma put_annos_inv o a o' a' : put_annos (to_obj o) a = put_annos (to_obj o') a' ->
  a = a' /\ t_data o ++ members [(str "kind", ne_str (t_kind o)); (str "apiVersion", ne_str (t_api o))] =
            t_data o' ++ members [(str "kind", ne_str (t_kind o')); (str "apiVersion", ne_str (t_api o'))] /\
  meta_json (t_meta o) = meta_json (t_meta o').
Proof.
  intros H. assert (a = a') as -> by exact (f_equal (fun x => match x with OKube k => k_annos k | ORaw _ => ∅ end) H). split; [done|].
  apply (f_equal (fun x => match x with OKube k => match k_data k with JObj l => l | _ => [] end | ORaw _ => [] end)) in H.
  change (t_data o ++ members (head_fields o) = t_data o' ++ members (head_fields o')) in H. rewrite !head_split, !app_assoc in H.
  apply app_inj_tail in H as [H1 H2]. split; [done|]. by apply pair_equal_spec in H2 as [_ ?].
Qed.
Lemma prints_inv o a s : prints (put_annos (to_obj o) a) s -> s = encode_obj (with_annos o a).
Proof.
  remember (put_annos (to_obj o) a) as x eqn:Hx. intros Hp. revert Hx. destruct Hp as [o2 a2]. intros Hx. apply put_annos_inv in Hx as (-> & H1 & H2).
  rewrite !encode_text, !head_split. cbn [t_data t_kind t_api t_meta with_annos]. rewrite !app_assoc, H1. do 4 f_equal.
  f_equal. exact (meta_json_annos _ _ a H2).
Qed.
Lemma prints_typed_inv o a s : prints_typed (put_annos (to_obj o) a) s -> exists o2, meta_json (t_meta o) = meta_json (t_meta o2) /\
    t_data o2 ++ members [(str "kind", ne_str (t_kind o2)); (str "apiVersion", ne_str (t_api o2))] =
    t_data o ++ members [(str "kind", ne_str (t_kind o)); (str "apiVersion", ne_str (t_api o))] /\
    s = json_text (JObj (members (head_fields (with_annos o2 a)) ++ t_data o2)).
Proof.
  remember (put_annos (to_obj o) a) as x eqn:Hx. intros Hp. revert Hx. destruct Hp as [o2 a2]. intros Hx. apply put_annos_inv in Hx as (-> & H1 & H2). by exists o2.
Qed.
Lemma good_annotated JE o a : good_obj JE o -> valid_map a -> good_obj JE (with_annos o a).
Proof.
  intros [H1 H2 H3 H4 H5 H6] Ha. split; try done. destruct H3. by split.
Qed.
Section build.
  Context (E : env).
  Lemma build_annos cf c o : exists a, en_obj (build E cf c (to_obj o)).2 = put_annos (to_obj o) a /\
    annotated_as c o (with_annos o a) /\ (valid_map (me_annos (t_meta o)) -> valid_utf8 c = true -> valid_map a).
  Proof.
    eexists. split; [reflexivity|]. cbn [k_annos set_anno]. split.
    - split; [done|]. split; [done|]. split; [done|]. split; [by eexists|]. cbn [me_annos t_meta with_annos]. split_and!.
      + rewrite lookup_insert_ne by discriminate. by rewrite lookup_insert.
      + rewrite lookup_insert. by eexists.
      + intros x H1 H2. rewrite !lookup_insert_ne by done. done.
    - intros Ha Hc. apply map_Forall_insert_2; [split; [reflexivity|apply marshal_map_valid]|]. apply map_Forall_insert_2; [split; [reflexivity|done]|done].
  Qed.
End build.
(** The JSON value of a list. *)
Definition list_json (api kind path : gostr) (remain : Z) (items : list json) : json :=
  JObj [(str "apiVersion", JStr api); (str "items", match items with [] => JNull | _ => JArr items end); (str "kind", JStr kind);
        (str "metadata", JObj [(str "remainingItemCount", JNum (itoa remain)); (str "selfLink", JStr path)])].
Lemma list_text_json api kind path remain js : list_text api kind path remain (map json_text js) = json_text (list_json api kind path remain js).
Proof.
  unfold list_text, list_json. destruct js as [|j js].
  - cbn [map json_text join fst snd]. rewrite <- ?app_assoc. reflexivity.
  - cbn [map]. change (json_text j :: map json_text js) with (map json_text (j :: js)). cbn [json_text join fst snd map].
    change (json_text j :: map json_text js) with (map json_text (j :: js)).
    rewrite <- ?app_assoc. reflexivity.
Qed.
