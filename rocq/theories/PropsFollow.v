(** C77: how the cache follows the clusters. *)
From Coq Require Import Ascii String NArith ZArith Lia.
From stdpp Require Import base gmap strings list.
From Verif Require ProofsCodec PropsSelector PropsStore PropsWatcher PropsProxy PropsServe PropsFakePages PropsLive.
From Verif Require Import ModelStr ModelStore ModelProxy ModelServer ModelServe ModelWatcher ModelFollow
  SpecLabels SpecStore SpecWatcher SpecServer SpecServe SpecFollow ProofsStr ProofsStore ProofsWatcher.

Section follow.
  Context (E : env).
  (** ** Replays *)
  Lemma replay_app cf c a b ns n : replay E cf c (a ++ b) ns n = foldl (fun old it => item_after E cf c it ns n old) (replay E cf c a ns n) b.
  Proof. unfold replay. by rewrite foldl_app. Qed.
  Lemma adds_put cf os ns n o : NoDup (map (obj_key E cf) os) ->
    last_put E cf (map (IEvent EvAdded) os) ns n o <-> o ∈ os /\ obj_key E cf o = (ns, n).
  Proof.
    intros Hnd. induction os as [|x os IH] using rev_ind.
    { split; [by intros ?%last_put_nil|]. intros [?%elem_of_nil _]. done. }
    rewrite map_app in Hnd |- *. cbn [map] in Hnd |- *. apply NoDup_app in Hnd as (Hnd & Hx & _). specialize (IH Hnd).
    rewrite last_put_snoc, IH, elem_of_app, elem_of_list_singleton. split.
    - intros [(t & [= <- <-] & _ & Hk)|[[Hin Hk] _]]; [split; [by right|done]|split; [by left|done]].
    - intros [[Hin| ->] Hk].
      + right. split; [done|]. intros t' o' [= <- <-] _ Hk'. apply (Hx (obj_key E cf o)).
        * apply elem_of_list_fmap. by exists o.
        * rewrite Hk, <- Hk'. by apply elem_of_list_singleton.
      + left. exists EvAdded. by auto.
  Qed.
  Lemma snapshot_put cf log init ns n o : snapshot E cf log init -> last_put E cf init ns n o <-> last_put E cf log ns n o.
  Proof. intros (os & -> & Hnd & H). by rewrite adds_put, H. Qed.
  Lemma put_same cf a b c ns n : (forall o, last_put E cf a ns n o <-> last_put E cf b ns n o) ->
    replay E cf c a ns n = replay E cf c b ns n.
  Proof.
    intros H. pose proof (replay_last E cf c a ns n) as Ha. pose proof (replay_last E cf c b ns n) as Hb.
    destruct (replay E cf c a ns n) as [e|], (replay E cf c b ns n) as [e'|]; [|exfalso|exfalso|done].
    - destruct Ha as (o & Ho & ->), Hb as (o' & Ho' & ->). f_equal. enough (o = o') as -> by done. apply H in Ho.
      clear -Ho Ho'. revert Ho Ho'. induction b as [|it b IH] using rev_ind; [by intros ?%last_put_nil|]. rewrite !last_put_snoc.
      intros [(t & -> & Ht & Hk)|[Ha Hb]] [(t2 & Hi & Ht2 & Hk2)|[Ha2 Hb2]].
      + by injection Hi as _ ->.
      + exfalso. apply (Hb2 t o eq_refl); [by destruct Ht as [->| ->]|done].
      + exfalso. apply (Hb t2 o' Hi); [by destruct Ht2 as [->| ->]|done].
      + by apply IH.
    - destruct Ha as (o & Ho & _). apply (Hb o). by apply H.
    - destruct Hb as (o & Ho & _). apply (Ha o). by apply H.
  Qed.
  Lemma snapshot_replay cf log init more c ns n : snapshot E cf log init ->
    replay E cf c (init ++ more) ns n = replay E cf c (log ++ more) ns n.
  Proof. intros H. rewrite !replay_app. f_equal. apply put_same. intros o. by apply snapshot_put. Qed.

  (** ** The invariant *)
  Definition shown (cf : gmap gostr gostr) (g : gvr) (c : gostr) (st : store) (items : list item) : Prop :=
    forall ns n, lookup_entry st g c ns n = replay E cf c items ns n.
  Definition finv (cf : gmap gostr gostr) (g : gvr) (c : gostr) (st : store) (ph : phase) (f : feed) : Prop :=
    Forall change (fd_log f) /\
    exists l0 l1 init sofar, fd_log f = l0 ++ l1 ++ fd_behind f /\ snapshot E cf l0 init /\ init = sofar ++ fd_rest f /\
      (fd_rest f <> [] -> l1 = []) /\
      match ph with
      | PStream true | PGot true _ => sofar = [] /\ l1 = []
      | PDone => True
      | _ => shown cf g c st (sofar ++ l1)
      end /\
      match ph with PGot _ it => is_change it = false \/ head (fd_rest f ++ fd_behind f) = Some it | _ => True end.
  Lemma finv_ext cf g c st st' ph f : (forall ns n, lookup_entry st' g c ns n = lookup_entry st g c ns n) ->
    finv cf g c st ph f -> finv cf g c st' ph f.
  Proof.
    intros H (Hf & l0 & l1 & init & sofar & Hl & Hs & Hi & Hr & Hp & Hg). split; [done|]. exists l0, l1, init, sofar.
    split; [done|]. split; [done|]. split; [done|]. split; [done|]. split; [|done].
    assert (shown cf g c st (sofar ++ l1) -> shown cf g c st' (sofar ++ l1)) as Hsh by (intros Hx ns n; by rewrite H).
    destruct ph as [| |[]|[] x|]; auto.
  Qed.
  Lemma head_app_some {A} (a b : list A) x : head a = Some x -> head (a ++ b) = Some x.
  Proof. by destruct a. Qed.
  Lemma finv_change cf g c st ph f it : change it -> finv cf g c st ph f ->
    finv cf g c st ph (Feed (fd_log f ++ [it]) (fd_rest f) (fd_behind f ++ [it])).
  Proof.
    intros Hit (Hf & l0 & l1 & init & sofar & Hl & Hs & Hi & Hr & Hp & Hg). split; [cbn; apply Forall_app; auto|].
    exists l0, l1, init, sofar. cbn [fd_log fd_rest fd_behind]. split; [rewrite Hl; by rewrite <- !app_assoc|].
    split; [done|]. split; [done|]. split; [done|]. split; [done|].
    destruct ph as [| | |b x|]; try done. destruct Hg as [Hg|Hg]; [by left|]. right. rewrite app_assoc. by apply head_app_some.
  Qed.
  Lemma finv_act cf g c stop st ph l st' ph' f f' : conf_of st g = cf -> wact E g c stop st ph l st' ph' -> serves E cf f ph l f' ->
    finv cf g c st ph f -> finv cf g c st' ph' f'.
  Proof.
    intros Hcf Ha Hsv (Hf & l0 & l1 & init & sofar & Hl & Hs & Hi & Hr & Hp & Hg).
    assert (forall ph2, match ph2 with PStream true | PGot true _ => sofar = [] /\ l1 = [] | PDone => True | _ => shown cf g c st' (sofar ++ l1) end ->
      match ph2 with PGot _ it => is_change it = false \/ head (fd_rest f ++ fd_behind f) = Some it | _ => True end -> finv cf g c st' ph2 f) as Hsame.
    { intros ph2 H1 H2. split; [done|]. by exists l0, l1, init, sofar. }
    destruct Ha as [st Hst|st Hst|st|st|st b x|st b Hst|st st' x H|st st' x H].
    - inversion Hsv; subst. by apply Hsame.
    - inversion Hsv; subst. by apply Hsame.
    - inversion Hsv as [init' Hs'| | |ph l Hl' ]; subst; [|by destruct Hl' as [?|[?|[?|?]]]].
      split; [done|]. exists (fd_log f), [], init', []. cbn [fd_log fd_rest fd_behind]. by rewrite !app_nil_r.
    - inversion Hsv; subst. by apply Hsame.
    - inversion Hsv as [|b' it Hx| |ph l Hl']; subst; [|by destruct Hl' as [?|[?|[?|?]]]]. by apply Hsame.
    - inversion Hsv; subst. by apply Hsame.
    - inversion Hsv; subst. destruct Hp as [-> ->]. apply Hsame; [|done]. intros ns n. destruct (clean_lookup E _ _ _ _ g c ns n H) as [_ ->].
      by rewrite decide_True.
    - inversion Hsv as [| |x'|ph l Hl']; subst; [|by destruct Hl' as [?|[?|[?|?]]]].
      assert (forall ns n, lookup_entry st' g c ns n = replay E (conf_of st g) c ((sofar ++ l1) ++ [x]) ns n) as Hsh.
      { intros ns n. rewrite replay_snoc. destruct (item_lookup E _ _ _ _ _ g c ns n H) as [_ ->]. rewrite decide_True by done. by rewrite Hp. }
      destruct (is_change x) eqn:Ex.
      + assert (match x with IClosed => PIdle | _ => PStream false end = PStream false) as -> by (by destruct x).
        destruct Hg as [Hg|Hg]; [congruence|]. split; [unfold drop_first; by destruct (fd_rest f)|]. unfold drop_first.
        destruct (fd_rest f) as [|y r] eqn:Er.
        * destruct (fd_behind f) as [|y b'] eqn:Eb; [discriminate Hg|]. cbn [app head] in Hg. injection Hg as ->.
          exists l0, (l1 ++ [x]), (sofar ++ []), sofar. cbn [fd_log fd_rest fd_behind tail]. split; [rewrite Hl; by rewrite <- !app_assoc|].
          split; [done|]. split; [done|]. split; [done|]. split; [|done]. intros ns n. rewrite Hsh. by rewrite <- app_assoc.
        * cbn [app head] in Hg. injection Hg as ->. assert (l1 = []) as -> by (by apply Hr).
          exists l0, [], (sofar ++ x :: r), (sofar ++ [x]). cbn [fd_log fd_rest fd_behind]. split; [done|]. split; [done|].
          split; [by rewrite <- app_assoc|]. split; [done|]. split; [|done]. intros ns n. rewrite Hsh, !app_nil_r. done.
      + apply Hsame; [|by destruct x]. assert (shown (conf_of st g) g c st' (sofar ++ l1)) as Hsh'.
        { intros ns n. rewrite Hsh, replay_snoc. destruct x as [[]|]; done. }
        by destruct x.
  Qed.
  Lemma fruns_wruns ws conf y0 tr y : fstart E ws conf y0 -> fruns E ws conf y0 tr y ->
    exists wtr, wruns E ws (wstart ws conf) wtr (fs_w y).
  Proof.
    intros (H0 & _) H. induction H as [|tr y l y' H [wtr IH] Hs]; [exists []; rewrite H0; constructor|].
    destruct Hs as [y i g c ph l w' f f' _ _ _ Hw _|y i f it _ _|y w' Hw].
    - eexists. by econstructor.
    - by exists wtr.
    - eexists. by econstructor.
  Qed.
  Lemma fruns_inv ws conf y0 tr y i g c : fstart E ws conf y0 -> fruns E ws conf y0 tr y -> alone ws i g c ->
    exists ph f, ws_phases (fs_w y) !! i = Some ph /\ fs_feeds y !! i = Some f /\ finv (default ∅ (conf !! g)) g c (ws_store (fs_w y)) ph f.
  Proof.
    intros H0 H [Hi Hal]. assert (forall tr y, fruns E ws conf y0 tr y -> st_conf (ws_store (fs_w y)) = conf) as Hconf.
    { intros tr1 y1 H1. destruct (fruns_wruns _ _ _ _ _ H0 H1) as [wtr Hw]. by eapply runs_conf. }
    induction H as [|tr y l y' H IH Hs].
    - destruct H0 as (Hw & Hlen & Hfeed). exists PIdle.
      destruct (lookup_lt_is_Some_2 (fs_feeds y0) i) as [f Hf]; [rewrite Hlen; by eapply lookup_lt_Some|].
      exists f. rewrite Hw. split; [unfold wstart; cbn [ws_phases]; by rewrite list_lookup_fmap, Hi|]. split; [done|].
      destruct (Hfeed i g c f Hi Hf) as (Hch & Hsn & Hb). split; [done|]. exists (fd_log f), [], (fd_rest f), [].
      rewrite Hb, !app_nil_r. split; [done|]. split; [done|]. split; [done|]. split; [done|]. split; [|done].
      intros ns n. unfold wstart. cbn [ws_store]. by rewrite new_lookup.
    - destruct IH as (ph0 & f0 & Hph & Hf0 & Hinv).
      destruct Hs as [y j g' c' ph l w' f f' Hj Hphj Hfj Hw Hsv|y j f it Hfj Hch|y w' Hw].
      + inversion Hw as [w1 j1 g1 c1 ph1 l1 st' ph' Hj1 Hph1 Ha|]; subst. rewrite Hj in Hj1. injection Hj1 as <- <-. rewrite Hphj in Hph1. injection Hph1 as <-.
        cbn [fs_w fs_feeds ws_phases ws_store]. destruct (decide (j = i)) as [->|Hne].
        * rewrite Hi in Hj. injection Hj as <- <-. rewrite Hph in Hphj. injection Hphj as <-. rewrite Hf0 in Hfj. injection Hfj as <-.
          exists ph', f'. split; [apply list_lookup_insert; by eapply lookup_lt_Some|]. split; [apply list_lookup_insert; by eapply lookup_lt_Some|].
          eapply finv_act; [|exact Ha|exact Hsv|exact Hinv]. unfold conf_of. by rewrite (Hconf _ _ H).
        * exists ph0, f0. rewrite !list_lookup_insert_ne by done. split; [done|]. split; [done|]. eapply finv_ext; [|exact Hinv].
          intros ns n. eapply act_other; [exact Ha|]. intros [= -> ->]. by apply Hne, Hal.
      + cbn [fs_w fs_feeds]. exists ph0. destruct (decide (j = i)) as [->|Hne].
        * rewrite Hf0 in Hfj. injection Hfj as <-. eexists. split; [done|]. split; [apply list_lookup_insert; by eapply lookup_lt_Some|]. by apply finv_change.
        * exists f0. rewrite list_lookup_insert_ne by done. done.
      + inversion Hw; subst. by exists ph0, f0.
  Qed.
End follow.

(** ** Single replies *)
Lemma shown_reply E cf conf clients up hr r ws y0 tr y g c ns name items : fstart E ws conf y0 -> fruns E ws conf y0 tr y ->
  is_Some (conf !! g) -> cf_default cf = c -> asks_for cf g ns name hr -> serve E cf clients (ws_store (fs_w y)) up hr r ->
  (lookup_entry (ws_store (fs_w y)) g c (default [] ns) name = replay E (default ∅ (conf !! g)) c items (default [] ns) name) ->
  tells E conf g c ns name items r.
Proof.
  intros H0 H Hg Hdef (Hau & Had & Hm & Hp & Hq) Hs Hsh. destruct (fruns_wruns E ws conf y0 tr y H0 H) as [wtr Hw].
  destruct (PropsLive.wruns_history E ws conf wtr _ Hw) as [h Hh].
  pose proof (PropsServe.get_reply E cf conf h (ws_store (fs_w y)) clients up hr g ns name r Hh Hg Hau Had Hm Hp Hq Hs) as ->. rewrite Hdef.
  unfold store_get. rewrite Hsh. pose proof (replay_last E (default ∅ (conf !! g)) c items (default [] ns) name) as Hl.
  pose proof (put_same E (default ∅ (conf !! g)) items items c (default [] ns) name) as Hps.
  destruct (replay E (default ∅ (conf !! g)) c items (default [] ns) name) as [e|] eqn:Er; cbn [fmap option_fmap option_map PropsServe.get_outcome].
  - destruct Hl as (o & Ho & ->). split; [|intros Hno; by destruct (Hno o)]. intros o2 Ho2. eexists. split; [done|].
    assert (o2 = o) as ->; [|apply build_stored]. clear -Ho Ho2.
    revert Ho Ho2. induction items as [|it items IH] using rev_ind; [by intros ?%last_put_nil|]. rewrite !last_put_snoc.
    intros [(t & -> & Ht & Hk)|[Ha Hb]] [(t2 & Hi & Ht2 & Hk2)|[Ha2 Hb2]].
    + by injection Hi as _ ->.
    + exfalso. apply (Hb2 t o eq_refl); [by destruct Ht as [->| ->]|done].
    + exfalso. apply (Hb t2 o2 Hi); [by destruct Ht2 as [->| ->]|done].
    + by apply IH.
  - split; [|done]. intros o Ho. by destruct (Hl o).
Qed.
Lemma position_take f l0 l1 : fd_log f = l0 ++ l1 ++ fd_behind f -> position f = length (l0 ++ l1) /\ take (position f) (fd_log f) = l0 ++ l1.
Proof.
  intros Hl. unfold position. assert (length (fd_log f) - length (fd_behind f) = length (l0 ++ l1)) as -> by (rewrite Hl, !app_length; lia).
  split; [done|]. rewrite Hl, app_assoc. by rewrite take_app.
Qed.
(** In step, every reply is right for the cluster as it was after the changes dealt with. *)
Theorem C77_reads E cf conf clients up hr r ws y0 tr y i g c ph f ns name : fstart E ws conf y0 -> fruns E ws conf y0 tr y -> alone ws i g c ->
  ws_phases (fs_w y) !! i = Some ph -> fs_feeds y !! i = Some f -> in_step ph f ->
  is_Some (conf !! g) -> cf_default cf = c -> asks_for cf g ns name hr -> serve E cf clients (ws_store (fs_w y)) up hr r ->
  position f <= length (fd_log f) /\ tells E conf g c ns name (take (position f) (fd_log f)) r.
Proof.
  intros H0 H Ha Hph Hf [Hrest Hp] Hg Hdef Hask Hs.
  destruct (fruns_inv E ws conf y0 tr y i g c H0 H Ha) as (ph' & f' & Hph' & Hf' & Hinv). rewrite Hph in Hph'. injection Hph' as <-. rewrite Hf in Hf'. injection Hf' as <-.
  destruct Hinv as (_ & l0 & l1 & init & sofar & Hl & Hsn & Hi & _ & Hsh & _).
  destruct (position_take f l0 l1 Hl) as [Hpos ->]. split; [rewrite Hpos, Hl, !app_length; lia|].
  eapply shown_reply; try done. rewrite <- (snapshot_replay E _ l0 init l1) by done. rewrite Hrest, app_nil_r in Hi. subst init.
  assert (shown E (default ∅ (conf !! g)) g c (ws_store (fs_w y)) (sofar ++ l1)) as Hsh' by (destruct ph as [| |[]|[]|]; done). apply Hsh'.
Qed.
Print Assumptions C77_reads.
(** While the first objects of a connection arrive, an object that has not arrived is missing, and all others are
    as they were when the connection was made. *)
Theorem C77_filling E cf conf clients up hr r ws y0 tr y i g c ph f ns name : fstart E ws conf y0 -> fruns E ws conf y0 tr y -> alone ws i g c ->
  ws_phases (fs_w y) !! i = Some ph -> fs_feeds y !! i = Some f -> filling ph f ->
  is_Some (conf !! g) -> cf_default cf = c -> asks_for cf g ns name hr -> serve E cf clients (ws_store (fs_w y)) up hr r ->
  let key := (default [] ns, name) in
  ((forall t o, IEvent t o ∈ fd_rest f -> obj_key E (default ∅ (conf !! g)) o <> key) -> tells E conf g c ns name (take (position f) (fd_log f)) r) /\
  (forall t o, IEvent t o ∈ fd_rest f -> obj_key E (default ∅ (conf !! g)) o = key -> r = Some (Reply 404 [BStatus 404 (str "resource not found")])).
Proof.
  intros H0 H Ha Hph Hf [Hrest Hp] Hg Hdef Hask Hs key.
  destruct (fruns_inv E ws conf y0 tr y i g c H0 H Ha) as (ph' & f' & Hph' & Hf' & Hinv). rewrite Hph in Hph'. injection Hph' as <-. rewrite Hf in Hf'. injection Hf' as <-.
  destruct Hinv as (_ & l0 & l1 & init & sofar & Hl & Hsn & Hi & Hl1 & Hsh & _). rewrite (Hl1 Hrest) in *.
  assert (shown E (default ∅ (conf !! g)) g c (ws_store (fs_w y)) sofar) as Hsh'.
  { intros n1 n2. rewrite app_nil_r in Hsh. destruct ph as [| |[]|[]|]; try done; apply Hsh. }
  pose proof (shown_reply E cf conf clients up hr r ws y0 tr y g c ns name sofar H0 H Hg Hdef Hask Hs (Hsh' _ _)) as Ht.
  destruct (position_take f l0 [] Hl) as [_ ->]. rewrite app_nil_r. destruct Hsn as (os & Ho & Hnd & Hput). rewrite Ho in Hi.
  destruct (fmap_app_inv _ _ _ _ Hi) as (os1 & os2 & Hs1 & Hr & ->). rewrite Hr. subst sofar.
  assert (forall o, last_put E (default ∅ (conf !! g)) (map (IEvent EvAdded) os1) (default [] ns) name o <-> o ∈ os1 /\ obj_key E (default ∅ (conf !! g)) o = key) as Hp1.
  { intros o. apply adds_put. rewrite map_app in Hnd. by apply NoDup_app in Hnd as [? _]. }
  split.
  - intros Hno. destruct Ht as [Ht1 Ht2]. split.
    + intros o Hlp. apply Ht1, Hp1. apply Hput in Hlp as [Hin Hk]. split; [|done]. apply elem_of_app in Hin as [?|Hin]; [done|].
      destruct (Hno EvAdded o); [|done]. apply elem_of_list_fmap. by exists o.
    + intros Hnone. apply Ht2. intros o [Hin Hk]%Hp1. apply (Hnone o), Hput. split; [|done]. apply elem_of_app. by left.
  - intros t o Hin Hk. destruct Ht as [_ Ht2]. apply Ht2. intros o' [Hin' Hk']%Hp1.
    apply elem_of_list_fmap in Hin as (o2 & [= -> <-] & Hin). rewrite map_app in Hnd. apply NoDup_app in Hnd as (_ & Hd & _).
    apply (Hd key); apply elem_of_list_fmap; [by exists o'|by exists o].
Qed.
Print Assumptions C77_filling.

(** ** Lists *)
Lemma fruns_recv E ws conf y0 tr y : fstart E ws conf y0 -> fruns E ws conf y0 tr y ->
  exists wtr, wruns E ws (wstart ws conf) wtr (fs_w y) /\ forall j l, WAct j l ∈ wtr -> FAct j l ∈ tr.
Proof.
  intros (H0 & _) H. induction H as [|tr y l y' H (wtr & IH & Hin) Hs]; [exists []; rewrite H0; split; [constructor|by intros j l ?%elem_of_nil]|].
  destruct Hs as [y i g c ph l w' f f' _ _ _ Hw _|y i f it _ _|y w' Hw].
  - exists (WAct i l :: wtr). split; [by econstructor|]. intros j l2 [Heq|Hj]%elem_of_cons; [injection Heq as -> ->; by left|]. right. by apply Hin.
  - exists wtr. split; [done|]. intros j l Hj. right. by apply Hin.
  - exists (WStop :: wtr). split; [by econstructor|]. intros j l [Heq|Hj]%elem_of_cons; [discriminate Heq|]. right. by apply Hin.
Qed.
(** In step, a list of the objects of a type has exactly those of the cluster as it was after the changes dealt
    with, each once. *)
Theorem C77_list E cf conf clients up hr r ws y0 tr y i g c ph f ns : fstart E ws conf y0 -> fruns E ws conf y0 tr y -> alone ws i g c ->
  ws_phases (fs_w y) !! i = Some ph -> fs_feeds y !! i = Some f -> in_step ph f ->
  (forall j t o, FAct j (LRecv (IEvent t o)) ∈ tr -> t <> EvOther -> exists k, o = OKube k) ->
  is_Some (conf !! g) -> cf_default cf = c -> c <> [] -> legal_value c -> asks_for_list cf g ns hr ->
  serve E cf clients (ws_store (fs_w y)) up hr r -> lists E conf cf g c ns (take (position f) (fd_log f)) r.
Proof.
  intros H0 H Ha Hph Hf [Hrest Hp] Hkube Hg Hdef Hne Hleg (Hau & Had & Hm & Hpath & Hq & Hacc) Hs.
  destruct (fruns_inv E ws conf y0 tr y i g c H0 H Ha) as (ph' & f' & Hph' & Hf' & Hinv). rewrite Hph in Hph'. injection Hph' as <-. rewrite Hf in Hf'. injection Hf' as <-.
  destruct Hinv as (_ & l0 & l1 & init & sofar & Hl & Hsn & Hi & _ & Hsh & _).
  destruct (position_take f l0 l1 Hl) as [_ ->]. rewrite Hrest, app_nil_r in Hi. subst init.
  assert (forall n x, lookup_entry (ws_store (fs_w y)) g c n x = replay E (default ∅ (conf !! g)) c (l0 ++ l1) n x) as Hlk.
  { intros n x. rewrite <- (snapshot_replay E _ l0 sofar l1) by done.
    assert (shown E (default ∅ (conf !! g)) g c (ws_store (fs_w y)) (sofar ++ l1)) as Hsh' by (destruct ph as [| |[]|[]|]; done). apply Hsh'. }
  generalize dependent (l0 ++ l1). intros items Hlk.
  destruct (fruns_recv E ws conf y0 tr y H0 H) as (wtr & Hw & Hwin). destruct (ProofsCodec.runs_calls E ws conf wtr _ Hw) as (h & Hh & Hin).
  assert (Forall kube_call h) as Hkc.
  { apply Forall_forall. intros k Hkin. destruct (Hin k Hkin) as [(g' & c' & ->)|(j & g' & c' & x & Hx & Hev)]; [done|]. apply Hwin in Hx.
    destruct x as [[] x|]; cbn [event_call] in Hev; try (by apply elem_of_nil in Hev); apply elem_of_list_singleton in Hev as ->;
      (destruct (Hkube j _ x Hx) as [o ->]; [discriminate|]; by exists o). }
  subst c. destruct (PropsServe.C60_list E cf conf h (ws_store (fs_w y)) clients up hr g ns r Hkc Hh Hg Hau Had Hm Hpath Hq Hacc Hne Hleg Hs) as (ks & es & Hnd & HF2 & Hcm & Hrep).
  assert (exists os, Forall2 (fun k o => last_put E (default ∅ (conf !! g)) items k.1.2 k.2 o) ks os /\ Forall2 (stored_as (cf_default cf)) os (map en_obj es)) as (os & Hos1 & Hos2).
  { clear Hrep Hcm Hnd. induction HF2 as [|[[k1 k2] k3] e ks es (Hk1 & Hk2 & _) HF2 IH]; [exists []; split; constructor|]. destruct IH as (os & IH1 & IH2). cbn [fst snd] in *.
    rewrite Hlk in Hk2. pose proof (replay_last E (default ∅ (conf !! g)) (cf_default cf) items k2 k3) as Hlast. rewrite Hk2 in Hlast. destruct Hlast as (o & Ho & ->).
    exists (o :: os). split; [by constructor|]. cbn [map]. constructor; [apply build_stored|done]. }
  exists (map (fun k => (k.1.2, k.2)) ks), os. split_and!.
  - clear -Hnd HF2. revert es HF2. induction ks as [|k ks IH]; intros es HF2; [constructor|]. destruct es as [|e es]; [by inversion HF2|].
    apply Forall2_cons in HF2 as [Hk HF2]. apply NoDup_cons in Hnd as [Hn Hnd]. cbn [map]. apply NoDup_cons. split; [|by eapply IH].
    intros (k' & Heq & Hin)%elem_of_list_fmap. apply Hn. assert (k = k') as ->; [|done].
    apply elem_of_list_lookup in Hin as [j Hj]. destruct (Forall2_lookup_l _ _ _ _ _ HF2 Hj) as (e' & _ & Hk' & _). destruct Hk as [Hk _].
    destruct k as [[? ?] ?], k' as [[? ?] ?]. cbn [fst snd] in *. apply pair_equal_spec in Heq as [-> ->]. by rewrite Hk, Hk'.
  - apply Forall2_fmap_l. clear -HF2 Hos1. revert es HF2. induction Hos1 as [|k o ks os Hko Hos1 IH]; intros es HF2; [constructor|]. destruct es as [|e es]; [by inversion HF2|].
    apply Forall2_cons in HF2 as [Hk HF2]. constructor; [|by eapply IH]. cbn [fst snd]. split; [done|]. intros m Hm. by apply Hk.
  - intros [k1 k2] o Ho Hns. cbn [fst snd] in *. pose proof (replay_last E (default ∅ (conf !! g)) (cf_default cf) items k1 k2) as Hlast.
    specialize (Hlk k1 k2). destruct (replay E (default ∅ (conf !! g)) (cf_default cf) items k1 k2) as [e|]; [|by destruct (Hlast o)].
    apply elem_of_list_fmap. exists (cf_default cf, k1, k2). split; [done|]. by apply (Hcm k1 k2 e Hlk).
  - intros Hlen. assert (length es = length os) as Hleq. { apply Forall2_length in Hos2. by rewrite map_length in Hos2. }
    rewrite <- Hleq in Hlen. destruct (Hrep Hlen) as (api & kind & Hhead & ->). by exists api, kind, (map en_obj es).
Qed.
Print Assumptions C77_list.

(** ** Two replies *)
Lemma fstep_forward E ws conf y l y' i f : fstep E ws conf y l y' -> fs_feeds y !! i = Some f -> 
  (exists l1, fd_log f = l1 ++ fd_behind f) ->
  exists f', fs_feeds y' !! i = Some f' /\ (exists more, fd_log f' = fd_log f ++ more) /\ position f <= position f' /\ exists l1, fd_log f' = l1 ++ fd_behind f'.
Proof.
  intros Hs Hf [l1 Hl]. destruct Hs as [y j g' c' ph l w' f1 f' Hj Hphj Hfj Hw Hsv|y j f1 it Hfj Hch|y w' Hw]; cbn [fs_feeds].
  - destruct (decide (j = i)) as [->|Hne].
    + rewrite Hf in Hfj. injection Hfj as <-. exists f'. split; [apply list_lookup_insert; by eapply lookup_lt_Some|].
      destruct Hsv as [init Hsn|b it _|it|ph l _].
      * cbn [fd_log fd_behind]. split; [exists []; by rewrite app_nil_r|]. split; [|exists (fd_log f); by rewrite app_nil_r]. unfold position. cbn. lia.
      * split; [exists []; by rewrite app_nil_r|]. split; [done|]. by exists l1.
      * destruct (is_change it); [|split; [exists []; by rewrite app_nil_r|split; [done|by exists l1]]].
        unfold drop_first. destruct (fd_rest f) as [|x r]; cbn [fd_log fd_behind].
        -- split; [exists []; by rewrite app_nil_r|]. unfold position. cbn [fd_log fd_behind]. destruct (fd_behind f) as [|x b]; cbn [tail].
           ++ split; [lia|]. by exists l1.
           ++ split; [cbn; lia|]. exists (l1 ++ [x]). rewrite Hl. by rewrite <- app_assoc.
        -- split; [exists []; by rewrite app_nil_r|]. split; [done|]. by exists l1.
      * split; [exists []; by rewrite app_nil_r|]. split; [done|]. by exists l1.
    + exists f. rewrite list_lookup_insert_ne by done. split; [done|]. split; [exists []; by rewrite app_nil_r|]. split; [done|]. by exists l1.
  - destruct (decide (j = i)) as [->|Hne].
    + rewrite Hf in Hfj. injection Hfj as <-. eexists. split; [apply list_lookup_insert; by eapply lookup_lt_Some|]. cbn [fd_log fd_behind].
      split; [by eexists|]. split; [unfold position; cbn [fd_log fd_behind]; rewrite !app_length; lia|]. exists l1. rewrite Hl. by rewrite <- app_assoc.
    + exists f. rewrite list_lookup_insert_ne by done. split; [done|]. split; [exists []; by rewrite app_nil_r|]. split; [done|]. by exists l1.
  - exists f. split; [done|]. split; [exists []; by rewrite app_nil_r|]. split; [done|]. by exists l1.
Qed.
Lemma fruns_forward E ws conf y tr y' i f : fruns E ws conf y tr y' -> fs_feeds y !! i = Some f -> (exists l1, fd_log f = l1 ++ fd_behind f) ->
  exists f', fs_feeds y' !! i = Some f' /\ (exists more, fd_log f' = fd_log f ++ more) /\ position f <= position f' /\ exists l1, fd_log f' = l1 ++ fd_behind f'.
Proof.
  intros H Hf Hl. induction H as [|tr y1 l y2 H IH Hs].
  - exists f. split; [done|]. split; [exists []; by rewrite app_nil_r|]. done.
  - destruct IH as (f1 & Hf1 & [more1 Hm1] & Hp1 & Hl1). destruct (fstep_forward E ws conf y1 l y2 i f1 Hs Hf1 Hl1) as (f2 & Hf2 & [more2 Hm2] & Hp2 & Hl2).
    exists f2. split; [done|]. split; [exists (more1 ++ more2); by rewrite Hm2, Hm1, app_assoc|]. split; [lia|done].
Qed.
Lemma fruns_trans E ws conf y0 tr y tr' y' : fruns E ws conf y0 tr y -> fruns E ws conf y tr' y' -> fruns E ws conf y0 (tr' ++ tr) y'.
Proof. intros H H'. induction H' as [|tr' y1 l y2 H' IH Hs]; [done|]. cbn. by econstructor. Qed.
(** The second of two replies is never about an older state of the cluster than the first, also across connections. *)
Theorem C77_forward E cf cf' conf clients clients' up up' hr hr' r r' ws y0 tr y tr' y' i g c ph ph' f f' ns name ns' name' :
  fstart E ws conf y0 -> fruns E ws conf y0 tr y -> fruns E ws conf y tr' y' -> alone ws i g c -> is_Some (conf !! g) ->
  ws_phases (fs_w y) !! i = Some ph -> fs_feeds y !! i = Some f -> in_step ph f ->
  ws_phases (fs_w y') !! i = Some ph' -> fs_feeds y' !! i = Some f' -> in_step ph' f' ->
  cf_default cf = c -> asks_for cf g ns name hr -> serve E cf clients (ws_store (fs_w y)) up hr r ->
  cf_default cf' = c -> asks_for cf' g ns' name' hr' -> serve E cf' clients' (ws_store (fs_w y')) up' hr' r' ->
  exists p p', p <= p' /\ p' <= length (fd_log f') /\
    tells E conf g c ns name (take p (fd_log f')) r /\ tells E conf g c ns' name' (take p' (fd_log f')) r'.
Proof.
  intros H0 H H' Ha Hg Hph Hf Hin Hph' Hf' Hin' Hdef Hask Hs Hdef' Hask' Hs'.
  destruct (C77_reads E cf conf clients up hr r ws y0 tr y i g c ph f ns name H0 H Ha Hph Hf Hin Hg Hdef Hask Hs) as [Hle Ht].
  destruct (C77_reads E cf' conf clients' up' hr' r' ws y0 (tr' ++ tr) y' i g c ph' f' ns' name' H0 (fruns_trans _ _ _ _ _ _ _ _ H H') Ha Hph' Hf' Hin' Hg Hdef' Hask' Hs') as [Hle' Ht'].
  destruct (fruns_inv E ws conf y0 tr y i g c H0 H Ha) as (ph1 & f1 & Hph1 & Hf1 & Hinv). rewrite Hf in Hf1. injection Hf1 as <-.
  destruct Hinv as (_ & l0 & l1 & _ & _ & Hl & _).
  destruct (fruns_forward E ws conf y tr' y' i f H' Hf) as (f2 & Hf2 & [more Hm] & Hp & _); [exists (l0 ++ l1); by rewrite <- app_assoc|].
  rewrite Hf' in Hf2. injection Hf2 as <-. exists (position f), (position f'). split; [done|]. split; [done|]. split; [|done].
  rewrite Hm, take_app_le by done. done.
Qed.
Print Assumptions C77_forward.

(** ** Catching up *)
Definition at_ (i : nat) (y : fsys) (ph : phase) (f : feed) : Prop := ws_phases (fs_w y) !! i = Some ph /\ fs_feeds y !! i = Some f.
(** The steps of a goroutine in calm times. *)
Inductive move (E : env) (cf : gmap gostr gostr) : phase -> feed -> phase -> feed -> Prop :=
| mv_check f : move E cf PIdle f PConn f
| mv_connect f init : snapshot E cf (fd_log f) init -> move E cf PConn f (PStream true) (Feed (fd_log f) init [])
| mv_recv b f it : is_change it = true -> head (fd_rest f ++ fd_behind f) = Some it -> move E cf (PStream b) f (PGot b it) f
| mv_clean f it : move E cf (PGot true it) f (PGot false it) f
| mv_apply f it : move E cf (PGot false it) f (match it with IClosed => PIdle | _ => PStream false end) (if is_change it then drop_first f else f).
Section liveness.
  Context (E : env) (ws : list (gvr * gostr)) (conf : gmap gvr (gmap gostr gostr)) (ys : nat -> fsys) (ls : nat -> option flabel).
  Context (Hex : execution E ws conf ys ls) (Hns : not_stopped ls).
  Lemma ex_runs t : exists tr, fruns E ws conf (ys 0) tr (ys t).
  Proof using Hex.
    induction t as [|t [tr IH]]; [exists []; constructor|]. destruct Hex as [_ Hst]. specialize (Hst t). destruct (ls t) as [l|].
    - exists (l :: tr). by econstructor.
    - exists tr. by rewrite Hst.
  Qed.
  Lemma ex_labels t : exists tr, fruns E ws conf (ys 0) tr (ys t) /\ forall l, l ∈ tr -> exists t', ls t' = Some l.
  Proof.
    induction t as [|t (tr & IH & Hin)]; [exists []; split; [constructor|by intros l ?%elem_of_nil]|]. destruct Hex as [_ Hst]. specialize (Hst t).
    destruct (ls t) as [l|] eqn:El; [|rewrite Hst; by exists tr]. exists (l :: tr). split; [by econstructor|]. intros l' [->|Hl]%elem_of_cons; [by exists t|by apply Hin].
  Qed.
  Lemma running t : ws_stop (fs_w (ys t)) = false /\ forall j, ws_phases (fs_w (ys t)) !! j <> Some PDone.
  Proof using Hex Hns.
    destruct Hex as [(H0 & _) Hst]. induction t as [|t [IH1 IH2]].
    - rewrite H0. split; [done|]. intros j. unfold wstart. cbn [ws_phases]. rewrite list_lookup_fmap. destruct (ws !! j); discriminate.
    - specialize (Hst t). pose proof (Hns t) as Hn. destruct (ls t) as [l|]; [|by rewrite Hst].
      inversion Hst as [y i g c ph l1 w' f f' Hj Hphj Hfj Hw Hsv|y i f it Hfj Hch|y w' Hw]; subst; cbn [fs_w].
      + inversion Hw as [w1 i1 g1 c1 ph1 l2 st' ph' Hj1 Hph1 Ha|]; subst. cbn [ws_stop ws_phases]. split; [done|]. intros j Hd.
        apply list_lookup_insert_Some in Hd as [(_ & -> & _)|[_ Hd]]; [|by apply (IH2 j)]. inversion Ha; subst; try congruence. by destruct i0.
      + done.
      + done.
  Qed.
  Context (i : nat) (g : gvr) (c : gostr) (Hi : ws !! i = Some (g, c)) (T : nat) (Hcalm : calm i ls T).
  Lemma one_step t ph f : T <= t -> at_ i (ys t) ph f ->
    match ls t with
    | Some (FAct j _) => if decide (j = i) then exists ph' f', at_ i (ys (S t)) ph' f' /\ move E (default ∅ (conf !! g)) ph f ph' f'
                         else at_ i (ys (S t)) ph f
    | _ => at_ i (ys (S t)) ph f
    end.
  Proof using Hex Hns Hi Hcalm.
    intros Ht [Hph Hf]. destruct Hex as [_ Hst]. specialize (Hst t). pose proof (Hcalm t Ht) as Hc. destruct (running t) as [Hnstop _].
    pose proof (Hns t) as Hn. destruct (ls t) as [l|]; [|by rewrite Hst].
    inversion Hst as [y j g1 c1 ph1 l1 w' f1 f' Hj Hphj Hfj Hw Hsv|y j f1 it Hfj Hch|y w' Hw Hy Hl]; subst.
    - inversion Hw as [w1 i1 g2 c2 ph2 l2 st' ph' Hj1 Hph1 Ha|]; subst. rewrite Hphj in Hph1. injection Hph1 as <-.
      destruct (decide (j = i)) as [->|Hne].
      + rewrite Hph in Hphj. injection Hphj as <-. rewrite Hf in Hfj. injection Hfj as <-. rewrite Hi in Hj. injection Hj as <- <-.
        exists ph', f'. split.
        * split; cbn [fs_w ws_phases fs_feeds]; apply list_lookup_insert; by eapply lookup_lt_Some.
        * destruct Ha as [st Hs|st Hs|st|st|st b x|st b Hs|st st' x H|st st' x H].
          -- inversion Hsv; subst. constructor.
          -- congruence.
          -- inversion Hsv as [init' Hs'| | |p q Hl' ]; subst; [by constructor|by destruct Hl' as [?|[?|[?|?]]]].
          -- done.
          -- inversion Hsv as [|b' it Hx| |p q Hl']; subst; [|by destruct Hl' as [?|[?|[?|?]]]]. specialize (Hc eq_refl). constructor; [done|].
             destruct Hx as [Hx|Hx]; [congruence|done].
          -- congruence.
          -- inversion Hsv; subst. constructor.
          -- inversion Hsv as [| |x'|p q Hl']; subst; [constructor|by destruct Hl' as [?|[?|[?|?]]]].
      + split; cbn [fs_w ws_phases fs_feeds]; by rewrite list_lookup_insert_ne.
    - split; cbn [fs_w fs_feeds]; [done|]. by rewrite list_lookup_insert_ne.
    - by destruct Hn.
  Qed.
  Context (Hfair : fair i ys ls).
  Lemma next t ph f : T <= t -> at_ i (ys t) ph f ->
    (exists b, ph = PStream b /\ fd_rest f ++ fd_behind f = []) \/
    exists t' ph' f', t < t' /\ at_ i (ys t') ph' f' /\ move E (default ∅ (conf !! g)) ph f ph' f'.
  Proof using Hex Hns Hi Hcalm Hfair.
    intros Ht Hat. destruct (Hfair t) as (t1 & Hle & Hev). remember (t1 - t) as d eqn:Hd. revert t Ht Hat Hle Hd. induction d as [|d IH]; intros t Ht Hat Hle Hd.
    - assert (t1 = t) as -> by lia. pose proof (one_step t ph f Ht Hat) as H1. destruct Hev as [[l Hl]|(b & f1 & Hp & Hf & He)].
      + rewrite Hl in H1. rewrite decide_True in H1 by done. destruct H1 as (ph' & f' & Hat' & Hm). right. exists (S t), ph', f'. auto.
      + left. destruct Hat as [Hp' Hf']. rewrite Hp in Hp'. injection Hp' as <-. rewrite Hf in Hf'. injection Hf' as <-. by exists b.
    - pose proof (one_step t ph f Ht Hat) as H1.
      assert (at_ i (ys (S t)) ph f -> (exists b, ph = PStream b /\ fd_rest f ++ fd_behind f = []) \/
        exists t' ph' f', t < t' /\ at_ i (ys t') ph' f' /\ move E (default ∅ (conf !! g)) ph f ph' f') as Hgo.
      { intros Hat'. destruct (IH (S t)) as [?|(t' & ph' & f' & Hlt & Hr)]; [lia|done|lia|lia|by left|]. right. exists t', ph', f'. split; [lia|done]. }
      destruct (ls t) as [[j l|j it|]|]; try by apply Hgo. destruct (decide (j = i)) as [->|Hne]; [|by apply Hgo].
      destruct H1 as (ph' & f' & Hat' & Hm). right. exists (S t), ph', f'. auto.
  Qed.
  Lemma move_log cf ph f ph' f' : move E cf ph f ph' f' -> fd_log f' = fd_log f.
  Proof. clear. intros [f1|f1 init _|b f1 it _ _|f1 it|f1 it]; try reflexivity. destruct (is_change it); [|reflexivity]. unfold drop_first. by destruct (fd_rest f1). Qed.
  (** Getting connected. *)
  Definition far (ph : phase) : nat :=
    match ph with PGot true IClosed => 4 | PGot false IClosed => 3 | PIdle => 2 | PConn => 1 | _ => 0 end.
  Lemma connects k : forall t ph f, T <= t -> at_ i (ys t) ph f -> far ph <= k ->
    exists t' ph' f', t <= t' /\ at_ i (ys t') ph' f' /\ far ph' = 0 /\ fd_log f' = fd_log f /\ (far ph = 0 -> ph' = ph /\ f' = f).
  Proof using Hex Hns Hi Hcalm Hfair.
    induction k as [|k IH]; intros t ph f Ht Hat Hk.
    - exists t, ph, f. assert (far ph = 0) by lia. split; [lia|]. split; [done|]. split; [done|]. split; [reflexivity|]. intros _. split; reflexivity.
    - destruct (decide (far ph = 0)) as [H0|H0]; [exists t, ph, f; split; [lia|]; split; [done|]; split; [done|]; split; [reflexivity|]; intros _; split; reflexivity|].
      destruct (next t ph f Ht Hat) as [(b & -> & _)|(t1 & ph1 & f1 & Hlt & Hat1 & Hm)]; [done|].
      destruct (IH t1 ph1 f1) as (t' & ph' & f' & Hle & Hat' & Hf' & Hlog & _); [lia|done| |].
      { destruct Hm as [f2|f2 init Hsn|b f2 it Hc Hh|f2 it|f2 it]; cbn [far] in *; [lia|lia|done|destruct it; [done|lia]|destruct it; [done|cbn; lia]]. }
      exists t', ph', f'. split; [lia|]. split; [done|]. split; [done|]. split; [by rewrite Hlog, (move_log _ _ _ _ _ Hm)|]. done.
  Qed.
  (** Reading everything. *)
  Definition left_ (f : feed) : nat := length (fd_rest f ++ fd_behind f).
  Definition todo (ph : phase) (f : feed) : nat :=
    match ph with
    | PStream _ => 3 * left_ f
    | PGot b it => if is_change it then 3 * left_ f - 2 + (if b then 1 else 0) else 3 * left_ f + 1 + (if b then 1 else 0)
    | _ => 0
    end.
  Definition pending (ph : phase) (f : feed) : Prop :=
    match ph with PGot _ it => is_change it = true -> head (fd_rest f ++ fd_behind f) = Some it | _ => True end.
  Definition past (ph : phase) : Prop := match ph with PStream false | PGot false _ => True | _ => False end.
  Lemma reads_all k : forall t ph f, T <= t -> at_ i (ys t) ph f -> far ph = 0 -> pending ph f -> todo ph f <= k ->
    exists t' b f', t <= t' /\ at_ i (ys t') (PStream b) f' /\ fd_rest f' ++ fd_behind f' = [] /\ fd_log f' = fd_log f /\ (past ph -> b = false).
  Proof using Hex Hns Hi Hcalm Hfair.
    induction k as [k IH] using lt_wf_ind. intros t ph f Ht Hat Hfar Hpend Hk.
    destruct (next t ph f Ht Hat) as [(b & -> & He)|(t1 & ph1 & f1 & Hlt & Hat1 & Hm)].
    { exists t, b, f. split; [done|]. split; [done|]. split; [done|]. split; [done|]. by destruct b. }
    assert (far ph1 = 0 /\ pending ph1 f1 /\ todo ph1 f1 < todo ph f /\ (past ph -> past ph1)) as (Hfar1 & Hp1 & Hlt1 & Hpast).
    { assert (forall f2 it, head (fd_rest f2 ++ fd_behind f2) = Some it -> left_ f2 = S (left_ (drop_first f2))) as Hdrop.
      { intros f2 it Hh. unfold left_, drop_first. destruct (fd_rest f2) as [|x r]; [|done]. cbn [app fd_rest fd_behind] in *. by destruct (fd_behind f2). }
      destruct Hm as [f2|f2 init Hsn|b f2 it Hc Hh|f2 it|f2 it]; try discriminate Hfar.
      - split; [by destruct it as [[]|], b|]. split; [cbn [pending]; intros _; exact Hh|]. cbn [todo]. rewrite Hc, (Hdrop f2 it Hh). split; [destruct b; lia|]. by destruct b.
      - split; [by destruct it|]. split; [done|]. cbn [todo]. split; [|done]. destruct (is_change it) eqn:Ec; [|lia].
        rewrite (Hdrop f2 it) by (by apply Hpend). lia.
      - destruct it as [ty o|]; [|discriminate Hfar]. split; [done|]. split; [done|]. split; [|done]. cbn [todo]. destruct (is_change (IEvent ty o)) eqn:Ec; [|lia].
        rewrite (Hdrop f2 (IEvent ty o)) by (by apply Hpend). lia. }
    destruct (IH (todo ph1 f1) ltac:(lia) t1 ph1 f1) as (t' & b & f' & Hle & Hat' & He & Hlog & Hb); [lia|done|done|done|lia|].
    exists t', b, f'. split; [lia|]. split; [done|]. split; [done|]. split; [by rewrite Hlog, (move_log _ _ _ _ _ Hm)|]. auto.
  Qed.
  Lemma stays t b f : T <= t -> at_ i (ys t) (PStream b) f -> fd_rest f ++ fd_behind f = [] -> forall t', t <= t' -> at_ i (ys t') (PStream b) f.
  Proof using Hex Hns Hi Hcalm.
    intros Ht Hat He t' Hle. induction Hle as [|t' Hle IH]; [done|]. pose proof (one_step t' (PStream b) f ltac:(lia) IH) as H1.
    destruct (ls t') as [[j l|j it|]|]; try done. destruct (decide (j = i)) as [->|Hne]; [|done]. destruct H1 as (ph' & f' & _ & Hm).
    inversion Hm as [| |b1 f1 it Hc Hh| |]; subst. by rewrite He in Hh.
  Qed.
End liveness.
(** When the cluster comes to rest and its stream stays open, the goroutine comes to wait with nothing missing. *)
Lemma caught_up E ws conf ys ls i g c T f : execution E ws conf ys ls -> not_stopped ls -> fair i ys ls -> calm i ls T ->
  alone ws i g c -> fs_feeds (ys T) !! i = Some f ->
  ((exists ns n o, last_put E (default ∅ (conf !! g)) (fd_log f) ns n o) \/ ws_phases (fs_w (ys T)) !! i = Some (PStream false)) ->
  exists T', forall t, T' <= t -> exists f', ws_phases (fs_w (ys t)) !! i = Some (PStream false) /\ fs_feeds (ys t) !! i = Some f' /\
    fd_rest f' = [] /\ fd_behind f' = [] /\ fd_log f' = fd_log f.
Proof.
  intros Hex Hns Hfair Hcalm Ha Hf Hsome. pose proof (proj1 Hex) as H0. assert (ws !! i = Some (g, c)) as Hi by apply Ha.
  assert (forall t, exists tr ph f, fruns E ws conf (ys 0) tr (ys t) /\ at_ i (ys t) ph f /\ finv E (default ∅ (conf !! g)) g c (ws_store (fs_w (ys t))) ph f) as Hinv.
  { intros t. destruct (ex_runs E ws conf ys ls Hex t) as [tr Hr]. destruct (fruns_inv E ws conf (ys 0) tr (ys t) i g c H0 Hr Ha) as (ph & f1 & Hp & Hf1 & Hv).
    exists tr, ph, f1. done. }
  destruct (Hinv T) as (_ & ph0 & f0 & _ & Hat0 & _). assert (f0 = f) as -> by (destruct Hat0 as [_ Hf0]; congruence).
  destruct (connects E ws conf ys ls Hex Hns i g c Hi T Hcalm Hfair 4 T ph0 f) as (t1 & ph1 & f1 & Ht1 & Hat1 & Hfar1 & Hlog1 & Hsame1); [done|done| |].
  { destruct ph0 as [| |[]|[] []|]; cbn; lia. }
  destruct (Hinv t1) as (_ & ph1' & f1' & _ & Hat1' & Hv1). assert (ph1' = ph1 /\ f1' = f1) as [-> ->] by (destruct Hat1, Hat1'; split; congruence).
  destruct (reads_all E ws conf ys ls Hex Hns i g c Hi T Hcalm Hfair (todo ph1 f1) t1 ph1 f1) as (t2 & b & f2 & Ht2 & Hat2 & He2 & Hlog2 & Hb2); [lia|done|done| |done|].
  { destruct Hv1 as (_ & l0 & l1 & init & sofar & _ & _ & _ & _ & _ & Hh). destruct ph1 as [| | |b it|]; try done. cbn [pending]. intros Hc. destruct Hh as [Hh|Hh]; [congruence|done]. }
  destruct (Hinv t2) as (_ & ph2' & f2' & _ & Hat2' & Hv2). assert (ph2' = PStream b /\ f2' = f2) as [-> ->] by (destruct Hat2, Hat2'; split; congruence).
  apply app_eq_nil in He2 as He2'. destruct He2' as [Hrest2 Hbeh2].
  assert (b = false) as ->.
  { destruct Hsome as [(ns & n & o & Ho)|Hp].
    - destruct b; [|done]. destruct Hv2 as (_ & l0 & l1 & init & sofar & Hl & Hsn & Hin & _ & [-> ->] & _). rewrite Hrest2 in Hin. rewrite Hbeh2, !app_nil_r in Hl.
      rewrite <- Hlog1, <- Hlog2, Hl in Ho. apply (snapshot_put E _ _ _ _ _ _ Hsn) in Ho. rewrite Hin in Ho. by apply last_put_nil in Ho.
    - apply Hb2. assert (ph0 = PStream false) as -> by (destruct Hat0; congruence). destruct (Hsame1 eq_refl) as [-> _]. done. }
  exists t2. intros t Ht. pose proof (stays E ws conf ys ls Hex Hns i g c Hi T Hcalm t2 false f2 ltac:(lia) Hat2 He2 t Ht) as [Hp Hf2].
  exists f2. split; [done|]. split; [done|]. split; [done|]. split; [done|]. by rewrite Hlog2.
Qed.
(** When the cluster comes to rest and its stream stays open, the replies become right for good: after some time
    every GET is answered for the cluster as it is.  The cluster must have an object of this type, or the stream
    must be the one the cache was filled from. *)
Theorem C77_catches_up E ws conf ys ls i g c T f : execution E ws conf ys ls -> not_stopped ls -> fair i ys ls -> calm i ls T ->
  alone ws i g c -> is_Some (conf !! g) -> fs_feeds (ys T) !! i = Some f ->
  ((exists ns n o, last_put E (default ∅ (conf !! g)) (fd_log f) ns n o) \/ ws_phases (fs_w (ys T)) !! i = Some (PStream false)) ->
  exists T', forall t, T' <= t ->
    (exists f', fs_feeds (ys t) !! i = Some f' /\ fd_log f' = fd_log f) /\
    (forall cf clients up hr r ns name, cf_default cf = c -> asks_for cf g ns name hr -> serve E cf clients (ws_store (fs_w (ys t))) up hr r ->
      tells E conf g c ns name (fd_log f) r) /\
    (only_kube ls -> forall cf clients up hr r ns, cf_default cf = c -> c <> [] -> legal_value c -> asks_for_list cf g ns hr ->
      serve E cf clients (ws_store (fs_w (ys t))) up hr r -> lists E conf cf g c ns (fd_log f) r).
Proof.
  intros Hex Hns Hfair Hcalm Ha Hg Hf Hsome. pose proof (proj1 Hex) as H0.
  destruct (caught_up E ws conf ys ls i g c T f Hex Hns Hfair Hcalm Ha Hf Hsome) as [T' HT']. exists T'. intros t Ht.
  destruct (HT' t Ht) as (f2 & Hp & Hf2 & Hrest2 & Hbeh2 & Hlog2). destruct (ex_labels E ws conf ys ls Hex t) as (tr & Hr & Hlab).
  split; [by exists f2|].
  assert (take (position f2) (fd_log f2) = fd_log f) as Hall by (rewrite <- Hlog2; unfold position; rewrite Hbeh2; cbn [length]; rewrite Nat.sub_0_r; apply firstn_all).
  split.
  2:{ intros Hok cf clients up hr r ns Hdef Hne Hleg Hask Hs. rewrite <- Hall.
    apply (C77_list E cf conf clients up hr r ws (ys 0) tr (ys t) i g c (PStream false) f2 ns H0 Hr Ha Hp Hf2); try done.
    intros j ty o Hin Hty. destruct (Hlab _ Hin) as [t' Hl']. by eapply Hok. }
  intros cf clients up hr r ns name Hdef Hask Hs.
  destruct (C77_reads E cf conf clients up hr r ws (ys 0) tr (ys t) i g c (PStream false) f2 ns name H0 Hr Ha Hp Hf2) as [_ Ht']; [by split|done|done|done|done|].
  by rewrite <- Hall.
Qed.
Print Assumptions C77_catches_up.

(** ** There is always a snapshot *)
Definition snap1 (E : env) (cf : gmap gostr gostr) (os : list obj) (it : item) : list obj :=
  match it with
  | IEvent EvAdded o | IEvent EvModified o => filter (fun x => obj_key E cf x <> obj_key E cf o) os ++ [o]
  | IEvent EvDeleted o => filter (fun x => obj_key E cf x <> obj_key E cf o) os
  | _ => os
  end.
Definition snap (E : env) (cf : gmap gostr gostr) (log : list item) : list obj := foldl (snap1 E cf) [] log.
Lemma filter_keys E cf (P : obj -> Prop) `{forall x, Decision (P x)} os : NoDup (map (obj_key E cf) os) -> NoDup (map (obj_key E cf) (filter P os)).
Proof.
  induction os as [|x os IH]; [done|]. cbn [map]. intros [Hx Hnd]%NoDup_cons. rewrite filter_cons. destruct (decide (P x)); [|by apply IH].
  cbn [map]. apply NoDup_cons. split; [|by apply IH]. intros Hin. apply Hx. apply elem_of_list_fmap in Hin as (y & Hy & Hin). apply elem_of_list_filter in Hin as [_ Hin].
  apply elem_of_list_fmap. by exists y.
Qed.
Lemma snapshot_snap E cf log : snapshot E cf log (map (IEvent EvAdded) (snap E cf log)).
Proof.
  exists (snap E cf log). split; [reflexivity|]. induction log as [|it log [IH1 IH2]] using rev_ind.
  { split; [constructor|]. intros ns n o. split; [by intros ?%last_put_nil|]. intros [?%elem_of_nil _]. done. }
  unfold snap. rewrite foldl_app. fold (snap E cf log). cbn [foldl].
  assert (forall o ns n x, last_put E cf log ns n x /\ obj_key E cf o <> (ns, n) <-> x ∈ filter (fun x => obj_key E cf x <> obj_key E cf o) (snap E cf log) /\ obj_key E cf x = (ns, n)) as Hkeep.
  { intros o ns n x. rewrite IH2, elem_of_list_filter. split.
    - intros [[Hin Hk] Hne]. split; [|done]. split; [|done]. intros Heq. apply Hne. by rewrite <- Heq.
    - intros [[Hne Hin] Hk]. split; [done|]. intros Heq. apply Hne. by rewrite Heq. }
  assert (forall o, NoDup (map (obj_key E cf) (filter (fun x => obj_key E cf x <> obj_key E cf o) (snap E cf log) ++ [o]))) as Hnd.
  { intros o. rewrite map_app. apply NoDup_app. split; [by apply filter_keys|]. split; [|apply NoDup_singleton]. cbn [map]. intros k Hin Hk. apply elem_of_list_singleton in Hk as ->.
    apply elem_of_list_fmap in Hin as (y & Hy & Hin). apply elem_of_list_filter in Hin as [Hne _]. congruence. }
  assert (forall t o ns n x, t = EvAdded \/ t = EvModified -> last_put E cf (log ++ [IEvent t o]) ns n x <->
    x ∈ filter (fun x => obj_key E cf x <> obj_key E cf o) (snap E cf log) ++ [o] /\ obj_key E cf x = (ns, n)) as Hput.
  { intros t o ns n x Ht. rewrite last_put_snoc, elem_of_app, elem_of_list_singleton. pose proof (Hkeep o ns n x) as Hk. split.
    - intros [(t' & [= <- <-] & _ & Hx)|[Hl Hno]]; [auto|]. destruct (proj1 Hk) as [Hin Hx]; [|auto]. split; [done|]. apply (Hno t o eq_refl). by destruct Ht as [->| ->].
    - intros [[Hin| ->] Hx]; [|left; by exists t]. right. destruct (proj2 Hk (conj Hin Hx)) as [Hl Hne]. split; [done|]. by intros t' o' [= <- <-] _. }
  destruct it as [[] o|]; cbn [snap1].
  - split; [apply Hnd|]. intros ns n x. apply Hput. by left.
  - split; [apply Hnd|]. intros ns n x. apply Hput. by right.
  - split; [by apply filter_keys|]. intros ns n x. rewrite last_put_snoc, <- Hkeep. split.
    + intros [(t & [= <- <-] & [?|?] & _)|[Hl Hno]]; [done|done|]. split; [done|]. by apply (Hno EvDeleted o).
    + intros [Hl Hne]. right. split; [done|]. by intros t' o' [= <- <-] _.
  - split; [done|]. intros ns n x. rewrite last_put_snoc, <- IH2. split.
    + intros [(t & [= <- <-] & [?|?] & _)|[Hl _]]; done.
    + intros Hl. right. split; [done|]. by intros t' o' [= <- <-].
  - split; [done|]. intros ns n x. rewrite last_put_snoc, <- IH2. split.
    + intros [(t & [=] & _)|[Hl _]]; done.
    + intros Hl. right. split; [done|]. by intros t' o' [=].
Qed.

(** ** Executing *)
(** What to do next: a step of a goroutine, receiving what is next, or a change in the cluster. *)
Inductive cmd := Do (i : nat) (l : label) | Next (i : nat) | Change (i : nat) (it : item).
Definition feed_step (E : env) (cf : gmap gostr gostr) (f : feed) (ph : phase) (l : label) : option feed :=
  match ph, l with
  | PConn, LConnect => Some (Feed (fd_log f) (map (IEvent EvAdded) (snap E cf (fd_log f))) [])
  | PStream _, LRecv it => if is_change it then None else Some f
  | PGot false it, LApply => Some (if is_change it then drop_first f else f)
  | _, LCheck | _, LFail | _, LClean | _, LQuit => Some f
  | _, _ => None
  end.
Definition step1 (E : env) (ws : list (gvr * gostr)) (conf : gmap gvr (gmap gostr gostr)) (y : fsys) (k : cmd) : option (flabel * fsys) :=
  match k with
  | Do i l =>
      match ws !! i, ws_phases (fs_w y) !! i, fs_feeds y !! i with
      | Some (g, c), Some ph, Some f =>
          match PropsWatcher.exec_act E g c (ws_stop (fs_w y)) (ws_store (fs_w y)) ph l, feed_step E (default ∅ (conf !! g)) f ph l with
          | Some (st', ph'), Some f' => Some (FAct i l, FSys (WSys st' (<[i := ph']> (ws_phases (fs_w y))) (ws_stop (fs_w y))) (<[i := f']> (fs_feeds y)))
          | _, _ => None
          end
      | _, _, _ => None
      end
  | Next i =>
      match ws !! i, ws_phases (fs_w y) !! i, fs_feeds y !! i with
      | Some (g, c), Some (PStream b), Some f =>
          match head (fd_rest f ++ fd_behind f) with
          | Some it => Some (FAct i (LRecv it), FSys (WSys (ws_store (fs_w y)) (<[i := PGot b it]> (ws_phases (fs_w y))) (ws_stop (fs_w y))) (<[i := f]> (fs_feeds y)))
          | None => None
          end
      | _, _, _ => None
      end
  | Change i it =>
      match fs_feeds y !! i, is_change it with
      | Some f, true => Some (FChange i it, FSys (fs_w y) (<[i := Feed (fd_log f ++ [it]) (fd_rest f) (fd_behind f ++ [it])]> (fs_feeds y)))
      | _, _ => None
      end
  end.
Lemma step1_ok E ws conf y k l y' : step1 E ws conf y k = Some (l, y') -> fstep E ws conf y l y'.
Proof.
  destruct k as [i a|i|i it]; cbn [step1].
  - destruct (ws !! i) as [[g c]|] eqn:Ei; [|discriminate]. destruct (ws_phases (fs_w y) !! i) as [ph|] eqn:Ep; [|discriminate].
    destruct (fs_feeds y !! i) as [f|] eqn:Ef; [|discriminate]. destruct (PropsWatcher.exec_act _ _ _ _ _ _ _) as [[st' ph']|] eqn:Ea; [|discriminate].
    destruct (feed_step _ _ _ _ _) as [f'|] eqn:Es; [|discriminate]. intros [= <- <-]. apply PropsWatcher.exec_act_ok in Ea.
    eapply fstep_act; [exact Ei|exact Ep|exact Ef|by econstructor|].
    destruct ph as [| |b|[] it|], a as [| | |x| | |]; cbn [feed_step] in Es; try discriminate Es.
    all: try (injection Es as <-; apply sv_other; by auto).
    + injection Es as <-. constructor. apply snapshot_snap.
    + destruct (is_change x) eqn:Ex; [discriminate Es|]. injection Es as <-. constructor. by left.
    + injection Es as <-. constructor.
  - destruct (ws !! i) as [[g c]|] eqn:Ei; [|discriminate]. destruct (ws_phases (fs_w y) !! i) as [[| |b|[] it|]|] eqn:Ep; try discriminate.
    destruct (fs_feeds y !! i) as [f|] eqn:Ef; [|discriminate]. destruct (head _) as [it|] eqn:Eh; [|discriminate]. intros [= <- <-].
    eapply fstep_act; [exact Ei|exact Ep|exact Ef| |by apply sv_recv; right]. econstructor; [exact Ei|exact Ep|constructor].
  - destruct (fs_feeds y !! i) as [f|] eqn:Ef; [|discriminate]. destruct (is_change it) eqn:Ec; [|discriminate]. intros [= <- <-]. constructor; [done|].
    destruct it as [[] o|]; try discriminate Ec; by repeat eexists.
Qed.
(** The state after the commands, and what the next command does. *)
Fixpoint after_cmds (E : env) (ws : list (gvr * gostr)) (conf : gmap gvr (gmap gostr gostr)) (y : fsys) (ks : list cmd) (t : nat) : fsys :=
  match t, ks with
  | S t, k :: ks => match step1 E ws conf y k with Some (_, y') => after_cmds E ws conf y' ks t | None => y end
  | _, _ => y
  end.
Fixpoint label_at (E : env) (ws : list (gvr * gostr)) (conf : gmap gvr (gmap gostr gostr)) (y : fsys) (ks : list cmd) (t : nat) : option flabel :=
  match ks with
  | [] => None
  | k :: ks => match step1 E ws conf y k with
               | Some (l, y') => match t with O => Some l | S t => label_at E ws conf y' ks t end
               | None => None
               end
  end.
Lemma cmds_step E ws conf ks : forall y t, match label_at E ws conf y ks t with
  | Some l => fstep E ws conf (after_cmds E ws conf y ks t) l (after_cmds E ws conf y ks (S t))
  | None => after_cmds E ws conf y ks (S t) = after_cmds E ws conf y ks t end.
Proof.
  induction ks as [|k ks IH]; intros y t; [by destruct t|]. cbn [label_at after_cmds]. destruct (step1 E ws conf y k) as [[l y']|] eqn:Es; [|by destruct t].
  destruct t as [|t]; [|apply IH]. cbn [after_cmds]. assert (after_cmds E ws conf y' ks 0 = y') as -> by (by destruct ks). by eapply step1_ok.
Qed.
Lemma label_end E ws conf ks : forall y t, length ks <= t -> label_at E ws conf y ks t = None.
Proof.
  induction ks as [|k ks IH]; intros y t Ht; [done|]. cbn [label_at]. cbn [length] in Ht. destruct t as [|t]; [lia|].
  destruct (step1 E ws conf y k) as [[l y']|]; [|done]. apply IH. lia.
Qed.
Lemma cmds_end E ws conf ks y t : length ks <= t -> after_cmds E ws conf y ks t = after_cmds E ws conf y ks (length ks).
Proof.
  intros Ht. induction Ht as [|t Ht IH]; [done|]. pose proof (cmds_step E ws conf ks y t) as H. rewrite label_end in H by done. by rewrite H.
Qed.
Lemma cmds_runs E ws conf ks y t : exists tr, fruns E ws conf y tr (after_cmds E ws conf y ks t) /\ forall l, l ∈ tr -> exists t', label_at E ws conf y ks t' = Some l.
Proof.
  induction t as [|t (tr & IH & Hl)].
  - exists []. split; [destruct ks; constructor|]. intros l Hin. by apply elem_of_nil in Hin.
  - pose proof (cmds_step E ws conf ks y t) as H. destruct (label_at E ws conf y ks t) as [l|] eqn:El.
    + exists (l :: tr). split; [by econstructor|]. intros l' [->|Hin]%elem_of_cons; [by exists t|by apply Hl].
    + exists tr. by rewrite H.
Qed.
Lemma no_stop_cmd E ws conf ks : forall y t, label_at E ws conf y ks t <> Some FStop.
Proof.
  induction ks as [|k ks IH]; intros y t; [done|]. cbn [label_at]. destruct (step1 E ws conf y k) as [[l y']|] eqn:Es; [|done]. destruct t as [|t]; [|apply IH].
  intros [= ->]. destruct k as [i a|i|i it]; cbn [step1] in Es.
  - destruct (ws !! i) as [[g c]|]; [|discriminate]. destruct (_ !! i); [|discriminate]. destruct (_ !! i); [|discriminate].
    destruct (PropsWatcher.exec_act _ _ _ _ _ _ _) as [[]|]; [|discriminate]. destruct (feed_step _ _ _ _ _); discriminate.
  - destruct (ws !! i) as [[g c]|]; [|discriminate]. destruct (_ !! i) as [[]|]; try discriminate. destruct (_ !! i); [|discriminate]. destruct (head _); discriminate.
  - destruct (_ !! i); [|discriminate]. destruct (is_change it); discriminate.
Qed.

(** ** Executions of one watch *)
Import PropsStore PropsProxy PropsServe.
Definition one_ws : list (gvr * gostr) := [(pods, c1)].
Definition pa : obj := pod "default" "a" "1".
Definition pb : obj := pod "default" "b" "1".
Definition pods_cf : gmap gostr gostr := default ∅ (ex_conf !! pods).
Definition begin (os : list obj) : fsys :=
  FSys (wstart one_ws ex_conf) [Feed (map (IEvent EvAdded) os) (map (IEvent EvAdded) (snap ex_env pods_cf (map (IEvent EvAdded) os))) []].
Lemma begin_ok os : fstart ex_env one_ws ex_conf (begin os).
Proof.
  split; [reflexivity|]. split; [reflexivity|]. intros [|j] g c f Hw Hf; [|destruct j; discriminate Hw]. injection Hw as <- <-. injection Hf as <-. cbn [fd_log fd_rest fd_behind].
  split; [|split; [apply snapshot_snap|reflexivity]]. apply Forall_map, Forall_true. intros o. by exists EvAdded, o.
Qed.
Lemma one_alone : alone one_ws 0 pods c1.
Proof. split; [reflexivity|]. intros [|[|j]] H; [reflexivity|discriminate H|discriminate H]. Qed.
Definition get_req (n : string) : http_req := ex_hreq (api_path pods (Some (str "default")) (Some (str n))).
Lemma get_asks n : In n ["a"%string; "b"%string] -> asks_for ex_cf pods (Some (str "default")) (str n) (get_req n).
Proof.
  intros Hn. split; [by left|]. split; [|split; [reflexivity|split; reflexivity]]. apply PropsFakePages.fs_addr. intros x [= <-]. destruct Hn as [<-|[<-|[]]]; by apply PropsFakePages.fs_plain.
Qed.
Lemma get_answer n tr y y0 : fstart ex_env one_ws ex_conf y0 -> fruns ex_env one_ws ex_conf y0 tr y -> In n ["a"%string; "b"%string] ->
  exists r, serve ex_env ex_cf ex_clients (ws_store (fs_w y)) ex_apis (get_req n) r /\
    r = get_outcome (store_get (ws_store (fs_w y)) pods c1 (str "default") (str n)).
Proof.
  intros H0 H Hn. destruct (C60_every_request_answered ex_env ex_cf ex_clients (ws_store (fs_w y)) ex_apis (get_req n)) as [rp Hrp]. exists (Some rp). split; [exact Hrp|].
  destruct (fruns_wruns ex_env one_ws ex_conf y0 tr y H0 H) as [wtr Hw]. destruct (PropsLive.wruns_history ex_env one_ws ex_conf wtr _ Hw) as [h Hh].
  destruct (get_asks n Hn) as (Hau & Had & Hm & Hp & Hq).
  exact (get_reply ex_env ex_cf ex_conf h _ ex_clients ex_apis (get_req n) pods (Some (str "default")) (str n) _ Hh (ltac:(rewrite ex_conf_pods; by eexists)) Hau Had Hm Hp Hq Hrp).
Qed.
(** Whether the goroutine waits at the stream, how much is left for it to read, and whether a and b are cached. *)
Definition seen_of (y : fsys) : option bool * option (nat * nat) * bool * bool :=
  (match ws_phases (fs_w y) !! 0 with Some (PStream b) => Some b | _ => None end,
   (fun f => (length (fd_rest f), length (fd_behind f))) <$> fs_feeds y !! 0,
   bool_decide (is_Some (store_get (ws_store (fs_w y)) pods c1 (str "default") (str "a"))),
   bool_decide (is_Some (store_get (ws_store (fs_w y)) pods c1 (str "default") (str "b")))).
Lemma seen_a y p q a b : seen_of y = (p, q, a, b) -> bool_decide (is_Some (store_get (ws_store (fs_w y)) pods c1 (str "default") (str "a"))) = a.
Proof. unfold seen_of. intros H. by injection H. Qed.
Lemma seen_b y p q a b : seen_of y = (p, q, a, b) -> bool_decide (is_Some (store_get (ws_store (fs_w y)) pods c1 (str "default") (str "b"))) = b.
Proof. unfold seen_of. intros H. by injection H. Qed.
(** An execution of the commands that ends with the goroutine waiting. *)
Lemma ends_waiting os ks : (seen_of (after_cmds ex_env one_ws ex_conf (begin os) ks (length ks))).1.1 = (Some true, Some (0, 0)) \/
    (seen_of (after_cmds ex_env one_ws ex_conf (begin os) ks (length ks))).1.1 = (Some false, Some (0, 0)) ->
  let ys := after_cmds ex_env one_ws ex_conf (begin os) ks in let ls := label_at ex_env one_ws ex_conf (begin os) ks in
  execution ex_env one_ws ex_conf ys ls /\ not_stopped ls /\ fair 0 ys ls /\ calm 0 ls (length ks).
Proof.
  intros Hend ys ls. split; [|split; [|split]].
  - split; [unfold ys; assert (after_cmds ex_env one_ws ex_conf (begin os) ks 0 = begin os) as -> by (by destruct ks); apply begin_ok|].
    intros t. exact (cmds_step ex_env one_ws ex_conf ks (begin os) t).
  - intros t. apply no_stop_cmd.
  - intros t. exists (t + length ks). split; [lia|]. right. unfold ys. rewrite cmds_end by lia. revert Hend. generalize (after_cmds ex_env one_ws ex_conf (begin os) ks (length ks)).
    intros y. unfold seen_of, waiting. cbn [fst]. destruct (ws_phases (fs_w y) !! 0) as [[| |b| |]|]; try by intros [?|?].
    destruct (fs_feeds y !! 0) as [f|]; [|by intros [?|?]]. cbn [fmap option_fmap option_map]. intros Hb. exists b, f. split; [reflexivity|]. split; [reflexivity|].
    assert (length (fd_rest f) = 0 /\ length (fd_behind f) = 0) as [H1 H2] by (destruct Hb as [Hb|Hb]; injection Hb; auto).
    apply nil_length_inv in H1 as ->. apply nil_length_inv in H2 as ->. reflexivity.
  - intros t Ht. unfold ls. rewrite label_end by done. exact I.
Qed.
(** Everything is deleted while there is no stream: the new stream brings nothing, so nothing is removed. *)
Definition stale_cmds : list cmd :=
  [Do 0 LCheck; Do 0 LConnect; Next 0; Do 0 LClean; Do 0 LApply; Do 0 (LRecv IClosed); Do 0 LApply; Change 0 (IEvent EvDeleted pa); Do 0 LCheck; Do 0 LConnect].
Theorem C77_catches_up_refuted : exists E ws conf ys ls i g c T f, execution E ws conf ys ls /\ not_stopped ls /\ fair i ys ls /\ calm i ls T /\
  alone ws i g c /\ is_Some (conf !! g) /\ fs_feeds (ys T) !! i = Some f /\
  forall t, T <= t -> exists cf clients up hr r ns name, cf_default cf = c /\ asks_for cf g ns name hr /\ serve E cf clients (ws_store (fs_w (ys t))) up hr r /\
    ~ tells E conf g c ns name (fd_log f) r.
Proof.
  set (ys := after_cmds ex_env one_ws ex_conf (begin [pa]) stale_cmds). set (ls := label_at ex_env one_ws ex_conf (begin [pa]) stale_cmds).
  assert (seen_of (ys (length stale_cmds)) = (Some true, Some (0, 0), true, false)) as Hseen by (vm_compute; reflexivity).
  destruct (ends_waiting [pa] stale_cmds) as (H1 & H2 & H3 & H4). { left. unfold ys in Hseen. by rewrite Hseen. }
  assert (fd_log <$> fs_feeds (ys (length stale_cmds)) !! 0 = Some [IEvent EvAdded pa; IEvent EvDeleted pa]) as Hlog by (vm_compute; reflexivity).
  destruct (fs_feeds (ys (length stale_cmds)) !! 0) as [f|] eqn:Ef; [|discriminate Hlog]. cbn [fmap option_fmap option_map] in Hlog. injection Hlog as Hlog.
  exists ex_env, one_ws, ex_conf, ys, ls, 0, pods, c1, (length stale_cmds), f. split; [exact H1|]. split; [exact H2|]. split; [exact H3|]. split; [exact H4|].
  split; [exact one_alone|]. split; [rewrite ex_conf_pods; by eexists|]. split; [exact Ef|]. intros t Ht.
  destruct (cmds_runs ex_env one_ws ex_conf stale_cmds (begin [pa]) t) as (tr & Hr & _).
  destruct (get_answer "a" tr (ys t) (begin [pa]) (begin_ok [pa]) Hr) as (r & Hs & Hr'); [by left|].
  exists ex_cf, ex_clients, ex_apis, (get_req "a"), r, (Some (str "default")), (str "a"). split; [reflexivity|]. split; [apply get_asks; by left|]. split; [exact Hs|].
  intros [_ Ht2]. rewrite Ht2 in Hr'.
  - assert (ys t = ys (length stale_cmds)) as Heq by (by apply cmds_end). rewrite Heq in Hr'.
    pose proof (seen_a _ _ _ _ _ Hseen) as Ha. revert Hr' Ha. generalize (ys (length stale_cmds)). intros y Hr' Ha.
    destruct (store_get (ws_store (fs_w y)) pods c1 (str "default") (str "a")) as [o|]; [discriminate Hr'|]. discriminate Ha.
  - intros o Ho. rewrite Hlog in Ho. apply (last_put_snoc ex_env _ [IEvent EvAdded pa]) in Ho as [(ty & [= <- <-] & [?|?] & _)|[Ho Hno]]; [discriminate|discriminate|].
    apply (Hno EvDeleted pa eq_refl); [discriminate|]. reflexivity.
Qed.
Print Assumptions C77_catches_up_refuted.
Lemma cmds_between E ws conf ks y t t' : t <= t' -> exists tr, fruns E ws conf (after_cmds E ws conf y ks t) tr (after_cmds E ws conf y ks t').
Proof.
  intros Ht. induction Ht as [|t' Ht [tr IH]]; [exists []; constructor|]. pose proof (cmds_step E ws conf ks y t') as H. destruct (label_at E ws conf y ks t') as [l|].
  - exists (l :: tr). by econstructor.
  - exists tr. by rewrite H.
Qed.
Lemma seen_phase y b q x z : seen_of y = (Some b, q, x, z) -> ws_phases (fs_w y) !! 0 = Some (PStream b).
Proof. unfold seen_of. intros H. pose proof (f_equal (fun v => v.1.1.1) H) as H1. cbn [fst snd] in H1. clear H. destruct (ws_phases (fs_w y) !! 0) as [[| |b'| |]|]; try discriminate H1. by injection H1 as ->. Qed.
Lemma seen_feed y p m n x z : seen_of y = (p, Some (m, n), x, z) -> exists f, fs_feeds y !! 0 = Some f /\ length (fd_rest f) = m /\ length (fd_behind f) = n.
Proof.
  unfold seen_of. intros H. pose proof (f_equal (fun v => v.1.1.2) H) as H1. cbn [fst snd] in H1. clear H. destruct (fs_feeds y !! 0) as [f|]; [|discriminate H1].
  cbn [fmap option_fmap option_map] in H1. injection H1 as H1 H2. by exists f.
Qed.
(** Two pods; the stream is closed, and a new one brings them again, one after the other. *)
Definition again_cmds : list cmd :=
  [Do 0 LCheck; Do 0 LConnect; Next 0; Do 0 LClean; Do 0 LApply; Next 0; Do 0 LApply; Do 0 (LRecv IClosed); Do 0 LApply; Do 0 LCheck; Do 0 LConnect; Next 0; Do 0 LClean; Do 0 LApply;
   Next 0; Do 0 LApply].
Definition again (t : nat) : fsys := after_cmds ex_env one_ws ex_conf (begin [pa; pb]) again_cmds t.
Lemma again_7 : seen_of (again 7) = (Some false, Some (0, 0), true, true).
Proof. vm_compute. reflexivity. Qed.
Lemma again_14 : seen_of (again 14) = (Some false, Some (1, 0), true, false).
Proof. vm_compute. reflexivity. Qed.
Lemma again_16 : seen_of (again 16) = (Some false, Some (0, 0), true, true).
Proof. vm_compute. reflexivity. Qed.
Definition log_of (y : fsys) : option (list item) := fd_log <$> fs_feeds y !! 0.
Definition log_ab : list item := [IEvent EvAdded pa; IEvent EvAdded pb].
Lemma again_log_7 : log_of (again 7) = Some log_ab.
Proof. vm_compute. reflexivity. Qed.
Lemma again_log_9 : log_of (again 9) = Some log_ab.
Proof. vm_compute. reflexivity. Qed.
Lemma again_log_14 : log_of (again 14) = Some log_ab.
Proof. vm_compute. reflexivity. Qed.
Lemma log_ab_b : last_put ex_env pods_cf log_ab (str "default") (str "b") pb.
Proof. exists [IEvent EvAdded pa], EvAdded, []. split; [reflexivity|]. split; [by left|]. split; [reflexivity|]. intros t' o' Hin. exfalso. exact (not_elem_of_nil _ Hin). Qed.
Lemma log_feed y f l : log_of y = Some l -> fs_feeds y !! 0 = Some f -> fd_log f = l.
Proof. unfold log_of. intros H Hf. rewrite Hf in H. by injection H. Qed.
(** Nothing changes in the cluster, and the second reply is not right for it though the first one was. *)
Theorem C77_gap_refuted : exists E cf conf clients up hr r r' ws y0 tr y tr' y' i g c ph f f' ns name,
  fstart E ws conf y0 /\ fruns E ws conf y0 tr y /\ fruns E ws conf y tr' y' /\ alone ws i g c /\ is_Some (conf !! g) /\
  ws_phases (fs_w y) !! i = Some ph /\ fs_feeds y !! i = Some f /\ in_step ph f /\ position f = length (fd_log f) /\
  fs_feeds y' !! i = Some f' /\ fd_log f' = fd_log f /\
  cf_default cf = c /\ asks_for cf g ns name hr /\
  serve E cf clients (ws_store (fs_w y)) up hr r /\ tells E conf g c ns name (fd_log f) r /\
  serve E cf clients (ws_store (fs_w y')) up hr r' /\ ~ tells E conf g c ns name (fd_log f') r'.
Proof.
  destruct (cmds_runs ex_env one_ws ex_conf again_cmds (begin [pa; pb]) 7) as (tr & Hr & _). destruct (cmds_between ex_env one_ws ex_conf again_cmds (begin [pa; pb]) 7 14) as [tr' Hr']; [lia|].
  fold (again 7) in Hr, Hr'. fold (again 14) in Hr'.
  destruct (get_answer "b" tr (again 7) _ (begin_ok [pa; pb]) Hr) as (r & Hs & Hrr); [right; by left|].
  pose proof (fruns_trans _ _ _ _ _ _ _ _ Hr Hr') as Hr2. destruct (get_answer "b" _ (again 14) _ (begin_ok [pa; pb]) Hr2) as (r' & Hs' & Hrr'); [right; by left|].
  destruct (seen_feed _ _ _ _ _ _ again_7) as (f & Hf & Hf1 & Hf2). destruct (seen_feed _ _ _ _ _ _ again_14) as (f' & Hf' & _ & _).
  pose proof (log_feed _ _ _ again_log_7 Hf) as Hlf. pose proof (log_feed _ _ _ again_log_14 Hf') as Hlf'.
  apply nil_length_inv in Hf1. apply nil_length_inv in Hf2.
  assert (position f = length (fd_log f)) as Hpos by (unfold position; rewrite Hf2; cbn [length]; lia).
  assert (in_step (PStream false) f) as Hin by (split; [exact Hf1|exact I]). assert (is_Some (ex_conf !! pods)) as Hg by (rewrite ex_conf_pods; by eexists).
  assert (asks_for ex_cf pods (Some (str "default")) (str "b") (get_req "b")) as Hask by (apply get_asks; right; by left).
  exists ex_env, ex_cf, ex_conf, ex_clients, ex_apis, (get_req "b"), r, r', one_ws, (begin [pa; pb]), tr, (again 7), tr', (again 14), 0, pods, c1, (PStream false), f, f', (Some (str "default")), (str "b").
  split; [apply begin_ok|]. split; [exact Hr|]. split; [exact Hr'|]. split; [exact one_alone|]. split; [exact Hg|].
  split; [exact (seen_phase _ _ _ _ _ again_7)|]. split; [exact Hf|]. split; [exact Hin|]. split; [exact Hpos|]. split; [exact Hf'|]. split; [by rewrite Hlf, Hlf'|].
  split; [reflexivity|]. split; [exact Hask|]. split; [exact Hs|]. split; [|split; [exact Hs'|]].
  - destruct (C77_reads ex_env ex_cf ex_conf ex_clients ex_apis (get_req "b") r one_ws (begin [pa; pb]) tr (again 7) 0 pods c1 (PStream false) f (Some (str "default")) (str "b")
      (begin_ok _) Hr one_alone (seen_phase _ _ _ _ _ again_7) Hf Hin Hg eq_refl Hask Hs) as [_ Ht]. rewrite Hpos, firstn_all in Ht. exact Ht.
  - intros [Ht _]. destruct (Ht pb) as (o' & Ho' & _); [rewrite Hlf'; exact log_ab_b|].
    pose proof (seen_b _ _ _ _ _ again_14) as Hb. rewrite Ho' in Hrr'. revert Hrr' Hb. generalize (store_get (ws_store (fs_w (again 14))) pods c1 (str "default") (str "b")).
    intros [o|] Hrr' Hb; [discriminate Hb|discriminate Hrr'].
Qed.
Print Assumptions C77_gap_refuted.
(** A change that was made is not there at once: a client does not read its own writes. *)
Definition late_cmds : list cmd := [Do 0 LCheck; Do 0 LConnect; Next 0; Do 0 LClean; Do 0 LApply; Change 0 (IEvent EvAdded pb)].
Definition late : fsys := after_cmds ex_env one_ws ex_conf (begin [pa]) late_cmds 6.
Lemma late_seen : seen_of late = (Some false, Some (0, 1), true, false).
Proof. vm_compute. reflexivity. Qed.
Lemma late_log : log_of late = Some log_ab.
Proof. vm_compute. reflexivity. Qed.
Theorem C77_own_writes_refuted : exists E cf conf clients up hr r ws y0 tr y i g c ph f ns name,
  fstart E ws conf y0 /\ fruns E ws conf y0 tr y /\ alone ws i g c /\ is_Some (conf !! g) /\
  ws_phases (fs_w y) !! i = Some ph /\ fs_feeds y !! i = Some f /\ in_step ph f /\
  cf_default cf = c /\ asks_for cf g ns name hr /\ serve E cf clients (ws_store (fs_w y)) up hr r /\ ~ tells E conf g c ns name (fd_log f) r.
Proof.
  destruct (cmds_runs ex_env one_ws ex_conf late_cmds (begin [pa]) 6) as (tr & Hr & _). fold late in Hr.
  destruct (get_answer "b" tr late _ (begin_ok [pa]) Hr) as (r & Hs & Hrr); [right; by left|].
  destruct (seen_feed _ _ _ _ _ _ late_seen) as (f & Hf & Hf1 & _). apply nil_length_inv in Hf1.
  exists ex_env, ex_cf, ex_conf, ex_clients, ex_apis, (get_req "b"), r, one_ws, (begin [pa]), tr, late, 0, pods, c1, (PStream false), f, (Some (str "default")), (str "b").
  split; [apply begin_ok|]. split; [exact Hr|]. split; [exact one_alone|]. split; [rewrite ex_conf_pods; by eexists|]. split; [exact (seen_phase _ _ _ _ _ late_seen)|].
  split; [exact Hf|]. split; [split; [exact Hf1|exact I]|]. split; [reflexivity|]. split; [apply get_asks; right; by left|]. split; [exact Hs|].
  intros [Ht _]. destruct (Ht pb) as (o' & Ho' & _); [rewrite (log_feed _ _ _ late_log Hf); exact log_ab_b|].
  pose proof (seen_b _ _ _ _ _ late_seen) as Hb. rewrite Ho' in Hrr. revert Hrr Hb. generalize (store_get (ws_store (fs_w late)) pods c1 (str "default") (str "b")).
  intros [o|] Hrr Hb; [discriminate Hb|discriminate Hrr].
Qed.
Print Assumptions C77_own_writes_refuted.

(** ** Examples *)
(** In step after the first stream, filling during the second one. *)
Example C77_ex_reads : (exists tr f, fruns ex_env one_ws ex_conf (begin [pa; pb]) tr (again 7) /\ fs_feeds (again 7) !! 0 = Some f /\ in_step (PStream false) f /\ position f = 2) /\
  (exists tr f, fruns ex_env one_ws ex_conf (begin [pa; pb]) tr (again 14) /\ fs_feeds (again 14) !! 0 = Some f /\ filling (PStream false) f) /\
  ws_phases (fs_w (again 7)) !! 0 = Some (PStream false) /\ ws_phases (fs_w (again 14)) !! 0 = Some (PStream false) /\
  fstart ex_env one_ws ex_conf (begin [pa; pb]) /\ alone one_ws 0 pods c1.
Proof.
  split; [|split; [|split; [exact (seen_phase _ _ _ _ _ again_7)|split; [exact (seen_phase _ _ _ _ _ again_14)|split; [apply begin_ok|exact one_alone]]]]].
  - destruct (cmds_runs ex_env one_ws ex_conf again_cmds (begin [pa; pb]) 7) as (tr & Hr & _). fold (again 7) in Hr. destruct (seen_feed _ _ _ _ _ _ again_7) as (f & Hf & Hf1 & Hf2).
    exists tr, f. split; [exact Hr|]. split; [exact Hf|]. apply nil_length_inv in Hf1. split; [split; [exact Hf1|exact I]|].
    unfold position. rewrite (log_feed _ _ _ again_log_7 Hf), Hf2. reflexivity.
  - destruct (cmds_runs ex_env one_ws ex_conf again_cmds (begin [pa; pb]) 14) as (tr & Hr & _). fold (again 14) in Hr. destruct (seen_feed _ _ _ _ _ _ again_14) as (f & Hf & Hf1 & _).
    exists tr, f. split; [exact Hr|]. split; [exact Hf|]. split; [|exact I]. intros He. rewrite He in Hf1. discriminate Hf1.
Qed.
Definition kube_label (l : option flabel) : bool :=
  match l with Some (FAct _ (LRecv (IEvent _ (ORaw _)))) => false | Some (FAct _ (LRecv (IEvent _ (OKube _)))) | _ => true end.
Lemma again_kube : only_kube (label_at ex_env one_ws ex_conf (begin [pa; pb]) again_cmds).
Proof.
  intros t' j t o Ht' Ht. set (ls := label_at ex_env one_ws ex_conf (begin [pa; pb]) again_cmds) in *.
  assert (t' < 16) as Hlt by (destruct (decide (t' < 16)) as [|Hge]; [done|]; unfold ls in Ht'; rewrite label_end in Ht' by (change (length again_cmds) with 16; lia); discriminate Ht').
  assert (forallb (fun t => kube_label (ls t)) (seq 0 16) = true) as Hall by (vm_compute; reflexivity). rewrite forallb_forall in Hall.
  specialize (Hall t' (proj2 (in_seq 16 0 t') (conj (Nat.le_0_l t') Hlt))). rewrite Ht' in Hall. destruct o as [k|]; [by exists k|discriminate Hall].
Qed.
(** The execution that ends with the second stream: calm from the moment the first one is closed. *)
Definition calm_label (l : option flabel) : bool :=
  match l with
  | Some (FChange _ _) | Some (FAct _ LFail) => false
  | Some (FAct _ (LRecv it)) => is_change it
  | _ => true
  end.
Example C77_ex_catches_up : let ls := label_at ex_env one_ws ex_conf (begin [pa; pb]) again_cmds in
  execution ex_env one_ws ex_conf again ls /\ not_stopped ls /\ only_kube ls /\ fair 0 again ls /\ calm 0 ls 9 /\ alone one_ws 0 pods c1 /\ is_Some (ex_conf !! pods) /\
  log_of (again 9) = Some log_ab /\ last_put ex_env (default ∅ (ex_conf !! pods)) log_ab (str "default") (str "b") pb.
Proof.
  intros ls. destruct (ends_waiting [pa; pb] again_cmds) as (H1 & H2 & H3 & H4). { right. pose proof again_16 as H. unfold again in H. change (length again_cmds) with 16. by rewrite H. }
  split; [exact H1|]. split; [exact H2|]. split; [exact again_kube|]. split; [exact H3|]. split; [|split; [exact one_alone|split; [rewrite ex_conf_pods; by eexists|split; [|exact log_ab_b]]]].
  - intros t Ht. destruct (decide (16 <= t)) as [Hle|Hlt]; [exact (H4 t Hle)|].
    assert (forallb (fun t => calm_label (ls t)) (seq 9 7) = true) as Hall by (vm_compute; reflexivity). rewrite forallb_forall in Hall. specialize (Hall t).
    assert (calm_label (ls t) = true) as Hc by (apply Hall, in_seq; lia). revert Hc. generalize (ls t). intros [[j [| | |it| | |]|j it|]|] Hc; try exact I; try discriminate Hc. intros _. exact Hc.
  - exact again_log_9.
Qed.
(** The list of the pods at the end of the first stream. *)
Definition list_req : http_req := ex_hreq (api_path pods (Some (str "default")) None).
Example C77_ex_list : exists tr f, fruns ex_env one_ws ex_conf (begin [pa; pb]) tr (again 7) /\ fs_feeds (again 7) !! 0 = Some f /\ in_step (PStream false) f /\
  (forall j t o, FAct j (LRecv (IEvent t o)) ∈ tr -> t <> EvOther -> exists k, o = OKube k) /\
  asks_for_list ex_cf pods (Some (str "default")) list_req /\ cf_default ex_cf = c1 /\ legal_value c1 /\ is_Some (ex_conf !! pods) /\
  last_put ex_env (default ∅ (ex_conf !! pods)) (take (position f) (fd_log f)) (str "default") (str "b") pb.
Proof.
  destruct (cmds_runs ex_env one_ws ex_conf again_cmds (begin [pa; pb]) 7) as (tr & Hr & Hl). fold (again 7) in Hr. destruct (seen_feed _ _ _ _ _ _ again_7) as (f & Hf & Hf1 & Hf2).
  exists tr, f. split; [exact Hr|]. split; [exact Hf|]. split; [apply nil_length_inv in Hf1; split; [exact Hf1|exact I]|]. split.
  { intros j t o Hin Ht. destruct (Hl _ Hin) as [t' Ht']. exact (again_kube t' j t o Ht' Ht). }
  split. { split; [by left|]. split; [|split; [reflexivity|split; [reflexivity|split; [reflexivity|]]]].
    - apply PropsFakePages.fs_addr. intros x Hx. discriminate Hx.
    - intros (a & b & Heq). destruct a; discriminate Heq. }
  split; [reflexivity|]. split; [apply PropsSelector.valid_value_legal; vm_compute; reflexivity|]. split; [rewrite ex_conf_pods; by eexists|].
  unfold position. rewrite (log_feed _ _ _ again_log_7 Hf), Hf2. exact log_ab_b.
Qed.
