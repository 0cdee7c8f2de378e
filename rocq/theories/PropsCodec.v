(** C69: from the bytes of a watch to the bytes of a reply. *)
From Coq Require Import Ascii String NArith ZArith Lia.
From stdpp Require Import base gmap strings list sorting.
From Verif Require PropsSelector.
From Verif Require Import ModelStr ModelSort ModelLabels ModelPage ModelJson ModelJsonText ModelQuery ModelStore ModelUrl ModelProxy ModelServer ModelObjType ModelFake ModelWatcher ModelExtend ModelServe ModelCodec
  SpecLabels SpecPage SpecStore SpecProxy SpecServer SpecServe SpecWatcher SpecObjType SpecCodec
  SpecList ProofsStr ProofsFakePages ProofsJson ProofsJsonText ProofsStore ProofsWatcher ProofsObjType ProofsCodec PropsStore PropsProxy PropsObjType PropsWatcher PropsServe.

(** The number of events a goroutine received from its latest stream. *)
Definition is_event (x : item) : bool := match x with IEvent _ _ => true | IClosed => false end.
Definition seen (i : nat) (tr : list wlabel) : nat := length (List.filter is_event (latest i tr)).

Section cache.
  Context (E : env) (JE : jenv) (cd : codec) (ws : list (gvr * gostr)) (conf : gmap gvr (gmap gostr gostr)).
  (** The goroutine [i] has dealt with everything it received, and its latest stream was the events [evs]. *)
  Definition caught_up (tr : list wlabel) (w : wsys) (i : nat) (g : gvr) (c : gostr) (evs : list raw_event) : Prop :=
    wruns E ws (wstart ws conf) tr w /\ alone ws i g c /\ latest i tr <> [] /\
    (forall f x, ws_phases w !! i <> Some (PGot f x)) /\ latest i tr `prefix_of` (deliver JE cd evs).1.

  Lemma caught_up_items tr w i g c kind evs : caught_up tr w i g c evs -> proper g -> cd_known cd (g.1.1, g.1.2, kind) = false ->
    Forall (about g kind) evs -> Forall (readable g kind) evs ->
    seen i tr <= length evs /\
    (latest i tr = map (item_of JE) (take (seen i tr) evs) \/ latest i tr = map (item_of JE) (take (seen i tr) evs) ++ [IClosed]).
  Proof.
    intros (_ & _ & _ & _ & Hpre) Hp Hk HF HR. rewrite (deliver_readable JE cd g kind evs Hp Hk HF HR) in Hpre. cbn [fst] in Hpre.
    assert (forall l : list raw_event, List.filter is_event (map (item_of JE) l) = map (item_of JE) l) as Hfil.
    { induction l as [|x l IH]; [done|]. cbn [map List.filter is_event item_of]. by rewrite IH. }
    unfold seen. apply prefix_items in Hpre as (n & Hn & Hcase). rewrite map_length in Hn. destruct Hcase as [->|[-> ->]].
    - rewrite !(firstn_map (item_of JE)). rewrite !Hfil. rewrite !map_length, take_length. split; [lia|]. left. by rewrite Nat.min_l by lia.
    - rewrite List.filter_app, Hfil. cbn [List.filter is_event]. rewrite app_nil_r, !map_length. split; [lia|]. right. by rewrite firstn_all.
  Qed.
  Lemma cache_entry tr w i g c kind evs ns n : caught_up tr w i g c evs -> proper g -> cd_known cd (g.1.1, g.1.2, kind) = false ->
    Forall (about g kind) evs -> Forall (readable g kind) evs ->
    match lookup_entry (ws_store w) g c ns n with
    | Some e => exists o, last_sent JE (take (seen i tr) evs) ns n o /\ e = (build E (default ∅ (conf !! g)) c (to_obj o)).2
    | None => forall o, ~ last_sent JE (take (seen i tr) evs) ns n o
    end.
  Proof.
    intros Hc Hp Hk HF HR. destruct (caught_up_items _ _ _ _ _ _ _ Hc Hp Hk HF HR) as [Hlen Hit]. destruct Hc as (Hr & Ha & Hne & Hph & _).
    destruct (runs_inv E ws conf tr w i g c Hr Ha) as (ph & Hph' & Hinv).
    assert (lookup_entry (ws_store w) g c ns n = replay E (default ∅ (conf !! g)) c (latest i tr) ns n) as ->.
    { destruct ph as [| |[]|f x|]; cbn [inv] in Hinv; try (by apply Hinv); [done|]. by destruct (Hph f x). }
    assert (replay E (default ∅ (conf !! g)) c (latest i tr) ns n = replay E (default ∅ (conf !! g)) c (map (item_of JE) (take (seen i tr) evs)) ns n) as ->.
    { destruct Hit as [->| ->]; [done|]. rewrite replay_snoc. done. }
    apply (replay_docs E JE g kind). by apply Forall_take.
  Qed.

  (** The cache of a custom type holds, for every name, the last document sent, with the annotations of ckube
      added, and nothing else. *)
  Theorem C69_cache tr w i g c kind evs ns n : caught_up tr w i g c evs -> proper g -> cd_known cd (g.1.1, g.1.2, kind) = false ->
    Forall (about g kind) evs -> Forall (readable g kind) evs ->
    seen i tr <= length evs /\
    match store_get (ws_store w) g c ns n with
    | Some x => exists o a, last_sent JE (take (seen i tr) evs) ns n o /\ x = put_annos (to_obj o) a /\ annotated_as c o (with_annos o a)
    | None => forall o, ~ last_sent JE (take (seen i tr) evs) ns n o
    end.
  Proof.
    intros Hc Hp Hk HF HR. split; [by apply (caught_up_items tr w i g c kind evs)|]. pose proof (cache_entry tr w i g c kind evs ns n Hc Hp Hk HF HR) as H.
    unfold store_get. destruct (lookup_entry (ws_store w) g c ns n) as [e|]; [|done]. destruct H as (o & Ho & ->).
    destruct (build_annos E (default ∅ (conf !! g)) c o) as (a & Ha & Han & _). exists o, a. done.
  Qed.

  Lemma run_of tr w : wruns E ws (wstart ws conf) tr w -> exists h, run_calls E (new_store conf) h = Ok (ws_store w).
  Proof. intros H. destruct (runs_calls E ws conf tr w H) as (h & Hh & _). by exists h. Qed.
  (** What is printed of a cached document reads back as it, annotated. *)
  Lemma printed_doc tr w i g c kind evs ns n x : lawful JE -> valid_utf8 c = true ->
    caught_up tr w i g c evs -> proper g -> cd_known cd (g.1.1, g.1.2, kind) = false ->
    Forall (about g kind) evs -> Forall (readable g kind) evs -> store_get (ws_store w) g c ns n = Some x ->
    exists o o', last_sent JE (take (seen i tr) evs) ns n o /\ annotated_as c o o' /\ (forall s, prints x s <-> s = encode_obj o') /\
      (me_deleted (t_meta o) <> Some None -> good_obj JE o').
  Proof.
    intros HJ Hv Hc Hp Hk HF HR Hx. pose proof (cache_entry tr w i g c kind evs ns n Hc Hp Hk HF HR) as H. unfold store_get in Hx.
    destruct (lookup_entry (ws_store w) g c ns n) as [e|]; [|done]. injection Hx as <-. destruct H as (o & Ho & ->).
    destruct (build_annos E (default ∅ (conf !! g)) c o) as (a & -> & Han & Hval). exists o, (with_annos o a). split; [done|]. split; [done|]. split.
    - intros s. split; [apply prints_inv|]. intros ->. constructor.
    - intros Hdel. destruct Ho as (b & e & af & _ & _ & Hd & _). pose proof (C45_decoded JE _ o HJ Hd Hdel) as Hg. apply good_annotated; [done|].
      apply Hval; [|done]. apply Hg.
  Qed.

  (** Reading an object over HTTP: the body is JSON text that reads back as the last document sent, annotated;
      the kind and all members are those of the document (see C45 for what reading does). *)
  Theorem C69_get cf clients up hr ns name r tr w i g c kind evs : lawful JE -> valid_utf8 c = true ->
    caught_up tr w i g c evs -> proper g -> cd_known cd (g.1.1, g.1.2, kind) = false ->
    Forall (about g kind) evs -> Forall (readable g kind) evs ->
    is_Some (conf !! g) -> authorised cf hr -> api_addr g ns (Some name) -> cf_default cf = c ->
    rq_method (h_req hr) = str "GET" -> rq_path (h_req hr) = api_path g ns (Some name) -> rq_raw (h_req hr) = [] ->
    serve E cf clients (ws_store w) up hr r ->
    (forall o, last_sent JE (take (seen i tr) evs) (default [] ns) name o -> me_deleted (t_meta o) <> Some None ->
       exists x o', r = Some (Reply 200 [BObject x]) /\ annotated_as c o o' /\ (exists s, prints x s) /\ forall s, prints x s -> decode_obj JE s = Ok o') /\
    ((forall o, ~ last_sent JE (take (seen i tr) evs) (default [] ns) name o) -> r = Some (Reply 404 [BStatus 404 (str "resource not found")])).
  Proof.
    intros HJ Hv Hc Hp Hk HF HR Hcf Hau Had Hdef Hm Hpath Hraw Hs. destruct (run_of tr w (proj1 Hc)) as [h Hh].
    pose proof (get_reply E cf conf h (ws_store w) clients up hr g ns name r Hh Hcf Hau Had Hm Hpath Hraw Hs) as ->. rewrite Hdef.
    pose proof (cache_entry tr w i g c kind evs (default [] ns) name Hc Hp Hk HF HR) as Hce.
    destruct (store_get (ws_store w) g c (default [] ns) name) as [x|] eqn:Hx.
    - destruct (printed_doc tr w i g c kind evs (default [] ns) name x HJ Hv Hc Hp Hk HF HR Hx) as (o & o' & Ho & Han & Hpr & Hgood). split.
      + intros o2 Ho2 Hdel. rewrite <- (last_sent_fun _ _ _ _ _ _ Ho Ho2) in *. exists x, o'. split; [done|]. split; [done|]. split.
        * exists (encode_obj o'). by apply Hpr.
        * intros s ->%Hpr. apply C45_round_trip; [done|]. by apply Hgood.
      + intros Hno. by destruct (Hno o).
    - unfold store_get in Hx. destruct (lookup_entry (ws_store w) g c (default [] ns) name); [done|]. split; [|done]. intros o Ho. by destruct (Hce o).
  Qed.
End cache.
Print Assumptions C69_cache.
Print Assumptions C69_get.

(** Listing a custom type over HTTP: one item for each name whose last document was not deleted, and its text
    reads back as this document, annotated; without items the body says null. *)
Theorem C69_list E JE cd ws conf cf clients up hr ns r tr w i g c kind evs : lawful JE -> valid_utf8 c = true ->
  caught_up E JE cd ws conf tr w i g c evs -> proper g -> cd_known cd (g.1.1, g.1.2, kind) = false ->
  Forall (about g kind) evs -> Forall (readable g kind) evs ->
  (forall j t x, WAct j (LRecv (IEvent t x)) ∈ tr -> t <> EvOther -> exists k, x = OKube k) ->
  is_Some (conf !! g) -> authorised cf hr -> api_addr g ns None -> cf_default cf = c -> c <> [] -> legal_value c ->
  rq_method (h_req hr) = str "GET" -> rq_path (h_req hr) = api_path g ns None -> rq_raw (h_req hr) = [] ->
  ~ occurs (str "application/json;as=Table") (rq_accept (h_req hr)) ->
  valid_utf8 (api_path g ns None) = true -> valid_utf8 g.1.1 = true -> valid_utf8 g.1.2 = true -> (forall k, (g, k) ∈ cf_proxies cf -> valid_utf8 k = true) ->
  serve E cf clients (ws_store w) up hr r ->
  exists ks os, NoDup ks /\
    Forall2 (fun k o => last_sent JE (take (seen i tr) evs) k.1 k.2 o /\ forall m, ns = Some m -> k.1 = m) ks os /\
    (forall k o, last_sent JE (take (seen i tr) evs) k.1 k.2 o -> (forall m, ns = Some m -> k.1 = m) -> k ∈ ks) /\
    ((Z.of_nat (length os) < 2 ^ 63)%Z -> Forall (fun o => me_deleted (t_meta o) <> Some None /\ jdepth (JObj (t_data o)) + 2 <= max_nesting) os ->
     exists api lkind xs, list_head cf g api lkind /\ r = Some (Reply 200 [BList api lkind (api_path g ns None) 0 xs]) /\
       (exists ts, Forall2 prints xs ts) /\
       forall ts, Forall2 prints xs ts ->
         exists l js, json_parse (list_text api lkind (api_path g ns None) 0 ts) = Some (JObj l) /\
           get (str "items") l = Some (match js with [] => JNull | _ => JArr js end) /\
           Forall2 (fun o j => exists o', decode_obj JE (json_text j) = Ok o' /\ annotated_as c o o') os js).
Proof.
  intros HJ Hv Hc Hp Hk HF HR Hkube Hcf Hau Had Hdef Hcne Hleg Hm Hpath Hraw Hacc Hv1 Hv2 Hv3 Hv4 Hs.
  destruct (runs_calls E ws conf tr w (proj1 Hc)) as (h & Hh & Hin).
  assert (Forall kube_call h) as Hkc.
  { apply Forall_forall. intros k Hkin. destruct (Hin k Hkin) as [(g' & c' & ->)|(j & g' & c' & x & Hx & Hev)]; [done|].
    destruct x as [[] x|]; cbn [event_call] in Hev; try (by apply elem_of_nil in Hev); apply elem_of_list_singleton in Hev as ->;
      (destruct (Hkube j _ x Hx) as [o ->]; [discriminate|]; by exists o). }
  subst c. destruct (C60_list E cf conf h (ws_store w) clients up hr g ns r Hkc Hh Hcf Hau Had Hm Hpath Hraw Hacc Hcne Hleg Hs) as (ks & es & Hnd & HF2 & Hcm & Hrep).
  set (evs' := take (seen i tr) evs) in *.
  assert (exists os, Forall2 (fun k o => last_sent JE evs' k.1.2 k.2 o) ks os /\
    Forall2 (fun e o => exists o', annotated_as (cf_default cf) o o' /\ (forall s, prints (en_obj e) s <-> s = encode_obj o') /\ (me_deleted (t_meta o) <> Some None -> good_obj JE o')) es os) as (os & Hos1 & Hos2).
  { clear Hrep Hcm Hnd. induction HF2 as [|[[k1 k2] k3] e ks es (Hk1 & Hlk & _) HF2 IH]; [exists []; split; constructor|]. destruct IH as (os & IH1 & IH2). cbn [fst snd] in *.
    destruct (printed_doc E JE cd ws conf tr w i g (cf_default cf) kind evs k2 k3 (en_obj e) HJ Hv Hc Hp Hk HF HR) as (o & o' & Ho & Han & Hpr & Hgood).
    { unfold store_get. by rewrite Hlk. }
    exists (o :: os). split; constructor; try done. by exists o'. }
  exists (map (fun k => (k.1.2, k.2)) ks), os. split_and!.
  - clear -Hnd HF2. revert es HF2. induction ks as [|k ks IH]; intros es HF2; [constructor|]. destruct es as [|e es]; [by inversion HF2|].
    apply Forall2_cons in HF2 as [Hk HF2]. apply NoDup_cons in Hnd as [Hn Hnd]. cbn [map]. apply NoDup_cons. split; [|by eapply IH].
    intros (k' & Heq & Hin)%elem_of_list_fmap. apply Hn. assert (k = k') as ->; [|done].
    apply elem_of_list_lookup in Hin as [j Hj]. destruct (Forall2_lookup_l _ _ _ _ _ HF2 Hj) as (e' & _ & Hk' & _). destruct Hk as [Hk _].
    destruct k as [[? ?] ?], k' as [[? ?] ?]. cbn [fst snd] in *. apply pair_equal_spec in Heq as [-> ->]. by rewrite Hk, Hk'.
  - apply Forall2_fmap_l. clear -HF2 Hos1. revert es HF2. induction Hos1 as [|k o ks os Hko Hos1 IH]; intros es HF2; [constructor|]. destruct es as [|e es]; [by inversion HF2|].
    apply Forall2_cons in HF2 as [Hk HF2]. constructor; [|by eapply IH]. cbn [fst snd]. split; [done|]. intros m Hm. by apply Hk.
  - intros [k1 k2] o Ho Hns. cbn [fst snd] in *. pose proof (cache_entry E JE cd ws conf tr w i g (cf_default cf) kind evs k1 k2 Hc Hp Hk HF HR) as Hce.
    destruct (lookup_entry (ws_store w) g (cf_default cf) k1 k2) as [e|] eqn:He; [|by destruct (Hce o)].
    apply elem_of_list_fmap. exists (cf_default cf, k1, k2). split; [done|]. apply (Hcm k1 k2 e He). intros m Hm'. by apply Hns.
  - intros Hlen Hgood. assert (length es = length os) as Hleq by (by eapply Forall2_length). rewrite <- Hleq in Hlen.
    destruct (Hrep Hlen) as (api & lkind & Hhead & ->). exists api, lkind, (map en_obj es). split; [done|]. split; [done|].
    assert (exists js, (forall ts, Forall2 prints (map en_obj es) ts <-> ts = map json_text js) /\
      Forall (fun j => printed JE j /\ jdepth j + 2 <= max_nesting) js /\
      Forall2 (fun o j => exists o', decode_obj JE (json_text j) = Ok o' /\ annotated_as (cf_default cf) o o') os js) as (js & Hjs1 & Hjs2 & Hjs3).
    { clear -HJ Hos2 Hgood. induction Hos2 as [|e o es os (o' & Han & Hpr & Hg) Hos2 IH].
      - exists []. split; [intros ts; split; [intros H; by inversion H|intros ->; constructor]|]. split; constructor.
      - apply Forall_cons in Hgood as [[Hdel Hdep] Hgood]. destruct (IH Hgood) as (js & H1 & H2 & H3). specialize (Hg Hdel).
        destruct (printed_obj JE o' Hg) as [Hp1 Hp2]. exists (JObj (t_data o' ++ members (head_fields o')) :: js). split_and!.
        + intros ts. cbn [map]. rewrite <- encode_text. split.
          * intros Hts. destruct ts as [|s ts]; [by inversion Hts|]. apply Forall2_cons in Hts as [Hs Hts]. apply Hpr in Hs as ->. apply H1 in Hts as ->. done.
          * intros ->. constructor; [by apply Hpr|]. by apply H1.
        + constructor; [|done]. split; [done|].
          assert (t_data o' = t_data o) as Hd by apply Han. rewrite Hd. destruct (printed_meta JE _ (gd_meta _ _ Hg)) as [_ Hmd].
          assert (exists m, max_nesting = S (S (S (S (S (S m)))))) as [m Hmax] by (unfold max_nesting; exists (max_nesting - 6); vm_compute; reflexivity).
          rewrite Hmax in *. assert (jdepth (JObj (t_data o)) <= S (S (S (S m)))) as Hdep' by lia. enough (jdepth (JObj (t_data o ++ members (head_fields o'))) <= S (S (S (S m)))) by lia.
          rewrite jdepth_obj in Hdep' |- *. apply Forall_app. split; [done|]. apply Forall_forall. intros [k v] Hkv. rewrite head_split in Hkv. cbn [snd].
          apply elem_of_app in Hkv as [Hkv|Hkv].
          * apply members_elem in Hkv. apply elem_of_cons in Hkv as [Hkv|Hkv]; [|apply elem_of_list_singleton in Hkv]; apply pair_equal_spec in Hkv as [_ Hkv].
            -- destruct (t_kind o'); [discriminate Hkv|]. injection Hkv as ->. cbn. lia.
            -- destruct (t_api o'); [discriminate Hkv|]. injection Hkv as ->. cbn. lia.
          * apply elem_of_list_singleton in Hkv. apply pair_equal_spec in Hkv as [_ ->]. lia.
        + constructor; [|done]. exists o'. split; [|done]. rewrite <- encode_text. by apply C45_round_trip. }
    split; [eexists; by apply Hjs1|]. intros ts ->%Hjs1. rewrite list_text_json. unfold list_json. eexists _, js. split; [|split; [|done]].
    + apply (parse_printed JE HJ).
      * assert (valid_utf8 api = true /\ valid_utf8 lkind = true) as [Ha1 Ha2].
        { destruct Hhead as [[[_ ->]|[_ ->]] Hkd].
          - split; [done|]. destruct Hkd as [(b & a & Heq & _)|[_ ->]]; [|done]. apply Hv4. rewrite Heq. set_solver.
          - split; [apply ProofsFakePages.valid_app; [done|]; by apply ProofsFakePages.valid_app|].
            destruct Hkd as [(b & a & Heq & _)|[_ ->]]; [|done]. apply Hv4. rewrite Heq. set_solver. }
        apply p_obj. repeat (apply Forall_cons_2; [split; [reflexivity|]; cbn [snd]|]); [| | | |constructor].
        -- by apply p_str.
        -- destruct js as [|j js']; [apply p_null|]. apply p_arr. eapply Forall_impl; [exact Hjs2|]. by intros ? [? _].
        -- by apply p_str.
        -- apply p_obj. repeat (apply Forall_cons_2; [split; [reflexivity|]; cbn [snd]|]); [| |constructor]; [|by apply p_str].
           apply p_num. change (itoa 0) with (str "0"). apply (law_zero JE HJ).
      * assert (exists m, max_nesting = S (S (S (S m)))) as [m Hmax] by (unfold max_nesting; exists (max_nesting - 4); vm_compute; reflexivity). rewrite Hmax in *.
        apply jdepth_obj. repeat (apply Forall_cons_2; [cbn [snd]|]); [| | | |constructor]; [cbn; lia| |cbn; lia|cbn; lia].
        destruct js as [|j js']; [cbn; lia|]. apply jdepth_arr. eapply Forall_impl; [exact Hjs2|]. intros ? [_ H]. lia.
    + reflexivity.
Qed.
Print Assumptions C69_list.

(** ** Which kinds can be decoded *)
(** A configured list kind is the kind and List: the kind is registered, or known, exactly when it does not end
    in one of the letters of List; and no registered kind ends in one of them, whoever registered it. *)
Theorem C69_kinds cd started reg : registered cd ∅ started = Ok reg ->
  (forall px g kind, (px, g) ∈ started -> kind_in px g = kind ++ str "List" -> (forall k c, kind = k ++ [c] -> ~ in_list c) ->
     cd_known cd (g.1.1, g.1.2, kind) = true \/ (g.1.1, g.1.2, kind) ∈ reg) /\
  (forall g v k c, (g, v, k ++ [c]) ∈ reg -> ~ in_list c).
Proof.
  intros Hreg. pose proof (registered_iff cd started ∅ reg Hreg) as Hiff. split.
  - intros px g kind Hin Hk Hno. destruct (cd_known cd (g.1.1, g.1.2, kind)) eqn:Ek; [by left|]. right. apply Hiff. right. split; [done|].
    exists px, g. split; [done|]. unfold watch_gvk. by rewrite (proj2 (C46_kind px g kind Hk) Hno).
  - intros g v k c [Hin|(_ & px & g' & _ & Heq)]%Hiff; [by apply elem_of_empty in Hin|]. unfold watch_gvk in Heq. apply pair_equal_spec in Heq as [_ Heq].
    destruct (C46_trimmed px g') as (_ & _ & _ & H). by apply (H k c).
Qed.
Print Assumptions C69_kinds.
(** A custom type whose kind ends in one of these letters is never cached, whatever is configured and however
    often the watch is started: every stream ends at its first event. *)
Theorem C69_lost E JE cd ws conf tr w i g c k l : wruns E ws (wstart ws conf) tr w -> alone ws i g c -> proper g ->
  in_list l -> cd_known cd (g.1.1, g.1.2, k ++ [l]) = false ->
  (forall x, WAct i (LRecv x) ∈ tr -> exists evs, Forall (about g (k ++ [l])) evs /\
     Forall (fun e => exists started, registered cd ∅ started = Ok (re_reg e)) evs /\ x ∈ (deliver JE cd evs).1) ->
  forall ns n, store_get (ws_store w) g c ns n = None.
Proof.
  intros Hr Ha Hp Hl Hk Hrecv ns n. unfold store_get. rewrite (runs_nothing E ws conf tr w i g c Hr Ha); [done|]. intros t o Hin.
  destruct (Hrecv _ Hin) as (evs & HF & HR & Hx). destruct evs as [|e evs].
  { cbn in Hx. apply elem_of_list_singleton in Hx. discriminate Hx. }
  apply Forall_cons in HF as [He _]. apply Forall_cons in HR as [[started Hs] _].
  rewrite (deliver_unregistered JE cd g (k ++ [l]) e evs Hp Hk He) in Hx.
  - cbn in Hx. apply elem_of_cons in Hx as [Hx|Hx]; [by injection Hx|]. apply elem_of_list_singleton in Hx. discriminate Hx.
  - intros Hread. by apply (proj2 (C69_kinds cd started _ Hs) _ _ _ _ Hread).
Qed.
Print Assumptions C69_lost.

(** ** Types that client-go knows *)
Lemma replay_from E cf c items ns n e : replay E cf c items ns n = Some e ->
  exists t o, IEvent t o ∈ items /\ (t = EvAdded \/ t = EvModified) /\ e = (build E cf c o).2.
Proof.
  induction items as [|it items IH] using rev_ind; [done|]. rewrite replay_snoc. intros H.
  assert (replay E cf c items ns n = Some e -> exists t o, IEvent t o ∈ items ++ [it] /\ (t = EvAdded \/ t = EvModified) /\ e = (build E cf c o).2) as Hold.
  { intros He. destruct (IH He) as (t & o & Hin & H'). exists t, o. split; [by apply elem_of_app; left|done]. }
  destruct it as [[] o|]; cbn [item_after] in H; try (by apply Hold).
  - destruct (decide _); [|by apply Hold]. injection H as <-. exists EvAdded, o. split; [by apply elem_of_app; right; left|]. split; [by left|done].
  - destruct (decide _); [|by apply Hold]. injection H as <-. exists EvModified, o. split; [by apply elem_of_app; right; left|]. split; [by right|done].
  - destruct (decide _); [done|]. by apply Hold.
Qed.
Lemma deliver_known JE cd g kind evs t x : proper g -> cd_known cd (g.1.1, g.1.2, kind) = true -> Forall (about g kind) evs ->
  IEvent t x ∈ (deliver JE cd evs).1 -> t <> EvOther -> exists e o, e ∈ evs /\ cd_typed cd (g.1.1, g.1.2, kind) (re_text e) = Some o /\ x = to_obj (clear_type o).
Proof.
  intros Hp Hk HF Hin Ht. induction HF as [|e evs He HF IH]; [cbn in Hin; apply elem_of_list_singleton in Hin; discriminate Hin|].
  cbn [deliver] in Hin. destruct (about_type g kind e He) as [Hty _]. rewrite Hty in Hin. destruct He as [_ Hd]. unfold decode_any in Hin. rewrite (interpret_document g kind _ Hp Hd) in Hin.
  destruct Hp as (Hp1 & Hp2 & Hv). pose proof (proj1 Hd) as Hk'. destruct kind as [|k0 kind]; [done|]. destruct (g.1.2) as [|v0 v] eqn:E; [done|]. rewrite Hk in Hin.
  destruct (cd_typed cd (g.1.1, v0 :: v, k0 :: kind) (re_text e)) as [o|] eqn:Eo.
  - destruct (deliver JE cd evs) as [l b]. cbn [fst] in *. apply elem_of_cons in Hin as [Hin|Hin].
    + exists e, o. split; [left|]. split; [done|]. by injection Hin.
    + destruct (IH Hin) as (e' & o' & ? & H). exists e', o'. split; [by right|done].
  - cbn in Hin. apply elem_of_cons in Hin as [Hin|Hin]; [by injection Hin as ->|]. apply elem_of_list_singleton in Hin. discriminate Hin.
Qed.
Lemma cache_from E JE cd ws conf tr w i g c evs ns n x : caught_up E JE cd ws conf tr w i g c evs -> store_get (ws_store w) g c ns n = Some x ->
  exists t o, IEvent t o ∈ (deliver JE cd evs).1 /\ (t = EvAdded \/ t = EvModified) /\ x = en_obj (build E (default ∅ (conf !! g)) c o).2.
Proof.
  intros (Hr & Ha & Hne & Hph & Hpre) Hx. destruct (runs_inv E ws conf tr w i g c Hr Ha) as (ph & Hph' & Hinv).
  assert (lookup_entry (ws_store w) g c ns n = replay E (default ∅ (conf !! g)) c (latest i tr) ns n) as Hlk.
  { destruct ph as [| |[]|f y|]; cbn [inv] in Hinv; try (by apply Hinv); [done|]. by destruct (Hph f y). }
  unfold store_get in Hx. rewrite Hlk in Hx. destruct (replay E (default ∅ (conf !! g)) c (latest i tr) ns n) as [e|] eqn:He; [|done]. injection Hx as <-.
  apply replay_from in He as (t & y & Hin & Ht & ->). destruct Hpre as [rest Hrest]. exists t, y. split; [|done]. rewrite Hrest. apply elem_of_app. by left.
Qed.
(** An object of such a type is answered without apiVersion and without kind. *)
Theorem C69_builtin E JE cd ws conf tr w i g c kind evs ns n x s : lawful JE -> valid_utf8 c = true ->
  (forall s' o, cd_typed cd (g.1.1, g.1.2, kind) s' = Some o -> good_obj JE o) ->
  caught_up E JE cd ws conf tr w i g c evs -> proper g -> cd_known cd (g.1.1, g.1.2, kind) = true -> Forall (about g kind) evs ->
  store_get (ws_store w) g c ns n = Some x -> prints_typed x s ->
  exists l, json_parse s = Some (JObj l) /\ get (str "kind") l = None /\ get (str "apiVersion") l = None /\ is_Some (get (str "metadata") l).
Proof.
  intros HJ Hv Hlaw Hc Hp Hk HF Hx Hpr.
  destruct (cache_from E JE cd ws conf tr w i g c evs ns n x Hc Hx) as (t & y & Hin' & Ht & ->).
  destruct (deliver_known JE cd g kind evs t y Hp Hk HF Hin') as (ev & o & _ & Ho & ->); [by destruct Ht as [->| ->]|].
  apply Hlaw in Ho. assert (good_obj JE (clear_type o)) as Hg by (destruct Ho; split; done).
  destruct (build_annos E (default ∅ (conf !! g)) c (clear_type o)) as (a & Heq & _ & Hval).
  assert (prints_typed (put_annos (to_obj (clear_type o)) a) s) as Hpr' by (rewrite <- Heq; exact Hpr). clear Hpr. rename Hpr' into Hpr.
  assert (good_obj JE (with_annos (clear_type o) a)) as Hga by (apply good_annotated; [done|]; apply Hval; [apply Hg|done]).
  apply prints_typed_inv in Hpr as (o2 & Hm & Hdata & ->).
  assert (t_data o2 ++ members [(str "kind", ne_str (t_kind o2)); (str "apiVersion", ne_str (t_api o2))] = t_data o) as Hdata' by (etransitivity; [exact Hdata|]; apply app_nil_r).
  assert (forall k v, k ∈ reserved -> (k, v) ∉ t_data o) as Hres.
  { intros k v Hkr Hin2. apply (gd_reserved _ _ Ho k Hkr). apply elem_of_list_fmap. by exists (k, v). }
  assert (str "apiVersion" ∈ reserved /\ str "kind" ∈ reserved /\ str "metadata" ∈ reserved) as (Hr1 & Hr2 & Hr3) by (unfold reserved; split_and!; rewrite !elem_of_cons; tauto).
  assert (t_kind o2 = []) as Ek.
  { destruct (t_kind o2) as [|b k] eqn:Ek; [done|]. destruct (Hres (str "kind") (JStr (b :: k)) Hr2). rewrite <- Hdata'. apply elem_of_app. right. apply members_elem. left. }
  assert (t_api o2 = []) as Ea.
  { destruct (t_api o2) as [|b k] eqn:Ea; [done|]. destruct (Hres (str "apiVersion") (JStr (b :: k)) Hr1). rewrite <- Hdata'. apply elem_of_app. right. apply members_elem. right. left. }
  assert (t_data o2 = t_data o) as Ed.
  { rewrite <- Hdata', Ek, Ea. symmetry. apply app_nil_r. }
  assert (members (head_fields (with_annos o2 a)) = members (head_fields (with_annos (clear_type o) a))) as Eh.
  { rewrite !head_split. cbn [t_kind t_api t_meta with_annos]. rewrite Ek, Ea. f_equal. f_equal. f_equal. symmetry. exact (meta_json_annos _ _ a Hm). }
  rewrite Eh, Ed. destruct (printed_obj JE _ Hga) as [Hp1 Hp2]. change (t_data (with_annos (clear_type o) a)) with (t_data o) in Hp1, Hp2.
  set (hd := members (head_fields (with_annos (clear_type o) a))) in *.
  exists (hd ++ t_data o). split_and!.
  - apply (parse_printed JE HJ).
    + inversion Hp1 as [| | | | |? HF']; subst. apply Forall_app in HF' as [? ?]. apply p_obj, Forall_app. done.
    + assert (exists m, max_nesting = S m) as [m Hmax] by (exists (max_nesting - 1); vm_compute; reflexivity). rewrite Hmax in *.
      apply jdepth_obj in Hp2. apply Forall_app in Hp2 as [? ?]. apply jdepth_obj, Forall_app. done.
  - rewrite get_app. replace (get (str "kind") hd) with (@None json) by reflexivity. apply get_none. by apply (gd_reserved _ _ Ho).
  - rewrite get_app. replace (get (str "apiVersion") hd) with (@None json) by reflexivity. apply get_none. by apply (gd_reserved _ _ Ho).
  - rewrite get_app. replace (get (str "metadata") hd) with (Some (meta_json (t_meta (with_annos (clear_type o) a)))) by reflexivity. by eexists.
Qed.
Print Assumptions C69_builtin.

(** ** Examples *)
Definition sidecars : gvr := (str "networking.istio.io", str "v1alpha3", str "sidecars").
Definition requests : gvr := (str "cert-manager.io", str "v1", str "certificaterequests").
Definition ex_doc (api kind n : string) : gostr :=
  str "{""apiVersion"":""" ++ str api ++ str """,""kind"":""" ++ str kind ++ str """,""metadata"":{""name"":""" ++ str n ++ str """},""x"":1}".
Definition ex_cd : codec := Codec (fun k => str_eqb k.2 (str "Pod"))
  (fun _ s => match decode_obj ex_jenv s with Ok o => match me_deleted (t_meta o) with Some None => None | _ => Some o end | Panics => None end).
Lemma ex_cd_good k s o : cd_typed ex_cd k s = Some o -> good_obj ex_jenv o.
Proof.
  cbn [cd_typed ex_cd]. destruct (decode_obj ex_jenv s) as [o'|] eqn:Ed; [|done]. intros H. apply (C45_decoded _ s).
  - apply ex_lawful.
  - rewrite Ed. destruct (me_deleted (t_meta o')) as [[t|]|]; congruence.
  - intros Hn. destruct (me_deleted (t_meta o')) as [[t|]|] eqn:E; congruence.
Qed.
Definition ex_started : list (list (gvr * gostr) * gvr) :=
  let px := [(sidecars, str "SidecarList"); (requests, str "CertificateRequestList"); (pods, str "PodList")] in [(px, sidecars); (px, requests); (px, pods)].
Definition ex_reg : gset gvk := {[ (str "cert-manager.io", str "v1", str "CertificateReque") ]} ∪ ({[ (str "networking.istio.io", str "v1alpha3", str "Sidecar") ]} ∪ ∅).
Lemma register_new cd reg px g k : watch_gvk px g = k -> cd_known cd k = false -> k ∉ reg -> g.1.2 <> [] -> register cd reg px g = Ok ({[k]} ∪ reg).
Proof. intros <- Hk Hr Hv. unfold register. rewrite Hk, bool_decide_false by done. cbn [orb]. by destruct (g.1.2). Qed.
Lemma register_known cd reg px g : cd_known cd (watch_gvk px g) = true -> register cd reg px g = Ok reg.
Proof. intros Hk. unfold register. by rewrite Hk. Qed.
Lemma ex_registered : registered ex_cd ∅ ex_started = Ok ex_reg.
Proof.
  unfold ex_started. cbn [registered].
  rewrite (register_new ex_cd ∅ _ sidecars (str "networking.istio.io", str "v1alpha3", str "Sidecar")); [|reflexivity|reflexivity|apply not_elem_of_empty|discriminate].
  rewrite (register_new ex_cd _ _ requests (str "cert-manager.io", str "v1", str "CertificateReque")); [|reflexivity|reflexivity| |discriminate].
  2:{ rewrite elem_of_union, elem_of_singleton. intros [H|H]; [discriminate H|by apply elem_of_empty in H]. }
  by rewrite register_known.
Qed.
(** The run of a goroutine that receives these items. *)
Definition play (items : list item) : list wlabel := rev ([WAct 0 LCheck; WAct 0 LConnect] ++
  match items with [] => [] | x :: r => [WAct 0 (LRecv x); WAct 0 LClean; WAct 0 LApply] ++ flat_map (fun x => [WAct 0 (LRecv x); WAct 0 LApply]) r end).
Definition only (g : gvr) : gmap gvr (gmap gostr gostr) := {[ g := {[ str "kind" := str "kind" ]} ]}.
Definition ex_ev (t api kind n : string) : raw_event := Raw ex_reg (str t) (ex_doc api kind n).
Definition ex_fields (api kind n : string) : list (gostr * json) :=
  [(str "apiVersion", JStr (str api)); (str "kind", JStr (str kind)); (str "metadata", JObj [(str "name", JStr (str n))]); (str "x", JNum (str "1"))].
Lemma ex_document (g : gvr) api kind n : str kind <> [] -> g.1.1 <> [] -> str api = g.1.1 ++ str "/" ++ g.1.2 ->
  json_parse (ex_doc api kind n) = Some (JObj (ex_fields api kind n)) -> document g (str kind) (ex_doc api kind n).
Proof.
  intros Hk Hg Ha Hp. split; [done|]. exists (str api), (ex_fields api kind n). split; [done|]. split; [by right|]. split; [left|]. split; [right; left|].
  intros k v Hin. unfold ex_fields in Hin. rewrite !elem_of_cons, elem_of_nil in Hin. destruct Hin as [Hin|[Hin|[Hin|[Hin|[]]]]]; apply pair_equal_spec in Hin as [-> ->].
  - split; [done|]. intros H. discriminate H.
  - split; [|done]. intros H. discriminate H.
  - split; intros H; discriminate H.
  - split; intros H; discriminate H.
Qed.
(** A custom type: three documents, one deleted again; the cache holds the other one and GET answers it. *)
Definition sc_evs : list raw_event :=
  let ev t n := ex_ev t "networking.istio.io/v1alpha3" "Sidecar" n in [ev "ADDED" "a"; ev "ADDED" "b"; ev "DELETED" "a"].
Lemma sc_about : Forall (about sidecars (str "Sidecar")) sc_evs /\ Forall (readable sidecars (str "Sidecar")) sc_evs.
Proof.
  split.
  - assert (forall t n, re_type (ex_ev t "" "" "") ∈ changes -> json_parse (ex_doc "networking.istio.io/v1alpha3" "Sidecar" n) = Some (JObj (ex_fields "networking.istio.io/v1alpha3" "Sidecar" n)) ->
      about sidecars (str "Sidecar") (ex_ev t "networking.istio.io/v1alpha3" "Sidecar" n)) as H.
    { intros t n Ht Hp. split; [by left|]. by apply ex_document. }
    apply Forall_cons_2; [|apply Forall_cons_2; [|apply Forall_cons_2; [|constructor]]]; (apply H; [unfold changes; rewrite !elem_of_cons; cbn [re_type ex_ev]; tauto|vm_compute; reflexivity]).
  - assert ((str "networking.istio.io", str "v1alpha3", str "Sidecar") ∈ ex_reg) as H by (unfold ex_reg; set_solver). repeat apply Forall_cons_2; done || exact H.
Qed.
Lemma sidecars_proper : proper sidecars.
Proof. split; [|split]; [| |discriminate]; intros H; apply elem_of_list_In in H; cbn in H; intuition discriminate. Qed.
Lemma exec_some E ws w0 tr (P : wsys -> bool) : match exec E ws w0 tr with Some w => P w | None => false end = true -> exists w, wruns E ws w0 tr w /\ P w = true.
Proof.
  pose proof (exec_ok E ws w0 tr) as Hok. revert Hok. generalize (exec E ws w0 tr). intros [w|] Hok H; [|discriminate H]. exists w. split; [by apply Hok|done].
Qed.
(** No item is pending, and what is cached under three names. *)
Definition quiet (w : wsys) : bool := match ws_phases w with [PStream false] | [PIdle] => true | _ => false end.
Definition cached (g : gvr) (n : string) (w : wsys) : bool := match store_get (ws_store w) g c1 [] (str n) with Some _ => true | None => false end.
Lemma quiet_ok w f x : quiet w = true -> ws_phases w !! 0 <> Some (PGot f x).
Proof. unfold quiet. destruct (ws_phases w) as [|[| |[]| |] [|? ?]]; discriminate. Qed.
Lemma only_alone g : alone [(g, c1)] 0 g c1.
Proof. split; [reflexivity|]. intros [|j] H; [reflexivity|discriminate H]. Qed.
Definition sc_trace : list wlabel := play (map (item_of ex_jenv) sc_evs).
Definition sc_ok (w : wsys) : bool :=
  quiet w && negb (cached sidecars "a" w) && cached sidecars "b" w && negb (cached sidecars "c" w) && is_store_gvr (ws_store w) sidecars.
Lemma sc_run : exists w, wruns ex_env [(sidecars, c1)] (wstart [(sidecars, c1)] (only sidecars)) sc_trace w /\ sc_ok w = true.
Proof. apply exec_some. vm_compute. reflexivity. Qed.
Lemma sc_latest : latest 0 sc_trace = map (item_of ex_jenv) sc_evs.
Proof. reflexivity. Qed.
Lemma sc_caught_up w : wruns ex_env [(sidecars, c1)] (wstart [(sidecars, c1)] (only sidecars)) sc_trace w -> sc_ok w = true ->
  caught_up ex_env ex_jenv ex_cd [(sidecars, c1)] (only sidecars) sc_trace w 0 sidecars c1 sc_evs.
Proof.
  intros Hr Hok. unfold sc_ok in Hok. rewrite !andb_true_iff in Hok. destruct Hok as [[[[Hq _] _] _] _].
  split; [exact Hr|]. split; [apply only_alone|]. split; [rewrite sc_latest; discriminate|]. split; [intros f x; by apply quiet_ok|].
  rewrite sc_latest, (deliver_readable ex_jenv ex_cd sidecars (str "Sidecar") sc_evs sidecars_proper eq_refl (proj1 sc_about) (proj2 sc_about)). by apply prefix_app_r.
Qed.
Example C69_ex : exists w, caught_up ex_env ex_jenv ex_cd [(sidecars, c1)] (only sidecars) sc_trace w 0 sidecars c1 sc_evs /\
  proper sidecars /\ cd_known ex_cd (str "networking.istio.io", str "v1alpha3", str "Sidecar") = false /\
  Forall (about sidecars (str "Sidecar")) sc_evs /\ Forall (readable sidecars (str "Sidecar")) sc_evs /\ registered ex_cd ∅ ex_started = Ok ex_reg /\
  seen 0 sc_trace = 3 /\ map (fun n => cached sidecars n w) ["a"; "b"; "c"]%string = [false; true; false].
Proof.
  destruct sc_run as (w & Hr & Hok). exists w. split; [by apply sc_caught_up|]. split; [apply sidecars_proper|]. split; [reflexivity|]. split; [apply sc_about|]. split; [apply sc_about|].
  split; [apply ex_registered|]. split; [reflexivity|]. unfold sc_ok in Hok. rewrite !andb_true_iff in Hok. destruct Hok as [[[[_ H1] H2] H3] _]. cbn [map].
  apply negb_true_iff in H1, H3. by rewrite H1, H2, H3.
Qed.
Definition sc_vars : gmap gostr gostr :=
  list_to_map [(str "group", str "networking.istio.io"); (str "version", str "v1alpha3"); (str "resourceType", str "sidecars"); (str "resource", str "b")].
Definition sc_hreq : http_req := ex_hreq (api_path sidecars None (Some (str "b"))).
Definition sc_cf : config := Config c1 [] [(sidecars, str "SidecarList")].
Lemma sc_addr : api_addr sidecars None (Some (str "b")) /\ api_addr sidecars None None.
Proof.
  unfold api_addr, plain_seg. cbn [fst snd sidecars].
  assert (forall s, existsb (fun c => Ascii.eqb c "/"%char) s = false -> "/"%char ∉ s) as Hin.
  { intros s Hs Hi. assert (existsb (fun c => Ascii.eqb c "/"%char) s = true); [|congruence]. apply existsb_exists. exists "/"%char. by rewrite <- elem_of_list_In. }
  assert (forall s, s <> [] -> existsb (fun c => Ascii.eqb c "/"%char) s = false -> s <> str "." -> s <> str ".." -> s <> [] /\ "/"%char ∉ s /\ s <> str "." /\ s <> str "..") as Hs; [by auto|].
  split; (split; [right; by apply Hs|]; split; [by apply Hs|]; split; [by apply Hs|]; split; intros n [= <-]; by apply Hs).
Qed.
(** GET of the document that is left. *)
Example C69_ex_get : exists w x, caught_up ex_env ex_jenv ex_cd [(sidecars, c1)] (only sidecars) sc_trace w 0 sidecars c1 sc_evs /\
  authorised sc_cf sc_hreq /\ api_addr sidecars None (Some (str "b")) /\ is_Some (only sidecars !! sidecars) /\ cf_default sc_cf = c1 /\
  (exists o, last_sent ex_jenv (take (seen 0 sc_trace) sc_evs) [] (str "b") o /\ me_deleted (t_meta o) = None) /\
  serve ex_env sc_cf ex_clients (ws_store w) ex_apis sc_hreq (Some (Reply 200 [BObject x])).
Proof.
  destruct sc_run as (w & Hr & Hok). pose proof (sc_caught_up w Hr Hok) as Hc. unfold sc_ok in Hok. rewrite !andb_true_iff in Hok. destruct Hok as [[[[_ _] H2] _] H4].
  unfold cached in H2. destruct (store_get (ws_store w) sidecars c1 [] (str "b")) as [x|] eqn:Ex; [|discriminate H2]. exists w, x.
  split; [exact Hc|]. split; [by left|]. split; [apply sc_addr|]. split; [unfold only; rewrite lookup_singleton; by eexists|]. split; [reflexivity|]. split.
  - destruct (decode_obj ex_jenv (ex_doc "networking.istio.io/v1alpha3" "Sidecar" "b")) as [o|] eqn:Eo; [|vm_compute in Eo; discriminate Eo].
    assert (match decode_obj ex_jenv (ex_doc "networking.istio.io/v1alpha3" "Sidecar" "b") with Ok o => (me_namespace (t_meta o), me_name (t_meta o), me_deleted (t_meta o)) | Panics => ([], [], None) end = ([], str "b", None)) as Hf by (vm_compute; reflexivity).
    rewrite Eo in Hf. apply pair_equal_spec in Hf as [Hf1 Hf2]. exists o. split; [|exact Hf2].
    exists [ex_ev "ADDED" "networking.istio.io/v1alpha3" "Sidecar" "a"], (ex_ev "ADDED" "networking.istio.io/v1alpha3" "Sidecar" "b"), [ex_ev "DELETED" "networking.istio.io/v1alpha3" "Sidecar" "a"].
    split; [reflexivity|]. split; [by left|]. split; [exact Eo|]. split; [exact Hf1|].
    intros e' o' He _ Ho. apply elem_of_list_singleton in He as ->. cbn [re_text ex_ev] in Ho.
    assert (match decode_obj ex_jenv (ex_doc "networking.istio.io/v1alpha3" "Sidecar" "a") with Ok o => str_eqb (me_name (t_meta o)) (str "b") | Panics => false end = false) as Hn by (vm_compute; reflexivity).
    rewrite Ho in Hn. apply str_eqb_neq in Hn. intros Heq. apply Hn. by apply pair_equal_spec in Heq as [_ ?].
  - assert (dispatch route_handles [] sc_hreq = DRun HProxy (with_vars (h_req sc_hreq) sc_vars) 200) as Hd by (vm_compute; reflexivity).
    change (Some (Reply 200 [BObject x])) with (sent <$> finish 200 (proxy_reply ex_apis (AObject x) fresh)).
    eapply (serve_run ex_env sc_cf ex_clients (ws_store w) ex_apis _ HProxy _ 200 _ Hd). apply handle_proxy.
    set (r := with_vars _ _). assert (parse_clean sc_cf [] r = inr (zero_page, None, c1, with_raw r [])) as Hpc by reflexivity.
    assert (var r (str "resource") = str "b") as Hv by reflexivity.
    assert (var r (str "namespace") = []) as Hn by reflexivity.
    pose proof (proxy_get ex_env sc_cf ex_clients (ws_store w) r [] _ _ _ _ (reflexivity _) Hpc) as H. change (req_gvr r) with sidecars in H. rewrite Hv, Hn, Ex in H. apply H.
    + by rewrite H4.
    + discriminate.
Qed.
(** A list of the type: the hypotheses of C69_list, and a reply. *)
Lemma c1_legal : legal_value c1.
Proof. apply PropsSelector.valid_value_legal. vm_compute. reflexivity. Qed.
Example C69_ex_list : exists w rp, caught_up ex_env ex_jenv ex_cd [(sidecars, c1)] (only sidecars) sc_trace w 0 sidecars c1 sc_evs /\
  (forall j t x, WAct j (LRecv (IEvent t x)) ∈ sc_trace -> t <> EvOther -> exists k, x = OKube k) /\
  authorised sc_cf (ex_hreq (api_path sidecars None None)) /\ api_addr sidecars None None /\ cf_default sc_cf = c1 /\ c1 <> [] /\ legal_value c1 /\
  valid_utf8 (api_path sidecars None None) = true /\ (forall k, (sidecars, k) ∈ cf_proxies sc_cf -> valid_utf8 k = true) /\
  serve ex_env sc_cf ex_clients (ws_store w) ex_apis (ex_hreq (api_path sidecars None None)) (Some rp).
Proof.
  destruct sc_run as (w & Hr & Hok). destruct (C60_every_request_answered ex_env sc_cf ex_clients (ws_store w) ex_apis (ex_hreq (api_path sidecars None None))) as [rp Hrp].
  exists w, rp. split; [by apply sc_caught_up|]. split.
  { intros j t x Hin _. unfold sc_trace, play in Hin. apply elem_of_list_In, in_rev, elem_of_list_In in Hin.
    assert (Forall (fun l => match l with WAct _ (LRecv (IEvent _ (ORaw _))) => False | _ => True end)
      ([WAct 0 LCheck; WAct 0 LConnect] ++ match map (item_of ex_jenv) sc_evs with [] => [] | x :: r => [WAct 0 (LRecv x); WAct 0 LClean; WAct 0 LApply] ++ flat_map (fun x => [WAct 0 (LRecv x); WAct 0 LApply]) r end)) as HF.
    { repeat (apply Forall_cons_2; [exact I|]). apply Forall_nil_2. }
    rewrite Forall_forall in HF. specialize (HF _ Hin). destruct x as [k|]; [by exists k|destruct HF]. }
  split; [by left|]. split; [apply sc_addr|]. split; [reflexivity|]. split; [discriminate|]. split; [apply c1_legal|]. split; [reflexivity|].
  split; [|exact Hrp]. intros k Hk. cbn [cf_proxies sc_cf] in Hk. apply elem_of_list_singleton in Hk. apply pair_equal_spec in Hk as [_ ->]. reflexivity.
Qed.
(** ** What a user would expect and is false *)
Definition cr_evs : list raw_event := [ex_ev "ADDED" "cert-manager.io/v1" "CertificateRequest" "a"].
Lemma cr_about : Forall (about requests (str "CertificateRequest")) cr_evs.
Proof.
  apply Forall_cons_2; [|constructor]. split; [left; left|]. apply ex_document; [discriminate|discriminate|reflexivity|vm_compute; reflexivity].
Qed.
Lemma requests_proper : proper requests.
Proof. split; [|split]; [| |discriminate]; intros H; apply elem_of_list_In in H; cbn in H; intuition discriminate. Qed.
(** A configured type of which a document was sent is not in the cache, although the stream has been read to
    its end: the kind CertificateRequest ends in t. *)
Theorem C69_custom_kind_refuted : exists E JE cd started px ws conf tr w i g c kind evs n o,
  lawful JE /\ (px, g) ∈ started /\ kind_in px g = kind ++ str "List" /\ cd_known cd (g.1.1, g.1.2, kind) = false /\
  Forall (fun e => registered cd ∅ started = Ok (re_reg e)) evs /\ Forall (about g kind) evs /\
  caught_up E JE cd ws conf tr w i g c evs /\ latest i tr = (deliver JE cd evs).1 /\ is_Some (conf !! g) /\
  last_sent JE evs [] n o /\ store_get (ws_store w) g c [] n = None.
Proof.
  assert (deliver ex_jenv ex_cd cr_evs = (undecodable, false)) as Hd.
  { apply (deliver_unregistered _ _ requests (str "CertificateRequest")).
    - apply requests_proper.
    - reflexivity.
    - pose proof cr_about as H. by apply Forall_cons in H as [? _].
    - unfold readable. cbn [re_reg ex_ev]. unfold ex_reg. rewrite !elem_of_union, !elem_of_singleton. intros [H|[H|H]]; [discriminate H|discriminate H|by apply elem_of_empty in H]. }
  destruct (exec_some ex_env [(requests, c1)] (wstart [(requests, c1)] (only requests)) (play undecodable) (fun w => quiet w && negb (cached requests "a" w))) as (w & Hr & Hok); [vm_compute; reflexivity|].
  apply andb_true_iff in Hok as [Hq Hno].
  eexists ex_env, ex_jenv, ex_cd, ex_started, _, [(requests, c1)], (only requests), (play undecodable), w, 0, requests, c1, (str "CertificateRequest"), cr_evs, (str "a"), _.
  assert (latest 0 (play undecodable) = undecodable) as Hl by reflexivity.
  split; [apply ex_lawful|]. split; [right; left|]. split; [reflexivity|]. split; [reflexivity|]. split; [apply Forall_cons_2; [apply ex_registered|constructor]|].
  split; [apply cr_about|]. split; [|split; [by rewrite Hl, Hd|]]. 2: split; [unfold only; rewrite lookup_singleton; by eexists|]. 2: split.
  - split; [exact Hr|]. split; [apply only_alone|]. split; [rewrite Hl; discriminate|]. split; [|by rewrite Hl, Hd].
    intros f x. by apply quiet_ok.
  - exists [], (ex_ev "ADDED" "cert-manager.io/v1" "CertificateRequest" "a"), []. split; [reflexivity|]. split; [by left|]. split; [vm_compute; reflexivity|]. split; [reflexivity|].
    intros e' o' H. destruct (not_elem_of_nil _ H).
  - unfold cached in Hno. destruct (store_get (ws_store w) requests c1 [] (str "a")); [discriminate Hno|reflexivity].
Qed.
Print Assumptions C69_custom_kind_refuted.
(** The text answered for a Pod says neither its kind nor its version, although the document did. *)
Definition pod_evs : list raw_event := [ex_ev "ADDED" "v1" "Pod" "a"].
Lemma pods_proper : proper pods.
Proof. split; [|split]; [| |discriminate]; intros H; apply elem_of_list_In in H; cbn in H; intuition discriminate. Qed.
Lemma pod_about : Forall (about pods (str "Pod")) pod_evs.
Proof.
  apply Forall_cons_2; [|constructor]. split; [left; left|]. split; [discriminate|]. exists (str "v1"), (ex_fields "v1" "Pod" "a"). split; [vm_compute; reflexivity|].
  split; [by left|]. split; [left|]. split; [right; left|].
  intros k v Hin. unfold ex_fields in Hin. rewrite !elem_of_cons, elem_of_nil in Hin. destruct Hin as [Hin|[Hin|[Hin|[Hin|[]]]]]; apply pair_equal_spec in Hin as [-> ->].
  - split; [done|]. intros H. discriminate H.
  - split; [|done]. intros H. discriminate H.
  - split; intros H; discriminate H.
  - split; intros H; discriminate H.
Qed.
Theorem C69_builtin_kind_refuted : exists E JE cd ws conf tr w i g c kind evs n x s l,
  lawful JE /\ (forall s' o, cd_typed cd (g.1.1, g.1.2, kind) s' = Some o -> good_obj JE o) /\
  caught_up E JE cd ws conf tr w i g c evs /\ cd_known cd (g.1.1, g.1.2, kind) = true /\ Forall (about g kind) evs /\
  store_get (ws_store w) g c [] n = Some x /\ prints_typed x s /\ json_parse s = Some (JObj l) /\ get (str "kind") l = None /\ get (str "apiVersion") l = None.
Proof.
  set (items := (deliver ex_jenv ex_cd pod_evs).1).
  destruct (exec_some ex_env [(pods, c1)] (wstart [(pods, c1)] (only pods)) (play items) (fun w => quiet w && cached pods "a" w)) as (w & Hr & Hok); [vm_compute; reflexivity|].
  apply andb_true_iff in Hok as [Hq Hx]. unfold cached in Hx. destruct (store_get (ws_store w) pods c1 [] (str "a")) as [x|] eqn:Ex; [|discriminate Hx].
  assert (latest 0 (play items) = items) as Hl by reflexivity.
  assert (caught_up ex_env ex_jenv ex_cd [(pods, c1)] (only pods) (play items) w 0 pods c1 pod_evs) as Hc.
  { split; [exact Hr|]. split; [apply only_alone|]. split; [rewrite Hl; discriminate|]. split; [intros f y; by apply quiet_ok|]. rewrite Hl. exists []. symmetry. apply app_nil_r. }
  assert (exists o' a, x = put_annos (to_obj o') a) as (o' & a & Hxo).
  { destruct (cache_from ex_env ex_jenv ex_cd [(pods, c1)] (only pods) (play items) w 0 pods c1 pod_evs [] (str "a") x Hc Ex) as (t & y & Hin & Ht & ->).
    destruct (deliver_known ex_jenv ex_cd pods (str "Pod") pod_evs t y pods_proper eq_refl pod_about Hin) as (ev & o & _ & _ & ->); [by destruct Ht as [->| ->]|].
    destruct (build_annos ex_env (default ∅ (only pods !! pods)) c1 (clear_type o)) as (a & Ha & _). by exists (clear_type o), a. }
  assert (prints_typed x (json_text (JObj (match head_json (with_annos o' a) with JObj l => l | _ => [] end ++ t_data o')))) as Hpr by (rewrite Hxo; constructor).
  destruct (C69_builtin ex_env ex_jenv ex_cd [(pods, c1)] (only pods) (play items) w 0 pods c1 (str "Pod") pod_evs [] (str "a") x _ ex_lawful eq_refl
    (fun s' o => ex_cd_good _ s' o) Hc pods_proper eq_refl pod_about Ex Hpr) as (l & Hl1 & Hl2 & Hl3 & _).
  eexists ex_env, ex_jenv, ex_cd, [(pods, c1)], (only pods), (play items), w, 0, pods, c1, (str "Pod"), pod_evs, (str "a"), x, _, l.
  split; [apply ex_lawful|]. split; [intros s' o2; apply ex_cd_good|]. split; [exact Hc|]. split; [reflexivity|]. split; [apply pod_about|]. split; [exact Ex|]. split; [exact Hpr|].
  split; [exact Hl1|]. split; [exact Hl2|exact Hl3].
Qed.
Print Assumptions C69_builtin_kind_refuted.
