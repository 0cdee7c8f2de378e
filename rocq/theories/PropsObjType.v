(** C45: generic objects survive decoding and encoding. *)
From Coq Require Import Ascii String NArith ZArith Lia.
From stdpp Require Import base gmap strings list sorting.
From Verif Require Import ModelStr ProofsStr ModelJson ProofsJson ModelJsonText ProofsJsonText ProofsJsonParse ModelStore ModelProxy ModelObjType SpecObjType ProofsObjType.

(** Encoding and decoding gives the object back: type, metadata and data. *)
Theorem C45_round_trip (E : jenv) (o : objtype) : lawful E -> good_obj E o -> decode_obj E (encode_obj o) = Ok o.
Proof. intros HE. by apply round_trip. Qed.

(** Data never has a member named apiVersion, kind or metadata after decoding. *)
Theorem C45_reserved (E : jenv) (s : gostr) (o : objtype) : decode_obj E s = Ok o -> forall k, k ∈ reserved -> k ∉ (t_data o).*1.
Proof.
  unfold decode_obj. destruct (str_member _ _); [|done]. destruct (str_member _ _); [|done]. intros [= <-] k Hk. cbn [t_data].
  intros ([k' v] & -> & Hin)%elem_of_list_fmap. rewrite !del_elem in Hin. cbn [fst] in *. unfold reserved in Hk. rewrite !elem_of_cons, elem_of_nil in Hk. tauto.
Qed.

(** Whatever text was decoded, the object satisfies the conditions of [C45_round_trip], except when the
    text gave a deletion time that is no time or the zero time. *)
Theorem C45_decoded (E : jenv) (s : gostr) (o : objtype) : lawful E -> decode_obj E s = Ok o ->
  me_deleted (t_meta o) <> Some None -> good_obj E o.
Proof.
  intros HE Hd Hdel. pose proof (C45_reserved E s o Hd) as Hres. destruct (decode_map_value E HE s) as [Hv Hdep].
  unfold decode_obj in Hd.
  assert (forall k v, get k (decode_map E s) = Some v -> value E v /\ jdepth v <= max_nesting) as Hget.
  { intros k v Hk%get_elem. inversion Hv as [| | | | |l Hs HF]; subst. split; [by apply (proj1 (Forall_forall _ _) HF) in Hk as [_ ?]|].
    destruct max_nesting as [|d]; [cbn in Hdep; lia|]. apply jdepth_obj in Hdep. apply (proj1 (Forall_forall _ _) Hdep) in Hk. cbn [snd] in Hk. lia. }
  assert (forall k a, str_member k (decode_map E s) = Ok a -> valid_utf8 a = true) as Hstr.
  { intros k a Ha. unfold str_member in Ha. destruct (get k (decode_map E s)) as [v|] eqn:Ek; [|by injection Ha as <-].
    apply Hget in Ek as [Ek _]. destruct v; try done. injection Ha as <-. by inversion Ek. }
  destruct (str_member (str "apiVersion") _) as [api|] eqn:Ea; [|done]. destruct (str_member (str "kind") _) as [kind|] eqn:Ek; [|done].
  apply Hstr in Ea, Ek. match type of Hd with Ok ?x = Ok ?y => assert (x = y) as <- by congruence end. clear Hd. cbn [t_meta t_data] in *. 
  assert (forall x, x ∈ del (str "metadata") (del (str "kind") (del (str "apiVersion") (decode_map E s))) -> x ∈ decode_map E s) as Hsub.
  { intros x. rewrite !del_elem. tauto. }
  constructor; cbn [t_api t_kind t_meta t_data]; try done.
  - assert (forall m, weak_meta E m -> me_deleted m <> Some None -> good_meta E m) as Hw.
    { intros m [[] Hd] Hn. constructor; try done. destruct (me_deleted m) as [[t|]|]; [right; exists t; auto|done|by left]. }
    apply Hw; [|done]. destruct (get (str "metadata") (decode_map E s)) as [v|] eqn:Ev; [|by apply weak_zero].
    apply Hget in Ev as [? ?]. by apply weak_decode.
  - inversion Hv as [| | | | |l Hs HF]; subst. constructor.
    + by apply del_sorted, del_sorted, del_sorted.
    + apply Forall_forall. intros x Hx%Hsub. by apply (proj1 (Forall_forall _ _) HF).
  - destruct max_nesting as [|d]; [cbn in Hdep; lia|]. apply jdepth_obj in Hdep. apply jdepth_obj. apply Forall_forall. intros x Hx%Hsub.
    by apply (proj1 (Forall_forall _ _) Hdep).
Qed.
(** So a decoded object that is encoded and decoded again is unchanged. *)
Corollary C45_stable (E : jenv) (s : gostr) (o : objtype) : lawful E -> decode_obj E s = Ok o ->
  me_deleted (t_meta o) <> Some None -> decode_obj E (encode_obj o) = Ok o.
Proof. intros HE Hd Hdel. apply C45_round_trip; [done|]. by eapply C45_decoded. Qed.

Lemma decode_map_get (E : jenv) (s : gostr) (l : list (gostr * json)) : json_parse s = Some (JObj l) ->
  forall k v, get k (decode_map E s) = Some v <-> exists j, denotes l k j /\ v = iface E j.
Proof.
  intros Hp.
  assert (decode_map E s = puts (map (fun kv => (kv.1, iface E kv.2)) l) []) as Em.
  { unfold decode_map. by rewrite Hp, iface_obj. }
  assert (forall A B (f : A -> B) (l : list (gostr * A)) k v, denotes (map (fun kv => (kv.1, f kv.2)) l) k v <-> exists j, denotes l k j /\ v = f j) as Hden.
  { clear. intros A B f l k v. unfold denotes. split.
    - intros (l1 & l2 & El & Hk). apply map_eq_app in El as (a1 & a2 & -> & <- & El). destruct a2 as [|[k' j] a2]; [done|].
      cbn in El. injection El as <- <- <-. exists j. split; [|done]. exists a1, a2. split; [done|].
      intros ([k2 v2] & E2 & Hin)%elem_of_list_fmap. apply Hk. apply elem_of_list_fmap. exists (k2, f v2). split; [done|]. 
      apply elem_of_list_In. apply in_map_iff. exists (k2, v2). split; [done|]. by apply elem_of_list_In.
    - intros (j & (l1 & l2 & -> & Hk) & ->). exists (map (fun kv => (kv.1, f kv.2)) l1), (map (fun kv => (kv.1, f kv.2)) l2).
      rewrite map_app. split; [done|]. intros (x & -> & Hin)%elem_of_list_fmap. apply elem_of_list_In, in_map_iff in Hin as ([k2 v2] & <- & Hin%elem_of_list_In).
      apply Hk. apply elem_of_list_fmap. by exists (k2, v2). }
  intros k v. rewrite <- Hden, Em. destruct (get_puts (map (fun kv => (kv.1, iface E kv.2)) l) [] k) as [[Hn ->]|(w & Hw & ->)].
    - split; [done|]. intros (l1 & l2 & El & _). destruct Hn. rewrite El, fmap_app. apply elem_of_app. right. by left.
    - split; [by intros [= <-]|]. intros Hv. f_equal. destruct Hw as (l1 & l2 & El & H2), Hv as (m1 & m2 & Em' & H3). rewrite El in Em'.
      clear -Em' H2 H3. revert m1 Em'. induction l1 as [|x l1 IH]; intros [|y m1] Em'; cbn in Em'.
      + by injection Em'.
      + injection Em' as <- ->. destruct H2. rewrite fmap_app. apply elem_of_app. right. by left.
      + injection Em' as -> <-. destruct H3. rewrite fmap_app. apply elem_of_app. right. by left.
      + injection Em' as <- Em'. by eapply IH.
Qed.
(** What decoding reads: type and data are the members of the text, the last one of each name. *)
Theorem C45_members (E : jenv) (s : gostr) (l : list (gostr * json)) (o : objtype) : json_parse s = Some (JObj l) -> decode_obj E s = Ok o ->
  (forall k v, k ∉ reserved -> get k (t_data o) = Some v <-> exists j, denotes l k j /\ v = iface E j) /\
  (forall x, denotes l (str "apiVersion") (JStr x) -> t_api o = x) /\ (str "apiVersion" ∉ l.*1 -> t_api o = []) /\
  (forall x, denotes l (str "kind") (JStr x) -> t_kind o = x) /\ (str "kind" ∉ l.*1 -> t_kind o = []).
Proof.
  intros Hp Hd. unfold decode_obj in Hd.
  pose proof (decode_map_get E s l Hp) as Hget.
  assert (forall k, k ∉ l.*1 -> get k (decode_map E s) = None) as Hnone.
  { intros k Hk. destruct (get k (decode_map E s)) as [v|] eqn:Ev; [|done]. apply Hget in Ev as (j & (l1 & l2 & -> & _) & _). destruct Hk. rewrite fmap_app. apply elem_of_app. right. by left. }
  destruct (str_member (str "apiVersion") _) as [api|] eqn:Ea; [|done]. destruct (str_member (str "kind") _) as [kind|] eqn:Ek; [|done].
  match type of Hd with Ok ?x = Ok ?y => assert (x = y) as <- by congruence end. clear Hd. cbn [t_api t_kind t_data]. unfold str_member in *. split_and!.
  - intros k v Hk. unfold reserved in Hk. rewrite !not_elem_of_cons in Hk. rewrite !get_del by tauto. apply Hget.
  - intros x Hx. rewrite (proj2 (Hget (str "apiVersion") (JStr x))) in Ea by (exists (JStr x); done). by injection Ea.
  - intros Hx%Hnone. rewrite Hx in Ea. by injection Ea.
  - intros x Hx. rewrite (proj2 (Hget (str "kind") (JStr x))) in Ek by (exists (JStr x); done). by injection Ek.
  - intros Hx%Hnone. rewrite Hx in Ek. by injection Ek.
Qed.

Lemma classic_obj j : (exists l, j = JObj l) \/ forall l, j <> JObj l.
Proof. destruct j; (left; eauto; fail) || (right; done). Qed.
(** Decoding panics exactly when apiVersion or kind is present and not a string. *)
Theorem C45_panics (E : jenv) (s : gostr) : decode_obj E s = Panics <->
  exists l k j, json_parse s = Some (JObj l) /\ k ∈ [str "apiVersion"; str "kind"] /\ denotes l k j /\ forall x, j <> JStr x.
Proof.
  assert (forall k, str_member k (decode_map E s) = Panics <-> exists v, get k (decode_map E s) = Some v /\ forall x, v <> JStr x) as Hsm.
  { intros k. unfold str_member. destruct (get k (decode_map E s)) as [[| | |x| |]|]; try (split; [intros _; eexists; split; [reflexivity|done]|done]).
    - split; [done|]. intros (v & [= <-] & H). by destruct (H x).
    - split; [done|]. by intros (v & ? & _). }
  assert (decode_obj E s = Panics <-> exists k, k ∈ [str "apiVersion"; str "kind"] /\ str_member k (decode_map E s) = Panics) as ->.
  { unfold decode_obj. destruct (str_member (str "apiVersion") _) eqn:Ea.
    - destruct (str_member (str "kind") _) eqn:Ek.
      + split; [done|]. intros (k & Hk & H). rewrite !elem_of_cons, elem_of_nil in Hk. destruct Hk as [->|[->|[]]]; congruence.
      + split; [|done]. intros _. exists (str "kind"). split; [right; left|done].
    - split; [|done]. intros _. exists (str "apiVersion"). split; [left|done]. }
  assert (forall j, (forall x, iface E j <> JStr x) <-> (forall x, j <> JStr x)) as Hif.
  { intros [| |l| | |]; try done. split; [done|]. intros _ x. cbn. by destruct (je_norm E l). }
  split.
  - intros (k & Hk & H). apply Hsm in H as (v & Hv & Hx). destruct (json_parse s) as [j|] eqn:Ej.
    + destruct (classic_obj j) as [[l ->]|Hno].
      * exists l, k. apply (decode_map_get E s l Ej) in Hv as (j & Hj & ->). exists j. split_and!; try done. by apply Hif.
      * exfalso. unfold decode_map in Hv. rewrite Ej in Hv. destruct j as [| |l| | |l]; try done; [|by destruct (Hno l)]. cbn in Hv. by destruct (je_norm E l).
    + exfalso. unfold decode_map in Hv. by rewrite Ej in Hv.
  - intros (l & k & j & Ej & Hk & Hj & Hx). exists k. split; [done|]. apply Hsm. exists (iface E j). split; [|by apply Hif].
    apply (decode_map_get E s l Ej). by exists j.
Qed.

(** What encoding prints: one member for each member of data, and the type and metadata. *)
Theorem C45_encoded (E : jenv) (o : objtype) : lawful E -> good_obj E o ->
  exists l ml, json_parse (encode_obj o) = Some (JObj l) /\ NoDup l.*1 /\
    (forall k, k ∉ reserved -> get k l = get k (t_data o)) /\
    get (str "apiVersion") l = (match t_api o with [] => None | a => Some (JStr a) end) /\
    get (str "kind") l = (match t_kind o with [] => None | a => Some (JStr a) end) /\
    get (str "metadata") l = Some (JObj ml) /\ NoDup ml.*1 /\
    (forall k f, (k, f) ∈ [(str "name", me_name); (str "namespace", me_namespace); (str "uid", me_uid); (str "resourceVersion", me_version)] ->
       get k ml = match f (t_meta o) with [] => None | a => Some (JStr a) end).
Proof.
  intros HE Ho. exists (t_data o ++ members (head_fields o)), (members (meta_fields (t_meta o))).
  destruct (printed_obj E o Ho) as [H1 H2].
  assert (forall fs fs' : list (gostr * option json), fs ≡ₚ fs' -> StronglySorted key_lt fs' -> NoDup (members fs).*1 /\ forall k o', (k, o') ∈ fs -> get k (members fs) = o') as Hfs.
  { clear. intros fs fs' Hp Hs. assert (NoDup (members fs).*1) as Hnd. { rewrite (members_perm _ _ Hp). by apply sorted_nodup, members_sorted. }
    split; [done|]. intros k [v|] Hin.
    - apply get_denotes; [done|]. apply members_elem in Hin. apply elem_of_list_split in Hin as (l1 & l2 & E). exists l1, l2. split; [done|].
      rewrite E, fmap_app in Hnd. apply NoDup_app in Hnd as (_ & _ & Hnd). by apply NoDup_cons in Hnd as [? _].
    - apply get_none. intros ([k' v] & -> & Hv%members_elem)%elem_of_list_fmap. cbn [fst] in *.
      assert (NoDup fs.*1) as Hnd2 by (rewrite Hp; by apply sorted_nodup).
      apply elem_of_list_split in Hin as (l1 & l2 & ->). rewrite fmap_app in Hnd2. apply NoDup_app in Hnd2 as (_ & Hn1 & Hnd2). cbn in Hnd2. apply NoDup_cons in Hnd2 as [Hn2 _].
      rewrite elem_of_app, elem_of_cons in Hv. destruct Hv as [Hv|[Hv|Hv]]; [|done|].
      + apply (Hn1 k'); [apply elem_of_list_fmap; by exists (k', Some v)|by left].
      + apply Hn2. apply elem_of_list_fmap. by exists (k', Some v). }
  destruct (Hfs (head_fields o) [(str "apiVersion", ne_str (t_api o)); (str "kind", ne_str (t_kind o)); (str "metadata", Some (meta_json (t_meta o)))]) as [Hh1 Hh2].
  { unfold head_fields. pulls [1; 0; 0]. }
  { sorted_keys. }
  destruct (Hfs (meta_fields (t_meta o)) [
    nth 11 (meta_fields (t_meta o)) ([], None); nth 14 (meta_fields (t_meta o)) ([], None); nth 7 (meta_fields (t_meta o)) ([], None);
    nth 9 (meta_fields (t_meta o)) ([], None); nth 8 (meta_fields (t_meta o)) ([], None); nth 13 (meta_fields (t_meta o)) ([], None);
    nth 1 (meta_fields (t_meta o)) ([], None); nth 6 (meta_fields (t_meta o)) ([], None); nth 10 (meta_fields (t_meta o)) ([], None);
    nth 0 (meta_fields (t_meta o)) ([], None); nth 2 (meta_fields (t_meta o)) ([], None); nth 12 (meta_fields (t_meta o)) ([], None);
    nth 5 (meta_fields (t_meta o)) ([], None); nth 3 (meta_fields (t_meta o)) ([], None); nth 4 (meta_fields (t_meta o)) ([], None)]) as [Hm1 Hm2].
  { unfold meta_fields. cbn [nth]. pulls [11; 13; 7; 8; 7; 9; 1; 5; 5; 0; 0; 3; 2; 0; 0]. }
  { unfold meta_fields. cbn [nth]. sorted_keys. }
  assert (forall k, k ∈ reserved -> get k (t_data o) = None) as Hd. { intros k Hk. apply get_none. by apply (gd_reserved _ _ Ho). }
  assert (forall k v, (k, v) ∈ members (head_fields o) -> k ∈ reserved) as Hr.
  { intros k v Hv%members_elem. unfold head_fields in Hv. rewrite !elem_of_cons, elem_of_nil in Hv. unfold reserved. rewrite !elem_of_cons, elem_of_nil.
    destruct Hv as [Hv|[Hv|[Hv|[]]]]; injection Hv as -> _; tauto. }
  split_and!.
  - rewrite encode_text. by apply (parse_printed E HE).
  - rewrite fmap_app. apply NoDup_app. split_and!; [|intros k Hk ([k' v] & -> & Hv)%elem_of_list_fmap|done].
    + apply sorted_nodup. pose proof (gd_data _ _ Ho) as H. by inversion H.
    + apply Hr in Hv. by apply (gd_reserved _ _ Ho k').
  - intros k Hk. rewrite get_app. destruct (get k (t_data o)); [done|]. apply get_none. intros ([k' v] & -> & Hv)%elem_of_list_fmap. by apply Hr in Hv.
  - rewrite get_app, Hd by (unfold reserved; left). transitivity (ne_str (t_api o)); [|by destruct (t_api o)]. apply Hh2. unfold head_fields. right. left.
  - rewrite get_app, Hd by (unfold reserved; right; left). transitivity (ne_str (t_kind o)); [|by destruct (t_kind o)]. apply Hh2. unfold head_fields. left.
  - rewrite get_app, Hd by (unfold reserved; right; right; left). apply Hh2. unfold head_fields. right. right. left.
  - done.
  - intros k f Hin. rewrite !elem_of_cons, elem_of_nil in Hin. transitivity (ne_str (f (t_meta o))); [|by destruct (f (t_meta o))]. apply Hm2. unfold meta_fields. rewrite !elem_of_cons.
    destruct Hin as [Hin|[Hin|[Hin|[Hin|[]]]]]; apply pair_equal_spec in Hin as [-> ->]; tauto.
Qed.

(** *** An instance and examples *)
(** Integers in 64 bits are printed as they are, except that 2^53+1 is rounded to 2^53 as float64 does;
    other numbers keep their text. *)
Definition ex_round (z : Z) : Z := if (z =? 2 ^ 53 + 1)%Z then (2 ^ 53)%Z else z.
Definition ex_norm (l : gostr) : option gostr :=
  match parse_int l with
  | Some z => Some (itoa (ex_round z))
  | None => match jnum l with Some (_, []) => Some l | _ => None end
  end.
Definition ex_time (s : gostr) : option (option gostr) :=
  if str_eqb s (str "0001-01-01T00:00:00Z") then Some None
  else if (length s =? 20)%nat && valid_utf8 s then Some (Some s) else None.
Definition ex_jenv : jenv := JEnv ex_norm ex_time.
Lemma ex_round_range z : in_int64 z = true -> in_int64 (ex_round z) = true.
Proof. unfold ex_round. by destruct (z =? 2 ^ 53 + 1)%Z. Qed.
Lemma ex_round_idem z : ex_round (ex_round z) = ex_round z.
Proof. unfold ex_round. destruct (z =? 2 ^ 53 + 1)%Z eqn:Ez; [done|]. by rewrite Ez. Qed.
Lemma jnum_all l t : jnum l = Some (t, []) -> t = l.
Proof.
  assert (forall s d r, digits s = (d, r) -> s = d ++ r) as Hd.
  { induction s as [|c s IH]; intros d r; cbn; [by intros [= <- <-]|]. destruct (isdigit c); [|by intros [= <- <-]].
    destruct (digits s) as [d' r'] eqn:Ed. intros [= <- <-]. cbn. f_equal. by apply IH. }
  assert (forall s d r, jint s = Some (d, r) -> s = d ++ r) as Hi.
  { intros [|c s] d r; [done|]. unfold jint. destruct (ch_eqb c "0"); [by intros [= <- <-]|]. destruct (isdigit c); [|done]. intros [= H]. by apply Hd. }
  assert (forall s d r, jfrac s = Some (d, r) -> s = d ++ r) as Hf.
  { intros [|c s] d r; [by intros [= <- <-]|]. unfold jfrac. destruct (ch_eqb c "."); [|by intros [= <- <-]].
    destruct (digits s) as [[|x d'] r'] eqn:Ed; [done|]. apply Hd in Ed as ->. by intros [= <- <-]. }
  assert (forall s d r, jexp s = Some (d, r) -> s = d ++ r) as He.
  { intros [|c s] d r; [by intros [= <- <-]|]. unfold jexp. destruct (ch_eqb c "e" || ch_eqb c "E"); [|by intros [= <- <-]].
    destruct s as [|g s]; [done|]. destruct (ch_eqb g "+" || ch_eqb g "-").
    - destruct (digits s) as [[|x d'] r'] eqn:Ed; [done|]. apply Hd in Ed as ->. by intros [= <- <-].
    - destruct (digits (g :: s)) as [[|x d'] r'] eqn:Ed; [done|]. apply Hd in Ed as ->. by intros [= <- <-]. }
  unfold jnum. destruct l as [|c l]; [done|]. destruct (ch_eqb c "-").
  - destruct (jint l) as [[i s2]|] eqn:E1; [|done]. destruct (jfrac s2) as [[f s3]|] eqn:E2; [|done]. destruct (jexp s3) as [[e s4]|] eqn:E3; [|done].
    intros [= <- ->]. apply Hi in E1 as ->. apply Hf in E2 as ->. apply He in E3 as ->. by rewrite app_nil_r.
  - destruct (jint (c :: l)) as [[i s2]|] eqn:E1; [|done]. destruct (jfrac s2) as [[f s3]|] eqn:E2; [|done]. destruct (jexp s3) as [[e s4]|] eqn:E3; [|done].
    intros [= <- ->]. apply Hi in E1 as ->. apply Hf in E2 as ->. apply He in E3 as ->. by rewrite app_nil_r.
Qed.
Lemma ex_lawful : lawful ex_jenv.
Proof.
  split; cbn [je_norm je_time ex_jenv].
  - unfold ex_norm. intros l l'. destruct (parse_int l) as [z|] eqn:Ez.
    + intros [= <-]. split; [apply num_lit_itoa|]. rewrite parse_int_itoa; [by rewrite ex_round_idem|]. apply ex_round_range. by eapply parse_int_range.
    + destruct (jnum l) as [[t [|? ?]]|] eqn:El; [|done..]. intros [= <-]. pose proof (jnum_all _ _ El) as ->. split; [exact El|]. by rewrite Ez, El.
  - vm_compute. reflexivity.
  - unfold ex_norm. intros l z Hl Hz. rewrite Hz in Hl. injection Hl as Hl.
    assert (in_int64 z = true) as Hr by (by eapply parse_int_range). rewrite parse_int_itoa by done. do 2 f_equal.
    rewrite <- Hl in Hz. rewrite parse_int_itoa in Hz by (by apply ex_round_range). by injection Hz.
  - unfold ex_time. intros s t. destruct (str_eqb s _) eqn:E0; [done|]. destruct (_ && _) eqn:E1; [|done]. intros [= <-].
    rewrite E0, E1. split; [done|]. by apply andb_true_iff in E1 as [_ ?].
Qed.
Definition ex_text : gostr := str "{""kind"":""Pod"",""apiVersion"":""v1"",""metadata"":{""uid"":""u"",""name"":""a"",""labels"":{""x"":""1""},""creationTimestamp"":""2024-01-01T00:00:00Z""},""spec"":{""z"":1,""b"":[true,null]},""spec"":{""z"":2}}".
Definition ex_object : objtype :=
  ObjType (str "v1") (str "Pod")
    (Meta (str "a") [] [] [] (str "u") [] 0 (Some (str "2024-01-01T00:00:00Z")) None None {[str "x" := str "1"]} ∅ [] [] [])
    [(str "spec", JObj [(str "z", JNum (str "2"))])].
Example C45_ex_decode : decode_obj ex_jenv ex_text = Ok ex_object.
Proof. vm_compute. reflexivity. Qed.
Example C45_ex_good : good_obj ex_jenv ex_object.
Proof. apply (C45_decoded _ ex_text); [apply ex_lawful|apply C45_ex_decode|discriminate]. Qed.
Example C45_ex_back : decode_obj ex_jenv (encode_obj ex_object) = Ok ex_object.
Proof. apply C45_round_trip; [apply ex_lawful|apply C45_ex_good]. Qed.
Example C45_ex_panics : decode_obj ex_jenv (str "{""kind"":null}") = Panics.
Proof. vm_compute. reflexivity. Qed.

(** Numbers are not kept exactly: a generation of 2^53+1 is changed, although ObjectMeta has an int64
    for it, because metadata goes through interface{}. *)
Theorem C45_exact_numbers_refuted : exists (E : jenv) (s : gostr) (o : objtype), lawful E /\ decode_obj E s = Ok o /\
  s = str "{""metadata"":{""generation"":9007199254740993}}" /\ me_generation (t_meta o) = (2 ^ 53)%Z.
Proof.
  exists ex_jenv, (str "{""metadata"":{""generation"":9007199254740993}}"). eexists. split; [apply ex_lawful|]. split; [vm_compute; reflexivity|]. split; reflexivity.
Qed.
(** A time that does not parse ends the decoding of metadata silently: the object has no name. *)
Theorem C45_bad_time_refuted : exists (E : jenv) (s : gostr) (o : objtype), lawful E /\ decode_obj E s = Ok o /\
  s = str "{""metadata"":{""name"":""a"",""creationTimestamp"":""x""}}" /\ me_name (t_meta o) = [].
Proof.
  exists ex_jenv, (str "{""metadata"":{""name"":""a"",""creationTimestamp"":""x""}}"). eexists. split; [apply ex_lawful|]. split; [vm_compute; reflexivity|]. split; reflexivity.
Qed.
(** Without the exception for deletion times [C45_stable] is false. *)
Theorem C45_bad_deletion_refuted : exists (E : jenv) (s : gostr) (o : objtype), lawful E /\ decode_obj E s = Ok o /\ decode_obj E (encode_obj o) <> Ok o.
Proof.
  exists ex_jenv, (str "{""metadata"":{""deletionTimestamp"":""x""}}"). eexists. split; [apply ex_lawful|]. split; [vm_compute; reflexivity|].
  vm_compute. discriminate.
Qed.
