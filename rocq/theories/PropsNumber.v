(** C72: lists sorted by a number, with the ParseFloat of ModelNumber. *)
From Coq Require Import Ascii String NArith ZArith Lia.
From stdpp Require Import base gmap strings list sorting.
From Verif Require Import ModelStr ModelSort ModelLabels ModelPage ModelJson ModelJsonText ModelQuery ModelStore ModelUrl ModelProxy ModelServer ModelObjType ModelFake ModelWatcher ModelCodec ModelPath ModelNumber
  SpecLabels SpecPage SpecStore SpecProxy SpecServer SpecWatcher SpecObjType SpecCodec SpecPath SpecNumber
  SpecList ProofsStr ProofsJson ProofsJsonText ProofsJsonParse ProofsStore ProofsIndex ProofsSortText ProofsQueryStore ProofsWatcher ProofsObjType ProofsCodec ProofsPage ProofsListing ProofsPath ProofsNumber ProofsQuery PropsSearch PropsStore PropsStore3 PropsObjType PropsWatcher PropsCodec PropsPath.

(** ** Numbers *)
(** To every number there is exactly one nearest, and a larger number has no smaller one. *)
Theorem C72_nearest n x : exists z, nearest n x z /\ (forall z', nearest n x z' -> z' = z) /\
  forall n' x' z', nearest n' x' z' ->
    (n * 10 ^ Z.max 0 x * 10 ^ Z.max 0 (- x') <= n' * 10 ^ Z.max 0 x' * 10 ^ Z.max 0 (- x))%Z -> (z <= z')%Z.
Proof.
  destruct (nearest_exists n x) as [z Hz]. exists z. split; [done|]. split; [intros z' Hz'; by eapply nearest_fun|]. intros n' x' z' Hz' Hle. by eapply nearest_mono.
Qed.
Print Assumptions C72_nearest.

Section order.
  Context (other : gostr -> option fnum) (E0 : env).
  Let E := float_env other E0.
  Definition rank_of (v : fnum) : Z := default 0%Z (f_rank v).
  Lemma float_rank : rank_ok E rank_of (fun v => v <> FNaN).
  Proof.
    intros x y Hx Hy. unfold rank_of. cbn [E e_lt e_eq float_env]. unfold f_lt, f_eq.
    assert (forall v, v <> FNaN -> exists r, f_rank v = Some r) as Hr by (intros [z|[]|] Hv; [by eexists..|done]).
    destruct (Hr x Hx) as [a ->], (Hr y Hy) as [b ->]. cbn [default]. split; [apply Z.ltb_lt|apply Z.eqb_eq].
  Qed.
  Lemma key_present conf h st g idx key k e : run_calls E (new_store conf) h = Ok st -> conf !! g = Some idx -> is_Some (idx !! key) ->
    lookup_entry st g k.1.1 k.1.2 k.2 = Some e -> is_Some (en_index e !! key).
  Proof using Type.
    intros Hr Hg [v Hv] He. apply (history_some E conf h st g _ _ _ e Hr) in He as (h1 & kk & h2 & o & _ & _ & _ & ->).
    rewrite Hg. cbn [default]. change (id idx) with idx. destruct o as [ko|].
    - apply build_keys. right. by eexists.
    - cbn [build snd en_index]. destruct (decide (key = str "cluster")) as [->|Hne]; [rewrite lookup_insert; by eexists|]. rewrite lookup_insert_ne by done.
      unfold index_base. rewrite lookup_fmap, Hv. by eexists.
  Qed.
  Lemma number_list conf h st g idx ns page size total key rev search r :
    (forall s, other s <> Some FNaN) -> run_calls E (new_store conf) h = Ok st -> conf !! g = Some idx -> is_Some (idx !! key) -> plain_key key ->
    (forall k e t, in_scope st g ns k e -> en_index e !! key = Some t -> ~ not_a_number t) ->
    query E st g ns (Paginate page size total (sort_text [ISort key true rev]) search) (Ok r) -> q_err r = false ->
    (1 <= page)%Z -> (1 <= size)%Z -> (page * size < 2 ^ 63)%Z ->
    exists ks es, matches_listed E st g ns search ks es /\ q_total r = Z.of_nat (length es) /\
      q_items r = map en_obj (take (Z.to_nat size) (drop (Z.to_nat ((page - 1) * size)) es)) /\
      forall i j a b, i < j -> es !! i = Some a -> es !! j = Some b ->
        exists va vb, parse_float other (default [] (en_index a !! key)) = Some va /\ parse_float other (default [] (en_index b !! key)) = Some vb /\
          (if rev then rank_of vb <= rank_of va else rank_of va <= rank_of vb)%Z.
  Proof.
    intros Ho Hr Hg Hkey Hpl Hnan Hq He H1 H2 H3. destruct (query_ok E _ _ _ _ _ Hq He) as (ks & es & m & Hm & Ht & Hp & Hso & Hi & _). cbn [pg_search pg_sort] in *.
    exists ks, es. split; [done|]. split; [done|]. split.
    { destruct Hi as [[-> Hi]|[_ (items & Hsl & Hi)]].
      - rewrite Hi. apply Permutation_nil in Hp. subst. by rewrite drop_nil, take_nil.
      - unfold page_of in Hsl. cbn [pg_size pg_page] in Hsl. destruct (Z.eqb_spec size 0); [lia|].
        pose proof (slice_page es page size H1 H2 H3) as Hsp. cbv zeta in Hsp. rewrite Hsp in Hsl. injection Hsl as <-. done. }
    assert (forall e, e ∈ m -> exists k, in_scope st g ns k e) as Hsc.
    { intros e Hin. rewrite Hp in Hin. destruct Hm as (_ & HF & _). apply elem_of_list_lookup in Hin as (i & Hi').
      destruct (Forall2_lookup_r _ _ _ _ _ HF Hi') as (k & _ & [? _]). by exists k. }
    assert (forall e, e ∈ m -> is_Some (en_index e !! key)) as Hpres.
    { intros e (k & [Hlk _])%Hsc. by eapply (key_present conf h st g idx key k). }
    intros i j a b Hij Ha Hb.
    assert (forall e, e ∈ m -> exists v, parse_float other (default [] (en_index e !! key)) = Some v /\ v <> FNaN) as Hnum.
    { intros e Hin. destruct (parse_float other (default [] (en_index e !! key))) as [v|] eqn:Ev.
      - exists v. split; [done|]. intros ->. destruct (Hpres e Hin) as [t Et]. rewrite Et in Ev. cbn [default] in Ev. apply parse_nan in Ev; [|done].
        destruct (Hsc e Hin) as [k Hk]. by eapply Hnan.
      - exfalso. assert (sort_objs E m (sort_text [ISort key true rev]) = None) as Hn; [|congruence]. apply (sort_single_int E m key rev Hpl Hpres). split.
        + rewrite Hp. apply lookup_lt_Some in Hb. lia.
        + exists e. split; [done|exact Ev]. }
    assert (StronglySorted (fun a b => lex_le E rank_of [ISort key true rev] (en_index a) (en_index b)) es) as Hss.
    { eapply (sort_objs_sorted E rank_of (fun v => v <> FNaN) m (sort_text [ISort key true rev])); [apply float_rank| | |exact Hso].
      - intros o Hin. assert (str_eqb (sort_text [ISort key true rev]) [] = false) as -> by (apply str_eqb_neq; cbn [sort_text]; unfold sort_item; cbn [is_key]; destruct Hpl as [Hpl _]; by destruct key). rewrite sort_keys_text by (by constructor). cbn [forallb is_key]. by destruct (Hpres o Hin) as [v ->].
      - intros o Hin. constructor; [|constructor]. intros _. unfold SpecStore.value. cbn [is_key]. by apply Hnum. }
    assert (lex_le E rank_of [ISort key true rev] (en_index a) (en_index b)) as Hle.
    { clear -Hss Hij Ha Hb. revert i j Hij Ha Hb. induction Hss as [|x l Hl IH HF]; intros i j Hij Ha Hb; [done|].
      destruct j as [|j]; [lia|]. destruct i as [|i].
      - injection Ha as ->. rewrite Forall_forall in HF. apply HF. by eapply elem_of_list_lookup_2.
      - apply (IH i j); [lia|done|done]. }
    destruct (Hnum a) as (va & Eva & _); [rewrite Hp; by eapply elem_of_list_lookup_2|]. destruct (Hnum b) as (vb & Evb & _); [rewrite Hp; by eapply elem_of_list_lookup_2|].
    exists va, vb. split; [done|]. split; [done|].
    cbn [lex_le] in Hle. unfold before, tie, num_val, SpecStore.value in Hle. cbn [is_key is_int is_rev] in Hle. change (e_parse E) with (parse_float other) in Hle. rewrite Eva, Evb in Hle.
    destruct rev, Hle as [Hle|[Hle _]]; lia.
  Qed.
  Lemma number_fails conf h st g idx ns p key rev k1 e1 k2 e2 r :
    run_calls E (new_store conf) h = Ok st -> conf !! g = Some idx -> is_Some (idx !! key) -> plain_key key ->
    pg_sort p = sort_text [ISort key true rev] -> pg_search p = [] ->
    in_scope st g ns k1 e1 -> in_scope st g ns k2 e2 -> k1 <> k2 -> parse_float other (default [] (en_index e1 !! key)) = None ->
    query E st g ns p r -> exists q, r = Ok q /\ q_err q = true.
  Proof.
    intros Hr Hg Hkey Hpl Hs Hse S1 S2 Hne Hbad Hq. assert (is_Some (st_map st !! g)) as [cs Hcs] by (apply (run_dom E _ _ _ g Hr), new_dom; by eexists).
    unfold query in Hq. rewrite Hcs in Hq. destruct Hq as (seen & Hscan & ->).
    assert (forall e, entry_match E [] e = Some true) as Hall by done.
    assert (matched E [] seen = seen) as Hm. { unfold matched. clear -Hall. induction seen as [|e seen IH]; [done|]. cbn [List.filter]. by rewrite Hall, IH. }
    assert (seen_err E [] seen = false) as Hsn. { unfold seen_err. clear -Hall. induction seen as [|e seen IH]; [done|]. cbn [existsb]. by rewrite Hall, IH. }
    assert (forall e, e ∈ seen <-> exists k, in_scope st g ns k e) as Hsc by (intros e; by apply (seen_scope st g ns cs)).
    destruct (scan_matches E st g ns cs [] seen seen Hcs Hscan) as (ks & Hnd & HF & Hks); [by rewrite Hm|]. pose proof (Forall2_length _ _ _ HF) as Hlen.
    assert (sort_objs E seen (sort_text [ISort key true rev]) = None) as Hn.
    { apply (sort_single_int E seen key rev Hpl).
      - intros o (k & [Hlk _])%Hsc. by eapply (key_present conf h st g idx key k).
      - split; [|exists e1; split; [apply Hsc; by exists k1|exact Hbad]]. rewrite <- Hlen.
        pose proof (Hks k1 e1 S1 (Hall e1)) as I1. pose proof (Hks k2 e2 S2 (Hall e2)) as I2.
        destruct ks as [|a [|b ks]]; [by apply elem_of_nil in I1| |cbn; lia]. exfalso. apply elem_of_list_singleton in I1, I2. congruence. }
    rewrite query_seen_eq, Hs, Hse, Hm, Hsn. destruct seen as [|e0 seen0] eqn:Es; [discriminate Hn|]. rewrite <- Es in *. rewrite Hn. eexists. split; [reflexivity|]. done.
  Qed.
End order.

(** In a list sorted by key!int, of two objects whose index texts are decimal numbers the one
    listed first has the smaller nearest float64, or the same. *)
Theorem C72_order other E conf h st g idx ns page size total key rev search r :
  (forall s, other s <> Some FNaN) -> run_calls (float_env other E) (new_store conf) h = Ok st -> conf !! g = Some idx -> is_Some (idx !! key) -> plain_key key ->
  (forall k e t, in_scope st g ns k e -> en_index e !! key = Some t -> ~ not_a_number t) ->
  query (float_env other E) st g ns (Paginate page size total (sort_text [ISort key true rev]) search) (Ok r) -> q_err r = false ->
  (1 <= page)%Z -> (1 <= size)%Z -> (page * size < 2 ^ 63)%Z ->
  exists ks es, matches_listed (float_env other E) st g ns search ks es /\ q_total r = Z.of_nat (length es) /\
    q_items r = map en_obj (take (Z.to_nat size) (drop (Z.to_nat ((page - 1) * size)) es)) /\
    forall i j a b ta tb na xa za nb xb zb, i < j -> es !! i = Some a -> es !! j = Some b ->
      en_index a !! key = Some ta -> decimal ta na xa -> modest ta xa -> nearest na xa za ->
      en_index b !! key = Some tb -> decimal tb nb xb -> modest tb xb -> nearest nb xb zb ->
      if rev then (zb <= za)%Z else (za <= zb)%Z.
Proof.
  intros Ho Hr Hg Hkey Hpl Hnan Hq He H1 H2 H3. destruct (number_list other E conf h st g idx ns page size total key rev search r) as (ks & es & Hm & Ht & Hi & Hs); try done.
  exists ks, es. split; [done|]. split; [done|]. split; [done|]. intros i j a b ta tb na xa za nb xb zb Hij Ha Hb Ea Da [La Xa] Na Eb Db [Lb Xb] Nb.
  destruct (Hs i j a b Hij Ha Hb) as (va & vb & Va & Vb & Hle). rewrite Ea in Va. rewrite Eb in Vb. cbn [default] in Va, Vb.
  assert (forall t n x z v, decimal t n x -> (Z.of_nat (length t) < 10000)%Z -> (Z.abs x < 90000)%Z -> nearest n x z -> parse_float other t = Some v -> rank_of v = z) as Hv.
  { intros t n x z v Hd Hl Hx Hz Hv. destruct (parse_decimal other t n x z Hd Hl Hx Hz) as [Hin Hout]. destruct (decide (in_range z)) as [Hz'|Hz'].
    - rewrite (Hin Hz') in Hv. injection Hv as <-. done.
    - rewrite (Hout Hz') in Hv. done. }
  rewrite (Hv ta na xa za va Da La Xa Na Va), (Hv tb nb xb zb vb Db Lb Xb Nb Vb) in Hle. by destruct rev.
Qed.
Print Assumptions C72_order.

(** ** Infinities *)
(** The texts Inf and Infinity in any case, with the sign - or another or none. *)
Definition infinity (neg : bool) (t : gostr) : Prop :=
  exists sg r, signed neg sg /\ (r = str "inf" \/ r = str "infinity") /\ to_lower t = sg ++ r.
Lemma plain_exists t : plain_text t -> existsb (fun c => existsb (ch_eqb c) ["_"; "x"; "X"]%char) t = false.
Proof.
  intros Hp. apply not_true_iff_false. intros (c & Hc & Hx)%existsb_exists. apply elem_of_list_In in Hc. unfold plain_text in Hp. rewrite Forall_forall in Hp. specialize (Hp c Hc).
  apply existsb_exists in Hx as (d & Hd & ->%ch_eqb_eq). by apply elem_of_list_In in Hd.
Qed.
Lemma parse_infinity other neg t : infinity neg t -> plain_text t -> parse_float other t = Some (FInf neg).
Proof.
  intros (sg & r & Hsg & Hr & E) Hp%plain_exists. unfold parse_float, read_special. rewrite Hp. cbv zeta. rewrite E.
  assert (read_sign (sg ++ r) = (neg, r)) as ->. { destruct neg; cbn [signed] in Hsg; [rewrite Hsg; reflexivity|]. destruct Hsg as [->| ->]; [|reflexivity]. by destruct Hr as [->| ->]. }
  by destruct Hr as [->| ->].
Qed.
(** Only infinities have the rank of infinities, and no rank is beyond. *)
Lemma parse_extreme other t v : plain_text t -> parse_float other t = Some v -> v <> FNaN ->
  ((out_of_range <= rank_of v)%Z -> infinity false t) /\ ((rank_of v <= - out_of_range)%Z -> infinity true t).
Proof.
  intros Hp%plain_exists. assert (0 < out_of_range)%Z as Hpos by (rewrite out_of_range_eq; lia). unfold parse_float. rewrite Hp. destruct (read_special t) as [v0|] eqn:Es.
  - intros [= ->] Hn. unfold read_special in Es. destruct (read_sign (to_lower t)) as [neg r] eqn:Er. apply read_sign_inv in Er as (sg & Hsg & E).
    destruct (str_eqb r (str "inf") || str_eqb r (str "infinity")) eqn:Ei.
    + injection Es as <-. assert (infinity neg t) as Hinf. { exists sg, r. split; [done|]. split; [|done]. apply orb_true_iff in Ei as [Ei%str_eqb_eq|Ei%str_eqb_eq]; tauto. }
      destruct neg; unfold rank_of; cbn [f_rank default]; change (id ?z) with z; split; intros H; done || (exfalso; clear -H Hpos; set (o := out_of_range) in *; clearbody o; cbv [id] in H; lia).
    + destruct (str_eqb (to_lower t) (str "nan")); [|done]. by injection Es as <-.
  - destruct (read_float t) as [[[neg n] x]|]; [|done]. unfold to_double. cbv zeta. set (z := Z.of_N (round_pos _ _)). assert (0 <= z)%Z as Hz by lia. clearbody z.
    destruct (Z.leb_spec out_of_range z) as [|Hlt]; [done|]. intros [= <-] _. unfold rank_of. cbn [f_rank default]. set (o := out_of_range) in *. clearbody o. cbv [id].
    destruct neg; split; intros H; exfalso; lia.
Qed.
(** Infinities are at the ends of the list: in an ascending one nothing but +Inf comes after +Inf, and nothing
    but -Inf before -Inf; in a descending one it is the other way round. *)
Theorem C72_infinities other E conf h st g idx ns page size total key rev search r :
  (forall s, other s <> Some FNaN) -> run_calls (float_env other E) (new_store conf) h = Ok st -> conf !! g = Some idx -> is_Some (idx !! key) -> plain_key key ->
  (forall k e t, in_scope st g ns k e -> en_index e !! key = Some t -> ~ not_a_number t) ->
  query (float_env other E) st g ns (Paginate page size total (sort_text [ISort key true rev]) search) (Ok r) -> q_err r = false ->
  (1 <= page)%Z -> (1 <= size)%Z -> (page * size < 2 ^ 63)%Z ->
  exists ks es, matches_listed (float_env other E) st g ns search ks es /\ q_total r = Z.of_nat (length es) /\
    q_items r = map en_obj (take (Z.to_nat size) (drop (Z.to_nat ((page - 1) * size)) es)) /\
    forall i j a b ta tb, i < j -> es !! i = Some a -> es !! j = Some b ->
      en_index a !! key = Some ta -> plain_text ta -> en_index b !! key = Some tb -> plain_text tb ->
      (infinity rev ta -> infinity rev tb) /\ (infinity (negb rev) tb -> infinity (negb rev) ta).
Proof.
  intros Ho Hr Hg Hkey Hpl Hnan Hq He H1 H2 H3. destruct (number_list other E conf h st g idx ns page size total key rev search r) as (ks & es & Hm & Ht & Hi & Hs); try done.
  exists ks, es. split; [done|]. split; [done|]. split; [done|]. intros i j a b ta tb Hij Ha Hb Ea Pa Eb Pb.
  destruct (Hs i j a b Hij Ha Hb) as (va & vb & Va & Vb & Hle). rewrite Ea in Va. rewrite Eb in Vb. cbn [default] in Va, Vb. change (id ta) with ta in Va. change (id tb) with tb in Vb.
  assert (forall e t v, e ∈ es -> en_index e !! key = Some t -> parse_float other t = Some v -> v <> FNaN) as Hno.
  { intros e t v Hin Et Hv ->. apply parse_nan in Hv; [|done]. destruct Hm as (_ & HF & _). apply elem_of_list_lookup in Hin as (x & Hx).
    destruct (Forall2_lookup_r _ _ _ _ _ HF Hx) as (k & _ & [Hk _]). by eapply Hnan. }
  pose proof (Hno a ta va ltac:(by eapply elem_of_list_lookup_2) Ea Va) as Na. pose proof (Hno b tb vb ltac:(by eapply elem_of_list_lookup_2) Eb Vb) as Nb.
  destruct (parse_extreme other ta va Pa Va Na) as [Ua La]. destruct (parse_extreme other tb vb Pb Vb Nb) as [Ub Lb].
  assert (rank_of (FInf false) = out_of_range /\ rank_of (FInf true) = (- out_of_range)%Z) as [R1 R2] by done.
  destruct rev; cbn [negb]; split; intros Hinf.
  - pose proof (parse_infinity other _ _ Hinf Pa) as Hx. rewrite Hx in Va. injection Va as <-. apply Lb. by rewrite <- R2.
  - pose proof (parse_infinity other _ _ Hinf Pb) as Hx. rewrite Hx in Vb. injection Vb as <-. apply Ua. by rewrite <- R1.
  - pose proof (parse_infinity other _ _ Hinf Pa) as Hx. rewrite Hx in Va. injection Va as <-. apply Ub. by rewrite <- R1.
  - pose proof (parse_infinity other _ _ Hinf Pb) as Hx. rewrite Hx in Vb. injection Vb as <-. apply La. by rewrite <- R2.
Qed.
Print Assumptions C72_infinities.

(** Sorting by key!int fails exactly when there is something to compare and some index text is no number, or one
    beyond the largest float64. *)
Theorem C72_numbers_only other E conf h st g idx ns page total key rev r :
  Forall kube_call h -> run_calls (float_env other E) (new_store conf) h = Ok st -> conf !! g = Some idx -> is_Some (idx !! key) -> plain_key key ->
  (forall k e t, in_scope st g ns k e -> en_index e !! key = Some t -> plain_text t /\ forall n x, decimal t n x -> modest t x) ->
  query (float_env other E) st g ns (Paginate page 0 total (sort_text [ISort key true rev]) []) r ->
  exists q, r = Ok q /\
    (q_err q = true <->
     (exists k1 e1 k2 e2, k1 <> k2 /\ in_scope st g ns k1 e1 /\ in_scope st g ns k2 e2) /\
     (exists k1 e1 t, in_scope st g ns k1 e1 /\ en_index e1 !! key = Some t /\ ~ number t)).
Proof.
  intros Hk Hr Hg Hkey Hpl Hmod Hq.
  destruct (C55_numeric_sort_fails_iff (float_env other E) conf h st g ns page total key rev r) as (q & -> & Hiff); try done.
  { right. rewrite Hg. cbn [default]. exact Hkey. }
  exists q. split; [done|]. rewrite Hiff.
  assert ((exists k1 e1, in_scope st g ns k1 e1 /\ e_parse (float_env other E) (default [] (en_index e1 !! key)) = None) <->
    (exists k1 e1 t, in_scope st g ns k1 e1 /\ en_index e1 !! key = Some t /\ ~ number t)) as Hx; [|by rewrite Hx].
  change (e_parse (float_env other E)) with (parse_float other). split.
  - intros (k1 & e1 & S1 & Hp). destruct (key_present other E conf h st g idx key k1 e1 Hr Hg Hkey (proj1 S1)) as [t Et]. exists k1, e1, t. split; [done|]. split; [done|].
    rewrite Et in Hp. cbn [default] in Hp. destruct (Hmod k1 e1 t S1 Et) as [Hpt Hm]. rewrite <- (parse_number other t Hpt Hm). change (id t) with t in Hp. rewrite Hp. by intros [? ?].
  - intros (k1 & e1 & t & S1 & Et & Hn). exists k1, e1. split; [done|]. rewrite Et. cbn [default]. change (id t) with t. destruct (Hmod k1 e1 t S1 Et) as [Hpt Hm].
    rewrite <- (parse_number other t Hpt Hm) in Hn. by apply eq_None_not_Some.
Qed.
Print Assumptions C72_numbers_only.

(** ** From the documents *)
Lemma int_shown JE l z : je_norm JE l = Some (itoa z) -> (Z.abs z <= 2 ^ 53)%Z ->
  exists t n x, shows JE (JNum l) t /\ decimal t n x /\ modest t x /\ nearest n x (z * 2 ^ 1074).
Proof.
  intros Hl Hz. destruct (Z.lt_ge_cases (Z.abs z) 1000000) as [Hlt|Hge].
  - exists (itoa z), z, 0%Z. split; [by eapply shows_int|]. split; [apply itoa_decimal|]. split; [|apply nearest_int; lia]. split; [|lia].
    assert (length (itoa z) <= 7); [|lia]. assert (forall n, (n < 1000000)%N -> length (itoa_N n) <= 6) as Hn by (intros n Hn; apply itoa_len; [lia|exact Hn]).
    destruct z as [|p|p]; cbn [itoa length]; [vm_compute; lia|specialize (Hn (N.pos p) ltac:(lia)); lia|specialize (Hn (N.pos p) ltac:(lia)); lia].
  - pose proof (fmt_large z ltac:(lia)) as Hs. destruct (scientific_decimal _ _ Hs) as (n & x & Hd & Hx & Hv). exists (fmt_int z), n, x. split; [eapply shows_large; [exact Hl|lia|exact Hs]|].
    split; [exact Hd|]. split; [|apply nearest_int; lia]. split; [|lia].
    destruct Hs as (d & r & x0 & xs & HF & E & Hd0 & Hr0 & Hx0 & Hlen & Hle & Hval). rewrite E. cbn [app length]. rewrite !app_length.
    assert (x0 < 100) as Hx99. { apply Forall_cons in HF as [_ HF]. apply Forall_app in HF as [_ HF]. destruct xs as [|c1 [|c2 [|? ?]]]; try done. apply Forall_cons in HF as [K1 HF]. apply Forall_cons in HF as [K2 _]. unfold dec in Hx0. cbn [fold_left] in Hx0. lia. }
    destruct (decide (z < 0)%Z); cbn [length str list_ascii_of_string]; rewrite ?app_length; cbn [length]; destruct r; cbn [length app str list_ascii_of_string] in *; rewrite ?app_length; cbn [length]; rewrite ?Hlen; lia.
Qed.
Section documents.
  Context (JE : jenv) (P : jpenv) (other : gostr -> option fnum) (E0 : env) (cd : codec) (ws : list (gvr * gostr)) (conf : gmap gvr (gmap gostr gostr)).
  Let E := path_env JE P (float_env other E0).
  Context (tr : list wlabel) (w : wsys) (i : nat) (g : gvr) (c kind : gostr) (evs : list raw_event).
  Context (idx : gmap gostr gostr) (key k : gostr) (p : list gostr).

  (** The last document of a name has the integer z in the field. *)
  Definition has_number (n' n : gostr) (z : Z) : Prop :=
    exists s l lit, last_text JE (take (seen i tr) evs) n' n s /\ json_parse s = Some (JObj l) /\
      at_path (JObj l) (k :: p) (JNum lit) /\ je_norm JE lit = Some (itoa z) /\ (Z.abs z <= 2 ^ 53)%Z.
  (** The last document of a name lacks the field. *)
  Definition lacks (n' n : gostr) : Prop :=
    exists s l, last_text JE (take (seen i tr) evs) n' n s /\ json_parse s = Some (JObj l) /\ missing (JObj l) (k :: p).

  (** Sorted by the number in a field of the documents, the list has them in its order. *)
  Theorem C72_documents ns page size total rev search r : lawful JE -> (forall s, other s <> Some FNaN) ->
    caught_up E JE cd ws conf tr w i g c evs -> proper g -> cd_known cd (g.1.1, g.1.2, kind) = false ->
    Forall (about g kind) evs -> Forall (readable g kind) evs ->
    conf !! g = Some idx -> idx !! key = Some (field_expr (k :: p)) -> key ∉ own_keys -> k ∉ reserved -> Forall good_name (k :: p) -> plain_key key ->
    (forall x e t, in_scope (ws_store w) g ns x e -> en_index e !! key = Some t -> ~ not_a_number t) ->
    query E (ws_store w) g ns (Paginate page size total (sort_text [ISort key true rev]) search) (Ok r) -> q_err r = false ->
    (1 <= page)%Z -> (1 <= size)%Z -> (page * size < 2 ^ 63)%Z ->
    exists ks es, matches_listed E (ws_store w) g ns search ks es /\ q_total r = Z.of_nat (length es) /\
      q_items r = map en_obj (take (Z.to_nat size) (drop (Z.to_nat ((page - 1) * size)) es)) /\
      forall a b n1' n1 z1 n2' n2 z2, a < b -> ks !! a = Some (c, n1', n1) -> ks !! b = Some (c, n2', n2) ->
        has_number n1' n1 z1 -> has_number n2' n2 z2 -> if rev then (z2 <= z1)%Z else (z1 <= z2)%Z.
  Proof using Type.
    intros HJ Ho Hc Hp Hk Ha Hr Hg Hkey Hown Hres Hgood Hpl Hnan Hq He H1 H2 H3. destruct (run_of E ws conf tr w (proj1 Hc)) as [h Hh].
    destruct (C72_order other (path_env JE P E0) conf h (ws_store w) g idx ns page size total key rev search r) as (ks & es & Hm & Ht & Hi & Hs); try done.
    exists ks, es. split; [exact Hm|]. split; [done|]. split; [done|]. intros a b n1' n1 z1 n2' n2 z2 Hab K1 K2 N1 N2.
    assert (forall j n' n z, ks !! j = Some (c, n', n) -> has_number n' n z ->
      exists e t m x, es !! j = Some e /\ en_index e !! key = Some t /\ decimal t m x /\ modest t x /\ nearest m x (z * 2 ^ 1074)) as Hget.
    { intros j n' n z Hj (s & l & lit & Hls & Hps & Hat & Hnorm & Hz). destruct (int_shown JE lit z Hnorm Hz) as (t & m & x & Hsh & Hd & Hmod & Hnear).
      destruct (C71_cache JE P (float_env other E0) cd ws conf tr w i g c kind evs idx key k p n' n s l t) as (e & Hlk & Hidx); try done. { by eapply ft_found. }
      destruct Hm as (_ & HF & _). destruct (Forall2_lookup_l _ _ _ _ _ HF Hj) as (e' & Hj' & [Hlk' _] & _). cbn [fst snd] in Hlk'.
      assert (e' = e) as -> by congruence. exists e, t, m, x. done. }
    destruct (Hget a n1' n1 z1 K1 N1) as (e1 & t1 & m1 & x1 & A1 & B1 & D1 & M1 & R1). destruct (Hget b n2' n2 z2 K2 N2) as (e2 & t2 & m2 & x2 & A2 & B2 & D2 & M2 & R2).
    pose proof (Hs a b e1 e2 t1 t2 m1 x1 _ m2 x2 _ Hab A1 A2 B1 D1 M1 R1 B2 D2 M2 R2) as Hle. pose proof (pow2_pos 1074 ltac:(lia)) as Hpos.
    destruct rev; (eapply Z.mul_le_mono_pos_r; [exact Hpos|exact Hle]).
  Qed.
  (** One document without the field makes every list sorted by it fail, for any page, once there is another
      object in scope. *)
  Theorem C72_missing ns pg rev n' n k2 e2 r : lawful JE ->
    caught_up E JE cd ws conf tr w i g c evs -> proper g -> cd_known cd (g.1.1, g.1.2, kind) = false ->
    Forall (about g kind) evs -> Forall (readable g kind) evs ->
    conf !! g = Some idx -> idx !! key = Some (field_expr (k :: p)) -> key ∉ own_keys -> k ∉ reserved -> Forall good_name (k :: p) -> plain_key key ->
    pg_sort pg = sort_text [ISort key true rev] -> pg_search pg = [] ->
    lacks n' n -> ns = [] \/ ns = n' -> in_scope (ws_store w) g ns k2 e2 -> k2 <> (c, n', n) ->
    query E (ws_store w) g ns pg r -> exists q, r = Ok q /\ q_err q = true.
  Proof using Type.
    intros HJ Hc Hp Hk Ha Hr Hg Hkey Hown Hres Hgood Hpl Hso Hse (s & l & Hls & Hps & Hmiss) Hns S2 Hne Hq. destruct (run_of E ws conf tr w (proj1 Hc)) as [h Hh].
    destruct (C71_cache JE P (float_env other E0) cd ws conf tr w i g c kind evs idx key k p n' n s l []) as (e & Hlk & Hidx); try done. { by apply ft_missing. }
    eapply (number_fails other (path_env JE P E0) conf h (ws_store w) g idx ns pg key rev (c, n', n) e k2 e2 r); try done.
    rewrite Hidx. reflexivity.
  Qed.
End documents.
Print Assumptions C72_documents.
Print Assumptions C72_missing.

(** ** Examples *)
Definition f_env : env := float_env (fun _ => None) ex_env.
(** Pods of one namespace with these names and sizes. *)
Definition sized (l : list (string * string)) : list call := map (fun p => CAdd pods c1 (pod "default" p.1 p.2)) l.
Lemma sized_ok l : exists st, run_calls f_env (new_store ex_conf) (sized l) = Ok st.
Proof.
  apply (run_ok_iff f_env ex_conf). apply Forall_forall. intros k (p & <- & _)%elem_of_list_In%in_map_iff. cbn [call_gvr]. rewrite ex_conf_pods. by eexists.
Qed.
Definition listed (b : bool) (l : list (string * string)) (sort : string) (names : option (list string)) : bool :=
  match run_calls f_env (new_store ex_conf) (sized l) with
  | Ok st =>
      match query_with f_env b st pods [] (pg 1 10 sort ""), names with
      | Ok r, Some ns => negb (q_err r) && bool_decide (map obj_id (q_items r) = map (fun n => str "default/" ++ str n) ns)
      | Ok r, None => q_err r
      | Panics, _ => false
      end
  | Panics => false
  end.
Example C72_ex_order : sort_text [ISort (str "size") true false] = str "size!int asc" /\ plain_key (str "size") /\
  listed false [("a", "10"); ("b", "9"); ("c", "2.5e+06"); ("d", "-1.5"); ("e", "1E3"); ("f", "+Infinity")]%string "size!int asc" (Some ["d"; "b"; "a"; "e"; "c"; "f"]%string) = true /\
  listed true [("a", "10"); ("b", "9"); ("c", "2.5e+06"); ("d", ".5")]%string "size!int desc" (Some ["c"; "a"; "b"; "d"]%string) = true /\
  listed false [("a", "10"); ("b", "1e400")]%string "size!int asc" None = true /\
  listed false [("a", "10"); ("b", "3m")]%string "size!int asc" None = true /\
  decimal (str "-1.5") (-15) (-1) /\ modest (str "-1.5") (-1) /\ decimal (str "2.5e+06") 25 5 /\ nearest 25 5 (2500000 * 2 ^ 1074).
Proof.
  split; [reflexivity|]. split; [split; [discriminate|]; repeat apply Forall_cons_2; (split; [vm_compute; done|discriminate]) || apply Forall_nil_2|].
  split; [vm_compute; reflexivity|]. split; [vm_compute; reflexivity|]. split; [vm_compute; reflexivity|]. split; [vm_compute; reflexivity|].
  split; [|split; [split; vm_compute; done|split; [|apply nearest_int; vm_compute; done]]].
  - exists true, (str "-"), (str "1"), (str "5"), (str "1.5"), 0%Z, []. split; [done|]. split; [repeat apply Forall_cons_2; [vm_compute; done|apply Forall_nil_2]|]. split; [repeat apply Forall_cons_2; [vm_compute; done|apply Forall_nil_2]|].
    split; [discriminate|]. split; [by right|]. split; [by left|]. done.
  - exists false, [], (str "2"), (str "5"), (str "2.5"), 6%Z, (str "e+06"). split; [by left|]. split; [repeat apply Forall_cons_2; [vm_compute; done|apply Forall_nil_2]|]. split; [repeat apply Forall_cons_2; [vm_compute; done|apply Forall_nil_2]|].
    split; [discriminate|]. split; [by right|]. split; [|done]. right. exists "e"%char, false, (str "+"), (str "06"). split; [by left|]. split; [by right|].
    split; [repeat apply Forall_cons_2; [vm_compute; done|vm_compute; done|apply Forall_nil_2]|]. split; [discriminate|]. done.
Qed.

Example C72_ex_infinities : listed false [("a", "inf"); ("b", "-1e300"); ("c", "-Infinity"); ("d", "7")]%string "size!int asc" (Some ["c"; "b"; "d"; "a"]%string) = true /\
  listed false [("a", "inf"); ("b", "-1e300"); ("c", "-Infinity"); ("d", "7")]%string "size!int desc" (Some ["a"; "d"; "b"; "c"]%string) = true /\
  infinity true (str "-Infinity") /\ infinity false (str "inf") /\ plain_text (str "-Infinity").
Proof.
  split; [vm_compute; reflexivity|]. split; [vm_compute; reflexivity|]. split; [|split].
  - exists (str "-"), (str "infinity"). split; [done|]. split; [by right|reflexivity].
  - exists [], (str "inf"). split; [by left|]. split; [by left|reflexivity].
  - repeat apply Forall_cons_2; try apply Forall_nil_2; by intros H%(bool_decide_eq_true_2 _).
Qed.

(** Documents of a custom type, with the member x or without. *)
Definition num_doc (n extra : string) : gostr :=
  str "{""apiVersion"":""networking.istio.io/v1alpha3"",""kind"":""Sidecar"",""metadata"":{""name"":""" ++ str n ++ str """}" ++ str extra ++ str "}".
Definition num_fields (n : string) (x : option string) : list (gostr * json) :=
  [(str "apiVersion", JStr (str "networking.istio.io/v1alpha3")); (str "kind", JStr (str "Sidecar")); (str "metadata", JObj [(str "name", JStr (str n))])]
  ++ match x with Some l => [(str "x", JNum (str l))] | None => [] end.
Definition num_ev (n extra : string) : raw_event := Raw ex_reg (str "ADDED") (num_doc n extra).
Definition num_evs : list raw_event := [num_ev "a" ",""x"":2000000"; num_ev "b" ",""x"":9"; num_ev "c" ""].
Lemma num_document n extra x : json_parse (num_doc n extra) = Some (JObj (num_fields n x)) -> document sidecars (str "Sidecar") (num_doc n extra).
Proof.
  intros Hp. split; [discriminate|]. exists (str "networking.istio.io/v1alpha3"), (num_fields n x). split; [done|]. split; [by right|]. split; [left|]. split; [right; left|].
  intros k v Hin. unfold num_fields in Hin. rewrite elem_of_app, !elem_of_cons, elem_of_nil in Hin. destruct Hin as [[Hin|[Hin|[Hin|[]]]]|Hin].
  - apply pair_equal_spec in Hin as [-> ->]. split; [done|]. intros H. discriminate H.
  - apply pair_equal_spec in Hin as [-> ->]. split; [|done]. intros H. discriminate H.
  - apply pair_equal_spec in Hin as [-> ->]. split; intros H; discriminate H.
  - destruct x as [l|]; [|by apply elem_of_nil in Hin]. apply elem_of_list_singleton, pair_equal_spec in Hin as [-> ->]. split; intros H; discriminate H.
Qed.
Definition num_x : list (option string) := [Some "2000000"; Some "9"; None]%string.
Lemma num_about : Forall (about sidecars (str "Sidecar")) num_evs /\ Forall (readable sidecars (str "Sidecar")) num_evs.
Proof.
  split.
  - assert (forall n extra x, json_parse (num_doc n extra) = Some (JObj (num_fields n x)) -> about sidecars (str "Sidecar") (num_ev n extra)) as H.
    { intros n extra x Hp. split; [left; cbn [re_type num_ev]; unfold changes; left|]. by eapply num_document. }
    apply Forall_cons_2; [|apply Forall_cons_2; [|apply Forall_cons_2; [|constructor]]].
    + apply (H _ _ (Some "2000000"%string)). vm_compute. reflexivity.
    + apply (H _ _ (Some "9"%string)). vm_compute. reflexivity.
    + apply (H _ _ None). vm_compute. reflexivity.
  - assert ((str "networking.istio.io", str "v1alpha3", str "Sidecar") ∈ ex_reg) as H by (unfold ex_reg; set_solver). repeat apply Forall_cons_2; done || exact H.
Qed.
Definition p_env : env := path_env ex_jenv ex_jp f_env.
(** The watch after the first two, or all three. *)
Definition num_trace (k : nat) : list wlabel := play (map (item_of ex_jenv) (take k num_evs)).
Definition num_ok (names : option (list string)) (w : wsys) : bool :=
  quiet w && match query_with p_env false (ws_store w) sidecars [] (pg 1 10 "x!int asc" ""), names with
             | Ok r, Some ns => negb (q_err r) && bool_decide (map obj_id (q_items r) = map (fun n => str "/" ++ str n) ns)
             | Ok r, None => q_err r
             | Panics, _ => false
             end && cached sidecars "b" w.
Lemma num_run2 : exists w, wruns p_env [(sidecars, c1)] (wstart [(sidecars, c1)] x_conf) (num_trace 2) w /\ num_ok (Some ["b"; "a"]%string) w = true.
Proof. apply exec_some. vm_compute. reflexivity. Qed.
Lemma num_run3 : exists w, wruns p_env [(sidecars, c1)] (wstart [(sidecars, c1)] x_conf) (num_trace 3) w /\ num_ok None w = true.
Proof. apply exec_some. vm_compute. reflexivity. Qed.
Lemma num_latest2 : latest 0 (num_trace 2) = map (item_of ex_jenv) (take 2 num_evs).
Proof. reflexivity. Qed.
Lemma num_latest3 : latest 0 (num_trace 3) = map (item_of ex_jenv) (take 3 num_evs).
Proof. reflexivity. Qed.
Lemma num_caught_up k w : latest 0 (num_trace k) = map (item_of ex_jenv) (take k num_evs) -> take k num_evs <> [] ->
  wruns p_env [(sidecars, c1)] (wstart [(sidecars, c1)] x_conf) (num_trace k) w -> quiet w = true ->
  caught_up p_env ex_jenv ex_cd [(sidecars, c1)] x_conf (num_trace k) w 0 sidecars c1 num_evs.
Proof.
  intros Hl Hne Hr Hq. split; [exact Hr|]. split; [apply only_alone|]. split; [rewrite Hl; destruct (take k num_evs); [done|discriminate]|]. split; [intros f x; by apply quiet_ok|].
  rewrite Hl, (deliver_readable ex_jenv ex_cd sidecars (str "Sidecar") num_evs sidecars_proper eq_refl (proj1 num_about) (proj2 num_about)). cbn [fst]. apply prefix_app_r.
  exists (map (item_of ex_jenv) (drop k num_evs)). by rewrite <- map_app, take_drop.
Qed.
(** What the last document of a name is. *)
Lemma num_last k before n extra after : take k num_evs = before ++ num_ev n extra :: after ->
  Forall (fun e => match decode_obj ex_jenv (re_text e) with Ok o => str_eqb (me_name (t_meta o)) (str n) = false | Panics => True end) after ->
  match decode_obj ex_jenv (num_doc n extra) with Ok o => (me_namespace (t_meta o), me_name (t_meta o)) = ([], str n) | Panics => False end ->
  last_text ex_jenv (take k num_evs) [] (str n) (num_doc n extra).
Proof.
  intros He HF Hd. destruct (decode_obj ex_jenv (num_doc n extra)) as [o|] eqn:Eo; [|done].
  exists before, (num_ev n extra), after, o. split; [done|]. split; [by left|]. split; [done|]. split; [exact Eo|]. split; [done|].
  intros e' o' Hin _ Ho. rewrite Forall_forall in HF. specialize (HF e' Hin). cbv beta in HF. rewrite Ho in HF. apply str_eqb_neq in HF. intros Heq. apply HF. by apply pair_equal_spec in Heq as [_ ?].
Qed.
Example C72_ex_documents : exists w r, caught_up p_env ex_jenv ex_cd [(sidecars, c1)] x_conf (num_trace 2) w 0 sidecars c1 num_evs /\
  Forall (about sidecars (str "Sidecar")) num_evs /\ Forall (readable sidecars (str "Sidecar")) num_evs /\
  query p_env (ws_store w) sidecars [] (pg 1 10 "x!int asc" "") (Ok r) /\ q_err r = false /\ map obj_id (q_items r) = [str "/b"; str "/a"] /\
  has_number ex_jenv (num_trace 2) 0 num_evs (str "x") [] [] (str "a") 2000000 /\ has_number ex_jenv (num_trace 2) 0 num_evs (str "x") [] [] (str "b") 9.
Proof.
  destruct num_run2 as (w & Hr & Hok). exists w. unfold num_ok in Hok. rewrite !andb_true_iff in Hok. destruct Hok as [[Hq Hres] _].
  pose proof (query_with_ok p_env false (ws_store w) sidecars [] (pg 1 10 "x!int asc" "")) as Hqw. revert Hqw Hres. generalize (query_with p_env false (ws_store w) sidecars [] (pg 1 10 "x!int asc" "")).
  intros [r|] Hqw Hres; [|discriminate Hres]. apply andb_true_iff in Hres as [He Hids]. apply negb_true_iff in He. apply bool_decide_eq_true in Hids. exists r.
  split; [apply num_caught_up; [apply num_latest2|discriminate|exact Hr|exact Hq]|]. split; [apply num_about|]. split; [apply num_about|]. split; [exact Hqw|]. split; [exact He|]. split; [exact Hids|].
  assert (seen 0 (num_trace 2) = 2) as Hseen by reflexivity. split.
  - exists (num_doc "a" ",""x"":2000000"), (num_fields "a" (Some "2000000"%string)), (str "2000000"). rewrite Hseen.
    split; [|split; [vm_compute; reflexivity|split; [|split; [vm_compute; reflexivity|lia]]]].
    + eapply (num_last 2 []); [reflexivity|repeat apply Forall_cons_2; [vm_compute; reflexivity|apply Forall_nil_2]|vm_compute; reflexivity].
    + unfold num_fields. eapply at_get; [nodup_keys|reflexivity|constructor].
  - exists (num_doc "b" ",""x"":9"), (num_fields "b" (Some "9"%string)), (str "9"). rewrite Hseen.
    split; [|split; [vm_compute; reflexivity|split; [|split; [vm_compute; reflexivity|lia]]]].
    + eapply (num_last 2 [num_ev "a" ",""x"":2000000"]); [reflexivity|apply Forall_nil_2|vm_compute; reflexivity].
    + unfold num_fields. eapply at_get; [nodup_keys|reflexivity|constructor].
Qed.
Example C72_ex_missing : exists w r, caught_up p_env ex_jenv ex_cd [(sidecars, c1)] x_conf (num_trace 3) w 0 sidecars c1 num_evs /\
  lacks ex_jenv (num_trace 3) 0 num_evs (str "x") [] [] (str "c") /\ (exists e, in_scope (ws_store w) sidecars [] (c1, [], str "b") e) /\
  pg_sort (pg 1 10 "x!int asc" "") = sort_text [ISort (str "x") true false] /\
  query p_env (ws_store w) sidecars [] (pg 1 10 "x!int asc" "") (Ok r) /\ q_err r = true.
Proof.
  destruct num_run3 as (w & Hr & Hok). exists w. unfold num_ok in Hok. rewrite !andb_true_iff in Hok. destruct Hok as [[Hq Hres] Hb].
  pose proof (query_with_ok p_env false (ws_store w) sidecars [] (pg 1 10 "x!int asc" "")) as Hqw. revert Hqw Hres. generalize (query_with p_env false (ws_store w) sidecars [] (pg 1 10 "x!int asc" "")).
  intros [r|] Hqw Hres; [|discriminate Hres]. exists r. split; [apply num_caught_up; [apply num_latest3|discriminate|exact Hr|exact Hq]|].
  split; [|split; [|split; [reflexivity|split; [exact Hqw|exact Hres]]]].
  - exists (num_doc "c" ""), (num_fields "c" None). assert (seen 0 (num_trace 3) = 3) as -> by reflexivity. split; [|split; [vm_compute; reflexivity|]].
    + eapply (num_last 3 [num_ev "a" ",""x"":2000000"; num_ev "b" ",""x"":9"]); [reflexivity|apply Forall_nil_2|vm_compute; reflexivity].
    + intros v Hv. inversion Hv as [|l' k' v' p' w' Hd Hw]; subst. apply denotes_elem in Hd. unfold num_fields in Hd. apply elem_of_list_In in Hd. cbn in Hd. intuition discriminate.
  - unfold cached, store_get in Hb. destruct (lookup_entry (ws_store w) sidecars c1 [] (str "b")) as [e|] eqn:Ee; [|discriminate Hb]. exists e. split; [exact Ee|by left].
Qed.

(** ** What a user would expect and is false *)
(** Above 53 bits the order of integers is lost: 2^53 + 1 is listed before 2^53. *)
Theorem C72_large_refuted : exists E conf h st r, run_calls E (new_store conf) h = Ok st /\ E = float_env (fun _ => None) ex_env /\
  h = sized [("a", "9007199254740993"); ("b", "9007199254740992")]%string /\
  query E st pods [] (pg 1 10 "size!int asc" "") (Ok r) /\ q_err r = false /\ map obj_id (q_items r) = [str "default/a"; str "default/b"].
Proof.
  assert (listed false [("a", "9007199254740993"); ("b", "9007199254740992")]%string "size!int asc" (Some ["a"; "b"]%string) = true) as H by (vm_compute; reflexivity).
  destruct (sized_ok [("a", "9007199254740993"); ("b", "9007199254740992")]%string) as [st Hst]. unfold listed in H. rewrite Hst in H.
  pose proof (query_with_ok f_env false st pods [] (pg 1 10 "size!int asc" "")) as Hq. revert Hq H. generalize (query_with f_env false st pods [] (pg 1 10 "size!int asc" "")).
  intros [r|] Hq H; [|discriminate H]. apply andb_true_iff in H as [He Hi]. apply negb_true_iff in He. apply bool_decide_eq_true in Hi.
  exists f_env, ex_conf, (sized [("a", "9007199254740993"); ("b", "9007199254740992")]%string), st, r. split; [exact Hst|]. split; [reflexivity|]. split; [reflexivity|]. split; [exact Hq|]. split; [exact He|exact Hi].
Qed.
Print Assumptions C72_large_refuted.
(** One object with the text NaN puts the others out of order, without an error: 3 is listed before 1. *)
Theorem C72_nan_refuted : exists E conf h st r, run_calls E (new_store conf) h = Ok st /\ E = float_env (fun _ => None) ex_env /\
  h = sized [("a", "NaN"); ("b", "3"); ("c", "1")]%string /\
  query E st pods [] (pg 1 10 "size!int asc" "") (Ok r) /\ q_err r = false /\ map obj_id (q_items r) = [str "default/b"; str "default/a"; str "default/c"].
Proof.
  assert (listed false [("a", "NaN"); ("b", "3"); ("c", "1")]%string "size!int asc" (Some ["b"; "a"; "c"]%string) = true) as H by (vm_compute; reflexivity).
  destruct (sized_ok [("a", "NaN"); ("b", "3"); ("c", "1")]%string) as [st Hst]. unfold listed in H. rewrite Hst in H.
  pose proof (query_with_ok f_env false st pods [] (pg 1 10 "size!int asc" "")) as Hq. revert Hq H. generalize (query_with f_env false st pods [] (pg 1 10 "size!int asc" "")).
  intros [r|] Hq H; [|discriminate H]. apply andb_true_iff in H as [He Hi]. apply negb_true_iff in He. apply bool_decide_eq_true in Hi.
  exists f_env, ex_conf, (sized [("a", "NaN"); ("b", "3"); ("c", "1")]%string), st, r. split; [exact Hst|]. split; [reflexivity|]. split; [reflexivity|]. split; [exact Hq|]. split; [exact He|exact Hi].
Qed.
Print Assumptions C72_nan_refuted.
