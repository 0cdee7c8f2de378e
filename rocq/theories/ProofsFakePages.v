(** Lemmas about the discovery pages of the fake server. *)
From Coq Require Import Ascii String NArith ZArith Lia.
From stdpp Require Import base gmap strings list.
From Verif Require Import ModelStr ProofsStr ProofsQuote ModelJson ModelJsonText ProofsJson ProofsJsonText ProofsJsonParse ModelStore ModelUrl ModelProxy ModelObjType
  ModelReload SpecReload ModelFake ModelServer SpecServer ProofsServer ModelServe ModelFakeServer SpecFakeServer ProofsFakeServer.

(** ** JSON that is read back unchanged *)
Definition clean (d : nat) (j : json) : Prop := nums_ok j /\ jdepth j <= d /\ jvalid j = j.
Lemma clean_null d : clean d JNull.
Proof. split_and!; [done|cbn; lia|done]. Qed.
Lemma clean_bool d b : clean d (JBool b).
Proof. split_and!; [done|cbn; lia|done]. Qed.
Lemma clean_str d s : valid_utf8 s = true -> clean d (JStr s).
Proof. intros H. split_and!; [done|cbn; lia|]. cbn [jvalid]. by rewrite valid_to_valid. Qed.
Lemma clean_arr d l : Forall (clean d) l -> clean (S d) (JArr l).
Proof.
  intros H. split_and!.
  - apply nums_ok_arr. eapply Forall_impl; [exact H|]. by intros x (? & _).
  - apply jdepth_arr. eapply Forall_impl; [exact H|]. by intros x (_ & ? & _).
  - cbn [jvalid]. f_equal. induction H as [|x l (_ & _ & Hx) _ IH]; [done|]. cbn [map]. by rewrite Hx, IH.
Qed.
Lemma clean_obj d l : Forall (fun kv => valid_utf8 kv.1 = true /\ clean d kv.2) l -> clean (S d) (JObj l).
Proof.
  intros H. split_and!.
  - apply nums_ok_obj. eapply Forall_impl; [exact H|]. by intros x (_ & ? & _).
  - apply jdepth_obj. eapply Forall_impl; [exact H|]. by intros x (_ & _ & ? & _).
  - cbn [jvalid]. f_equal. induction H as [|[k x] l (Hk & _ & _ & Hx) _ IH]; [done|]. cbn [map fst snd] in *. by rewrite Hx, IH, valid_to_valid.
Qed.
Lemma clean_parse d j : clean d j -> d <= 9 -> json_parse (json_text j) = Some j.
Proof.
  intros (Hn & Hd & Hv) H9. rewrite parse_text; [by rewrite Hv|done|]. assert (9 <= max_nesting) by (unfold max_nesting; lia). lia.
Qed.

(** ** UTF-8 *)
Lemma decode_before s c t r w : (code c < 128)%N -> s <> [] -> decode_rune (s ++ c :: t) = Some (r, w) -> decode_rune s = Some (r, w) /\ w <= length s.
Proof.
  intros Hc Hs. destruct s as [|c0 s]; [done|]. cbn [app decode_rune]. cbv zeta.
  assert (forall lo hi, (128 <= lo)%N -> is_cont lo hi c = false) as Hf.
  { intros lo hi Hlo. unfold is_cont. apply andb_false_iff. left. apply N.leb_gt. lia. }
  assert (forall b, (128 <= (if b : bool then 160 else 128))%N /\ (128 <= (if b : bool then 144 else 128))%N) as Hb by (intros []; lia).
  destruct (code c0 <? 128)%N; [intros [= <- <-]; split; [done|cbn; lia]|].
  destruct (code c0 <? 194)%N; [done|].
  destruct (code c0 <? 224)%N.
  { destruct s as [|c1 s]; cbn [app]; [by rewrite Hf by lia|]. destruct (is_cont _ _ c1); [|done]. intros [= <- <-]. split; [done|cbn; lia]. }
  destruct (code c0 <? 240)%N.
  { destruct s as [|c1 [|c2 s]]; cbn [app].
    - destruct t; [done|]. by rewrite Hf by apply Hb.
    - rewrite (Hf 128%N) by lia. by rewrite andb_false_r.
    - destruct (_ && _); [|done]. intros [= <- <-]. split; [done|cbn; lia]. }
  destruct (code c0 <? 245)%N; [|done].
  destruct s as [|c1 [|c2 [|c3 s]]]; cbn [app].
  - destruct t as [|? [|? ?]]; [done|done|]. by rewrite Hf by apply Hb.
  - destruct t as [|? ?]; [done|]. rewrite (Hf 128%N) by lia. by rewrite andb_false_r.
  - rewrite (Hf 128%N) by lia. by rewrite andb_false_r.
  - destruct (_ && _); [|done]. intros [= <- <-]. split; [done|cbn; lia].
Qed.
Lemma valid_before s c t : (code c < 128)%N -> valid_utf8 (s ++ c :: t) = true -> valid_utf8 s = true.
Proof.
  intros Hc. remember (length s) as n eqn:En. assert (length s <= n) as Hn by lia. clear En. revert s Hn.
  induction n as [|n IH]; intros s Hn; [destruct s; [done|cbn in Hn; lia]|]. destruct s as [|a s]; [done|].
  unfold valid_utf8. intros H. destruct (decode_rune ((a :: s) ++ c :: t)) as [[r w]|] eqn:Hd.
  2:{ cbn [app valid_utf8_go] in *. by rewrite Hd in H. }
  destruct (decode_before (a :: s) _ _ _ _ Hc (not_eq_sym (@nil_cons _ a s)) Hd) as [Hd' Hw]. cbn [app valid_utf8_go] in *. rewrite Hd in H. rewrite Hd'.
  rewrite valid_go_skip in *. cbn [length] in *. rewrite drop_app_le in H by lia. apply IH; [|done]. rewrite drop_length. lia.
Qed.

(** ** TrimSuffix *)
Lemma trim_suffix_hit s suf : trim_suffix (s ++ suf) suf = s.
Proof.
  unfold trim_suffix. rewrite reverse_app, has_prefix_app, app_length. replace (length s + length suf - length suf) with (length s) by lia. apply take_app.
Qed.
Lemma trim_suffix_miss s suf : (forall t, s <> t ++ suf) -> trim_suffix s suf = s.
Proof.
  intros H. unfold trim_suffix. destruct (has_prefix (reverse suf) (reverse s)) eqn:Hp; [|done]. apply has_prefix_true in Hp as [t Ht]. exfalso.
  apply (H (reverse t)). apply (inj reverse). by rewrite reverse_app, reverse_involutive.
Qed.
Lemma trim_list_valid s : valid_utf8 s = true -> valid_utf8 (trim_suffix s (str "List")) = true.
Proof.
  intros H. unfold trim_suffix. destruct (has_prefix (reverse (str "List")) (reverse s)) eqn:Hp; [|done].
  apply has_prefix_true in Hp as [t Ht]. assert (s = reverse t ++ str "List") as ->.
  { apply (inj reverse). by rewrite reverse_app, reverse_involutive. }
  rewrite app_length. replace (length (reverse t) + length (str "List") - length (str "List")) with (length (reverse t)) by lia. rewrite take_app.
  eapply (valid_before _ "L"%char (str "ist")); [vm_compute; reflexivity|exact H].
Qed.

(** ** The configuration is UTF-8 *)
Lemma set_str_utf8 s v : valid_utf8 s = true -> parsed v -> valid_utf8 (set_str s v) = true.
Proof. intros Hs Hv. destruct v; try done. by inversion Hv. Qed.
Definition map_utf8 (m : gmap gostr gostr) : Prop := forall k v, m !! k = Some v -> valid_utf8 k = true /\ valid_utf8 v = true.
Lemma set_map_utf8 m v : map_utf8 m -> parsed v -> map_utf8 (set_map m v).
Proof.
  intros Hm Hv. destruct v as [| | | |l|l]; try done. inversion Hv as [| | | | |? Hl]; subst. cbn [set_map]. clear Hv. revert m Hm.
  induction Hl as [|[k x] l [Hk Hx] _ IH]; intros m Hm; [done|]. cbn [fold_left]. apply IH. cbn [fst snd] in *. intros k' v' H.
  destruct (decide (k = k')) as [<-|Hne]; [|rewrite lookup_insert_ne in H by done; by apply Hm]. rewrite lookup_insert in H. injection H as <-.
  split; [done|]. by apply set_str_utf8.
Qed.
Lemma fold_inv {A B} (P : A -> Prop) (Q : B -> Prop) (f : A -> B -> A) l a : (forall a b, P a -> Q b -> P (f a b)) -> P a -> Forall Q l -> P (fold_left f l a).
Proof. intros Hf Ha Hl. revert a Ha. induction Hl as [|b l Hb _ IH]; intros a Ha; [done|]. cbn [fold_left]. apply IH. by apply Hf. Qed.
Lemma set_proxy_field_utf8 p kv : proxy_utf8 p -> valid_utf8 kv.1 = true /\ parsed kv.2 -> proxy_utf8 (set_proxy_field p kv).
Proof.
  destruct p as [[[g ver] r] kind idx], kv as [k v]. cbn [fst snd]. intros [Hs Hm] [_ Hv]. unfold set_proxy_field. cbn [pc_gvr pc_kind pc_index fst snd] in *.
  assert (valid_utf8 g = true /\ valid_utf8 ver = true /\ valid_utf8 r = true /\ valid_utf8 kind = true) as (Hg & Hve & Hr & Hk).
  { split_and!; apply Hs; set_solver. }
  assert (forall g ver r kind idx, valid_utf8 g = true -> valid_utf8 ver = true -> valid_utf8 r = true -> valid_utf8 kind = true -> map_utf8 idx -> proxy_utf8 (ProxyConf (g, ver, r) kind idx)) as Hmk.
  { clear. intros g ver r kind idx H1 H2 H3 H4 Hm. split; [|done]. cbn [pc_gvr pc_kind fst snd]. intros s Hs.
    repeat (apply elem_of_cons in Hs as [->|Hs]; [done|]). by apply elem_of_nil in Hs. }
  repeat match goal with |- proxy_utf8 (if ?b then _ else _) => destruct b end; apply Hmk; try done; try (by apply set_str_utf8). by apply set_map_utf8.
Qed.
Lemma set_proxy_utf8 p v : proxy_utf8 p -> parsed v -> proxy_utf8 (set_proxy p v).
Proof.
  intros Hp Hv. destruct v as [| | | |l|l]; try done. inversion Hv as [| | | | |? Hl]; subst. cbn [set_proxy].
  eapply fold_inv; [|exact Hp|exact Hl]. intros. by apply set_proxy_field_utf8.
Qed.
Lemma zero_proxy_utf8 : proxy_utf8 zero_proxy.
Proof.
  split; [|intros k v H; cbn [zero_proxy pc_index] in H; by rewrite (lookup_empty (M:=gmap gostr)) in H].
  intros s Hs. cbn [zero_proxy pc_gvr pc_kind fst snd] in Hs. repeat (apply elem_of_cons in Hs as [->|Hs]; [done|]). by apply elem_of_nil in Hs.
Qed.
Lemma set_slice_utf8 l : Forall parsed l -> forall old, Forall proxy_utf8 old -> Forall proxy_utf8 (set_slice zero_proxy set_proxy old l).
Proof.
  induction 1 as [|v l Hv _ IH]; intros old Ho; [constructor|]. cbn [set_slice]. constructor.
  - apply set_proxy_utf8; [|done]. destruct Ho; [apply zero_proxy_utf8|done].
  - apply IH. destruct Ho; [constructor|done].
Qed.
Lemma decode_utf8 text fc : decode_conf text = Some fc -> conf_utf8 fc.
Proof.
  unfold decode_conf. destruct (json_parse text) as [v|] eqn:Hp; [|done]. destruct (conf_fits v); [|done]. intros [= <-].
  destruct (json_parse_parsed _ _ Hp) as [Hv _]. clear Hp.
  assert (conf_utf8 zero_conf) as Hz.
  { split_and!; [done|done|]. intros p H. by apply elem_of_nil in H. }
  destruct v as [| | | |l|l]; try done. inversion Hv as [| | | | |? Hl]; subst.
  eapply fold_inv; [|exact Hz|exact Hl]. clear. intros fc [k v] (Hd & Ht & Hps) [_ Hv]. cbn [fst snd] in *. unfold set_conf_field.
  destruct (str_eqb _ _).
  { split_and!; [done|done|]. cbn [fc_proxies]. apply Forall_forall. apply Forall_forall in Hps.
    destruct v as [| | | |l|l]; try done; [constructor|]. inversion Hv; subst. by apply set_slice_utf8. }
  destruct (str_eqb _ _); [split_and!; [by apply set_str_utf8|done|done]|].
  destruct (str_eqb _ _); [split_and!; [done|by apply set_str_utf8|done]|]. done.
Qed.
Lemma fake_conf_utf8 text fc : fake_conf text = Some fc -> conf_utf8 fc.
Proof.
  unfold fake_conf. destruct (decode_conf text) as [f|] eqn:Hd; [|done]. apply decode_utf8 in Hd as (H1 & H2 & H3). intros [= <-].
  split_and!; [|done|done]. cbn [fc_default]. by destruct (fc_default f).
Qed.

(** ** The pages *)
Lemma in_existsb x l : existsb (str_eqb x) l = true <-> x ∈ l.
Proof.
  rewrite existsb_exists. split; [intros (y & Hy & E); apply str_eqb_eq in E as ->; by apply elem_of_list_In|].
  intros H. exists x. split; [by apply elem_of_list_In|apply str_eqb_refl].
Qed.
Lemma groups_fold ps : forall acc, fold_left add_group ps acc = acc ++ filter (fun y => y ∉ acc) (firsts (map (fun p => (pc_gvr p).1.1) ps)).
Proof.
  induction ps as [|p ps IH]; intros acc; [cbn; by rewrite app_nil_r|]. cbn [fold_left map firsts]. unfold add_group at 2.
  set (x := (pc_gvr p).1.1). set (F := firsts _). destruct (existsb (str_eqb x) acc) eqn:Hx.
  - apply in_existsb in Hx. rewrite IH. fold F. f_equal. rewrite filter_cons_False by (intros H; by apply H).
    rewrite list_filter_filter. apply list_filter_iff. intros y. split; [intros H; split; [done|]|by intros []]. intros ->. done.
  - assert (x ∉ acc) as Hn by (intros H; apply in_existsb in H; congruence). rewrite IH. fold F. rewrite <- app_assoc. f_equal.
    rewrite filter_cons_True by done. cbn [app]. f_equal. rewrite list_filter_filter. apply list_filter_iff. intros y.
    rewrite elem_of_app, elem_of_list_singleton. tauto.
Qed.
Lemma groups_firsts ps : fold_left add_group ps [] = firsts (map (fun p => (pc_gvr p).1.1) ps).
Proof.
  rewrite groups_fold. cbn [app]. set (F := firsts _). clearbody F. induction F as [|x F IH]; [done|]. rewrite filter_cons_True by (by intros H; apply elem_of_nil in H). by rewrite IH.
Qed.
Lemma elem_firsts x l : x ∈ firsts l <-> x ∈ l.
Proof.
  induction l as [|y l IH]; [done|]. cbn [firsts]. rewrite !elem_of_cons, elem_of_list_filter, IH. destruct (decide (x = y)) as [->|Hn]; tauto.
Qed.
Lemma nil_elements l : elements (nil_slice l) l.
Proof. destruct l; [by right|by left]. Qed.
Lemma clean_nil d l : Forall (clean d) l -> clean (S d) (nil_slice l).
Proof. destruct l; [intros _; apply clean_null|apply clean_arr]. Qed.
Lemma clean_group d name : valid_utf8 name = true -> clean (S (S d)) (api_group name).
Proof.
  intros H. apply clean_obj. repeat (apply Forall_cons_2; [split; [reflexivity|]|]); cbn [snd]; [by apply clean_str|apply clean_null| |constructor].
  apply clean_obj. repeat (apply Forall_cons_2; [split; [reflexivity|]|]); cbn [snd]; [by apply clean_str|by apply clean_str|constructor].
Qed.
Lemma clean_apis fc : conf_utf8 fc -> clean 4 (apis_page fc).
Proof.
  intros (_ & _ & Hps). apply clean_obj. repeat (apply Forall_cons_2; [split; [reflexivity|]|]); cbn [snd]; [|constructor]. apply clean_nil.
  rewrite groups_firsts. apply Forall_forall. intros j Hj. apply elem_of_list_fmap in Hj as (name & -> & Hn). apply clean_group.
  apply (proj1 (elem_firsts _ _)) in Hn. apply elem_of_list_fmap in Hn as (p & -> & Hp). destruct (Hps p Hp) as [Hs _]. apply Hs. left.
Qed.
Lemma clean_omit d k v : valid_utf8 k = true -> valid_utf8 v = true -> Forall (fun kv => valid_utf8 kv.1 = true /\ clean d kv.2) (omit_empty k v).
Proof. intros Hk Hv. destruct v; [constructor|]. constructor; [|constructor]. split; [done|by apply clean_str]. Qed.
Lemma clean_resource g v p : valid_utf8 g = true -> valid_utf8 v = true -> proxy_utf8 p -> clean 2 (api_resource g v p).
Proof.
  intros Hg Hv [Hs _]. apply clean_obj. repeat apply Forall_app_2.
  - repeat (apply Forall_cons_2; [split; [reflexivity|]|]); cbn [snd]; [apply clean_str; apply Hs; set_solver|by apply clean_str|apply clean_bool|constructor].
  - by apply clean_omit.
  - by apply clean_omit.
  - repeat (apply Forall_cons_2; [split; [reflexivity|]|]); cbn [snd]; [apply clean_str; apply trim_list_valid; apply Hs; set_solver| |constructor].
    apply clean_arr. apply Forall_forall. intros j Hj. apply elem_of_list_fmap in Hj as (s & -> & Hin). apply clean_str.
    unfold verbs in Hin. repeat (apply elem_of_cons in Hin as [->|Hin]; [reflexivity|]). by apply elem_of_nil in Hin.
Qed.
Lemma valid_app a b : valid_utf8 a = true -> valid_utf8 b = true -> valid_utf8 (a ++ b) = true.
Proof.
  intros Ha Hb. remember (length a) as n eqn:En. assert (length a <= n) as Hn by lia. clear En. revert a Hn Ha.
  induction n as [|n IH]; intros a Hn Ha; [destruct a; [done|cbn in Hn; lia]|]. destruct a as [|c a]; [done|].
  destruct (decode_rune (c :: a)) as [[r w]|] eqn:Hd; [|unfold valid_utf8 in Ha; cbn [valid_utf8_go] in Ha; by rewrite Hd in Ha].
  rewrite <- (take_drop w (c :: a)), <- app_assoc. apply valid_rune; [by eapply one_rune_take|]. apply IH.
  - destruct (decode_rune_some _ _ _ Hd) as [Hw _]. rewrite drop_length. cbn [length] in *. lia.
  - unfold valid_utf8 in *. cbn [valid_utf8_go] in Ha. rewrite Hd in Ha. rewrite valid_go_skip in Ha.
    destruct (decode_rune_some _ _ _ Hd) as [Hw _]. destruct w; [lia|done].
Qed.
Lemma clean_resources fc g v : conf_utf8 fc -> valid_utf8 g = true -> valid_utf8 v = true -> clean 4 (resources_page fc g v).
Proof.
  intros (_ & _ & Hps) Hg Hv. apply clean_obj. repeat (apply Forall_cons_2; [split; [reflexivity|]|]); cbn [snd]; [| |constructor].
  - apply clean_str. destruct g as [|c g]; [done|]. apply valid_app; [done|]. by apply valid_app.
  - apply clean_nil. apply Forall_forall. intros j Hj. apply elem_of_list_fmap in Hj as (p & -> & Hp). apply clean_resource; [done|done|by apply Hps].
Qed.
