(** C73: what index expressions that are Go templates give. *)
From Coq Require Import Ascii String NArith ZArith Lia.
From stdpp Require Import base gmap strings list sorting.
From Verif Require Import ModelStr ModelSort ModelLabels ModelPage ModelJson ModelJsonText ModelQuery ModelStore ModelUrl ModelProxy ModelServer ModelObjType ModelFake ModelWatcher ModelCodec ModelPath ModelTmpl
  SpecLabels SpecPage SpecStore SpecProxy SpecServer SpecWatcher SpecObjType SpecCodec SpecPath SpecTmpl
  SpecList ProofsStr ProofsJson ProofsJsonText ProofsJsonParse ProofsStore ProofsWatcher ProofsObjType ProofsCodec ProofsPage ProofsListing ProofsPath ProofsTmpl PropsSearch PropsStore PropsObjType PropsWatcher PropsCodec PropsPath.

Lemma spells_plain ns e : spells ns e -> contains e (str "{{") = true \/ ("{"%char ∉ e /\ (ns = [] /\ e = [] \/ ns = [NText e])).
Proof.
  intros H. assert (forall s, opens s -> contains s (str "{{") = true \/ s = []) as Ho.
  { intros s [->|(r & ->)]; [by right|]. left. apply contains_true. by exists [], r. }
  assert (forall a s, contains s (str "{{") = true -> contains (a ++ s) (str "{{") = true) as Happ.
  { intros a s (x & y & ->)%contains_true. apply contains_true. exists (a ++ x), y. by rewrite <- app_assoc. }
  destruct H as [|t l s Ht Hb Hl H|p w u w' l s Hw Hp Hw' H|p w w1 u w' yes y w2 w3 l s Hw Hw1 Hw1n Hp Hw' Hy Hw2 Hw3 H|p w w1 u w' yes y w4 w5 no n w2 w3 l s Hw Hw1 Hw1n Hp Hw' Hy Hw4 Hw5 Hn Hw2 Hw3 H].
  - right. split; [by apply not_elem_of_nil|by left].
  - pose proof (spells_opens l s H Hl) as Hos. destruct (Ho s Hos) as [Hs| ->]; [left; by apply Happ|]. right. rewrite app_nil_r. split; [done|]. right.
    destruct l as [|x l]; [done|]. exfalso. destruct x as [u|p|p yes no]; [by destruct (Hl u l)| |]; inversion H; discriminate.
  - left. unfold action. rewrite <- !app_assoc. apply contains_true. by eexists [], _.
  - left. unfold action. rewrite <- !app_assoc. apply contains_true. by eexists [], _.
  - left. unfold action. rewrite <- !app_assoc. apply contains_true. by eexists [], _.
Qed.
Lemma brace_of e : contains e (str "{{") = true -> contains e (str "{") = true.
Proof. intros (a & b & ->)%contains_true. apply contains_true. exists a, (str "{" ++ b). done. Qed.
(** The index of an object under a template is what the template writes for its document, up to the first error. *)
Theorem C73_template JE P E k l ns e t b : k_data k = JObj l -> spells ns e -> writes JE (JObj l) ns t b ->
  index_value (index_env JE P E) (OKube k) e = t.
Proof.
  intros Hk Hs Hw. pose proof (writes_ok JE P (e_print E) (JObj l) ns t b Hw) as Hx. destruct (spells_plain ns e Hs) as [Hc|(Hn & Hns)].
  - unfold index_value. rewrite (brace_of e Hc). cbn [index_env path_env e_eval path_eval tmpl_env tmpl_eval]. rewrite Hc, (parse_spelled ns e Hs), Hk, json_map_obj. by rewrite Hx.
  - assert (index_value (index_env JE P E) (OKube k) e = e) as ->.
    { unfold index_value. destruct (contains e (str "{")) eqn:E1; [|done]. apply contains_true in E1 as (x & y & ->). destruct Hn. apply elem_of_app. right. by left. }
    destruct Hns as [[-> ->]| ->].
    + by inversion Hw.
    + unfold exec_nodes in Hx. cbn [run_all exec_node] in Hx. rewrite app_nil_r in Hx. congruence.
Qed.
Print Assumptions C73_template.

(** ** Documents *)
(** Members of a concatenation whose parts do not share the key. *)
Lemma denotes_left (a b : list (gostr * json)) k v : k ∉ b.*1 -> denotes (a ++ b) k v <-> denotes a k v.
Proof.
  intros Hk. split.
  - intros (x & y & E0 & Hy). apply app_eq_inv in E0 as [(z & E1 & E2)|(z & E1 & E2)].
    + destruct z as [|[k1 v1] z]; cbn [app] in E2; [exfalso; apply Hk; rewrite <- E2; by left|]. injection E2 as -> -> ->. exists x, z. split; [done|]. intros Hz. apply Hy. rewrite fmap_app. apply elem_of_app. by left.
    + exfalso. apply Hk. rewrite E2, fmap_app. apply elem_of_app. right. by left.
  - intros (x & y & -> & Hy). exists x, (y ++ b). split; [by rewrite <- app_assoc|]. rewrite fmap_app, elem_of_app. tauto.
Qed.
Lemma denotes_right (a b : list (gostr * json)) k v : k ∉ a.*1 -> denotes (a ++ b) k v <-> denotes b k v.
Proof.
  intros Hk. split.
  - intros (x & y & E0 & Hy). symmetry in E0. apply app_eq_inv in E0 as [(z & E1 & E2)|(z & E1 & E2)].
    + exists z, y. by subst.
    + destruct z as [|[k1 v1] z]; cbn [app] in E2; [exists [], y; by subst|]. injection E2 as <- <- E2. exfalso. apply Hk. rewrite E1, fmap_app. apply elem_of_app. right. by left.
  - intros (x & y & -> & Hy). exists (a ++ x), y. split; [by rewrite <- app_assoc|done].
Qed.
Lemma denotes_filter (l : list (gostr * json)) k v : k ∉ reserved -> denotes (filter (fun kv : gostr * json => kv.1 ∉ reserved) l) k v <-> denotes l k v.
Proof.
  intros Hk. split.
  - induction l as [|[k0 v0] l IH]; [done|]. rewrite filter_cons. destruct (decide _) as [Hd|Hd].
    + intros (x & y & E0 & Hy). destruct x as [|x0 x]; cbn [app] in E0.
      * injection E0 as -> -> <-. exists [], l. split; [done|]. intros ([k' v'] & -> & Hin)%elem_of_list_fmap. apply Hy. apply elem_of_list_fmap. exists (k', v'). split; [done|]. by apply elem_of_list_filter.
      * injection E0 as <- E0. destruct IH as (x' & y' & -> & Hy'); [by exists x, y|]. by exists ((k0, v0) :: x'), y'.
    + intros H. destruct (IH H) as (x' & y' & -> & Hy'). by exists ((k0, v0) :: x'), y'.
  - intros (x & y & -> & Hy). exists (filter (fun kv : gostr * json => kv.1 ∉ reserved) x), (filter (fun kv : gostr * json => kv.1 ∉ reserved) y). split.
    + rewrite filter_app, filter_cons_True by done. done.
    + intros ([k' v'] & -> & Hin)%elem_of_list_fmap. apply elem_of_list_filter in Hin as [_ Hin]. apply Hy. apply elem_of_list_fmap. by exists (k', v').
Qed.
Lemma iface_kept JE s l o : lawful JE -> json_parse s = Some (JObj l) -> decode_obj JE s = Ok o ->
  iface JE (JObj (t_data o ++ match head_json o with JObj l => l | _ => [] end)) = iface JE (kept l o).
Proof.
  intros HJ Hp Hd. unfold kept. set (h := match head_json o with JObj l => l | _ => [] end).
  destruct (C45_members JE s l o Hp Hd) as [Hm _]. pose proof (C45_reserved JE s o Hd) as Hres. apply json_parse_parsed in Hp as [Hpar _].
  assert (value JE (JObj (t_data o))) as Hval.
  { destruct (decode_map_value JE HJ s) as [Hv _]. unfold decode_obj in Hd. destruct (str_member (str "apiVersion") _); [|done]. destruct (str_member (str "kind") _); [|done].
    match type of Hd with Ok ?x = Ok ?y => assert (x = y) as <- by congruence end. cbn [t_data]. by repeat apply value_del. }
  assert (NoDup (t_data o).*1) as Hnd by (inversion Hval as [| | | | |m Hs HF]; subst; by apply sorted_nodup).
  set (l' := filter (fun kv : gostr * json => kv.1 ∉ reserved) l).
  assert (forall k, k ∈ reserved -> k ∉ l'.*1) as Hl'. { intros k Hk ([k' v'] & -> & Hin)%elem_of_list_fmap. apply elem_of_list_filter in Hin as [Hin _]. by apply Hin. }
  assert (forall k w, (exists j, denotes (t_data o ++ h) k j /\ w = iface JE j) <-> exists j, denotes (l' ++ h) k j /\ w = iface JE j) as Hiff.
  { intros k w. destruct (decide (k ∈ reserved)) as [Hk|Hk].
    - split; intros (j & Hj & ->); exists j; (split; [|done]).
      + apply denotes_right; [by apply Hl'|]. apply denotes_right in Hj; [done|by apply Hres].
      + apply denotes_right; [by apply Hres|]. apply denotes_right in Hj; [done|by apply Hl'].
    - assert (k ∉ h.*1) as Hh by (by apply head_keys). split.
      + intros (j & Hj & ->). apply denotes_left in Hj; [|done]. apply get_denotes, Hm in Hj as (j' & Hj' & ->); [|done|done]. exists j'. split; [apply denotes_left; [done|]; exact (proj2 (denotes_filter l k j' Hk) Hj')|].
        apply iface_value. apply parsed_value; [done|]. by eapply parsed_member.
      + intros (j & Hj & ->). apply denotes_left in Hj; [|done]. apply (proj1 (denotes_filter l k j Hk)) in Hj. exists (iface JE j). split; [|symmetry; apply iface_value; apply parsed_value; [done|]; by eapply parsed_member].
        apply denotes_left; [done|]. apply get_denotes; [done|]. apply Hm; [done|]. by exists j. }
  rewrite !iface_obj. f_equal.
  destruct (iface_members_obj JE (t_data o ++ h)) as (m1 & E1 & H1). destruct (iface_members_obj JE (l' ++ h)) as (m2 & E2 & H2).
  rewrite iface_obj in E1, E2. assert (forall a b, JObj a = JObj b -> a = b) as Hinj by (intros; congruence). apply Hinj in E1, E2.
  assert (StronglySorted key_lt m1) as S1 by (rewrite <- E1; apply puts_sorted; constructor). assert (StronglySorted key_lt m2) as S2 by (rewrite <- E2; apply puts_sorted; constructor).
  rewrite E1, E2. apply perm_elem; [done|done|]. intros [k w].
  assert (forall m : list (gostr * json), StronglySorted key_lt m -> (k, w) ∈ m <-> get k m = Some w) as Hg.
  { intros m Hm'. split; [|apply get_elem]. intros Hin. apply get_denotes; [by apply sorted_nodup|]. apply elem_of_list_split in Hin as (x & y & ->). exists x, y. split; [done|].
    apply sorted_nodup in Hm'. rewrite fmap_app in Hm'. apply NoDup_app in Hm' as (_ & _ & Hm'). by apply NoDup_cons in Hm' as [? _]. }
  rewrite !Hg by done. rewrite H1, H2. apply Hiff.
Qed.
(** For a custom object: what the template writes for the document it was decoded from. *)
Theorem C73_document JE P E s l o ns e t b : lawful JE -> json_parse s = Some (JObj l) -> decode_obj JE s = Ok o ->
  spells ns e -> writes JE (kept l o) ns t b -> index_value (index_env JE P E) (to_obj o) e = t.
Proof.
  intros HJ Hp Hd Hs Hw. pose proof (iface_kept JE s l o HJ Hp Hd) as Hi.
  pose proof (writes_ok JE P (e_print E) _ ns t b Hw) as Hx. destruct (spells_plain ns e Hs) as [Hc|(Hn & Hns)].
  - unfold index_value. rewrite (brace_of e Hc). unfold to_obj. cbn [index_env path_env e_eval path_eval tmpl_env tmpl_eval k_data]. rewrite Hc, (parse_spelled ns e Hs), json_map_obj, Hi. by rewrite Hx.
  - assert (index_value (index_env JE P E) (to_obj o) e = e) as ->.
    { unfold index_value. destruct (contains e (str "{")) eqn:E1; [|done]. apply contains_true in E1 as (x & y & ->). destruct Hn. apply elem_of_app. right. by left. }
    destruct Hns as [[-> ->]| ->].
    + by inversion Hw.
    + unfold exec_nodes in Hx. cbn [run_all exec_node] in Hx. rewrite app_nil_r in Hx. congruence.
Qed.
Print Assumptions C73_document.

(** ** The forms in use *)
Lemma kept_member l o x p v : x ∉ reserved -> at_path (JObj l) (x :: p) v -> at_path (kept l o) (x :: p) v.
Proof.
  intros Hx H. inversion H as [|l' k' v' p' w' Hd Hw]; subst. unfold kept. econstructor; [|exact Hw]. apply denotes_left; [by apply head_keys|]. exact (proj2 (denotes_filter l x v' Hx) Hd).
Qed.
Lemma kept_look JE l o x p v : x ∉ reserved -> look JE (JObj l) (x :: p) v -> look JE (kept l o) (x :: p) v.
Proof.
  intros Hx [w Hw Hv|Hn|p1 k p2 l' E Hl Hk].
  - apply look_found; [by apply kept_member|done].
  - apply look_null. by apply kept_member.
  - destruct p1 as [|x1 p1]; cbn [app] in E.
    + injection E as -> ->. assert (l' = l) as -> by (by inversion Hl). eapply (look_none _ _ _ [] k p2); [done|constructor|].
      rewrite fmap_app, elem_of_app. intros [Hin|Hin]; [|by apply (head_keys o k Hx)].
      apply Hk. apply elem_of_list_fmap in Hin as ([k' v'] & -> & Hin). apply elem_of_list_filter in Hin as [_ Hin]. apply elem_of_list_fmap. by exists (k', v').
    + injection E as -> ->. eapply (look_none _ _ _ (x1 :: p1) k p2); [done| |done]. by apply kept_member.
Qed.
Lemma kept_meta l o p v : at_path (meta_json (t_meta o)) p v -> at_path (kept l o) (str "metadata" :: p) v.
Proof.
  intros H. unfold kept, head_json. econstructor; [|exact H].
  destruct (members_some [(str "kind", ne_str (t_kind o)); (str "apiVersion", ne_str (t_api o)); (str "metadata", Some (meta_json (t_meta o)))] (str "metadata") (meta_json (t_meta o))) as (a & b & -> & Hb).
  - apply (bool_decide_eq_true_1 _). vm_compute. reflexivity.
  - right. right. by left.
  - eexists (_ ++ a), b. split; [by rewrite app_assoc|done].
Qed.
(** A string of the metadata is there unless it is empty. *)
Lemma meta_look JE l o k s : (k, ne_str s) ∈ meta_fields (t_meta o) -> look JE (kept l o) [str "metadata"; k] (match s with [] => None | _ => Some (JStr s) end).
Proof.
  intros Hin. destruct s as [|c s].
  - eapply (look_none _ _ _ [str "metadata"] k []); [done|apply kept_meta; constructor|]. eapply members_none; [apply meta_keys|exact Hin].
  - apply look_found; [|done]. apply kept_meta. econstructor; [apply members_some; [apply meta_keys|exact Hin]|constructor].
Qed.
Lemma one_pipe p w u w' : blanks w -> spells_pipe p u -> blanks w' -> spells [NPipe p] (action w u w').
Proof. intros H1 H2 H3. rewrite <- (app_nil_r (action w u w')). apply sp_pipe; [done|done|done|constructor]. Qed.
Lemma one_value JE j p v t : yields JE j p v -> displays JE v t -> writes JE j [NPipe p] t true.
Proof. intros H1 H2. rewrite <- (app_nil_r t). eapply wr_value; [done|done|constructor]. Qed.
Lemma space_blank : blanks (str " ").
Proof. apply Forall_cons_2; [by left|constructor]. Qed.
Lemma displays_text JE s : displays JE (Some (JStr s)) s.
Proof. apply di_some; [done|]. apply sh_scalar; [done|constructor]. Qed.

Section forms.
  Context (JE : jenv) (P : jpenv) (E : env) (s : gostr) (l : list (gostr * json)) (o : objtype).
  Context (HJ : lawful JE) (Hp : json_parse s = Some (JObj l)) (Hd : decode_obj JE s = Ok o).
  Context (x : gostr) (p : list gostr) (Hx : x ∉ reserved) (Hi : Forall ident (x :: p)).
  Let F := TField (x :: p).
  Let val e := index_value (index_env JE P E) (to_obj o) e.
  Lemma field_arg : good_arg F. Proof using Hi. by split. Qed.
  Lemma spells_field : spells_pipe (CArg F, []) (arg_text F).
  Proof using Hi. exists (arg_text F), []. split; [by rewrite app_nil_r|]. split; [constructor; apply field_arg|constructor]. Qed.
  Lemma spells_then f a u : spells_args a u -> spells_pipe (CArg F, [(f, a)]) (arg_text F ++ str " | " ++ fn_name f ++ u).
  Proof using Hi.
    intros H. exists (arg_text F), (str " | " ++ fn_name f ++ u). split; [done|]. split; [constructor; apply field_arg|].
    rewrite <- (app_nil_r u) at 1. rewrite (app_assoc (fn_name f) u []). apply (sl_cons (str " ") (str " ") f a u [] []); [apply space_blank|apply space_blank|done|constructor].
  Qed.
  Lemma forms_field : (forall v t, at_path (JObj l) (x :: p) v -> v <> JNull -> shown JE v t -> val (str "{{" ++ arg_text F ++ str "}}") = t) /\
    (look JE (JObj l) (x :: p) None -> val (str "{{" ++ arg_text F ++ str "}}") = str "<no value>").
  Proof using HJ Hp Hd Hx Hi.
    assert (spells [NPipe (CArg F, [])] (str "{{" ++ arg_text F ++ str "}}")) as Hs by (apply (one_pipe _ [] (arg_text F) []); [constructor|apply spells_field|constructor]).
    assert (forall v t, look JE (JObj l) (x :: p) v -> displays JE v t -> val (str "{{" ++ arg_text F ++ str "}}") = t) as H.
    { intros v t Hv Ht. eapply C73_document; [done|done|done|exact Hs|]. eapply one_value; [|exact Ht]. exists v. split; [constructor; constructor; by apply kept_look|constructor]. }
    split.
    - intros v t Hv Hsc Ht. apply (H (Some v)); [|by apply di_some]. apply look_found; [done|]. destruct v as [|b|n|y|a|m]; try done. cbn [valued]. inversion Ht as [|u z Hsc' Hsh| |]; subst. inversion Hsh; congruence.
    - intros Hv. apply (H None); [done|constructor].
  Qed.
  Lemma forms_default d : quotable d -> let e := str "{{ " ++ arg_text F ++ str " | default " ++ dq1 ++ d ++ dq1 ++ str "}}" in
    (look JE (JObj l) (x :: p) None -> val e = d) /\
    (forall y, at_path (JObj l) (x :: p) (JStr y) -> val e = y) /\
    (forall n t, at_path (JObj l) (x :: p) (JNum n) -> shows JE (JNum n) t -> val e = str "%!s(float64=" ++ t ++ str ")").
  Proof using HJ Hp Hd Hx Hi.
    intros Hq e. assert (spells [NPipe (CArg F, [(FDefault, [TConst d])])] e) as Hs.
    { replace e with (action (str " ") (arg_text F ++ str " | " ++ fn_name FDefault ++ (str " " ++ dq1 ++ d ++ dq1)) []) by (unfold e, action; rewrite <- !app_assoc; reflexivity).
      apply one_pipe; [apply space_blank| |constructor]. apply spells_then. rewrite <- (app_nil_r (str " " ++ _)), <- app_assoc. apply (sa_cons (str " ") (TConst d) [] []); [apply space_blank|done|done|constructor]. }
    assert (forall v t, look JE (JObj l) (x :: p) v -> result JE FDefault [Some (JStr d); v] t -> val e = t) as H.
    { intros v t Hv Ht. eapply C73_document; [done|done|done|exact Hs|]. eapply one_value; [|apply displays_text].
      exists v. split; [constructor; constructor; by apply kept_look|]. eapply go_next; [|constructor]. apply (ap _ _ _ _ _ [Some (JStr d)]); [|exact Ht]. repeat constructor. }
    split; [|split].
    - intros Hv. apply (H None); [done|constructor].
    - intros y Hy. apply (H (Some (JStr y))); [by apply look_found|]. constructor. by constructor.
    - intros n t Hn Ht. apply (H (Some (JNum n))); [apply look_found; [done|]; cbn [valued]; inversion Ht; congruence|]. apply re_given. exact (fm_num JE (str "s") n t Ht).
  Qed.
  Lemma forms_quote : let e := str "{{ " ++ arg_text F ++ str " | quote }}" in
    (forall y, at_path (JObj l) (x :: p) (JStr y) -> Forall plain y -> val e = dq1 ++ y ++ dq1) /\
    (look JE (JObj l) (x :: p) None -> val e = str "%!q(<nil>)").
  Proof using HJ Hp Hd Hx Hi.
    intros e. assert (spells [NPipe (CArg F, [(FQuote, [])])] e) as Hs.
    { replace e with (action (str " ") (arg_text F ++ str " | " ++ fn_name FQuote ++ []) (str " ")) by (unfold e, action; rewrite <- !app_assoc; reflexivity).
      apply one_pipe; [apply space_blank| |apply space_blank]. apply spells_then. constructor. }
    assert (forall v t, look JE (JObj l) (x :: p) v -> result JE FQuote [v] t -> val e = t) as H.
    { intros v t Hv Ht. eapply C73_document; [done|done|done|exact Hs|]. eapply one_value; [|apply displays_text].
      exists v. split; [constructor; constructor; by apply kept_look|]. eapply go_next; [|constructor]. apply (ap _ _ _ _ _ []); [|exact Ht]. constructor. }
    split.
    - intros y Hy Hpl. apply (H (Some (JStr y))); [by apply look_found|]. constructor. by constructor.
    - intros Hv. apply (H None); [done|constructor].
  Qed.
End forms.
(** {{.x.y}}: the text of the field; without it, or when it is null, the words "<no value>". *)
Theorem C73_field JE P E s l o x p : lawful JE -> json_parse s = Some (JObj l) -> decode_obj JE s = Ok o -> x ∉ reserved -> Forall ident (x :: p) ->
  let e := str "{{" ++ arg_text (TField (x :: p)) ++ str "}}" in
  (forall v t, at_path (JObj l) (x :: p) v -> v <> JNull -> shown JE v t -> index_value (index_env JE P E) (to_obj o) e = t) /\
  (look JE (JObj l) (x :: p) None -> index_value (index_env JE P E) (to_obj o) e = str "<no value>").
Proof. intros. by eapply forms_field. Qed.
Print Assumptions C73_field.
(** {{ .x.y | default "d"}}: d only when there is no value; a string as it is, but a number as fmt reports a verb
    of the wrong type. *)
Theorem C73_default JE P E s l o x p d : lawful JE -> json_parse s = Some (JObj l) -> decode_obj JE s = Ok o -> x ∉ reserved -> Forall ident (x :: p) -> quotable d ->
  let e := str "{{ " ++ arg_text (TField (x :: p)) ++ str " | default " ++ dq1 ++ d ++ dq1 ++ str "}}" in
  (look JE (JObj l) (x :: p) None -> index_value (index_env JE P E) (to_obj o) e = d) /\
  (forall y, at_path (JObj l) (x :: p) (JStr y) -> index_value (index_env JE P E) (to_obj o) e = y) /\
  (forall n t, at_path (JObj l) (x :: p) (JNum n) -> shows JE (JNum n) t -> index_value (index_env JE P E) (to_obj o) e = str "%!s(float64=" ++ t ++ str ")").
Proof. intros. by eapply forms_default. Qed.
Print Assumptions C73_default.
(** {{ .x.y | quote }} *)
Theorem C73_quote JE P E s l o x p : lawful JE -> json_parse s = Some (JObj l) -> decode_obj JE s = Ok o -> x ∉ reserved -> Forall ident (x :: p) ->
  let e := str "{{ " ++ arg_text (TField (x :: p)) ++ str " | quote }}" in
  (forall y, at_path (JObj l) (x :: p) (JStr y) -> Forall plain y -> index_value (index_env JE P E) (to_obj o) e = dq1 ++ y ++ dq1) /\
  (look JE (JObj l) (x :: p) None -> index_value (index_env JE P E) (to_obj o) e = str "%!q(<nil>)").
Proof. intros. by eapply forms_quote. Qed.
Print Assumptions C73_quote.

Lemma ident_str (w : string) : forallb (fun c => (97 <=? N_of_ascii c)%N && (N_of_ascii c <=? 122)%N || (65 <=? N_of_ascii c)%N && (N_of_ascii c <=? 90)%N) (str w) = true -> str w <> [] -> ident (str w).
Proof.
  intros H Hne. rewrite forallb_forall in H. assert (Forall first_char (str w)) as HF.
  { apply Forall_forall. intros c Hc. apply elem_of_list_In, H in Hc. rewrite orb_true_iff, !andb_true_iff, !N.leb_le in Hc. unfold first_char. lia. }
  destruct (str w) as [|c r]; [done|]. apply Forall_cons in HF as [H1 H2]. split; [done|]. eapply Forall_impl; [exact H2|]. intros x Hx. by left.
Qed.
Ltac idents := repeat (apply Forall_cons_2; [apply ident_str; [vm_compute; reflexivity|discriminate]|]); constructor.
(** The expression of store/memory/memory_test.go:876: "Deleting" for an object that is being deleted, else its phase. *)
Definition phase_expr : gostr := str "{{if .metadata.deletionTimestamp }}Deleting{{else}}{{.status.phase}}{{end}}".
Definition phase_nodes : list tnode :=
  [NIf (CArg (TField [str "metadata"; str "deletionTimestamp"]), []) [NText (str "Deleting")] [NPipe (CArg (TField [str "status"; str "phase"]), [])]].
Lemma phase_spelled : spells phase_nodes phase_expr.
Proof.
  change phase_expr with (action [] (str "if" ++ str " " ++ str ".metadata.deletionTimestamp") (str " ") ++ str "Deleting" ++ action [] (str "else") [] ++ action [] (str ".status.phase") [] ++ action [] (str "end") [] ++ []).
  apply sp_if_else; [constructor|apply space_blank|discriminate| |apply space_blank| |constructor|constructor| |constructor|constructor|constructor].
  - exists (str ".metadata.deletionTimestamp"), []. split; [reflexivity|]. split; [|constructor]. apply (sc_arg (TField [str "metadata"; str "deletionTimestamp"])). split; [done|]. idents.
  - rewrite <- (app_nil_r (str "Deleting")). apply sp_text; [discriminate| |intros u m; discriminate|constructor].
    change (str "Deleting") with ["D";"e";"l";"e";"t";"i";"n";"g"]%char. rewrite !not_elem_of_cons. repeat (split; [discriminate|]). apply not_elem_of_nil.
  - apply one_pipe; [constructor| |constructor]. exists (str ".status.phase"), []. split; [reflexivity|]. split; [|constructor].
    apply (sc_arg (TField [str "status"; str "phase"])). split; [done|]. idents.
Qed.
Theorem C73_phase JE P E s l o : lawful JE -> json_parse s = Some (JObj l) -> decode_obj JE s = Ok o ->
  let v := index_value (index_env JE P E) (to_obj o) phase_expr in
  (forall t, me_deleted (t_meta o) = Some (Some t) -> t <> [] -> v = str "Deleting") /\
  (me_deleted (t_meta o) = None -> (forall ph, at_path (JObj l) [str "status"; str "phase"] (JStr ph) -> v = ph) /\
     (look JE (JObj l) [str "status"; str "phase"] None -> v = str "<no value>") /\
     (stuck (JObj l) [str "status"; str "phase"] -> v = [])).
Proof.
  intros HJ Hp Hd v. assert (str "status" ∉ reserved) as Hst by (unfold reserved; rewrite !elem_of_cons, elem_of_nil; intuition discriminate).
  assert (forall t b, writes JE (kept l o) phase_nodes t b -> v = t) as Hv.
  { intros t b Hw. unfold v. eapply C73_document; [done|done|done|apply phase_spelled|exact Hw]. }
  assert (forall x, (str "deletionTimestamp", x) ∈ meta_fields (t_meta o) <-> x = time_json <$> me_deleted (t_meta o)) as Hf.
  { intros x. split; [|intros ->; unfold meta_fields; rewrite !elem_of_cons; tauto]. unfold meta_fields. rewrite !elem_of_cons, elem_of_nil. intros H.
    repeat (destruct H as [H|H]; [apply pair_equal_spec in H as [H1 H2]; try discriminate H1; done|]). done. }
  split.
  - intros t Ht Hne. apply (Hv _ true). change (str "Deleting") with (str "Deleting" ++ []). eapply wr_branch; [|left; split; [|reflexivity]| |constructor].
    + exists (Some (JStr t)). split; [|constructor]. constructor. constructor. apply look_found; [|done]. apply kept_meta. econstructor; [apply members_some; [apply meta_keys|]|constructor].
      apply Hf. by rewrite Ht.
    + exact Hne.
    + change (str "Deleting") with (str "Deleting" ++ []). constructor. constructor.
  - intros Hno. assert (look JE (kept l o) [str "metadata"; str "deletionTimestamp"] None) as Hl.
    { eapply (look_none _ _ _ [str "metadata"] _ []); [done|apply kept_meta; constructor|]. eapply members_none; [apply meta_keys|]. apply Hf. by rewrite Hno. }
    assert (yields JE (kept l o) (CArg (TField [str "metadata"; str "deletionTimestamp"]), []) None) as Hy.
    { exists None. split; [|constructor]. constructor. by constructor. }
    assert (forall x t, look JE (JObj l) [str "status"; str "phase"] x -> displays JE x t -> v = t) as Hx.
    { intros x t Hlx Hdx. apply (Hv _ true). rewrite <- (app_nil_r t). eapply wr_branch; [exact Hy|right; split; [by intros []|reflexivity]| |constructor].
      eapply one_value; [|exact Hdx]. exists x. split; [|constructor]. constructor. constructor. by apply kept_look. }
    split; [|split].
    + intros ph Hph. apply (Hx (Some (JStr ph))); [by apply look_found|apply displays_text].
    + intros Hn. by apply (Hx None); [|constructor].
    + intros (p1 & k & p2 & w & Ep & Hw & Hno'). apply (Hv _ false). eapply wr_branch_error; [exact Hy|right; split; [by intros []|reflexivity]|].
      apply wr_error. left. destruct p1 as [|x1 p1]; [by inversion Hw; subst; destruct (Hno' l)|]. exists (x1 :: p1), k, p2, w. split; [done|]. split; [|done].
      cbn [app] in Ep. apply kept_member; [|done]. assert (x1 = str "status") as -> by congruence. done.
Qed.
Print Assumptions C73_phase.

(** The expression of memory_test.go:879: namespace/name; an object without a namespace has an empty index. *)
Definition path_expr : gostr := str "{{ join ""/"" .metadata.namespace .metadata.name }}".
Definition path_nodes : list tnode :=
  [NPipe (CCall FJoin [TConst (str "/"); TField [str "metadata"; str "namespace"]; TField [str "metadata"; str "name"]], [])].
Lemma path_spelled : spells path_nodes path_expr.
Proof.
  change path_expr with (action (str " ") (str "join" ++ (str " " ++ (dq1 ++ str "/" ++ dq1) ++ str " " ++ str ".metadata.namespace" ++ str " " ++ str ".metadata.name" ++ [])) (str " ")).
  apply one_pipe; [apply space_blank| |apply space_blank]. eexists _, []. split; [symmetry; apply app_nil_r|]. split; [|constructor]. apply (sc_call FJoin).
  apply (sa_cons (str " ") (TConst (str "/"))); [apply space_blank|discriminate| |].
  { apply Forall_cons_2; [|constructor]. split; [by vm_compute|]. change (N_of_ascii "/") with 47%N. rewrite !elem_of_cons, elem_of_nil. intuition discriminate. }
  apply (sa_cons (str " ") (TField [str "metadata"; str "namespace"])); [apply space_blank|discriminate|split; [done|]; idents|].
  apply (sa_cons (str " ") (TField [str "metadata"; str "name"])); [apply space_blank|discriminate|split; [done|]; idents|]. constructor.
Qed.
Theorem C73_join JE P E s l o : lawful JE -> json_parse s = Some (JObj l) -> decode_obj JE s = Ok o ->
  let m := t_meta o in
  index_value (index_env JE P E) (to_obj o) path_expr =
    if decide (me_namespace m = [] \/ me_name m = []) then [] else me_namespace m ++ str "/" ++ me_name m.
Proof.
  intros HJ Hp Hd m.
  assert (forall k x, (k, ne_str x) ∈ meta_fields m -> operand JE (kept l o) (TField [str "metadata"; k]) (match x with [] => None | _ => Some (JStr x) end)) as Hop.
  { intros k x H. constructor. by apply meta_look. }
  pose proof (Hop (str "namespace") (me_namespace m) ltac:(unfold meta_fields; rewrite !elem_of_cons; tauto)) as H1.
  pose proof (Hop (str "name") (me_name m) ltac:(unfold meta_fields; rewrite !elem_of_cons; tauto)) as H2.
  destruct (decide _) as [Hno|Hyes].
  - eapply C73_document; [done|done|done|apply path_spelled|]. apply wr_error. left. right. eexists. split; [apply Forall2_cons; split; [constructor|]; apply Forall2_cons; split; [exact H1|]; apply Forall2_cons; split; [exact H2|constructor]|].
    right. destruct Hno as [Hno|Hno]; rewrite Hno in *.
    + apply Exists_cons_tl, Exists_cons_hd. by intros (y & [=]).
    + apply Exists_cons_tl, Exists_cons_tl, Exists_cons_hd. by intros (y & [=]).
  - eapply C73_document; [done|done|done|apply path_spelled|]. eapply one_value; [|apply displays_text].
    assert (me_namespace m <> [] /\ me_name m <> []) as [N1 N2] by tauto.
    eexists. split; [|constructor]. constructor.
    apply (ap _ _ _ _ _ [Some (JStr (str "/")); Some (JStr (me_namespace m)); Some (JStr (me_name m))]).
    + apply Forall2_cons; split; [constructor|]. apply Forall2_cons; split; [by destruct (me_namespace m)|]. apply Forall2_cons; split; [by destruct (me_name m)|constructor].
    + exact (re_join JE (str "/") [me_namespace m; me_name m]).
Qed.
Print Assumptions C73_join.

(** ** From the events of a watch to the index and the search *)
(** The index of a cached custom object under any configured expression is that of the last document sent for its
    name. *)
Lemma cached_expr (E : env) (JE : jenv) (cd : codec) (ws : list (gvr * gostr)) (conf : gmap gvr (gmap gostr gostr)) (tr : list wlabel) (w : wsys) (i : nat) (g : gvr) (c kind : gostr) (evs : list raw_event) (idx : gmap gostr gostr) (key e n' n s : gostr) (o : objtype) :
  caught_up E JE cd ws conf tr w i g c evs -> proper g -> cd_known cd (g.1.1, g.1.2, kind) = false ->
  Forall (about g kind) evs -> Forall (readable g kind) evs -> conf !! g = Some idx -> idx !! key = Some e -> key ∉ own_keys ->
  last_text JE (take (seen i tr) evs) n' n s -> decode_obj JE s = Ok o ->
  exists en, lookup_entry (ws_store w) g c n' n = Some en /\ en_index en !! key = Some (index_value E (to_obj o) e).
Proof.
  intros Hc Hp Hk Ha Hr Hi Hkey Hown (b & ev & a & o0 & Ee & Ht & Es & Hd & Hn & Hlast) Ho. assert (o0 = o) as -> by congruence.
  assert (last_sent JE (take (seen i tr) evs) n' n o) as Hls by (exists b, ev, a; by rewrite Es).
  pose proof (cache_entry E JE cd ws conf tr w i g c kind evs n' n Hc Hp Hk Ha Hr) as Hce.
  destruct (lookup_entry (ws_store w) g c n' n) as [en|]; [|by destruct (Hce o)]. destruct Hce as (o' & Ho' & ->). rewrite (last_sent_fun _ _ _ _ _ _ Ho' Hls).
  eexists. split; [reflexivity|]. rewrite Hi. cbn [default]. unfold own_keys in Hown. rewrite !not_elem_of_cons in Hown.
  destruct Hown as (N1 & N2 & N3 & N4 & _). unfold to_obj in *. cbn [build snd en_index].
  rewrite !lookup_insert_ne by congruence. unfold index_base. rewrite lookup_fmap. change (id idx) with idx. rewrite Hkey. done.
Qed.
Theorem C73_cache JE P E cd ws conf tr w i g c kind evs idx key ns e n' n s l o t b : lawful JE ->
  caught_up (index_env JE P E) JE cd ws conf tr w i g c evs -> proper g -> cd_known cd (g.1.1, g.1.2, kind) = false ->
  Forall (about g kind) evs -> Forall (readable g kind) evs ->
  conf !! g = Some idx -> idx !! key = Some e -> key ∉ own_keys -> spells ns e ->
  last_text JE (take (seen i tr) evs) n' n s -> json_parse s = Some (JObj l) -> decode_obj JE s = Ok o -> writes JE (kept l o) ns t b ->
  exists en, lookup_entry (ws_store w) g c n' n = Some en /\ en_index en !! key = Some t.
Proof.
  intros HJ Hc Hp Hk Ha Hr Hi Hkey Hown Hs Hls Hj Hd Hw. destruct (cached_expr _ JE cd ws conf tr w i g c kind evs idx key e n' n s o Hc Hp Hk Ha Hr Hi Hkey Hown Hls Hd) as (en & Hl & Hx).
  exists en. split; [done|]. rewrite Hx. f_equal. by eapply C73_document.
Qed.
Print Assumptions C73_cache.
(** A search part key=value on such an index. *)
Theorem C73_search JE P E cd ws conf tr w i g c kind evs idx key nodes ex ns page size total sort part value r : lawful JE ->
  caught_up (index_env JE P E) JE cd ws conf tr w i g c evs -> proper g -> cd_known cd (g.1.1, g.1.2, kind) = false ->
  Forall (about g kind) evs -> Forall (readable g kind) evs ->
  conf !! g = Some idx -> idx !! key = Some ex -> key ∉ own_keys -> spells nodes ex ->
  trim_space part = key ++ str "=" ++ value -> key <> [] -> "="%char ∉ key -> (forall sel, trim_space part <> adv_prefix ++ sel) ->
  query (index_env JE P E) (ws_store w) g ns (Paginate page size total sort (join_parts [part])) (Ok r) -> q_err r = false ->
  (1 <= page)%Z -> (1 <= size)%Z -> (page * size < 2 ^ 63)%Z ->
  exists ks es, NoDup ks /\ Forall2 (fun x e => in_scope (ws_store w) g ns x e) ks es /\
    q_total r = Z.of_nat (length es) /\ q_items r = map en_obj (take (Z.to_nat size) (drop (Z.to_nat ((page - 1) * size)) es)) /\
    forall n' n, ns = [] \/ ns = n' ->
      ((forall s, ~ last_text JE (take (seen i tr) evs) n' n s) -> (c, n', n) ∉ ks) /\
      (forall s l o t b, last_text JE (take (seen i tr) evs) n' n s -> json_parse s = Some (JObj l) -> decode_obj JE s = Ok o -> writes JE (kept l o) nodes t b ->
         (c, n', n) ∈ ks <-> wants (e_print E) value t).
Proof.
  intros HJ Hc Hp Hk Ha Hr Hi Hkey Hown Hsp Htr Hne Heq Hadv Hq He H1 H2 H3.
  destruct (C20_total_and_page _ _ _ _ _ _ _ _ _ _ Hq He H1 H2 H3) as (ks & es & (Hnd & HF & Hcm) & Ht & _ & Hit).
  exists ks, es. split; [done|]. split; [eapply Forall2_impl; [exact HF|]; by intros x e [? _]|]. split; [done|]. split; [done|].
  assert (part <> []) as Hpne. { intros ->. change (trim_space []) with ([] : gostr) in Htr. destruct key; discriminate Htr. }
  intros n' n Hns. split.
  - intros Hno Hin. apply elem_of_list_lookup in Hin as (j & Hj). destruct (Forall2_lookup_l _ _ _ _ _ HF Hj) as (e & _ & [Hlk _] & _). cbn [fst snd] in Hlk.
    pose proof (cache_entry _ JE cd ws conf tr w i g c kind evs n' n Hc Hp Hk Ha Hr) as Hce. rewrite Hlk in Hce. destruct Hce as (o & (b & ev & a & Hls) & _).
    apply (Hno (re_text ev)). exists b, ev, a, o. destruct Hls as (? & ? & ? & ? & ?). split_and!; done.
  - intros s l o t b Hls Hj Hd Hw. destruct (C73_cache JE P E cd ws conf tr w i g c kind evs idx key nodes ex n' n s l o t b) as (e & Hlk & Hidx); try done.
    assert (entry_match (index_env JE P E) (join_parts [part]) e = Some true <-> wants (e_print E) value t) as Hm.
    { unfold entry_match. rewrite match_alone by done. pose proof (C04_key_search (e_print E) (en_index e) (map snd (map_to_list (en_index e))) part key value (reflexivity _) Htr Hne Heq Hadv) as Hks.
      rewrite Hidx in Hks. destruct Hks as (bb & Hb & Hww). unfold match_one. change (e_print (index_env JE P E)) with (e_print E). rewrite Hb, <- Hww. by destruct bb; split; intros; congruence. }
    rewrite <- Hm. split.
    + intros Hin. apply elem_of_list_lookup in Hin as (j & Hj'). destruct (Forall2_lookup_l _ _ _ _ _ HF Hj') as (e' & _ & [Hlk' _] & Hme). cbn [fst snd] in Hlk'. rewrite Hlk in Hlk'. congruence.
    + intros Hme. apply (Hcm (c, n', n) e); [|done]. split; [exact Hlk|]. cbn [fst snd]. destruct Hns; auto.
Qed.
Print Assumptions C73_search.

(** ** Examples *)
Definition ex_tenv : env := index_env ex_jenv ex_jp ex_env.
Definition t_json : json :=
  JObj [(str "spec", JObj [(str "replicas", JNum (str "3")); (str "ports", JArr [JNum (str "80"); JStr (str "b")]); (str "none", JNull)]);
        (str "status", JObj [(str "phase", JStr (str "Running"))]);
        (str "metadata", JObj [(str "name", JStr (str "a")); (str "namespace", JStr (str "n"))])].
(** The expressions of memory_test.go:876-879 and others. *)
Example C73_ex_values :
  map (fun e => index_value ex_tenv (OKube (ex_kobj t_json)) (str e))
    ["{{if .metadata.deletionTimestamp }}Deleting{{else}}{{.status.phase}}{{end}}"; "{{ .spec.none | default ""no spec""}}"; "{{ .status.phase | quote }}";
     "{{ join ""/"" .metadata.namespace .metadata.name }}"; "{{.spec.replicas}}"; "{{.spec.ports}}"; "{{.spec}}"; "{{ .spec.replicas | default ""1"" }}"; "{{.spec.x}}";
     "a{{.status.phase}}b{{.status.phase.x}}c"; "{.status.phase}"; "text"; "{{ .x | default ""d"" | quote}}"]%string
  = map str ["Running"; "no spec"; """Running"""; "n/a"; "3"; "[80 b]"; "map[none:<nil> ports:[80 b] replicas:3]"; "%!s(float64=3)"; "<no value>";
     "aRunningb"; "Running"; "text"; """d"""]%string.
Proof. vm_compute. reflexivity. Qed.
(** A document that is written with an error: the text before it is the index. *)
Example C73_ex_template : spells [NText (str "a"); NPipe (CArg (TField [str "status"; str "phase"; str "x"]), []); NText (str "c")] (str "a{{.status.phase.x}}c") /\
  writes ex_jenv t_json [NText (str "a"); NPipe (CArg (TField [str "status"; str "phase"; str "x"]), []); NText (str "c")] (str "a") false.
Proof.
  split.
  - change (str "a{{.status.phase.x}}c") with (str "a" ++ action [] (str ".status.phase.x") [] ++ str "c" ++ []).
    apply sp_text; [discriminate|by apply not_elem_of_cons; split; [discriminate|apply not_elem_of_nil]|intros u m; discriminate|]. apply sp_pipe; [constructor| |constructor|].
    + exists (str ".status.phase.x"), []. split; [reflexivity|]. split; [|constructor]. apply (sc_arg (TField [str "status"; str "phase"; str "x"])). split; [done|]. idents.
    + apply sp_text; [discriminate|by apply not_elem_of_cons; split; [discriminate|apply not_elem_of_nil]|intros u m; discriminate|constructor].
  - change (str "a") with (str "a" ++ []). apply wr_text. apply wr_error. left. exists [str "status"; str "phase"], (str "x"), [], (JStr (str "Running")). split; [done|]. split; [|intros l; discriminate].
    unfold t_json. eapply at_get; [nodup_keys|reflexivity|]. eapply at_get; [nodup_keys|reflexivity|constructor].
Qed.
(** The watch of C71 with a template as index. *)
Definition xt_expr : gostr := str "{{.x}}".
Definition xt_nodes : list tnode := [NPipe (CArg (TField [str "x"]), [])].
Lemma xt_spelled : spells xt_nodes xt_expr.
Proof.
  apply (one_pipe _ [] (str ".x") []); [constructor| |constructor]. exists (str ".x"), []. split; [reflexivity|]. split; [|constructor]. apply (sc_arg (TField [str "x"])). split; [done|]. idents.
Qed.
Definition xt_conf : gmap gvr (gmap gostr gostr) := {[ sidecars := {[ str "x" := xt_expr ]} ]}.
Definition xt_ok (w : wsys) : bool :=
  quiet w && match query_with ex_tenv false (ws_store w) sidecars [] (pg 1 10 "" "x=1") with
             | Ok r => negb (q_err r) && (q_total r =? 1)%Z | Panics => false end.
Lemma xt_run : exists w, wruns ex_tenv [(sidecars, c1)] (wstart [(sidecars, c1)] xt_conf) sc_trace w /\ xt_ok w = true.
Proof. apply exec_some. vm_compute. reflexivity. Qed.
Example C73_ex_search : exists w r, caught_up ex_tenv ex_jenv ex_cd [(sidecars, c1)] xt_conf sc_trace w 0 sidecars c1 sc_evs /\
  xt_conf !! sidecars = Some {[ str "x" := xt_expr ]} /\ spells xt_nodes xt_expr /\
  query ex_tenv (ws_store w) sidecars [] (pg 1 10 "" "x=1") (Ok r) /\ q_err r = false /\ q_total r = 1%Z /\
  (exists s l o, last_text ex_jenv (take (seen 0 sc_trace) sc_evs) [] (str "b") s /\ json_parse s = Some (JObj l) /\ decode_obj ex_jenv s = Ok o /\ writes ex_jenv (kept l o) xt_nodes (str "1") true).
Proof.
  destruct xt_run as (w & Hr & Hok). exists w. unfold xt_ok in Hok. apply andb_true_iff in Hok as [Hq Hres].
  pose proof (query_with_ok ex_tenv false (ws_store w) sidecars [] (pg 1 10 "" "x=1")) as Hqw. revert Hqw Hres. generalize (query_with ex_tenv false (ws_store w) sidecars [] (pg 1 10 "" "x=1")).
  intros [r|] Hqw Hres; [|discriminate Hres]. apply andb_true_iff in Hres as [He Ht]. apply negb_true_iff in He. apply Z.eqb_eq in Ht. exists r.
  split.
  { split; [exact Hr|]. split; [apply only_alone|]. split; [rewrite sc_latest; discriminate|]. split; [intros f x; by apply quiet_ok|].
    rewrite sc_latest, (deliver_readable ex_jenv ex_cd sidecars (str "Sidecar") sc_evs sidecars_proper eq_refl (proj1 sc_about) (proj2 sc_about)). by apply prefix_app_r. }
  split; [apply lookup_singleton|]. split; [apply xt_spelled|]. split; [exact Hqw|]. split; [exact He|]. split; [exact Ht|].
  destruct (decode_obj ex_jenv (ex_doc "networking.istio.io/v1alpha3" "Sidecar" "b")) as [o|] eqn:Eo; [|vm_compute in Eo; discriminate Eo].
  exists (ex_doc "networking.istio.io/v1alpha3" "Sidecar" "b"), (ex_fields "networking.istio.io/v1alpha3" "Sidecar" "b"), o. split; [|split; [vm_compute; reflexivity|split; [exact Eo|]]].
  - assert (match decode_obj ex_jenv (ex_doc "networking.istio.io/v1alpha3" "Sidecar" "b") with Ok o => (me_namespace (t_meta o), me_name (t_meta o)) | Panics => ([], []) end = ([], str "b")) as Hf by (vm_compute; reflexivity).
    rewrite Eo in Hf.
    exists [ex_ev "ADDED" "networking.istio.io/v1alpha3" "Sidecar" "a"], (ex_ev "ADDED" "networking.istio.io/v1alpha3" "Sidecar" "b"), [ex_ev "DELETED" "networking.istio.io/v1alpha3" "Sidecar" "a"], o.
    split; [reflexivity|]. split; [by left|]. split; [reflexivity|]. split; [exact Eo|]. split; [exact Hf|].
    intros e' o' He' _ Ho. apply elem_of_list_singleton in He' as ->. cbn [re_text ex_ev] in Ho.
    assert (match decode_obj ex_jenv (ex_doc "networking.istio.io/v1alpha3" "Sidecar" "a") with Ok o => str_eqb (me_name (t_meta o)) (str "b") | Panics => false end = false) as Hn by (vm_compute; reflexivity).
    rewrite Ho in Hn. apply str_eqb_neq in Hn. intros Heq. apply Hn. by apply pair_equal_spec in Heq as [_ ?].
  - eapply one_value; [|apply (di_some _ (JNum (str "1"))); [done|apply sh_scalar; [done|apply (shows_int _ (str "1") 1); [vm_compute; reflexivity|lia]]]].
    eexists. split; [|constructor]. constructor. constructor. apply look_found; [|cbn [valued]; vm_compute; discriminate].
    apply kept_member; [unfold reserved; rewrite !elem_of_cons, elem_of_nil; intuition discriminate|]. unfold ex_fields. eapply at_get; [nodup_keys|reflexivity|constructor].
Qed.

(** ** What a user would expect and is false *)
Definition tfound (st : store) (q : string) (n : Z) : bool :=
  match query_with ex_tenv false st sidecars [] (pg 1 10 "" q) with Ok r => negb (q_err r) && (q_total r =? n)%Z | Panics => false end.
Lemma found_ok st q n : tfound st q n = true -> exists r, query ex_tenv st sidecars [] (pg 1 10 "" q) (Ok r) /\ q_err r = false /\ q_total r = n.
Proof.
  unfold tfound. pose proof (query_with_ok ex_tenv false st sidecars [] (pg 1 10 "" q)) as Hq. revert Hq. generalize (query_with ex_tenv false st sidecars [] (pg 1 10 "" q)).
  intros [r|] Hq H; [|discriminate H]. apply andb_true_iff in H as [He Ht]. exists r. split; [exact Hq|]. split; [by apply negb_true_iff|by apply Z.eqb_eq].
Qed.
(** A search by a field finds only objects that have it: an object without it is found by the word "value". *)
Definition bare_doc : gostr := str "{""metadata"":{""name"":""a""}}".
Theorem C73_absent_refuted : exists JE P E s l o conf g c st, lawful JE /\ json_parse s = Some (JObj l) /\ str "x" ∉ l.*1 /\ decode_obj JE s = Ok o /\
  conf !! g = Some ({[ str "x" := str "{{.x}}" ]} : gmap gostr gostr) /\ run_calls (index_env JE P E) (new_store conf) [CAdd g c (to_obj o)] = Ok st /\
  exists r, query (index_env JE P E) st g [] (pg 1 10 "" "x=value") (Ok r) /\ q_err r = false /\ q_total r = 1%Z.
Proof.
  assert (exists l, json_parse bare_doc = Some (JObj l) /\ str "x" ∉ l.*1) as (l & Hl & Hd).
  { eexists. split; [vm_compute; reflexivity|]. cbn [fmap list_fmap fst]. intros [H|H]%elem_of_cons; [discriminate H|by apply elem_of_nil in H]. }
  assert (match decode_obj ex_jenv bare_doc with Ok o => match run_calls ex_tenv (new_store xt_conf) [CAdd sidecars c1 (to_obj o)] with Ok st => tfound st "x=value" 1 | Panics => false end | Panics => false end = true) as H by (vm_compute; reflexivity).
  destruct (decode_obj ex_jenv bare_doc) as [o|] eqn:Eo; [|discriminate H].
  destruct (run_calls ex_tenv (new_store xt_conf) [CAdd sidecars c1 (to_obj o)]) as [st|] eqn:Est; [|discriminate H].
  exists ex_jenv, ex_jp, ex_env, bare_doc, l, o, xt_conf, sidecars, c1, st. split; [apply ex_lawful|]. split; [exact Hl|]. split; [exact Hd|]. split; [exact Eo|].
  split; [apply lookup_singleton|]. split; [exact Est|]. by apply found_ok.
Qed.
Print Assumptions C73_absent_refuted.
(** default leaves a value that is there as it is: the number 3 cannot be found by a search for exactly 3. *)
Definition three_doc : gostr := str "{""metadata"":{""name"":""a""},""x"":3}".
Definition def_conf : gmap gvr (gmap gostr gostr) := {[ sidecars := {[ str "x" := str "{{ .x | default ""1""}}" ]} ]}.
Theorem C73_default_refuted : exists JE P E s l o conf g c st, lawful JE /\ json_parse s = Some (JObj l) /\ denotes l (str "x") (JNum (str "3")) /\ decode_obj JE s = Ok o /\
  conf !! g = Some ({[ str "x" := str "{{ .x | default ""1""}}" ]} : gmap gostr gostr) /\ run_calls (index_env JE P E) (new_store conf) [CAdd g c (to_obj o)] = Ok st /\
  (exists r, query (index_env JE P E) st g [] (pg 1 10 "" "x=""3""") (Ok r) /\ q_err r = false /\ q_total r = 0%Z) /\
  (exists r, query (index_env JE P E) st g [] (pg 1 10 "" "x=float64") (Ok r) /\ q_err r = false /\ q_total r = 1%Z).
Proof.
  assert (exists l, json_parse three_doc = Some (JObj l) /\ denotes l (str "x") (JNum (str "3"))) as (l & Hl & Hd).
  { eexists. split; [vm_compute; reflexivity|]. eexists [_], []. split; [reflexivity|]. intros H. by apply elem_of_nil in H. }
  assert (match decode_obj ex_jenv three_doc with Ok o => match run_calls ex_tenv (new_store def_conf) [CAdd sidecars c1 (to_obj o)] with Ok st => tfound st "x=""3""" 0 && tfound st "x=float64" 1 | Panics => false end | Panics => false end = true) as H by (vm_compute; reflexivity).
  destruct (decode_obj ex_jenv three_doc) as [o|] eqn:Eo; [|discriminate H].
  destruct (run_calls ex_tenv (new_store def_conf) [CAdd sidecars c1 (to_obj o)]) as [st|] eqn:Est; [|discriminate H].
  exists ex_jenv, ex_jp, ex_env, three_doc, l, o, def_conf, sidecars, c1, st. split; [apply ex_lawful|]. split; [exact Hl|]. split; [exact Hd|]. split; [exact Eo|].
  split; [apply lookup_singleton|]. split; [exact Est|]. apply andb_true_iff in H as [H1 H2]. split; by apply found_ok.
Qed.
Print Assumptions C73_default_refuted.
