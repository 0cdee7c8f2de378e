(** C71: what the configured index expressions give, from the text of a document to the search that finds it. *)
From Coq Require Import Ascii String NArith ZArith Lia.
From stdpp Require Import base gmap strings list sorting.
From Verif Require Import ModelStr ModelSort ModelLabels ModelPage ModelJson ModelJsonText ModelQuery ModelStore ModelUrl ModelProxy ModelServer ModelObjType ModelFake ModelWatcher ModelCodec ModelPath
  SpecLabels SpecPage SpecStore SpecProxy SpecServer SpecWatcher SpecObjType SpecCodec SpecPath
  SpecList ProofsStr ProofsJson ProofsJsonText ProofsJsonParse ProofsStore ProofsWatcher ProofsObjType ProofsCodec ProofsPage ProofsListing ProofsPath PropsSearch PropsStore PropsObjType PropsWatcher PropsCodec.

Lemma path_index JE P E k expr ps : contains expr (str "{") = true -> contains expr (str "{{") = false -> jp_parse expr = Some ps ->
  index_value (path_env JE P E) (OKube k) expr = jp_exec P ps (json_map JE (k_data k)).
Proof. intros H1 H2 H3. unfold index_value. rewrite H1. cbn [path_env e_eval path_eval]. by rewrite H2, H3. Qed.
Lemma exec_one P l root : jp_exec P [PPath l] root = match find_path l [root] with Some vs => join (str " ") (map (value_text P) vs) | None => [] end.
Proof. unfold jp_exec. cbn [mapM find_part]. destruct (find_path l [root]) as [vs|]; [|done]. cbn. by rewrite app_nil_r. Qed.
Lemma field_expr_brace p : contains (field_expr p) (str "{") = true.
Proof. apply (has_brace []). Qed.
Lemma parse_field p : p <> [] -> Forall good_name p -> jp_parse (field_expr p) = Some [PPath (map SField p)].
Proof.
  intros H1 H2. unfold jp_parse. rewrite <- (app_nil_r (field_expr p)). rewrite go_field by done. done.
Qed.
Lemma field_no_template' p : p <> [] -> Forall good_name p -> contains (field_expr p) (str "{{") = false.
Proof. intros H1 H2. rewrite <- (app_nil_r (field_expr p)). by rewrite field_no_template. Qed.
Lemma find_one p root : find_path (map SField p) [root] = Some (along p root).
Proof. rewrite find_fields. cbn [map]. by rewrite mjoin_cons', app_nil_r. Qed.
Lemma field_value JE P E k p : p <> [] -> Forall good_name p ->
  index_value (path_env JE P E) (OKube k) (field_expr p) = join (str " ") (map (value_text P) (along p (iface JE (k_data k)))).
Proof.
  intros H1 H2. rewrite (path_index JE P E k _ [PPath (map SField p)]) by (apply field_expr_brace || by apply field_no_template' || by apply parse_field).
  rewrite exec_one, find_one. by rewrite along_map.
Qed.
(** {.a.b.c}: the text of the member that the path leads to, and nothing when there is none. *)
Theorem C71_field JE P E k p t : p <> [] -> Forall good_name p -> field_text JE (k_data k) p t ->
  index_value (path_env JE P E) (OKube k) (field_expr p) = t.
Proof.
  intros H1 H2 Ht. rewrite field_value by done. destruct Ht as [v t Hv Ht|Hm].
  - rewrite (along_found _ _ _ _ Hv). cbn [map join]. by apply shows_ok.
  - by rewrite (along_missing _ _ _ Hm).
Qed.
Print Assumptions C71_field.

Lemma find_app l l' root : find_path (map SField l ++ l') [root] = find_path l' (along l root).
Proof.
  transitivity (find_path l' (mjoin (map (along l) [root]))); [|cbn [map]; by rewrite mjoin_cons', app_nil_r].
  generalize [root] as vs. clear root. induction l as [|f l IH]; intros vs.
  - cbn [map app]. f_equal. pose proof (find_fields [] vs) as H. cbn [map find_path] in H. by injection H.
  - pose proof (find_fields (f :: l) vs) as H. cbn [map app find_path] in *. rewrite IH. f_equal. rewrite find_fields in H. by injection H.
Qed.
(** {.a.b[*].c}: the texts of c in the elements of the array that have it, separated by spaces; nothing when
    there is no array. *)
Theorem C71_items JE P E k p q : p <> [] -> Forall good_name p -> Forall good_name q ->
  (forall vs ts, at_path (k_data k) p (JArr vs) -> gathers JE q vs ts ->
     index_value (path_env JE P E) (OKube k) (items_expr p q) = join (str " ") ts) /\
  ((forall vs, ~ at_path (k_data k) p (JArr vs)) -> index_value (path_env JE P E) (OKube k) (items_expr p q) = []).
Proof.
  intros Hne Hp Hq.
  assert (index_value (path_env JE P E) (OKube k) (items_expr p q) =
    match mapM items_of (along p (iface JE (k_data k))) with Some vss => join (str " ") (map (value_text P) (mjoin (map (along q) (mjoin vss)))) | None => [] end) as ->.
  { rewrite (path_index JE P E k _ [PPath (map SField p ++ SAll :: map SField q)]); [|apply (has_brace [])|rewrite <- (app_nil_r (items_expr p q)); by rewrite items_no_template|by apply parse_items].
    rewrite exec_one, find_app, along_map by done. cbn [find_path]. destruct (mapM items_of _) as [vss|]; [|done]. by rewrite find_fields. }
  split.
  - intros vs ts Hv Hg. rewrite (along_found _ _ _ _ Hv). cbn [iface mapM items_of]. cbn. rewrite app_nil_r. by rewrite (gathers_ok JE P q vs ts Hg).
  - intros Hno. destruct (path_dec JE (k_data k) p) as [[v Hv]|Hm].
    + rewrite (along_found _ _ _ _ Hv). destruct v as [|b|l|s|l|l]; try done.
      * cbn [iface]. by destruct (je_norm JE l).
      * by destruct (Hno l).
    + by rewrite (along_missing _ _ _ Hm).
Qed.
Print Assumptions C71_items.

(** Text, fields and arrays one after the other: the texts one after the other, unless [*] is applied to what is
    there and no array, which leaves nothing of the whole. *)
Definition steps_of (x : piece) : list step := match x with Lit _ => [] | Fld p => map SField p | All p q => map SField p ++ SAll :: map SField q end.
Definition part_of (x : piece) : part := match x with Lit t => PText t | _ => PPath (steps_of x) end.
Lemma go_piece t x s : good_piece x -> (forall u, x <> Lit u) ->
  jp_go (InText t) (piece_expr x ++ s) = cons_text (rev t) <$> (cons (PPath (steps_of x)) <$> jp_go (InText []) s).
Proof. intros Hx Hn. destruct x as [u|p|p q]; [by destruct (Hn u)|apply go_field; apply Hx|apply go_items; apply Hx]. Qed.
Lemma part_fails JE P k x : good_piece x -> (find_part P (json_map JE (k_data k)) (part_of x) = None <-> piece_fails JE (k_data k) x).
Proof.
  intros Hx. destruct x as [u|p|p q]; cbn [part_of find_part steps_of piece_fails]; [by split|rewrite find_one; by split|].
  rewrite find_app, along_map by apply Hx. cbn [find_path]. destruct (path_dec JE (k_data k) p) as [[v Hv]|Hm].
  - rewrite (along_found _ _ _ _ Hv). cbn [mapM].
    assert (forall w, at_path (k_data k) p w -> iface JE w = iface JE v) as Hu.
    { intros w Hw. pose proof (along_found JE _ _ _ Hv) as E1. rewrite (along_found JE _ _ _ Hw) in E1. congruence. }
    assert (no_array JE v <-> items_of (iface JE v) = None) as Hiff.
    { unfold no_array. destruct v as [| |s| | |]; cbn [iface items_of]; try (by split). destruct (je_norm JE s) as [l'|]; cbn; [by split|by split; [intros []|]]. }
    assert (forall w, no_array JE w -> items_of (iface JE w) = None) as Hna.
    { intros w. unfold no_array. destruct w as [| |s| | |]; cbn [iface items_of]; try done. destruct (je_norm JE s) as [l'|]; [done|by intros []]. }
    destruct (items_of (iface JE v)) as [vs|] eqn:Ei; cbn.
    + rewrite find_fields. split; [done|]. intros (w & Hw & Hn). apply Hna in Hn. rewrite (Hu _ Hw) in Hn. congruence.
    + split; [|done]. intros _. exists v. split; [done|by apply Hiff].
  - rewrite (along_missing _ _ _ Hm). cbn. rewrite find_fields. split; [done|]. intros (w & Hw & _). by destruct (Hm w).
Qed.
Lemma raw_index E o t : "{"%char ∉ t -> index_value E o t = t.
Proof. intros Ht. unfold index_value. destruct (contains t (str "{")) eqn:E1; [|done]. apply contains_true in E1 as (a & b & ->). destruct Ht. apply elem_of_app. right. by left. Qed.
Lemma piece_brace x : good_piece x -> (forall u, x <> Lit u) -> exists s, piece_expr x = str "{" ++ s.
Proof. intros _ Hn. destruct x as [u|p|p q]; [by destruct (Hn u)|by eexists|by eexists]. Qed.
Lemma piece_no_template x s : good_piece x -> contains (piece_expr x ++ s) (str "{{") = contains s (str "{{").
Proof. intros Hx. destruct x as [u|p|p q]; cbn [piece_expr]; [by apply contains_plain|apply field_no_template; apply Hx|apply items_no_template; apply Hx]. Qed.
Lemma piece_index JE P E k x : good_piece x ->
  index_value (path_env JE P E) (OKube k) (piece_expr x) = default [] (find_part P (json_map JE (k_data k)) (part_of x)).
Proof.
  intros Hx. assert ((exists u, x = Lit u) \/ forall u, x <> Lit u) as [[u ->]|Hn] by (destruct x; [left; eauto|by right..]).
  { cbn. by apply raw_index. }
  rewrite (path_index JE P E k _ [PPath (steps_of x)]).
  - rewrite exec_one. destruct x; [by destruct (Hn t)|by cbn [part_of find_part]; destruct (find_path _ _)..].
  - destruct (piece_brace x Hx Hn) as [s ->]. apply (has_brace []).
  - rewrite <- (app_nil_r (piece_expr x)). by rewrite piece_no_template.
  - unfold jp_parse. rewrite <- (app_nil_r (piece_expr x)). by rewrite go_piece.
Qed.
Lemma pieces_go P root xs : Forall good_piece xs -> forall t, exists qs, jp_go (InText t) (mjoin (map piece_expr xs)) = Some qs /\
  (mapM (find_part P root) qs = None <-> mapM (find_part P root) (map part_of xs) = None) /\
  forall ts, mapM (find_part P root) (map part_of xs) = Some ts -> exists us, mapM (find_part P root) qs = Some us /\ mjoin us = rev t ++ mjoin ts.
Proof.
  induction 1 as [|x xs Hx H IH]; intros t.
  - cbn [map]. change (mjoin []) with ([] : gostr). cbn [jp_go mapM]. exists (cons_text (rev t) []). split; [done|].
    destruct (rev t) as [|c u]; cbn [cons_text]; (split; [by split|]); intros ts [= <-].
    + by exists [].
    + exists [c :: u]. split; [done|]. done.
  - cbn [map]. rewrite mjoin_cons'. assert ((exists u, x = Lit u) \/ forall u, x <> Lit u) as [[u ->]|Hn] by (destruct x; [left; eauto|by right..]).
    + cbn [piece_expr part_of]. rewrite go_text by done. destruct (IH (rev u ++ t)) as (qs & E1 & E2 & E3). exists qs. split; [done|]. cbn [mapM].
      change (find_part P root (PText u)) with (Some u). split.
      * rewrite E2. cbn. destruct (mapM (find_part P root) (map part_of xs)); cbn; by split.
      * intros ts Hts. cbn in Hts. destruct (mapM (find_part P root) (map part_of xs)) as [ts'|]; [|done]. injection Hts as <-. destruct (E3 _ eq_refl) as (us & Eu1 & Eu2).
        exists us. split; [done|]. rewrite Eu2, mjoin_cons', rev_app_distr, rev_involutive, <- app_assoc. done.
    + rewrite go_piece by done. destruct (IH []) as (qs & -> & E2 & E3). cbn [fmap option_fmap option_map].
      assert (part_of x = PPath (steps_of x)) as Ep by (destruct x; [by destruct (Hn t0)|done..]). rewrite Ep. eexists. split; [reflexivity|].
      destruct (rev t) as [|c u] eqn:Er; cbn [cons_text mapM].
      * destruct (find_part P root (PPath (steps_of x))) as [a|]; [|by split]. cbn. split.
        { destruct (mapM (find_part P root) qs), (mapM (find_part P root) (map part_of xs)); cbn; naive_solver. }
        intros ts Hts. destruct (mapM (find_part P root) (map part_of xs)) as [ts'|]; [|done]. cbn in Hts. injection Hts as <-. destruct (E3 _ eq_refl) as (us & -> & Eu).
        exists (a :: us). split; [done|]. rewrite !mjoin_cons', Eu. done.
      * change (find_part P root (PText (c :: u))) with (Some (c :: u)).
        destruct (find_part P root (PPath (steps_of x))) as [a|]; [|by split]. cbn [mbind option_bind]. split.
        { destruct (mapM (find_part P root) qs), (mapM (find_part P root) (map part_of xs)); cbn; naive_solver. }
        intros ts Hts. destruct (mapM (find_part P root) (map part_of xs)) as [ts'|]; [|done]. cbn in Hts. injection Hts as <-. destruct (E3 _ eq_refl) as (us & -> & Eu).
        exists ((c :: u) :: a :: us). split; [done|]. rewrite !mjoin_cons', Eu. done.
Qed.
Lemma pieces_index JE P E k xs : Forall good_piece xs -> index_value (path_env JE P E) (OKube k) (mjoin (map piece_expr xs)) =
  match mapM (find_part P (json_map JE (k_data k))) (map part_of xs) with Some ts => mjoin ts | None => [] end.
Proof.
  intros H. assert (contains (mjoin (map piece_expr xs)) (str "{{") = false) as Hnt.
  { clear -H. induction H as [|x xs Hx H IH]; [done|]. cbn [map]. by rewrite mjoin_cons', piece_no_template. }
  destruct (contains (mjoin (map piece_expr xs)) (str "{")) eqn:Hb.
  - destruct (pieces_go P (json_map JE (k_data k)) xs H []) as (qs & E1 & E2 & E3). rewrite (path_index JE P E k _ qs) by done. unfold jp_exec.
    destruct (mapM _ (map part_of xs)) as [ts|].
    + destruct (E3 _ eq_refl) as (us & -> & ->). done.
    + by rewrite (proj2 E2 eq_refl).
  - assert (forall x, x ∈ xs -> exists t, x = Lit t) as Hl.
    { intros x Hx. assert ((exists u, x = Lit u) \/ forall u, x <> Lit u) as [?|Hn] by (destruct x; [left; eauto|by right..]); [done|].
      exfalso. rewrite Forall_forall in H. pose proof (H x Hx) as Hg. apply elem_of_list_split in Hx as (l1 & l2 & ->). destruct (piece_brace x Hg Hn) as [s Es].
      rewrite map_app, mjoin_app' in Hb. cbn [map] in Hb. rewrite mjoin_cons', Es, <- app_assoc, has_brace in Hb. done. }
    unfold index_value. rewrite Hb.
    assert (mapM (find_part P (json_map JE (k_data k))) (map part_of xs) = Some (map piece_expr xs)) as ->; [|done].
    clear -Hl. induction xs as [|x xs IH]; [done|]. destruct (Hl x) as [t ->]; [left|]. cbn [map mapM part_of piece_expr]. rewrite IH; [done|]. intros y Hy. apply Hl. by right.
Qed.
Theorem C71_pieces JE P E k xs : Forall good_piece xs -> (forall x, x ∈ xs -> ~ piece_fails JE (k_data k) x) ->
  index_value (path_env JE P E) (OKube k) (mjoin (map piece_expr xs)) = mjoin (map (fun x => index_value (path_env JE P E) (OKube k) (piece_expr x)) xs).
Proof.
  intros H Hf. rewrite pieces_index by done.
  assert (mapM (find_part P (json_map JE (k_data k))) (map part_of xs) = Some (map (fun x => index_value (path_env JE P E) (OKube k) (piece_expr x)) xs)) as ->; [|done].
  induction H as [|x xs Hx H IH]; [done|]. cbn [map mapM]. rewrite piece_index by done.
  destruct (find_part P (json_map JE (k_data k)) (part_of x)) as [t|] eqn:Et; [|exfalso; apply (Hf x); [left|by apply (part_fails JE P k x Hx)]].
  rewrite IH; [done|]. intros y Hy. apply Hf. by right.
Qed.
Print Assumptions C71_pieces.
Theorem C71_pieces_error JE P E k xs x : Forall good_piece xs -> x ∈ xs -> piece_fails JE (k_data k) x ->
  index_value (path_env JE P E) (OKube k) (mjoin (map piece_expr xs)) = [].
Proof.
  intros H Hx Hf. rewrite pieces_index by done. rewrite (proj2 (mapM_None (find_part P (json_map JE (k_data k))) (map part_of xs))); [done|].
  apply Exists_exists. exists (part_of x). split; [apply elem_of_list_In, in_map; by apply elem_of_list_In|]. apply part_fails; [|done]. rewrite Forall_forall in H. by apply H.
Qed.
Print Assumptions C71_pieces_error.

(** ** Documents *)
Lemma parsed_member l k v : parsed (JObj l) -> denotes l k v -> parsed v.
Proof.
  intros H (l1 & l2 & -> & _). inversion H as [| | | | |l' HF]; subst. rewrite Forall_forall in HF. apply (HF (k, v)). apply elem_of_app. right. by left.
Qed.
Lemma value_del JE k l : value JE (JObj l) -> value JE (JObj (del k l)).
Proof.
  intros H. inversion H as [| | | | |m Hs HF]; subst. constructor; [by apply del_sorted|]. apply Forall_forall. intros x [Hx _]%del_elem. rewrite Forall_forall in HF. by apply HF.
Qed.
Lemma head_keys o k : k ∉ reserved -> k ∉ (match head_json o with JObj l => l | _ => [] end).*1.
Proof.
  intros Hk ([k' v] & -> & Hin)%elem_of_list_fmap. unfold head_json in Hin. apply members_elem in Hin. apply Hk. unfold reserved. rewrite !elem_of_cons. rewrite !elem_of_cons, elem_of_nil in Hin. cbn [fst].
  destruct Hin as [H|[H|[H|[]]]]; apply (f_equal fst) in H; cbn [fst] in H; subst; tauto.
Qed.
(** A member outside metadata of a custom object: the text is that of the document it was decoded from. *)
Theorem C71_document JE P E s l o k p t : lawful JE -> json_parse s = Some (JObj l) -> decode_obj JE s = Ok o ->
  k ∉ reserved -> Forall good_name (k :: p) -> field_text JE (JObj l) (k :: p) t ->
  index_value (path_env JE P E) (to_obj o) (field_expr (k :: p)) = t.
Proof.
  intros HJ Hp Hd Hk Hg Ht. unfold to_obj. rewrite field_value by done. cbn [k_data]. set (h := match head_json o with JObj l => l | _ => [] end).
  destruct (C45_members JE s l o Hp Hd) as [Hm _]. apply json_parse_parsed in Hp as [Hpar _].
  assert (value JE (JObj (t_data o))) as Hval.
  { destruct (decode_map_value JE HJ s) as [Hv _]. unfold decode_obj in Hd. destruct (str_member (str "apiVersion") _); [|done]. destruct (str_member (str "kind") _); [|done].
    match type of Hd with Ok ?x = Ok ?y => assert (x = y) as <- by congruence end. cbn [t_data]. by repeat apply value_del. }
  assert (along (k :: p) (iface JE (JObj (t_data o ++ h))) = along (k :: p) (iface JE (JObj l))) as ->.
  { rewrite !along_cons. destruct (iface_members_obj JE (t_data o ++ h)) as (m1 & -> & H1). destruct (iface_members_obj JE l) as (m2 & -> & H2). cbn [field_of].
    assert (get k m1 = get k m2) as ->; [|done]. 
    assert (forall w, get k m1 = Some w <-> get k m2 = Some w) as Hiff.
    { intros w. rewrite H1, H2. assert (NoDup (t_data o).*1) as Hnd by (inversion Hval as [| | | | |m Hs HF]; subst; by apply sorted_nodup).
      assert (forall v, denotes (t_data o ++ h) k v <-> get k (t_data o) = Some v) as Hden.
      { intros v. rewrite <- get_denotes by done. split.
        - intros (a & b & E0 & Hb). assert (k ∉ h.*1) as Hh by (by apply head_keys). apply app_eq_inv in E0 as [(z & E1 & E2)|(z & E1 & E2)].
          + destruct z as [|[k1 v1] z]; cbn [app] in E2.
            * exfalso. apply Hh. rewrite <- E2. by left.
            * injection E2 as -> -> ->. exists a, z. split; [done|]. intros Hz. apply Hb. rewrite fmap_app. apply elem_of_app. by left.
          + exfalso. apply Hh. rewrite E2, fmap_app. apply elem_of_app. right. by left.
        - intros (a & b & E0 & Hb). exists a, (b ++ h). split; [by rewrite E0, <- app_assoc|]. rewrite fmap_app, elem_of_app. intros [?|?]; [done|]. by eapply head_keys. }
      split.
      - intros (j & Hj & ->). apply Hden, Hm in Hj as (j' & Hj' & ->); [|done]. exists j'. split; [done|]. apply iface_value. apply parsed_value; [done|]. by eapply parsed_member.
      - intros (j & Hj & ->). exists (iface JE j). split; [apply Hden, Hm; [done|]; by exists j|]. symmetry. apply iface_value. apply parsed_value; [done|]. by eapply parsed_member. }
    destruct (get k m1) as [w|]; [symmetry; by apply Hiff|]. destruct (get k m2) as [w|]; [|done]. by apply Hiff. }
  destruct Ht as [v t Hv Ht|Hmi].
  - rewrite (along_found _ _ _ _ Hv). cbn [map join]. by apply shows_ok.
  - by rewrite (along_missing _ _ _ Hmi).
Qed.
Print Assumptions C71_document.

(** ** Metadata *)
Lemma members_some fs k v : NoDup fs.*1 -> (k, Some v) ∈ fs -> denotes (members fs) k v.
Proof.
  intros Hnd Hin. apply elem_of_list_split in Hin as (a & b & ->). exists (members a), (members b). split.
  - unfold members. rewrite flat_map_app. done.
  - rewrite fmap_app in Hnd. apply NoDup_app in Hnd as (_ & _ & Hnd). cbn in Hnd. apply NoDup_cons in Hnd as [Hk _].
    intros ([k' v'] & -> & Hin)%elem_of_list_fmap. apply members_elem in Hin. apply Hk. apply elem_of_list_fmap. by exists (k', Some v').
Qed.
Lemma members_none fs k : NoDup fs.*1 -> (k, None) ∈ fs -> k ∉ (members fs).*1.
Proof.
  intros Hnd Hin ([k' v'] & -> & Hin')%elem_of_list_fmap. apply members_elem in Hin'. cbn [fst] in Hin.
  apply elem_of_list_split in Hin as (a & b & ->). rewrite fmap_app in Hnd. cbn in Hnd. apply NoDup_app in Hnd as (_ & Hd & Hnd). apply NoDup_cons in Hnd as [Hk _].
  apply elem_of_app in Hin' as [Hin|[[=]|Hin]%elem_of_cons].
  - apply (Hd k'); [|by left]. apply elem_of_list_fmap. by exists (k', Some v').
  - apply Hk. apply elem_of_list_fmap. by exists (k', Some v').
Qed.
Lemma meta_keys m : NoDup (meta_fields m).*1.
Proof. apply (bool_decide_eq_true_1 _). vm_compute. reflexivity. Qed.
Lemma meta_at o : denotes (t_data o ++ match head_json o with JObj l => l | _ => [] end) (str "metadata") (meta_json (t_meta o)).
Proof.
  unfold head_json. destruct (members_some [(str "kind", ne_str (t_kind o)); (str "apiVersion", ne_str (t_api o)); (str "metadata", Some (meta_json (t_meta o)))] (str "metadata") (meta_json (t_meta o))) as (a & b & -> & Hb).
  - apply (bool_decide_eq_true_1 _). vm_compute. reflexivity.
  - right. right. by left.
  - exists (t_data o ++ a), b. split; [by rewrite app_assoc|done].
Qed.
Lemma meta_text JE P E o k q t : good_name k -> Forall good_name q ->
  field_text JE (meta_json (t_meta o)) (k :: q) t -> index_value (path_env JE P E) (to_obj o) (field_expr (str "metadata" :: k :: q)) = t.
Proof.
  intros Hk Hq Ht. unfold to_obj. apply C71_field; [done| |].
  - constructor; [|by constructor]. split; [discriminate|]. split; [discriminate|]. repeat (apply Forall_cons_2; [split; [vm_compute; split; discriminate|split; [|split]; discriminate]|]). constructor.
  - cbn [k_data]. destruct Ht as [v t Hv Ht|Hm].
    + eapply ft_found; [|done]. econstructor; [apply meta_at|done].
    + apply ft_missing. intros v Hv. inversion Hv as [|l' k' v' p' w' Hd Hw]; subst. rewrite (denotes_fun _ _ _ _ Hd (meta_at o)) in Hw. by eapply Hm.
Qed.
Lemma str_field JE m k s : (k, ne_str s) ∈ meta_fields m -> field_text JE (meta_json m) [k] s.
Proof.
  intros Hin. destruct s as [|c s].
  - apply ft_missing. intros v Hv. inversion Hv as [|l' k' v' p' w' Hd Hw]; subst. apply denotes_elem in Hd. eapply members_none; [apply meta_keys|exact Hin|done].
  - eapply ft_found; [|constructor]. econstructor; [apply members_some; [apply meta_keys|exact Hin]|constructor].
Qed.
Lemma map_field (JE : jenv) (m : meta) (k : gostr) (mp : gmap gostr gostr) (key : gostr) : (k, ne_map mp) ∈ meta_fields m -> field_text JE (meta_json m) [k; key] (default [] (mp !! key)).
Proof.
  intros Hin. unfold ne_map in Hin. destruct (sorted_map_spec mp) as [Hs Hp].
  assert (forall v, mp !! key = Some v <-> denotes (sorted_map mp) key v) as Hl.
  { intros v. rewrite get_denotes by (by apply sorted_nodup). rewrite <- elem_of_map_to_list, <- Hp. split.
    - intros Hi. apply get_denotes; [by apply sorted_nodup|]. apply elem_of_list_split in Hi as (a & b & Ei). exists a, b. split; [done|].
      assert (NoDup (sorted_map mp).*1) as Hnd by (by apply sorted_nodup). rewrite Ei, fmap_app in Hnd. apply NoDup_app in Hnd as (_ & _ & Hnd). cbn in Hnd. by apply NoDup_cons in Hnd as [? _].
    - apply get_elem. }
  destruct (sorted_map mp) as [|kv l] eqn:Es.
  - rewrite (sorted_map_nil mp Es). rewrite (lookup_empty (M:=gmap gostr)). apply ft_missing. intros v Hv. inversion Hv as [|l' k' v' p' w' Hd Hw]; subst. apply denotes_elem in Hd. eapply members_none; [apply meta_keys|exact Hin|done].
  - assert (denotes (members (meta_fields m)) k (JObj (map (fun kv : gostr * gostr => (kv.1, JStr kv.2)) (kv :: l)))) as Hd by (apply members_some; [apply meta_keys|exact Hin]).
    destruct (mp !! key) as [v|] eqn:Ev; cbn [default].
    + eapply ft_found; [|constructor]. econstructor; [exact Hd|]. econstructor; [|constructor]. apply (denotes_map JStr). exists v. split; [by apply Hl|done].
    + apply ft_missing. intros v Hv. inversion Hv as [|l' k' v' p' w' Hd' Hw]; subst. rewrite (denotes_fun _ _ _ _ Hd' Hd) in Hw. inversion Hw as [|l2 k2 v2 p2 w2 Hd2 Hw2]; subst.
      apply (denotes_map JStr (kv :: l)) in Hd2 as (x & Hx & ->). apply Hl in Hx. congruence.
Qed.
(** The members of the metadata of a custom object: strings, labels and annotations by their key, and the time it
    was created when it says so. *)
Theorem C71_metadata JE P E o :
  let val p := index_value (path_env JE P E) (to_obj o) (field_expr (map str p)) in
  let m := t_meta o in
  val ["metadata"; "name"]%string = me_name m /\ val ["metadata"; "namespace"]%string = me_namespace m /\
  val ["metadata"; "uid"]%string = me_uid m /\ val ["metadata"; "resourceVersion"]%string = me_version m /\
  (forall t, me_created m = Some t -> val ["metadata"; "creationTimestamp"]%string = t) /\
  (forall key, good_name key -> index_value (path_env JE P E) (to_obj o) (field_expr [str "metadata"; str "labels"; key]) = default [] (me_labels m !! key)) /\
  (forall key, good_name key -> index_value (path_env JE P E) (to_obj o) (field_expr [str "metadata"; str "annotations"; key]) = default [] (me_annos m !! key)).
Proof.
  intros val m.
  assert (forall s : string, s <> ""%string -> s <> "*"%string -> forallb (fun c => (33 <=? N_of_ascii c)%N && (N_of_ascii c <=? 122)%N && negb (ch_eqb c "\"%char)) (str s) = true -> good_name (str s)) as Hg.
  { intros s H1 H2 H3. assert (forall a b, str a = str b -> a = b) as Hinj. { intros a b Hab. rewrite <- (string_of_list_ascii_of_string a), <- (string_of_list_ascii_of_string b). by f_equal. }
    split; [intros Hs; apply H1; by apply Hinj|]. split; [intros Hs; apply H2; by apply Hinj|]. rewrite Forall_forall. intros c Hc. rewrite forallb_forall in H3.
    specialize (H3 c). rewrite <- elem_of_list_In in H3. specialize (H3 Hc). rewrite !andb_true_iff, negb_true_iff in H3. destruct H3 as [[H3 H4] H5]. apply N.leb_le in H3, H4. apply ch_eqb_neq in H5.
    split; [lia|]. split; [intros ->; vm_compute in H4; by destruct H4|]. split; [intros ->; vm_compute in H4; by destruct H4|done]. }
  unfold val. cbn [map].
  split; [|split; [|split; [|split; [|split; [|split]]]]].
  - apply meta_text; [by apply Hg|constructor|]. apply str_field. unfold meta_fields. rewrite !elem_of_cons. tauto.
  - apply meta_text; [by apply Hg|constructor|]. apply str_field. unfold meta_fields. rewrite !elem_of_cons. tauto.
  - apply meta_text; [by apply Hg|constructor|]. apply str_field. unfold meta_fields. rewrite !elem_of_cons. tauto.
  - apply meta_text; [by apply Hg|constructor|]. apply str_field. unfold meta_fields. rewrite !elem_of_cons. tauto.
  - intros t Ht. apply meta_text; [by apply Hg|constructor|]. eapply ft_found; [|apply shows_str]. econstructor; [|constructor].
    apply members_some; [apply meta_keys|]. replace (JStr t) with (time_json (me_created m)) by (rewrite Ht; reflexivity). unfold meta_fields. rewrite !elem_of_cons. tauto.
  - intros key Hk. apply meta_text; [by apply Hg|by constructor|]. apply map_field. unfold meta_fields. rewrite !elem_of_cons. tauto.
  - intros key Hk. apply meta_text; [by apply Hg|by constructor|]. apply map_field. unfold meta_fields. rewrite !elem_of_cons. tauto.
Qed.
Print Assumptions C71_metadata.

(** ** From the events of a watch to the index and the search *)
Section cached.
  Context (JE : jenv) (P : jpenv) (E0 : env) (cd : codec) (ws : list (gvr * gostr)) (conf : gmap gvr (gmap gostr gostr)).
  Let E := path_env JE P E0.
  Context (tr : list wlabel) (w : wsys) (i : nat) (g : gvr) (c kind : gostr) (evs : list raw_event).
  Context (idx : gmap gostr gostr) (key k : gostr) (p : list gostr).

  Lemma cached_index (HJ : lawful JE) (Hc : caught_up E JE cd ws conf tr w i g c evs) (Hp : proper g) (Hk : cd_known cd (g.1.1, g.1.2, kind) = false)
      (Ha : Forall (about g kind) evs) (Hr : Forall (readable g kind) evs) (Hi : conf !! g = Some idx)
      (Hkey : idx !! key = Some (field_expr (k :: p))) (Hown : key ∉ own_keys) (Hres : k ∉ reserved) (Hgood : Forall good_name (k :: p)) n' n s l t :
    last_text JE (take (seen i tr) evs) n' n s -> json_parse s = Some (JObj l) -> field_text JE (JObj l) (k :: p) t ->
    exists e, lookup_entry (ws_store w) g c n' n = Some e /\ en_index e !! key = Some t.
  Proof using Type.
    intros (b & ev & a & o & Ee & Ht & Es & Hd & Hn & Hlast) Hj Hft.
    assert (last_sent JE (take (seen i tr) evs) n' n o) as Hls by (exists b, ev, a; by rewrite Es).
    pose proof (cache_entry E JE cd ws conf tr w i g c kind evs n' n Hc Hp Hk Ha Hr) as Hce.
    destruct (lookup_entry (ws_store w) g c n' n) as [e|]; [|by destruct (Hce o)]. destruct Hce as (o' & Ho' & ->). rewrite (last_sent_fun _ _ _ _ _ _ Ho' Hls).
    eexists. split; [reflexivity|]. rewrite Hi. cbn [default].
    pose proof (C71_document JE P E0 s l o k p t HJ Hj Hd Hres Hgood Hft) as Hv. unfold own_keys in Hown. rewrite !not_elem_of_cons in Hown.
    destruct Hown as (N1 & N2 & N3 & N4 & _). unfold to_obj in *. cbn [build snd en_index].
    rewrite !lookup_insert_ne by congruence. unfold index_base. rewrite lookup_fmap. change (id idx) with idx. rewrite Hkey. cbn [fmap option_fmap option_map]. f_equal. exact Hv.
  Qed.
End cached.

(** The index of a cached custom object under a configured path is the text of this field in the last document
    that was sent for its name. *)
Theorem C71_cache JE P E cd ws conf tr w i g c kind evs idx key k p n' n s l t : lawful JE ->
  caught_up (path_env JE P E) JE cd ws conf tr w i g c evs -> proper g -> cd_known cd (g.1.1, g.1.2, kind) = false ->
  Forall (about g kind) evs -> Forall (readable g kind) evs ->
  conf !! g = Some idx -> idx !! key = Some (field_expr (k :: p)) -> key ∉ own_keys -> k ∉ reserved -> Forall good_name (k :: p) ->
  last_text JE (take (seen i tr) evs) n' n s -> json_parse s = Some (JObj l) -> field_text JE (JObj l) (k :: p) t ->
  exists e, lookup_entry (ws_store w) g c n' n = Some e /\ en_index e !! key = Some t.
Proof. intros. by eapply (cached_index JE P E cd ws conf tr w i g c kind evs idx key k p). Qed.
Print Assumptions C71_cache.

(** A search part key=value on such an index: of the objects of the cluster, the list holds exactly those whose
    last document has a field text that the value asks for. *)
Theorem C71_search JE P E cd ws conf tr w i g c kind evs idx key k p ns page size total sort part value r : lawful JE ->
  caught_up (path_env JE P E) JE cd ws conf tr w i g c evs -> proper g -> cd_known cd (g.1.1, g.1.2, kind) = false ->
  Forall (about g kind) evs -> Forall (readable g kind) evs ->
  conf !! g = Some idx -> idx !! key = Some (field_expr (k :: p)) -> key ∉ own_keys -> k ∉ reserved -> Forall good_name (k :: p) ->
  trim_space part = key ++ str "=" ++ value -> key <> [] -> "="%char ∉ key -> (forall sel, trim_space part <> adv_prefix ++ sel) ->
  query (path_env JE P E) (ws_store w) g ns (Paginate page size total sort (join_parts [part])) (Ok r) -> q_err r = false ->
  (1 <= page)%Z -> (1 <= size)%Z -> (page * size < 2 ^ 63)%Z ->
  exists ks es, NoDup ks /\ Forall2 (fun x e => in_scope (ws_store w) g ns x e) ks es /\
    q_total r = Z.of_nat (length es) /\ q_items r = map en_obj (take (Z.to_nat size) (drop (Z.to_nat ((page - 1) * size)) es)) /\
    forall n' n, ns = [] \/ ns = n' ->
      ((forall s, ~ last_text JE (take (seen i tr) evs) n' n s) -> (c, n', n) ∉ ks) /\
      (forall s l t, last_text JE (take (seen i tr) evs) n' n s -> json_parse s = Some (JObj l) -> field_text JE (JObj l) (k :: p) t ->
         (c, n', n) ∈ ks <-> wants (e_print E) value t).
Proof.
  intros HJ Hc Hp Hk Ha Hr Hi Hkey Hown Hres Hgood Htr Hne Heq Hadv Hq He H1 H2 H3.
  destruct (C20_total_and_page _ _ _ _ _ _ _ _ _ _ Hq He H1 H2 H3) as (ks & es & (Hnd & HF & Hcm) & Ht & _ & Hit).
  exists ks, es. split; [done|]. split; [eapply Forall2_impl; [exact HF|]; by intros x e [? _]|]. split; [done|]. split; [done|].
  assert (part <> []) as Hpne. { intros ->. change (trim_space []) with ([] : gostr) in Htr. destruct key; discriminate Htr. }
  intros n' n Hns. split.
  - intros Hno Hin. apply elem_of_list_lookup in Hin as (j & Hj). destruct (Forall2_lookup_l _ _ _ _ _ HF Hj) as (e & _ & [Hlk _] & _). cbn [fst snd] in Hlk.
    pose proof (cache_entry _ JE cd ws conf tr w i g c kind evs n' n Hc Hp Hk Ha Hr) as Hce. rewrite Hlk in Hce. destruct Hce as (o & (b & ev & a & Hls) & _).
    apply (Hno (re_text ev)). exists b, ev, a, o. destruct Hls as (? & ? & ? & ? & ?). split_and!; done.
  - intros s l t Hls Hj Hft. destruct (C71_cache JE P E cd ws conf tr w i g c kind evs idx key k p n' n s l t) as (e & Hlk & Hidx); try done.
    assert (entry_match (path_env JE P E) (join_parts [part]) e = Some true <-> wants (e_print E) value t) as Hm.
    { unfold entry_match. rewrite match_alone by done. pose proof (C04_key_search (e_print E) (en_index e) (map snd (map_to_list (en_index e))) part key value (reflexivity _) Htr Hne Heq Hadv) as Hks.
      rewrite Hidx in Hks. destruct Hks as (bb & Hb & Hw). unfold match_one. change (e_print (path_env JE P E)) with (e_print E). rewrite Hb, <- Hw. by destruct bb; split; intros; congruence. }
    rewrite <- Hm. split.
    + intros Hin. apply elem_of_list_lookup in Hin as (j & Hj'). destruct (Forall2_lookup_l _ _ _ _ _ HF Hj') as (e' & _ & [Hlk' _] & Hme). cbn [fst snd] in Hlk'. rewrite Hlk in Hlk'. congruence.
    + intros Hme. apply (Hcm (c, n', n) e); [|done]. split; [exact Hlk|]. cbn [fst snd]. destruct Hns; auto.
Qed.
Print Assumptions C71_search.

(** ** Examples *)
Definition ex_jp : jpenv := JpEnv (fun l => l) (str "null").
Definition ex_penv : env := path_env ex_jenv ex_jp ex_env.
Definition ex_kobj (j : json) : kobj := KObj [] (str "a") false ∅ ∅ [] j.
Definition ex_json : json :=
  JObj [(str "spec", JObj [(str "replicas", JNum (str "3")); (str "max", JNum (str "2500000"));
          (str "containers", JArr [JObj [(str "name", JStr (str "web"))]; JObj [(str "image", JStr (str "x"))]; JObj [(str "name", JStr (str "log"))]])]);
        (str "metadata", JObj [(str "labels", JObj [(str "app.kubernetes.io/name", JStr (str "shop")); (str "a", JStr (str "b"))])])].
Lemma good_str (s : string) : bool_decide (str s <> []) && bool_decide (str s <> str "*") &&
  forallb (fun c => (33 <=? N_of_ascii c)%N && (N_of_ascii c <=? 126)%N && negb (ch_eqb c "\"%char) && negb (ch_eqb c "{"%char) && negb (ch_eqb c "}"%char)) (str s) = true -> good_name (str s).
Proof.
  rewrite !andb_true_iff. intros [[H1 H2] H3]. split; [by apply bool_decide_eq_true in H1|]. split; [by apply bool_decide_eq_true in H2|].
  rewrite Forall_forall. intros c Hc. rewrite forallb_forall in H3. specialize (H3 c). rewrite <- elem_of_list_In in H3. specialize (H3 Hc).
  rewrite !andb_true_iff, !negb_true_iff in H3. destruct H3 as [[[[H3 H4] H5] H6] H7]. apply N.leb_le in H3, H4. apply ch_eqb_neq in H5, H6, H7. done.
Qed.
Lemma at_get l k v p w : NoDup l.*1 -> get k l = Some v -> at_path v p w -> at_path (JObj l) (k :: p) w.
Proof. intros H1 H2 H3. econstructor; [by apply get_denotes|done]. Qed.
Ltac nodup_keys := apply (bool_decide_eq_true_1 _); vm_compute; reflexivity.
Example C71_ex_field :
  Forall good_name [str "metadata"; str "labels"; str "app.kubernetes.io/name"] /\
  field_expr [str "metadata"; str "labels"; str "app.kubernetes.io/name"] = str "{.metadata.labels.app\.kubernetes\.io/name}" /\
  field_text ex_jenv ex_json [str "metadata"; str "labels"; str "app.kubernetes.io/name"] (str "shop") /\
  field_text ex_jenv ex_json [str "spec"; str "replicas"] (str "3") /\
  map (fun e => index_value ex_penv (OKube (ex_kobj ex_json)) (str e))
    ["{.metadata.labels.app\.kubernetes\.io/name}"; "{.spec.replicas}"; "{.spec.max}"; "{.spec.containers[*].name}"; "{.spec.none}"; "{.metadata.labels}"; "{.spec.replicas}/{.spec.max}"; "x"]%string
  = map str ["shop"; "3"; "2.5e+06"; "web log"; ""; "{""a"":""b"",""app.kubernetes.io/name"":""shop""}"; "3/2.5e+06"; "x"]%string.
Proof.
  split; [|split; [reflexivity|split; [|split; [|vm_compute; reflexivity]]]].
  - apply Forall_cons_2; [|apply Forall_cons_2; [|apply Forall_cons_2; [|constructor]]]; apply good_str; vm_compute; reflexivity.
  - eapply ft_found; [|apply shows_str]. unfold ex_json. eapply at_get; [nodup_keys|reflexivity|]. eapply at_get; [nodup_keys|reflexivity|]. eapply at_get; [nodup_keys|reflexivity|constructor].
  - eapply ft_found; [|apply (shows_int _ (str "3") 3); [vm_compute; reflexivity|lia]]. unfold ex_json. eapply at_get; [nodup_keys|reflexivity|]. eapply at_get; [nodup_keys|reflexivity|constructor].
Qed.
Example C71_ex_items : exists vs, at_path ex_json [str "spec"; str "containers"] (JArr vs) /\ gathers ex_jenv [str "name"] vs [str "web"; str "log"].
Proof.
  eexists. split.
  - unfold ex_json. eapply at_get; [nodup_keys|reflexivity|]. eapply at_get; [nodup_keys|reflexivity|constructor].
  - eapply ga_hit; [eapply at_get; [nodup_keys|reflexivity|constructor]|constructor|]. apply ga_miss.
    + intros v Hv. inversion Hv as [|l' k' v' p' w' Hd Hw]; subst. apply denotes_elem in Hd. apply elem_of_list_singleton in Hd. discriminate Hd.
    + eapply ga_hit; [eapply at_get; [nodup_keys|reflexivity|constructor]|constructor|]. constructor.
Qed.
Example C71_ex_error : Forall good_piece [Lit (str "n: "); All [str "spec"; str "replicas"] [str "x"]] /\
  piece_fails ex_jenv ex_json (All [str "spec"; str "replicas"] [str "x"]) /\
  mjoin (map piece_expr [Lit (str "n: "); All [str "spec"; str "replicas"] [str "x"]]) = str "n: {.spec.replicas[*].x}".
Proof.
  split; [|split; [|vm_compute; reflexivity]].
  - apply Forall_cons_2; [|apply Forall_cons_2; [|constructor]].
    + change (str "n: ") with ["n"%char; ":"%char; " "%char]. cbn [good_piece]. rewrite !elem_of_cons, elem_of_nil. intuition discriminate.
    + split; [discriminate|]. split; [apply Forall_cons_2; [|apply Forall_cons_2; [|constructor]]|apply Forall_cons_2; [|constructor]]; apply good_str; vm_compute; reflexivity.
  - exists (JNum (str "3")). split; [unfold ex_json; eapply at_get; [nodup_keys|reflexivity|]; eapply at_get; [nodup_keys|reflexivity|constructor]|vm_compute; discriminate].
Qed.
(** A watch of the custom type of C69, with the member x as index, and the search that finds it. *)
Definition x_conf : gmap gvr (gmap gostr gostr) := {[ sidecars := {[ str "x" := field_expr [str "x"] ]} ]}.
Definition x_ok (w : wsys) : bool :=
  quiet w && match query_with ex_penv false (ws_store w) sidecars [] (pg 1 10 "" "x=1") with
             | Ok r => negb (q_err r) && (q_total r =? 1)%Z | Panics => false end.
Lemma x_run : exists w, wruns ex_penv [(sidecars, c1)] (wstart [(sidecars, c1)] x_conf) sc_trace w /\ x_ok w = true.
Proof. apply exec_some. vm_compute. reflexivity. Qed.
Example C71_ex_search : exists w r, caught_up ex_penv ex_jenv ex_cd [(sidecars, c1)] x_conf sc_trace w 0 sidecars c1 sc_evs /\
  x_conf !! sidecars = Some {[ str "x" := field_expr [str "x"] ]} /\ str "x" ∉ own_keys /\ str "x" ∉ reserved /\ Forall good_name [str "x"] /\
  trim_space (str "x=1") = str "x" ++ str "=" ++ str "1" /\ (forall sel, trim_space (str "x=1") <> adv_prefix ++ sel) /\ join_parts [str "x=1"] = str "x=1" /\
  query ex_penv (ws_store w) sidecars [] (pg 1 10 "" "x=1") (Ok r) /\ q_err r = false /\ q_total r = 1%Z /\
  (exists s l, last_text ex_jenv (take (seen 0 sc_trace) sc_evs) [] (str "b") s /\ json_parse s = Some (JObj l) /\ field_text ex_jenv (JObj l) [str "x"] (str "1")).
Proof.
  destruct x_run as (w & Hr & Hok). exists w. unfold x_ok in Hok. apply andb_true_iff in Hok as [Hq Hres].
  pose proof (query_with_ok ex_penv false (ws_store w) sidecars [] (pg 1 10 "" "x=1")) as Hqw. revert Hqw Hres. generalize (query_with ex_penv false (ws_store w) sidecars [] (pg 1 10 "" "x=1")).
  intros [r|] Hqw Hres; [|discriminate Hres]. apply andb_true_iff in Hres as [He Ht]. apply negb_true_iff in He. apply Z.eqb_eq in Ht. exists r.
  split.
  { split; [exact Hr|]. split; [apply only_alone|]. split; [rewrite sc_latest; discriminate|]. split; [intros f x; by apply quiet_ok|].
    rewrite sc_latest, (deliver_readable ex_jenv ex_cd sidecars (str "Sidecar") sc_evs sidecars_proper eq_refl (proj1 sc_about) (proj2 sc_about)). by apply prefix_app_r. }
  split; [apply lookup_singleton|]. split; [unfold own_keys; rewrite !elem_of_cons, elem_of_nil; intuition discriminate|].
  split; [unfold reserved; rewrite !elem_of_cons, elem_of_nil; intuition discriminate|]. split; [apply Forall_cons_2; [apply good_str; vm_compute; reflexivity|constructor]|].
  split; [reflexivity|]. split; [intros sel; discriminate|]. split; [reflexivity|]. split; [exact Hqw|]. split; [exact He|]. split; [exact Ht|].
  exists (ex_doc "networking.istio.io/v1alpha3" "Sidecar" "b"), (ex_fields "networking.istio.io/v1alpha3" "Sidecar" "b"). split; [|split; [vm_compute; reflexivity|]].
  - destruct (decode_obj ex_jenv (ex_doc "networking.istio.io/v1alpha3" "Sidecar" "b")) as [o|] eqn:Eo; [|vm_compute in Eo; discriminate Eo].
    assert (match decode_obj ex_jenv (ex_doc "networking.istio.io/v1alpha3" "Sidecar" "b") with Ok o => (me_namespace (t_meta o), me_name (t_meta o)) | Panics => ([], []) end = ([], str "b")) as Hf by (vm_compute; reflexivity).
    rewrite Eo in Hf.
    exists [ex_ev "ADDED" "networking.istio.io/v1alpha3" "Sidecar" "a"], (ex_ev "ADDED" "networking.istio.io/v1alpha3" "Sidecar" "b"), [ex_ev "DELETED" "networking.istio.io/v1alpha3" "Sidecar" "a"], o.
    split; [reflexivity|]. split; [by left|]. split; [reflexivity|]. split; [exact Eo|]. split; [exact Hf|].
    intros e' o' He' _ Ho. apply elem_of_list_singleton in He' as ->. cbn [re_text ex_ev] in Ho.
    assert (match decode_obj ex_jenv (ex_doc "networking.istio.io/v1alpha3" "Sidecar" "a") with Ok o => str_eqb (me_name (t_meta o)) (str "b") | Panics => false end = false) as Hn by (vm_compute; reflexivity).
    rewrite Ho in Hn. apply str_eqb_neq in Hn. intros Heq. apply Hn. by apply pair_equal_spec in Heq as [_ ?].
  - eapply ft_found; [|apply (shows_int _ (str "1") 1); [vm_compute; reflexivity|lia]]. unfold ex_fields. eapply at_get; [nodup_keys|reflexivity|constructor].
Qed.

(** ** What a user would expect and is false *)
(** A field with the number 1000000 is found by searching for these digits: it is indexed as 1e+06. *)
Definition big_doc : gostr := str "{""metadata"":{""name"":""a""},""x"":1000000}".
Definition digits_lost (st : store) : bool :=
  match lookup_entry st sidecars c1 [] (str "a") with Some _ => true | None => false end &&
  match query_with ex_penv false st sidecars [] (pg 1 10 "" "x=1000000") with Ok r => negb (q_err r) && (q_total r =? 0)%Z | Panics => false end &&
  match query_with ex_penv false st sidecars [] (pg 1 10 "" "x=1e+06") with Ok r => negb (q_err r) && (q_total r =? 1)%Z | Panics => false end.
Theorem C71_digits_refuted : exists JE P E s l o conf g c st, lawful JE /\ json_parse s = Some (JObj l) /\ denotes l (str "x") (JNum (str "1000000")) /\ decode_obj JE s = Ok o /\
  conf !! g = Some ({[ str "x" := field_expr [str "x"] ]} : gmap gostr gostr) /\ run_calls (path_env JE P E) (new_store conf) [CAdd g c (to_obj o)] = Ok st /\
  is_Some (lookup_entry st g c [] (str "a")) /\
  (exists r, query (path_env JE P E) st g [] (pg 1 10 "" "x=1000000") (Ok r) /\ q_err r = false /\ q_total r = 0%Z) /\
  (exists r, query (path_env JE P E) st g [] (pg 1 10 "" "x=1e+06") (Ok r) /\ q_err r = false /\ q_total r = 1%Z).
Proof.
  assert (exists l, json_parse big_doc = Some (JObj l) /\ denotes l (str "x") (JNum (str "1000000"))) as (l & Hl & Hd).
  { eexists. split; [vm_compute; reflexivity|]. eexists [_], []. split; [reflexivity|]. intros H. by apply elem_of_nil in H. }
  assert (match decode_obj ex_jenv big_doc with Ok o => match run_calls ex_penv (new_store x_conf) [CAdd sidecars c1 (to_obj o)] with Ok st => digits_lost st | Panics => false end | Panics => false end = true) as H by (vm_compute; reflexivity).
  destruct (decode_obj ex_jenv big_doc) as [o|] eqn:Eo; [|discriminate H].
  destruct (run_calls ex_penv (new_store x_conf) [CAdd sidecars c1 (to_obj o)]) as [st|] eqn:Est; [|discriminate H].
  exists ex_jenv, ex_jp, ex_env, big_doc, l, o, x_conf, sidecars, c1, st. split; [apply ex_lawful|]. split; [exact Hl|]. split; [exact Hd|]. split; [exact Eo|].
  split; [apply lookup_singleton|]. split; [exact Est|]. unfold digits_lost in H. rewrite !andb_true_iff in H. destruct H as [[H1 H2] H3]. split.
  { destruct (lookup_entry st sidecars c1 [] (str "a")); [by eexists|discriminate H1]. }
  split.
  - pose proof (query_with_ok ex_penv false st sidecars [] (pg 1 10 "" "x=1000000")) as Hq. revert Hq H2. generalize (query_with ex_penv false st sidecars [] (pg 1 10 "" "x=1000000")).
    intros [r|] Hq H2; [|discriminate H2]. apply andb_true_iff in H2 as [He Ht]. exists r. split; [exact Hq|]. split; [by apply negb_true_iff|by apply Z.eqb_eq].
  - pose proof (query_with_ok ex_penv false st sidecars [] (pg 1 10 "" "x=1e+06")) as Hq. revert Hq H3. generalize (query_with ex_penv false st sidecars [] (pg 1 10 "" "x=1e+06")).
    intros [r|] Hq H3; [|discriminate H3]. apply andb_true_iff in H3 as [He Ht]. exists r. split; [exact Hq|]. split; [by apply negb_true_iff|by apply Z.eqb_eq].
Qed.
Print Assumptions C71_digits_refuted.
