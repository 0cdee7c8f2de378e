(** Encoding and decoding generic objects. *)
From Coq Require Import Ascii String NArith ZArith Lia.
From stdpp Require Import base gmap strings list sorting.
From Verif Require Import ModelStr ProofsStr ModelJson ProofsJson ModelJsonText ProofsJsonText ProofsJsonParse ModelStore ModelProxy ModelObjType SpecObjType.

(** ** Sorted association lists *)
Global Instance key_lt_trans {A} : Transitive (@key_lt A).
Proof. intros a b c. apply str_ltb_trans. Qed.
Global Instance key_lt_antisym {A} : AntiSymm (=) (@key_lt A).
Proof. intros a b H1 H2. unfold key_lt in *. pose proof (str_ltb_trans _ _ _ H1 H2) as H. by rewrite str_ltb_irrefl in H. Qed.
Lemma put_keys {A} k (v : A) l kv : kv ∈ put k v l -> kv = (k, v) \/ kv ∈ l.
Proof.
  induction l as [|[k' v'] l IH]; cbn [put]; [rewrite elem_of_list_singleton; auto|].
  destruct (str_eqb k k'); [rewrite !elem_of_cons; tauto|]. destruct (str_ltb k k'); [rewrite !elem_of_cons; tauto|].
  rewrite !elem_of_cons. intros [->|H]; [auto|]. apply IH in H. tauto.
Qed.
Lemma put_sorted {A} k (v : A) l : StronglySorted key_lt l -> StronglySorted key_lt (put k v l).
Proof.
  induction 1 as [|[k' v'] l Hs IH HF]; cbn [put]; [repeat constructor|].
  destruct (str_eqb_spec k k') as [->|Hne]; [constructor; [done|]; eapply Forall_impl; [exact HF|]; done|].
  destruct (str_ltb k k') eqn:E.
  - constructor; [by constructor|]. constructor; [done|]. eapply Forall_impl; [exact HF|]. intros x Hx. cbn beta in *. eapply key_lt_trans; [|exact Hx]. exact E.
  - constructor; [done|]. apply Forall_forall. intros x [->|Hx]%put_keys.
    + unfold key_lt. cbn. destruct (str_ltb k' k) eqn:E2; [done|]. destruct Hne. by apply str_ltb_total.
    + by apply (proj1 (Forall_forall _ _) HF).
Qed.
Lemma put_perm {A} k (v : A) l : k ∉ l.*1 -> put k v l ≡ₚ (k, v) :: l.
Proof.
  induction l as [|[k' v'] l IH]; cbn [put]; [done|]. cbn [fmap list_fmap fst]. rewrite not_elem_of_cons. intros [Hne Hn].
  destruct (str_eqb_spec k k') as [->|_]; [done|]. destruct (str_ltb k k'); [done|]. rewrite IH by done. constructor.
Qed.
Lemma get_put {A} k (v : A) k' l : get k' (put k v l) = if str_eqb k' k then Some v else get k' l.
Proof.
  induction l as [|[k2 v2] l IH]; cbn [put get]; [done|].
  destruct (str_eqb_spec k k2) as [->|Hne].
  - cbn [get]. by destruct (str_eqb k' k2).
  - destruct (str_ltb k k2); cbn [get]; [done|]. rewrite IH.
    destruct (str_eqb_spec k' k2) as [->|]; [|done]. destruct (str_eqb_spec k2 k) as [->|]; done.
Qed.
Definition puts {A} (l acc : list (gostr * A)) : list (gostr * A) := fold_left (fun m kv => put kv.1 kv.2 m) l acc.
Lemma puts_sorted {A} (l acc : list (gostr * A)) : StronglySorted key_lt acc -> StronglySorted key_lt (puts l acc).
Proof. revert acc. induction l as [|[k v] l IH]; intros acc H; [done|]. apply IH. by apply put_sorted. Qed.
Lemma puts_elem {A} (l acc : list (gostr * A)) kv : kv ∈ puts l acc -> kv ∈ l \/ kv ∈ acc.
Proof.
  revert acc. induction l as [|[k v] l IH]; intros acc H; [auto|]. apply IH in H as [H|H]; [left; by right|].
  apply put_keys in H as [->|H]; [left; by left|auto].
Qed.
Lemma puts_perm {A} (l acc : list (gostr * A)) : NoDup (acc.*1 ++ l.*1) -> puts l acc ≡ₚ acc ++ l.
Proof.
  revert acc. induction l as [|[k v] l IH]; intros acc H; [by rewrite app_nil_r|].
  cbn [fmap list_fmap fst] in H. rewrite (Permutation_app_comm acc.*1), <- app_comm_cons, (Permutation_app_comm l.*1) in H. apply NoDup_cons in H as [Hk H].
  rewrite not_elem_of_app in Hk. destruct Hk as [Hk1 Hk2].
  change (puts ((k, v) :: l) acc) with (puts l (put k v acc)). rewrite IH.
  - rewrite put_perm by done. by rewrite <- Permutation_middle.
  - rewrite (put_perm k v acc) by done. cbn [fmap list_fmap fst]. rewrite <- app_comm_cons. apply NoDup_cons. rewrite not_elem_of_app. auto.
Qed.
Lemma sorted_nodup {A} (l : list (gostr * A)) : StronglySorted key_lt l -> NoDup l.*1.
Proof.
  induction 1 as [|[k v] l Hs IH HF]; [constructor|]. apply NoDup_cons. split; [|done]. cbn. intros ([k' v'] & E & Hin)%elem_of_list_fmap.
  apply (proj1 (Forall_forall _ _) HF) in Hin. unfold key_lt in Hin. cbn in Hin, E. subst k'. by rewrite str_ltb_irrefl in Hin.
Qed.
Lemma puts_unique {A} (l l' : list (gostr * A)) : l ≡ₚ l' -> StronglySorted key_lt l' -> puts l [] = l'.
Proof.
  intros Hp Hs. eapply (StronglySorted_unique key_lt); [apply puts_sorted; constructor|done|].
  rewrite puts_perm; [done|]. cbn. rewrite Hp. by apply sorted_nodup.
Qed.
Lemma get_puts {A} (l acc : list (gostr * A)) k :
  (k ∉ l.*1 /\ get k (puts l acc) = get k acc) \/ exists v, denotes l k v /\ get k (puts l acc) = Some v.
Proof.
  revert acc. induction l as [|[k' v'] l IH]; intros acc; [left; split; [apply not_elem_of_nil|done]|].
  change (puts ((k', v') :: l) acc) with (puts l (put k' v' acc)).
  destruct (IH (put k' v' acc)) as [[Hn E]|(v & (l1 & l2 & -> & Hn) & E)].
  - rewrite E, get_put. destruct (str_eqb_spec k k') as [->|Hne].
    + right. exists v'. split; [|done]. exists [], l. done.
    + left. cbn [fmap list_fmap fst]. rewrite not_elem_of_cons. done.
  - right. exists v. split; [|done]. exists ((k', v') :: l1), l2. done.
Qed.
Lemma get_elem {A} k (v : A) l : get k l = Some v -> (k, v) ∈ l.
Proof.
  induction l as [|[k' v'] l IH]; cbn [get]; [done|]. destruct (str_eqb_spec k k') as [->|]; [intros [= ->]; left|]. intros H. right. auto.
Qed.
Lemma get_none {A} k (l : list (gostr * A)) : get k l = None <-> k ∉ l.*1.
Proof.
  induction l as [|[k' v'] l IH]; cbn [get fmap list_fmap fst]; [split; [intros _; apply not_elem_of_nil|done]|].
  rewrite not_elem_of_cons, <- IH. destruct (str_eqb_spec k k') as [->|]; [|tauto]. split; [done|]. by intros [? _].
Qed.
Lemma get_app {A} k (l1 l2 : list (gostr * A)) : get k (l1 ++ l2) = match get k l1 with Some v => Some v | None => get k l2 end.
Proof. induction l1 as [|[k' v'] l1 IH]; cbn [get app]; [done|]. by destruct (str_eqb k k'). Qed.
Lemma get_denotes {A} k (v : A) l : NoDup l.*1 -> denotes l k v <-> get k l = Some v.
Proof.
  intros Hnd. split.
  - intros (l1 & l2 & -> & _). rewrite fmap_app in Hnd. apply NoDup_app in Hnd as (_ & Hnd & _).
    rewrite get_app. replace (get k l1) with (@None A); [cbn; by rewrite str_eqb_refl|]. symmetry. apply get_none. intros Hin. apply (Hnd k Hin). by left.
  - intros H%get_elem. apply elem_of_list_split in H as (l1 & l2 & ->). exists l1, l2. split; [done|].
    rewrite fmap_app in Hnd. apply NoDup_app in Hnd as (_ & _ & Hnd). by apply NoDup_cons in Hnd as [? _].
Qed.
Lemma del_elem {A} k (l : list (gostr * A)) kv : kv ∈ del k l <-> kv ∈ l /\ kv.1 <> k.
Proof.
  unfold del. rewrite !elem_of_list_In, filter_In, negb_true_iff, str_eqb_neq. split; intros [? H]; split; congruence.
Qed.
Lemma del_sorted {A} k (l : list (gostr * A)) : StronglySorted key_lt l -> StronglySorted key_lt (del k l).
Proof.
  induction 1 as [|[k' v'] l Hs IH HF]; [constructor|]. unfold del in *. cbn [List.filter fst].
  destruct (negb (str_eqb k k')); [|done]. constructor; [done|]. apply Forall_forall. intros x Hx.
  change (x ∈ del k l) in Hx. apply del_elem in Hx as [Hx _]. by apply (proj1 (Forall_forall _ _) HF).
Qed.
Lemma get_del {A} k k' (l : list (gostr * A)) : k' <> k -> get k' (del k l) = get k' l.
Proof.
  intros Hne. induction l as [|[k2 v2] l IH]; [done|]. unfold del in *. cbn [List.filter fst get].
  destruct (str_eqb_spec k k2) as [<-|]; cbn [negb].
  - rewrite IH. destruct (str_eqb_spec k' k); [done|done].
  - cbn [get]. by rewrite IH.
Qed.

(** ** Values *)
Lemma value_ind' E (P : json -> Prop) :
  P JNull -> (forall b, P (JBool b)) -> (forall l, je_norm E l = Some l -> P (JNum l)) ->
  (forall s, valid_utf8 s = true -> P (JStr s)) ->
  (forall l, Forall (value E) l -> Forall P l -> P (JArr l)) ->
  (forall l, StronglySorted key_lt l -> Forall (fun kv => valid_utf8 kv.1 = true /\ value E kv.2) l -> Forall (fun kv => P kv.2) l -> P (JObj l)) ->
  forall j, value E j -> P j.
Proof.
  intros H1 H2 H3 H4 H5 H6. induction j as [|b|l|s|l IH|l IH] using json_ind'; inversion 1; subst; auto.
  - apply H5; [done|]. rewrite Forall_forall in *. auto.
  - apply H6; [done|done|]. rewrite Forall_forall in *. intros x Hx. apply IH; [done|]. match goal with H : forall x, x ∈ l -> _ /\ _ |- _ => apply H end. done.
Qed.
(** Values as they are printed: like [value] with objects in any order. *)
Inductive printed (E : jenv) : json -> Prop :=
| p_null : printed E JNull
| p_bool b : printed E (JBool b)
| p_num l : je_norm E l = Some l -> printed E (JNum l)
| p_str s : valid_utf8 s = true -> printed E (JStr s)
| p_arr l : Forall (printed E) l -> printed E (JArr l)
| p_obj l : Forall (fun kv => valid_utf8 kv.1 = true /\ printed E kv.2) l -> printed E (JObj l).
Lemma value_printed E j : value E j -> printed E j.
Proof.
  intros H. induction H as [| | | |l HF IH|l Hs HF IH] using value_ind'; try (by constructor).
  constructor. rewrite Forall_forall in *. intros x Hx. split; [by apply HF|by apply IH].
Qed.
Section laws.
  Context (E : jenv) (HE : lawful E).
  Lemma printed_ok j : printed E j -> nums_ok j /\ jvalid j = j.
  Proof.
    induction j as [|b|l|s|l IH|l IH] using json_ind'; inversion 1; subst; try done.
    - split; [|done]. cbn. by eapply law_num.
    - split; [done|]. cbn. by rewrite valid_to_valid.
    - rewrite Forall_forall in *. split; [apply nums_ok_arr; apply Forall_forall; intros x Hx; by apply IH; auto|].
      cbn. f_equal. rewrite <- (map_id l) at 2. apply map_ext_in. intros x Hx%elem_of_list_In. apply IH; auto.
    - match goal with H : Forall _ l |- _ => rename H into HF end. rewrite Forall_forall in *.
      split; [apply nums_ok_obj; apply Forall_forall; intros x Hx; apply IH; [done|]; by apply HF|].
      cbn. f_equal. rewrite <- (map_id l) at 2. apply map_ext_in. intros [k v] Hx%elem_of_list_In. cbn.
      destruct (HF _ Hx) as [Hk Hv]. rewrite valid_to_valid by done. f_equal. by apply (IH _ Hx).
  Qed.
  Lemma iface_obj l : iface E (JObj l) = JObj (puts (map (fun kv => (kv.1, iface E kv.2)) l) []).
  Proof.
    cbn. f_equal. unfold puts. generalize (@nil (gostr * json)). induction l as [|kv l IH]; intros acc; [done|]. cbn. apply IH.
  Qed.
  Lemma iface_value j : value E j -> iface E j = j.
  Proof.
    intros H. induction H as [| |l Hl| |l HF IH|l Hs HF IH] using value_ind'; try done.
    - cbn. by rewrite Hl.
    - cbn. f_equal. rewrite <- (map_id l) at 2. apply map_ext_in. intros x Hx%elem_of_list_In. by apply (proj1 (Forall_forall _ _) IH).
    - rewrite iface_obj. f_equal. apply puts_unique; [|done]. match goal with |- ?a ≡ₚ ?b => enough (a = b) as -> by done end. rewrite <- (map_id l) at 2. apply map_ext_in.
      intros [k v] Hx%elem_of_list_In. cbn. f_equal. by apply (proj1 (Forall_forall _ _) IH _ Hx).
  Qed.
  Lemma parse_printed j : printed E j -> jdepth j <= max_nesting -> json_parse (json_text j) = Some j.
  Proof. intros [Hn Hv]%printed_ok Hd. rewrite parse_text by done. by rewrite Hv. Qed.

  (** Decoding into interface{} gives a value. *)
  Lemma parsed_value j : parsed j -> value E (iface E j).
  Proof.
    induction j as [|b|l|s|l IH|l IH] using json_ind'; inversion 1; subst; try by constructor.
    - cbn. destruct (je_norm E l) as [l'|] eqn:El; constructor. by eapply law_num.
    - cbn. constructor. rewrite Forall_forall in *. intros x Hx. apply elem_of_list_In, in_map_iff in Hx as (y & <- & Hy%elem_of_list_In). auto.
    - match goal with H : Forall _ l |- _ => rename H into HF end. rewrite Forall_forall in *.
      rewrite iface_obj. constructor; [apply puts_sorted; constructor|]. apply Forall_forall. intros x [Hx|Hx]%puts_elem; [|by apply elem_of_nil in Hx].
      apply elem_of_list_In, in_map_iff in Hx as (y & <- & Hy%elem_of_list_In). cbn. split; [by apply HF|]. apply IH; [done|]. by apply HF.
  Qed.
  Lemma iface_depth j d : jdepth j <= d -> jdepth (iface E j) <= d.
  Proof.
    revert d. induction j as [|b|l|s|l IH|l IH] using json_ind'; intros d Hd; try done.
    - cbn. destruct (je_norm E l); cbn; lia.
    - destruct d; [cbn in Hd; lia|]. apply jdepth_arr in Hd. cbn [iface]. apply jdepth_arr. rewrite Forall_forall in *.
      intros x Hx. apply elem_of_list_In, in_map_iff in Hx as (y & <- & Hy%elem_of_list_In). auto.
    - destruct d; [cbn in Hd; lia|]. apply jdepth_obj in Hd. rewrite iface_obj. apply jdepth_obj. rewrite Forall_forall in *.
      intros x [Hx|Hx]%puts_elem; [|by apply elem_of_nil in Hx].
      apply elem_of_list_In, in_map_iff in Hx as (y & <- & Hy%elem_of_list_In). cbn. auto.
  Qed.
End laws.

(** ** Members *)
Lemma members_cons k o fs : members ((k, o) :: fs) = (match o with Some v => [(k, v)] | None => [] end) ++ members fs.
Proof. done. Qed.
Lemma members_elem fs k v : (k, v) ∈ members fs <-> (k, Some v) ∈ fs.
Proof.
  induction fs as [|[k' o] fs IH]; [cbn; by rewrite !elem_of_nil|]. rewrite members_cons, elem_of_app, elem_of_cons, IH. clear IH.
  destruct o as [v'|]; [rewrite elem_of_list_singleton|rewrite elem_of_nil]; intuition congruence.
Qed.
Lemma members_sorted fs : StronglySorted key_lt fs -> StronglySorted key_lt (members fs).
Proof.
  induction 1 as [|[k o] fs Hs IH HF]; [constructor|]. rewrite members_cons. destruct o as [v|]; [|done]. cbn [app]. constructor; [done|].
  apply Forall_forall. intros [k' v'] Hin%members_elem. by apply (proj1 (Forall_forall _ _) HF) in Hin.
Qed.
Lemma members_perm fs fs' : fs ≡ₚ fs' -> members fs ≡ₚ members fs'.
Proof. intros H. unfold members. by rewrite H. Qed.
Lemma members_map f fs : map (fun kv : gostr * json => (kv.1, f kv.2)) (members fs) = members (map (fun kv : gostr * option json => (kv.1, f <$> kv.2)) fs).
Proof. induction fs as [|[k [v|]] fs IH]; cbn; [done| |done]. f_equal. apply IH. Qed.
Lemma iface_members E fs fs' : map (fun kv : gostr * option json => (kv.1, iface E <$> kv.2)) fs ≡ₚ fs' -> StronglySorted key_lt fs' ->
  iface E (JObj (members fs)) = JObj (members fs').
Proof.
  intros Hp Hs. rewrite iface_obj, members_map. f_equal. apply puts_unique; [by apply members_perm|by apply members_sorted].
Qed.
Lemma printed_members E fs : Forall (fun f => valid_utf8 f.1 = true /\ forall v, f.2 = Some v -> printed E v) fs -> printed E (JObj (members fs)).
Proof.
  intros HF. constructor. apply Forall_forall. intros [k v] Hin%members_elem. pose proof (proj1 (Forall_forall _ _) HF _ Hin) as [H1 H2]. split; [done|]. by apply H2.
Qed.
Lemma depth_members fs d : Forall (fun f => forall v, f.2 = Some v -> jdepth v <= d) fs -> jdepth (JObj (members fs)) <= S d.
Proof. intros HF. apply jdepth_obj, Forall_forall. intros [k v] Hin%members_elem. by apply (proj1 (Forall_forall _ _) HF _ Hin). Qed.

Lemma sorted_map_spec m : StronglySorted key_lt (sorted_map m) /\ sorted_map m ≡ₚ map_to_list m.
Proof.
  split; [apply puts_sorted; constructor|]. change (sorted_map m) with (puts (map_to_list m) []). rewrite puts_perm; [done|]. apply NoDup_fst_map_to_list.
Qed.
Lemma fold_insert (l : list (gostr * gostr)) (acc : gmap gostr gostr) :
  fold_left (fun m kv => <[kv.1 := set_str [] kv.2]> m) (map (fun kv : gostr * gostr => (kv.1, JStr kv.2)) l) acc = list_to_map (rev l) ∪ acc.
Proof.
  revert acc. induction l as [|[k v] l IH]; intros acc; [cbn; by rewrite (left_id_L ∅ (∪))|].
  cbn [map fold_left fst snd set_str rev]. rewrite IH. rewrite list_to_map_app. cbn. rewrite insert_empty, <- (assoc_L (∪)). f_equal. apply map_eq. intros i.
  destruct (decide (i = k)) as [->|Hne]; [rewrite lookup_insert; by erewrite lookup_union_Some_l by apply lookup_singleton|].
  rewrite lookup_insert_ne by done. rewrite lookup_union_r; [done|]. by apply lookup_singleton_ne.
Qed.
Lemma set_map_back (m : gmap gostr gostr) : set_map ∅ (JObj (map (fun kv : gostr * gostr => (kv.1, JStr kv.2)) (sorted_map m))) = m.
Proof.
  unfold set_map. rewrite fold_insert, (right_id_L ∅ (∪)). destruct (sorted_map_spec m) as [Hs Hp].
  rewrite <- (list_to_map_to_list m) at 2. apply list_to_map_proper.
  - rewrite <- Permutation_rev. by apply sorted_nodup.
  - by rewrite <- Permutation_rev.
Qed.
Lemma sorted_map_nil m : sorted_map m = [] -> m = ∅.
Proof. intros H. destruct (sorted_map_spec m) as [_ Hp]. rewrite H in Hp. apply map_to_list_empty_iff. by apply Permutation_nil in Hp. Qed.

(** ** Metadata *)
Definition owner_sorted (o : owner) : json :=
  JObj (members [
    (str "apiVersion", Some (JStr (ow_api o))); (str "blockOwnerDeletion", JBool <$> ow_block o);
    (str "controller", JBool <$> ow_controller o); (str "kind", Some (JStr (ow_kind o)));
    (str "name", Some (JStr (ow_name o))); (str "uid", Some (JStr (ow_uid o)))]).
Definition meta_sorted (m : meta) : list (gostr * option json) := [
  (str "annotations", ne_map (me_annos m)); (str "clusterName", ne_str (me_cluster m));
  (str "creationTimestamp", Some (time_json (me_created m)));
  (str "deletionGracePeriodSeconds", (fun z => JNum (itoa z)) <$> me_grace m);
  (str "deletionTimestamp", time_json <$> me_deleted m);
  (str "finalizers", ne_list JStr (me_finalizers m));
  (str "generateName", ne_str (me_generate m)); (str "generation", ne_int (me_generation m));
  (str "labels", ne_map (me_labels m)); (str "name", ne_str (me_name m)); (str "namespace", ne_str (me_namespace m));
  (str "ownerReferences", ne_list owner_sorted (me_owners m));
  (str "resourceVersion", ne_str (me_version m)); (str "selfLink", ne_str (me_self m)); (str "uid", ne_str (me_uid m))].
Fixpoint increasing (l : list gostr) : bool :=
  match l with a :: ((b :: _) as l') => str_ltb a b && increasing l' | _ => true end.
Lemma increasing_sorted {A} (l : list (gostr * A)) : increasing (map fst l) = true -> StronglySorted key_lt l.
Proof.
  intros H. apply Sorted_StronglySorted; [apply key_lt_trans|]. induction l as [|a l IH]; [constructor|].
  destruct l as [|b l]; [repeat constructor|]. cbn [map increasing] in H. apply andb_true_iff in H as [H1 H2]. constructor; [by apply IH|]. by constructor.
Qed.
Ltac sorted_keys := apply increasing_sorted; cbn [map fst]; vm_compute; reflexivity.
Lemma meta_sorted_sorted m : StronglySorted key_lt (meta_sorted m).
Proof. unfold meta_sorted. sorted_keys. Qed.
Lemma pull {A} n (l : list A) x r : l !! n = Some x -> delete n l ≡ₚ r -> l ≡ₚ x :: r.
Proof. intros H1 H2. rewrite <- H2. by apply delete_Permutation. Qed.
Ltac pulls ns := lazymatch ns with [] => reflexivity | ?n :: ?ns => apply (pull n); [reflexivity|]; cbn [delete list_delete]; pulls ns end.

Section meta.
  Context (E : jenv) (HE : lawful E).
  Lemma iface_owner o : iface E (owner_json o) = owner_sorted o.
  Proof.
    apply iface_members; [|sorted_keys]. cbn [map fst snd fmap option_fmap option_map iface].
    destruct o as [api kind name uid [con|] [blk|]]; cbn; pulls [0; 4; 3; 0; 0; 0].
  Qed.
  Lemma iface_ne_str s : iface E <$> ne_str s = ne_str s.
  Proof. by destruct s. Qed.
  Lemma iface_ne_int z : number E z -> iface E <$> ne_int z = ne_int z.
  Proof. intros [_ H]. unfold ne_int. destruct (z =? 0)%Z; [done|]. cbn. by rewrite H. Qed.
  Lemma iface_ne_map m : valid_map m -> iface E <$> ne_map m = ne_map m.
  Proof.
    intros Hm. unfold ne_map. destruct (sorted_map m) as [|kv l] eqn:Es; [done|]. rewrite <- Es. cbn [fmap option_fmap option_map]. f_equal.
    apply iface_value. destruct (sorted_map_spec m) as [Hs Hp]. constructor.
    - clear Es Hp. induction Hs as [|x l' Hs IH HF]; [constructor|]. cbn [map]. constructor; [done|]. apply Forall_forall. intros y Hy%elem_of_list_In.
      apply in_map_iff in Hy as (z & <- & Hz%elem_of_list_In). by apply (proj1 (Forall_forall _ _) HF) in Hz.
    - apply Forall_forall. intros y Hy%elem_of_list_In. apply in_map_iff in Hy as ([k v] & <- & Hz%elem_of_list_In). cbn. rewrite Hp in Hz.
      apply elem_of_map_to_list in Hz. destruct (Hm k v Hz). split; [done|]. by constructor.
  Qed.
  Lemma iface_ne_list {A} (f g : A -> json) l : (forall x, iface E (f x) = g x) -> iface E <$> ne_list f l = ne_list g l.
  Proof. intros H. destruct l as [|x l]; [done|]. unfold ne_list. cbn [fmap option_fmap option_map]. f_equal. cbn [iface]. f_equal. rewrite map_map. by apply map_ext. Qed.
  Lemma iface_time t : iface E (time_json t) = time_json t.
  Proof. by destruct t. Qed.
  Lemma iface_meta m : good_meta E m -> iface E (meta_json m) = JObj (members (meta_sorted m)).
  Proof.
    intros Hm. apply iface_members; [|apply meta_sorted_sorted]. unfold meta_fields. cbn [map fst snd].
    rewrite !iface_ne_str, iface_ne_int, !iface_ne_map by apply Hm. rewrite (iface_ne_list owner_json owner_sorted) by apply iface_owner.
    rewrite (iface_ne_list JStr JStr) by done.
    replace (iface E <$> Some (time_json (me_created m))) with (Some (time_json (me_created m))) by (cbn; by rewrite iface_time).
    replace (iface E <$> (time_json <$> me_deleted m)) with (time_json <$> me_deleted m) by (destruct (me_deleted m); cbn; by rewrite ?iface_time).
    replace (iface E <$> ((fun z => JNum (itoa z)) <$> me_grace m)) with ((fun z => JNum (itoa z)) <$> me_grace m).
    2:{ destruct (me_grace m) as [z|] eqn:Eg; [|done]. cbn. destruct (gm_grace _ _ Hm z Eg) as [_ ->]. done. }
    unfold meta_sorted. pulls [11; 13; 7; 8; 7; 9; 1; 5; 5; 0; 0; 3; 2; 0; 0].
  Qed.

  Lemma printed_parsed j : printed E j -> parsed j.
  Proof.
    induction j as [|b|l|s|l IH|l IH] using json_ind'; inversion 1; subst; try by constructor.
    - constructor. rewrite Forall_forall in *. auto.
    - constructor. rewrite Forall_forall in *. intros x Hx. match goal with H : forall x, x ∈ l -> _ /\ _ |- _ => destruct (H x Hx) end. auto.
  Qed.
  Lemma printed_owner o : good_owner o -> printed E (owner_json o).
  Proof.
    intros [H1 H2 H3 H4]. apply printed_members. destruct o as [api kind name uid [con|] [blk|]]; cbn in *;
      repeat (apply Forall_cons_2 || apply Forall_nil_2); (split; [vm_compute; reflexivity|]); intros v; (discriminate || (intros [= <-]; by constructor)).
  Qed.
  Lemma depth_owner o : jdepth (owner_json o) <= 1.
  Proof.
    apply depth_members. destruct o as [api kind name uid [con|] [blk|]]; cbn;
      repeat (apply Forall_cons_2 || apply Forall_nil_2); intros v; cbn; (discriminate || (intros [= <-]; cbn; lia)).
  Qed.
  Definition field_good (o : option json) : Prop := forall v, o = Some v -> printed E v /\ jdepth v <= 2.
  Lemma good_ne_str s : valid_utf8 s = true -> field_good (ne_str s).
  Proof. intros H v. destruct s; [done|]. intros [= <-]. split; [by constructor|cbn; lia]. Qed.
  Lemma good_ne_map m : valid_map m -> field_good (ne_map m).
  Proof.
    intros H v Hv. unfold ne_map in Hv. destruct (sorted_map_spec m) as [_ Hp].
    assert (Forall (fun kv => valid_utf8 kv.1 = true /\ valid_utf8 kv.2 = true) (sorted_map m)) as HF.
    { apply Forall_forall. intros [k x] Hx. rewrite Hp in Hx. apply elem_of_map_to_list in Hx. by apply H in Hx. }
    destruct (sorted_map m) as [|kv l]; [done|]. injection Hv as <-. split.
    - constructor. apply Forall_forall. intros y Hy%elem_of_list_In. change (In y (map (fun kv : gostr * gostr => (kv.1, JStr kv.2)) (kv :: l))) in Hy; apply in_map_iff in Hy as (z & <- & Hz%elem_of_list_In).
      apply (proj1 (Forall_forall _ _) HF) in Hz as [? ?]. cbn. split; [done|]. by constructor.
    - etransitivity; [|apply le_S, le_n]. apply jdepth_obj. apply Forall_forall. intros y Hy%elem_of_list_In. change (In y (map (fun kv : gostr * gostr => (kv.1, JStr kv.2)) (kv :: l))) in Hy; apply in_map_iff in Hy as (z & <- & _). done.
  Qed.
  Lemma good_ne_list {A} (f : A -> json) (P : A -> Prop) l : Forall P l -> (forall x, P x -> printed E (f x)) -> (forall x, jdepth (f x) <= 1) -> field_good (ne_list f l).
  Proof.
    intros HF Hp Hd v. destruct l as [|x l]; [done|]. intros [= <-]. change (f x :: map f l) with (map f (x :: l)). split.
    - constructor. apply Forall_forall. intros y Hy%elem_of_list_In. apply in_map_iff in Hy as (z & <- & Hz%elem_of_list_In). apply Hp. by apply (proj1 (Forall_forall _ _) HF).
    - apply jdepth_arr. apply Forall_forall. intros y Hy%elem_of_list_In. apply in_map_iff in Hy as (z & <- & _). apply Hd.
  Qed.
  Lemma good_num z : number E z -> field_good (Some (JNum (itoa z))).
  Proof. intros [_ H] v [= <-]. split; [by constructor|cbn; lia]. Qed.
  Lemma good_ne_int z : number E z -> field_good (ne_int z).
  Proof. intros H. unfold ne_int. destruct (z =? 0)%Z; [done|]. by apply good_num. Qed.
  Lemma good_time t : (forall x, t = Some x -> time E x) -> field_good (Some (time_json t)).
  Proof. intros H v [= <-]. destruct t as [x|]; cbn; (split; [constructor|lia]). by apply H. Qed.
  Lemma good_fields m : good_meta E m -> Forall (fun f => valid_utf8 f.1 = true /\ field_good f.2) (meta_fields m).
  Proof.
    intros Hm. unfold meta_fields. repeat apply Forall_cons_2; try apply Forall_nil_2; (split; [vm_compute; reflexivity|]); cbn [snd];
      try (apply good_ne_str; destruct Hm; assumption); try (apply good_ne_map, Hm).
    - apply good_ne_int, Hm.
    - apply good_time, Hm.
    - destruct (gm_deleted _ _ Hm) as [->|(t & -> & Ht)]; [done|]. apply good_time. by intros x [= <-].
    - destruct (me_grace m) as [z|] eqn:Eg; [|done]. apply good_num. by apply (gm_grace _ _ Hm).
    - eapply good_ne_list; [apply Hm|apply printed_owner|apply depth_owner].
    - apply (good_ne_list JStr (fun s => valid_utf8 s = true)); [apply Hm|intros x Hx; by constructor|intros x; cbn; lia].
  Qed.
  Lemma printed_meta m : good_meta E m -> printed E (meta_json m) /\ jdepth (meta_json m) <= 3.
  Proof.
    intros Hm%good_fields. split.
    - apply printed_members. eapply Forall_impl; [exact Hm|]. cbn. intros f [H1 H2]. split; [done|]. intros v Hv. by apply H2.
    - apply depth_members. eapply Forall_impl; [exact Hm|]. cbn. intros f [H1 H2] v Hv. by apply H2.
  Qed.

  (** *** Reading the members back *)
  Lemma set_step m m' k o fs : (o = None -> m = m') -> (forall v, o = Some v -> set_meta_field E m (k, v) = inr m') ->
    set_fields E m (members ((k, o) :: fs)) = set_fields E m' (members fs).
  Proof.
    intros H1 H2. rewrite members_cons. destruct o as [v|]; cbn [app set_fields]; [by rewrite (H2 v)|]. by rewrite H1.
  Qed.
  Lemma set_slice_map {A} (zero : A) (f : A -> json -> A) (g : A -> json) l : (forall x, f zero (g x) = x) -> set_slice zero f [] (map g l) = l.
  Proof. intros H. induction l as [|x l IH]; [done|]. cbn [map set_slice hd tl]. by rewrite H, IH. Qed.
  Lemma set_owner_back o : set_owner zero_owner (owner_sorted o) = o.
  Proof. destruct o as [api kind name uid [con|] [blk|]]; reflexivity. Qed.
  Lemma str_none s : ne_str s = None -> s = [].
  Proof. by destruct s. Qed.
  Lemma str_some s v : ne_str s = Some v -> set_str [] v = s.
  Proof. destruct s; [done|]. by intros [= <-]. Qed.
  Lemma map_none m : ne_map m = None -> m = ∅.
  Proof. unfold ne_map. destruct (sorted_map m) eqn:Es; [|done]. intros _. by apply sorted_map_nil. Qed.
  Lemma map_some m v : ne_map m = Some v -> set_map ∅ v = m.
  Proof. unfold ne_map. destruct (sorted_map m) as [|kv l] eqn:Es; [done|]. rewrite <- Es. intros [= <-]. apply set_map_back. Qed.
  Lemma int_none z : ne_int z = None -> z = 0%Z.
  Proof. unfold ne_int. by destruct (Z.eqb_spec z 0). Qed.
  Lemma int_some z v : number E z -> ne_int z = Some v -> set_int 0 v = z.
  Proof. intros [H _]. unfold ne_int. destruct (z =? 0)%Z; [done|]. intros [= <-]. cbn [set_int]. by rewrite parse_int_itoa. Qed.
  Lemma grace_none (z : option Z) : (fun z => JNum (itoa z)) <$> z = None -> z = None.
  Proof. by destruct z. Qed.
  Lemma grace_some (z : option Z) v : (forall x, z = Some x -> number E x) -> (fun z => JNum (itoa z)) <$> z = Some v -> set_ptr 0%Z set_int None v = z.
  Proof. intros H. destruct z as [z|]; [|done]. intros [= <-]. cbn [set_ptr set_int default]. destruct (H z eq_refl) as [Hz _]. by rewrite parse_int_itoa. Qed.
  Lemma list_none {A} (f : A -> json) l : ne_list f l = None -> l = [].
  Proof. by destruct l. Qed.
  Lemma strs_some l v : ne_list JStr l = Some v -> set_list [] set_str [] v = l.
  Proof. destruct l as [|x l]; [done|]. intros [= <-]. unfold set_list. apply (set_slice_map [] set_str JStr (x :: l)). done. Qed.
  Lemma owners_some l v : ne_list owner_sorted l = Some v -> set_list zero_owner set_owner [] v = l.
  Proof. destruct l as [|x l]; [done|]. intros [= <-]. unfold set_list. apply (set_slice_map zero_owner set_owner owner_sorted (x :: l)). apply set_owner_back. Qed.
  Lemma time_some t v : (forall x, t = Some x -> time E x) -> Some (time_json t) = Some v -> set_time E v = Some t.
  Proof. intros H [= <-]. destruct t as [x|]; [|done]. cbn. by apply H. Qed.
  Lemma set_created name gen ns self uid ver num cre dele grace labels annos owners fins clus v t : set_time E v = Some t ->
    set_meta_field E (Meta name gen ns self uid ver num cre dele grace labels annos owners fins clus) (str "creationTimestamp", v) =
    inr (Meta name gen ns self uid ver num t dele grace labels annos owners fins clus).
  Proof.
    intros H. transitivity (match set_time E v with
      | Some t => inr (Meta name gen ns self uid ver num t dele grace labels annos owners fins clus)
      | None => inl (Meta name gen ns self uid ver num cre dele grace labels annos owners fins clus) end); [reflexivity|by rewrite H].
  Qed.
  Lemma set_deleted name gen ns self uid ver num cre dele grace labels annos owners fins clus t : time E t ->
    set_meta_field E (Meta name gen ns self uid ver num cre dele grace labels annos owners fins clus) (str "deletionTimestamp", JStr t) =
    inr (Meta name gen ns self uid ver num cre (Some (Some t)) grace labels annos owners fins clus).
  Proof.
    intros [H _]. transitivity (match je_time E t with
      | Some t => inr (Meta name gen ns self uid ver num cre (Some t) grace labels annos owners fins clus)
      | None => inl (Meta name gen ns self uid ver num cre (Some (default None dele)) grace labels annos owners fins clus) end); [reflexivity|by rewrite H].
  Qed.
  Ltac none L := let H := fresh in intros H; apply L in H; rewrite H; reflexivity.
  Ltac some L := let H := fresh in let v := fresh in intros v H; apply L in H; rewrite <- H; reflexivity.
  Tactic Notation "field_str_none" constr(x) := none str_none.
  Tactic Notation "field_str_some" constr(x) := some str_some.
  Tactic Notation "field_map_none" constr(x) := none map_none.
  Tactic Notation "field_map_some" constr(x) := some map_some.
  Tactic Notation "field_strs_none" constr(x) := none @list_none.
  Tactic Notation "field_strs_some" constr(x) := some strs_some.
  Tactic Notation "field_owners_none" constr(x) := none @list_none.
  Tactic Notation "field_owners_some" constr(x) := some owners_some.
  Tactic Notation "field_int_none" constr(x) := none int_none.
  Tactic Notation "field_int_some" constr(x) := let H := fresh in let v := fresh in intros v H; apply int_some in H; [|match goal with Hm : good_meta _ _ |- _ => apply Hm end]; rewrite <- H; reflexivity.
  Tactic Notation "field_grace_none" constr(x) := none grace_none.
  Tactic Notation "field_grace_some" constr(x) := let H := fresh in let v := fresh in intros v H; apply grace_some in H; [|match goal with Hm : good_meta _ _ |- _ => apply Hm end]; rewrite <- H; reflexivity.
  Tactic Notation "field_time_none" constr(x) := let H := fresh in intros H; discriminate H.
  Tactic Notation "field_time_some" constr(x) := let H := fresh in let v := fresh in intros v H; apply time_some in H; [|match goal with Hm : good_meta _ _ |- _ => apply Hm end]; apply set_created, H.
  Tactic Notation "field_deleted_none" constr(x) := let H := fresh in intros H; match goal with |- context [me_deleted ?m] => destruct (me_deleted m); [discriminate H|reflexivity] end.
  Tactic Notation "field_deleted_some" constr(x) := let H := fresh in let v := fresh in let t := fresh in let E1 := fresh in let Ht := fresh in intros v H;
    match goal with Hm : good_meta _ ?m |- _ => destruct (gm_deleted _ _ Hm) as [E1|(t & E1 & Ht)]; rewrite E1 in *; [discriminate H|]; injection H as <-; apply set_deleted; exact Ht end.
  Lemma read_meta m : good_meta E m -> set_fields E zero_meta (members (meta_sorted m)) = m.
  Proof.
    intros Hm. unfold meta_sorted, zero_meta.
    rewrite (set_step _ (Meta [] [] [] [] [] [] 0 None None None ∅ (me_annos m) [] [] [])); [|field_map_none (me_annos m)|field_map_some (me_annos m)].
    rewrite (set_step _ (Meta [] [] [] [] [] [] 0 None None None ∅ (me_annos m) [] [] (me_cluster m))); [|field_str_none (me_cluster m)|field_str_some (me_cluster m)].
    rewrite (set_step _ (Meta [] [] [] [] [] [] 0 (me_created m) None None ∅ (me_annos m) [] [] (me_cluster m))); [|field_time_none (me_created m)|field_time_some (me_created m)].
    rewrite (set_step _ (Meta [] [] [] [] [] [] 0 (me_created m) None (me_grace m) ∅ (me_annos m) [] [] (me_cluster m))); [|field_grace_none (me_grace m)|field_grace_some (me_grace m)].
    rewrite (set_step _ (Meta [] [] [] [] [] [] 0 (me_created m) (me_deleted m) (me_grace m) ∅ (me_annos m) [] [] (me_cluster m))); [|field_deleted_none (me_deleted m)|field_deleted_some (me_deleted m)].
    rewrite (set_step _ (Meta [] [] [] [] [] [] 0 (me_created m) (me_deleted m) (me_grace m) ∅ (me_annos m) [] (me_finalizers m) (me_cluster m))); [|field_strs_none (me_finalizers m)|field_strs_some (me_finalizers m)].
    rewrite (set_step _ (Meta [] (me_generate m) [] [] [] [] 0 (me_created m) (me_deleted m) (me_grace m) ∅ (me_annos m) [] (me_finalizers m) (me_cluster m))); [|field_str_none (me_generate m)|field_str_some (me_generate m)].
    rewrite (set_step _ (Meta [] (me_generate m) [] [] [] [] (me_generation m) (me_created m) (me_deleted m) (me_grace m) ∅ (me_annos m) [] (me_finalizers m) (me_cluster m))); [|field_int_none (me_generation m)|field_int_some (me_generation m)].
    rewrite (set_step _ (Meta [] (me_generate m) [] [] [] [] (me_generation m) (me_created m) (me_deleted m) (me_grace m) (me_labels m) (me_annos m) [] (me_finalizers m) (me_cluster m))); [|field_map_none (me_labels m)|field_map_some (me_labels m)].
    rewrite (set_step _ (Meta (me_name m) (me_generate m) [] [] [] [] (me_generation m) (me_created m) (me_deleted m) (me_grace m) (me_labels m) (me_annos m) [] (me_finalizers m) (me_cluster m))); [|field_str_none (me_name m)|field_str_some (me_name m)].
    rewrite (set_step _ (Meta (me_name m) (me_generate m) (me_namespace m) [] [] [] (me_generation m) (me_created m) (me_deleted m) (me_grace m) (me_labels m) (me_annos m) [] (me_finalizers m) (me_cluster m))); [|field_str_none (me_namespace m)|field_str_some (me_namespace m)].
    rewrite (set_step _ (Meta (me_name m) (me_generate m) (me_namespace m) [] [] [] (me_generation m) (me_created m) (me_deleted m) (me_grace m) (me_labels m) (me_annos m) (me_owners m) (me_finalizers m) (me_cluster m))); [|field_owners_none (me_owners m)|field_owners_some (me_owners m)].
    rewrite (set_step _ (Meta (me_name m) (me_generate m) (me_namespace m) [] [] (me_version m) (me_generation m) (me_created m) (me_deleted m) (me_grace m) (me_labels m) (me_annos m) (me_owners m) (me_finalizers m) (me_cluster m))); [|field_str_none (me_version m)|field_str_some (me_version m)].
    rewrite (set_step _ (Meta (me_name m) (me_generate m) (me_namespace m) (me_self m) [] (me_version m) (me_generation m) (me_created m) (me_deleted m) (me_grace m) (me_labels m) (me_annos m) (me_owners m) (me_finalizers m) (me_cluster m))); [|field_str_none (me_self m)|field_str_some (me_self m)].
    rewrite (set_step _ (Meta (me_name m) (me_generate m) (me_namespace m) (me_self m) (me_uid m) (me_version m) (me_generation m) (me_created m) (me_deleted m) (me_grace m) (me_labels m) (me_annos m) (me_owners m) (me_finalizers m) (me_cluster m))); [|field_str_none (me_uid m)|field_str_some (me_uid m)].
    by destruct m.
  Qed.
End meta.

(** ** Objects *)
Lemma join_app (s : gostr) a b : a <> [] -> b <> [] -> join s (a ++ b) = join s a ++ s ++ join s b.
Proof.
  intros Ha Hb. induction a as [|x a IH]; [done|]. destruct a as [|y a].
  - destruct b as [|y b]; [done|]. cbn [app]. by rewrite join_cons_cons.
  - cbn [app] in *. rewrite !join_cons_cons, IH by done. by rewrite <- !app_assoc.
Qed.
Definition head_fields (o : objtype) : list (gostr * option json) :=
  [(str "kind", ne_str (t_kind o)); (str "apiVersion", ne_str (t_api o)); (str "metadata", Some (meta_json (t_meta o)))].
Lemma head_members o : exists l, members (head_fields o) = l ++ [(str "metadata", meta_json (t_meta o))].
Proof. exists (members [(str "kind", ne_str (t_kind o)); (str "apiVersion", ne_str (t_api o))]). unfold head_fields. rewrite !members_cons. cbn [members flat_map]. rewrite ?app_nil_r, <- ?app_assoc. reflexivity. Qed.
Lemma obj_text l : json_text (JObj l) = "{"%char :: join (str ",") (map mtext l) ++ ["}"%char].
Proof. done. Qed.
Lemma obj_text_nonempty kv l : json_text (JObj (kv :: l)) <> str "{}" /\ json_text (JObj (kv :: l)) <> str "null".
Proof.
  assert (exists t, json_text (JObj (kv :: l)) = "{"%char :: dquote :: t) as [t ->].
  { rewrite obj_text. cbn [map]. destruct l; cbn [map join]; eexists; reflexivity. }
  split; discriminate.
Qed.
Lemma encode_text o : encode_obj o = json_text (JObj (t_data o ++ members (head_fields o))).
Proof.
  unfold encode_obj. change (head_json o) with (JObj (members (head_fields o))).
  destruct (t_data o) as [|kv l] eqn:Ed; [done|].
  destruct (obj_text_nonempty kv l) as [H1 H2]. rewrite (proj2 (str_eqb_neq _ _) H1), (proj2 (str_eqb_neq _ _) H2). cbn [orb].
  destruct (members (head_fields o)) as [|kv' l'] eqn:Eh.
  { destruct (head_members o) as [x E]. rewrite Eh in E. by destruct x. }
  destruct (obj_text_nonempty kv' l') as [H3 _]. rewrite (proj2 (str_eqb_neq _ _) H3).
  rewrite !obj_text. rewrite app_comm_cons, removelast_last. cbn [drop]. rewrite map_app, join_app by done.
  cbn [app]. f_equal. by rewrite <- !app_assoc.
Qed.
Lemma perm_elem {A} (l l' : list (gostr * A)) : StronglySorted key_lt l -> StronglySorted key_lt l' -> (forall x, x ∈ l <-> x ∈ l') -> l = l'.
Proof.
  intros H1 H2 H. apply (StronglySorted_unique key_lt); [done|done|]. apply NoDup_Permutation; [| |done]; eapply NoDup_fmap_1; by apply sorted_nodup.
Qed.

Section obj.
  Context (E : jenv) (HE : lawful E).
  Lemma printed_obj o : good_obj E o -> printed E (JObj (t_data o ++ members (head_fields o))) /\ jdepth (JObj (t_data o ++ members (head_fields o))) <= max_nesting.
  Proof.
    intros Ho. destruct (printed_meta E _ (gd_meta _ _ Ho)) as [Hm Hmd].
    assert (printed E (JObj (members (head_fields o)))) as Hh.
    { apply printed_members. repeat apply Forall_cons_2; try apply Forall_nil_2; (split; [vm_compute; reflexivity|]); cbn [snd].
      - intros v Hv. apply (good_ne_str E (t_kind o)); [apply Ho|done].
      - intros v Hv. apply (good_ne_str E (t_api o)); [apply Ho|done].
      - by intros v [= <-]. }
    split.
    - constructor. apply Forall_app. split; [|by inversion Hh].
      pose proof (value_printed _ _ (gd_data _ _ Ho)) as Hd. by inversion Hd.
    - pose proof (gd_depth _ _ Ho) as Hd. destruct max_nesting as [|d] eqn:Ed; [by apply (f_equal N.of_nat) in Ed; vm_compute in Ed|].
      assert (3 <= d) as Hd3. { assert (4 <= max_nesting) by (unfold max_nesting; apply Nat.leb_le; vm_compute; reflexivity). lia. }
      apply jdepth_obj in Hd. apply jdepth_obj. apply Forall_app. split; [done|]. apply Forall_forall. intros [k v] Hv%members_elem. cbn [snd].
      unfold head_fields in Hv. rewrite !elem_of_cons, elem_of_nil in Hv. destruct Hv as [Hv|[Hv|[Hv|[]]]]; injection Hv as _ Hv.
      + symmetry in Hv. destruct (t_kind o); [done|]. injection Hv as <-. cbn; lia.
      + symmetry in Hv. destruct (t_api o); [done|]. injection Hv as <-. cbn; lia.
      + subst v. lia.
  Qed.
  Definition head_sorted (o : objtype) : list (gostr * option json) :=
    [(str "apiVersion", ne_str (t_api o)); (str "kind", ne_str (t_kind o)); (str "metadata", Some (JObj (members (meta_sorted (t_meta o)))))].
  Lemma head_sorted_keys o : StronglySorted key_lt (members (head_sorted o)).
  Proof. apply members_sorted. unfold head_sorted. sorted_keys. Qed.
  Lemma head_reserved o k v : (k, v) ∈ members (head_sorted o) -> k ∈ reserved.
  Proof.
    intros Hv%members_elem. unfold head_sorted in Hv. rewrite !elem_of_cons, elem_of_nil in Hv. unfold reserved. rewrite !elem_of_cons, elem_of_nil.
    destruct Hv as [Hv|[Hv|[Hv|[]]]]; injection Hv as -> _; tauto.
  Qed.
  Definition whole (o : objtype) : list (gostr * json) := t_data o ++ members (head_sorted o).
  Lemma whole_nodup o : good_obj E o -> NoDup (whole o).*1.
  Proof.
    intros Ho. unfold whole. rewrite fmap_app. apply NoDup_app. split_and!.
    - apply sorted_nodup. pose proof (gd_data _ _ Ho) as H. by inversion H.
    - intros k Hk ([k' v] & -> & Hv)%elem_of_list_fmap. apply head_reserved in Hv. by apply (gd_reserved _ _ Ho k').
    - apply sorted_nodup, head_sorted_keys.
  Qed.
  Lemma decode_map_encode o : good_obj E o -> exists l, decode_map E (encode_obj o) = l /\ StronglySorted key_lt l /\ l ≡ₚ whole o.
  Proof.
    intros Ho. exists (puts (whole o) []).
    assert (puts (whole o) [] ≡ₚ whole o) as Hp by (rewrite puts_perm; [done|by apply whole_nodup]).
    split_and!; [|apply puts_sorted; constructor|done].
    unfold decode_map. rewrite encode_text. destruct (printed_obj o Ho) as [H1 H2]. rewrite (parse_printed E HE) by done.
    rewrite iface_obj. apply puts_unique; [|apply puts_sorted; constructor]. rewrite Hp.
    unfold whole. rewrite map_app. apply Permutation_app.
    - assert (map (fun kv => (kv.1, iface E kv.2)) (t_data o) = t_data o) as ->; [|done].
      rewrite <- (map_id (t_data o)) at 2. apply map_ext_in. intros [k v] Hin%elem_of_list_In. cbn. f_equal. apply iface_value.
      pose proof (gd_data _ _ Ho) as Hd. inversion Hd as [| | | | |l Hs HF]; subst. by apply (proj1 (Forall_forall _ _) HF) in Hin as [_ ?].
    - rewrite members_map. apply members_perm. unfold head_fields, head_sorted. cbn [map fst snd]. rewrite !iface_ne_str.
      change (iface E <$> Some (meta_json (t_meta o))) with (Some (iface E (meta_json (t_meta o)))). rewrite iface_meta by apply Ho. pulls [1; 0; 0].
  Qed.
  Lemma get_perm {A} (l l' : list (gostr * A)) k : l ≡ₚ l' -> NoDup l'.*1 -> get k l = get k l'.
  Proof.
    intros Hp Hnd. destruct (get k l') as [v|] eqn:E'.
    - apply get_denotes; [by rewrite Hp|]. apply get_elem in E'. rewrite <- Hp in E'. apply elem_of_list_split in E' as (l1 & l2 & ->).
      exists l1, l2. split; [done|]. rewrite <- Hp, fmap_app in Hnd. apply NoDup_app in Hnd as (_ & _ & Hnd). by apply NoDup_cons in Hnd as [? _].
    - apply get_none. apply get_none in E'. by rewrite Hp.
  Qed.
  Theorem round_trip o : good_obj E o -> decode_obj E (encode_obj o) = Ok o.
  Proof.
    intros Ho. destruct (decode_map_encode o Ho) as (l & El & Hs & Hp). unfold decode_obj. rewrite El.
    pose proof (whole_nodup o Ho) as Hnd.
    assert (forall k, k ∈ reserved -> get k l = get k (members (head_sorted o))) as Hget.
    { intros k Hk. rewrite (get_perm l (whole o)) by done. unfold whole. rewrite get_app.
      replace (get k (t_data o)) with (@None json); [done|]. symmetry. apply get_none. by apply (gd_reserved _ _ Ho). }
    assert (str "apiVersion" ∈ reserved /\ str "kind" ∈ reserved /\ str "metadata" ∈ reserved) as (Hr1 & Hr2 & Hr3).
    { unfold reserved. split_and!; rewrite !elem_of_cons; tauto. }
    assert (get (str "apiVersion") l = ne_str (t_api o)) as G1.
    { rewrite Hget by done. unfold head_sorted. rewrite members_cons, get_app. destruct (t_api o); cbn [ne_str get].
      - rewrite !members_cons, get_app. destruct (t_kind o); reflexivity.
      - reflexivity. }
    assert (get (str "kind") l = ne_str (t_kind o)) as G2.
    { rewrite Hget by done. unfold head_sorted. rewrite !members_cons, !get_app. destruct (t_api o), (t_kind o); reflexivity. }
    assert (get (str "metadata") l = Some (JObj (members (meta_sorted (t_meta o))))) as G3.
    { rewrite Hget by done. unfold head_sorted. rewrite !members_cons, !get_app. destruct (t_api o), (t_kind o); reflexivity. }
    unfold str_member. rewrite G1, G2, G3.
    replace (match ne_str (t_api o) with None => Ok [] | Some (JStr s) => Ok s | Some _ => Panics end) with (Ok (t_api o)) by (by destruct (t_api o)).
    replace (match ne_str (t_kind o) with None => Ok [] | Some (JStr s) => Ok s | Some _ => Panics end) with (Ok (t_kind o)) by (by destruct (t_kind o)).
    f_equal.
    assert (decode_meta E (json_text (JObj (members (meta_sorted (t_meta o))))) = t_meta o) as ->.
    { destruct (printed_meta E _ (gd_meta _ _ Ho)) as [H1 H2]. rewrite <- (iface_meta E) by apply Ho. unfold decode_meta. rewrite (parse_printed E HE).
      - rewrite iface_meta by apply Ho. apply read_meta, Ho.
      - apply value_printed, parsed_value; [done|]. by eapply printed_parsed.
      - apply iface_depth. etransitivity; [exact H2|]. unfold max_nesting. apply Nat.leb_le. vm_compute. reflexivity. }
    assert (del (str "metadata") (del (str "kind") (del (str "apiVersion") l)) = t_data o) as ->; [|by destruct o].
    apply perm_elem.
    - by apply del_sorted, del_sorted, del_sorted.
    - pose proof (gd_data _ _ Ho) as H. by inversion H.
    - intros [k v]. rewrite !del_elem, Hp. cbn [fst]. unfold whole. rewrite elem_of_app. split.
      + intros [[[[H|H] H1] H2] H3]; [done|]. apply head_reserved in H. unfold reserved in H. rewrite !elem_of_cons, elem_of_nil in H. tauto.
      + intros H. assert (k ∈ (t_data o).*1) as Hk by (apply elem_of_list_fmap; by exists (k, v)).
        split; [split; [split; [by left|]|]|]; intros Ek; rewrite Ek in Hk; first [exact (gd_reserved _ _ Ho _ Hr1 Hk)|exact (gd_reserved _ _ Ho _ Hr2 Hk)|exact (gd_reserved _ _ Ho _ Hr3 Hk)].
  Qed.
End obj.

(** ** What decoding returns *)
Definition no_delete (m : meta) : meta :=
  Meta (me_name m) (me_generate m) (me_namespace m) (me_self m) (me_uid m) (me_version m) (me_generation m) (me_created m) None
    (me_grace m) (me_labels m) (me_annos m) (me_owners m) (me_finalizers m) (me_cluster m).
Definition weak_meta (E : jenv) (m : meta) : Prop := good_meta E (no_delete m) /\ forall t, me_deleted m = Some (Some t) -> time E t.
Section decoded.
  Context (E : jenv) (HE : lawful E).
  Lemma ok_str s v : valid_utf8 s = true -> value E v -> valid_utf8 (set_str s v) = true.
  Proof. intros Hs Hv. destruct v; try done. by inversion Hv. Qed.
  Lemma number_zero : number E 0.
  Proof. split; [vm_compute; reflexivity|]. change (itoa 0) with (str "0"). apply HE. Qed.
  Lemma parse_int_range l z : parse_int l = Some z -> in_int64 z = true.
  Proof.
    unfold parse_int. destruct (match l with [] => _ | _ => _ end) as [neg [|d ds]]; [done|]. destruct (digits_uint _) as [u|]; [|done]. cbv zeta.
    destruct (in_int64 _) eqn:Ei; [|done]. by intros [= <-].
  Qed.
  Lemma ok_int z v : number E z -> value E v -> number E (set_int z v).
  Proof.
    intros Hz Hv. destruct v as [| |l| | |]; try done. inversion Hv; subst. cbn [set_int]. destruct (parse_int l) as [x|] eqn:Ex; [|done].
    split; [by eapply parse_int_range|]. by eapply law_int.
  Qed.
  Lemma ok_grace z v : (forall x, z = Some x -> number E x) -> value E v -> forall x, set_ptr 0%Z set_int z v = Some x -> number E x.
  Proof.
    intros Hz Hv x. assert (number E (default 0%Z z)) as Hd by (destruct z as [z|]; [by apply Hz|apply number_zero]).
    pose proof (ok_int _ v Hd Hv) as H. destruct v; [discriminate|..]; intros Hx; injection Hx as Hx; rewrite <- Hx; exact H.
  Qed.
  Lemma ok_time v t : value E v -> set_time E v = Some t -> forall x, t = Some x -> time E x.
  Proof.
    intros Hv Ht x ->. destruct v; cbn in Ht; try done. unfold time. by eapply law_time.
  Qed.
  Lemma ok_map m v : valid_map m -> value E v -> valid_map (set_map m v).
  Proof.
    intros Hm Hv. unfold set_map. destruct v as [| | | |l|l]; try done. inversion Hv as [| | | | |l' Hs HF]; subst. clear Hv Hs.
    revert m Hm. induction HF as [|[k v] l [Hk Hv] HF IH]; intros m Hm; [done|]. cbn [fold_left fst snd]. apply IH. apply map_Forall_insert_2; [|done].
    split; [done|]. by apply ok_str.
  Qed.
  Lemma ok_list {A} (zero : A) (f : A -> json -> A) (P : A -> Prop) old v : P zero -> (forall x j, P x -> value E j -> P (f x j)) ->
    Forall P old -> value E v -> Forall P (set_list zero f old v).
  Proof.
    intros Hz Hf Ho Hv. unfold set_list. destruct v as [| | | |l|l]; try done; try (by constructor). inversion Hv as [| | | |l' HF|]; subst. clear Hv.
    revert old Ho. induction HF as [|x l Hx HF IH]; intros old Ho; [constructor|]. cbn [set_slice]. constructor.
    - apply Hf; [|done]. by destruct Ho.
    - apply IH. destruct Ho; [constructor|done].
  Qed.
  Lemma ok_owner o v : good_owner o -> value E v -> good_owner (set_owner o v).
  Proof.
    intros Ho Hv. unfold set_owner. destruct v as [| | | | |l]; try done. inversion Hv as [| | | | |l' Hs HF]; subst. clear Hv Hs.
    revert o Ho. induction HF as [|[k v] l [Hk Hv] HF IH]; intros o Ho; [done|]. cbn [fold_left]. apply IH. destruct Ho as [H1 H2 H3 H4].
    destruct o as [api kind name uid con blk]. cbn [ow_api ow_kind ow_name ow_uid] in *. unfold set_owner_field.
    repeat match goal with |- good_owner (if ?c then _ else _) => destruct c; [constructor; cbn [ow_api ow_kind ow_name ow_uid]; try done; by apply ok_str|] end.
    by constructor.
  Qed.
  Lemma weak_field m k v : weak_meta E m -> value E v -> match set_meta_field E m (k, v) with inl m' | inr m' => weak_meta E m' end.
  Proof.
    intros [Hm Hd] Hv. destruct m as [name gen ns self uid ver num cre dele grace labels annos owners fins clus].
    assert (good_owner zero_owner) as Hzo by by constructor.
    destruct Hm as [G1 G2 G3 G4 G5 G6 G7 G8 G9 G10 G11 G12 G13 G14 G15]. unfold no_delete in *.
    cbn [me_name me_generate me_namespace me_self me_uid me_version me_generation me_created me_deleted me_grace me_labels me_annos me_owners me_finalizers me_cluster] in *.
    Local Ltac weak := split; [constructor; cbn [no_delete me_name me_generate me_namespace me_self me_uid me_version me_generation me_created me_deleted me_grace me_labels me_annos me_owners me_finalizers me_cluster]; try assumption; try (left; reflexivity)|try assumption].
    unfold set_meta_field.
    destruct (str_eqb _ (str "name")); [weak; by apply ok_str|].
    destruct (str_eqb _ (str "generatename")); [weak; by apply ok_str|].
    destruct (str_eqb _ (str "namespace")); [weak; by apply ok_str|].
    destruct (str_eqb _ (str "selflink")); [weak; by apply ok_str|].
    destruct (str_eqb _ (str "uid")); [weak; by apply ok_str|].
    destruct (str_eqb _ (str "resourceversion")); [weak; by apply ok_str|].
    destruct (str_eqb _ (str "generation")); [weak; by apply ok_int|].
    destruct (str_eqb _ (str "creationtimestamp")).
    { destruct (set_time E v) as [t|] eqn:Et; weak. by eapply ok_time. }
    destruct (str_eqb _ (str "deletiontimestamp")).
    { destruct v; try (weak; intros t; cbn; discriminate);
        match goal with |- context [set_time E ?w] => destruct (set_time E w) as [t|] eqn:Et end; weak; cbn [me_deleted]; intros x Hx; injection Hx as Hx;
        first [by eapply ok_time | (apply Hd; destruct dele; cbn in *; congruence)]. }
    destruct (str_eqb _ (str "deletiongraceperiodseconds")); [weak; by apply ok_grace|].
    destruct (str_eqb _ (str "labels")); [weak; by apply ok_map|].
    destruct (str_eqb _ (str "annotations")); [weak; by apply ok_map|].
    destruct (str_eqb _ (str "ownerreferences")); [weak; apply ok_list; try done; by intros; apply ok_owner|].
    destruct (str_eqb _ (str "finalizers")); [weak; apply ok_list; try done; by intros; apply ok_str|].
    destruct (str_eqb _ (str "clustername")); [weak; by apply ok_str|]. weak.
  Qed.
  Lemma weak_zero : weak_meta E zero_meta.
  Proof. split; [|done]. constructor; try done; cbn; try constructor; try reflexivity; try (apply number_zero). Qed.
  Lemma weak_decode v : value E v -> jdepth v <= max_nesting -> weak_meta E (decode_meta E (json_text v)).
  Proof.
    intros Hv Hd. unfold decode_meta. rewrite (parse_printed E HE) by (done || by apply value_printed).
    destruct v as [| | | | |l]; try apply weak_zero. inversion Hv as [| | | | |l' Hs HF]; subst. clear Hv Hs Hd. generalize weak_zero. generalize zero_meta.
    induction HF as [|[k v] l [Hk Hv] HF IH]; intros m Hm; [done|]. cbn [set_fields]. pose proof (weak_field m k v Hm Hv) as H.
    destruct (set_meta_field E m (k, v)); auto.
  Qed.
  Lemma decode_map_value s : value E (JObj (decode_map E s)) /\ jdepth (JObj (decode_map E s)) <= max_nesting.
  Proof.
    assert (value E (JObj []) /\ jdepth (JObj []) <= max_nesting) as Hnil.
    { split; [repeat constructor|]. unfold max_nesting. apply Nat.leb_le. vm_compute. reflexivity. }
    unfold decode_map. destruct (json_parse s) as [j|] eqn:Ej; [|done]. apply json_parse_parsed in Ej as [Hp Hd].
    apply (parsed_value E HE) in Hp. apply (iface_depth E) in Hd. by destruct (iface E j).
  Qed.
End decoded.
