(** Proofs about the concurrent store. *)
From Coq Require Import Ascii String NArith ZArith Lia.
From stdpp Require Import base gmap strings list.
From Verif Require Import ModelStr ModelStore ModelConc SpecConc.

(** ** The maps *)
Lemma clusters_init_cluster m g c g' : is_Some (clusters (init_cluster m g c) g') <-> is_Some (clusters m g').
Proof.
  unfold clusters, init_cluster. destruct (decide (g = g')) as [->|].
  - rewrite lookup_alter. destruct (m !! g'); simpl; split; intros [? ?]; eauto; done.
  - by rewrite lookup_alter_ne.
Qed.
Lemma namespaces_init_cluster (m : tree) (g : gvr) (c : gostr) (g' : gvr) (c' : gostr) :
  namespaces (init_cluster m g c) g' c' =
  if decide (g = g' /\ c = c') then (fun _ => default ∅ (namespaces m g c)) <$> clusters m g else namespaces m g' c'.
Proof.
  unfold namespaces, clusters, init_cluster. destruct (decide (g = g')) as [->|Hg].
  - rewrite lookup_alter. destruct (m !! g') as [cs|]; simpl; [|by destruct (decide _)].
    destruct (decide (c = c')) as [->|Hc].
    + rewrite decide_True by done. destruct (cs !! c') eqn:H; simpl; [by rewrite H|by rewrite lookup_insert].
    + rewrite decide_False by tauto. destruct (cs !! c) eqn:H; [done|by rewrite lookup_insert_ne].
  - rewrite lookup_alter_ne by done. rewrite decide_False by tauto. done.
Qed.
Lemma objects_init_cluster m g c g' c' ns' : objects (init_cluster m g c) g' c' ns' = objects m g' c' ns'.
Proof.
  unfold objects. rewrite namespaces_init_cluster. destruct (decide _) as [[-> ->]|]; [|done].
  unfold namespaces, clusters. destruct (m !! g') as [cs|]; simpl; [|done]. by destruct (cs !! c').
Qed.
Lemma clusters_alter (f : clmap -> clmap) (m : tree) g c g' : is_Some (clusters (alter_nss f m g c) g') <-> is_Some (clusters m g').
Proof.
  unfold clusters, alter_nss. destruct (decide (g = g')) as [->|].
  - rewrite lookup_alter. destruct (m !! g'); simpl; split; intros [? ?]; eauto; done.
  - by rewrite lookup_alter_ne.
Qed.
Lemma namespaces_alter (f : clmap -> clmap) (m : tree) (g : gvr) (c : gostr) (g' : gvr) (c' : gostr) :
  namespaces (alter_nss f m g c) g' c' = if decide (g = g' /\ c = c') then f <$> namespaces m g c else namespaces m g' c'.
Proof.
  unfold namespaces, alter_nss. destruct (decide (g = g')) as [->|Hg].
  - rewrite lookup_alter. destruct (m !! g') as [cs|]; simpl; [|by destruct (decide _)].
    destruct (decide (c = c')) as [->|Hc].
    + rewrite decide_True by done. by rewrite lookup_alter.
    + rewrite decide_False by tauto. by rewrite lookup_alter_ne.
  - rewrite lookup_alter_ne by done. rewrite decide_False by tauto. done.
Qed.
Lemma objects_init_ns (m : tree) (g : gvr) (c ns : gostr) (g' : gvr) (c' ns' : gostr) :
  objects (init_ns m g c ns) g' c' ns' =
  if decide (g = g' /\ c = c' /\ ns = ns') then (fun _ => default ∅ (objects m g c ns)) <$> namespaces m g c else objects m g' c' ns'.
Proof.
  unfold objects, init_ns. rewrite namespaces_alter. destruct (decide (g = g' /\ c = c')) as [[-> ->]|Hn].
  - destruct (namespaces m g' c') as [nss|]; simpl; [|by destruct (decide _)].
    destruct (decide (ns = ns')) as [->|Hne].
    + rewrite decide_True by done. destruct (nss !! ns') eqn:H; simpl; [by rewrite H|by rewrite lookup_insert].
    + rewrite decide_False by tauto. destruct (nss !! ns) eqn:H; [done|by rewrite lookup_insert_ne].
  - rewrite decide_False by tauto. done.
Qed.
Lemma objects_alter (f : nsmap -> nsmap) (m : tree) (g : gvr) (c ns : gostr) (g' : gvr) (c' ns' : gostr) :
  objects (alter_objs f m g c ns) g' c' ns' = if decide (g = g' /\ c = c' /\ ns = ns') then f <$> objects m g c ns else objects m g' c' ns'.
Proof.
  unfold objects, alter_objs. rewrite namespaces_alter. destruct (decide (g = g' /\ c = c')) as [[-> ->]|Hn].
  - destruct (namespaces m g' c') as [nss|]; simpl; [|by destruct (decide _)].
    destruct (decide (ns = ns')) as [->|Hne].
    + rewrite decide_True by done. by rewrite lookup_alter.
    + rewrite decide_False by tauto. by rewrite lookup_alter_ne.
  - rewrite decide_False by tauto. done.
Qed.
Definition obj_at (m : tree) (g : gvr) (c ns n : gostr) : option entry := objects m g c ns ≫= fun os => os !! n.
Lemma value_obj_at s g c ns n : value s (g, c, ns, n) = obj_at (c_map s) g c ns n.
Proof.
  unfold value, obj_at, objects, namespaces. destruct (c_map s !! g) as [cs|]; simpl; [|done].
  destruct (cs !! c) as [nss|]; simpl; [|done]. by destruct (nss !! ns).
Qed.

(** Existence is never lost. *)
Definition grows (m m' : tree) : Prop :=
  (forall g, is_Some (clusters m g) <-> is_Some (clusters m' g)) /\
  (forall g c, is_Some (namespaces m g c) -> is_Some (namespaces m' g c)) /\
  (forall g c ns, is_Some (objects m g c ns) -> is_Some (objects m' g c ns)).
Lemma grows_refl m : grows m m.
Proof. done. Qed.
Lemma grows_trans m1 m2 m3 : grows m1 m2 -> grows m2 m3 -> grows m1 m3.
Proof.
  intros (A & B & C) (A' & B' & C'). split_and!; [|eauto..]. intros g. rewrite A. done.
Qed.
Lemma grows_init_cluster m g c : grows m (init_cluster m g c).
Proof.
  split_and!.
  - intros g'. by rewrite clusters_init_cluster.
  - intros g' c' H. rewrite namespaces_init_cluster. destruct (decide _) as [[-> ->]|]; [|done].
    unfold namespaces, clusters in *. destruct (m !! g'); simpl in *; [eauto|done].
  - intros g' c' ns'. by rewrite objects_init_cluster.
Qed.
Lemma grows_alter (f : clmap -> clmap) (m : tree) g c : (forall nss ns, is_Some (nss !! ns) -> is_Some (f nss !! ns)) -> grows m (alter_nss f m g c).
Proof.
  intros Hf. split_and!.
  - intros g'. by rewrite clusters_alter.
  - intros g' c' H. rewrite namespaces_alter. destruct (decide _) as [[-> ->]|]; [|done].
    destruct (namespaces m g' c'); simpl; eauto.
  - intros g' c' ns' H. unfold objects in *. rewrite namespaces_alter. destruct (decide _) as [[-> ->]|]; [|done].
    destruct (namespaces m g' c') as [nss|]; simpl in *; eauto.
Qed.
Lemma grows_init_ns m g c ns : grows m (init_ns m g c ns).
Proof.
  apply grows_alter. intros nss ns' H. destruct (nss !! ns) eqn:Hn; [done|].
  destruct (decide (ns = ns')) as [->|]; [rewrite lookup_insert; eauto|by rewrite lookup_insert_ne].
Qed.
Lemma grows_alter_objs (f : nsmap -> nsmap) (m : tree) g c ns : grows m (alter_objs f m g c ns).
Proof. apply grows_alter. intros nss ns' H. by apply lookup_alter_is_Some. Qed.
Lemma tstep_grows rd wr m p m' p' : tstep rd wr m p m' p' -> grows m m'.
Proof.
  destruct 1; auto using grows_refl, grows_init_cluster, grows_init_ns. all: apply grows_alter_objs.
Qed.

(** ** What a step does to the objects of a namespace *)
(** The write that the next step makes. *)
Definition writes (p : pc) (g : gvr) (c ns : gostr) : option (nsmap -> nsmap) :=
  match p with
  | TPut (ASet true) g' c' ns' n v => if decide (g' = g /\ c' = c /\ ns' = ns) then Some (set_obj n v) else None
  | TClean (BWipe (ns' :: _) true) g' c' => if decide (g' = g /\ c' = c /\ ns' = ns) then Some (fun _ => ∅) else None
  | _ => None
  end.
Lemma tstep_objects rd wr m p m' p' g c ns : tstep rd wr m p m' p' ->
  match writes p g c ns with
  | Some f => wr (LkN g c ns) /\ objects m' g c ns = f <$> objects m g c ns
  | None => objects m' g c ns = objects m g c ns \/ (objects m g c ns = None /\ objects m' g c ns = Some ∅)
  end.
Proof.
  destruct 1; simpl; try by left.
  - left. apply objects_init_cluster.
  - rewrite objects_init_ns. destruct (decide _) as [(-> & -> & ->)|]; [|by left].
    unfold objects. destruct (namespaces m g c) as [nss|]; simpl; [|by left]. destruct (nss !! ns); [by left|by right].
  - destruct (decide (g0 = g /\ c0 = c /\ ns0 = ns)) as [(-> & -> & ->)|Hn].
    + split; [done|]. rewrite objects_alter. by rewrite decide_True.
    + left. rewrite objects_alter. by rewrite decide_False.
  - destruct (decide (g0 = g /\ c0 = c /\ ns0 = ns)) as [(-> & -> & ->)|Hn].
    + split; [done|]. rewrite objects_alter. by rewrite decide_True.
    + left. rewrite objects_alter. by rewrite decide_False.
Qed.
Lemma tstep_obj_at rd wr m p m' p' g c ns n : tstep rd wr m p m' p' ->
  obj_at m' g c ns n =
  match writes p g c ns with
  | Some f => (f <$> objects m g c ns) ≫= (fun os => os !! n)
  | None => obj_at m g c ns n
  end.
Proof.
  intros H. unfold obj_at. apply (tstep_objects _ _ _ _ _ _ g c ns) in H. destruct (writes p g c ns).
  - destruct H as [_ ->]. done.
  - destruct H as [->|[-> ->]]; [done|]. simpl. apply lookup_empty.
Qed.

(** ** The invariant of one goroutine *)
Definition pc_ok (m : tree) (p : pc) : Prop :=
  match p with
  | TPut a g c ns n v =>
      is_Some (clusters m g) /\
      match a with AInitC _ => True | _ => is_Some (namespaces m g c) end /\
      match a with AInitC _ | AGetC1 | AInitN _ => True | _ => is_Some (objects m g c ns) end
  | TClean a g c =>
      is_Some (clusters m g) /\
      match a with BExists => True | _ => is_Some (namespaces m g c) end /\
      match a with BWipe nss _ => Forall (fun ns => is_Some (objects m g c ns)) nss | _ => True end
  | TGet a g c ns n =>
      match a with GExC => True | _ => is_Some (namespaces m g c) end /\
      match a with GExC | GGetC1 | GExN => True | _ => is_Some (objects m g c ns) end
  | TQuery a g ns acc =>
      is_Some (clusters m g) /\
      match a with
      | QStart => acc = []
      | QClus cs => Forall (fun c => is_Some (namespaces m g c)) cs
      | QNss c nss cs => Forall (fun c => is_Some (namespaces m g c)) cs /\ Forall (fun n => is_Some (objects m g c n)) nss
      | QObjs c n names nss cs => Forall (fun c => is_Some (namespaces m g c)) cs /\ Forall (fun n => is_Some (objects m g c n)) nss /\
          is_Some (objects m g c n) /\ Forall (fun name => is_Some (obj_at m g c n name)) names
      end
  | TPanic => False
  | TDone _ => True
  end.
Lemma starting_ok s p : starting p -> configured s p -> pc_ok (c_map s) p.
Proof. by destruct 1. Qed.
Lemma pc_ok_grows m m' p : grows m m' ->
  (forall g c ns, holds p (LkN g c ns) -> objects m' g c ns = objects m g c ns) -> pc_ok m p -> pc_ok m' p.
Proof.
  intros (A & B & C) Hh H. destruct p as [a g c ns n v|a g c|a g c ns n|a g ns acc| |]; simpl in *; [| | | |done..].
  - destruct H as (H1 & H2 & H3). split_and!; [by apply A| |]; destruct a; auto.
  - destruct H as (H1 & H2 & H3). split_and!; [by apply A| |]; destruct a; auto. eapply Forall_impl; [exact H3|]. auto.
  - destruct H as (H1 & H2). split; destruct a; auto.
  - destruct H as (H1 & H2). split; [by apply A|]. destruct a; auto.
    + eapply Forall_impl; [exact H2|]. auto.
    + destruct H2 as [H2 H3]. split; (eapply Forall_impl; [eassumption|]); auto.
    + destruct H2 as (H2 & H3 & H5 & H4). split_and!; [by (eapply Forall_impl; [eassumption|]; auto)..|auto|].
      eapply Forall_impl; [exact H4|]. intros x Hx. unfold obj_at in *. by rewrite Hh by auto.
Qed.
Lemma keys_perm {A} (m : gmap gostr A) order (P : gostr -> Prop) :
  order ≡ₚ map fst (map_to_list m) -> (forall k, is_Some (m !! k) -> P k) -> Forall P order.
Proof.
  intros -> HP. apply Forall_forall. intros k Hk. apply elem_of_list_fmap in Hk as ([k' v] & -> & Hk).
  apply HP. apply elem_of_map_to_list in Hk. simpl. eauto.
Qed.
Lemma keys_elem {A} (m : gmap gostr A) order k :
  order ≡ₚ map fst (map_to_list m) -> k ∈ order <-> is_Some (m !! k).
Proof.
  intros ->. split.
  - intros Hk. apply elem_of_list_fmap in Hk as ([k' v] & -> & Hk). apply elem_of_map_to_list in Hk. simpl. eauto.
  - intros [v Hv]. apply elem_of_list_fmap. exists (k, v). split; [done|]. by apply elem_of_map_to_list.
Qed.
Lemma keys_nodup {A} (m : gmap gostr A) order : order ≡ₚ map fst (map_to_list m) -> NoDup order.
Proof. intros ->. apply NoDup_fst_map_to_list. Qed.
Lemma objects_ns m g c ns : is_Some (objects m g c ns) -> is_Some (namespaces m g c).
Proof. unfold objects. destruct (namespaces m g c); [eauto|by intros [? ?]]. Qed.
Lemma namespaces_cs m g c : is_Some (namespaces m g c) -> is_Some (clusters m g).
Proof. unfold namespaces, clusters. destruct (m !! g); [eauto|by intros [? ?]]. Qed.
Lemma tstep_ok rd wr m p m' p' : tstep rd wr m p m' p' -> pc_ok m p -> pc_ok m' p'.
Proof.
  intros Hs Hok. pose proof (tstep_grows _ _ _ _ _ _ Hs) as (A & B & C).
  destruct Hs; simpl in Hok; try done; try by (decompose [and] Hok; simpl; eauto 10).
  all: try (unfold found; match goal with |- context [match ?o with Some _ => _ | None => _ end] =>
    destruct o eqn:Ho; [|by (decompose [and] Hok; repeat match goal with H : is_Some _ |- _ => destruct H end; congruence)] end;
    decompose [and] Hok; simpl; rewrite ?Ho; eauto 10).
  - destruct Hok as (H1 & _). simpl. split_and!; [by apply A| |done]. rewrite namespaces_init_cluster. rewrite decide_True by done.
    destruct (clusters m g); simpl; [eauto|by destruct H1].
  - destruct Hok as (H1 & H2 & _). simpl. split_and!; [by apply A|by apply B|]. rewrite objects_init_ns. rewrite decide_True by done.
    destruct (namespaces m g c); simpl; [eauto|by destruct H2].
  - destruct Hok as (K1 & K2 & K3). simpl. split_and!; [by apply A|by apply B|by apply C].
  - destruct (_ !! c) eqn:Hc; simpl; [|done]. rewrite Ho. split_and!; [eauto| |done]. unfold namespaces. unfold clusters in Ho. rewrite Ho. simpl. rewrite Hc. eauto.
  - destruct Hok as (K1 & K2 & _). simpl. split_and!; [done..|]. eapply keys_perm; [eassumption|]. intros k Hk. unfold objects.
    match goal with H : namespaces _ _ _ = _ |- _ => by rewrite H end.
  - destruct Hok as (K1 & K2 & K3). simpl. apply Forall_cons in K3 as [_ K3]. split_and!; [by apply A|by apply B|]. eapply Forall_impl; [exact K3|]. auto.
  - destruct (namespaces m g c) eqn:Hn; simpl; [|done]. rewrite Hn. eauto.
  - destruct Hok as (K1 & _). destruct (objects m g c ns) eqn:Hn; simpl; [|done]. rewrite Hn. eauto.
  - destruct Hok as (K1 & _). match goal with H : clusters _ _ = None |- _ => rewrite H in K1; by destruct K1 end.
  - destruct Hok as (K1 & _). simpl. split; [done|]. eapply keys_perm; [eassumption|]. intros k Hk. unfold namespaces. unfold clusters in *.
    match goal with H : m !! _ = _ |- _ => by rewrite H end.
  - destruct Hok as (K1 & K2). simpl. apply Forall_cons in K2 as [_ K2]. split_and!; [done..|]. eapply keys_perm; [eassumption|].
    intros k Hk. unfold objects. match goal with H : namespaces _ _ _ = _ |- _ => by rewrite H end.
  - destruct Hok as (K1 & K2 & K3). simpl. apply Forall_cons in K3 as [_ K3]. done.
  - destruct Hok as (K1 & K2 & K3). simpl. apply Forall_cons in K3 as [_ K3]. split_and!; [done..|eauto|]. eapply keys_perm; [eassumption|].
    intros k Hk. unfold obj_at. match goal with H : objects _ _ _ _ = _ |- _ => by rewrite H end.
  - destruct Hok as (K1 & K2 & K3 & K5 & K4). simpl. apply Forall_cons in K4 as [_ K4]. done.
Qed.

(** ** The system *)
Definition sys_ok (s : csys) : Prop := forall i p, c_pcs s !! i = Some p -> pc_ok (c_map s) p.
Lemma initial_ok s : initial s -> sys_ok s.
Proof.
  intros H i p Hp. unfold initial in H. rewrite Forall_lookup in H. destruct (H i p Hp). by apply starting_ok.
Qed.
(** While a goroutine reads the objects of a namespace, nobody changes them. *)
Lemma cstep_locked s i s' j p g c ns : sys_ok s -> cstep s i s' -> j <> i -> c_pcs s !! j = Some p -> holds p (LkN g c ns) ->
  objects (c_map s') g c ns = objects (c_map s) g c ns.
Proof.
  intros Hok Hs Hj Hp Hh. pose proof (Hok j p Hp) as Hpk. destruct Hs as [s i q m' q' Hq Hs]. simpl.
  apply (tstep_objects _ _ _ _ _ _ g c ns) in Hs. destruct (writes q g c ns).
  - destruct Hs as [Hw _]. by destruct (Hw j p Hp Hj).
  - destruct Hs as [?|[Hnone _]]; [done|]. destruct p as [| | |a g' ns' acc| |]; try done. destruct a as [| | |c' n' names nss cs]; simpl in Hh; try naive_solver.
    destruct Hh as [?|[?|[= <- <- <-]]]; try done. simpl in Hpk. destruct Hpk as (_ & _ & _ & [? Hx] & _). congruence.
Qed.
Lemma cstep_pcs s i s' : cstep s i s' -> exists p p', c_pcs s !! i = Some p /\ c_pcs s' = <[i := p']> (c_pcs s) /\
  tstep (fun k => others s i (fun q => ~ announced q k)) (fun k => others s i (fun q => ~ holds q k)) (c_map s) p (c_map s') p'.
Proof. destruct 1 as [s i p m' p' Hp Hs]. eauto. Qed.
Lemma cstep_ok s i s' : sys_ok s -> cstep s i s' -> sys_ok s'.
Proof.
  intros Hok Hs j q Hq. destruct (cstep_pcs _ _ _ Hs) as (p & p' & Hp & Hl & Ht). rewrite Hl in Hq.
  destruct (decide (i = j)) as [->|Hij].
  - rewrite list_lookup_insert in Hq by (by eapply lookup_lt_Some). injection Hq as <-. eapply tstep_ok; [exact Ht|]. by apply (Hok j).
  - rewrite list_lookup_insert_ne in Hq by done. eapply pc_ok_grows; [by eapply tstep_grows| |by apply (Hok j)].
    intros g c ns Hh. eapply cstep_locked; eauto.
Qed.
Lemma cruns_ok s0 tr s : sys_ok s0 -> cruns s0 tr s -> sys_ok s.
Proof. induction 2 as [|? ? ? ? ? IH]; [done|]. by eapply cstep_ok; [apply IH|]. Qed.
(** The states of an execution. *)
Lemma cruns_trace s0 tr s t i t' : cruns s0 tr s -> (t, i, t') ∈ tr -> exists tr', cruns s0 tr' t /\ cstep t i t' /\ (forall x, x ∈ tr' -> x ∈ tr).
Proof.
  induction 1 as [|tr s j s' Hr IH Hs]; intros Hin; [by apply elem_of_nil in Hin|].
  apply elem_of_cons in Hin as [[= -> -> ->]|Hin].
  - exists tr. split_and!; [done..|]. intros x Hx. by right.
  - destruct (IH Hin) as (tr' & ? & ? & H). exists tr'. split_and!; [done..|]. intros x Hx. right. auto.
Qed.
Lemma cruns_length s0 tr s : cruns s0 tr s -> length (c_pcs s) = length (c_pcs s0).
Proof.
  induction 1 as [|tr s i s' Hr IH Hs]; [done|]. destruct (cstep_pcs _ _ _ Hs) as (p & p' & _ & Hl & _).
  by rewrite Hl, insert_length.
Qed.
(** One goroutine: what it is at in the next state. *)
Lemma cstep_at s i s' j p : cstep s i s' -> c_pcs s !! j = Some p ->
  exists p', c_pcs s' !! j = Some p' /\
  ((i = j /\ tstep (fun k => others s i (fun q => ~ announced q k)) (fun k => others s i (fun q => ~ holds q k)) (c_map s) p (c_map s') p') \/
   (i <> j /\ p' = p)).
Proof.
  intros Hs Hp. destruct (cstep_pcs _ _ _ Hs) as (q & q' & Hq & Hl & Ht). rewrite Hl.
  destruct (decide (i = j)) as [->|Hij].
  - rewrite list_lookup_insert by (by eapply lookup_lt_Some). rewrite Hp in Hq. injection Hq as <-. eauto.
  - rewrite list_lookup_insert_ne by done. eauto.
Qed.
(** Induction over an execution, following one goroutine. *)
Lemma cruns_follow (P : trace -> csys -> pc -> Prop) s0 j p0 :
  sys_ok s0 -> c_pcs s0 !! j = Some p0 -> P [] s0 p0 ->
  (forall tr s p s' p', cruns s0 tr s -> sys_ok s -> c_pcs s !! j = Some p -> P tr s p -> cstep s j s' ->
     tstep (fun k => others s j (fun q => ~ announced q k)) (fun k => others s j (fun q => ~ holds q k)) (c_map s) p (c_map s') p' ->
     P ((s, j, s') :: tr) s' p') ->
  (forall tr s p i s', cruns s0 tr s -> sys_ok s -> c_pcs s !! j = Some p -> P tr s p -> i <> j -> cstep s i s' -> P ((s, i, s') :: tr) s' p) ->
  forall tr s p, cruns s0 tr s -> c_pcs s !! j = Some p -> P tr s p.
Proof.
  intros Hok H0 HP Hown Hother tr s p Hr. revert p. induction Hr as [|tr s i s' Hr IH Hs]; intros p Hp.
  - rewrite H0 in Hp. by injection Hp as <-.
  - destruct (lookup_lt_is_Some_2 (c_pcs s) j) as [q Hq].
    { apply lookup_lt_Some in Hp. rewrite (cruns_length s0 _ _ Hr). rewrite <- (cruns_length s0 _ _ (cruns_cons _ _ _ _ _ Hr Hs)). done. }
    pose proof (cruns_ok _ _ _ Hok Hr) as Hsok.
    destruct (cstep_at _ _ _ _ _ Hs Hq) as (q' & Hq' & [[-> Ht]|[Hne ->]]); rewrite Hp in Hq'; injection Hq' as <-; eauto.
Qed.

(** ** Values *)
Lemma set_obj_lookup n v os n' : set_obj n v os !! n' = if decide (n = n') then v else os !! n'.
Proof.
  unfold set_obj. destruct v; destruct (decide (n = n')) as [->|].
  - by rewrite lookup_insert.
  - by rewrite lookup_insert_ne.
  - by rewrite lookup_delete.
  - by rewrite lookup_delete_ne.
Qed.
Lemma cstep_value s i s' k : sys_ok s -> cstep s i s' -> value s' k = effect k (s, i, s') (value s k).
Proof.
  intros Hok Hs. destruct (cstep_pcs _ _ _ Hs) as (p & p' & Hp & _ & Ht). pose proof (Hok i p Hp) as Hpk.
  destruct k as [[[g c] ns] n]. rewrite !value_obj_at. rewrite (tstep_obj_at _ _ _ _ _ _ g c ns n Ht).
  unfold effect. cbn [fst snd]. rewrite Hp. destruct p as [a g' c' ns' n' v|a g' c'| | | |]; try done.
  - destruct a as [| | | | |w| | |]; try done. destruct w; [|done]. cbn [writes]. destruct (decide (g' = g /\ c' = c /\ ns' = ns)) as [(-> & -> & ->)|Hn].
    + simpl in Hpk. destruct Hpk as (_ & _ & [os Ho]). unfold obj_at. rewrite Ho. simpl. rewrite set_obj_lookup.
      destruct (decide (n' = n)) as [->|]; [by rewrite decide_True|]. rewrite decide_False; [done|]. congruence.
    + rewrite decide_False; [done|]. intros [= -> -> -> ->]. naive_solver.
  - destruct a as [| | |nss w]; try done. destruct nss as [|ns' nss]; [done|]. destruct w; [|done]. cbn [writes].
    destruct (decide (g' = g /\ c' = c /\ ns' = ns)) as [(-> & -> & ->)|Hn].
    + rewrite decide_True by done. destruct (objects (c_map s) g c ns); simpl; [apply lookup_empty|done].
    + rewrite decide_False; [done|]. simpl. intros [= -> -> ->]. naive_solver.
Qed.
Lemma cruns_value s0 tr s k : sys_ok s0 -> cruns s0 tr s -> value s k = foldr (effect k) (value s0 k) tr.
Proof.
  intros Hok. induction 1 as [|tr s i s' Hr IH Hs]; [done|]. simpl. rewrite <- IH. apply cstep_value; [|done]. by eapply cruns_ok.
Qed.

(** ** Get *)
Lemma get_result s0 i g c ns n tr s o : sys_ok s0 -> c_pcs s0 !! i = Some (TGet GExC g c ns n) -> cruns s0 tr s ->
  c_pcs s !! i = Some (TDone o) -> exists t t', (t, i, t') ∈ tr /\ o = RObj (value t (g, c, ns, n)).
Proof.
  intros Hok H0 Hr Hd.
  set (P := fun (tr : trace) (s : csys) (p : pc) => match p with
    | TGet _ g' c' ns' n' => g' = g /\ c' = c /\ ns' = ns /\ n' = n
    | TDone o => exists t t', (t, i, t') ∈ tr /\ o = RObj (value t (g, c, ns, n))
    | TPanic => True
    | _ => False end).
  refine (cruns_follow P s0 i _ Hok H0 _ _ _ tr s _ Hr Hd).
  - done.
  - clear. intros tr s p s' p' _ _ _ HP Hs Ht. destruct p as [| |a g' c' ns' n'| | |r]; try done; inversion Ht; subst; destruct HP as (-> & -> & -> & ->).
    + destruct (namespaces (c_map s) g c) eqn:Hn; [done|]. exists s, s'. split; [left|]. rewrite value_obj_at. unfold obj_at, objects. by rewrite Hn.
    + by destruct (namespaces _ _ _).
    + destruct (objects (c_map s) g c ns) eqn:Hn; [done|]. exists s, s'. split; [left|]. rewrite value_obj_at. unfold obj_at. by rewrite Hn.
    + by destruct (namespaces _ _ _).
    + by destruct (objects _ _ _ _).
    + exists s, s'. split; [left|]. by rewrite value_obj_at.
  - clear. intros tr s p j s' _ _ _ HP _ _. destruct p; try done. destruct HP as (t & t' & Hin & ->). exists t, t'. split; [by right|done].
Qed.

(** ** Put *)
Definition before_set (a : put_at) : bool := match a with AGetC3 | AGetN3 | ALen => false | _ => true end.
Definition one_write (i : nat) (k : okey) (v : option entry) (tr : trace) : Prop :=
  exists l t t' e, tr = l ++ (t, i, t') :: e /\ value t' k = v /\ (forall k', k' <> k -> value t' k' = value t k') /\
  forall x, x ∈ l ++ e -> x.1.2 = i -> quiet_step x.
Lemma quiet_same s i s' : c_map s' = c_map s -> quiet_step (s, i, s').
Proof. intros H k. unfold value. simpl. by rewrite H. Qed.
Lemma cstep_quiet s i s' p : sys_ok s -> cstep s i s' -> c_pcs s !! i = Some p ->
  match p with TPut (ASet true) _ _ _ _ _ | TClean (BWipe (_ :: _) true) _ _ => False | _ => True end -> quiet_step (s, i, s').
Proof.
  intros Hok Hs Hp H k. cbn [fst snd]. rewrite (cstep_value _ _ _ k Hok Hs). unfold effect. cbn [fst snd]. rewrite Hp.
  destruct p as [a g c ns n v|a g c| | | |]; try done.
  - destruct a as [| | | | |w| | |]; try done. by destruct w.
  - destruct a as [| | |nss w]; try done. destruct nss; [done|]. by destruct w.
Qed.
Lemma one_write_quiet i k v s j s' tr : one_write i k v tr -> (j = i -> quiet_step (s, j, s')) -> one_write i k v ((s, j, s') :: tr).
Proof.
  intros (l & t & t' & e & -> & H1 & H2 & H3) Hq. exists ((s, j, s') :: l), t, t', e. split_and!; [done..|].
  intros x Hx. apply elem_of_cons in Hx as [->|Hx]; [exact Hq|eauto].
Qed.
Lemma put_result s0 i g c ns n v tr s r : sys_ok s0 -> c_pcs s0 !! i = Some (TPut (AInitC false) g c ns n v) -> cruns s0 tr s ->
  c_pcs s !! i = Some (TDone r) -> r = RNone /\ one_write i (g, c, ns, n) v tr.
Proof.
  intros Hok H0 Hr Hd.
  set (P := fun (tr : trace) (s : csys) (p : pc) => match p with
    | TPut a g' c' ns' n' v' => (g' = g /\ c' = c /\ ns' = ns /\ n' = n /\ v' = v) /\
        if before_set a then forall x, x ∈ tr -> x.1.2 = i -> quiet_step x else one_write i (g, c, ns, n) v tr
    | TDone r => r = RNone /\ one_write i (g, c, ns, n) v tr
    | TPanic => True
    | _ => False end).
  refine (cruns_follow P s0 i _ Hok H0 _ _ _ tr s _ Hr Hd).
  - split; [done|]. simpl. intros x Hx. by apply elem_of_nil in Hx.
  - clear. intros tr s p s' p' _ Hok Hp HP Hs Ht. destruct p as [a g' c' ns' n' v'| | | | |r]; try done; [|by inversion Ht..].
    destruct HP as ((-> & -> & -> & -> & ->) & HP).
    assert (Hq : match a with ASet true => True | _ => quiet_step (s, i, s') end).
    { destruct a as [w| |w| | |w| | |]; try (by eapply cstep_quiet); destruct w; try done; by eapply cstep_quiet. }
    inversion Ht; subst; simpl in HP.
    all: try (match goal with |- context [found ?o _] => destruct o; [|exact I] end).
    all: simpl; try (split; [done|]).
    all: try (intros x Hx; apply elem_of_cons in Hx as [->|Hx]; [by intros _|by apply HP]).
    all: try (by apply one_write_quiet; [exact HP|intros _]).
    exists [], s, s', tr. split_and!; [done| | |].
    + rewrite (cstep_value _ _ _ _ Hok Hs). unfold effect. simpl. rewrite Hp. by rewrite decide_True.
    + intros k' Hk. rewrite (cstep_value _ _ _ _ Hok Hs). unfold effect. simpl. rewrite Hp. by rewrite decide_False.
    + intros x Hx. exact (HP x Hx).
  - clear. intros tr s p j s' _ _ _ HP Hj _. destruct p as [a g' c' ns' n' v'| | | | |r]; try done.
    + destruct HP as (He & HP). split; [done|]. destruct (before_set a).
      * intros x Hx. apply elem_of_cons in Hx as [->|Hx]; [by intros|by apply HP].
      * by apply one_write_quiet.
    + destruct HP as (He & HP). split; [done|]. by apply one_write_quiet.
Qed.

(** ** Clean *)
Lemma obj_at_none_ns m g c ns n : objects m g c ns = None -> obj_at m g c ns n = None.
Proof. intros H. unfold obj_at. by rewrite H. Qed.
Lemma clean_result s0 i g c tr s r : sys_ok s0 -> c_pcs s0 !! i = Some (TClean BExists g c) -> cruns s0 tr s ->
  c_pcs s !! i = Some (TDone r) -> r = RNone /\
  (forall ns n, exists t t', (t, i, t') ∈ tr /\ value t' (g, c, ns, n) = None) /\
  (forall t t', (t, i, t') ∈ tr -> forall k, value t' k = value t k \/ (k.1.1 = (g, c) /\ value t' k = None)).
Proof.
  intros Hok H0 Hr Hd.
  set (P := fun (tr : trace) (s : csys) (p : pc) =>
    (forall t t', (t, i, t') ∈ tr -> forall k, value t' k = value t k \/ (k.1.1 = (g, c) /\ value t' k = None)) /\
    match p with
    | TClean a g' c' => (g' = g /\ c' = c) /\
        match a with BWipe nss _ => forall ns n, ns ∉ nss -> exists t t', (t, i, t') ∈ tr /\ value t' (g, c, ns, n) = None | _ => True end
    | TDone r => r = RNone /\ (forall ns n, exists t t', (t, i, t') ∈ tr /\ value t' (g, c, ns, n) = None)
    | TPanic => True
    | _ => False end).
  cut (P tr s (TDone r)); [by intros [? [? ?]]|].
  refine (cruns_follow P s0 i _ Hok H0 _ _ _ tr s _ Hr Hd).
  - split; [|done]. intros t t' Hx. by apply elem_of_nil in Hx.
  - intros tr' s1 p s1' p' Hr1 Hok1 Hp [HA HP] Hs Ht. split.
    { intros t t' Hin. apply elem_of_cons in Hin as [[= -> ->]|Hin]; [|by apply HA]. intros k.
      rewrite (cstep_value _ _ _ k Hok1 Hs). unfold effect. simpl. rewrite Hp. destruct p as [|a g' c'| | | |]; try done.
      - destruct a as [| | |nss w]; try by left. destruct nss as [|ns nss]; [by left|]. destruct w; [|by left]. destruct (decide _) as [He|]; [|by left].
        right. split; [|done]. rewrite He. by destruct HP as [[-> ->] _].
      - by left.
      - by left. }
    destruct p as [|a g' c'| | | |]; try done; [|by inversion Ht..]. destruct HP as [[-> ->] HP].
    assert (Hmono : forall ns n, (exists t t', (t, i, t') ∈ tr' /\ value t' (g, c, ns, n) = None) -> exists t t', (t, i, t') ∈ (s1, i, s1') :: tr' /\ value t' (g, c, ns, n) = None).
    { intros ns n (t & t' & ? & ?). exists t, t'. split; [by right|done]. }
    inversion Ht; subst; simpl in HP.
    + destruct (clusters (c_map s1) g) as [cs|] eqn:Hc; [|done]. destruct (cs !! c) eqn:Hcc; [done|]. split; [done|].
      intros ns n. exists s1, s1'. split; [left|]. rewrite value_obj_at. match goal with H : c_map s1 = c_map s1' |- _ => rewrite <- H end. apply obj_at_none_ns. unfold objects, namespaces, clusters in *. rewrite Hc. simpl. by rewrite Hcc.
    + by destruct (namespaces _ _ _).
    + split; [done|]. intros ns n Hns. exists s1, s1'. split; [left|]. rewrite value_obj_at.
      match goal with H : c_map s1 = c_map s1' |- _ => rewrite <- H end. apply obj_at_none_ns.
      unfold objects. match goal with H : namespaces _ _ _ = Some _ |- _ => rewrite H end. simpl. apply eq_None_not_Some. intros Hsome. apply Hns. by eapply keys_elem.
    + split; [done|]. intros ns' n Hns. apply Hmono. eauto.
    + split; [done|]. intros ns' n Hns. destruct (decide (ns' = ns)) as [->|Hne].
      * exists s1, s1'. split; [left|]. rewrite (cstep_value _ _ _ _ Hok1 Hs). unfold effect. simpl. rewrite Hp. by rewrite decide_True.
      * apply Hmono. apply HP. rewrite elem_of_cons. tauto.
    + split; [done|]. intros ns' n. apply Hmono. apply HP. apply not_elem_of_nil.
  - intros tr' s1 p j s1' Hr1 Hok1 Hp [HA HP] Hj Hs. split.
    { intros t t' Hin. apply elem_of_cons in Hin as [[= -> <- ->]|Hin]; [done|by apply HA]. }
    destruct p as [|a g' c'| | | |]; try done.
    + destruct HP as [He HP]. split; [done|]. destruct a; try done. intros ns n Hns. destruct (HP ns n Hns) as (t & t' & ? & ?). exists t, t'. split; [by right|done].
    + destruct HP as [He HP]. split; [done|]. intros ns n. destruct (HP ns n) as (t & t' & ? & ?). exists t, t'. split; [by right|done].
Qed.

(** ** Query *)
Local Arguments value : simpl never.
Definition snap (tr : trace) (i : nat) (g : gvr) (c ns : gostr) (acc : list (key * entry)) : Prop :=
  exists t t', (t, i, t') ∈ tr /\ forall n e, ((c, ns, n), e) ∈ acc <-> value t (g, c, ns, n) = Some e.
Definition fresh (c ns : gostr) (acc : list (key * entry)) : Prop := forall n e, ((c, ns, n), e) ∉ acc.
Definition qinv (g : gvr) (qns : gostr) (i : nat) (tr : trace) (s : csys) (p : pc) : Prop :=
  match p with
  | TQuery a g' qns' acc => (g' = g /\ qns' = qns) /\ NoDup (map fst acc) /\ (forall k e, (k, e) ∈ acc -> in_scope qns k.1.2) /\
      match a with
      | QStart => acc = []
      | QClus cs => NoDup cs /\ forall c ns, in_scope qns ns -> (c ∈ cs -> fresh c ns acc) /\ (c ∉ cs -> snap tr i g c ns acc)
      | QNss c nss cs => NoDup (c :: cs) /\ NoDup nss /\ forall c' ns, in_scope qns ns ->
          (c' ∈ cs \/ (c' = c /\ ns ∈ nss) -> fresh c' ns acc) /\ (~ (c' ∈ cs \/ (c' = c /\ ns ∈ nss)) -> snap tr i g c' ns acc)
      | QObjs c n names nss cs => (NoDup (c :: cs) /\ NoDup (n :: nss) /\ NoDup names /\ in_scope qns n) /\
          (forall c' ns, in_scope qns ns -> ~ (c' = c /\ ns = n) ->
            (c' ∈ cs \/ (c' = c /\ ns ∈ nss) -> fresh c' ns acc) /\ (~ (c' ∈ cs \/ (c' = c /\ ns ∈ nss)) -> snap tr i g c' ns acc)) /\
          (exists t t', (t, i, t') ∈ tr /\ objects (c_map t) g c n = objects (c_map s) g c n) /\
          (forall name e, ((c, n, name), e) ∈ acc <-> name ∉ names /\ value s (g, c, n, name) = Some e)
      end
  | TDone r => exists acc, r = RList acc /\ NoDup (map fst acc) /\ (forall k e, (k, e) ∈ acc -> in_scope qns k.1.2) /\
      forall c ns, in_scope qns ns -> snap tr i g c ns acc
  | TPanic => True
  | _ => False
  end.
Lemma snap_mono tr i g c ns acc x : snap tr i g c ns acc -> snap (x :: tr) i g c ns acc.
Proof. intros (t & t' & ? & ?). exists t, t'. split; [by right|done]. Qed.
Lemma snap_none tr i g c ns acc s s' : fresh c ns acc -> objects (c_map s) g c ns = None -> snap ((s, i, s') :: tr) i g c ns acc.
Proof.
  intros Hf Hn. exists s, s'. split; [left|]. intros n e. rewrite value_obj_at. rewrite obj_at_none_ns by done. split; [|done]. intros H. by destruct (Hf n e).
Qed.
Lemma fresh_app c ns acc c' n' name e : fresh c ns acc -> ~ (c = c' /\ ns = n') -> fresh c ns (acc ++ [((c', n', name), e)]).
Proof. intros Hf Hne n e' Hin. apply elem_of_app in Hin as [?|Hin]; [by destruct (Hf n e')|]. apply elem_of_list_singleton in Hin. naive_solver. Qed.
Lemma snap_app tr i g c ns acc c' n' name e : snap tr i g c ns acc -> ~ (c = c' /\ ns = n') -> snap tr i g c ns (acc ++ [((c', n', name), e)]).
Proof.
  intros (t & t' & Hin & H) Hne. exists t, t'. split; [done|]. intros n e'. rewrite elem_of_app, elem_of_list_singleton. rewrite <- H. naive_solver.
Qed.
Lemma query_inv s0 i g qns tr s p : sys_ok s0 -> c_pcs s0 !! i = Some (TQuery QStart g qns []) -> cruns s0 tr s ->
  c_pcs s !! i = Some p -> qinv g qns i tr s p.
Proof.
  intros Hok H0 Hr Hd.
  refine (cruns_follow (qinv g qns i) s0 i _ Hok H0 _ _ _ tr s _ Hr Hd).
  - simpl. split_and!; try done. constructor. intros k e Hin. by apply elem_of_nil in Hin.
  - clear. intros tr s p s' p' _ Hok Hp HP Hs Ht. destruct p as [| | |a g' q' acc| |]; try done; [|by inversion Ht..].
    destruct HP as ([-> ->] & Hnd & Hsc & HP). inversion Ht; subst; simpl in HP.
    + done.
    + (* q_start *) simpl. split_and!; try done. by eapply keys_nodup. subst acc. intros c ns Hns. split; intros Hc.
      * intros n e. apply not_elem_of_nil.
      * apply snap_none; [intros n e; apply not_elem_of_nil|]. unfold objects, namespaces, clusters in *.
        match goal with H : c_map s !! g = Some _ |- _ => rewrite H end. simpl.
        match goal with H : ?o ≡ₚ _ |- _ => destruct (cs !! c) eqn:Hcc; [|done]; destruct Hc; eapply keys_elem; [exact H|eauto] end.
    + (* q_clus *) destruct HP as [Hcs HP]. simpl. split_and!; try done. by eapply keys_nodup. intros c' ns Hns. destruct (HP c' ns Hns) as [Hf Hsn]. split.
      * intros [Hc|[-> Hc]]; apply Hf; [by right|left].
      * intros Hn. destruct (decide (c' = c)) as [->|Hne].
        -- apply snap_none; [apply Hf; left|]. unfold objects. match goal with H : namespaces _ _ _ = Some _ |- _ => rewrite H end. simpl.
           match goal with H : _ ≡ₚ map fst (map_to_list ?m) |- _ => destruct (m !! ns) eqn:Hcc; [|done]; destruct Hn; right; split; [done|]; eapply keys_elem; [exact H|eauto] end.
        -- apply snap_mono. apply Hsn. rewrite elem_of_cons. tauto.
    + (* q_end *) simpl. exists acc. split_and!; try done. intros c ns Hns. apply snap_mono. apply HP; [done|]. apply not_elem_of_nil.
    + (* q_skip *) destruct HP as (Hcs & Hnss & HP). apply NoDup_cons in Hnss as [Hn1 Hn2]. simpl. split_and!; try done. intros c' ns Hns. destruct (HP c' ns Hns) as [Hf Hsn].
      assert (ns <> n) by (intros ->; destruct Hns; congruence).
      split; [intros [?|[? ?]]; apply Hf; [by left|right; split; [done|by right]]|]. intros Hx. apply snap_mono, Hsn. rewrite elem_of_cons. tauto.
    + (* q_ns *) destruct HP as (Hcs & Hnss & HP). pose proof Hnss as Hnss'. apply NoDup_cons in Hnss as [Hn1 Hn2]. simpl. split_and!; try done.
      * by eapply keys_nodup.
      * intros c' ns Hns Hne. destruct (HP c' ns Hns) as [Hf Hsn]. split.
        -- intros [?|[? ?]]; apply Hf; [by left|right; split; [done|by right]].
        -- intros Hx. apply snap_mono, Hsn. rewrite elem_of_cons. tauto.
      * exists s, s'. split; [left|]. match goal with H : c_map s = c_map s' |- _ => by rewrite <- H end.
      * intros name e. split.
        -- intros Hin. destruct (HP c n) as [Hf _]; [done|]. destruct (Hf ltac:(right; split; [done|left]) name e Hin).
        -- intros [Hno Hv]. rewrite value_obj_at in Hv. match goal with H : c_map s = c_map s' |- _ => rewrite <- H in Hv end. unfold obj_at in Hv.
           match goal with H : objects _ _ _ _ = Some _ |- _ => rewrite H in Hv end. simpl in Hv. destruct Hno.
           match goal with H : ?o ≡ₚ _ |- ?x ∈ ?o => eapply keys_elem; [exact H|eauto] end.
    + (* q_nss_end *) destruct HP as (Hcs & Hnss & HP). apply NoDup_cons in Hcs as [Hc1 Hc2]. simpl. split_and!; try done. intros c' ns Hns. destruct (HP c' ns Hns) as [Hf Hsn].
      split; [intros Hx; apply Hf; by left|]. intros Hx. apply snap_mono, Hsn. intros [?|[_ Hy]]; [done|]. by apply not_elem_of_nil in Hy.
    + (* q_obj *) destruct HP as ((Hcs & Hnss & Hnm & Hscn) & HP & (t & t' & Hin & Hobj) & Hacc). apply NoDup_cons in Hnm as [Hn1 Hn2].
      assert (Hv : value s' (g, c, n, name) = Some e).
      { rewrite value_obj_at. match goal with H : c_map s = c_map s' |- _ => rewrite <- H end. done. }
      assert (Hno : (c, n, name) ∉ map fst acc).
      { intros Hx. apply elem_of_list_fmap in Hx as ([k e'] & Hk & Hx). simpl in Hk. subst k. apply Hacc in Hx as [Hx _]. apply Hx. left. }
      simpl. split_and!; try done.
      * rewrite map_app. apply NoDup_app. split_and!; [done| |]; simpl.
        -- intros x Hx. rewrite elem_of_list_singleton. intros ->. done.
        -- apply NoDup_singleton.
      * intros k e'. rewrite elem_of_app, elem_of_list_singleton. intros [Hx|[= -> ->]]; [by eapply Hsc|done].
      * intros c' ns Hns Hne. destruct (HP c' ns Hns Hne) as [Hf Hsn]. split; [intros; apply fresh_app; auto|]. intros. apply snap_app; [|done]. apply snap_mono; auto.
      * exists t, t'. split; [by right|]. rewrite Hobj. match goal with H : c_map s = c_map s' |- _ => by rewrite <- H end.
      * intros nm e'. rewrite elem_of_app, elem_of_list_singleton, Hacc, elem_of_cons.
        assert (value s (g, c, n, nm) = value s' (g, c, n, nm)) as ->.
        { rewrite !value_obj_at. match goal with H : c_map s = c_map s' |- _ => by rewrite <- H end. }
        split.
        -- intros [[Hx ?]|[= -> ->]]; [|done]. split; [tauto|done].
        -- intros [Hx Hy]. destruct (decide (nm = name)) as [->|]; [right; rewrite Hv in Hy; by injection Hy as ->|left; tauto].
    + (* q_objs_end *) destruct HP as ((Hcs & Hnss & Hnm & Hscn) & HP & (t & t' & Hin & Hobj) & Hacc). pose proof Hnss as Hnss'. apply NoDup_cons in Hnss as [Hn1 Hn2]. apply NoDup_cons in Hcs as Hcs'.
      destruct Hcs' as [Hc1 Hc2].
      simpl. split_and!; try done. intros c' ns Hns. destruct (decide (c' = c /\ ns = n)) as [[-> ->]|Hne].
      * split; [intros [?|[_ ?]]; done|]. intros _. exists t, t'. split; [by right|]. intros nm e. rewrite Hacc, !value_obj_at. unfold obj_at. rewrite Hobj.
        split; [by intros [_ ?]|]. intros ?. split; [apply not_elem_of_nil|done].
      * destruct (HP c' ns Hns Hne) as [Hf Hsn]. split; [done|]. intros Hx. apply snap_mono; auto.
  - clear. intros tr s p j s' _ Hok Hp HP Hj Hs. destruct p as [| | |a g' q' acc| |]; try done.
    + destruct HP as (He & Hnd & Hsc & HP). split; [done|]. split; [done|]. split; [done|]. destruct a as [|cs|c nss cs|c n names nss cs]; simpl in HP.
      * done.
      * destruct HP as [? HP]. split; [done|]. intros c ns Hns. destruct (HP c ns Hns). split; [done|]. intros. apply snap_mono; auto.
      * destruct HP as (? & ? & HP). split; [done|]. split; [done|]. intros c' ns Hns. destruct (HP c' ns Hns). split; [done|]. intros. apply snap_mono; auto.
      * destruct HP as (? & HP & (t & t' & Hin & Hobj) & Hacc). destruct He as [-> ->].
        assert (Hsame : objects (c_map s') g c n = objects (c_map s) g c n) by (eapply cstep_locked; eauto; simpl; auto).
        split; [done|]. split; [|split].
        -- intros c' ns Hns Hne. destruct (HP c' ns Hns Hne). split; [done|]. intros. apply snap_mono; auto.
        -- exists t, t'. split; [by right|]. by rewrite Hsame.
        -- intros nm e. rewrite Hacc, !value_obj_at. unfold obj_at. by rewrite Hsame.
    + destruct HP as (acc & ? & ? & ? & HP). exists acc. split_and!; try done. intros. apply snap_mono; auto.
Qed.

(** ** No deadlock *)
(** The mutex that the next step takes for reading, or announces. *)
Definition needs (p : pc) : option lk :=
  match p with
  | TPut a g c ns _ _ =>
      match a with
      | AInitC false | AGetC1 | AGetC2 | AGetC3 => Some (LkG g)
      | AInitN false | AGetN2 | AGetN3 => Some (LkC g c)
      | ASet false | ALen => Some (LkN g c ns)
      | _ => None
      end
  | TClean a g c =>
      match a with
      | BExists | BGet => Some (LkG g)
      | BValues => Some (LkC g c)
      | BWipe (ns :: _) false => Some (LkN g c ns)
      | _ => None
      end
  | TGet a g c ns _ =>
      match a with
      | GExC | GGetC1 | GGetC2 => Some (LkG g)
      | GExN | GGetN => Some (LkC g c)
      | GGet => Some (LkN g c ns)
      end
  | TQuery a g _ _ =>
      match a with
      | QStart => Some (LkG g)
      | QClus (c :: _) => Some (LkC g c)
      | QNss c (n :: _) _ => Some (LkN g c n)
      | _ => None
      end
  | _ => None
  end.
Lemma progress (rd wr : lk -> Prop) (m : tree) (p : pc) : pc_ok m p -> (forall r, p <> TDone r) -> (forall k, needs p = Some k -> rd k) -> (forall k, announced p k -> wr k) ->
  exists m' p', tstep rd wr m p m' p'.
Proof.
  intros Hok Hd Hr Hw. destruct p as [a g c ns n v|a g c|a g c ns n|a g ns acc| |r]; simpl in *; [| | | |done|by destruct (Hd r)].
  - destruct a as [[]| |[]| | |[]| | |]; eauto using tstep.
  - destruct a as [| | |[|ns nss] []]; eauto using tstep. destruct Hok as (_ & [nss Hn] & _).
    eexists _, _. eapply b_values; eauto.
  - destruct a; eauto using tstep.
  - destruct Hok as ([cs Hcs] & Hok). destruct a as [|[|c cs']|c [|n nss] cs'|c n [|name names] nss cs']; eauto using tstep.
    + apply Forall_cons in Hok as [[nss Hn] _]. eexists _, _. eapply q_clus; eauto.
    + destruct Hok as [_ Hok]. apply Forall_cons in Hok as [[os Ho] _]. destruct (decide (ns = [] \/ ns = n)) as [Hin|Hout].
      * eexists _, _. eapply q_ns; eauto.
      * eexists _, _. apply q_skip; naive_solver.
    + destruct Hok as (_ & _ & _ & Hok). apply Forall_cons in Hok as [[e He] _]. eexists _, _. by apply q_obj.
Qed.
(** Who waits for whom: always for a goroutine of higher rank. *)
Definition rank (p : pc) : nat :=
  match p with
  | TQuery (QObjs _ _ _ _ _) _ _ _ => 6
  | TPut (ASet true) _ _ _ _ _ | TClean (BWipe (_ :: _) true) _ _ => 5
  | TQuery (QNss _ _ _) _ _ _ => 4
  | TPut (AInitN true) _ _ _ _ _ => 3
  | TQuery (QClus _) _ _ _ => 2
  | TPut (AInitC true) _ _ _ _ _ => 1
  | _ => 0
  end.
Lemma rank_le p : rank p <= 6.
Proof. destruct p as [[[]| |[]| | |[]| | |]|[| | |[|] []]| |[]| |]; simpl; lia. Qed.
Lemma rank_read p q k : needs p = Some k -> announced q k -> rank p < rank q.
Proof.
  intros Hn Ha. destruct q as [[[]| |[]| | |[]| | |]|[| | |[|] []]| |[]| |]; simpl in Ha; try done; subst k;
    destruct p as [[[]| |[]| | |[]| | |]|[| | |[|] []]|[]|[|[]|? []|]| |]; simpl in *; try done; lia.
Qed.
Lemma rank_write p q k : announced p k -> holds q k -> rank p < rank q.
Proof.
  intros Ha Hn. destruct p as [[[]| |[]| | |[]| | |]|[| | |[|] []]| |[]| |]; simpl in Ha; try done; subst k;
    destruct q as [| | |[| | |] ? ? ?| |]; simpl in *; try done; try lia; naive_solver.
Qed.
Global Instance announced_dec p k : Decision (announced p k).
Proof. destruct p as [[[]| |[]| | |[]| | |]|[| | |[|] []]| | | |]; simpl; apply _. Defined.
Global Instance holds_dec p k : Decision (holds p k).
Proof. destruct p as [| | |[]| |]; simpl; apply _. Defined.
Lemma holds_unfinished p k r : holds p k -> p <> TDone r.
Proof. by intros ? ->. Qed.
Lemma announced_unfinished p k r : announced p k -> p <> TDone r.
Proof. by intros ? ->. Qed.
Lemma no_deadlock_from s d i p : sys_ok s -> c_pcs s !! i = Some p -> (forall r, p <> TDone r) -> 6 < rank p + d -> exists j s', cstep s j s'.
Proof.
  intros Hok. revert i p. induction d as [|d IH]; intros i p Hp Hd Hrank; [pose proof (rank_le p); lia|].
  assert (Hr : {Forall (fun q => forall k, needs p = Some k -> ~ announced q k) (c_pcs s)} + {Exists (fun q => exists k, needs p = Some k /\ announced q k) (c_pcs s)}).
  { apply Forall_Exists_dec. intros q. destruct (needs p) as [k|]; [|left; naive_solver]. destruct (decide (announced q k)); [right|left]; naive_solver. }
  destruct Hr as [Hr|Hr].
  2:{ apply Exists_exists in Hr as (q & Hq & k & Hk & Ha). apply elem_of_list_lookup in Hq as [j Hj].
      apply (IH j q Hj); [intros r; by eapply announced_unfinished|]. pose proof (rank_read _ _ _ Hk Ha). lia. }
  assert (Hk : exists ko : option lk, forall k, announced p k <-> ko = Some k).
  { destruct p as [[[]| |[]| | |[]| | |]|[| | |[|] []]| | | |]; simpl; (try by exists None); eexists (Some _); naive_solver. }
  destruct Hk as [ko Hko].
  assert (Hw : {Forall (fun q => forall k, ko = Some k -> ~ holds q k) (c_pcs s)} + {Exists (fun q => exists k, ko = Some k /\ holds q k) (c_pcs s)}).
  { apply Forall_Exists_dec. intros q. destruct ko as [k|]; [|left; naive_solver]. destruct (decide (holds q k)); [right|left]; naive_solver. }
  destruct Hw as [Hw|Hw].
  2:{ apply Exists_exists in Hw as (q & Hq & k & Hk & Ha). apply elem_of_list_lookup in Hq as [j Hj].
      apply (IH j q Hj); [intros r; by eapply holds_unfinished|]. apply Hko in Hk. pose proof (rank_write _ _ _ Hk Ha). lia. }
  destruct (progress (fun k => others s i (fun q => ~ announced q k)) (fun k => others s i (fun q => ~ holds q k)) (c_map s) p) as (m' & p' & Ht); [by apply (Hok i)|done| | |].
  - intros k Hk j q Hq _. rewrite Forall_lookup in Hr. eauto.
  - intros k Hk j q Hq _. rewrite Forall_lookup in Hw. eapply Hw; [done|]. by apply Hko.
  - eexists i, _. econstructor; eauto.
Qed.
Lemma no_deadlock s i p : sys_ok s -> c_pcs s !! i = Some p -> (forall r, p <> TDone r) -> exists j s', cstep s j s'.
Proof. intros. eapply (no_deadlock_from s 7); eauto. lia. Qed.

(** ** Termination *)
Notation total := sum_list_with.
Lemma total_perm {A} (f : A -> nat) l l' : l ≡ₚ l' -> total f l = total f l'.
Proof. induction 1; simpl; lia. Qed.
Lemma total_le {A} (f h : A -> nat) l : (forall x, f x <= h x) -> total f l <= total h l.
Proof. intros H. induction l as [|x l IH]; simpl; [lia|]. specialize (H x). lia. Qed.
Lemma total_insert {A} (f : A -> nat) l i x y : l !! i = Some x -> total f (<[i := y]> l) + f x = total f l + f y.
Proof.
  revert i. induction l as [|z l IH]; intros [|i] H; simpl in *; try done.
  - injection H as <-. lia.
  - specialize (IH i H). lia.
Qed.
Definition keys_of {A} (m : gmap gostr A) : list gostr := elements (dom m : gset gostr).
Lemma keys_of_perm {A} (m : gmap gostr A) order : order ≡ₚ map fst (map_to_list m) -> order ≡ₚ keys_of m.
Proof.
  intros H. apply NoDup_Permutation; [by eapply keys_nodup|apply NoDup_elements|]. intros k. rewrite (keys_elem m order k H).
  unfold keys_of. rewrite elem_of_elements. symmetry. apply elem_of_dom.
Qed.
Definition put_left (p : pc) : nat :=
  match p with
  | TPut a _ _ _ _ _ =>
      match a with
      | AInitC false => 12 | AInitC true => 11 | AGetC1 => 10 | AInitN false => 9 | AInitN true => 8 | AGetC2 => 7 | AGetN2 => 6
      | ASet false => 5 | ASet true => 4 | AGetC3 => 3 | AGetN3 => 2 | ALen => 1
      end
  | _ => 0
  end.
Definition ncost (m : tree) (g : gvr) (c ns : gostr) : nat := 2 + size (default ∅ (objects m g c ns)).
Definition nkeys (m : tree) (g : gvr) (c : gostr) : list gostr := keys_of (default ∅ (namespaces m g c)).
Definition ccost (m : tree) (g : gvr) (c : gostr) : nat := 2 + total (ncost m g c) (nkeys m g c).
Definition ckeys (m : tree) (g : gvr) : list gostr := keys_of (default ∅ (clusters m g)).
Definition cost (m : tree) (p : pc) : nat :=
  match p with
  | TGet a _ _ _ _ => match a with GExC => 6 | GGetC1 => 5 | GExN => 4 | GGetC2 => 3 | GGetN => 2 | GGet => 1 end
  | TClean a g c =>
      match a with
      | BExists => 5 + 2 * length (nkeys m g c) | BGet => 4 + 2 * length (nkeys m g c) | BValues => 3 + 2 * length (nkeys m g c)
      | BWipe nss w => (if w then 1 else 2) + 2 * length nss
      end
  | TQuery a g _ _ =>
      match a with
      | QStart => 2 + total (ccost m g) (ckeys m g)
      | QClus cs => 1 + total (ccost m g) cs
      | QNss c nss cs => 2 + total (ncost m g c) nss + total (ccost m g) cs
      | QObjs c n names nss cs => 3 + length names + total (ncost m g c) nss + total (ccost m g) cs
      end
  | _ => 0
  end.
Lemma cost_le m m' p : (forall g, ckeys m' g = ckeys m g) -> (forall g c, nkeys m' g c = nkeys m g c) ->
  (forall g c ns, ncost m' g c ns <= ncost m g c ns) -> cost m' p <= cost m p.
Proof.
  intros Hc Hn Ho. assert (Hcc : forall g c, ccost m' g c <= ccost m g c).
  { intros g c. unfold ccost. rewrite Hn. pose proof (total_le (ncost m' g c) (ncost m g c) (nkeys m g c) (Ho g c)). lia. }
  destruct p as [|[]| |a g ns acc| |]; simpl; rewrite ?Hn, ?Hc; try lia. destruct a as [|cs|c nss cs|c n names nss cs]; rewrite ?Hc.
  - pose proof (total_le _ _ (ckeys m g) (Hcc g)). lia.
  - pose proof (total_le _ _ cs (Hcc g)). lia.
  - pose proof (total_le _ _ cs (Hcc g)). pose proof (total_le _ _ nss (Ho g c)). lia.
  - pose proof (total_le _ _ cs (Hcc g)). pose proof (total_le _ _ nss (Ho g c)). lia.
Qed.
Lemma wipe_ckeys (m : tree) g c ns g' : ckeys (alter_objs (fun _ => ∅) m g c ns) g' = ckeys m g'.
Proof.
  unfold ckeys, alter_objs, alter_nss, clusters. destruct (decide (g = g')) as [->|]; [|by rewrite lookup_alter_ne].
  rewrite lookup_alter. destruct (m !! g') as [cs|]; [|done]. simpl. unfold keys_of. f_equal. apply dom_alter_L.
Qed.
Lemma wipe_nkeys (m : tree) g c ns g' c' : nkeys (alter_objs (fun _ => ∅) m g c ns) g' c' = nkeys m g' c'.
Proof.
  unfold nkeys, alter_objs. rewrite namespaces_alter. destruct (decide _) as [[-> ->]|]; [|done].
  destruct (namespaces m g' c') as [nss|]; [|done]. simpl. unfold keys_of. f_equal. apply dom_alter_L.
Qed.
Lemma wipe_ncost (m : tree) g c ns g' c' ns' : ncost (alter_objs (fun _ => ∅) m g c ns) g' c' ns' <= ncost m g' c' ns'.
Proof.
  unfold ncost. rewrite objects_alter. destruct (decide _) as [(-> & -> & ->)|]; [|lia].
  destruct (objects m g' c' ns'); simpl; rewrite ?map_size_empty; lia.
Qed.
(** A step makes its goroutine's put shorter, or leaves puts alone and makes its goroutine's cost smaller and nobody's larger. *)
Lemma tstep_measure rd wr m p m' p' : tstep rd wr m p m' p' ->
  put_left p' < put_left p \/ (put_left p' = put_left p /\ cost m' p' < cost m p /\ forall q, cost m' q <= cost m q).
Proof.
  intros Ht. assert (Hsame : forall x, cost m x <= cost m x) by (intros; lia).
  destruct Ht; try (by left; simpl; try lia; unfold found; match goal with |- context [match ?o with _ => _ end] => destruct o; simpl; lia end).
  all: right.
  - split_and!; [| |done]; destruct (clusters m g) as [cs|]; [destruct (cs !! c)| |destruct (cs !! c)|]; simpl; lia.
  - split_and!; [| |done]; unfold found; destruct (namespaces m g c); simpl; lia.
  - split_and!; [done| |done]. simpl. assert (length order = length (nkeys m g c)) as ->; [|lia]. apply Permutation_length. rewrite (keys_of_perm _ _ H1).
    unfold nkeys. by rewrite H0.
  - split_and!; [done| |done]. simpl. lia.
  - split_and!; [done| |]. { simpl. lia. } intros q. apply cost_le; auto using wipe_ckeys, wipe_nkeys, wipe_ncost.
  - split_and!; [done| |done]. simpl. destruct w; lia.
  - split_and!; [| |done]; destruct (namespaces m g c); simpl; lia.
  - split_and!; [| |done]; unfold found; destruct (namespaces m g c); simpl; lia.
  - split_and!; [| |done]; destruct (objects m g c ns); simpl; lia.
  - split_and!; [| |done]; unfold found; destruct (namespaces m g c); simpl; lia.
  - split_and!; [| |done]; unfold found; destruct (objects m g c ns); simpl; lia.
  - split_and!; [done| |done]. simpl. lia.
  - split_and!; [done| |done]. simpl. lia.
  - split_and!; [done| |done]. simpl. rewrite (total_perm _ order (ckeys m g)); [lia|]. rewrite (keys_of_perm _ _ H1). unfold ckeys. by rewrite H0.
  - split_and!; [done| |done]. simpl. change (ccost m g c) with (2 + total (ncost m g c) (nkeys m g c)). rewrite (total_perm _ order (nkeys m g c)); [lia|]. rewrite (keys_of_perm _ _ H1). unfold nkeys. by rewrite H0.
  - split_and!; [done| |done]. simpl. lia.
  - split_and!; [done| |done]. simpl. lia.
  - split_and!; [done| |done]. simpl. change (ncost m g c n) with (2 + size (default ∅ (objects m g c n))). rewrite H1. simpl.
    assert (length order = size os) as ->; [|lia]. rewrite H2. rewrite map_length. done.
  - split_and!; [done| |done]. simpl. lia.
  - split_and!; [done| |done]. simpl. lia.
  - split_and!; [done| |done]. simpl. lia.
Qed.
Definition puts_left (s : csys) : nat := total put_left (c_pcs s).
Definition costs (s : csys) : nat := total (cost (c_map s)) (c_pcs s).
Lemma cstep_measure s i s' : cstep s i s' -> puts_left s' < puts_left s \/ (puts_left s' = puts_left s /\ costs s' < costs s).
Proof.
  intros Hs. destruct (cstep_pcs _ _ _ Hs) as (p & p' & Hp & Hl & Ht). unfold puts_left, costs. rewrite Hl.
  pose proof (total_insert put_left _ i p p' Hp) as H1. pose proof (total_insert (cost (c_map s')) _ i p p' Hp) as H2.
  destruct (tstep_measure _ _ _ _ _ _ Ht) as [?|(He & Hc & Hall)]; [left; lia|]. right. split; [lia|].
  pose proof (total_insert (cost (c_map s)) _ i p p' Hp) as H3.
  assert (total (cost (c_map s')) (<[i := p']> (c_pcs s)) + cost (c_map s) p <= total (cost (c_map s)) (c_pcs s) + cost (c_map s') p') as H4; [|lia].
  clear -Hp Hall. revert i Hp. induction (c_pcs s) as [|q l IH]; intros i Hp; [done|].
  pose proof (total_le (cost (c_map s')) (cost (c_map s)) l Hall). destruct i as [|i]; simpl in *.
  - injection Hp as ->. lia.
  - specialize (IH i Hp). specialize (Hall q). lia.
Qed.
Lemma csys_acc a : forall b s, puts_left s = a -> costs s = b -> Acc (fun s' s => exists i, cstep s i s') s.
Proof.
  induction a as [a IHa] using lt_wf_ind. induction b as [b IHb] using lt_wf_ind. intros s Ha Hb. constructor. intros s' [i Hs].
  destruct (cstep_measure _ _ _ Hs) as [H|[H1 H2]].
  - eapply (IHa (puts_left s')); [lia|done|done].
  - eapply (IHb (costs s')); [lia|lia|done].
Qed.
Lemma csys_wf : well_founded (fun s' s => exists i, cstep s i s').
Proof. intros s. by eapply csys_acc. Qed.
Lemma cruns_one s i s' : cstep s i s' -> cruns s [(s, i, s')] s'.
Proof. intros H. econstructor; [constructor|done]. Qed.
Lemma cruns_app s0 tr s tr' s' : cruns s0 tr s -> cruns s tr' s' -> cruns s0 (tr' ++ tr) s'.
Proof. intros H. induction 1 as [|tr' s1 i s2 _ IH Hs]; [done|]. simpl. econstructor; [exact IH|done]. Qed.
Lemma can_finish s : sys_ok s -> exists tr s', cruns s tr s' /\ forall i p, c_pcs s' !! i = Some p -> exists r, p = TDone r.
Proof.
  induction (csys_wf s) as [s _ IH]. intros Hok.
  destruct (Forall_Exists_dec (fun p => exists r, p = TDone r) (fun p => forall r, p <> TDone r)) with (l := c_pcs s) as [Hall|Hex].
  { intros p. destruct p as [| | | | |r]; try (by right); left; eauto. }
  - exists [], s. split; [constructor|]. intros i p Hp. rewrite Forall_lookup in Hall. eauto.
  - apply Exists_exists in Hex as (p & Hp & Hd). apply elem_of_list_lookup in Hp as [i Hi].
    destruct (no_deadlock s i p Hok Hi Hd) as (j & s' & Hs). destruct (IH s') as (tr & s'' & Hr & Hf); [eauto|by eapply cstep_ok|].
    exists (tr ++ [(s, j, s')]), s''. split; [|done]. eapply cruns_app; [by apply cruns_one|done].
Qed.

(** ** A query without writers is the scan of the sequential model *)
Lemma keys_entries {A} (m : gmap gostr A) order : order ≡ₚ map fst (map_to_list m) -> exists l, iter m l /\ map fst l = order.
Proof. intros H. apply Permutation_map_inv in H as (l & -> & Hp). exists l. split; [|done]. unfold iter. by symmetry. Qed.
Lemma scan_cls_snoc qns pre c nss order l l' : scan_cls qns pre l -> iter nss order -> scan_nss qns order l' -> scan_cls qns (pre ++ [(c, nss)]) (l ++ l').
Proof.
  intros H Hi Hs. induction H as [|c1 nss1 order1 cls1 l1 l1' ? ? ? IH]; simpl.
  - rewrite <- (app_nil_r l'). econstructor; [done|done|constructor].
  - rewrite <- (assoc_L (++)). by econstructor.
Qed.
Lemma scan_nss_skip_snoc qns pre n os l : scan_nss qns pre l -> qns <> [] -> qns <> n -> scan_nss qns (pre ++ [(n, os)]) l.
Proof.
  intros H H1 H2. induction H; simpl.
  - apply scan_nss_skip; [done..|constructor].
  - by apply scan_nss_skip.
  - by apply scan_nss_take.
Qed.
Lemma scan_nss_take_snoc qns pre n os l l' : scan_nss qns pre l -> qns = [] \/ qns = n -> scan_objs os l' -> scan_nss qns (pre ++ [(n, os)]) (l ++ l').
Proof.
  intros H H1 H2. induction H; simpl.
  - rewrite <- (app_nil_r l'). apply scan_nss_take; [done..|constructor].
  - by apply scan_nss_skip.
  - rewrite <- (assoc_L (++)). by apply scan_nss_take.
Qed.
Lemma iter_lookup {A} (m : gmap gostr A) pre k x post : iter m (pre ++ (k, x) :: post) -> m !! k = Some x.
Proof. intros H. apply elem_of_map_to_list. unfold iter in H. rewrite <- H. apply elem_of_app. right. left. Qed.
Definition sinv (g : gvr) (cs : typemap) (qns : gostr) (p : pc) : Prop :=
  match p with
  | TQuery a g' qns' acc => (g' = g /\ qns' = qns) /\
      match a with
      | QStart => acc = []
      | QClus rest => exists pre post, iter cs (pre ++ post) /\ map fst post = rest /\ scan_cls qns pre (map snd acc)
      | QNss c nss rest => exists pre m0 post npre npost l1 l2, iter cs (pre ++ (c, m0) :: post) /\ map fst post = rest /\
          iter m0 (npre ++ npost) /\ map fst npost = nss /\ scan_cls qns pre l1 /\ scan_nss qns npre l2 /\ map snd acc = l1 ++ l2
      | QObjs c n names nss rest => exists pre m0 post npre os npost opre opost l1 l2, iter cs (pre ++ (c, m0) :: post) /\ map fst post = rest /\
          iter m0 (npre ++ (n, os) :: npost) /\ map fst npost = nss /\ (qns = [] \/ qns = n) /\
          iter os (opre ++ opost) /\ map fst opost = names /\
          scan_cls qns pre l1 /\ scan_nss qns npre l2 /\ map snd acc = l1 ++ l2 ++ map snd opre
      end
  | TDone r => exists acc, r = RList acc /\ scan qns cs (map snd acc)
  | TPanic => True
  | _ => False
  end.
Lemma query_quiet s0 i g cs qns tr s p : sys_ok s0 -> c_pcs s0 !! i = Some (TQuery QStart g qns []) -> cruns s0 tr s ->
  c_pcs s !! i = Some p -> (forall t t', (t, i, t') ∈ tr -> c_map t !! g = Some cs) -> sinv g cs qns p.
Proof.
  intros Hok H0 Hr Hd.
  refine (cruns_follow (fun tr _ p => (forall t t', (t, i, t') ∈ tr -> c_map t !! g = Some cs) -> sinv g cs qns p) s0 i _ Hok H0 _ _ _ tr s _ Hr Hd).
  - done.
  - clear. intros tr s p s' p' _ Hok Hp HP Hs Ht Hq. specialize (HP ltac:(intros t t' Hin; apply (Hq t t'); by right)).
    assert (Hm : c_map s !! g = Some cs) by (apply (Hq s s'); left). clear Hq.
    destruct p as [| | |a g' q' acc| |]; try done; [|by inversion Ht..]. destruct HP as ([-> ->] & HP). inversion Ht; subst; simpl in HP.
    + done.
    + subst acc. unfold clusters in *. simplify_eq. match goal with H : _ ≡ₚ _ |- _ => apply keys_entries in H as (l & Hl & <-) end.
      split; [done|]. exists [], l. split_and!; [done..|]. constructor.
    + destruct HP as (pre & post & Hi & Hm1 & Hsc). destruct post as [|[c1 m0] post]; [done|]. injection Hm1 as -> <-.
      pose proof (iter_lookup _ _ _ _ _ Hi) as Hl. match goal with H : namespaces _ _ _ = Some _ |- _ => unfold namespaces in H; rewrite Hm in H; simpl in H; rewrite Hl in H; injection H as <- end.
      match goal with H : _ ≡ₚ _ |- _ => apply keys_entries in H as (l & Hli & <-) end.
      split; [done|]. exists pre, m0, post, [], l, (map snd acc), []. split_and!; [done..| |by rewrite app_nil_r]. constructor.
    + destruct HP as (pre & post & Hi & Hm1 & Hsc). destruct post; [|done]. exists acc. split; [done|]. exists pre. rewrite app_nil_r in Hi. done.
    + destruct HP as (pre & m0 & post & npre & npost & l1 & l2 & Hi & Hpost & Hi2 & Hnp & Hs1 & Hs2 & Hacc). destruct npost as [|[n1 os] npost]; [done|]. injection Hnp as -> <-.
      split; [done|]. exists pre, m0, post, (npre ++ [(n, os)]), npost, l1, l2. split_and!; try done.
      * by rewrite <- (assoc_L (++)).
      * by apply scan_nss_skip_snoc.
    + destruct HP as (pre & m0 & post & npre & npost & l1 & l2 & Hi & Hpost & Hi2 & Hnp & Hs1 & Hs2 & Hacc). destruct npost as [|[n1 os1] npost]; [done|]. injection Hnp as -> <-.
      pose proof (iter_lookup _ _ _ _ _ Hi) as Hl. pose proof (iter_lookup _ _ _ _ _ Hi2) as Hl2.
      match goal with H : objects _ _ _ _ = Some _ |- _ => unfold objects, namespaces in H; rewrite Hm in H; simpl in H; rewrite Hl in H; simpl in H; rewrite Hl2 in H; injection H as <- end.
      match goal with H : _ ≡ₚ _ |- _ => apply keys_entries in H as (l & Hli & <-) end.
      split; [done|]. exists pre, m0, post, npre, os1, npost, [], l, l1, l2. split_and!; try done. by rewrite app_nil_r.
    + destruct HP as (pre & m0 & post & npre & npost & l1 & l2 & Hi & Hpost & Hi2 & Hnp & Hs1 & Hs2 & Hacc). destruct npost; [|done]. rewrite app_nil_r in Hi2.
      split; [done|]. exists (pre ++ [(c, m0)]), post. split_and!; [by rewrite <- (assoc_L (++))|done|]. rewrite Hacc. by eapply scan_cls_snoc.
    + destruct HP as (pre & m0 & post & npre & os & npost & opre & opost & l1 & l2 & Hi & Hpost & Hi2 & Hnp & Hin & Hi3 & Hop & Hs1 & Hs2 & Hacc).
      destruct opost as [|[n1 e1] opost]; [done|]. injection Hop as -> <-.
      pose proof (iter_lookup _ _ _ _ _ Hi) as Hl. pose proof (iter_lookup _ _ _ _ _ Hi2) as Hl2. pose proof (iter_lookup _ _ _ _ _ Hi3) as Hl3.
      match goal with H : _ = Some e |- _ => unfold objects, namespaces in H; rewrite Hm in H; simpl in H; rewrite Hl in H; simpl in H; rewrite Hl2 in H; simpl in H; rewrite Hl3 in H; injection H as <- end.
      split; [done|]. exists pre, m0, post, npre, os, npost, (opre ++ [(name, e1)]), opost, l1, l2. split_and!; try done.
      * by rewrite <- (assoc_L (++)).
      * rewrite !map_app, Hacc. simpl. by rewrite <- !(assoc_L (++)).
    + destruct HP as (pre & m0 & post & npre & os & npost & opre & opost & l1 & l2 & Hi & Hpost & Hi2 & Hnp & Hin & Hi3 & Hop & Hs1 & Hs2 & Hacc).
      destruct opost; [|done]. rewrite app_nil_r in Hi3.
      split; [done|]. exists pre, m0, post, (npre ++ [(n, os)]), npost, l1, (l2 ++ map snd opre). split_and!; try done.
      * by rewrite <- (assoc_L (++)).
      * apply scan_nss_take_snoc; [done..|]. exists opre. done.
  - clear. intros tr s p j s' _ Hok Hp HP Hj Hs Hq. apply HP. intros t t' Hin. apply (Hq t t'). by right.
Qed.

(** ** One goroutine alone does what the sequential model says *)
Lemma alter_some {K} `{Countable K} {A} (f : A -> A) (m : gmap K A) (k : K) (x : A) : m !! k = Some x -> alter f k m = <[k := f x]> m.
Proof.
  intros Hx. apply map_eq. intros k'. destruct (decide (k = k')) as [<-|].
  - rewrite lookup_alter, lookup_insert, Hx. done.
  - by rewrite lookup_alter_ne, lookup_insert_ne.
Qed.
Lemma put_all (m : tree) (g : gvr) (c ns : gostr) (f : nsmap -> nsmap) : is_Some (m !! g) ->
  at_ns m g c ns f = Ok (alter_objs f (init_ns (init_cluster m g c) g c ns) g c ns).
Proof.
  intros [cs Hg]. unfold at_ns. rewrite Hg. f_equal.
  assert (H1 : init_cluster m g c = <[g := <[c := default ∅ (cs !! c)]> cs]> m).
  { unfold init_cluster. rewrite (alter_some _ _ _ _ Hg). f_equal. destruct (cs !! c) eqn:Hc; [|done]. simpl. by rewrite insert_id. }
  rewrite H1. unfold init_ns, alter_objs, alter_nss. set (nss := default ∅ (cs !! c)).
  rewrite (alter_some _ (<[g:=<[c:=nss]> cs]> m) g (<[c:=nss]> cs)) by apply lookup_insert. rewrite insert_insert.
  rewrite (alter_some _ (<[c:=nss]> cs) c nss) by apply lookup_insert. rewrite insert_insert.
  set (nss' := match nss !! ns with Some _ => nss | None => <[ns := ∅]> nss end).
  rewrite (alter_some _ (<[g:=<[c:=nss']> cs]> m) g (<[c:=nss']> cs)) by apply lookup_insert. rewrite insert_insert.
  rewrite (alter_some _ (<[c:=nss']> cs) c nss') by apply lookup_insert. rewrite insert_insert.
  assert (Hn : nss' !! ns = Some (default ∅ (nss !! ns))).
  { unfold nss'. destruct (nss !! ns) eqn:Hns; [done|]. apply lookup_insert. }
  rewrite (alter_some _ _ _ _ Hn). assert (forall x : nsmap, <[ns := x]> nss' = <[ns := x]> nss) as ->; [|done].
  intros x. unfold nss'. destruct (nss !! ns) eqn:Hns; [done|]. by rewrite insert_insert.
Qed.
Lemma alone_step s p i s' : c_pcs s = [p] -> cstep s i s' -> exists p', i = 0 /\ c_pcs s' = [p'] /\
  exists rd wr : lk -> Prop, tstep rd wr (c_map s) p (c_map s') p'.
Proof.
  intros Hp Hs. destruct (cstep_pcs _ _ _ Hs) as (q & q' & Hq & Hl & Ht). rewrite Hp in Hq. destruct i as [|i]; [|done]. injection Hq as <-.
  exists q'. rewrite Hl, Hp. eauto.
Qed.
Lemma alone_follow (P : tree -> pc -> Prop) m0 p0 : P m0 p0 ->
  (forall (rd wr : lk -> Prop) m p m' p', P m p -> tstep rd wr m p m' p' -> P m' p') ->
  forall tr s p, cruns (CSys m0 [p0]) tr s -> c_pcs s = [p] -> P (c_map s) p.
Proof.
  intros H0 Hst tr s p Hr. revert p. induction Hr as [|tr s i s' Hr IH Hs]; intros p Hp.
  - by injection Hp as <-.
  - assert (Hq : exists q, c_pcs s = [q]).
    { pose proof (cruns_length _ _ _ Hr) as Hl. simpl in Hl. destruct (c_pcs s) as [|q [|]]; try done. eauto. }
    destruct Hq as [q Hq]. destruct (alone_step _ _ _ _ Hq Hs) as (p' & _ & Hp' & rd & wr & Ht). rewrite Hp in Hp'. injection Hp' as ->. eauto.
Qed.
Lemma put_alone m g c ns n v tr s r : cruns (CSys m [TPut (AInitC false) g c ns n v]) tr s -> c_pcs s = [TDone r] ->
  at_ns m g c ns (set_obj n v) = Ok (c_map s).
Proof.
  intros Hr Hp. set (m1 := init_cluster m g c). set (m2 := init_ns m1 g c ns). set (m3 := alter_objs (set_obj n v) m2 g c ns).
  set (P := fun (m' : tree) (p : pc) => match p with
    | TPut a g' c' ns' n' v' => (g' = g /\ c' = c /\ ns' = ns /\ n' = n /\ v' = v) /\ match a with AInitC false => True | _ => is_Some (m !! g) end /\
        m' = match a with AInitC _ => m | AGetC1 | AInitN _ => m1 | AGetC2 | AGetN2 | ASet _ => m2 | _ => m3 end
    | TDone _ => is_Some (m !! g) /\ m' = m3
    | TPanic => True
    | _ => False end).
  assert (HP : P (c_map s) (TDone r)).
  { eapply (alone_follow P m (TPut (AInitC false) g c ns n v)); [done| |exact Hr|exact Hp].
    clear. intros rd wr m' p m'' p' HP Ht. destruct p as [a g' c' ns' n' v'| | | | |]; try done; [|by inversion Ht..].
    destruct HP as ((-> & -> & -> & -> & ->) & Hg & ->).
    inversion Ht; subst; try (match goal with |- context [found ?o _] => destruct o eqn:Ho; [|exact I] end); unfold clusters in *; simpl in *; eauto 10. }
  destruct HP as [Hg ->]. by apply put_all.
Qed.
Lemma get_alone m g c ns n tr s r : cruns (CSys m [TGet GExC g c ns n]) tr s -> c_pcs s = [TDone r] ->
  c_map s = m /\ r = RObj (obj_at m g c ns n).
Proof.
  intros Hr Hp.
  set (P := fun (m' : tree) (p : pc) => m' = m /\ match p with
    | TGet a g' c' ns' n' => g' = g /\ c' = c /\ ns' = ns /\ n' = n
    | TDone r => r = RObj (obj_at m g c ns n)
    | TPanic => True
    | _ => False end).
  cut (P (c_map s) (TDone r)); [done|]. eapply (alone_follow P m (TGet GExC g c ns n)); [done| |exact Hr|exact Hp].
  clear. intros rd wr m' p m'' p' [-> HP] Ht. destruct p as [| |a g' c' ns' n'| | |]; try done; [|by inversion Ht..]. destruct HP as (-> & -> & -> & ->).
  inversion Ht; subst; (split; [done|]); unfold found; try (by destruct (namespaces _ _ _)); try (by destruct (objects _ _ _ _)).
  - destruct (namespaces m'' g c) eqn:Hn; [done|]. unfold obj_at, objects. by rewrite Hn.
  - destruct (objects m'' g c ns) eqn:Hn; [done|]. unfold obj_at. by rewrite Hn.
  - done.
Qed.
(** The namespaces of a cluster with those outside [rest] emptied. *)
Definition wiped (rest : list gostr) (nss : clmap) : clmap := map_imap (fun ns os => Some (if decide (ns ∈ rest) then os else ∅)) nss.
Lemma wiped_all (nss : clmap) order : (forall ns, is_Some (nss !! ns) -> ns ∈ order) -> wiped order nss = nss.
Proof.
  intros H. apply map_eq. intros ns. unfold wiped. rewrite map_lookup_imap. destruct (nss !! ns) eqn:Hn; [|done]. cbn [mbind option_bind fmap option_map option_fmap].
  rewrite decide_True; [done|]. apply H. eauto.
Qed.
Lemma wiped_none (nss : clmap) : wiped [] nss = (fun _ => ∅) <$> nss.
Proof.
  apply map_eq. intros ns. unfold wiped. rewrite map_lookup_imap, lookup_fmap. destruct (nss !! ns); [|done]. cbn [mbind option_bind fmap option_map option_fmap].
  rewrite decide_False; [done|]. apply not_elem_of_nil.
Qed.
Lemma wiped_cons (nss : clmap) ns rest : ns ∉ rest -> alter (fun _ => ∅) ns (wiped (ns :: rest) nss) = wiped rest nss.
Proof.
  intros Hn. apply map_eq. intros ns'. unfold wiped. destruct (decide (ns = ns')) as [<-|Hne].
  - rewrite lookup_alter, !map_lookup_imap. destruct (nss !! ns); [|done]. cbn [mbind option_bind fmap option_map option_fmap]. by rewrite (decide_False (P := ns ∈ rest)).
  - rewrite lookup_alter_ne by done. rewrite !map_lookup_imap. destruct (nss !! ns'); [|done]. cbn [mbind option_bind fmap option_map option_fmap]. f_equal.
    destruct (decide (ns' ∈ rest)); [rewrite decide_True|rewrite decide_False]; rewrite ?elem_of_cons; naive_solver.
Qed.
Lemma clean_alone (conf : gmap gvr (gmap gostr gostr)) (gauge : gmap (gostr * gvr * gostr) N) (m : tree) g c tr s r :
  cruns (CSys m [TClean BExists g c]) tr s -> c_pcs s = [TDone r] ->
  exists e, clean (Store conf m gauge) g c = Ok (e, Store conf (c_map s) gauge).
Proof.
  intros Hr Hp.
  set (P := fun (m' : tree) (p : pc) => match p with
    | TClean a g' c' => (g' = g /\ c' = c) /\
        match a with
        | BWipe rest _ => NoDup rest /\ exists cs nss, m !! g = Some cs /\ cs !! c = Some nss /\ m' = <[g := <[c := wiped rest nss]> cs]> m
        | _ => m' = m end
    | TDone r => exists e, clean (Store conf m gauge) g c = Ok (e, Store conf m' gauge)
    | TPanic => True
    | _ => False end).
  cut (P (c_map s) (TDone r)); [done|]. eapply (alone_follow P m (TClean BExists g c)); [done| |exact Hr|exact Hp].
  clear. intros rd wr m' p m'' p' HP Ht. destruct p as [|a g' c'| | | |]; try done; [|by inversion Ht..]. destruct HP as ([-> ->] & HP).
  inversion Ht; subst; simpl in *.
  - subst m''. unfold clusters. destruct (m !! g) as [cs|] eqn:Hg; [|done]. destruct (cs !! c) eqn:Hc; [done|].
    exists true. unfold clean. simpl. rewrite Hg. by rewrite Hc.
  - by destruct (namespaces _ _ _).
  - subst m''. split; [done|]. match goal with H : namespaces _ _ _ = Some ?x |- _ => rename x into nss; unfold namespaces in H; rename H into Hn end.
    match goal with H : _ ≡ₚ _ |- _ => rename H into Hp end.
    split; [by eapply keys_nodup|]. destruct (m !! g) as [cs|] eqn:Hg; [|done]. simpl in Hn. exists cs, nss. split_and!; [done..|].
    rewrite wiped_all. { rewrite (insert_id cs c nss) by exact Hn. by rewrite (insert_id m g cs) by exact Hg. } intros ns Hns. by eapply keys_elem.
  - done.
  - destruct HP as (Hnd & cs & nss0 & Hg & Hc & ->). apply NoDup_cons in Hnd as [Hn1 Hn2]. split; [done|]. split; [done|]. exists cs, nss0. split_and!; [done..|].
    unfold alter_objs, alter_nss. erewrite (alter_some _ _ g) by apply lookup_insert. rewrite insert_insert. f_equal.
    erewrite (alter_some _ _ c) by apply lookup_insert. rewrite insert_insert. f_equal. by apply wiped_cons.
  - destruct HP as (Hnd & cs & nss0 & Hg & Hc & ->). exists false. unfold clean. simpl. rewrite Hg, Hc. by rewrite wiped_none.
Qed.

(** ** Running the model, for the examples: each loop takes the order of the finite map library *)
Definition exec_pc (rd wr : lk -> bool) (m : tree) (p : pc) : option (tree * pc) :=
  match p with
  | TPut a g c ns n v =>
      match a with
      | AInitC false => if rd (LkG g) then Some (m, found (clusters m g) (TPut (AInitC true) g c ns n v)) else None
      | AInitC true => if wr (LkG g) then Some (init_cluster m g c, TPut AGetC1 g c ns n v) else None
      | AGetC1 => if rd (LkG g) then Some (m, found (namespaces m g c) (TPut (AInitN false) g c ns n v)) else None
      | AInitN false => if rd (LkC g c) then Some (m, TPut (AInitN true) g c ns n v) else None
      | AInitN true => if wr (LkC g c) then Some (init_ns m g c ns, TPut AGetC2 g c ns n v) else None
      | AGetC2 => if rd (LkG g) then Some (m, found (namespaces m g c) (TPut AGetN2 g c ns n v)) else None
      | AGetN2 => if rd (LkC g c) then Some (m, found (objects m g c ns) (TPut (ASet false) g c ns n v)) else None
      | ASet false => if rd (LkN g c ns) then Some (m, TPut (ASet true) g c ns n v) else None
      | ASet true => if wr (LkN g c ns) then Some (alter_objs (set_obj n v) m g c ns, TPut AGetC3 g c ns n v) else None
      | AGetC3 => if rd (LkG g) then Some (m, found (namespaces m g c) (TPut AGetN3 g c ns n v)) else None
      | AGetN3 => if rd (LkC g c) then Some (m, found (objects m g c ns) (TPut ALen g c ns n v)) else None
      | ALen => if rd (LkN g c ns) then Some (m, TDone RNone) else None
      end
  | TClean a g c =>
      match a with
      | BExists => if rd (LkG g) then Some (m, match clusters m g with
                     | None => TPanic
                     | Some cs => match cs !! c with Some _ => TClean BGet g c | None => TDone RNone end end) else None
      | BGet => if rd (LkG g) then Some (m, found (namespaces m g c) (TClean BValues g c)) else None
      | BValues => if rd (LkC g c) then match namespaces m g c with
                     | Some nss => Some (m, TClean (BWipe (map fst (map_to_list nss)) false) g c) | None => None end else None
      | BWipe [] _ => Some (m, TDone RNone)
      | BWipe (ns :: nss) false => if rd (LkN g c ns) then Some (m, TClean (BWipe (ns :: nss) true) g c) else None
      | BWipe (ns :: nss) true => if wr (LkN g c ns) then Some (alter_objs (fun _ => ∅) m g c ns, TClean (BWipe nss false) g c) else None
      end
  | TGet a g c ns n =>
      match a with
      | GExC => if rd (LkG g) then Some (m, match namespaces m g c with Some _ => TGet GGetC1 g c ns n | None => TDone (RObj None) end) else None
      | GGetC1 => if rd (LkG g) then Some (m, found (namespaces m g c) (TGet GExN g c ns n)) else None
      | GExN => if rd (LkC g c) then Some (m, match objects m g c ns with Some _ => TGet GGetC2 g c ns n | None => TDone (RObj None) end) else None
      | GGetC2 => if rd (LkG g) then Some (m, found (namespaces m g c) (TGet GGetN g c ns n)) else None
      | GGetN => if rd (LkC g c) then Some (m, found (objects m g c ns) (TGet GGet g c ns n)) else None
      | GGet => if rd (LkN g c ns) then Some (m, TDone (RObj (objects m g c ns ≫= fun os => os !! n))) else None
      end
  | TQuery a g ns acc =>
      match a with
      | QStart => match clusters m g with
                  | None => Some (m, TPanic)
                  | Some cs => if rd (LkG g) then Some (m, TQuery (QClus (map fst (map_to_list cs))) g ns acc) else None end
      | QClus [] => Some (m, TDone (RList acc))
      | QClus (c :: cs) => match namespaces m g c with
                  | None => None
                  | Some nss => if rd (LkC g c) then Some (m, TQuery (QNss c (map fst (map_to_list nss)) cs) g ns acc) else None end
      | QNss c [] cs => Some (m, TQuery (QClus cs) g ns acc)
      | QNss c (n :: nss) cs =>
          if decide (in_scope ns n) then
            match objects m g c n with
            | None => None
            | Some os => if rd (LkN g c n) then Some (m, TQuery (QObjs c n (map fst (map_to_list os)) nss cs) g ns acc) else None end
          else Some (m, TQuery (QNss c nss cs) g ns acc)
      | QObjs c n [] nss cs => Some (m, TQuery (QNss c nss cs) g ns acc)
      | QObjs c n (name :: names) nss cs => match objects m g c n ≫= fun os => os !! name with
                  | Some e => Some (m, TQuery (QObjs c n names nss cs) g ns (acc ++ [((c, n, name), e)])) | None => None end
      end
  | _ => None
  end.
Definition othersb (i : nat) (f : pc -> bool) (l : list pc) : bool := forallb (fun x => x) (imap (fun j p => if Nat.eqb j i then true else f p) l).
Definition exec (s : csys) (i : nat) : option csys :=
  p ← c_pcs s !! i;
  x ← exec_pc (fun k => othersb i (fun q => negb (bool_decide (announced q k))) (c_pcs s)) (fun k => othersb i (fun q => negb (bool_decide (holds q k))) (c_pcs s)) (c_map s) p;
  Some (CSys x.1 (<[i := x.2]> (c_pcs s))).
Fixpoint exec_all (s : csys) (is : list nat) (tr : trace) : option (trace * csys) :=
  match is with
  | [] => Some (tr, s)
  | i :: is => s' ← exec s i; exec_all s' is ((s, i, s') :: tr)
  end.
Lemma othersb_spec i (f : pc -> bool) (P : pc -> Prop) s : (forall q, f q = true -> P q) -> othersb i f (c_pcs s) = true -> others s i P.
Proof.
  intros Hf Hb j p Hp Hj. unfold othersb in Hb. rewrite forallb_forall in Hb. apply Hf.
  specialize (Hb (if Nat.eqb j i then true else f p)). destruct (Nat.eqb_spec j i) as [|]; [done|]. apply Hb.
  apply elem_of_list_In. apply elem_of_list_lookup. exists j. rewrite list_lookup_imap, Hp. simpl. by destruct (Nat.eqb_spec j i).
Qed.
Lemma exec_pc_sound (rd wr : lk -> bool) (rd' wr' : lk -> Prop) m p m' p' :
  (forall k, rd k = true -> rd' k) -> (forall k, wr k = true -> wr' k) -> exec_pc rd wr m p = Some (m', p') -> tstep rd' wr' m p m' p'.
Proof.
  intros Hr Hw H. destruct p as [a g c ns n v|a g c|a g c ns n|a g ns acc| |]; try done.
  - destruct a as [[]| |[]| | |[]| | |]; simpl in H; repeat case_match; simplify_eq; constructor; auto.
  - destruct a as [| | |[|ns nss] []]; simpl in H.
    + destruct (rd (LkG g)) eqn:?; [|done]. injection H as <- <-. apply b_exists. auto.
    + destruct (rd (LkG g)) eqn:?; [|done]. injection H as <- <-. apply b_get. auto.
    + destruct (rd (LkC g c)) eqn:?; [|done]. destruct (namespaces m g c) eqn:?; [|done]. injection H as <- <-. eapply b_values; eauto.
    + injection H as <- <-. apply b_done.
    + injection H as <- <-. apply b_done.
    + destruct (wr (LkN g c ns)) eqn:?; [|done]. injection H as <- <-. apply b_wipe'. auto.
    + destruct (rd (LkN g c ns)) eqn:?; [|done]. injection H as <- <-. apply b_wipe. auto.
  - destruct a; simpl in H.
    + destruct (rd (LkG g)) eqn:?; [|done]. injection H as <- <-. apply g_exc. auto.
    + destruct (rd (LkG g)) eqn:?; [|done]. injection H as <- <-. apply g_getc1. auto.
    + destruct (rd (LkC g c)) eqn:?; [|done]. injection H as <- <-. apply g_exn. auto.
    + destruct (rd (LkG g)) eqn:?; [|done]. injection H as <- <-. apply g_getc2. auto.
    + destruct (rd (LkC g c)) eqn:?; [|done]. injection H as <- <-. apply g_getn. auto.
    + destruct (rd (LkN g c ns)) eqn:?; [|done]. injection H as <- <-. apply g_get. auto.
  - destruct a as [|[|c cs']|c [|n nss] cs'|c n [|name names] nss cs']; simpl in H; repeat case_match; simplify_eq; try (by constructor; auto).
    + eapply q_start; eauto.
    + eapply q_clus; eauto.
    + eapply q_ns; eauto.
    + apply q_skip; unfold in_scope in *; naive_solver.
Qed.
Lemma exec_sound s i s' : exec s i = Some s' -> cstep s i s'.
Proof.
  unfold exec. destruct (c_pcs s !! i) as [p|] eqn:Hp; [|done]. cbn [mbind option_bind].
  destruct (exec_pc _ _ _ _) as [[m' p']|] eqn:He; [|done]. cbn [mbind option_bind]. intros [= <-]. econstructor; [exact Hp|].
  eapply exec_pc_sound; [| |exact He]; intros k Hk; (eapply othersb_spec; [|exact Hk]); intros q Hq; apply negb_true_iff, bool_decide_eq_false in Hq; done.
Qed.
Lemma exec_all_sound s0 s is tr r : cruns s0 tr s -> exec_all s is tr = Some r -> cruns s0 r.1 r.2.
Proof.
  revert s tr. induction is as [|i is IH]; simpl; intros s tr Hr H; [by injection H as <-|].
  destruct (exec s i) as [s'|] eqn:He; [|done]. simpl in H. eapply IH; [|exact H]. econstructor; [exact Hr|]. by apply exec_sound.
Qed.
Lemma exec_find {A} (f : trace * csys -> A) s0 is a : match exec_all s0 is [] with Some r => Some (f r) | None => None end = Some a ->
  exists tr s, cruns s0 tr s /\ f (tr, s) = a.
Proof.
  destruct (exec_all s0 is []) as [[tr s]|] eqn:He; [|done]. intros [= <-]. exists tr, s. split; [|done].
  exact (exec_all_sound _ _ _ _ _ (cruns_nil _) He).
Qed.
