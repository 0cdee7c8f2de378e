(** Query strings: decoding an encoded set of parameters gives it back. *)
From Coq Require Import Ascii String NArith ZArith Lia.
From stdpp Require Import base gmap strings list.
From Verif Require Import ModelStr ModelSort ProofsSort ProofsStr ModelLabels ModelJson ProofsJson ModelUrl.

Lemma hexval_up n : (n < 16)%N -> hexval (hexup n) = Some n.
Proof.
  intros H. assert (forallb (fun n => match hexval (hexup n) with Some m => N.eqb m n | None => false end)
    (map N.of_nat (seq 0 16)) = true) as HF by reflexivity.
  rewrite forallb_forall in HF. specialize (HF n).
  assert (In n (map N.of_nat (seq 0 16))) as Hin.
  { apply in_map_iff. exists (N.to_nat n). split; [lia|]. apply in_seq. lia. }
  specialize (HF Hin). destruct (hexval (hexup n)) as [m|]; [|done]. by apply N.eqb_eq in HF as ->.
Qed.
Lemma code_byte_split c : byte (16 * (code c / 16) + code c mod 16)%N = c.
Proof. rewrite <- N.div_mod by lia. unfold byte, code. apply ascii_N_embedding. Qed.
Lemma code_lt c : (code c < 256)%N.
Proof. apply N_ascii_bounded. Qed.
Lemma unreserved_plain c : unreserved c = true -> c <> "%"%char /\ c <> "+"%char /\ c <> "&"%char /\ c <> ";"%char /\ c <> "="%char.
Proof. intros H. repeat split; intros ->; done. Qed.
Lemma unescape_escape s : query_unescape (query_escape s) = Some s.
Proof.
  induction s as [|c s IH]; [done|]. change (query_escape (c :: s)) with
    ((if unreserved c then [c] else if ch_eqb c " "%char then ["+"%char]
      else ["%"%char; hexup (code c / 16); hexup (code c mod 16)]%N) ++ query_escape s).
  destruct (unreserved c) eqn:Hu.
  - apply unreserved_plain in Hu as (H1 & H2 & _). cbn [app query_unescape].
    apply ch_eqb_neq in H1, H2. by rewrite H1, H2, IH.
  - destruct (ch_eqb c " "%char) eqn:Hs.
    + apply ch_eqb_eq in Hs as ->. cbn [app query_unescape]. change (ch_eqb "+" "%") with false. change (ch_eqb "+" "+") with true.
      cbn match. by rewrite IH.
    + cbn [app query_unescape]. change (ch_eqb "%" "%") with true. cbn match. pose proof (code_lt c).
      assert (code c / 16 < 16)%N by (apply N.div_lt_upper_bound; lia). assert (code c mod 16 < 16)%N by (apply N.mod_lt; lia).
      rewrite !hexval_up by done. rewrite IH. cbn [fmap option_fmap option_map]. by rewrite code_byte_split.
Qed.
Lemma hexup_plain n : (n < 16)%N -> unreserved (hexup n) = true.
Proof.
  intros H. assert (forallb (fun n => unreserved (hexup n)) (map N.of_nat (seq 0 16)) = true) as HF by reflexivity.
  rewrite forallb_forall in HF. apply HF. apply in_map_iff. exists (N.to_nat n). split; [lia|]. apply in_seq. lia.
Qed.
Lemma escape_chars s c : c ∈ query_escape s -> unreserved c = true \/ c = "+"%char \/ c = "%"%char.
Proof.
  unfold query_escape. intros H%elem_of_list_In%in_flat_map. destruct H as (d & _ & H).
  destruct (unreserved d) eqn:Hu; [destruct H as [->|[]]; auto|].
  destruct (ch_eqb d " "%char); [destruct H as [<-|[]]; auto|].
  pose proof (code_lt d).
  assert (code d / 16 < 16)%N by (apply N.div_lt_upper_bound; lia). assert (code d mod 16 < 16)%N by (apply N.mod_lt; lia).
  destruct H as [<-|[<-|[<-|[]]]]; [auto|left..]; by apply hexup_plain.
Qed.
Lemma escape_no s c : unreserved c = false -> c <> "+"%char -> c <> "%"%char -> c ∉ query_escape s.
Proof. intros H1 H2 H3 H. apply escape_chars in H as [H|[H|H]]; congruence. Qed.

Definition enc (kv : gostr * gostr) : gostr := query_escape kv.1 ++ "="%char :: query_escape kv.2.
Lemma contains_none c s : c ∉ s -> contains s [c] = false.
Proof.
  intros H. apply not_true_is_false. intros (a & b & ->)%contains_true. set_solver.
Qed.
Lemma drop_mid {A} (a : list A) c b : drop (S (length a)) (a ++ c :: b) = b.
Proof. induction a as [|x a IH]; [done|]. exact IH. Qed.
Lemma parse_enc kv : parse_piece (enc kv) = Some kv.
Proof.
  destruct kv as [k v]. unfold parse_piece, enc. cbn [fst snd].
  assert (";"%char ∉ query_escape k ++ "="%char :: query_escape v) as Hs.
  { rewrite elem_of_app, elem_of_cons. intros [H|[H|H]]; [|done|]; revert H; by apply escape_no. }
  change (str ";") with [";"%char]. rewrite (contains_none _ _ Hs).
  assert (query_escape k ++ "="%char :: query_escape v <> []) as Hne by (by destruct (query_escape k)).
  destruct (query_escape k ++ "="%char :: query_escape v) as [|x l] eqn:E; [done|]. rewrite <- E. unfold cut_eq.
  change (str "=") with ["="%char]. rewrite index_of_char by (by apply escape_no).
  rewrite take_app, drop_mid. cbn. by rewrite !unescape_escape.
Qed.

Lemma enc_no_amp kv : "&"%char ∉ enc kv.
Proof.
  unfold enc. rewrite elem_of_app, elem_of_cons. intros [H|[H|H]]; [|done|]; revert H; by apply escape_no.
Qed.
(** The values of a key among pairs. *)
Definition vals_of (k : gostr) (ps : list (gostr * gostr)) : list gostr :=
  map snd (List.filter (fun kv : gostr * gostr => str_eqb kv.1 k) ps).
Lemma fold_add_lookup ps q k : fold_left add_value ps q !! k =
  match vals_of k ps with [] => q !! k | vs => Some (default [] (q !! k) ++ vs) end.
Proof.
  revert q. induction ps as [|[k' v] ps IH]; intros q; [done|]. cbn [fold_left]. rewrite IH. unfold vals_of, add_value.
  cbn [List.filter fst snd]. destruct (str_eqb k' k) eqn:Hk.
  - apply str_eqb_eq in Hk as ->. rewrite lookup_insert. cbn [map snd]. destruct (map snd _) as [|w ws]; [done|].
    cbn [default from_option id]. by rewrite <- app_assoc.
  - apply str_eqb_neq in Hk. by rewrite lookup_insert_ne.
Qed.
Lemma vals_of_flat k l : NoDup l.*1 ->
  vals_of k (flat_map (fun kv : gostr * list gostr => map (pair kv.1) kv.2) l) =
  match list_find (fun kv => kv.1 = k) l with Some (_, kv) => kv.2 | None => [] end.
Proof.
  unfold vals_of.
  assert (forall k' vs, List.filter (fun kv : gostr * gostr => str_eqb kv.1 k) (map (pair k') vs) = if str_eqb k' k then map (pair k') vs else []) as Hf.
  { intros k' vs. induction vs as [|v vs IH]; [by destruct (str_eqb k' k)|]. cbn [map List.filter fst]. rewrite IH. by destruct (str_eqb k' k). }
  assert (forall l, k ∉ l.*1 -> List.filter (fun kv : gostr * gostr => str_eqb kv.1 k) (flat_map (fun kv : gostr * list gostr => map (pair kv.1) kv.2) l) = []) as Hn.
  { clear l. intros l. induction l as [|[k' vs] l IH]; [done|]. cbn. intros [Hk Hl]%not_elem_of_cons. rewrite List.filter_app, IH, Hf by done.
    rewrite (proj2 (str_eqb_neq k' k)) by done. done. }
  induction l as [|[k' vs] l IH]; [done|]. cbn. intros [Hk Hl]%NoDup_cons. rewrite List.filter_app, Hf, map_app.
  destruct (decide (k' = k)) as [->|Hne].
  - rewrite (proj2 (str_eqb_eq k k) eq_refl), Hn by done. cbn. rewrite app_nil_r, map_map. cbn. by rewrite map_id.
  - rewrite (proj2 (str_eqb_neq k' k)) by done. cbn. rewrite IH by done. by destruct (list_find _ l) as [[]|].
Qed.
Lemma gosort_fst {V} (l : list (gostr * V)) : (gosort (fun a b : gostr * V => str_ltb a.1 b.1) l).*1 ≡ₚ l.*1.
Proof. by rewrite gosort_perm. Qed.
Lemma list_find_key {V} (q : gmap gostr V) l k : l ≡ₚ map_to_list q ->
  match list_find (fun kv : gostr * V => kv.1 = k) l with Some (_, kv) => Some kv.2 | None => None end = q !! k.
Proof.
  intros HP. destruct (list_find _ l) as [[i [k' v]]|] eqn:Hf.
  - apply list_find_Some in Hf as (Hi & Hk & _). cbn in Hk. subst k'. symmetry. apply elem_of_map_to_list. rewrite <- HP.
    by eapply elem_of_list_lookup_2.
  - destruct (q !! k) as [v|] eqn:Hq; [|done]. exfalso. apply elem_of_map_to_list in Hq. rewrite <- HP in Hq.
    apply list_find_None in Hf. rewrite Forall_forall in Hf. by apply (Hf (k, v)).
Qed.
Theorem parse_encode q : (forall k, q !! k <> Some []) -> query_parse (query_encode q) = q.
Proof.
  intros Hq. unfold query_parse, query_encode.
  assert (omap parse_piece (split_on "&"%char (join (str "&") (map enc (query_pairs q)))) = query_pairs q) as H.
  { destruct (query_pairs q) as [|kv ps] eqn:E; [done|]. rewrite <- E. change (str "&") with ["&"%char].
    rewrite split_on_join; [|by rewrite E|].
    - clear. induction (query_pairs q) as [|kv ps IH]; [done|]. cbn [map omap list_omap]. rewrite parse_enc. f_equal. exact IH.
    - apply Forall_forall. intros p (kv' & -> & _)%elem_of_list_fmap. apply enc_no_amp. }
  change (map (fun kv : gostr * gostr => query_escape kv.1 ++ "="%char :: query_escape kv.2) (query_pairs q)) with (map enc (query_pairs q)).
  rewrite H. apply map_eq. intros k. rewrite fold_add_lookup, lookup_empty. unfold query_pairs.
  rewrite vals_of_flat by (rewrite gosort_fst; apply NoDup_fst_map_to_list).
  pose proof (list_find_key q (gosort (fun a b : gostr * list gostr => str_ltb a.1 b.1) (map_to_list q)) k (gosort_perm _ _)) as Hk.
  destruct (list_find _ _) as [[i [k' vs]]|]; [|done]. cbn [snd] in *. rewrite <- Hk. destruct vs; [|done]. by destruct (Hq k).
Qed.
