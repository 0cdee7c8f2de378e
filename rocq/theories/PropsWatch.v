(** C42: relayed watch streams. *)
From Coq Require Import Ascii String NArith ZArith Lia.
From stdpp Require Import base gmap strings list.
From Verif Require Import ModelStr ModelProxy ProofsStr.

Definition newline : ascii := byte 10.
(** A successful read of one byte while the client is there. *)
Definition got (b : ascii) : read := Read (Some b) false false.
(** Chunks as a client should see them: whole lines. *)
Definition line (chunk : gostr) : Prop := exists s, chunk = s ++ [newline] /\ newline ∉ s.
(** [cut bs ls rest]: the bytes are the lines [ls] and a rest without newline. *)
Definition cut (bs : gostr) (ls : list gostr) (rest : gostr) : Prop :=
  bs = concat ls ++ rest /\ Forall line ls /\ newline ∉ rest.

Lemma nl_false b : ch_eqb b (byte 10) = false -> b <> newline.
Proof. intros H ->. by rewrite ch_eqb_refl in H. Qed.
Lemma copy_reads bs : forall buf rs, newline ∉ buf ->
  exists ls rest, cut (buf ++ bs) ls rest /\ copy_watch buf (map got bs ++ rs) = ls ++ copy_watch rest rs.
Proof.
  induction bs as [|b bs IH]; intros buf rs Hb.
  - exists [], buf. cbn [map app concat]. rewrite app_nil_r. split; [|done]. split; [done|]. split; [constructor|done].
  - cbn [map app copy_watch got rd_err rd_byte rd_done]. cbv zeta. destruct (ch_eqb b (byte 10)) eqn:E.
    + apply ch_eqb_eq in E as ->. destruct (IH [] rs (not_elem_of_nil _)) as (ls & rest & (E1 & E2 & E3) & Hc).
      exists ((buf ++ [newline]) :: ls), rest. split.
      * split; [|split; [|done]].
        -- cbn [concat]. change (byte 10) with newline. rewrite <- !app_assoc. cbn [app] in *. by rewrite E1.
        -- constructor; [|done]. by exists buf.
      * rewrite Hc. done.
    + destruct (IH (buf ++ [b]) rs) as (ls & rest & Hcut & Hc).
      { rewrite elem_of_app, elem_of_list_singleton. intros [?|Hn]; [done|]. by destruct (nl_false b). }
      exists ls, rest. rewrite <- app_assoc in Hcut. split; [done|]. by rewrite Hc.
Qed.
Lemma cut_unique bs ls rest ls' rest' : cut bs ls rest -> cut bs ls' rest' -> ls = ls' /\ rest = rest'.
Proof.
  intros (E1 & F1 & N1) (E2 & F2 & N2). subst bs. revert ls' E2 F2. induction F1 as [|l ls (s & -> & Hs) F1 IH]; intros ls' E2 F2.
  - destruct F2 as [|l' ls' (s' & -> & _) F2]; [by cbn in E2|]. exfalso. cbn in E2. apply N1. rewrite E2. set_solver.
  - destruct F2 as [|l' ls' (s' & -> & Hs') F2]. { exfalso. cbn in E2. apply N2. rewrite <- E2. set_solver. }
    cbn [concat] in E2. rewrite <- !app_assoc in E2. cbn [app] in E2.
    assert (s = s') as ->.
    { clear -E2 Hs Hs'. revert s' E2 Hs'. induction s as [|c s IH]; intros [|c' s'] E2 Hs'; cbn in E2; [done| | |].
      - injection E2 as E2 _. destruct Hs'. rewrite E2. left.
      - injection E2 as E2 _. destruct Hs. rewrite <- E2. left.
      - injection E2 as -> E2. f_equal. apply IH; [set_solver|done|set_solver]. }
    apply app_inv_head in E2. injection E2 as E2. destruct (IH ls' E2 F2) as [-> ->]. done.
Qed.

(** The whole stream, in lines, whatever ends it without a byte. *)
Theorem C42_relayed_unaltered (bs : gostr) (d : bool) (rs : list read) :
  exists ls rest, cut bs ls rest /\ copy_watch [] (map got bs ++ Read None true d :: rs) = ls ++ [rest].
Proof.
  destruct (copy_reads bs [] (Read None true d :: rs) (not_elem_of_nil _)) as (ls & rest & Hc & E). exists ls, rest. split; [done|]. by rewrite E.
Qed.
Corollary C42_all_bytes (bs : gostr) (d : bool) (rs : list read) : concat (copy_watch [] (map got bs ++ Read None true d :: rs)) = bs.
Proof.
  destruct (C42_relayed_unaltered bs d rs) as (ls & rest & (E & _) & ->). rewrite concat_app. cbn [concat]. by rewrite app_nil_r, <- E.
Qed.
(** While the stream is open, every complete line has been written. *)
Theorem C42_lines_are_prompt (bs : gostr) : exists ls rest, cut bs ls rest /\ copy_watch [] (map got bs) = ls.
Proof.
  destruct (copy_reads bs [] [] (not_elem_of_nil _)) as (ls & rest & Hc & E). exists ls, rest. split; [done|].
  rewrite app_nil_r in E. rewrite E. cbn. by rewrite app_nil_r.
Qed.
(** When the client goes away after byte [b], an unfinished line is dropped. *)
Theorem C42_cancelled (bs : gostr) (b : ascii) (rs : list read) :
  exists ls rest, cut (bs ++ [b]) ls rest /\ copy_watch [] (map got bs ++ Read (Some b) false true :: rs) = ls.
Proof.
  destruct (copy_reads bs [] (Read (Some b) false true :: rs) (not_elem_of_nil _)) as (ls & rest & (E1 & E2 & E3) & E).
  rewrite E. cbn [copy_watch rd_err rd_byte rd_done]. cbv zeta. destruct (ch_eqb b (byte 10)) eqn:Eb.
  - apply ch_eqb_eq in Eb as ->. exists (ls ++ [rest ++ [newline]]), []. split; [|done]. split; [|split].
    + rewrite concat_app. cbn [concat]. rewrite !app_nil_r. change (byte 10) with newline. cbn [app] in E1. by rewrite E1, <- app_assoc.
    + apply Forall_app. split; [done|]. constructor; [|constructor]. by exists rest.
    + apply not_elem_of_nil.
  - exists ls, (rest ++ [b]). split; [|cbn; by rewrite app_nil_r]. split; [cbn [app] in E1; by rewrite E1, <- app_assoc|]. split; [done|].
    rewrite elem_of_app, elem_of_list_singleton. intros [?|Hn]; [done|]. by destruct (nl_false b).
Qed.
(** Finding: a byte that comes together with the error is lost, *)
Theorem C42_byte_with_error_lost (bs : gostr) (b : ascii) (d : bool) (rs : list read) :
  concat (copy_watch [] (map got bs ++ Read (Some b) true d :: rs)) = bs.
Proof.
  destruct (copy_reads bs [] (Read (Some b) true d :: rs) (not_elem_of_nil _)) as (ls & rest & (E1 & _) & ->).
  cbn [copy_watch rd_err]. rewrite concat_app. cbn [concat]. by rewrite app_nil_r, <- E1.
Qed.
(** and a read of no byte without error, which io.Reader allows, becomes a zero byte. *)
Theorem C42_empty_read_refuted : exists (bs1 bs2 : gostr),
  concat (copy_watch [] (map got bs1 ++ Read None false false :: map got bs2 ++ [Read None true false])) <> bs1 ++ bs2.
Proof. exists (str "a"), (str "b"). by vm_compute. Qed.
Print Assumptions C42_relayed_unaltered.
Print Assumptions C42_all_bytes.
Print Assumptions C42_lines_are_prompt.
Print Assumptions C42_cancelled.
Print Assumptions C42_byte_with_error_lost.
Print Assumptions C42_empty_read_refuted.
Example C42_ex : copy_watch [] (map got (str "ab" ++ [newline] ++ str "c" ++ [newline; newline] ++ str "d") ++ [Read None true false]) =
  [str "ab" ++ [newline]; str "c" ++ [newline]; [newline]; str "d"].
Proof. by vm_compute. Qed.
