(** sort.Slice, sort.Sort and sort.Strings of Go 1.19: pattern-defeating quicksort
    (src/sort/zsortfunc.go and zsortinterface.go, the same algorithm twice).
    ckube calls them at store/memory/memory.go:237, kube/label.go:34, api/proxy.go:371 and, through
    k8s.io/apimachinery labels, in sets.String.List and sort.Sort(ByKey(..)).

    The array is a list; [less] compares elements and may be any function (ckube's is not a strict
    order).  The state records every comparison made, in reverse order, because ckube's comparison
    function has a side effect, and a flag that an index was out of range (a Go panic). *)
From stdpp Require Import base list.
From Coq Require Import NArith.

Section gosort.
  Context {A : Type} (less : A -> A -> bool).
  (** breakPatterns' pseudo-random numbers: [rnd length i] is the i-th index used. *)
  Context (rnd : nat -> nat -> nat).

  Record sst := SST { arr : list A; log : list (A * A); oob : bool }.
  Definition SM (X : Type) : Type := sst -> X * sst.
  Definition sret {X} (x : X) : SM X := fun s => (x, s).
  Definition sbind {X Y} (m : SM X) (k : X -> SM Y) : SM Y :=
    fun s => let '(x, s') := m s in k x s'.
  Notation "'LET' x <- m ;; k" := (sbind m (fun x => k)) (at level 200, x pattern, m at level 99, k at level 200).
  Notation "m ;; k" := (sbind m (fun _ => k)) (at level 100, k at level 200, right associativity).

  (** data.Less(i, j). *)
  Definition cmp (i j : nat) : SM bool := fun s =>
    match arr s !! i, arr s !! j with
    | Some x, Some y => (less x y, SST (arr s) ((x, y) :: log s) (oob s))
    | _, _ => (false, SST (arr s) (log s) true)
    end.
  (** data.Swap(i, j). *)
  Definition swap (i j : nat) : SM unit := fun s =>
    match arr s !! i, arr s !! j with
    | Some x, Some y => (tt, SST (<[j := x]> (<[i := y]> (arr s))) (log s) (oob s))
    | _, _ => (tt, SST (arr s) (log s) true)
    end.

  (** insertionSort_func, inner loop: for j := i; j > a && Less(j, j-1); j-- { Swap(j, j-1) }. *)
  Fixpoint ins_inner (a j : nat) : SM unit :=
    match j with
    | O => sret tt
    | S j' =>
        if a <? j then
          LET b <- cmp j j' ;; if b then (swap j j' ;; ins_inner a j') else sret tt
        else sret tt
    end.
  (** outer loop from i, [n] iterations left. *)
  Fixpoint ins_outer (a n i : nat) : SM unit :=
    match n with
    | O => sret tt
    | S n' => ins_inner a i ;; ins_outer a n' (S i)
    end.
  Definition insertion_sort (a b : nat) : SM unit := ins_outer a (b - S a) (S a).

  (** siftDown_func. *)
  Fixpoint sift_down (fuel root hi first : nat) : SM unit :=
    match fuel with
    | O => sret tt
    | S f =>
        let child := 2 * root + 1 in
        if hi <=? child then sret tt
        else
          LET c <- (if child + 1 <? hi then cmp (first + child) (first + child + 1) else sret false) ;;
          let child := if c then child + 1 else child in
          LET d <- cmp (first + root) (first + child) ;;
          if d then (swap (first + root) (first + child) ;; sift_down f child hi first)
          else sret tt
    end.
  (** heapSort_func: first loop for i = n-1 down to 0. *)
  Fixpoint heap_build (n hi first : nat) : SM unit :=
    match n with
    | O => sret tt
    | S i => sift_down hi i hi first ;; heap_build i hi first
    end.
  (** second loop for i = n-1 down to 0. *)
  Fixpoint heap_pop (n first : nat) : SM unit :=
    match n with
    | O => sret tt
    | S i => swap first (first + i) ;; sift_down i 0 i first ;; heap_pop i first
    end.
  Definition heap_sort (a b : nat) : SM unit :=
    let hi := b - a in
    heap_build (S ((hi - 1) / 2)) hi a ;; heap_pop hi a.

  (** The scanning loops of partition_func: for i <= j && Less(i, a) { i++ }
      and for i <= j && !Less(j, a) { j-- }. *)
  Fixpoint scan_up (fuel a i j : nat) : SM nat :=
    match fuel with
    | O => sret i
    | S f => if i <=? j then LET b <- cmp i a ;; if b then scan_up f a (S i) j else sret i
             else sret i
    end.
  Fixpoint scan_down (fuel a i j : nat) : SM nat :=
    match fuel with
    | O => sret j
    | S f => if i <=? j then LET b <- cmp j a ;; if b then sret j else scan_down f a i (j - 1)
             else sret j
    end.
  (** The main loop of partition_func; result is j. *)
  Fixpoint part_loop (fuel a i j : nat) : SM nat :=
    match fuel with
    | O => sret j
    | S f =>
        LET i <- scan_up (S j - i) a i j ;;
        LET j <- scan_down (S j - i) a i j ;;
        if j <? i then sret j
        else swap i j ;; part_loop f a (S i) (j - 1)
    end.
  Definition partition (a b pivot : nat) : SM (nat * bool) :=
    swap a pivot ;;
    LET i <- scan_up (b - S a) a (S a) (b - 1) ;;
    LET j <- scan_down (b - i) a i (b - 1) ;;
    if j <? i then (swap j a ;; sret (j, true))
    else
      swap i j ;;
      LET j <- part_loop (b - a) a (S i) (j - 1) ;;
      swap j a ;; sret (j, false).

  (** partitionEqual_func. *)
  Fixpoint escan_up (fuel a i j : nat) : SM nat :=
    match fuel with
    | O => sret i
    | S f => if i <=? j then LET b <- cmp a i ;; if b then sret i else escan_up f a (S i) j
             else sret i
    end.
  Fixpoint escan_down (fuel a i j : nat) : SM nat :=
    match fuel with
    | O => sret j
    | S f => if i <=? j then LET b <- cmp a j ;; if b then escan_down f a i (j - 1) else sret j
             else sret j
    end.
  Fixpoint epart_loop (fuel a i j : nat) : SM nat :=
    match fuel with
    | O => sret i
    | S f =>
        LET i <- escan_up (S j - i) a i j ;;
        LET j <- escan_down (S j - i) a i j ;;
        if j <? i then sret i
        else swap i j ;; epart_loop f a (S i) (j - 1)
    end.
  Definition partition_equal (a b pivot : nat) : SM nat :=
    swap a pivot ;; epart_loop (b - a) a (S a) (b - 1).

  (** partialInsertionSort_func. *)
  Fixpoint pis_scan (fuel i b : nat) : SM nat :=
    match fuel with
    | O => sret i
    | S f => if i <? b then LET c <- cmp i (i - 1) ;; if c then sret i else pis_scan f (S i) b
             else sret i
    end.
  (** for j := i - 1; j >= 1; j-- { if !Less(j, j-1) { break }; Swap(j, j-1) }: the Go code
      really stops at 1, not at a+1. *)
  Fixpoint shift_left (j : nat) : SM unit :=
    match j with
    | O => sret tt
    | S j' => LET c <- cmp j j' ;; if c then (swap j j' ;; shift_left j') else sret tt
    end.
  Fixpoint shift_right (fuel j b : nat) : SM unit :=
    match fuel with
    | O => sret tt
    | S f => if j <? b then
               LET c <- cmp j (j - 1) ;; if c then (swap j (j - 1) ;; shift_right f (S j) b) else sret tt
             else sret tt
    end.
  Fixpoint pis_loop (steps i a b : nat) : SM bool :=
    match steps with
    | O => sret false
    | S n =>
        LET i <- pis_scan (b - i) i b ;;
        if i =? b then sret true
        else if b - a <? 50 then sret false
        else
          swap i (i - 1) ;;
          (if 2 <=? i - a then shift_left (i - 1) else sret tt) ;;
          (if 2 <=? b - i then shift_right (b - S i) (S i) b else sret tt) ;;
          pis_loop n i a b
    end.
  Definition partial_insertion_sort (a b : nat) : SM bool := pis_loop 5 (S a) a b.

  (** breakPatterns_func; [rnd] stands for the xorshift numbers reduced modulo the next power of
      two, then brought below length by one subtraction. *)
  Fixpoint break_loop (n i idx a len : nat) : SM unit :=
    match n with
    | O => sret tt
    | S n' =>
        swap (idx - 1 + i) (a + rnd len i) ;; break_loop n' (S i) idx a len
    end.
  Definition break_patterns (a b : nat) : SM unit :=
    let len := b - a in
    if 8 <=? len then break_loop 3 0 (a + (len / 4) * 2 - 1) a len else sret tt.

  (** order2_func, median_func, medianAdjacent_func, choosePivot_func. *)
  Definition order2 (a b sw : nat) : SM (nat * nat * nat) :=
    LET c <- cmp b a ;; sret (if c then (b, a, S sw) else (a, b, sw)).
  Definition median (a b c sw : nat) : SM (nat * nat) :=
    LET (a, b, sw) <- order2 a b sw ;;
    LET (b, c, sw) <- order2 b c sw ;;
    LET (a, b, sw) <- order2 a b sw ;;
    sret (b, sw).
  Definition median_adjacent (a sw : nat) : SM (nat * nat) := median (a - 1) a (a + 1) sw.
  Inductive hint := HUnknown | HIncreasing | HDecreasing.
  Definition choose_pivot (a b : nat) : SM (nat * hint) :=
    let l := b - a in
    let i := a + l / 4 * 1 in
    let j := a + l / 4 * 2 in
    let k := a + l / 4 * 3 in
    LET (j, sw) <-
      (if 8 <=? l then
         if 50 <=? l then
           LET (i, sw) <- median_adjacent i 0 ;;
           LET (j, sw) <- median_adjacent j sw ;;
           LET (k, sw) <- median_adjacent k sw ;;
           median i j k sw
         else median i j k 0
       else sret (j, 0)) ;;
    sret (j, match sw with 0 => HIncreasing | 12 => HDecreasing | _ => HUnknown end).

  (** reverseRange_func. *)
  Fixpoint reverse_loop (fuel i j : nat) : SM unit :=
    match fuel with
    | O => sret tt
    | S f => if i <? j then (swap i j ;; reverse_loop f (S i) (j - 1)) else sret tt
    end.
  Definition reverse_range (a b : nat) : SM unit := reverse_loop (b - a) a (b - 1).

  (** pdqsort_func.  Both the recursive calls and the next turn of the loop work on a strictly
      shorter range, so fuel b - a + 1 is never used up. *)
  Fixpoint pdqsort (fuel a b limit : nat) (wasBalanced wasPartitioned : bool) : SM unit :=
    match fuel with
    | O => sret tt
    | S f =>
        let len := b - a in
        if len <=? 12 then insertion_sort a b
        else if limit =? 0 then heap_sort a b
        else
          LET limit <- (if wasBalanced then sret limit else (break_patterns a b ;; sret (limit - 1))) ;;
          LET (pivot, hnt) <- choose_pivot a b ;;
          LET (pivot, hnt) <-
            (match hnt with
             | HDecreasing => reverse_range a b ;; sret ((b - 1) - (pivot - a), HIncreasing)
             | _ => sret (pivot, hnt)
             end) ;;
          LET fin <-
            (match wasBalanced, wasPartitioned, hnt with
             | true, true, HIncreasing => partial_insertion_sort a b
             | _, _, _ => sret false
             end) ;;
          if (fin : bool) then sret tt
          else
            LET eq <- (if 0 <? a then (LET c <- cmp (a - 1) pivot ;; sret (negb c)) else sret false) ;;
            if (eq : bool) then
              LET mid <- partition_equal a b pivot ;;
              pdqsort f mid b limit wasBalanced wasPartitioned
            else
              LET (mid, already) <- partition a b pivot ;;
              let leftLen := mid - a in
              let rightLen := b - mid in
              let thr := len / 8 in
              if leftLen <? rightLen then
                pdqsort f a mid limit true true ;;
                pdqsort f (S mid) b limit (thr <=? leftLen) already
              else
                pdqsort f (S mid) b limit true true ;;
                pdqsort f a mid limit (thr <=? rightLen) already
    end.

  (** sort.Slice: limit = bits.Len(n). *)
  Definition sort_run (l : list A) : sst :=
    (pdqsort (S (length l)) 0 (length l) (N.to_nat (N.size (N.of_nat (length l)))) true true
       (SST l [] false)).2.
End gosort.
Arguments SST {A} _ _ _.
Arguments arr {A} _.
Arguments log {A} _.
Arguments oob {A} _.

(** xorshift.Next and the index computation of breakPatterns_func for a range of length [len]. *)
Definition u64 (n : N) : N := (n mod 18446744073709551616)%N.
Definition xs_next (r : N) : N :=
  let r := N.lxor r (u64 (N.shiftl r 13)) in
  let r := N.lxor r (N.shiftr r 17) in
  N.lxor r (u64 (N.shiftl r 5)).
Fixpoint xs_iter (n : nat) (r : N) : N :=
  match n with O => r | S n' => xs_next (xs_iter n' r) end.
Definition go_rnd (len i : nat) : nat :=
  let modulus := N.shiftl 1 (N.size (N.of_nat len)) in
  let other := N.to_nat (N.land (xs_iter (S i) (N.of_nat len)) (modulus - 1)%N) in
  if len <=? other then other - len else other.

(** The sorted slice. *)
Definition gosort {A} (less : A -> A -> bool) (l : list A) : list A :=
  arr (sort_run less go_rnd l).
(** The pairs that were compared. *)
Definition gosort_log {A} (less : A -> A -> bool) (l : list A) : list (A * A) :=
  log (sort_run less go_rnd l).
