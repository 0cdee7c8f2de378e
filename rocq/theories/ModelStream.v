(** pkg/client/fake/fake_ckube.go, watch (318-369) and the end of proxy (454-478): requests and watches of a fake
    server that run at the same time.  What a request makes of the store and which event it sends is ModelFake. *)
From Coq Require Import Ascii String NArith ZArith.
From stdpp Require Import base gmap strings list.
From Verif Require Import ModelStr ModelPage ModelStore ModelProxy ModelFake.

(** A watch: r.RemoteAddr, the type and namespace of the path, the Paginate (fake_ckube.go:260-317). *)
Record watch := Watch { wt_addr : gostr; wt_gvr : gvr; wt_ns : gostr; wt_page : paginate }.
(** Where the goroutine of a watch is: before 318; before 328; in the select (331) with the channel it read, nil
    if there was none; with an event (341); returned; panicked in close (334). *)
Inductive wpc := WBegin | WTop | WSelect (c : option nat) | WGot (e : event) | WDone | WPanic.
Record wstate := WState { wv_watch : watch; wv_pc : wpc; wv_out : list gostr }.
(** Where a request is: before its change of the store; before 468; in the loop (469), with the channels to come;
    answered (478); panicked in a send. *)
Inductive rpc := RBegin | RApplied | RSending (l : list (gostr * nat)) | RDone | RPanic.
Record rstate := RState { rv_event : event; rv_pc : rpc }.
(** watchChanMap, the channels made and closed, and whether watchChanLock was left locked by a panic.  The sections
    that hold the lock for writing are single steps; a request holds it for reading while it sends. *)
Record fsys := FSys { f_map : gmap gostr nat; f_next : nat; f_closed : gset nat; f_stuck : bool;
  f_watches : list wstate; f_requests : list rstate }.
Definition fsys0 : fsys := FSys ∅ 0 ∅ false [] [].
Definition zero_event : event := Event AError ([], [], []) [] [] [] [].
Definition reading (p : rpc) : bool := match p with RSending _ | RPanic => true | _ => false end.
Definition free (y : fsys) : Prop := f_stuck y = false /\ Forall (fun r => reading (rv_pc r) = false) (f_requests y).
Definition set_watch (i : nat) (v : wstate) (p : wpc) (y : fsys) : fsys :=
  FSys (f_map y) (f_next y) (f_closed y) (f_stuck y) (<[i := WState (wv_watch v) p (wv_out v)]> (f_watches y)) (f_requests y).
Definition set_request (j : nat) (r : rstate) (p : rpc) (y : fsys) : fsys :=
  FSys (f_map y) (f_next y) (f_closed y) (f_stuck y) (f_watches y) (<[j := RState (rv_event r) p]> (f_requests y)).
Definition set_map (m : gmap gostr nat) (n : nat) (cl : gset nat) (stuck : bool) (y : fsys) : fsys :=
  FSys m n cl stuck (f_watches y) (f_requests y).
(** fake_ckube.go:342-363 *)
Definition line_of (w : watch) (e : event) : list gostr := match watch_line (wt_gvr w) (wt_ns w) (wt_page w) e with Some s => [s] | None => [] end.
Inductive flabel := LWatch (w : watch) | LRequest (e : event) | LRegister (i : nat) | LRead (i : nat) | LWrite (i : nat) | LZero (i : nat)
  | LTimeout (i : nat) | LApply (j : nat) | LLock (j : nat) (l : list (gostr * nat)) | LTake (j : nat) (a : gostr) (i : nat) | LDrop (j : nat) (a : gostr) | LClosed (j : nat) | LUnlock (j : nat).
Inductive fstep (y : fsys) : flabel -> fsys -> Prop :=
(* a watch or a request comes *)
| f_watch w : fstep y (LWatch w) (FSys (f_map y) (f_next y) (f_closed y) (f_stuck y) (f_watches y ++ [WState w WBegin []]) (f_requests y))
| f_request e : fstep y (LRequest e) (FSys (f_map y) (f_next y) (f_closed y) (f_stuck y) (f_watches y) (f_requests y ++ [RState e RBegin]))
(* 318-320 *)
| f_register i v : f_watches y !! i = Some v -> wv_pc v = WBegin -> free y ->
    fstep y (LRegister i) (set_map (<[wt_addr (wv_watch v) := f_next y]> (f_map y)) (S (f_next y)) (f_closed y) (f_stuck y) (set_watch i v WTop y))
(* 328-330 *)
| f_read i v : f_watches y !! i = Some v -> wv_pc v = WTop -> f_stuck y = false ->
    fstep y (LRead i) (set_watch i v (WSelect (f_map y !! wt_addr (wv_watch v))) y)
(* 342-363 *)
| f_write i v e : f_watches y !! i = Some v -> wv_pc v = WGot e ->
    fstep y (LWrite i) (set_watch i (WState (wv_watch v) (wv_pc v) (wv_out v ++ line_of (wv_watch v) e)) WTop y)
(* a closed channel is always ready, with the zero value *)
| f_zero i v c : f_watches y !! i = Some v -> wv_pc v = WSelect (Some c) -> c ∈ f_closed y -> fstep y (LZero i) (set_watch i v (WGot zero_event) y)
(* 332-337: ten minutes are over *)
| f_timeout i v o c : f_watches y !! i = Some v -> wv_pc v = WSelect o -> free y -> f_map y !! wt_addr (wv_watch v) = Some c ->
    fstep y (LTimeout i) (set_map (delete (wt_addr (wv_watch v)) (f_map y)) (f_next y) ({[ c ]} ∪ f_closed y) (f_stuck y) (set_watch i v WDone y))
(* 334: close of a nil channel is a panic, with the lock held *)
| f_timeout_nil i v o : f_watches y !! i = Some v -> wv_pc v = WSelect o -> free y -> f_map y !! wt_addr (wv_watch v) = None ->
    fstep y (LTimeout i) (set_map (f_map y) (f_next y) (f_closed y) true (set_watch i v WPanic y))
(* the change of the store *)
| f_apply j r : f_requests y !! j = Some r -> rv_pc r = RBegin ->
    fstep y (LApply j) (FSys (f_map y) (f_next y) (f_closed y) (f_stuck y) (f_watches y) (<[j := RState (rv_event r) RApplied]> (f_requests y)))
(* 468-469: maps are walked in any order *)
| f_lock j r l : f_requests y !! j = Some r -> rv_pc r = RApplied -> f_stuck y = false -> l ≡ₚ map_to_list (f_map y) ->
    fstep y (LLock j l) (set_request j r (RSending l) y)
(* 470-472: somebody waits for the channel *)
| f_take j r a c l i v : f_requests y !! j = Some r -> rv_pc r = RSending ((a, c) :: l) -> c ∉ f_closed y ->
    f_watches y !! i = Some v -> wv_pc v = WSelect (Some c) ->
    fstep y (LTake j a i) (set_request j r (RSending l) (set_watch i v (WGot (rv_event r)) y))
(* 473-474 *)
| f_drop j r a c l : f_requests y !! j = Some r -> rv_pc r = RSending ((a, c) :: l) -> c ∉ f_closed y ->
    Forall (fun v => wv_pc v <> WSelect (Some c)) (f_watches y) ->
    fstep y (LDrop j a) (set_request j r (RSending l) y)
(* a send on a closed channel is a panic, with the lock held *)
| f_closed_send j r a c l : f_requests y !! j = Some r -> rv_pc r = RSending ((a, c) :: l) -> c ∈ f_closed y ->
    fstep y (LClosed j) (set_request j r RPanic y)
(* 477-478 *)
| f_unlock j r : f_requests y !! j = Some r -> rv_pc r = RSending [] -> fstep y (LUnlock j) (set_request j r RDone y).
(** Executions with their traces, the last step first. *)
Inductive fruns (y0 : fsys) : list flabel -> fsys -> Prop :=
| fruns_nil : fruns y0 [] y0
| fruns_cons tr y l y' : fruns y0 tr y -> fstep y l y' -> fruns y0 (l :: tr) y'.
