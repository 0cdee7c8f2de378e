(** The counter ckube_reload_config_total and the gauge up of utils/prommonitor/metrics.go:16-23 while
    configurations are reloaded (cmd/cacheproxy/main.go:141-142, 208-219). *)
From Coq Require Import Ascii String NArith ZArith.
From stdpp Require Import base gmap strings list.
From Verif Require Import ModelStr ModelStore ModelProxy ModelWatcher ModelReload.

(** The series of a counter with one label, by the value of the label; a series that was never touched is not
    there.  The values are float64 in the code; they count exactly up to 2^53. *)
Notation counters := (gmap gostr nat).
(** client_golang: WithLabelValues(v).Inc(). *)
Definition inc (v : gostr) (m : counters) : counters := <[v := S (default 0 (m !! v))]> m.
(** main.go:210, 218: a round of the loop that fails counts as "failed" and goes on waiting; the other is counted
    as "success" after ResetStore, as the last thing it does. *)
Definition count (l : slabel) (m : counters) : counters :=
  match l with
  | SFail => inc (str "failed") m
  | SDone => inc (str "success") m
  | _ => m
  end.
(** main.go:139-142: set after common.InitConfig, in every load; nothing sets it to something else. *)
Definition up_after (l : slabel) (u : option nat) : option nat :=
  match l with SDo (IConf _) => Some 1 | _ => u end.
(** The system of ModelReload with both; main.go:178-181: the first load is no round of the loop. *)
Record msys := MSys { ms_sys : sys; ms_reloads : counters; ms_up : option nat }.
Definition mstarted (ld : loaded) : msys := MSys (Sys (started ld) None []) ∅ (Some 1).
Section counters.
  Context (E : env) (cf : bool) (kube file : gostr).
  Inductive mstep : msys -> slabel -> msys -> Prop :=
  | ms_step y l y' m u : sstep E cf kube file y l y' -> mstep (MSys y m u) l (MSys y' (count l m) (up_after l u)).
  (** An execution with its trace, the last step first. *)
  Inductive mruns (x : msys) : list slabel -> msys -> Prop :=
  | mruns_nil : mruns x [] x
  | mruns_cons tr x1 l x2 : mruns x tr x1 -> mstep x1 l x2 -> mruns x (l :: tr) x2.
End counters.
