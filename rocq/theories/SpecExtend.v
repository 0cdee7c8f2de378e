(** Specification of the services of a deployment.  Shared with the model: reading the selector of a service
    from its JSON, which C44_selector states without the model, and Go's quoting of a name. *)
From Coq Require Import Ascii String NArith ZArith.
From stdpp Require Import base gmap strings list.
From Verif Require Import ModelStr ModelJson ModelStore ModelProxy ModelExtend SpecPage.

(** Owned by a ReplicaSet whose name has a stem before the last dash. *)
Definition replica_pod (k : kobj) : Prop :=
  exists stem suffix rest, k_owners k = (str "ReplicaSet", stem ++ str "-" ++ suffix) :: rest /\ stem <> [] /\ "-"%char ∉ suffix.
(** A pod that counts for deployment [dep]: its quoted name contains the text. *)
Definition candidate (E : env) (st : store) (c ns dep n : gostr) (k : kobj) : Prop :=
  store_get st ([], str "v1", str "pods") c ns n = Some (OKube k) /\ occurs dep (quote (e_print E) n) /\ replica_pod k.
(** The labels of the first candidate by name; none without a candidate. *)
Definition labels_used (E : env) (st : store) (c ns dep : gostr) (labels : gmap gostr gostr) : Prop :=
  (exists n k, candidate E st c ns dep n k /\ labels = k_labels k /\
     forall n' k', candidate E st c ns dep n' k' -> n' = n \/ str_ltb n n' = true) \/
  (forall n k, ~ candidate E st c ns dep n k) /\ labels = ∅.
(** A service that selects the labels. *)
Definition selects (labels : gmap gostr gostr) (o : obj) : Prop :=
  exists k sel, o = OKube k /\ svc_selector (k_data k) = Some sel /\ forall x v, sel !! x = Some v -> labels !! x = Some v.
(** The characters of Kubernetes names. *)
Definition name_char (c : ascii) : Prop :=
  (97 <= code c <= 122)%N \/ (48 <= code c <= 57)%N \/ c = "-"%char \/ c = "."%char.
