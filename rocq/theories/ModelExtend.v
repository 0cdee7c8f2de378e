(** api/extend/deploy2service.go and utils/subset.go *)
From Coq Require Import Ascii String NArith ZArith.
From stdpp Require Import base gmap strings list.
From Verif Require Import ModelStr ModelPage ModelJson ModelStore ModelProxy.

(** utils/subset.go:3-10; [order] is the order of the range loop over [sub]. *)
Fixpoint subset_loop (order : list (gostr * gostr)) (parent : gmap gostr gostr) : bool :=
  match order with
  | [] => true
  | (k, v) :: order' =>
      match parent !! k with
      | None => false
      | Some vv => if str_eqb vv v then subset_loop order' parent else false
      end
  end.

(** deploy2service.go:79-87 getDeploymentName: the name of the first owner without its last part. *)
Definition deployment_name (k : kobj) : gostr :=
  match k_owners k with
  | [] => []
  | (kind, name) :: _ =>
      if str_eqb kind (str "ReplicaSet") then join (str "-") (removelast (split_on "-"%char name)) else []
  end.
(** deploy2service.go:48-57: the labels of the first such pod, nil (an empty map to read from) without one. *)
Fixpoint pod_labels (items : list obj) : gmap gostr gostr :=
  match items with
  | [] => ∅
  | OKube k :: items' => match deployment_name k with [] => pod_labels items' | _ => k_labels k end
  | ORaw _ :: items' => pod_labels items'
  end.
(** Spec.Selector of a service; [None] for nil.  A service of type ObjType is decoded again from its
    JSON text (68-71), where the names of fields are those of the API; the last of several members wins. *)
Definition json_member (name : gostr) (j : json) : option json :=
  match j with
  | JObj l => fold_left (fun acc kv => if str_eqb kv.1 name then Some kv.2 else acc) l None
  | _ => None
  end.
Definition svc_selector (j : json) : option (gmap gostr gostr) :=
  match json_member (str "spec") j ≫= json_member (str "selector") with
  | Some (JObj l) => Some (fold_left (fun m kv => <[kv.1 := set_str [] kv.2]> m) l ∅)
  | _ => None
  end.
(** deploy2service.go:66-77; the type assertion panics for a value that is not a service. *)
Fixpoint pick_services (ord : gmap gostr gostr -> list (gostr * gostr)) (labels : gmap gostr gostr) (items : list obj)
    : result (list obj) :=
  match items with
  | [] => Ok []
  | ORaw _ :: _ => Panics
  | OKube k :: items' =>
      match pick_services ord labels items' with
      | Panics => Panics
      | Ok l => Ok (match svc_selector (k_data k) with
                    | Some sel => if subset_loop (ord sel) labels then OKube k :: l else l
                    | None => l
                    end)
      end
  end.
Definition pod_gvr : gvr := ([], str "v1", str "pods").
Definition svc_gvr : gvr := ([], str "v1", str "services").
(** deploy2service.go:19-77.  [Ok None] is a returned error. *)
Inductive services (E : env) (cf : config) (st : store) (r : request) : result (option (list obj)) -> Prop :=
| services_intro cluster ord pods svcs :
    cluster = (match var r (str "cluster") with [] => cf_default cf | c => c end) ->
    (forall m, ord m ≡ₚ map_to_list m) ->
    query E st pod_gvr (var r (str "namespace"))
      (set_clusters (Paginate 0 0 0 [] (str "name=" ++ var r (str "deployment"))) [cluster]).2 pods ->
    query E st svc_gvr (var r (str "namespace")) (set_clusters (Paginate 0 0 0 [] []) [cluster]).2 svcs ->
    services E cf st r
      match pods, svcs with
      | Panics, _ => Panics
      | Ok q1, _ =>
          if q_err q1 then Ok None
          else match svcs with
               | Panics => Panics
               | Ok q2 =>
                   if q_err q2 then Ok None
                   else match pick_services ord (pod_labels (q_items q1)) (q_items q2) with
                        | Panics => Panics
                        | Ok l => Ok (Some l)
                        end
               end
      end.
