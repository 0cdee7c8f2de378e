(** cmd/ckube-plugin/main.go: the kubectl plugin. *)
From Coq Require Import Ascii String NArith ZArith.
From stdpp Require Import base gmap strings list.
From Verif Require Import ModelStr ModelLabels ModelPage ModelJson ModelQuery ModelProxy.

Inductive subcommand := SGet | SCreate | SNone.
(** The variables of main: clusters, args, typ, selectorPos. *)
Record scan_state := Scan { sc_clusters : gostr; sc_args : list gostr; sc_typ : subcommand; sc_pos : nat }.
(** main.go:26-50: the loop over os.Args from index [i] on; [l] is os.Args[i:]. *)
Fixpoint scan (i : nat) (l : list gostr) (s : scan_state) : scan_state :=
  match l with
  | [] => s
  | a :: rest =>
      let typ := if str_eqb a (str "get") then SGet else if str_eqb a (str "create") then SCreate else sc_typ s in
      if str_eqb a (str "--clusters") then
        match rest with
        | v :: rest' => scan (S (S i)) rest' (Scan v (sc_args s) typ (sc_pos s))
        | [] => Scan (sc_clusters s) (sc_args s) typ (sc_pos s)
        end
      else
        let pos := if str_eqb a (str "-l") || str_eqb a (str "--selector")
                   then match rest with [] => sc_pos s | _ => S i end
                   else sc_pos s in
        scan (S i) rest (Scan (sc_clusters s) (sc_args s ++ [a]) typ pos)
  end.

(** How the plugin ends: os.Exit, an index out of range, or kubectl with these arguments. *)
Inductive plugin_end := PExit (code : N) | PPanics | PRuns (args : list gostr).
(** page.QueryListOptions with the error ignored: the options are then unchanged (page.go:296-327). *)
Definition list_options (sel : gostr) (p : paginate) : gostr := default sel (query_list_options sel p).
(** main.go:51-91; [argv] is os.Args[1:].  Messages and the run of kubectl are not modelled.  QueryCreateOptions
    of empty options never fails (page.go:264-270). *)
Definition plugin (argv : list gostr) : plugin_end :=
  let s := scan 1 argv (Scan [] [] SNone 0) in
  match sc_typ s with
  | SNone => PExit 1
  | _ =>
      match sc_clusters s with
      | [] => PRuns (sc_args s)
      | _ =>
          let cs := split_on ","%char (sc_clusters s) in
          match sc_typ s with
          | SGet =>
              let p := (set_clusters (Paginate 0 0 0 [] []) cs).2 in
              match sc_pos s with
              | O => PRuns (sc_args s ++ [str "-l"; list_options [] p])
              | pos => match sc_args s !! pos with
                       | None => PPanics
                       | Some sel => PRuns (<[pos := list_options sel p]> (sc_args s))
                       end
              end
          | _ => if (1 <? length cs)%nat then PExit 2
                 else PRuns (sc_args s ++ [str "--field-manager"; cluster_prefix ++ hd [] cs])
          end
      end
  end.
