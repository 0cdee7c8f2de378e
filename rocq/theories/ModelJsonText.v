(** encoding/json.Marshal of whole values.  Not in /repo; modelled from the Go sources. *)
From Coq Require Import Ascii String NArith ZArith.
From stdpp Require Import base gmap strings list.
From Verif Require Import ModelStr ModelJson.

(** The compact text of a value; members in the given order (struct fields in declaration order, map
    keys sorted, done by the caller); a number is printed as its literal. *)
Fixpoint json_text (j : json) : gostr :=
  match j with
  | JNull => str "null"
  | JBool b => if b then str "true" else str "false"
  | JNum l => l
  | JStr s => json_str s
  | JArr l => str "[" ++ join (str ",") (map json_text l) ++ str "]"
  | JObj l => str "{" ++ join (str ",") (map (fun kv : gostr * json => json_str kv.1 ++ str ":" ++ json_text kv.2) l) ++ str "}"
  end.
