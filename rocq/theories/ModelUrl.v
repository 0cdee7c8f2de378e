(** net/url of Go 1.19: query strings.  Not in /repo; modelled from the Go sources. *)
From Coq Require Import Ascii String NArith ZArith.
From stdpp Require Import base gmap strings list.
From Verif Require Import ModelStr ModelSort ModelLabels ModelJson.

(** url.Values *)
Notation values := (gmap gostr (list gostr)).

Definition unreserved (c : ascii) : bool :=
  is_alnum c || existsb (ch_eqb c) ["-"; "_"; "."; "~"]%char.
Definition hexup (n : N) : ascii := byte (if (n <? 10)%N then 48 + n else 55 + n)%N.
(** QueryEscape *)
Definition query_escape (s : gostr) : gostr :=
  flat_map (fun c => if unreserved c then [c]
                     else if ch_eqb c " "%char then ["+"%char]
                     else ["%"%char; hexup (code c / 16); hexup (code c mod 16)]%N) s.
(** QueryUnescape; [None] is an error. *)
Fixpoint query_unescape (s : gostr) : option gostr :=
  match s with
  | [] => Some []
  | c :: r =>
      if ch_eqb c "%"%char then
        match r with
        | a :: b :: r' =>
            match hexval a, hexval b with
            | Some x, Some y => cons (byte (16 * x + y)%N) <$> query_unescape r'
            | _, _ => None
            end
        | _ => None
        end
      else cons (if ch_eqb c "+"%char then " "%char else c) <$> query_unescape r
  end.

(** strings.Cut(s, "=") *)
Definition cut_eq (s : gostr) : gostr * gostr :=
  match index_of (str "=") s with
  | Some i => (take i s, drop (S i) s)
  | None => (s, [])
  end.
(** parseQuery: one piece between "&"; a piece in error is skipped. *)
Definition parse_piece (p : gostr) : option (gostr * gostr) :=
  if contains p (str ";") then None
  else match p with
       | [] => None
       | _ => let '(k, v) := cut_eq p in
              k' ← query_unescape k; v' ← query_unescape v; Some (k', v')
       end.
Definition add_value (q : values) (kv : gostr * gostr) : values :=
  <[kv.1 := default [] (q !! kv.1) ++ [kv.2]]> q.
(** URL.Query *)
Definition query_parse (raw : gostr) : values :=
  fold_left add_value (omap parse_piece (split_on "&"%char raw)) ∅.
(** Values.Encode: keys in sorted order. *)
Definition query_pairs (q : values) : list (gostr * gostr) :=
  flat_map (fun kv : gostr * list gostr => map (pair kv.1) kv.2)
    (gosort (fun a b : gostr * list gostr => str_ltb a.1 b.1) (map_to_list q)).
Definition query_encode (q : values) : gostr :=
  join (str "&") (map (fun kv : gostr * gostr => query_escape kv.1 ++ "="%char :: query_escape kv.2) (query_pairs q)).
