(** cmd/ckubecli/main.go: the command that prints a label selector, with package flag and strconv.ParseInt. *)
From Coq Require Import Ascii String NArith ZArith.
From stdpp Require Import base gmap strings list.
From Verif Require Import ModelStr ModelLabels ModelPage ModelJson ModelQuery.

(** ** strconv.ParseInt(s, 0, 64) *)
(** strconv/atoi.go lower: c | ('x' - 'X'). *)
Definition lower_code (c : ascii) : N := N.lor (code c) 32.
Definition digit_val (c : ascii) : option N :=
  if ((48 <=? code c) && (code c <=? 57))%N then Some (code c - 48)%N
  else if ((97 <=? lower_code c) && (lower_code c <=? 122))%N then Some (lower_code c - 87)%N else None.
(** The loop of ParseUint.  Values too large are refused at the end: an overflow and a wrong digit after it are
    both errors. *)
Fixpoint uint_loop (base : N) (s : gostr) (n : N) : option N :=
  match s with
  | [] => Some n
  | c :: s' => if ch_eqb c "_" then uint_loop base s' n
               else match digit_val c with
                    | Some d => if (d <? base)%N then uint_loop base s' (n * base + d)%N else None
                    | None => None
                    end
  end.
(** underscoreOK: the last character seen. *)
Inductive saw := SawStart | SawDigit | SawUnder | SawOther.
Fixpoint under_loop (hex : bool) (s : gostr) (w : saw) : bool :=
  match s with
  | [] => match w with SawUnder => false | _ => true end
  | c :: s' =>
      if ((48 <=? code c) && (code c <=? 57) || (hex && (97 <=? lower_code c) && (lower_code c <=? 102)))%N then under_loop hex s' SawDigit
      else if ch_eqb c "_" then match w with SawDigit => under_loop hex s' SawUnder | _ => false end
      else match w with SawUnder => false | _ => under_loop hex s' SawOther end
  end.
Definition strip_sign (s : gostr) : bool * gostr :=
  match s with
  | c :: s' => if ch_eqb c "+" then (false, s') else if ch_eqb c "-" then (true, s') else (false, s)
  | [] => (false, s)
  end.
Definition underscore_ok (s : gostr) : bool :=
  let s := (strip_sign s).2 in
  match s with
  | c :: x :: s' =>
      if ch_eqb c "0" && ((lower_code x =? 98) || (lower_code x =? 111) || (lower_code x =? 120))%N
      then under_loop (lower_code x =? 120)%N s' SawDigit
      else under_loop false s SawStart
  | _ => under_loop false s SawStart
  end.
(** The base and the digits (ParseUint with base 0). *)
Definition base_of (s : gostr) : N * gostr :=
  match s with
  | c :: t =>
      if ch_eqb c "0" then
        match t with
        | x :: ((_ :: _) as t') =>
            if (lower_code x =? 98)%N then (2%N, t')
            else if (lower_code x =? 111)%N then (8%N, t')
            else if (lower_code x =? 120)%N then (16%N, t')
            else (8%N, t)
        | _ => (8%N, t)
        end
      else (10%N, s)
  | [] => (10%N, s)
  end.
Definition parse_uint (s : gostr) : option N :=
  match s with
  | [] => None
  | _ => let '(b, t) := base_of s in
         match uint_loop b t 0 with
         | None => None
         | Some n => if existsb (ch_eqb "_") t && negb (underscore_ok s) then None else Some n
         end
  end.
Definition parse_int (s : gostr) : option Z :=
  match s with
  | [] => None
  | _ => let '(neg, t) := strip_sign s in
         match parse_uint t with
         | None => None
         | Some n => if neg then if (n <=? 9223372036854775808)%N then Some (- Z.of_N n)%Z else None
                     else if (n <? 9223372036854775808)%N then Some (Z.of_N n) else None
         end
  end.

(** ** Package flag *)
(** main.go:15-24: the variables. *)
Record cli_opts := CliOpts { o_page : Z; o_size : Z; o_sort : gostr; o_search : gostr; o_clusters : gostr }.
Inductive flags_end := FOk (o : cli_opts) | FHelp | FBad.
(** Value.Set of the flag [name]: [None] is no such flag, [Some None] an invalid value. *)
Definition set_flag (name v : gostr) (o : cli_opts) : option (option cli_opts) :=
  let '(CliOpts p s so se c) := o in
  if str_eqb name (str "p") then Some (match parse_int v with Some z => Some (CliOpts z s so se c) | None => None end)
  else if str_eqb name (str "s") then Some (match parse_int v with Some z => Some (CliOpts p z so se c) | None => None end)
  else if str_eqb name (str "sort") then Some (Some (CliOpts p s v se c))
  else if str_eqb name (str "search") then Some (Some (CliOpts p s so v c))
  else if str_eqb name (str "c") then Some (Some (CliOpts p s so se v))
  else None.
Definition known (name : gostr) : bool :=
  match set_flag name [] (CliOpts 0 0 [] [] []) with Some _ => true | None => false end.
(** The loop of parseOne that looks for '='. *)
Fixpoint cut_eq (s : gostr) : gostr * option gostr :=
  match s with
  | [] => ([], None)
  | c :: s' => if ch_eqb c "=" then ([], Some s') else let '(a, b) := cut_eq s' in (c :: a, b)
  end.
(** flag.go FlagSet.Parse and parseOne, for flags that are not boolean. *)
Fixpoint parse_flags (args : list gostr) (o : cli_opts) : flags_end :=
  match args with
  | [] => FOk o
  | a :: rest =>
      match a with
      | c1 :: ((c2 :: t2) as t1) =>
          if negb (ch_eqb c1 "-") then FOk o
          else if ch_eqb c2 "-" && str_eqb t2 [] then FOk o
          else match (if ch_eqb c2 "-" then t2 else t1) with
               | [] => FBad
               | n1 :: n' =>
                   if ch_eqb n1 "-" || ch_eqb n1 "=" then FBad
                   else let '(n2, value) := cut_eq n' in
                        let name := n1 :: n2 in
                        if known name then
                          match value, rest with
                          | Some v, _ => match set_flag name v o with Some (Some o') => parse_flags rest o' | _ => FBad end
                          | None, v :: rest' => match set_flag name v o with Some (Some o') => parse_flags rest' o' | _ => FBad end
                          | None, [] => FBad
                          end
                        else if str_eqb name (str "help") || str_eqb name (str "h") then FHelp else FBad
               end
      | _ => FOk o
      end
  end.

(** ** main *)
(** What the command does: text on standard output, or an exit status.  fmt.Printf of a text without '%' writes
    the text; what it makes of a '%' is not modelled ([CGarbled]). *)
Inductive cli_end := CPrints (s : gostr) | CGarbled | CExit (code : N).
Definition printf (s : gostr) : cli_end := if existsb (ch_eqb "%") s then CGarbled else CPrints s.
(** main.go:14-42; the exit statuses of flag.Parse are 0 for help and 2 otherwise (flag.ExitOnError). *)
Definition cli (args : list gostr) : cli_end :=
  match parse_flags args (CliOpts 0 0 [] [] []) with
  | FHelp => CExit 0
  | FBad => CExit 2
  | FOk o =>
      let p := Paginate (o_page o) (o_size o) 0 (o_sort o) (o_search o) in
      let p := match o_clusters o with [] => p | cs => (set_clusters p (split_on "," cs)).2 end in
      match query_list_options [] p with
      | None => CExit 1
      | Some s => printf s
      end
  end.
