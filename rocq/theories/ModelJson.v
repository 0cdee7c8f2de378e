(** encoding/base64 and encoding/json of Go 1.19, as far as ckube uses them.  Not in /repo;
    modelled from the Go sources. *)
From Coq Require Import Ascii String NArith ZArith.
From stdpp Require Import base gmap strings list.
From Verif Require Import ModelStr ModelPage.

(** ** base64.StdEncoding.WithPadding(NoPadding) *)
Definition b64_char (n : N) : ascii :=
  (if n <? 26 then byte (65 + n)
   else if n <? 52 then byte (71 + n)
   else if n <? 62 then byte (n - 4)
   else if n =? 62 then "+"%char else "/"%char)%N.
Definition b64_code (c : ascii) : option N :=
  let n := code c in
  (if (65 <=? n) && (n <=? 90) then Some (n - 65)
   else if (97 <=? n) && (n <=? 122) then Some (n - 71)
   else if (48 <=? n) && (n <=? 57) then Some (n + 4)
   else if n =? 43 then Some 62
   else if n =? 47 then Some 63 else None)%N.
(** EncodeToString. *)
Fixpoint b64_encode (s : gostr) : gostr :=
  match s with
  | [] => []
  | [a] => let a := code a in [b64_char (a / 4); b64_char (a mod 4 * 16)]%N
  | [a; b] => let a := code a in let b := code b in
      [b64_char (a / 4); b64_char (a mod 4 * 16 + b / 16); b64_char (b mod 16 * 4)]%N
  | a :: b :: c :: r => let a := code a in let b := code b in let c := code c in
      b64_char (a / 4)%N :: b64_char (a mod 4 * 16 + b / 16)%N
        :: b64_char (b mod 16 * 4 + c / 64)%N :: b64_char (c mod 64)%N :: b64_encode r
  end.
(** The decoder after the alphabet look-up: groups of four, unused low bits of the last group are
    ignored (the encoding is not Strict), a last group of one character is an error. *)
Fixpoint b64_groups (l : list N) : option gostr :=
  match l with
  | [] => Some []
  | [_] => None
  | [x; y] => Some [byte (x * 4 + y / 16)]%N
  | [x; y; z] => Some [byte (x * 4 + y / 16); byte (y mod 16 * 16 + z / 4)]%N
  | x :: y :: z :: w :: r =>
      match b64_groups r with
      | None => None
      | Some s => Some (byte (x * 4 + y / 16)%N :: byte (y mod 16 * 16 + z / 4)%N
                          :: byte (z mod 4 * 64 + w)%N :: s)
      end
  end.
Fixpoint b64_codes (s : gostr) : option (list N) :=
  match s with
  | [] => Some []
  | c :: r => match b64_code c, b64_codes r with
              | Some n, Some l => Some (n :: l)
              | _, _ => None
              end
  end.
(** DecodeString; carriage returns and newlines are skipped. *)
Definition b64_decode (s : gostr) : option gostr :=
  match b64_codes (List.filter (fun c => negb ((code c =? 10) || (code c =? 13)))%N s) with
  | None => None
  | Some l => b64_groups l
  end.

(** ** UTF-8 *)
(** utf8.EncodeRune. *)
Definition rune_error : gostr := map byte [239; 191; 189]%N.
Definition encode_rune (r : N) : gostr :=
  (if r <? 128 then [byte r]
   else if r <? 2048 then [byte (192 + r / 64); byte (128 + r mod 64)]
   else if ((55296 <=? r) && (r <=? 57343)) || (1114111 <? r) then rune_error
   else if r <? 65536 then
     [byte (224 + r / 4096); byte (128 + r / 64 mod 64); byte (128 + r mod 64)]
   else [byte (240 + r / 262144); byte (128 + r / 4096 mod 64);
         byte (128 + r / 64 mod 64); byte (128 + r mod 64)])%N.
(** Each byte of an invalid sequence replaced by U+FFFD. *)
Fixpoint to_valid_go (skip : nat) (s : gostr) : gostr :=
  match s with
  | [] => []
  | c :: s' =>
      match skip with
      | S k => c :: to_valid_go k s'
      | O => match decode_rune s with
             | Some (_, w) => c :: to_valid_go (Nat.pred w) s'
             | None => rune_error ++ to_valid_go 0 s'
             end
      end
  end.
Definition to_valid (s : gostr) : gostr := to_valid_go 0 s.

(** ** JSON values *)
Inductive json :=
| JNull | JBool (b : bool) | JNum (lit : gostr) | JStr (s : gostr)
| JArr (l : list json) | JObj (l : list (gostr * json)).

(** encodeState.string with escapeHTML: the text of one rune. *)
Definition json_rune (r : N) (raw : gostr) : gostr :=
  (if (r =? 34) || (r =? 92) then "\"%char :: raw
   else if r =? 10 then str "\n"
   else if r =? 13 then str "\r"
   else if r =? 9 then str "\t"
   else if (r <? 32) || (r =? 60) || (r =? 62) || (r =? 38) then str "\u00" ++ hex2 r
   else if (r =? 8232) || (r =? 8233) then str "\u" ++ hex4 r
   else raw)%N.
Fixpoint json_str_go (skip : nat) (s : gostr) : gostr :=
  match s with
  | [] => []
  | c :: s' =>
      match skip with
      | S k => json_str_go k s'
      | O => match decode_rune s with
             | Some (r, w) => json_rune r (take w s) ++ json_str_go (Nat.pred w) s'
             | None => str "\ufffd" ++ json_str_go 0 s'
             end
      end
  end.
Definition json_str (s : gostr) : gostr := dquote :: json_str_go 0 s ++ [dquote].

(** ** Parsing (scanner, unquote) *)
Definition jspace (c : ascii) : bool :=
  ((code c =? 32) || (code c =? 9) || (code c =? 10) || (code c =? 13))%N.
Fixpoint skip_ws (s : gostr) : gostr :=
  match s with c :: s' => if jspace c then skip_ws s' else s | [] => [] end.

Definition hexval (c : ascii) : option N :=
  let n := code c in
  (if (48 <=? n) && (n <=? 57) then Some (n - 48)
   else if (97 <=? n) && (n <=? 102) then Some (n - 87)
   else if (65 <=? n) && (n <=? 70) then Some (n - 55) else None)%N.
(** getu4 without the leading backslash and 'u'. *)
Definition hex4val (s : gostr) : option N :=
  match s with
  | a :: b :: c :: d :: _ =>
      match hexval a, hexval b, hexval c, hexval d with
      | Some a, Some b, Some c, Some d => Some (((a * 16 + b) * 16 + c) * 16 + d)%N
      | _, _, _, _ => None
      end
  | _ => None
  end.
(** utf16.DecodeRune for the low half [s] of a pair. *)
Definition surrogate_pair (r : N) (s : gostr) : option N :=
  match s with
  | b :: u :: s' =>
      if ch_eqb b "\"%char && ch_eqb u "u"%char then
        match hex4val s' with
        | Some r1 => if ((55296 <=? r) && (r <? 56320) && (56320 <=? r1) && (r1 <? 57344))%N
                     then Some ((r - 55296) * 1024 + (r1 - 56320) + 65536)%N else None
        | None => None
        end
      else None
  | _ => None
  end.
(** The rest of a string literal after the opening quote: the decoded string and the text after
    the closing quote. [skip] counts bytes already handled. *)
Fixpoint jstr (skip : nat) (s : gostr) : option (gostr * gostr) :=
  match s with
  | [] => None
  | c :: s' =>
    match skip with
    | S k => jstr k s'
    | O =>
      let add (x : gostr) (k : nat) :=
        match jstr k s' with Some (v, r) => Some (x ++ v, r) | None => None end in
      if (code c =? 34)%N then Some ([], s')
      else if (code c <? 32)%N then None
      else if (code c =? 92)%N then
        match s' with
        | [] => None
        | e :: s'' =>
          (if (code e =? 34) || (code e =? 92) || (code e =? 47) then add [e] 1%nat
           else if code e =? 98 then add [byte 8] 1%nat
           else if code e =? 102 then add [byte 12] 1%nat
           else if code e =? 110 then add [byte 10] 1%nat
           else if code e =? 114 then add [byte 13] 1%nat
           else if code e =? 116 then add [byte 9] 1%nat
           else if code e =? 117 then
             match hex4val s'' with
             | None => None
             | Some r =>
               if (55296 <=? r) && (r <? 57344) then
                 match surrogate_pair r (drop 4 s'') with
                 | Some p => add (encode_rune p) 11%nat
                 | None => add rune_error 5%nat
                 end
               else add (encode_rune r) 5%nat
             end
           else None)%N
        end
      else match decode_rune s with
           | Some (_, w) => add (take w s) (Nat.pred w)
           | None => add rune_error 0
           end
    end
  end.

Definition isdigit (c : ascii) : bool := ((48 <=? code c) && (code c <=? 57))%N.
(** Longest prefix of digits. *)
Fixpoint digits (s : gostr) : gostr * gostr :=
  match s with
  | c :: s' => if isdigit c then let '(d, r) := digits s' in (c :: d, r) else ([], s)
  | [] => ([], [])
  end.
Definition jfrac (s : gostr) : option (gostr * gostr) :=
  match s with
  | c :: s' => if ch_eqb c "."%char then
                 match digits s' with ([], _) => None | (d, r) => Some (c :: d, r) end
               else Some ([], s)
  | [] => Some ([], [])
  end.
Definition jexp (s : gostr) : option (gostr * gostr) :=
  match s with
  | c :: s' =>
      if ch_eqb c "e"%char || ch_eqb c "E"%char then
        let '(sg, s2) := match s' with
                         | g :: s2 => if ch_eqb g "+"%char || ch_eqb g "-"%char then ([g], s2) else ([], s')
                         | [] => ([], [])
                         end in
        match digits s2 with ([], _) => None | (d, r) => Some (c :: sg ++ d, r) end
      else Some ([], s)
  | [] => Some ([], [])
  end.
Definition jint (s : gostr) : option (gostr * gostr) :=
  match s with
  | c :: s' =>
      if ch_eqb c "0"%char then Some ([c], s')
      else if isdigit c then Some (digits s) else None
  | [] => None
  end.
(** A number literal. *)
Definition jnum (s : gostr) : option (gostr * gostr) :=
  let '(sg, s1) := match s with
                   | c :: s1 => if ch_eqb c "-"%char then ([c], s1) else ([], s)
                   | [] => ([], [])
                   end in
  match jint s1 with
  | None => None
  | Some (i, s2) =>
    match jfrac s2 with
    | None => None
    | Some (f, s3) =>
      match jexp s3 with
      | None => None
      | Some (e, s4) => Some (sg ++ i ++ f ++ e, s4)
      end
    end
  end.

(** The value parser.  [depth] is the number of arrays and objects that may still be opened
    (scanner maxNestingDepth = 10000), [fuel] bounds the recursion; 2*length + 2 is enough. *)
Fixpoint jval (fuel depth : nat) (s : gostr) {struct fuel} : option (json * gostr) :=
  match fuel with
  | O => None
  | S f =>
    match skip_ws s with
    | [] => None
    | c :: s' =>
      if (code c =? 34)%N then
        match jstr 0 s' with Some (v, r) => Some (JStr v, r) | None => None end
      else if ch_eqb c "{"%char then
        match depth with
        | O => None
        | S d =>
          match skip_ws s' with
          | e :: r => if ch_eqb e "}"%char then Some (JObj [], r)
                      else match jmembers f d (e :: r) with
                           | Some (l, r') => Some (JObj l, r')
                           | None => None
                           end
          | [] => None
          end
        end
      else if ch_eqb c "["%char then
        match depth with
        | O => None
        | S d =>
          match skip_ws s' with
          | e :: r => if ch_eqb e "]"%char then Some (JArr [], r)
                      else match jelems f d (e :: r) with
                           | Some (l, r') => Some (JArr l, r')
                           | None => None
                           end
          | [] => None
          end
        end
      else if has_prefix (str "true") (c :: s') then Some (JBool true, drop 4 (c :: s'))
      else if has_prefix (str "false") (c :: s') then Some (JBool false, drop 5 (c :: s'))
      else if has_prefix (str "null") (c :: s') then Some (JNull, drop 4 (c :: s'))
      else match jnum (c :: s') with Some (l, r) => Some (JNum l, r) | None => None end
    end
  end
with jelems (fuel depth : nat) (s : gostr) {struct fuel} : option (list json * gostr) :=
  match fuel with
  | O => None
  | S f =>
    match jval f depth s with
    | None => None
    | Some (v, r) =>
      match skip_ws r with
      | c :: r' => if ch_eqb c "]"%char then Some ([v], r')
                   else if ch_eqb c ","%char then
                     match jelems f depth r' with
                     | Some (l, r'') => Some (v :: l, r'')
                     | None => None
                     end
                   else None
      | [] => None
      end
    end
  end
with jmembers (fuel depth : nat) (s : gostr) {struct fuel} : option (list (gostr * json) * gostr) :=
  match fuel with
  | O => None
  | S f =>
    match skip_ws s with
    | q :: s1 =>
      if (code q =? 34)%N then
        match jstr 0 s1 with
        | None => None
        | Some (k, s2) =>
          match skip_ws s2 with
          | col :: s3 =>
            if ch_eqb col ":"%char then
              match jval f depth s3 with
              | None => None
              | Some (v, r) =>
                match skip_ws r with
                | c :: r' => if ch_eqb c "}"%char then Some ([(k, v)], r')
                             else if ch_eqb c ","%char then
                               match jmembers f depth r' with
                               | Some (l, r'') => Some ((k, v) :: l, r'')
                               | None => None
                               end
                             else None
                | [] => None
                end
              end
            else None
          | [] => None
          end
        end
      else None
    | [] => None
    end
  end.
Definition max_nesting : nat := N.to_nat 10000.
(** A whole JSON text; [None] when checkValid reports a syntax error. *)
Definition json_parse (s : gostr) : option json :=
  match jval (2 * length s + 2) max_nesting s with
  | Some (v, r) => match skip_ws r with [] => Some v | _ => None end
  | None => None
  end.

(** ** Paginate *)
Definition in_int64 (z : Z) : bool := ((- 2 ^ 63 <=? z) && (z <? 2 ^ 63))%Z.
(** Decimal digits read as a number. *)
Fixpoint digits_uint (s : gostr) : option Decimal.uint :=
  match s with
  | [] => Some Decimal.Nil
  | c :: s' =>
      match digits_uint s' with
      | None => None
      | Some u =>
        (match code c with
         | 48 => Some (Decimal.D0 u) | 49 => Some (Decimal.D1 u) | 50 => Some (Decimal.D2 u)
         | 51 => Some (Decimal.D3 u) | 52 => Some (Decimal.D4 u) | 53 => Some (Decimal.D5 u)
         | 54 => Some (Decimal.D6 u) | 55 => Some (Decimal.D7 u) | 56 => Some (Decimal.D8 u)
         | 57 => Some (Decimal.D9 u) | _ => None
         end)%N
      end
  end.
(** strconv.ParseInt(lit, 10, 64) on a JSON number literal. *)
Definition parse_int (s : gostr) : option Z :=
  let '(neg, ds) := match s with
                    | c :: s' => if ch_eqb c "-"%char then (true, s') else (false, s)
                    | [] => (false, [])
                    end in
  match ds with
  | [] => None
  | _ => match digits_uint ds with
         | None => None
         | Some u => let z := Z.of_N (N.of_uint u) in
                     let z := if neg then (- z)%Z else z in
                     if in_int64 z then Some z else None
         end
  end.

(** Field names match case-insensitively; equalFoldRight also folds U+017F to 's'. *)
Definition fold_key (k : gostr) : gostr := to_lower (replace_all k (map byte [197; 191]%N) (str "s")).
Definition set_int (old : Z) (v : json) : Z :=
  match v with JNum l => match parse_int l with Some z => z | None => old end | _ => old end.
Definition set_str (old : gostr) (v : json) : gostr := match v with JStr s => s | _ => old end.
(** One object member stored into the struct (page.go:17-23).  A value of the wrong type leaves the
    field unchanged (the error of json.Unmarshal is ignored by the caller). *)
Definition set_field (p : paginate) (kv : gostr * json) : paginate :=
  let '(k, v) := kv in
  let k := fold_key k in
  if str_eqb k (str "page") then
    Paginate (set_int (pg_page p) v) (pg_size p) (pg_total p) (pg_sort p) (pg_search p)
  else if str_eqb k (str "page_size") then
    Paginate (pg_page p) (set_int (pg_size p) v) (pg_total p) (pg_sort p) (pg_search p)
  else if str_eqb k (str "total") then
    Paginate (pg_page p) (pg_size p) (set_int (pg_total p) v) (pg_sort p) (pg_search p)
  else if str_eqb k (str "sort") then
    Paginate (pg_page p) (pg_size p) (pg_total p) (set_str (pg_sort p) v) (pg_search p)
  else if str_eqb k (str "search") then
    Paginate (pg_page p) (pg_size p) (pg_total p) (pg_sort p) (set_str (pg_search p) v)
  else p.
Definition zero_page : paginate := Paginate 0 0 0 [] [].
(** json.Unmarshal(bs, &paginate) into a zero Paginate, error ignored. *)
Definition unmarshal_page (s : gostr) : paginate :=
  match json_parse s with
  | Some (JObj l) => fold_left set_field l zero_page
  | _ => zero_page
  end.

(** json.Marshal(page): fields in declaration order, zero values omitted. *)
Definition int_field (name : gostr) (z : Z) : list gostr :=
  if (z =? 0)%Z then [] else [json_str name ++ str ":" ++ itoa z].
Definition str_field (name s : gostr) : list gostr :=
  match s with [] => [] | _ => [json_str name ++ str ":" ++ json_str s] end.
Definition marshal_page (p : paginate) : gostr :=
  str "{" ++ join (str ",")
    (int_field (str "page") (pg_page p) ++ int_field (str "page_size") (pg_size p)
     ++ int_field (str "total") (pg_total p) ++ str_field (str "sort") (pg_sort p)
     ++ str_field (str "search") (pg_search p)) ++ str "}".
