(** Go strings and the parts of Go's standard library on strings that ckube uses.
    A Go string is a sequence of bytes: [list ascii].  Go's standard library is not in /repo;
    its functions are modelled from Go 1.19 (the version in /repo/Dockerfile line 1). *)
From Coq Require Import Ascii String NArith ZArith.
From stdpp Require Import base gmap strings list.

Notation gostr := (list ascii).

(** String literals of the Go source. *)
Definition str (s : string) : gostr := list_ascii_of_string s.
Arguments str _%string_scope.

Definition code (c : ascii) : N := N_of_ascii c.
Definition byte (n : N) : ascii := ascii_of_N n.

Definition ch_eqb (a b : ascii) : bool := Ascii.eqb a b.

(** [a == b] on strings. *)
Fixpoint str_eqb (a b : gostr) : bool :=
  match a, b with
  | [], [] => true
  | x :: a', y :: b' => ch_eqb x y && str_eqb a' b'
  | _, _ => false
  end.

(** [a < b] on strings: bytewise lexicographic order. *)
Fixpoint str_ltb (a b : gostr) : bool :=
  match a, b with
  | _, [] => false
  | [], _ :: _ => true
  | x :: a', y :: b' =>
      if N.ltb (code x) (code y) then true
      else if N.eqb (code x) (code y) then str_ltb a' b' else false
  end.

(** strings.HasPrefix(s, p). *)
Fixpoint has_prefix (p s : gostr) : bool :=
  match p, s with
  | [], _ => true
  | x :: p', y :: s' => ch_eqb x y && has_prefix p' s'
  | _ :: _, [] => false
  end.

(** strings.Index(s, sub): position of the first occurrence. *)
Fixpoint index_of (sub s : gostr) : option nat :=
  if has_prefix sub s then Some 0
  else match s with
       | [] => None
       | _ :: s' => match index_of sub s' with Some n => Some (S n) | None => None end
       end.

(** strings.Contains(s, sub). *)
Definition contains (s sub : gostr) : bool :=
  match index_of sub s with Some _ => true | None => false end.

(** strings.ReplaceAll(s, old, new) for a non-empty [old]; [skip] counts the bytes of an
    occurrence still to be dropped. *)
Fixpoint replace_go (old new : gostr) (skip : nat) (s : gostr) : gostr :=
  match s with
  | [] => []
  | c :: s' =>
      match skip with
      | S k => replace_go old new k s'
      | O => if has_prefix old s then new ++ replace_go old new (Nat.pred (length old)) s'
             else c :: replace_go old new 0 s'
      end
  end.
Definition replace_all (s old new : gostr) : gostr := replace_go old new 0 s.

(** strings.Split(s, sep) for a one-byte separator (the only use in ckube). *)
Fixpoint split_on (sep : ascii) (s : gostr) : list gostr :=
  match s with
  | [] => [[]]
  | c :: s' =>
      if ch_eqb c sep then [] :: split_on sep s'
      else match split_on sep s' with
           | p :: ps => (c :: p) :: ps
           | [] => [[c]]
           end
  end.

(** strings.Join(parts, sep). *)
Fixpoint join (sep : gostr) (parts : list gostr) : gostr :=
  match parts with
  | [] => []
  | [p] => p
  | p :: ps => p ++ sep ++ join sep ps
  end.

(** The UTF-8 encodings of the code points for which unicode.IsSpace holds. *)
Definition spaces : list gostr :=
  map (map byte)
    [ [9]; [10]; [11]; [12]; [13]; [32];
      [194; 133]; [194; 160]; [225; 154; 128];
      [226; 128; 128]; [226; 128; 129]; [226; 128; 130]; [226; 128; 131]; [226; 128; 132];
      [226; 128; 133]; [226; 128; 134]; [226; 128; 135]; [226; 128; 136]; [226; 128; 137];
      [226; 128; 138]; [226; 128; 168]; [226; 128; 169]; [226; 128; 175]; [226; 129; 159];
      [227; 128; 128] ]%N.

(** Length of the first of [ps] that is a prefix of [s]. *)
Fixpoint strip_len (ps : list gostr) (s : gostr) : option nat :=
  match ps with
  | [] => None
  | p :: ps' => if has_prefix p s then Some (length p) else strip_len ps' s
  end.

(** Remove space sequences from the front; [ps] is the list of encodings (reversed ones when
    trimming the back), [fuel] the length of the string. *)
Fixpoint trim_front (ps : list gostr) (fuel : nat) (s : gostr) : gostr :=
  match fuel with
  | O => s
  | S f => match strip_len ps s with
           | Some n => trim_front ps f (drop n s)
           | None => s
           end
  end.
Definition trim_left (s : gostr) : gostr := trim_front spaces (length s) s.
Definition trim_right (s : gostr) : gostr :=
  reverse (trim_front (map reverse spaces) (length s) (reverse s)).

(** strings.TrimSpace(s).  Go decodes runes from both ends; an encoding of a white-space code
    point at an end of the string is always decoded as that code point, because its first byte
    is not a continuation byte. *)
Definition trim_space (s : gostr) : gostr := trim_right (trim_left s).

(** Decimal digits of a number, as fmt's %d. *)
Fixpoint uint_digits (u : Decimal.uint) : gostr :=
  match u with
  | Decimal.Nil => []
  | Decimal.D0 u => "0"%char :: uint_digits u
  | Decimal.D1 u => "1"%char :: uint_digits u
  | Decimal.D2 u => "2"%char :: uint_digits u
  | Decimal.D3 u => "3"%char :: uint_digits u
  | Decimal.D4 u => "4"%char :: uint_digits u
  | Decimal.D5 u => "5"%char :: uint_digits u
  | Decimal.D6 u => "6"%char :: uint_digits u
  | Decimal.D7 u => "7"%char :: uint_digits u
  | Decimal.D8 u => "8"%char :: uint_digits u
  | Decimal.D9 u => "9"%char :: uint_digits u
  end.
Definition itoa_N (n : N) : gostr := uint_digits (N.to_uint n).

(** fmt.Sprintf("%04d", n) for n >= 0. *)
Definition pad4 (n : N) : gostr :=
  let d := itoa_N n in replicate (4 - length d) "0"%char ++ d.

(** strconv.FormatInt(z, 10). *)
Definition itoa (z : Z) : gostr :=
  match z with
  | Z0 => itoa_N 0
  | Zpos p => itoa_N (Npos p)
  | Zneg p => "-"%char :: itoa_N (Npos p)
  end.

(** Lower-case hexadecimal digit. *)
Definition hexdigit (n : N) : ascii :=
  if (n <? 10)%N then byte (48 + n) else byte (87 + n).
Definition hex2 (n : N) : gostr := [hexdigit (n / 16 mod 16); hexdigit (n mod 16)]%N.
Definition hex4 (n : N) : gostr := (hex2 (n / 256) ++ hex2 n)%N.
Definition hex8 (n : N) : gostr := (hex4 (n / 65536) ++ hex4 n)%N.

(** utf8.DecodeRuneInString on a non-empty string: code point and width, [None] for an invalid
    sequence (RuneError with width 1).  Go follows the table of well-formed UTF-8 sequences. *)
Definition is_cont (lo hi : N) (c : ascii) : bool := ((lo <=? code c) && (code c <=? hi))%N.
Definition decode_rune (s : gostr) : option (N * nat) :=
  match s with
  | [] => None
  | c0 :: r =>
    let b0 := code c0 in
    if (b0 <? 128)%N then Some (b0, 1)
    else if (b0 <? 194)%N then None
    else if (b0 <? 224)%N then
      match r with
      | c1 :: _ => if is_cont 128 191 c1
                   then Some ((b0 - 192) * 64 + (code c1 - 128), 2%nat)%N else None
      | _ => None
      end
    else if (b0 <? 240)%N then
      match r with
      | c1 :: c2 :: _ =>
          let lo := if (b0 =? 224)%N then 160%N else 128%N in
          let hi := if (b0 =? 237)%N then 159%N else 191%N in
          if is_cont lo hi c1 && is_cont 128 191 c2
          then Some ((b0 - 224) * 4096 + (code c1 - 128) * 64 + (code c2 - 128), 3%nat)%N else None
      | _ => None
      end
    else if (b0 <? 245)%N then
      match r with
      | c1 :: c2 :: c3 :: _ =>
          let lo := if (b0 =? 240)%N then 144%N else 128%N in
          let hi := if (b0 =? 244)%N then 143%N else 191%N in
          if is_cont lo hi c1 && is_cont 128 191 c2 && is_cont 128 191 c3
          then Some ((b0 - 240) * 262144 + (code c1 - 128) * 4096
                     + (code c2 - 128) * 64 + (code c3 - 128), 4%nat)%N else None
      | _ => None
      end
    else None
  end.

(** utf8.ValidString. *)
Fixpoint valid_utf8_go (skip : nat) (s : gostr) : bool :=
  match s with
  | [] => true
  | _ :: s' =>
      match skip with
      | S k => valid_utf8_go k s'
      | O => match decode_rune s with
             | Some (_, w) => valid_utf8_go (Nat.pred w) s'
             | None => false
             end
      end
  end.
Definition valid_utf8 (s : gostr) : bool := valid_utf8_go 0 s.

(** strconv.Quote(s).  [uprint] is strconv.IsPrint for code points from 128 on (Unicode tables
    are not modelled; every theorem holds for each [uprint]).  The first byte of a rune produces
    the quoted text of the whole rune; its continuation bytes are skipped. *)
Definition quote_rune (uprint : N -> bool) (r : N) (raw : gostr) : gostr :=
  if ((r =? 34) || (r =? 92))%N then "\"%char :: raw
  else if (r <? 128)%N then
    (if ((32 <=? r) && (r <? 127))%N then raw
     else if (r =? 7)%N then str "\a"
     else if (r =? 8)%N then str "\b"
     else if (r =? 12)%N then str "\f"
     else if (r =? 10)%N then str "\n"
     else if (r =? 13)%N then str "\r"
     else if (r =? 9)%N then str "\t"
     else if (r =? 11)%N then str "\v"
     else str "\x" ++ hex2 r)
  else if uprint r then raw
  else if (r <? 65536)%N then str "\u" ++ hex4 r
  else str "\U" ++ hex8 r.
Fixpoint quote_go (uprint : N -> bool) (skip : nat) (s : gostr) : gostr :=
  match s with
  | [] => []
  | c :: s' =>
      match skip with
      | S k => quote_go uprint k s'
      | O => match decode_rune s with
             | Some (r, w) => quote_rune uprint r (take w s) ++ quote_go uprint (Nat.pred w) s'
             | None => str "\x" ++ hex2 (code c) ++ quote_go uprint 0 s'
             end
      end
  end.
Definition dquote : ascii := byte 34.
Definition quote (uprint : N -> bool) (s : gostr) : gostr :=
  dquote :: quote_go uprint 0 s ++ [dquote].

(** strings.ToLower restricted to ASCII letters. *)
Definition lower_ascii (c : ascii) : ascii :=
  if ((65 <=? code c) && (code c <=? 90))%N then byte (code c + 32) else c.
Definition to_lower (s : gostr) : gostr := map lower_ascii s.

(** Result of a Go call that can return an error or panic. *)
Inductive outcome (A : Type) : Type :=
| Done (a : A)
| Err
| Panics.
Arguments Done {A} _.
Arguments Err {A}.
Arguments Panics {A}.
