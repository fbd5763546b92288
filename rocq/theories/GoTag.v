(** Struct tags: a model of reflect.StructTag.Get, with strconv.Unquote and the
    parts of unicode/utf8 it uses (the Go standard library; not code of /repo).
    The generator reads the tags of struct fields with it,
    pkg/internal/lang/go/parse.go:162-193; it is the [look] of Generate.v. *)
From Verif Require Import GoStr Generate.
Local Open Scope N_scope.

(** * unicode/utf8 *)

(** A test of a byte (library) *)
Definition in_range (lo hi : N) (c : ascii) : bool := (lo <=? N_of_ascii c) && (N_of_ascii c <=? hi).
(** utf8.RuneError. *)
Definition rune_error : N := 65533.
(** The entries of the table [first]: how many continuation bytes follow a leading
    byte and the range of the first of them.  [None]: a byte that leads nothing. *)
Definition lead (c : ascii) : option (nat * N * N) :=
  if in_range 194 223 c then Some (1%nat, 128, 191)
  else if in_range 224 224 c then Some (2%nat, 160, 191)
  else if in_range 237 237 c then Some (2%nat, 128, 159)
  else if in_range 225 239 c then Some (2%nat, 128, 191)
  else if in_range 240 240 c then Some (3%nat, 144, 191)
  else if in_range 241 243 c then Some (3%nat, 128, 191)
  else if in_range 244 244 c then Some (3%nat, 128, 143)
  else None.
(** The six low bits of a continuation byte. *)
Definition low6 (c : ascii) : N := N.modulo (N_of_ascii c) 64.
(** utf8.DecodeRuneInString on a text with a first byte [c], followed by [r]: the
    rune and what is behind it.  Masks and shifts are written as remainders and
    products. *)
Definition decode_rune (c : ascii) (r : string) : N * string :=
  if N_of_ascii c <? 128 then (N_of_ascii c, r)
  else match lead c with
       | Some (1%nat, lo, hi) =>
           match r with
           | String a r' => if in_range lo hi a then (N.modulo (N_of_ascii c) 32 * 64 + low6 a, r') else (rune_error, r)
           | _ => (rune_error, r)
           end
       | Some (2%nat, lo, hi) =>
           match r with
           | String a (String b r') =>
               if in_range lo hi a && in_range 128 191 b then (N.modulo (N_of_ascii c) 16 * 4096 + low6 a * 64 + low6 b, r') else (rune_error, r)
           | _ => (rune_error, r)
           end
       | Some (_, lo, hi) =>
           match r with
           | String a (String b (String d r')) =>
               if in_range lo hi a && in_range 128 191 b && in_range 128 191 d
               then (N.modulo (N_of_ascii c) 8 * 262144 + low6 a * 4096 + low6 b * 64 + low6 d, r') else (rune_error, r)
           | _ => (rune_error, r)
           end
       | None => (rune_error, r)
       end.
(** utf8.ValidString: no byte is decoded to an error of width one. *)
Fixpoint valid_string (fuel : nat) (s : string) : bool :=
  match fuel, s with
  | _, EmptyString => true
  | O, _ => false
  | S fuel, String c r =>
      if N_of_ascii c <? 128 then valid_string fuel r
      else let (n, r') := decode_rune c r in
           if (n =? rune_error) && (String.length r' =? String.length r)%nat then false else valid_string fuel r'
  end.
(** utf8.ValidRune. *)
Definition valid_rune (n : N) : bool := (n <? 55296) || ((57343 <? n) && (n <=? 1114111)).
(** utf8.AppendRune. *)
Definition byte (n : N) : ascii := ascii_of_N n.
(** Utf8.AppendRune: the case of three bytes (library) *)
Definition three_bytes (n : N) : string :=
  String (byte (224 + n / 4096)) (String (byte (128 + (n / 64) mod 64)) (String (byte (128 + n mod 64)) "")).
(** Utf8.AppendRune (library) *)
Definition encode_rune (n : N) : string :=
  if n <=? 127 then String (byte n) ""
  else if n <=? 2047 then String (byte (192 + n / 64)) (String (byte (128 + n mod 64)) "")
  else if negb (valid_rune n) then three_bytes rune_error
  else if n <=? 65535 then three_bytes n
  else String (byte (240 + n / 262144)) (String (byte (128 + (n / 4096) mod 64)) (String (byte (128 + (n / 64) mod 64)) (String (byte (128 + n mod 64)) ""))).

(** * strconv.Unquote *)

(** unhex. *)
Definition unhex (c : ascii) : option N :=
  if in_range 48 57 c then Some (N_of_ascii c - 48)
  else if in_range 97 102 c then Some (N_of_ascii c - 97 + 10)
  else if in_range 65 70 c then Some (N_of_ascii c - 65 + 10)
  else None.
(** The next [k] hexadecimal digits; [None]: there are not that many. *)
Fixpoint hex_digits (k : nat) (v : N) (s : string) : option (N * string) :=
  match k with
  | O => Some (v, s)
  | S k => match s with
           | String c r => match unhex c with Some x => hex_digits k (v * 16 + x) r | None => None end
           | EmptyString => None
           end
  end.
(** The next [k] octal digits (library) *)
Fixpoint octal_digits (k : nat) (v : N) (s : string) : option (N * string) :=
  match k with
  | O => Some (v, s)
  | S k => match s with
           | String c r => if in_range 48 55 c then octal_digits k (v * 8 + (N_of_ascii c - 48)) r else None
           | EmptyString => None
           end
  end.
(** The letters \a \b \f \n \r \t \v. *)
Definition control (c : ascii) : option N :=
  if Ascii.eqb c "a" then Some 7 else if Ascii.eqb c "b" then Some 8 else if Ascii.eqb c "f" then Some 12
  else if Ascii.eqb c "n" then Some 10 else if Ascii.eqb c "r" then Some 13 else if Ascii.eqb c "t" then Some 9
  else if Ascii.eqb c "v" then Some 11 else None.
(** The backslash, in strconv.UnquoteChar (library) *)
Definition ch_backslash : ascii := "092"%char.
(** The double quotation mark (library) *)
Definition ch_dquote : ascii := "034"%char.
(** strconv.UnquoteChar with a double quotation mark: the value, whether it is a
    rune rather than a byte, and what is behind it.  The value of \U and eight
    digits is a signed 32 bit number there; either way such a value of 2^31 or more
    is no valid rune. *)
Definition unquote_char (s : string) : option (N * bool * string) :=
  match s with
  | EmptyString => None
  | String c r =>
      if Ascii.eqb c ch_dquote then None
      else if 128 <=? N_of_ascii c then let (n, r') := decode_rune c r in Some (n, true, r')
      else if negb (Ascii.eqb c ch_backslash) then Some (N_of_ascii c, false, r)
      else match r with
           | EmptyString => None
           | String e r =>
               match control e with
               | Some n => Some (n, false, r)
               | None =>
                   if Ascii.eqb e "x" then match hex_digits 2 0 r with Some (v, r') => Some (v, false, r') | None => None end
                   else if Ascii.eqb e "u" then match hex_digits 4 0 r with Some (v, r') => if valid_rune v then Some (v, true, r') else None | None => None end
                   else if Ascii.eqb e "U" then match hex_digits 8 0 r with Some (v, r') => if valid_rune v then Some (v, true, r') else None | None => None end
                   else if in_range 48 55 e then
                     match octal_digits 2 (N_of_ascii e - 48) r with Some (v, r') => if 255 <? v then None else Some (v, false, r') | None => None end
                   else if Ascii.eqb e ch_backslash then Some (92, false, r)
                   else if Ascii.eqb e ch_dquote then Some (34, false, r)
                   else None
               end
           end
  end.
(** The loop of unquote over the text behind the opening mark: the value and what
    is behind the closing mark. *)
Fixpoint unquote_loop (fuel : nat) (s : string) : option (string * string) :=
  match fuel, s with
  | _, EmptyString => None
  | O, _ => None
  | S fuel, String c r =>
      if Ascii.eqb c ch_dquote then Some ("", r)
      else match unquote_char s with
           | None => None
           | Some (n, multibyte, r') =>
               if Ascii.eqb c ch_nl then None
               else match unquote_loop fuel r' with
                    | None => None
                    | Some (v, rest) => Some (String.append (if (n <? 128) || negb multibyte then String (byte n) "" else encode_rune n) v, rest)
                    end
           end
  end.
(** Index(in, quote) in strconv.unquote (library) *)
Fixpoint until_dquote (s : string) : option string :=
  match s with
  | EmptyString => None
  | String c r => if Ascii.eqb c ch_dquote then Some "" else match until_dquote r with Some v => Some (String c v) | None => None end
  end.
(** Contains in strconv.unquote (library) *)
Fixpoint has_byte (b : ascii) (s : string) : bool :=
  match s with EmptyString => false | String c r => Ascii.eqb b c || has_byte b r end.
(** strconv.Unquote of a text in quotation marks, given without the opening one.
    Up to the first mark the text is taken as it is if nothing is escaped and the
    text is valid. *)
Definition unquote (s : string) : option string :=
  match until_dquote s with
  | None => None
  | Some v =>
      if negb (has_byte ch_backslash v) && negb (has_byte ch_nl v) && valid_string (String.length v) v
      then if (String.length s =? String.length v + 1)%nat then Some v else None
      else match unquote_loop (S (String.length s)) s with
           | Some (v, "") => Some v
           | _ => None
           end
  end.

(** * reflect.StructTag.Get *)

(** The bytes of a key. *)
Definition key_byte (c : ascii) : bool :=
  (32 <? N_of_ascii c) && negb (Ascii.eqb c ":") && negb (Ascii.eqb c ch_dquote) && negb (N_of_ascii c =? 127).
(** The loop over the key in StructTag.Lookup (library) *)
Fixpoint key_of (s : string) : string * string :=
  match s with
  | EmptyString => ("", "")%string
  | String c r => if key_byte c then let (k, r') := key_of r in (String c k, r') else ("", s)%string
  end.
(** The text of a value with its closing mark and what is behind it; the byte behind
    a backslash is skipped. *)
Fixpoint value_of (s : string) : option (string * string) :=
  match s with
  | EmptyString => None
  | String c r =>
      if Ascii.eqb c ch_dquote then Some (String c "", r)
      else if Ascii.eqb c ch_backslash then
        match r with
        | EmptyString => None
        | String d r' => match value_of r' with Some (v, rest) => Some (String c (String d v), rest) | None => None end
        end
      else match value_of r with Some (v, rest) => Some (String c v, rest) | None => None end
  end.
(** StructTag.Lookup; a value that cannot be unquoted ends it. *)
Fixpoint tag_lookup (fuel : nat) (tag key : string) : option string :=
  match fuel with
  | O => None
  | S fuel =>
      let (name, r) := key_of (trim_left_byte " " tag) in
      if String.eqb name "" then None
      else match r with
           | String a (String b r) =>
               if Ascii.eqb a ":" && Ascii.eqb b ch_dquote then
                 match value_of r with
                 | None => None
                 | Some (v, rest) => if String.eqb key name then unquote v else tag_lookup fuel rest key
                 end
               else None
           | _ => None
           end
  end.
(** StructTag.Get.  Called in pkg/internal/lang/go/parse.go:165, 178, 189 *)
Definition tag_get (tag key : string) : string :=
  match tag_lookup (S (String.length tag)) tag key with Some v => v | None => "" end.

Example tag_get_example :
  let tag := "db:""id"" pgddl:""TEXT NOT NULL DEFAULT '\""\\é'""  pk:""true""" in
  map (tag_get tag) ["db"; "pgddl"; "pk"; "json"]
  = ["id"; "TEXT NOT NULL DEFAULT '""\" ++ String "195" (String "169" "'"); "true"; ""]%string.
Proof. vm_compute. reflexivity. Qed.
Example tag_get_broken_example :
  map (fun tag => tag_get tag "db") [" db:""a"" db:""b"""; "db:""a\q"""; "db:a"; "db: ""a"""; "x db:""a"""; "x:""y""db:""a"""; "db:""a"; "db:""\x41\101\x4"""; "db:""\x41\101"""]
  = ["a"; ""; ""; ""; ""; "a"; ""; ""; "AA"]%string.
Proof. vm_compute. reflexivity. Qed.
