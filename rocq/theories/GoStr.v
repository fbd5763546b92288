(** Go string primitives used by ddlctl, on byte strings.

    A Go [string] is a sequence of bytes; it is modelled by Coq's [string]
    (a list of 8-bit [ascii]).  These are models of the standard library
    functions (package strings), not of code in /repo. *)
From Coq Require Export Ascii String List Bool Arith NArith.
Export ListNotations.
Open Scope string_scope.

(** strings.HasPrefix; library; used in pkg/ddl/postgres/parser.go:25, pkg/internal/util/remove_comment.go:17, pkg/internal/lang/util/trim.go:11 *)
Definition has_prefix (p s : string) : bool := String.prefix p s.

(** strings.HasSuffix for a one-byte suffix (the only use: quotation marks,
    pkg/ddl/postgres/parser.go:25). *)
Fixpoint has_suffix_byte (c : ascii) (s : string) : bool :=
  match s with
  | EmptyString => false
  | String d EmptyString => Ascii.eqb c d
  | String _ r => has_suffix_byte c r
  end.

(** strings.HasPrefix for a one-byte prefix.  Library; used in pkg/ddl/postgres/parser.go:25 *)
Definition has_prefix_byte (c : ascii) (s : string) : bool :=
  match s with EmptyString => false | String d _ => Ascii.eqb c d end.

(** strings.TrimLeft with a one-byte cut set.  Library; part of Trim below *)
Fixpoint trim_left_byte (c : ascii) (s : string) : string :=
  match s with
  | EmptyString => EmptyString
  | String d r => if Ascii.eqb c d then trim_left_byte c r else s
  end.

(** strings.TrimRight with a one-byte cut set.  Library; part of Trim below *)
Fixpoint trim_right_byte (c : ascii) (s : string) : string :=
  match s with
  | EmptyString => EmptyString
  | String d r =>
      match trim_right_byte c r with
      | EmptyString => if Ascii.eqb c d then EmptyString else String d EmptyString
      | r' => String d r'
      end
  end.

(** strings.Trim with a one-byte cut set.  Library; used in pkg/ddl/postgres/parser.go:27, pkg/internal/lang/go/parse.go:162, 199 *)
Definition trim_byte (c : ascii) (s : string) : string :=
  trim_right_byte c (trim_left_byte c s).

(** strings.Split(s, sep) for a non-empty separator: leftmost, non-overlapping
    occurrences.  [skip] counts the bytes of a separator still to be dropped.  Library; used in pkg/ddl/postgres/ddl_table.go:207, pkg/ddlctl/apply/ddlctl_apply.go:156, 202 *)
Fixpoint split_skip (sep : string) (skip : nat) (s : string) : list string :=
  match s with
  | EmptyString => [EmptyString]
  | String c r =>
      match skip with
      | S k => split_skip sep k r
      | O =>
          if String.prefix sep s
          then EmptyString :: split_skip sep (String.length sep - 1) r
          else match split_skip sep 0 r with
               | h :: t => String c h :: t
               | [] => [String c EmptyString]
               end
      end
  end.
(** Strings.Split: library; used in the same places *)
Definition split (sep s : string) : list string := split_skip sep 0 s.

(** strings.Join; library; used for the lists printed by the String methods (pkg/ddl/postgres/ddl.go:53-59 adds texts in a loop) and by string_agg (pkg/show/postgres/show_create_all_tables.go:34) *)
Fixpoint join (sep : string) (l : list string) : string :=
  match l with
  | [] => EmptyString
  | [x] => x
  | x :: r => x ++ sep ++ join sep r
  end.

(** Plain concatenation of a list of strings.  The loops adding to a buffer, as pkg/ddl/postgres/ddl.go:53-59 *)
Fixpoint concat_str (l : list string) : string :=
  match l with [] => EmptyString | x :: r => x ++ concat_str r end.

(** unicode.ToUpper restricted to one ASCII byte.  Library; part of ToUpper below *)
Definition upper_byte (c : ascii) : ascii :=
  let n := N_of_ascii c in
  if andb (N.leb 97 n) (N.leb n 122) then ascii_of_N (n - 32) else c.

(** strings.ToUpper on ASCII text.  ddlctl only calls it on words made of
    [A-Za-z0-9_.] and on constant option names.  Library; used in pkg/ddl/postgres/lexar.go:134, pkg/ddl/mysql/diff_create_table.go:188, 209 *)
Fixpoint to_upper (s : string) : string :=
  match s with EmptyString => EmptyString | String c r => String (upper_byte c) (to_upper r) end.

(** Go's conversion string(b) of a byte b: the UTF-8 encoding of the code point
    b, i.e. two bytes when b >= 0x80.  Used in pkg/ddl/postgres/lexar.go:325-345 *)
Definition string_of_byte (c : ascii) : string :=
  let n := N_of_ascii c in
  if N.ltb n 128 then String c EmptyString
  else String (ascii_of_N (192 + N.div n 64)) (String (ascii_of_N (128 + N.modulo n 64)) EmptyString).

(** Control characters and quotes by code, to keep the sources readable.  The end marker of pkg/ddl/postgres/lexar.go:346 *)
Definition ch_nul : ascii := "000".
(** pkg/ddl/postgres/lexar.go:407 *)
Definition ch_tab : ascii := "009".
(** pkg/ddl/postgres/lexar.go:407 *)
Definition ch_nl : ascii := "010".
(** pkg/ddl/postgres/lexar.go:407 *)
Definition ch_cr : ascii := "013".
(** pkg/ddl/postgres/parser.go:21 *)
Definition ch_dquote : ascii := "034".
(** pkg/ddl/postgres/parser.go:21 *)
Definition ch_quote : ascii := "039".
(** pkg/ddl/postgres/parser.go:21 *)
Definition ch_bquote : ascii := "096".
(** A string of one byte, see [ch_nl] *)
Definition nl : string := String ch_nl EmptyString.
(** A string of one byte, see [ch_dquote] *)
Definition dquote : string := String ch_dquote EmptyString.
(** A string of one byte, see [ch_quote] *)
Definition squote : string := String ch_quote EmptyString.
(** A string of one byte, see [ch_bquote] *)
Definition bquote : string := String ch_bquote EmptyString.
