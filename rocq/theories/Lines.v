(** Reading texts line by line: the standard library functions used by apply, and
    pkg/internal/util/remove_comment.go. *)
From Verif Require Import GoStr.

(** strings.Index: the text in front of the first occurrence of [p].  Library; used in pkg/internal/util/remove_comment.go:22-23 *)
Fixpoint before_mark (p s : string) : option string :=
  if String.prefix p s then Some ""
  else match s with
       | EmptyString => None
       | String c r => option_map (String c) (before_mark p r)
       end.
(** strings.Contains; library; used in pkg/internal/lang/go/parse.go:237, pkg/ddlctl/apply/ddlctl_apply.go:122-124 *)
Definition contains (p s : string) : bool := match before_mark p s with Some _ => true | None => false end.

(** Part of dropCR: library, see [drop_cr] *)
Fixpoint drop_last (s : string) : string :=
  match s with
  | EmptyString => EmptyString
  | String _ EmptyString => EmptyString
  | String c r => String c (drop_last r)
  end.
(** bufio dropCR; library; part of bufio.ScanLines, used in pkg/internal/util/remove_comment.go:10-12 *)
Definition drop_cr (s : string) : string := if has_suffix_byte ch_cr s then drop_last s else s.

(** bufio.Scanner with the default split function ScanLines and the default limit
    MaxScanTokenSize = 64 KiB: a line that does not fit into the buffer ends the
    iteration (scanner.Err is not consulted by the callers).  Used in pkg/internal/util/remove_comment.go:10-12, pkg/ddlctl/apply/ddlctl_apply.go:181-191 *)
Definition fits_buffer (s : string) : bool := (N.of_nat (String.length s) <? 65536)%N.
(** The lines of scanner.Scan: library; used in pkg/internal/util/remove_comment.go:10-12, pkg/ddlctl/apply/ddlctl_apply.go:184-186 *)
Fixpoint scan_pieces (l : list string) : list string :=
  match l with
  | [] => []
  | x :: r =>
      match r with
      | [] => if String.eqb x "" then [] else if fits_buffer x then [drop_cr x] else []
      | _ => if fits_buffer x then drop_cr x :: scan_pieces r else []
      end
  end.
(** All lines of a text: pkg/internal/util/remove_comment.go:10-12 *)
Definition scan_lines (s : string) : list string := scan_pieces (split nl s).

(** unicode.IsSpace: the UTF-8 encodings of the white space characters U+0009 -
    U+000D, U+0020, U+0085, U+00A0, U+1680, U+2000 - U+200A, U+2028, U+2029, U+202F,
    U+205F, U+3000.  Library; used by TrimSpace below and in pkg/internal/lang/go/parse.go:115 *)
Definition bytes (l : list N) : string := fold_right (fun n s => String (ascii_of_N n) s) "" l.
(** Unicode.IsSpace: library; pkg/internal/util/remove_comment.go:14 *)
Definition spaces : list string :=
  map bytes ([[9]; [10]; [11]; [12]; [13]; [32]; [194; 133]; [194; 160]; [225; 154; 128]]%N
  ++ map (fun n => [226; 128; n]%N) [128; 129; 130; 131; 132; 133; 134; 135; 136; 137; 138; 168; 169; 175]%N
  ++ [[226; 129; 159]; [227; 128; 128]]%N)%list.
(** Strings.CutPrefix: library; used by TrimSpace and by the literals of regular expressions (pkg/internal/lang/util/regex.go:12-28) *)
Fixpoint drop_prefix (p s : string) : option string :=
  match p, s with
  | EmptyString, _ => Some s
  | String a p', String b s' => if Ascii.eqb a b then drop_prefix p' s' else None
  | String _ _, EmptyString => None
  end.
(** One white space character of TrimSpace: pkg/internal/util/remove_comment.go:14 *)
Fixpoint strip_one (ps : list string) (s : string) : option string :=
  match ps with
  | [] => None
  | p :: r => match drop_prefix p s with Some t => Some t | None => strip_one r s end
  end.
(** All of them: pkg/internal/util/remove_comment.go:14 *)
Fixpoint strip_all (ps : list string) (fuel : nat) (s : string) : string :=
  match fuel with
  | O => s
  | S k => match strip_one ps s with Some t => strip_all ps k t | None => s end
  end.
(** Reversal, for the end of a text: pkg/internal/util/remove_comment.go:14 *)
Fixpoint rev_onto (s acc : string) : string :=
  match s with EmptyString => acc | String c r => rev_onto r (String c acc) end.
(** Reversal, for the end of a text: pkg/internal/util/remove_comment.go:14 *)
Definition rev_str (s : string) : string := rev_onto s "".
(** strings.TrimSpace; the beginning of the text; library; also pkg/internal/lang/go/parse.go:115 *)
Definition trim_head (s : string) : string := strip_all spaces (String.length s) s.
(** Strings.TrimSpace, the end of the text: library; pkg/internal/util/remove_comment.go:14 *)
Definition trim_tail (s : string) : string := rev_str (strip_all (map rev_str spaces) (String.length s) (rev_str s)).
(** Strings.TrimSpace: library; pkg/internal/util/remove_comment.go:14, 23 *)
Definition trim_space (s : string) : string := trim_tail (trim_head s).

(** RemoveCommentsAndEmptyLines: pkg/internal/util/remove_comment.go:8-34; the
    body of the loop (lines 13-30) for one line. *)
Definition remove_comment (prefix line : string) : string :=
  if String.prefix prefix (trim_space line) then ""
  else
    let line := match before_mark prefix line with Some b => trim_space b | None => line end in
    if String.eqb line "" then "" else line ++ nl.
(** RemoveCommentsAndEmptyLines: pkg/internal/util/remove_comment.go:8-34 *)
Definition remove_comments (prefix input : string) : string :=
  concat_str (map (remove_comment prefix) (scan_lines input)).

Example remove_example : remove_comments "--" ("-- a" ++ nl ++ "b -- c" ++ nl ++ nl ++ "d") = ("b" ++ nl ++ "d" ++ nl)%string.
Proof. reflexivity. Qed.
Example trim_example : trim_space (bytes [32; 194; 160; 97; 32; 98; 227; 128; 128; 10])%N = "a b".
Proof. reflexivity. Qed.
