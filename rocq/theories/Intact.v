(** SPECIFICATION: which displayed statements reach the database as they were displayed. *)
From Verif Require Import GoStr Token Ast Lines Apply ApplySpec.

(** bufio.Scanner gives up at a line of 64 KiB. *)
Definition short (x : string) : bool := (N.of_nat (String.length x) <? 65536)%N.
(** A line of a statement: not empty, without comment mark, not ended by a carriage return, and not
    of 64 KiB or more *)
Definition intact_line (x : string) : bool :=
  negb (String.eqb x "") && negb (contains "--" x) && negb (has_suffix_byte ch_cr x) && short x.
(** A statement, whose last line has the semicolon: no other line ends with one *)
Definition intact (q : string) : bool :=
  negb (contains (";" ++ nl) q) && forallb intact_line (split nl (q ++ ";")).
(** A comment: none of its lines is too long behind the mark *)
Definition short_comment (c : string) : bool := forallb (fun x => short ("-- " ++ x)) (split nl c).
(** A statement for Spanner: no line begins with a comment mark *)
Definition intact_batch (q : string) : bool :=
  negb (contains (";" ++ nl) q) && forallb (fun x => negb (String.prefix "--" x)) (split nl (q ++ ";")).

(** By dialect; with Spanner comments cannot be too long *)
Definition arrives (d : dialect) (q : string) : bool := match d with Sp => intact_batch q | _ => intact q end.
Definition comment_arrives (d : dialect) (c : string) : bool := match d with Sp => true | _ => short_comment c end.

Example intact_yes : intact ("a" ++ nl ++ "b '; - '" ++ nl ++ "c") = true.
Proof. reflexivity. Qed.
Example intact_no : map intact ["a '--'"; "a ';" ++ nl ++ "'"; "a '" ++ nl ++ nl ++ "'"; "a '" ++ String ch_cr nl ++ "'"] = [false; false; false; false].
Proof. reflexivity. Qed.
Example intact_batch_more : map intact_batch ["a '--'"; "a '" ++ nl ++ nl ++ "'"; "a '" ++ nl ++ "--'"] = [true; true; false].
Proof. reflexivity. Qed.
