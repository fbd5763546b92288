(** SPECIFICATION for C75: regular expressions and the texts they describe.

    The expressions are copied from the Go sources piece by piece (the comments show them with
    a blank behind an asterisk that is followed by a parenthesis); what they describe is
    the usual meaning of regular expressions, without any order in which a matcher tries
    the possibilities.  As in Generate.v a text is a list of bytes. *)
From Verif Require Import GoStr.

Inductive re :=
| One (p : ascii -> bool)      (* a byte of a class *)
| Lit (w : string)             (* a word *)
| Word (w : string)            (* a word of capital letters under (?i) *)
| Nothing
| Seq (a b : re)
| Or (a b : re)
| Star (a : re).
Inductive lang : re -> string -> Prop :=
| lang_one : forall p c, p c = true -> lang (One p) (String c "")
| lang_lit : forall w, lang (Lit w) w
| lang_word : forall w s, to_upper s = w -> lang (Word w) s
| lang_nothing : lang Nothing ""
| lang_seq : forall a b s t, lang a s -> lang b t -> lang (Seq a b) (s ++ t)
| lang_left : forall a b s, lang a s -> lang (Or a b) s
| lang_right : forall a b s, lang b s -> lang (Or a b) s
| lang_end : forall a, lang (Star a) ""
| lang_more : forall a s t, lang a s -> lang (Star a) t -> lang (Star a) (s ++ t).
Definition Plus (a : re) : re := Seq a (Star a).
Definition Opt (a : re) : re := Or a Nothing.
Fixpoint seq (l : list re) : re := match l with [] => Nothing | [a] => a | a :: r => Seq a (seq r) end.

(** The classes: tab, line feed, form feed, carriage return, blank; all others; all but the line feed *)
Definition ws : re := One (fun c => let n := N_of_ascii c in (N.eqb n 9 || N.eqb n 10 || N.eqb n 12 || N.eqb n 13 || N.eqb n 32)%bool).
Definition nows : re := One (fun c => let n := N_of_ascii c in negb (N.eqb n 9 || N.eqb n 10 || N.eqb n 12 || N.eqb n 13 || N.eqb n 32)%bool).
Definition dot : re := One (fun c => negb (N.eqb (N_of_ascii c) 10)).
Definition colon_or_blank : re := One (fun c => (N.eqb (N_of_ascii c) 58 || N.eqb (N_of_ascii c) 32)%bool).

(** (//+\s*|/\*\s* )? of pkg/internal/lang/util/regex.go:13, 17, 21, 25 and pkg/internal/lang/go/extract_source.go:37 *)
Definition mark : re := Opt (Or (seq [Lit "/"; Plus (Lit "/"); Star ws]) (seq [Lit "/"; Lit "*"; Star ws])).
(** ^\s*(//+\s*|/\*\s* )?(TAG)\s*:\s*(.* )\s*(\*/)? : pkg/internal/lang/go/extract_source.go:37 *)
Definition tag_line (tag : string) : re :=
  seq [Star ws; mark; Lit tag; Star ws; Lit ":"; Star ws; Star dot; Star ws; Opt (Lit "*/")].
(** ^\s*(//+\s*|/\*\s* )?\S+\s*:\s*index(es)?\s*[: ]\s* : pkg/internal/lang/util/regex.go:13, 17, 21, 25, in front of group 3 *)
Definition entry (word suffix : string) : re :=
  seq [Star ws; mark; Plus nows; Star ws; Lit ":"; Star ws; Lit word; Opt (Lit suffix); Star ws; colon_or_blank; Star ws].
(** \S+.* : group 3 of pkg/internal/lang/util/regex.go:17, 21, 25 *)
Definition some_text : re := seq [Plus nows; Star dot].
(** (CREATE\s+TABLE\s+)?\S+.* : group 3 of pkg/internal/lang/util/regex.go:13 *)
Definition table_text : re := seq [Opt (seq [Lit "CREATE"; Plus ws; Lit "TABLE"; Plus ws]); Plus nows; Star dot].
(** (?i)\s*CREATE\s+(.* )?TABLE\s+(.* )?(\S+) : pkg/internal/generator/ddl_create_table.go:34, ddl_create_index.go:30 *)
Definition whole (word : string) : re :=
  seq [Star ws; Word "CREATE"; Plus ws; Opt (Star dot); Word word; Plus ws; Opt (Star dot); Plus nows].
