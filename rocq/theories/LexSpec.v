(** SPECIFICATION: blank text, comments, quoted literals and tokens of a DDL text,
    described without the lexer. *)
From Verif Require Import GoStr Token.

Definition is_blank_byte (c : ascii) : bool :=
  Ascii.eqb c " " || Ascii.eqb c ch_tab || Ascii.eqb c ch_nl || Ascii.eqb c ch_cr.

(** Every byte of the string satisfies [f]. *)
Fixpoint all_bytes (f : ascii -> bool) (s : string) : bool :=
  match s with EmptyString => true | String c r => f c && all_bytes f r end.
Definition no_nul (s : string) : bool := all_bytes (fun c => negb (Ascii.eqb c ch_nul)) s.
Definition one_line (s : string) : bool := all_bytes (fun c => negb (Ascii.eqb c ch_nl) && negb (Ascii.eqb c ch_nul)) s.

(** A gap: blanks, tabs, line breaks and comments that are ended by a line break. *)
Inductive gap : string -> Prop :=
| gap_nil : gap ""
| gap_blank : forall c r, is_blank_byte c = true -> gap r -> gap (String c r)
| gap_comment : forall body r, one_line body = true -> gap r -> gap ("--" ++ body ++ nl ++ r).

(** The end of a text may also be a comment without line break. *)
Inductive tail_gap : string -> Prop :=
| tg_gap : forall g, gap g -> tail_gap g
| tg_comment : forall g body, gap g -> one_line body = true -> tail_gap (g ++ "--" ++ body).

(** Quotation marks of the dialects. *)
Definition quote_byte (d : dialect) (c : ascii) : bool :=
  Ascii.eqb c ch_dquote || Ascii.eqb c ch_quote
  || match d with My | Sp => Ascii.eqb c ch_bquote | _ => false end.

(** Where a text ends: outside, inside a quoted literal, inside a comment. *)
Inductive lmode := Outside | InQuote (q : ascii) | InComment.
Fixpoint mode (d : dialect) (m : lmode) (s : string) : lmode :=
  match s with
  | EmptyString => m
  | String c r =>
      match m with
      | Outside =>
          if quote_byte d c then mode d (InQuote c) r
          else match r with
               | String c' _ => if Ascii.eqb c "-" && Ascii.eqb c' "-" then mode d InComment r else mode d Outside r
               | EmptyString => Outside
               end
      | InQuote q => if Ascii.eqb c q then mode d Outside r else mode d (InQuote q) r
      | InComment => if Ascii.eqb c ch_nl then mode d Outside r else mode d InComment r
      end
  end.
Definition outside (d : dialect) (s : string) : Prop := mode d Outside s = Outside.

Fixpoint last_byte (s : string) : option ascii :=
  match s with EmptyString => None | String c EmptyString => Some c | String _ r => last_byte r end.
Definition first_byte (s : string) : option ascii := match s with EmptyString => None | String c _ => Some c end.

(** [g] can follow the text [a] without joining its last byte: a comment may not
    directly follow a minus sign. *)
Definition separates (a g : string) : Prop :=
  g <> "" /\ (last_byte a <> Some "-"%char \/ first_byte g <> Some "-"%char).

(** The text [w] of a token: its literal, or a single byte that is not ASCII and is
    re-encoded by the lexer. *)
Definition token_text (w : string) (t : token) : Prop :=
  w <> "" /\
  (tk_lit t = w \/
   exists c, w = String c "" /\ (128 <= N_of_ascii c)%N /\ t = mkTok TOKEN_ILLEGAL (string_of_byte c)).

(** The text is made of gaps and the texts of the tokens, in this order. *)
Inductive tiles : string -> list token -> Prop :=
| tiles_end : forall g, tail_gap g -> tiles g []
| tiles_token : forall g w t s ts, gap g -> token_text w t -> tiles s ts -> tiles (g ++ w ++ s) (t :: ts).

(** * Words and their letter case *)

(** Letters, digits, underscore and period. *)
Definition word_byte (c : ascii) : bool :=
  let n := N_of_ascii c in
  (N.leb 65 n && N.leb n 90) || (N.leb 97 n && N.leb n 122) || (N.leb 48 n && N.leb n 57)
  || Ascii.eqb c "_" || Ascii.eqb c ".".

(** Two bytes are the same letter, perhaps in different case. *)
Definition same_letter (a b : ascii) : Prop :=
  a = b \/ (word_byte a = true /\ word_byte b = true /\
            (N_of_ascii a = (N_of_ascii b + 32)%N /\ (65 <= N_of_ascii b <= 90)%N \/
             N_of_ascii b = (N_of_ascii a + 32)%N /\ (65 <= N_of_ascii a <= 90)%N)).
Fixpoint same_word (v w : string) : Prop :=
  match v, w with
  | EmptyString, EmptyString => True
  | String a v, String b w => same_letter a b /\ same_word v w
  | _, _ => False
  end.

(** [w] is, up to its case, one of the keywords of the dialect. *)
Definition keyword (d : dialect) (w : string) : Prop :=
  exists k, In k (map fst (keywords d)) /\ same_word w k.

Definition ends_word (s : string) : bool := match last_byte s with Some c => word_byte c | None => false end.
Definition starts_word (s : string) : bool := match first_byte s with Some c => word_byte c | None => false end.

(** The second text is the first one with some keywords written in another case. *)
Inductive recased (d : dialect) : string -> string -> Prop :=
| rc_same : forall s, recased d s s
| rc_word : forall a v w r r',
    no_nul a = true -> outside d a -> ends_word a = false ->
    keyword d v -> same_word v w ->
    starts_word r = false -> starts_word r' = false -> recased d r r' ->
    recased d (a ++ v ++ r) (a ++ w ++ r').
