(** What annotated Go sources ask for: the notions C49 - C52 are stated with.
    Independent of the regular expressions of the generator. *)
From Verif Require Import GoStr Lines Generate GenSpec.

(** * Comment lines *)

(** What a line of a comment group asks for. *)
Inductive note := NIndex (create : string) | NTable (create : string) | NConstraint (text : string) | NOption (text : string) | NRemark.

Fixpoint all_of (f : ascii -> bool) (s : string) : bool :=
  match s with EmptyString => true | String c r => f c && all_of f r end.
Definition first_of (f : ascii -> bool) (s : string) : bool :=
  match s with EmptyString => false | String c _ => f c end.
Definition between (a b : N) (c : ascii) : bool := N.leb a (N_of_ascii c) && N.leb (N_of_ascii c) b.
Definition white (c : ascii) : bool := Ascii.eqb c " "%char || Ascii.eqb c ch_tab || Ascii.eqb c ch_nl || Ascii.eqb c ch_cr || Ascii.eqb c "012"%char.
Definition black (c : ascii) : bool := negb (white c).
(** Letters, digits, hyphen, underscore. *)
Definition tag_byte (c : ascii) : bool := between 48 57 c || between 65 90 c || between 97 122 c || Ascii.eqb c "-"%char || Ascii.eqb c "_"%char.
Definition good_tag (tag : string) : bool := all_of tag_byte tag && negb (String.eqb tag "").

(** A text on one line that starts with something visible. *)
Definition line_text (m : string) : bool := one_line m && first_of black m.
(** The statement meant by the text of an annotation: the text itself if it says
    CREATE ... TABLE (INDEX) something; if it does not speak of creating, what
    follows CREATE TABLE (CREATE INDEX). *)
Inductive creates (word : string) : string -> string -> Prop :=
| creates_short : forall m, contains "CREATE" (to_upper m) = false \/ all_of black m = true -> creates word m ("CREATE " ++ word ++ " " ++ m)
| creates_full : forall c k kind w rest, to_upper c = "CREATE" -> to_upper w = word -> one_line kind = true -> line_text rest = true ->
    creates word (c ++ blanks (S k) ++ kind ++ w ++ " " ++ rest) (c ++ blanks (S k) ++ kind ++ w ++ " " ++ rest).
(** [// tag: word: text], with any number of blanks around the parts, but at least
    one in front of the word. *)
Definition annotation (tag word text line : string) : Prop :=
  exists a b c d e, line = "//" ++ blanks a ++ tag ++ blanks b ++ ":" ++ blanks (S c) ++ word ++ blanks d ++ ":" ++ blanks e ++ text.
Inductive line_says (tag : string) : string -> note -> Prop :=
| says_index : forall word m c line, word = "index" \/ word = "indexes" -> line_text m = true -> creates "INDEX" m c ->
    annotation tag word m line -> line_says tag line (NIndex c)
| says_table : forall word m c line, word = "table" \/ word = "tables" -> line_text m = true -> creates "TABLE" m c ->
    annotation tag word m line -> line_says tag line (NTable c)
| says_constraint : forall word m line, word = "constraint" \/ word = "constraints" -> line_text m = true ->
    annotation tag word m line -> line_says tag line (NConstraint m)
| says_option : forall word m line, word = "option" \/ word = "options" -> line_text m = true ->
    annotation tag word m line -> line_says tag line (NOption m)
(** A remark: a word of visible characters, no slash or asterisk in front, no colon;
    nothing behind it or blanks and something that is not a colon. *)
| says_remark : forall a w rest line, all_of black w = true -> contains ":" w = false ->
    first_of (fun c => between 33 126 c && negb (Ascii.eqb c "/"%char) && negb (Ascii.eqb c "*"%char)) w = true ->
    rest = "" \/ (exists k c r, rest = blanks (S k) ++ String c r /\ black c = true /\ c <> ":"%char) ->
    line = "//" ++ blanks a ++ w ++ rest -> line_says tag line NRemark
| says_nothing : forall a, line_says tag ("//" ++ blanks a) NRemark.

Definition index_notes (l : list note) : list string := flat_map (fun n => match n with NIndex c => [c] | _ => [] end) l.
Definition table_notes (l : list note) : list string := flat_map (fun n => match n with NTable c => [c] | _ => [] end) l.
Definition constraint_notes (l : list note) : list string := flat_map (fun n => match n with NConstraint c => [c] | _ => [] end) l.
Definition option_notes (l : list note) : list string := flat_map (fun n => match n with NOption c => [c] | _ => [] end) l.
Definition annotated (l : list note) : bool := existsb (fun n => match n with NRemark => false | _ => true end) l.

(** * Fields *)

(** A tag written as a raw string, and what it holds under the three keys. *)
Definition tag_says (cfg : settings) (look : string -> string -> string) (f : field) (column type pk : string) : Prop :=
  exists tag, f_tag f = Some (bquote ++ tag ++ bquote) /\ contains bquote tag = false
    /\ look tag (column_tag cfg) = column /\ look tag (ddl_tag cfg) = type /\ look tag (pk_tag cfg) = pk.
Definition void (s : string) : Prop := s = "" \/ s = "-".
(** The column a field stands for: its name, its type and whether it is part of the
    primary key. *)
Inductive told (cfg : settings) (look : string -> string -> string) (f : field) : option (string * string * bool) -> Prop :=
| told_ignored : forall name names type pk, f_names f = name :: names -> tag_says cfg look f "-" type pk -> told cfg look f None
| told_untyped : forall name names column type pk, f_names f = name :: names -> tag_says cfg look f column type pk -> void type -> told cfg look f None
| told_column : forall name names column type pk, f_names f = name :: names -> tag_says cfg look f column type pk -> ~ void column -> ~ void type ->
    forall key, (key = true <-> pk = "true" \/ pk = "1") -> told cfg look f (Some (column, type, key))
| told_field : forall name names type pk, f_names f = name :: names -> tag_says cfg look f "" type pk -> ~ void type ->
    forall key, (key = true <-> pk = "true" \/ pk = "1") -> told cfg look f (Some (name, type, key)).

Definition kept {A} (l : list (option A)) : list A := flat_map (fun x => match x with Some a => [a] | None => [] end) l.
Definition key_names (l : list (string * string * bool)) : list string := map (fun c => fst (fst c)) (filter snd l).

(** * Statements *)

(** The table a struct stands for; [name] is that of the type. *)
Definition table_of (name : string) (notes : list note) (cols : list (string * string * bool)) : gstmt :=
  GTable (mkGTable "" 0 [] (last (table_notes notes) ("CREATE TABLE " ++ name))
            (map (fun c => mkGColumn [] (fst (fst c)) (snd (fst c))) cols)
            (map (mkGText []) (constraint_notes notes)) (map (mkGText []) (option_notes notes)) (key_names cols)).
Definition indexes_of (notes : list note) : list gstmt := map (fun c => GIndex (mkGIndex "" 0 [] c)) (index_notes notes).
Definition told_group (name : string) (cols : list (string * string * bool)) (notes : list note) : list gstmt :=
  if annotated notes then (indexes_of notes ++ match cols with [] => [] | _ => [table_of name notes cols] end)%list else [].

(** A comment group read line by line. *)
Definition group_says (tag : string) (g : list cline) (notes : list note) : Prop := Forall2 (line_says tag) (map cl_text g) notes.
(** An entry of the comment map that declares at most one type. *)
Inductive node_says (cfg : settings) (look : string -> string -> string) (n : cnode) : list gstmt -> Prop :=
| node_struct : forall name fields cols notes, n_types n = [mkType name (Some fields)] -> name <> "" -> all_of black name = true ->
    Forall2 (told cfg look) fields cols -> Forall2 (group_says (ddl_tag cfg)) (n_groups n) notes ->
    node_says cfg look n (flat_map (told_group name (kept cols)) notes)
| node_plain : forall notes, n_types n = [] \/ (exists name, n_types n = [mkType name None]) -> Forall2 (group_says (ddl_tag cfg)) (n_groups n) notes ->
    node_says cfg look n (flat_map (told_group "" []) notes).
Definition file_says (cfg : settings) (look : string -> string -> string) (nodes : list cnode) (l : list gstmt) : Prop :=
  exists ls, Forall2 (node_says cfg look) nodes ls /\ l = List.concat ls.
