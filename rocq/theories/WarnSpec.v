(** C80: what generated tables have to say about the struct they were made from. *)
From Verif Require Import GoStr Lines Generate GenSpec GenTold.

(** A field with a tag written as a raw string, and its first name. *)
Definition tag_of (f : field) (tag : string) : Prop := f_tag f = Some (bquote ++ tag ++ bquote) /\ contains bquote tag = false.
Definition called (f : field) (name : string) : Prop := exists names, f_names f = name :: names.

(** A comment of some kind that mentions some texts. *)
Definition remark (kind : string) (words : list string) (c : string) : Prop :=
  (exists rest, c = kind ++ ": " ++ rest) /\ Forall (fun w => contains w c = true) words.
Definition in_quotes (s : string) : string := dquote ++ s ++ dquote.

(** The field is left out at the request of its tag; the table says so. *)
Definition says_ignored (cfg : settings) (look : string -> string -> string) (ty : string) (t : gtable) (f : field) : Prop :=
  forall tag name, tag_of f tag -> called f name -> look tag (column_tag cfg) = "-" ->
    exists c, In c (g_comments t) /\ remark "NOTE" [in_quotes ty; in_quotes name; column_tag cfg ++ ":" ++ in_quotes "-"] c.
(** The column is named after the field because its tag does not name it; the first
    comment of the column says so. *)
Definition says_named (cfg : settings) (look : string -> string -> string) (ty : string) (t : gtable) (f : field) : Prop :=
  forall tag name, tag_of f tag -> called f name -> look tag (column_tag cfg) = "" -> ~ void (look tag (ddl_tag cfg)) ->
    exists c more, In (mkGColumn (c :: more) name (look tag (ddl_tag cfg))) (g_columns t) /\ remark "WARN" [in_quotes ty; in_quotes name; column_tag cfg ++ ":"] c.
(** The tag says something about the primary key that is not understood; a comment of the
    column says so. *)
Definition understood (pk : string) : Prop := In pk ["true"; "1"; ""; "-"].
Definition says_no_key (cfg : settings) (look : string -> string -> string) (t : gtable) (f : field) : Prop :=
  forall tag name, tag_of f tag -> called f name -> look tag (column_tag cfg) <> "-" -> ~ void (look tag (ddl_tag cfg)) -> ~ understood (look tag (pk_tag cfg)) ->
    exists c comments column, In (mkGColumn comments column (look tag (ddl_tag cfg))) (g_columns t) /\ In c comments
      /\ (column = look tag (column_tag cfg) \/ look tag (column_tag cfg) = "" /\ column = name)
      /\ remark "WARN" [in_quotes name; pk_tag cfg ++ ":" ++ in_quotes "true"] c.
(** The table is named after the struct because no annotation names it. *)
Definition says_struct (cfg : settings) (short : string -> string) (file ty : string) (g : list cline) (t : gtable) : Prop :=
  forall notes, group_says (ddl_tag cfg) g notes -> table_notes notes = [] ->
    exists c l r, g = l :: r /\ In c (g_comments t) /\ remark "WARN" [short file ++ ":" ++ itoa (cl_line l); in_quotes ty] c.

(** Nothing is guessed: the annotations name the table, and the tags of the fields name
    columns and say nothing incomprehensible about the primary key. *)
Definition spelled_out (cfg : settings) (look : string -> string -> string) (f : field) : Prop :=
  exists tag, tag_of f tag /\ ~ void (look tag (column_tag cfg)) /\ understood (look tag (pk_tag cfg)).
(** Then every comment was written by the author. *)
Definition says_no_more (cfg : settings) (look : string -> string -> string) (fields : list field) (g : list cline) (t : gtable) : Prop :=
  forall notes, group_says (ddl_tag cfg) g notes -> table_notes notes <> [] -> Forall (spelled_out cfg look) fields ->
    Forall (fun c => exists l before, In l g /\ cl_text l = before ++ c) (g_comments t)
    /\ Forall (fun col => Forall (fun c => exists f, In f fields /\ contains c (f_doc f) = true) (gc_comments col)) (g_columns t).

Record explains (cfg : settings) (look : string -> string -> string) (short : string -> string) (file ty : string) (fields : list field) (g : list cline) (t : gtable) : Prop := mkExplains {
  ex_create : g_create t <> "";
  ex_ignored : Forall (says_ignored cfg look ty t) fields;
  ex_named : Forall (says_named cfg look ty t) fields;
  ex_no_key : Forall (says_no_key cfg look t) fields;
  ex_struct : says_struct cfg short file ty g t;
  ex_no_more : says_no_more cfg look fields g t }.
