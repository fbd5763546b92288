(** Notions the properties of the generate command are stated with. *)
From Coq Require Import Permutation Sorted.
From Verif Require Import GoStr Lines Generate.

(** * Order of iteration *)

(** The same source files, with the comment map of each met in another order. *)
Definition reordered_file (a b : string * option (list cnode)) : Prop :=
  fst a = fst b
  /\ match snd a, snd b with
     | Some l, Some l' => Permutation l l'
     | None, None => True
     | _, _ => False
     end.
Definition reordered (i i' : input) : Prop :=
  match i, i' with
  | Missing, Missing => True
  | OneFile n p, OneFile n' p' => reordered_file (n, p) (n', p')
  | Tree l, Tree l' => Forall2 reordered_file l l'
  | _, _ => False
  end.
Definition files_of (i : input) : list (string * option (list cnode)) :=
  match i with Missing => [] | OneFile n p => [(n, p)] | Tree l => l end.

(** What package sort promises: the same elements, none smaller than an earlier one. *)
Definition sorts (srt : list gstmt -> list gstmt) : Prop :=
  forall l, Permutation (srt l) l /\ StronglySorted (fun a b => String.ltb (sort_key b) (sort_key a) = false) (srt l).
(** Up to twelve elements it is an insertion sort. *)
Definition sorts_like_go (srt : list gstmt -> list gstmt) : Prop :=
  sorts srt /\ forall l, List.length l <= 12 -> srt l = sort_small l.

(** No line of the file has comments of two groups. *)
Definition lines_apart (g g' : list cline) : Prop :=
  forall l l', In l g -> In l' g' -> cl_line l <> cl_line l'.
Definition groups_apart (nodes : list cnode) : Prop := ForallOrdPairs lines_apart (flat_map n_groups nodes).

(** * Commas *)

(** Items, each with its comments in front and a comma behind all but the last. *)
Fixpoint comma_lines (indent : string) (l : list (list string * string)) : string :=
  match l with
  | [] => ""
  | [(comments, text)] => print_comments indent comments ++ indent ++ text ++ nl
  | (comments, text) :: r => print_comments indent comments ++ indent ++ text ++ "," ++ nl ++ comma_lines indent r
  end.
(** The names of a key: quoted, a comma and a blank between two of them. *)
Definition quoted_names (q : string) (l : list string) : string := join ", " (map (fun n => q ++ n ++ q) l).
Definition column_item (q : string) (width : nat) (c : gcolumn) : list string * string :=
  (gc_comments c, pad width (q ++ gc_name c ++ q) ++ " " ++ gc_type c).
Definition text_item (x : gtext) : list string * string := (gt_comments x, gt_text x).
Definition key_items (q : string) (l : list string) : list (list string * string) :=
  match l with [] => [] | _ => [([], "PRIMARY KEY (" ++ quoted_names q l ++ ")")] end.
(** Options: each on a line of its own, a comma behind all but the last, no line
    break behind the last. *)
Definition option_block (x : gtext) : string := print_comments "" (gt_comments x) ++ gt_text x.
Definition option_lines (l : list gtext) : string :=
  match l with [] => "" | _ => nl ++ join ("," ++ nl) (map option_block l) end.
Definition sp_key (l : list string) (options : list gtext) : string :=
  match l with [] => "" | _ => " PRIMARY KEY (" ++ quoted_names bquote l ++ ")" ++ match options with [] => "" | _ => "," end end.

(** * Comments *)

(** A line that is a comment: blanks, then two dashes. *)
Fixpoint comment_line (s : string) : bool :=
  match s with
  | String " " r => comment_line r
  | _ => String.prefix "--" s
  end.
(** The lines of a text that are not comments. *)
Definition code_lines (s : string) : list string := filter (fun l => negb (comment_line l)) (split nl s).

(** A statement without its comments (and without its source position, which is
    printed as one). *)
Definition bare_text (x : gtext) : gtext := mkGText [] (gt_text x).
Definition bare (s : gstmt) : gstmt :=
  match s with
  | GTable t => GTable (mkGTable "" 0 [] (g_create t) (map (fun c => mkGColumn [] (gc_name c) (gc_type c)) (g_columns t))
                          (map bare_text (g_constraints t)) (map bare_text (g_options t)) (g_pk t))
  | GIndex i => GIndex (mkGIndex "" 0 [] (gi_create i))
  end.
Definition all_comments (s : gstmt) : list string :=
  match s with
  | GTable t => (g_comments t ++ flat_map gc_comments (g_columns t) ++ flat_map gt_comments (g_constraints t) ++ flat_map gt_comments (g_options t))%list
  | GIndex i => gi_comments i
  end.
Fixpoint one_line (s : string) : bool :=
  match s with EmptyString => true | String c r => negb (Ascii.eqb c ch_nl) && one_line r end.

(** * Panics *)

(** A struct whose fields all have a name and a tag. *)
Definition tagged (t : typespec) : bool :=
  match ts_fields t with
  | Some l => forallb (fun f => match f_tag f with Some _ => match f_names f with [] => false | _ => true end | None => false end) l
  | None => true
  end.
Definition all_tagged (nodes : option (list cnode)) : bool :=
  match nodes with Some l => forallb (fun n => forallb tagged (n_types n)) l | None => true end.
