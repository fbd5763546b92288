(** What a struct tag says: the notions C63 is stated with.  Independent of the
    functions of GoTag.v. *)
From Verif Require Import GoStr Lines Generate GenSpec GenTold.
Local Open Scope N_scope.

(** * Characters outside ASCII *)

Definition continues (b : N) : Prop := 128 <= b <= 191.
(** The shortest UTF-8 form of a code point that is no surrogate. *)
Inductive codes : N -> string -> Prop :=
| codes_2 : forall a b n, 192 <= a < 224 -> continues b -> n = (a - 192) * 64 + (b - 128) -> 128 <= n -> codes n (bytes [a; b])
| codes_3 : forall a b c n, 224 <= a < 240 -> continues b -> continues c -> n = (a - 224) * 4096 + (b - 128) * 64 + (c - 128) ->
    2048 <= n -> ~ 55296 <= n <= 57343 -> codes n (bytes [a; b; c])
| codes_4 : forall a b c d n, 240 <= a < 248 -> continues b -> continues c -> continues d ->
    n = (a - 240) * 262144 + (b - 128) * 4096 + (c - 128) * 64 + (d - 128) -> 65536 <= n <= 1114111 -> codes n (bytes [a; b; c; d]).

(** * Values between quotation marks *)

Definition backslash : string := bytes [92].
(** A digit and its value in the given base. *)
Definition digit_of (base : N) (c : ascii) (v : N) : Prop :=
  v < base /\ (c = ascii_of_N (48 + v) /\ v < 10 \/ (c = ascii_of_N (87 + v) \/ c = ascii_of_N (55 + v)) /\ 10 <= v).
Inductive number (base : N) : string -> N -> Prop :=
| number_nil : number base "" 0
| number_digit : forall s n c v, number base s n -> digit_of base c v -> number base (s ++ String c "") (n * base + v).
(** One written piece of a value, and what it stands for. *)
Inductive piece : string -> string -> Prop :=
| piece_plain : forall c, N_of_ascii c < 128 -> c <> "034"%char -> c <> "092"%char -> c <> ch_nl -> piece (String c "") (String c "")
| piece_char : forall n s, codes n s -> piece s s
| piece_quote : piece (backslash ++ dquote) dquote
| piece_backslash : piece (backslash ++ backslash) backslash
| piece_letter : forall c n, In (c, n) [("a", 7); ("b", 8); ("f", 12); ("n", 10); ("r", 13); ("t", 9); ("v", 11)] -> piece (backslash ++ c) (bytes [n])
| piece_hex : forall h n, number 16 h n -> String.length h = 2%nat -> piece (backslash ++ "x" ++ h) (bytes [n])
| piece_octal : forall o n, number 8 o n -> String.length o = 3%nat -> n < 256 -> piece (backslash ++ o) (bytes [n])
| piece_code : forall u h n s, (u = "u" /\ String.length h = 4%nat \/ u = "U" /\ String.length h = 8%nat) -> number 16 h n ->
    codes n s \/ (n < 128 /\ s = bytes [n]) -> piece (backslash ++ u ++ h) s.
Inductive quoted : string -> string -> Prop :=
| quoted_nil : quoted "" ""
| quoted_piece : forall p v q w, piece p v -> quoted q w -> quoted (p ++ q) (v ++ w).

(** * Tags *)

Definition key_char (c : ascii) : bool :=
  (between 33 126 c || between 128 255 c) && negb (Ascii.eqb c ":"%char) && negb (Ascii.eqb c "034"%char).
Inductive tag_of : string -> list (string * string) -> Prop :=
| tag_nil : forall k, tag_of (blanks k) []
| tag_pair : forall k key q v rest l, key <> "" -> all_of key_char key = true -> quoted q v -> tag_of rest l ->
    tag_of (blanks k ++ key ++ ":" ++ dquote ++ q ++ dquote ++ rest) ((key, v) :: l).
(** The value under a key: that of the first pair with the key, the empty one if
    there is none. *)
Fixpoint value_under (key : string) (l : list (string * string)) : string :=
  match l with [] => "" | (k, v) :: r => if String.eqb k key then v else value_under key r end.

(** A field with a raw tag, and what it says under the three keys. *)
Definition field_tag (cfg : settings) (f : field) (column type pk : string) : Prop :=
  exists tag l, f_tag f = Some (bquote ++ tag ++ bquote) /\ contains bquote tag = false /\ tag_of tag l
    /\ value_under (column_tag cfg) l = column /\ value_under (ddl_tag cfg) l = type /\ value_under (pk_tag cfg) l = pk.
(** The column a field stands for: [told] of GenTold.v, for what is written. *)
Inductive field_says (cfg : settings) (f : field) : option (string * string * bool) -> Prop :=
| field_ignored : forall name names type pk, f_names f = name :: names -> field_tag cfg f "-" type pk -> field_says cfg f None
| field_untyped : forall name names column type pk, f_names f = name :: names -> field_tag cfg f column type pk -> void type -> field_says cfg f None
| field_column : forall name names column type pk, f_names f = name :: names -> field_tag cfg f column type pk -> ~ void column -> ~ void type ->
    forall key, (key = true <-> pk = "true" \/ pk = "1")%string -> field_says cfg f (Some (column, type, key))
| field_named : forall name names type pk, f_names f = name :: names -> field_tag cfg f "" type pk -> ~ void type ->
    forall key, (key = true <-> pk = "true" \/ pk = "1")%string -> field_says cfg f (Some (name, type, key)).

(** A file read with the fields as they are written. *)
Inductive node_tells (cfg : settings) (n : cnode) : list gstmt -> Prop :=
| tells_struct : forall name fields cols notes, n_types n = [mkType name (Some fields)] -> name <> "" -> all_of black name = true ->
    Forall2 (field_says cfg) fields cols -> Forall2 (group_says (ddl_tag cfg)) (n_groups n) notes ->
    node_tells cfg n (flat_map (told_group name (kept cols)) notes)
| tells_plain : forall notes, n_types n = [] \/ (exists name, n_types n = [mkType name None]) -> Forall2 (group_says (ddl_tag cfg)) (n_groups n) notes ->
    node_tells cfg n (flat_map (told_group "" []) notes).
Definition file_tells (cfg : settings) (nodes : list cnode) (l : list gstmt) : Prop :=
  exists ls, Forall2 (node_tells cfg) nodes ls /\ l = List.concat ls.
