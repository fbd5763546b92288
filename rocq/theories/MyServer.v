(** SPECIFICATION (C87): a MySQL server that is asked for its tables.

    The name of a table in a query is quoted by back quotes; a back quote in the name is
    written twice.  Behind the name there may be white space and a comment that extends to the
    end of the query.  https://dev.mysql.com/doc/refman/8.0/en/identifiers.html, comments.html.
    Simplifications: upper case key words, one space between words; no other comments. *)
From Verif Require Import GoStr.

Definition bq : ascii := "`"%char.
(** The quoted name at the beginning (behind the opening quote), and what follows it *)
Fixpoint quoted_name (s : string) : option (string * string) :=
  match s with
  | EmptyString => None
  | String c r =>
      if Ascii.eqb c bq then
        match r with
        | String c' r' => if Ascii.eqb c' bq then match quoted_name r' with Some (n, e) => Some (String bq n, e) | None => None end else Some (EmptyString, r)
        | EmptyString => Some (EmptyString, EmptyString)
        end
      else match quoted_name r with Some (n, e) => Some (String c n, e) | None => None end
  end.
(** White space and a comment *)
Fixpoint nothing_more (s : string) : bool :=
  match s with
  | EmptyString => true
  | String c r => if Ascii.eqb c " " then nothing_more r
                  else Ascii.eqb c "#" || match r with String c' (String c'' _) => Ascii.eqb c "-" && Ascii.eqb c' "-" && Ascii.eqb c'' " " | _ => false end
  end.
Fixpoint after_prefix (p s : string) : option string :=
  match p, s with
  | EmptyString, _ => Some s
  | String c p', String c' s' => if Ascii.eqb c c' then after_prefix p' s' else None
  | _, _ => None
  end.
(** The table a query is about *)
Definition asked_table (q : string) : option string :=
  match after_prefix "SHOW CREATE TABLE `" q with
  | Some r => match quoted_name r with Some (n, e) => if nothing_more e then Some n else None | None => None end
  | None => None
  end.

(** A database: the names of its tables and what the server says about them *)
Fixpoint table_text (db : list (string * string)) (n : string) : option string :=
  match db with [] => None | (m, s) :: r => if String.eqb m n then Some s else table_text r n end.
Definition server_create (db : list (string * string)) (q : string) : option string :=
  match asked_table q with Some n => table_text db n | None => None end.
(** The query for the names, word by word: of the current database *)
Definition server_names (db : list (string * string)) (q : string) : option (list string) :=
  if String.eqb q "SELECT TABLE_NAME FROM information_schema.TABLES WHERE TABLE_SCHEMA = database()" then Some (map fst db) else None.
Definition plain (n : string) : bool := negb (existsb (Ascii.eqb bq) (list_ascii_of_string n)).
