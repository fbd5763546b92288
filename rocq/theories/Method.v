(** SPECIFICATION (C08, C09): CockroachDB's index methods inside of a table,
    [INDEX i (columns) USING method WITH (parameters)]. *)
From Verif Require Import GoStr Token Ast Printable.

(** A method is a name; its parameters are a group in parentheses. *)
Definition named_method (u : usingdef) : bool :=
  match us_value u with Some [v] => name_ok Crdb v | _ => false end
  && match us_with u with Some (Some w) => group_ok Crdb w | Some None => false | None => true end.
(** The method behind the columns of an index inside of a table. *)
Definition method_of (c : constraint) : option usingdef :=
  match c with CIndex _ _ _ _ post => post | _ => None end.
Definition methodless (c : constraint) : constraint :=
  match c with CIndex n u pre cols _ => CIndex n u pre cols None | c => c end.
(** A statement without the methods of its indexes. *)
Definition without_methods (s : stmt) : stmt :=
  match s with
  | CreateTable t => CreateTable (mkCT (ct_comment t) (ct_ifnotexists t) (ct_name t) (ct_columns t)
                                       (map methodless (ct_constraints t)) (ct_options t) (ct_rowdel t))
  | s => s
  end.
Definition methods_named (s : stmt) : bool :=
  match s with
  | CreateTable t => forallb (fun c => match method_of c with Some u => named_method u | None => true end) (ct_constraints t)
  | _ => true
  end.
(** Everything but the methods is printable, the methods are named. *)
Definition printable_with_methods (l : ddl) : bool :=
  printable Crdb (map without_methods l) && forallb methods_named l.
