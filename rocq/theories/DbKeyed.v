(** SPECIFICATION (C85): a database in which a foreign key refers to a key.

    Refines DbDep.v: the columns a foreign key refers to are those of the primary key, of a
    UNIQUE constraint or of a unique index of the table, in some order; without columns it
    refers to the primary key.  This is asked of the database as it is between any two
    statements: a statement after which a foreign key lacks its key is refused.

    Spanner asks for no such key. *)
From Verif Require Import GoStr Token Ast Db Tidy Reconcile DbDep.

Definition same_columns (x y : list keycol) : bool :=
  forallb (fun c => existsb (fun e => String.eqb (fst c) (fst e)) y) x
  && forallb (fun c => existsb (fun e => String.eqb (fst c) (fst e)) x) y.

(** The object [v] of key [k] is a key of the table [t] with the columns [cols]. *)
Definition backs (t : string) (cols : list keycol) (k : key) (v : value) : bool :=
  match k, v with
  | KCon u _, VCon (SPrimary c) => String.eqb u t && (same_columns cols c || match cols with [] => true | _ => false end)
  | KCon u _, VCon (SUnique c) => String.eqb u t && same_columns cols c
  | KIdx _, VIdx i => String.eqb (si_table i) t && si_unique i && same_columns cols (si_cols i)
  | _, _ => false
  end.

(** A foreign key to a table that is there.  (That the table is there is asked by DbDep.v.) *)
Definition backed (m : db) (v : value) : Prop :=
  match v with
  | VCon (SForeign _ ref cols _) => present (m (KTab ref)) = true -> exists k u, m k = Some u /\ backs ref cols k u = true
  | _ => True
  end.
Definition keyed (m : db) : Prop := forall k v, m k = Some v -> backed m v.

(** Each foreign key of [x] refers to a primary key, UNIQUE constraint or unique index of [x]
    that is the same in [y], or to a constraint of a table that is not in [y] at all. *)
Definition is_con (k : key) : bool := match k with KCon _ _ => true | _ => false end.
Definition covered (d : dialect) (x y : ddl) : bool :=
  forallb (fun e => match snd e with
    | VCon (SForeign _ ref cols _) =>
        existsb (fun f => backs ref cols (fst f) (snd f)
                 && (same (option_dec value_dec) (lookup_key (fst f) (objects d x)) (lookup_key (fst f) (objects d y))
                     || is_con (fst f) && negb (mem_key (KTab ref) (keys d y)))) (objects d x)
    | _ => true
    end) (objects d x).
Definition keys_in_place (d : dialect) (b a : ddl) : bool := covered d b a && covered d a b.
