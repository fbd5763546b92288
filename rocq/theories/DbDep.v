(** SPECIFICATION: a database that enforces the dependencies between its objects,
    and pairs of schemas whose diff respects them.

    Refines Db.v.  An object needs other objects: a key or a foreign key needs its
    columns, a foreign key needs the table and the columns it refers to, an index
    needs its table and its columns.  A statement fails if it creates an object
    whose needs are not there; a statement that drops a table or a column drops
    what needs it (a database that refuses the statement instead: DbRefuse.v).

    Simplifications: a CHECK needs nothing (its columns are not told from other
    words); that a foreign key needs a unique key of the table it refers to is
    left to DbKeyed.v; RENAME does not change the foreign keys that refer to the table. *)
From Verif Require Import GoStr Token Ast Db Tidy Reconcile.

Definition columns_of (t : string) (cols : list keycol) : list key := map (fun c => KCol t (fst c)) cols.

(** What the object of a foreign key refers to *)
Definition refers (v : value) : list key :=
  match v with
  | VCon (SForeign _ ref refcols _) => KTab ref :: columns_of ref refcols
  | _ => []
  end.
Definition needs (k : key) (v : value) : list key :=
  match k, v with
  | KCon t _, VCon (SPrimary cols) | KCon t _, VCon (SUnique cols) => columns_of t cols
  | KCon t _, VCon (SForeign cols _ _ _) => columns_of t cols ++ refers v
  | KIdx _, VIdx i => KTab (si_table i) :: columns_of (si_table i) (si_cols i)
  | _, _ => []
  end%list.
Definition intact (m : db) (k : key) (v : value) : bool := forallb (fun n => present (m n)) (needs k v).

(** The statements that drop what depends on their object *)
Definition removes (s : stmt) : bool :=
  match s with DropTable _ _ _ => true | AlterTable _ _ (DropColumn _) => true | _ => false end.
Definition sweep (m : db) : db :=
  fun k => match m k with Some v => if intact m k v then Some v else None | None => None end.

(** The needs of the objects that come into being by [s] are there. *)
Definition new_intact (d : dialect) (s : stmt) (m m' : db) : bool :=
  forallb (fun e => present (m (fst e)) || negb (present (m' (fst e))) || intact m' (fst e) (snd e)) (objects d [s]).

Definition dep_exec (d : dialect) (s : stmt) (m : db) : option db :=
  match exec d s m with
  | None => None
  | Some m' => if removes s then Some (sweep m') else if new_intact d s m m' then Some m' else None
  end.
Fixpoint dep_exec_all (d : dialect) (l : ddl) (m : db) : option db :=
  match l with
  | [] => Some m
  | s :: r => match dep_exec d s m with Some m' => dep_exec_all d r m' | None => None end
  end.

(** * Schemas that respect dependencies *)
Definition keys (d : dialect) (l : ddl) : list key := map fst (objects d l).
Definition needed (d : dialect) (l : ddl) : list key := flat_map (fun e => needs (fst e) (snd e)) (objects d l).
Definition referred (d : dialect) (l : ddl) : list key := flat_map (fun e => refers (snd e)) (objects d l).
Definition mem_key (k : key) (l : list key) : bool := existsb (key_eqb k) l.
Definition within (x y : list key) : bool := forallb (fun k => mem_key k y) x.

(** Every object's needs are declared, in whatever order. *)
Definition closed (d : dialect) (l : ddl) : bool := within (needed d l) (keys d l).

(** The object of the same kind and name in [l] *)
Definition same_thing (s x : stmt) : bool :=
  match s, x with
  | CreateTable t, CreateTable u => String.eqb (table_name t) (table_name u)
  | CreateIndex i, CreateIndex j => String.eqb (qname (cx_name i)) (qname (cx_name j))
  | _, _ => false
  end.
Definition partner (s : stmt) (l : ddl) : option stmt := find (same_thing s) l.
Definition stays (l : ddl) (s : stmt) : bool := present (partner s l).
Definition fresh (b a : ddl) : ddl := filter (fun s => negb (stays b s)) a.

(** ** The order of a diff: drop what is gone, create what is new, then change, in the
    order of the old schema, what stays *)

(** What stays does not refer to a table that is gone. *)
Definition gone_unreferred (d : dialect) (b a : ddl) : bool :=
  forallb (fun s => negb (stays a s)
      || forallb (fun k => match k with KTab _ => mem_key k (keys d a) | _ => true end) (referred d [s])) b.

(** What is new only needs what was there and stays, and what is created earlier. *)
Fixpoint created_in_order (d : dialect) (known : list key) (l : ddl) : bool :=
  match l with
  | [] => true
  | s :: r => within (needed d [s]) (known ++ keys d [s])%list
              && created_in_order d (known ++ keys d [s])%list r
  end.

(** What is changed only needs what was there, what is new, and what is changed earlier or
    at the same time; a column is not dropped as long as something refers to it. *)
Definition columns_unreferred (d : dialect) (a : ddl) (s p : stmt) (l : ddl) : bool :=
  match s, p with
  | CreateTable tb, CreateTable ta =>
      forallb (fun c => forallb (fun x => negb (stays a x) || negb (mem_key (KCol (table_name tb) c) (referred d [x]))) l)
              (gone_columns tb ta)
  | _, _ => true
  end.
(** spanner: a table whose options change is dropped and created again *)
Definition not_recreated (d : dialect) (s p : stmt) : bool :=
  match d, s, p with
  | Sp, CreateTable tb, CreateTable ta => String.eqb (options_diff d (ct_options tb)) (options_diff d (ct_options ta))
  | _, _, _ => true
  end.
Fixpoint changed_in_order (d : dialect) (a : ddl) (known : list key) (l : ddl) : bool :=
  match l with
  | [] => true
  | s :: r =>
      match partner s a with
      | None => changed_in_order d a known r
      | Some p => within (needed d [p]) (known ++ keys d [p])%list
                  && columns_unreferred d a s p (s :: r) && not_recreated d s p
                  && changed_in_order d a (known ++ keys d [p])%list r
      end
  end.

Definition in_order (d : dialect) (b a : ddl) : bool :=
  closed d b && closed d a && gone_unreferred d b a
  && created_in_order d (keys d (filter (stays a) b)) (fresh b a)
  && changed_in_order d a (keys d b ++ keys d (fresh b a))%list b.
