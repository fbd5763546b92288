(** SPECIFICATION (C74): a schema from which whole statements are taken and to which whole
    statements are added. *)
From Coq Require Import Permutation.
From Verif Require Import GoStr Token Ast Db.

(** Which object a statement creates: a table or an index, and its name *)
Definition who (s : stmt) : option (bool * string) :=
  match s with
  | CreateTable t => Some (true, qname (ct_name t))
  | CreateIndex i => Some (false, qname (cx_name i))
  | _ => None
  end.
(** A schema: CREATE statements only, no object twice *)
Definition single (l : ddl) : Prop := forallb is_create l = true /\ NoDup (map who l).

(** [z] consists of [x] and [y], each in its order. *)
Inductive mixed {A} : list A -> list A -> list A -> Prop :=
| mixed_nil : mixed [] [] []
| mixed_left : forall a x y z, mixed x y z -> mixed (a :: x) y (a :: z)
| mixed_right : forall a x y z, mixed x y z -> mixed x (a :: y) (a :: z).

(** From [before] to [after] the statements [gone] vanish, the statements [new] come, and
    the others stay as they are, perhaps in another order. *)
Record whole_change (before after gone new : ddl) : Prop := {
  wc_before : single before;
  wc_after : single after;
  wc_split : exists kept kept', mixed kept gone before /\ mixed kept' new after /\ Permutation kept kept';
  wc_other : forall g n, In g gone -> In n new -> who g <> who n }.

(** The statement that removes what [s] creates *)
Definition removal (s : stmt) : stmt :=
  match s with
  | CreateTable t => DropTable "" false (ct_name t)
  | CreateIndex i => DropIndex "" false (cx_name i)
  | _ => s
  end.
