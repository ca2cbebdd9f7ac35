(** What it means for an option container to be a list (C111). *)
From Verif Require Import Base OptModel.
#[local] Open Scope list_scope.
#[local] Open Scope Z_scope.

Section S.
Context {A : Type}.
(** Position [i] of [l] holds [x]; counted from 0 at the front, or from -1 at the back. *)
Definition place (l : list A) (i : Z) (pre : list A) (x : A) (post : list A) : Prop :=
  l = pre ++ x :: post /\ (i = Z.of_nat (List.length pre) \/ i = - Z.of_nat (List.length (x :: post))).
(** What a call is to do. *)
Inductive effect (l : list A) : @ocall A -> list A -> Prop :=
| F_append a : effect l (CAppend (VOpt a)) (l ++ [a])
| F_put i a pre x post : place l i pre x post -> effect l (CPut (IInt i) (VOpt a)) (pre ++ a :: post)
| F_del i pre x post : place l i pre x post -> effect l (CDel (IInt i)) (pre ++ post).
(** A history of calls: each has its effect, or raises an exception if it can have none and leaves the list alone. *)
Inductive history : list A -> list ocall -> list (res unit) -> list A -> Prop :=
| H_end l : history l [] [] l
| H_ok l c l1 cs rs l2 : effect l c l1 -> history l1 cs rs l2 -> history l (c :: cs) (Ok tt :: rs) l2
| H_err l c e cs rs l2 : (forall l1, ~ effect l c l1) -> history l cs rs l2 -> history l (c :: cs) (Err e :: rs) l2.
End S.
