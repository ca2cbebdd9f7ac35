(** Python dictionaries with string keys, in insertion order. *)
From Verif Require Export Base.
From Coq Require Export String.
Export StringSyntax.
Delimit Scope string_scope with str.
Definition str := String.string.
Definition str_eqb (a b : str) : bool := String.eqb a b.

Section Dict.
Context {V : Type}.
Definition dict := list (str * V).
(** d.get(k) *)
Fixpoint dget (k : str) (d : dict) : option V :=
  match d with [] => None | (k', v) :: r => if str_eqb k k' then Some v else dget k r end.
(** k in d *)
Definition din (k : str) (d : dict) : bool := match dget k d with Some _ => true | None => false end.
(** d[k] = v: an existing key keeps its place, a new one goes last. *)
Fixpoint dset (k : str) (v : V) (d : dict) : dict :=
  match d with [] => [(k, v)] | (k', v') :: r => if str_eqb k k' then (k', v) :: r else (k', v') :: dset k v r end.
(** del d[k] *)
Fixpoint ddel (k : str) (d : dict) : dict :=
  match d with [] => [] | (k', v') :: r => if str_eqb k k' then r else (k', v') :: ddel k r end.
Definition dkeys (d : dict) : list str := map fst d.
End Dict.
Arguments dict V : clear implicits.
(** x in l, for a list or set of strings. *)
Definition smem (k : str) (l : list str) : bool := existsb (str_eqb k) l.
