(** Model of the option containers a program edits: IPOptionList (ipv4.py:284-286, 323-368), ICMPv6OptionList
    (icmpv6.py:338-344, 376-431) and the address list of the IPv4 route options (ipv4.py:61-69, 95-134).
    Options are values of a type [A]; what their bytes are is in Ipv4Model.v and IcmpModel.v.
    Left out: indices that are floats or slices, and text. *)
From Verif Require Import Base Ipv4Model.
#[local] Open Scope list_scope.
#[local] Open Scope Z_scope.

(** Values a program may hand over: options of the right kind, or anything else. *)
Inductive oval (A : Type) := VOpt (a : A) | VAny.
Arguments VOpt {A}. Arguments VAny {A}.
(** Indices: numbers; classes below ICMPv6Option, by number (a class no option object has is allowed); other classes;
    objects that are neither. *)
Inductive oidx := IInt (i : Z) | IOptCls (c : nat) | ICls | IAny.

Section Containers.
Context {A : Type}.
(** _options[i] of the built-in list for a number already known to be in range. *)
Definition at_nat (l : list A) (i : Z) : res A := match nth_error l (Z.to_nat i) with Some a => Ok a | None => Err EIndex end.
Fixpoint put_nat (l : list A) (n : nat) (a : A) : list A :=
  match l, n with [], _ => [] | _ :: l, O => a :: l | x :: l, S n => x :: put_nat l n a end.
Fixpoint del_nat (l : list A) (n : nat) : list A :=
  match l, n with [], _ => [] | _ :: l, O => l | x :: l, S n => x :: del_nat l n end.
Definition wrap (l : list A) (i : Z) : Z := if i <? 0 then zlen l + i else i.
Definition inside (l : list A) (i : Z) : bool := (0 <=? i) && (i <? zlen l).

(** The outcome of a call, and the list afterwards. *)
Definition out (B : Type) := (res B * list A)%type.

(** *** IPOptionList *)
(** append (ipv4.py:323-327). *)
Definition ip_append (l : list A) (v : oval A) : out unit :=
  match v with VOpt a => (Ok tt, l ++ [a]) | VAny => (Err EExc, l) end.
(** __getitem__ (332-337); comparing a class or another object with 0 raises TypeError. *)
Definition ip_get (l : list A) (i : oidx) : res A :=
  match i with
  | IInt i => let i := wrap l i in if inside l i then at_nat l i else Err EIndex
  | _ => Err EType
  end.
(** __setitem__ (339-347). *)
Definition ip_put (l : list A) (i : oidx) (v : oval A) : out unit :=
  match i with
  | IInt i =>
      let i := wrap l i in
      match v with
      | VAny => (Err EValue, l)
      | VOpt a => if inside l i then (Ok tt, put_nat l (Z.to_nat i) a) else (Err EIndex, l)
      end
  | _ => (Err EType, l)
  end.
(** __delitem__ (349-355). *)
Definition ip_del (l : list A) (i : oidx) : out unit :=
  match i with
  | IInt i => let i := wrap l i in if inside l i then (Ok tt, del_nat l (Z.to_nat i)) else (Err EIndex, l)
  | _ => (Err EType, l)
  end.

(** *** ICMPv6OptionList *)
(** The class of an option object. *)
Variable cls : A -> nat.
(** __init__ (icmpv6.py:340-344): None is AssertionError. *)
Fixpoint nd_new (vs : list (oval A)) : option (list A) :=
  match vs with
  | [] => Some []
  | VOpt a :: vs => match nd_new vs with Some l => Some (a :: l) | None => None end
  | VAny :: _ => None
  end.
(** append (376-381). *)
Definition nd_append (l : list A) (v : oval A) : out unit :=
  match v with VOpt a => (Ok tt, l ++ [a]) | VAny => (Err EType, l) end.
(** The loop of __getitem__ (394-396). *)
Fixpoint first_of (c : nat) (l : list A) : res A :=
  match l with [] => Err EIndex | a :: l => if Nat.eqb (cls a) c then Ok a else first_of c l end.
(** __getitem__ (386-399); issubclass of something that is not a class raises TypeError. *)
Definition nd_get (l : list A) (i : oidx) : res A :=
  match i with
  | IInt i => let i := wrap l i in if inside l i then at_nat l i else Err EIndex
  | IOptCls c => first_of c l
  | ICls => Err EIndex
  | IAny => Err EType
  end.
(** __setitem__ (401-410) and __delitem__ (412-418). *)
Definition nd_put (l : list A) (i : oidx) (v : oval A) : out unit :=
  match i with
  | IInt i =>
      let i := wrap l i in
      match v with
      | VAny => (Err EValue, l)
      | VOpt a => if inside l i then (Ok tt, put_nat l (Z.to_nat i) a) else (Err EIndex, l)
      end
  | _ => (Err EType, l)
  end.
Definition nd_del (l : list A) (i : oidx) : out unit :=
  match i with
  | IInt i => let i := wrap l i in if inside l i then (Ok tt, del_nat l (Z.to_nat i)) else (Err EIndex, l)
  | _ => (Err EType, l)
  end.

(** Neither class has __iter__ or __contains__: "for o in opts" and "o in opts" call __getitem__ with 0, 1, 2, ... until
    IndexError. *)
Fixpoint iterate (get : oidx -> res A) (fuel : nat) (i : Z) : res (list A) :=
  match fuel with
  | O => Err EFuel
  | S f => match get (IInt i) with
           | Ok a => l <- iterate get f (i + 1);; Ok (a :: l)
           | Err EIndex => Ok []
           | Err e => Err e
           end
  end.

(** A program's calls on one list. *)
Inductive ocall := CAppend (v : oval A) | CPut (i : oidx) (v : oval A) | CDel (i : oidx).
Definition ip_call (l : list A) (c : ocall) : out unit :=
  match c with CAppend v => ip_append l v | CPut i v => ip_put l i v | CDel i => ip_del l i end.
Definition nd_call (l : list A) (c : ocall) : out unit :=
  match c with CAppend v => nd_append l v | CPut i v => nd_put l i v | CDel i => nd_del l i end.
(** Errors are caught by the program: all outcomes and the list at the end. *)
Fixpoint calls (one : list A -> ocall -> out unit) (l : list A) (cs : list ocall) : list (res unit) * list A :=
  match cs with
  | [] => ([], l)
  | c :: cs => let '(r, l) := one l c in let '(rs, l) := calls one l cs in (r :: rs, l)
  end.
End Containers.

(** *** Route options *)
(** __init__ (ipv4.py:64-69). *)
Definition route_new (num numaddrs : Z) : res ipopt :=
  if (numaddrs <? 1) || (9 <? numaddrs) then Err EExc else Ok (ORoute num 4 (repeat (repeat 0 4) (Z.to_nat numaddrs))).
(** Values for an address: an address or text; what IPv4Address makes of it, None if it refuses with a ValueError. *)
Inductive aval := AAddr (r : option bytes) | AAny.
Inductive rcall := RPointer (p : Z) | RPut (i : Z) (v : aval) | RDel (i : Z).
(** pointer (98-103), __setitem__ (115-122), __delitem__ (124-129). *)
Definition route_call (ptr : Z) (l : list bytes) (c : rcall) : res unit * (Z * list bytes) :=
  match c with
  | RPointer p => if route_ptr_ok p (zlen l) then (Ok tt, (p, l)) else (Err EValue, (ptr, l))
  | RPut i v =>
      match v with
      | AAny => (Err EValue, (ptr, l))
      | AAddr r =>
          let i := wrap l i in
          if inside l i then
            match r with Some a => (Ok tt, (ptr, put_nat l (Z.to_nat i) a)) | None => (Err EValue, (ptr, l)) end
          else (Err EIndex, (ptr, l))
      end
  | RDel i =>
      let i := wrap l i in if inside l i then (Ok tt, (ptr, del_nat l (Z.to_nat i))) else (Err EIndex, (ptr, l))
  end.
(** __getitem__ (108-113). *)
Definition route_get (l : list bytes) (i : Z) : res bytes :=
  let i := wrap l i in if inside l i then at_nat l i else Err EIndex.
Fixpoint route_calls (ptr : Z) (l : list bytes) (cs : list rcall) : Z * list bytes :=
  match cs with [] => (ptr, l) | c :: cs => let '(p, l) := snd (route_call ptr l c) in route_calls p l cs end.
