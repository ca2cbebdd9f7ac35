(** Base definitions shared by all model files: Python exceptions as values,
    byte strings, slices, and the [struct] module of CPython. *)
From Coq Require Export List ZArith Lia Bool.
Export ListNotations.
#[global] Open Scope Z_scope.

(** Python exceptions that the modelled code can raise.  [EFuel] is not a Python
    exception: it marks a loop that did not finish within the given fuel. *)
Inductive exn :=
| EStruct        (* struct.error *)
| EValue         (* ValueError *)
| EType          (* TypeError *)
| EIndex         (* IndexError *)
| EKey           (* KeyError *)
| EAttr          (* AttributeError *)
| EAssert        (* AssertionError *)
| ERuntime       (* RuntimeError *)
| EName          (* NameError *)
| EUnbound       (* UnboundLocalError *)
| ENotImpl       (* NotImplementedError *)
| EImport        (* ImportError *)
| EOverflow      (* OverflowError *)
| ENotEnough     (* switchyard.lib.exceptions.NotEnoughDataError *)
| EExc           (* plain Exception *)
| ETestFail      (* switchyard.lib.exceptions.TestScenarioFailure *)
| ENoPackets     (* switchyard.lib.exceptions.NoPackets *)
| EShutdown      (* switchyard.lib.exceptions.Shutdown *)
| ETimeout       (* socket.timeout *)
| ESockError     (* socket.error *)
| EStopIter      (* StopIteration *)
| EFuel.         (* model only: loop did not finish *)

Inductive res (A : Type) : Type :=
| Ok (a : A)
| Err (e : exn).
Arguments Ok {A} a.
Arguments Err {A} e.

Definition bindr {A B} (r : res A) (k : A -> res B) : res B :=
  match r with Ok a => k a | Err e => Err e end.
Notation "x <- e ;; k" := (bindr e (fun x => k))
  (at level 90, e at next level, right associativity).
Notation "' p <- e ;; k" := (bindr e (fun x => match x with p => k end))
  (at level 90, p pattern, e at next level, right associativity).

Definition is_ok {A} (r : res A) : bool := match r with Ok _ => true | Err _ => false end.

(** Python [bytes]. *)
Definition bytes := list Z.
Definition byteb (b : Z) : bool := (0 <=? b) && (b <? 256).
Definition wfb (l : bytes) : Prop := Forall (fun b => 0 <= b < 256) l.

(** Big-endian encoding of an integer on [n] bytes, and decoding. *)
Fixpoint be (n : nat) (v : Z) : bytes :=
  match n with
  | O => []
  | S n' => (v / 256 ^ Z.of_nat n') mod 256 :: be n' v
  end.
Fixpoint unbe (l : bytes) : Z :=
  match l with
  | [] => 0
  | b :: l' => b * 256 ^ Z.of_nat (length l') + unbe l'
  end.

(** Python's [struct] formats, network order.  [FInt n] is an unsigned integer of n bytes
    (B, H, I, Q for n = 1, 2, 4, 8), [FS n] is "ns", [FX n] is n pad bytes "x". *)
Inductive fmt := FInt (n : nat) | FS (n : nat) | FX (n : nat).
Notation fB := (FInt 1).
Notation fH := (FInt 2).
Notation fI := (FInt 4).
Notation fQ := (FInt 8).

Inductive sval := VI (z : Z) | VB (b : bytes).

(** "ns" packing truncates or pads with zero bytes (CPython Modules/_struct.c). *)
Definition fits (n : nat) (b : bytes) : bytes := firstn n b ++ repeat 0 (n - length b).

Fixpoint pack (f : list fmt) (vs : list sval) : res bytes :=
  match f with
  | [] => match vs with [] => Ok [] | _ => Err EStruct end
  | FX n :: f' => bs <- pack f' vs;; Ok (repeat 0 n ++ bs)
  | FInt n :: f' =>
      match vs with
      | VI z :: vs' =>
          if (0 <=? z) && (z <? 256 ^ Z.of_nat n)
          then bs <- pack f' vs';; Ok (be n z ++ bs)
          else Err EStruct
      | _ => Err EStruct
      end
  | FS n :: f' =>
      match vs with
      | VB b :: vs' => bs <- pack f' vs';; Ok (fits n b ++ bs)
      | _ => Err EStruct
      end
  end.

Definition fmt_size (f : fmt) : nat := match f with FInt n | FS n | FX n => n end.
Definition calcsize (f : list fmt) : nat := list_sum (map fmt_size f).

Fixpoint unpack (f : list fmt) (b : bytes) : res (list sval) :=
  match f with
  | [] => match b with [] => Ok [] | _ => Err EStruct end
  | FX n :: f' => if Nat.ltb (length b) n then Err EStruct else unpack f' (skipn n b)
  | FInt n :: f' =>
      if Nat.ltb (length b) n then Err EStruct
      else vs <- unpack f' (skipn n b);; Ok (VI (unbe (firstn n b)) :: vs)
  | FS n :: f' =>
      if Nat.ltb (length b) n then Err EStruct
      else vs <- unpack f' (skipn n b);; Ok (VB (firstn n b) :: vs)
  end.

(** Values as [unpack] returns them after [pack]. *)
Fixpoint norm (f : list fmt) (vs : list sval) : list sval :=
  match f with
  | [] => vs
  | FX _ :: f' => norm f' vs
  | FInt _ :: f' => match vs with v :: vs' => v :: norm f' vs' | [] => [] end
  | FS n :: f' => match vs with
                  | VB b :: vs' => VB (fits n b) :: norm f' vs'
                  | v :: vs' => v :: norm f' vs'
                  | [] => [] end
  end.

Definition zlen {A} (l : list A) : Z := Z.of_nat (length l).

(** Enumerations (IntEnum): a list of members; lookup by value raises ValueError. *)
Definition zmem (z : Z) (l : list Z) : bool := existsb (Z.eqb z) l.
Definition enum_of (members : list Z) (z : Z) : res Z :=
  if zmem z members then Ok z else Err EValue.

(** Equality of byte strings. *)
Fixpoint bytes_eqb (a b : bytes) : bool :=
  match a, b with
  | [], [] => true
  | x :: a', y :: b' => (x =? y) && bytes_eqb a' b'
  | _, _ => false
  end.
