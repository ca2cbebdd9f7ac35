(** Making test events: PacketOutputEvent and the matchers in it (lib/testing.py:46-123, 487-515), and the copyfromlastout
    argument of PacketInputEvent (417-433, 463-475).  TestModel.v takes the arguments as right. *)
From Verif Require Import Base Dict PacketModel TestModel.
#[local] Open Scope string_scope.
#[local] Open Scope Z_scope.
#[local] Open Scope list_scope.

(** ** Arguments *)
(** What a predicate string evaluates to: a function written in Python, something else, or an exception (a SyntaxError is
    replaced by another one). *)
Inductive evald := EFun (f : predicate) | ENotFun | EFails (e : exn).
Inductive parg := PStr (e : evald) | PObj.
(** What can stand in a wildcard: a header class of the library, a class that is none, a string, any other object. *)
Inductive witem := WCls (c : hcls) | WAlien | WStr (s : str) | WItem.
Inductive warg := WSeq (l : list witem) | WObj.
(** A keyword argument that is iterated over. *)
Inductive many (A : Type) := Many (l : list A) | NotIter.
Arguments Many {A} l.
Arguments NotIter {A}.
(** A positional argument: a string, a packet, a number (or None, or any object that can be a key and not be iterated over). *)
Inductive arg := GStr (s : str) | GPkt (p : packet) | GNum (z : Z).
Record kwargs := mkKw { k_predicates : option (many parg); k_predicate : option parg; k_wildcards : option (many warg); k_wildcard : option warg; k_exact : option bool }.

(** ** The matcher *)
(** _check_wildcards (111-123); [known c a]: hasattr(c, a).  issubclass raises TypeError when its argument is no class. *)
Definition check_wildcard (known : hcls -> str -> bool) (w : warg) : res wildcard :=
  match w with
  | WSeq [a; b] =>
      match a with
      | WCls c => match b with WStr s => if known c s then Ok (c, s) else Err EValue | _ => Err EValue end
      | WAlien => Err EValue
      | _ => Err EType
      end
  | _ => Err EValue
  end.
Fixpoint check_wildcards (known : hcls -> str -> bool) (l : list warg) : res (list wildcard) :=
  match l with [] => Ok [] | w :: t => x <- check_wildcard known w;; r <- check_wildcards known t;; Ok (x :: r) end.
(** _check_predicates (95-109): the message for something that is no function names a variable that does not exist. *)
Definition check_predicate (p : parg) : res predicate :=
  match p with
  | PObj => Err EExc
  | PStr (EFun f) => Ok f
  | PStr ENotFun => Err EName
  | PStr (EFails e) => Err e
  end.
Fixpoint check_predicates (l : list parg) : res (list predicate) :=
  match l with [] => Ok [] | p :: t => x <- check_predicate p;; r <- check_predicates t;; Ok (x :: r) end.
(** __init__ (46-88).  The reference can be a string: its characters have no attributes that are not callable. *)
Inductive mref := RPkt (m : matcher) | RText (s : str).
Definition make_matcher (known : hcls -> str -> bool) (a : arg) (exact : bool) (ws : list warg) (ps : list parg) : res mref :=
  wc <- check_wildcards known ws;;
  preds <- check_predicates ps;;
  match a with
  | GPkt p => m <- matcher_new p exact wc preds;; Ok (RPkt m)
  | GStr s => Ok (RText s)
  | GNum _ => Err EType
  end.

(** ** The event *)
Inductive key := KS (s : str) | KN (z : Z).
Definition key_eqb (a b : key) : bool :=
  match a, b with KS x, KS y => str_eqb x y | KN x, KN y => x =? y | _, _ => false end.
Definition out_event := list (key * mref).
Fixpoint kget (k : key) (d : out_event) : option mref :=
  match d with [] => None | (k', m) :: t => if key_eqb k k' then Some m else kget k t end.
Fixpoint kset (k : key) (m : mref) (d : out_event) : out_event :=
  match d with [] => [(k, m)] | (k', m') :: t => if key_eqb k k' then (k', m) :: t else (k', m') :: kset k m t end.
(** A packet cannot be a key: packet.py:229-238 defines __eq__ and no __hash__. *)
Definition key_of_arg (a : arg) : res key := match a with GStr s => Ok (KS s) | GNum z => Ok (KN z) | GPkt _ => Err EType end.
(** list.extend and list.append (494-508). *)
Definition collect {A} (m : option (many A)) (o : option A) : res (list A) :=
  match m with
  | Some NotIter => Err EType
  | _ => Ok (match m with Some (Many l) => l | _ => [] end ++ match o with Some x => [x] | None => [] end)
  end.
(** The loop (514-516): the matcher is made before the key is used. *)
Fixpoint make_pairs (known : hcls -> str -> bool) (args : list arg) (exact : bool) (ws : list warg) (ps : list parg) (d : out_event) : res out_event :=
  match args with
  | [] => Ok d
  | dev :: p :: t => m <- make_matcher known p exact ws ps;; k <- key_of_arg dev;; make_pairs known t exact ws ps (kset k m d)
  | _ => Err EValue
  end.
(** PacketOutputEvent.__init__ (487-516); display is kept without a check, other keyword arguments are reported and
    ignored (84-85). *)
Definition make_out (known : hcls -> str -> bool) (args : list arg) (kw : kwargs) : res out_event :=
  ps <- collect (k_predicates kw) (k_predicate kw);;
  ws <- collect (k_wildcards kw) (k_wildcard kw);;
  match args with
  | [] => Err EValue
  | _ =>
      if Nat.odd (List.length args) then Err EValue
      else make_pairs known args (match k_exact kw with Some b => b | None => true end) ws ps []
  end.

(** ** copyfromlastout (417-433) *)
(** A list or tuple, a string, any other object. *)
Inductive citem := CSeq (l : list citem) | CStr (s : str) | CObj.
Definition is_str (c : citem) : bool := match c with CStr _ => true | _ => false end.
Definition is_seq (c : citem) : bool := match c with CSeq _ => true | _ => false end.
Definition make_copy (c : option citem) : res (option citem) :=
  match c with
  | None => Ok None
  | Some (CSeq l) =>
      if Nat.eqb (List.length l) 5 && match l with x :: _ => is_str x | [] => false end then Ok (Some (CSeq [CSeq l]))
      else match l with [] => Err EIndex | _ => Ok (Some (CSeq l)) end
  | Some _ => Err EValue
  end.
(** What generate_packet unpacks (469-471): five parts from each rule; a string can be unpacked too. *)
Definition unpack5 (c : citem) : res (list citem) :=
  match c with
  | CSeq l => if Nat.eqb (List.length l) 5 then Ok l else Err EValue
  | CStr s => if Nat.eqb (String.length s) 5 then Ok (map (fun ch => CStr (String ch EmptyString)) (list_ascii_of_string s)) else Err EValue
  | CObj => Err EType
  end.
Fixpoint unpack_all (l : list citem) : res (list (list citem)) :=
  match l with [] => Ok [] | c :: t => x <- unpack5 c;; r <- unpack_all t;; Ok (x :: r) end.
Definition rules_of (c : option citem) : res (list (list citem)) :=
  match c with Some (CSeq l) => unpack_all l | _ => Ok [] end.
