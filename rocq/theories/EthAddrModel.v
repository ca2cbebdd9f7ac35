(** Model of switchyard/lib/address/__init__.py class EthAddr (lines 25-147).
    Text is a list of character codes; only ASCII text is modelled (CPython's int() also
    accepts non-ASCII decimal digits and white space, which is left out). *)
From Verif Require Import Base.

Definition text := list Z.

(** str.split(sep) for a one-character separator. *)
Fixpoint split (sep : Z) (s : text) : list text :=
  match s with
  | [] => [[]]
  | c :: s' => if c =? sep then [] :: split sep s'
               else match split sep s' with
                    | g :: gs => (c :: g) :: gs
                    | [] => [[c]]
                    end
  end.
(** str.count(sep) for a one-character separator. *)
Definition count (sep : Z) (s : text) : nat := length (filter (Z.eqb sep) s).
(** sep.join(groups) *)
Fixpoint join (sep : Z) (gs : list text) : text :=
  match gs with
  | [] => []
  | [g] => g
  | g :: gs' => g ++ sep :: join sep gs'
  end.

(** int(s, base=16), CPython Objects/longobject.c PyLong_FromString (used at address/__init__.py:49). *)
Definition isspace (c : Z) : bool := ((9 <=? c) && (c <=? 13)) || (c =? 32).
Fixpoint lstrip (s : text) : text :=
  match s with c :: s' => if isspace c then lstrip s' else s | [] => [] end.
Definition digit16 (c : Z) : option Z :=
  if (48 <=? c) && (c <=? 57) then Some (c - 48)
  else if (97 <=? c) && (c <=? 102) then Some (c - 87)
  else if (65 <=? c) && (c <=? 70) then Some (c - 55)
  else None.
(** Scan digits with single underscores between them; [us] is true when the previous character
    was an underscore or there is no previous digit yet. *)
Fixpoint scan16 (us : bool) (acc : Z) (s : text) : res (Z * text) :=
  match s with
  | [] => if us then Err EValue else Ok (acc, [])
  | c :: s' =>
      if c =? 95 then (if us then Err EValue else scan16 true acc s')
      else match digit16 c with
           | Some d => scan16 false (16 * acc + d) s'
           | None => if us then Err EValue else Ok (acc, s)
           end
  end.
Definition skip_prefix (s : text) : text :=
  match s with
  | z :: x :: s' =>
      if (z =? 48) && ((x =? 120) || (x =? 88))
      then match s' with u :: s'' => if u =? 95 then s'' else s' | [] => s' end
      else s
  | _ => s
  end.
Definition int16 (s : text) : res Z :=
  let s := lstrip s in
  let '(neg, s) := match s with
                   | c :: s' => if c =? 43 then (false, s')
                                else if c =? 45 then (true, s')
                                else (false, s)
                   | [] => (false, s)
                   end in
  let s := skip_prefix s in
  '(v, rest) <- scan16 true 0 s;;
  match lstrip rest with
  | [] => Ok (if neg then - v else v)
  | _ => Err EValue
  end.

Fixpoint mapr {A B} (f : A -> res B) (l : list A) : res (list B) :=
  match l with
  | [] => Ok []
  | a :: l' => b <- f a;; bs <- mapr f l';; Ok (b :: bs)
  end.
(** bytes([ints]): ValueError unless all are in range(256). *)
Definition bytes_of_ints (l : list Z) : res bytes :=
  if forallb byteb l then Ok l else Err EValue.

(** An EthAddr object is its [__value] byte string. *)
Definition ethaddr := bytes.

(** The argument of the constructor, by type. *)
Inductive etharg :=
| ABytes (b : bytes) | AEth (a : ethaddr) | ANone | AStr (s : text) | AOther.

(** EthAddr.__init__ (address/__init__.py:31-54). *)
Definition eth_init (arg : etharg) : res ethaddr :=
  value <- match arg with
           | ABytes b => Ok (firstn 6 b)
           | AEth a => Ok a
           | ANone => Ok (repeat 0 6)
           | AStr s =>
               if Nat.eqb (count 58 s) 5 then
                 l <- mapr int16 (split 58 s);; bytes_of_ints l
               else if Nat.eqb (count 45 s) 5 then
                 l <- mapr int16 (split 45 s);; bytes_of_ints l
               else Ok []
           | AOther => Ok []
           end;;
  match value with [] => Err ERuntime | _ => Ok value end.

(** toStr (address/__init__.py:126-131): '{:02x}' of every byte. *)
Definition hexdigit (d : Z) : Z := if d <? 10 then 48 + d else 87 + d.
Definition hex2 (x : Z) : text := [hexdigit (x / 16); hexdigit (x mod 16)].
Definition to_str (sep : Z) (a : ethaddr) : text := join sep (map hex2 a).

(** Python's bytes < bytes: lexicographic, a proper prefix is smaller. *)
Fixpoint bytes_ltb (a b : bytes) : bool :=
  match a, b with
  | _, [] => false
  | [], _ :: _ => true
  | x :: a', y :: b' => (x <? y) || ((x =? y) && bytes_ltb a' b')
  end.

(** __eq__ and __lt__ (address/__init__.py:136-142): the other operand is coerced first. *)
Definition eth_eq (a : ethaddr) (other : etharg) : res bool :=
  o <- eth_init other;; Ok (bytes_eqb a o).
Definition eth_lt (a : ethaddr) (other : etharg) : res bool :=
  o <- eth_init other;; Ok (bytes_ltb a o).

(** isBridgeFiltered, isLocal, isMulticast (address/__init__.py:56-103). *)
Definition getb (a : bytes) (i : nat) : res Z :=
  match nth_error a i with Some x => Ok x | None => Err EIndex end.
(** [and]-chain: evaluated left to right, stops at the first false (lines 64-69). *)
Definition andr (c : res bool) (k : res bool) : res bool :=
  x <- c;; if (x : bool) then k else Ok false.
Definition is_bridge_filtered (a : ethaddr) : res bool :=
  andr (x <- getb a 0;; Ok (x =? 0x01))
  (andr (x <- getb a 1;; Ok (x =? 0x80))
  (andr (x <- getb a 2;; Ok (x =? 0xC2))
  (andr (x <- getb a 3;; Ok (x =? 0x00))
  (andr (x <- getb a 4;; Ok (x =? 0x00))
        (x <- getb a 5;; Ok (x <=? 0x0F)))))).
Definition is_local (a : ethaddr) : res bool :=
  x <- getb a 0;; Ok (negb (Z.land x 2 =? 0)).
Definition is_multicast (a : ethaddr) : res bool :=
  x <- getb a 0;; Ok (negb (Z.land x 1 =? 0)).
