(** Model of switchyard/lib/topo/util.py: link capacities and delays as text.
    Python floats are rational numbers; each operation is followed by rounding to the nearest number with 53 significant
    bits, ties to even ([rnd]).  The exponent is not bounded (no overflow to infinity, no subnormal numbers).
    Text is a list of code points; only ASCII characters and the micro sign (181) are classified (re also accepts other
    Unicode digits, spaces and letters).  repr() of a float is a parameter: it is used only when a number with a
    fraction is shown. *)
From Coq Require Import QArith.
From Verif Require Import Base EthAddrModel UserModel.

(** ** Floats *)
(** a / b rounded to an integer, ties to even. *)
Definition rne (a b : Z) : Z :=
  let q := a / b in let r := a mod b in
  if 2 * r <? b then q else if b <? 2 * r then q + 1 else if Z.even q then q else q + 1.
(** p / q divided by 2^e, as numerator and denominator; m times 2^e. *)
Definition down (p q e : Z) : Z * Z := if 0 <=? e then (p, q * 2 ^ e) else (p * 2 ^ (- e), q).
Definition up (m e : Z) : Q := if 0 <=? e then inject_Z (m * 2 ^ e) else (m # Z.to_pos (2 ^ (- e))).
Definition rnd_pos (p q : positive) : Q :=
  let e0 := Z.log2 (Zpos p) - Z.log2 (Zpos q) - 52 in
  let '(a, b) := down (Zpos p) (Zpos q) e0 in
  if b * 2 ^ 52 <=? a then up (rne a b) e0
  else let '(a, b) := down (Zpos p) (Zpos q) (e0 - 1) in up (rne a b) (e0 - 1).
(** Fractions are kept in lowest terms, so that equal floats are equal terms. *)
Definition rnd (x : Q) : Q :=
  let x := Qred x in
  Qred match Qnum x with Z0 => 0%Q | Zpos p => rnd_pos p (Qden x) | Zneg p => (- rnd_pos p (Qden x))%Q end.
(** int(): the part before the point. *)
Definition trunc (x : Q) : Z := Z.quot (Qnum x) (Zpos (Qden x)).

(** ** Numbers as text *)
Definition isdig (c : Z) : bool := (48 <=? c) && (c <=? 57).
Fixpoint dec_loop (fuel : nat) (n : Z) (acc : text) : text :=
  match fuel with
  | O => acc
  | S f => let acc := (48 + n mod 10) :: acc in if n <? 10 then acc else dec_loop f (n / 10) acc
  end.
(** str() of an int. *)
Definition dec (n : Z) : text := if n <? 0 then 45 :: dec_loop (S (Z.to_nat (Z.log2 (- n)))) (- n) [] else dec_loop (S (Z.to_nat (Z.log2 n))) n [].
(** The value of digits. *)
Fixpoint numv (acc : Z) (s : text) : Z := match s with [] => acc | c :: r => numv (acc * 10 + (c - 48)) r end.
(** float() of a string of digits and points (ValueError unless there is at least one digit and at most one point). *)
Definition float_of (s : text) : res Q :=
  match EthAddrModel.split 46 s with
  | [a] => if (length a =? 0)%nat then Err EValue else Ok (rnd (inject_Z (numv 0 a)))
  | [a; b] => if (length a + length b =? 0)%nat then Err EValue else Ok (rnd (numv 0 (a ++ b) # Z.to_pos (10 ^ zlen b)))
  | _ => Err EValue
  end.

(** ** Regular expressions *)
Fixpoint span (f : Z -> bool) (s : text) : text * text :=
  match s with [] => ([], []) | c :: r => if f c then let '(a, b) := span f r in (c :: a, b) else ([], s) end.
(** ^\s*([\d\.]+)\s* : the group and what follows. *)
Definition re_number (s : text) : option (text * text) :=
  let s := snd (span space s) in
  let '(n, r) := span (fun c => isdig c || (c =? 46)) s in
  match n with [] => None | _ => Some (n, snd (span space r)) end.
(** (.* )\s*$ : [.] does not match a newline, so what follows the first newline must be white space. *)
Definition re_rest (s : text) : option text :=
  let '(u, r) := span (fun c => negb (c =? 10)) s in if forallb space r then Some u else None.
Definition word (c : Z) : bool :=
  isdig c || ((65 <=? c) && (c <=? 90)) || ((97 <=? c) && (c <=? 122)) || (c =? 95) || (c =? 181).

(** ** Capacity *)
Definition t_bits : text := [98; 105; 116; 115].
Definition t_Kb : text := [75; 98].
Definition t_Mb : text := [77; 98].
Definition t_Gb : text := [71; 98].
Definition t_Tb : text := [84; 98].
Section Repr.
Context (repr : Q -> text).
(** humanize_bandwidth (3-38). *)
Definition humanize_bw (bits : Z) : res text :=
  u <- (if bits <? 10 ^ 3 then Ok (t_bits, 1)
        else if bits <? 10 ^ 6 then Ok (t_Kb, 10 ^ 3)
        else if bits <? 10 ^ 9 then Ok (t_Mb, 10 ^ 6)
        else if bits <? 10 ^ 12 then Ok (t_Gb, 10 ^ 9)
        else if bits <? 10 ^ 15 then Ok (t_Tb, 10 ^ 12)
        else Err EExc);;
  let '(unit, divisor) := u in
  let q := rnd (bits # Z.to_pos divisor) in
  Ok ((if bits mod divisor =? 0 then dec (trunc q) else repr q) ++ 32 :: unit ++ [47; 115]).
(** str.lower() of an ASCII character. *)
Definition lower (c : Z) : Z := if (65 <=? c) && (c <=? 90) then c + 32 else c.
Definition multiplier (c : Z) : Z :=
  let c := lower c in
  if c =? 98 then 1 else if c =? 107 then 10 ^ 3 else if c =? 109 then 10 ^ 6 else if c =? 103 then 10 ^ 9
  else if c =? 116 then 10 ^ 12 else 0.
Inductive bwarg := BInt (n : Z) | BText (s : text).
(** unhumanize_bandwidth (40-71): None, or the number. *)
Definition unhumanize_bw (a : bwarg) : res (option Z) :=
  match a with
  | BInt n => Ok (Some n)
  | BText s =>
      match re_number s with
      | None => Ok None
      | Some (n, r) =>
          match re_rest r with
          | None => Ok None
          | Some units =>
              value <- float_of n;;
              let units := match units with [] => t_bits | _ => units end in
              let mult := multiplier (nth 0 units 0) in
              let bits := if nth 1 units 0 =? 66 then 8 else 1 in
              Ok (Some (trunc (rnd (rnd (value * inject_Z mult) * inject_Z bits)%Q)))
          end
      end
  end.

(** ** Delay *)
Definition t_usec : text := [32; 181; 115; 101; 99].
Definition t_msec : text := [32; 109; 115; 101; 99].
Definition t_sec : text := [32; 115; 101; 99].
Definition more_than_one (x : Q) : bool := negb (Qle_bool x 1).
(** humanize_delay (77-111), for a float: '{:1.06f}' rounds the value to millionths. *)
Definition humanize_delay (x : Q) : text :=
  let n := rne (Z.abs (Qnum x) * 10 ^ 6) (Zpos (Qden x)) in
  let seconds := if Qnum x <? 0 then - (n / 10 ^ 6) else n / 10 ^ 6 in
  let millis := n / 10 ^ 3 mod 10 ^ 3 in
  let micros := n mod 10 ^ 3 in
  let microsecs := rnd (rnd (inject_Z micros + rnd (inject_Z (10 ^ 3 * millis))) + rnd (inject_Z (10 ^ 6) * rnd (inject_Z seconds)))%Q in
  let '(value, many, units) :=
    if 0 <? micros then let v := trunc microsecs in (dec v, 1 <? v, t_usec)
    else if 0 <? millis then let v := trunc (rnd (microsecs / inject_Z (10 ^ 3))) in (dec v, 1 <? v, t_msec)
    else if 0 <? seconds then let v := trunc (rnd (microsecs / inject_Z (10 ^ 6))) in (dec v, 1 <? v, t_sec)
    else (repr x, more_than_one x, t_sec) in
  value ++ units ++ (if many then [115] else []).
End Repr.
Definition t_us : text := [117; 115].
Definition t_usec' : text := [117; 115; 101; 99].
Definition t_micros : text := [109; 105; 99; 114; 111; 115].
Definition t_ms : text := [109; 115].
Definition t_msec' : text := [109; 115; 101; 99].
Definition t_millis : text := [109; 105; 108; 108; 105; 115].
Definition t_s : text := [115].
Definition t_sec' : text := [115; 101; 99].
Fixpoint startswith (p s : text) : bool :=
  match p, s with [], _ => true | a :: p', b :: s' => (a =? b) && startswith p' s' | _, [] => false end.
Inductive delayarg := DFloat (x : Q) | DText (s : text).
(** unhumanize_delay (113-142): None, or the number. *)
Definition unhumanize_delay (a : delayarg) : res (option Q) :=
  match a with
  | DFloat x => Ok (Some x)
  | DText s =>
      match re_number s with
      | None => Ok None
      | Some (n, r) =>
          let units := fst (span word r) in
          value <- float_of n;;
          match
            (match units with
             | [] => Some 1
             | _ =>
                 if bytes_eqb units t_us || bytes_eqb units t_usec' || startswith t_micros units then Some (10 ^ 6)
                 else if bytes_eqb units t_ms || bytes_eqb units t_msec' || startswith t_millis units then Some (10 ^ 3)
                 else if bytes_eqb units t_s || startswith t_sec' units then Some 1
                 else None
             end) with
          | Some divisor => Ok (Some (rnd (value / inject_Z divisor)%Q))
          | None => Ok None
          end
      end
  end.
