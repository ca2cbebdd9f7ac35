(** What users expect of capacities and delays written as text (C86). *)
From Coq Require Import QArith Qabs Qpower.
From Verif Require Import Base.
Local Open Scope Q_scope.

(** Numbers a Python float can hold (but for the limits of the exponent), and the one nearest to a number. *)
Definition double (x : Q) : Prop := exists m e : Z, (Z.abs m <= 2 ^ 53)%Z /\ x == inject_Z m * (2 # 1) ^ e.
Definition nearest (x y : Q) : Prop := double y /\ forall z, double z -> Qabs (x - y) <= Qabs (x - z).

(** Decimal numerals: digits, perhaps with a point. *)
Definition digit (c : Z) : Prop := (48 <= c <= 57)%Z.
Definition digits_value (s : list Z) : Z := fold_left (fun a c => (10 * a + (c - 48))%Z) s 0%Z.
Inductive numeral : list Z -> Q -> Prop :=
| nu_int : forall a, a <> [] -> Forall digit a -> numeral a (inject_Z (digits_value a))
| nu_frac : forall a b, a ++ b <> [] -> Forall digit a -> Forall digit b ->
    numeral (a ++ 46%Z :: b) (inject_Z (digits_value (a ++ b)) / (10 # 1) ^ (Z.of_nat (length b))).
Definition blank (c : Z) : Prop := c = 32%Z \/ c = 9%Z.
(** Units of capacity: the first letter gives the size, a second letter B means bytes. *)
Inductive cap_unit : list Z -> Z -> Prop :=
| cu_none : cap_unit [] 1
| cu_one : forall c k, In (c, k) [(98, 1); (66, 1); (107, 10 ^ 3); (75, 10 ^ 3); (109, 10 ^ 6); (77, 10 ^ 6); (103, 10 ^ 9); (71, 10 ^ 9); (116, 10 ^ 12); (84, 10 ^ 12)]%Z ->
    cap_unit [c] k
| cu_more : forall c k d r, cap_unit [c] k -> Forall (fun x => x <> 10%Z) (d :: r) -> cap_unit (c :: d :: r) (if (d =? 66)%Z then 8 * k else k)%Z.
(** Units of delay: how many make a second.  Letters may follow micros, millis and sec. *)
Definition letter (c : Z) : Prop := (97 <= c <= 122)%Z.
Definition delay_unit (u : list Z) (k : Z) : Prop :=
  (u = [] /\ k = 1%Z) \/
  (k = (10 ^ 6)%Z /\ (u = [117; 115]%Z \/ u = [117; 115; 101; 99]%Z \/ exists r, u = [109; 105; 99; 114; 111; 115]%Z ++ r /\ Forall letter r)) \/
  (k = (10 ^ 3)%Z /\ (u = [109; 115]%Z \/ u = [109; 115; 101; 99]%Z \/ exists r, u = [109; 105; 108; 108; 105; 115]%Z ++ r /\ Forall letter r)) \/
  (k = 1%Z /\ (u = [115]%Z \/ exists r, u = [115; 101; 99]%Z ++ r /\ Forall letter r)).
(** What is shown for a whole number of microseconds: the number, the unit and its size, and an s for the plural. *)
Definition shown (n : Z) (t : list Z) : Prop :=
  exists num k unit, t = num ++ 32%Z :: unit ++ (if (1 <? n / k)%Z then [115%Z] else []) /\ numeral num (inject_Z (n / k)) /\
  ((k = 1 /\ unit = [181; 115; 101; 99] /\ n mod 1000 <> 0) \/
   (k = 1000 /\ unit = [109; 115; 101; 99] /\ n mod 1000 = 0 /\ n mod 1000000 <> 0) \/
   (k = 1000000 /\ unit = [115; 101; 99] /\ n mod 1000000 = 0))%Z.
(** A number below 1000 of one of the units of capacity. *)
Definition whole (b : Z) : Prop := exists d, In d [1; 10 ^ 3; 10 ^ 6; 10 ^ 9; 10 ^ 12]%Z /\ (0 <= b < 1000 * d)%Z /\ (b mod d = 0)%Z.

(** What ends a unit: a character that is no letter, digit, underscore or micro sign, no white space and no point
    (characters up to 255). *)
Definition ends_unit (c : Z) : Prop :=
  ~ (digit c \/ letter c \/ (65 <= c <= 90)%Z \/ c = 95%Z \/ c = 181%Z) /\ ~ (c = 32 \/ 9 <= c <= 13 \/ 28 <= c <= 31 \/ c = 133 \/ c = 160)%Z /\ c <> 46%Z.
