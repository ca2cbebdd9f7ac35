(** What an Ethernet address text is, independent of the model. *)
From Verif Require Import Base.

(** A six-byte address. *)
Definition addr6 (a : bytes) : Prop := wfb a /\ length a = 6%nat.

(** The 48-bit number of an address. *)
Definition num48 (a : bytes) : Z := fold_left (fun acc b => 256 * acc + b) a 0.

(** Python base-16 integer numerals: optional blanks, sign, 0x prefix, hex digits separated by
    single underscores, optional blanks. *)
Definition blank (c : Z) : Prop := 9 <= c <= 13 \/ c = 32.
Inductive hexdig : Z -> Z -> Prop :=
| hd_num d : 0 <= d <= 9 -> hexdig (48 + d) d          (* '0'..'9' *)
| hd_low d : 10 <= d <= 15 -> hexdig (87 + d) d        (* 'a'..'f' *)
| hd_up d : 10 <= d <= 15 -> hexdig (55 + d) d.        (* 'A'..'F' *)
(** [more acc s v]: s continues a numeral whose digits so far have value acc; the total is v. *)
Inductive more : Z -> list Z -> Z -> Prop :=
| more_end acc : more acc [] acc
| more_dig acc c d s v : hexdig c d -> more (16 * acc + d) s v -> more acc (c :: s) v
| more_us acc c d s v : hexdig c d -> more (16 * acc + d) s v -> more acc (95 :: c :: s) v.
(** [digits s v]: s is one or more hex digits, possibly with single inner underscores, of value v. *)
Definition digits (s : list Z) (v : Z) : Prop :=
  exists c d s', s = c :: s' /\ hexdig c d /\ more d s' v.
Definition prefix16 (p : list Z) : Prop :=
  p = [] \/ p = [48; 120] \/ p = [48; 88] \/ p = [48; 120; 95] \/ p = [48; 88; 95].
Inductive numeral : list Z -> Z -> Prop :=
| num_plain w1 p s w2 v : Forall blank w1 -> Forall blank w2 -> prefix16 p -> digits s v ->
    numeral (w1 ++ p ++ s ++ w2) v
| num_plus w1 p s w2 v : Forall blank w1 -> Forall blank w2 -> prefix16 p -> digits s v ->
    numeral (w1 ++ 43 :: p ++ s ++ w2) v
| num_minus w1 p s w2 v : Forall blank w1 -> Forall blank w2 -> prefix16 p -> digits s v ->
    numeral (w1 ++ 45 :: p ++ s ++ w2) (- v).

(** [address_text sep s a]: s is exactly six groups separated by the character sep, none of which
    contains sep; the i-th group denotes the i-th byte of a, a number in 0..255. *)
Definition address_text (sep : Z) (s : list Z) (a : bytes) : Prop :=
  exists g0 g1 g2 g3 g4 g5 b0 b1 b2 b3 b4 b5,
    s = g0 ++ sep :: g1 ++ sep :: g2 ++ sep :: g3 ++ sep :: g4 ++ sep :: g5 /\
    a = [b0; b1; b2; b3; b4; b5] /\
    (~ In sep g0 /\ ~ In sep g1 /\ ~ In sep g2 /\ ~ In sep g3 /\ ~ In sep g4 /\ ~ In sep g5) /\
    (numeral g0 b0 /\ numeral g1 b1 /\ numeral g2 b2 /\ numeral g3 b3 /\ numeral g4 b4 /\ numeral g5 b5) /\
    (0 <= b0 <= 255 /\ 0 <= b1 <= 255 /\ 0 <= b2 <= 255 /\ 0 <= b3 <= 255 /\ 0 <= b4 <= 255 /\ 0 <= b5 <= 255).

(** Two lower-case hex characters for one byte. *)
Definition lowhex (c d : Z) : Prop := (0 <= d <= 9 /\ c = 48 + d) \/ (10 <= d <= 15 /\ c = 87 + d).
Definition hexpair (g : list Z) (b : Z) : Prop :=
  exists c1 d1 c2 d2, g = [c1; c2] /\ lowhex c1 d1 /\ lowhex c2 d2 /\ b = 16 * d1 + d2.
(** Upper-case spelling of ASCII text. *)
Definition upcase (s : list Z) : list Z := map (fun c => if (97 <=? c) && (c <=? 122) then c - 32 else c) s.
