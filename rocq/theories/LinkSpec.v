(** What the link emulator and the simulated wires are expected to do (C52, C84), in terms of what is put into a link,
    what comes out of it and when. *)
From Coq Require Import QArith String.
From Verif Require Import Base LinkModel.

Section Spec.
Context {P : Type}.
(** Everything put into the emulator's queue, in order. *)
Fixpoint puts (l : list (eact P)) : list (item P) :=
  match l with [] => [] | EPut x :: l' => x :: puts l' | _ :: l' => puts l' end.
(** Clock readings, in order. *)
Fixpoint clocks (l : list (eact P)) : list Q :=
  match l with [] => [] | EPass t :: l' => t :: clocks l' | ETake t :: l' => t :: clocks l' | _ :: l' => clocks l' end.
Fixpoint ascending (l : list Q) : Prop :=
  match l with a :: (b :: _) as l' => (a <= b)%Q /\ ascending l' | _ => True end.
(** Nothing but puts. *)
Definition quiet (l : list (eact P)) : Prop := forall a, In a l -> match a with EPut _ => True | _ => False end.
(** One time round the loop, seen from just before the queue is read: other threads may put at any point. *)
Definition round (l : list (eact P)) (b : Q) : Prop :=
  exists l1 a l2 l3, l = l1 ++ ETake a :: l2 ++ EPass b :: l3 /\ quiet l1 /\ quiet l2 /\ quiet l3.
(** [k] rounds, the last pass at clock [b]. *)
Inductive rounds : nat -> list (eact P) -> Q -> Prop :=
| R1 : forall l b, round l b -> rounds 1 l b
| RS : forall n l l' b b', rounds n l b -> round l' b' -> rounds (S n) (l ++ l') b'.

(** The comparison of any two different entries succeeds: never two equal due times and device names. *)
Definition no_ties (l : list (item P)) : Prop :=
  forall i j x y, nth_error l i = Some x -> nth_error l j = Some y -> i <> j -> (it_due x == it_due y)%Q -> it_dev x <> it_dev y.
(** No due time falls between the two readings of the clock in one round of the loop. *)
Definition clock_gap_free (l : list (eact P)) : Prop :=
  forall l1 a l2 b l3 x, l = l1 ++ EPass a :: l2 ++ ETake b :: l3 -> (forall t, ~ In (ETake t) l2) -> In x (puts l) -> ~ (a < it_due x /\ it_due x < b)%Q.
End Spec.

(** ** Simulated wires (C84) *)
Section Wires.
Context {P : Type} (plen : P -> res Z).
(** The two ends of every link. *)
Definition ends (ls : list link) : list (nat * string) := flat_map (fun l => [(ln_u l, ln_ud l); (ln_v l, ln_vd l)]) ls.
Definition nodes_below (n : nat) (ls : list link) : Prop := forall e, In e (ends ls) -> (fst e < n)%nat.
Definition same_end (a b : nat * string) : bool := Nat.eqb (fst a) (fst b) && String.eqb (snd a) (snd b).
(** The far end of the link plugged into an end, with capacity and delay. *)
Fixpoint far (ls : list link) (e : nat * string) : option (nat * string * Z * Q) :=
  match ls with
  | [] => None
  | l :: r =>
      if same_end e (ln_u l, ln_ud l) then Some (ln_v l, ln_vd l, ln_cap l, ln_delay l)
      else if same_end e (ln_v l, ln_vd l) then Some (ln_u l, ln_ud l, ln_cap l, ln_delay l)
      else far r e
  end.
(** What must come in at node [v], sooner or later: (device, packet), in the order of the calls. *)
Fixpoint bound_for (ls : list link) (v : nat) (l : list (sact P)) : list (string * P) :=
  match l with
  | [] => []
  | SSend u dev _ p :: r =>
      match far ls (u, dev), plen p with
      | Some (w, wd, c, _), Ok _ => if Nat.eqb w v && negb (c =? 0) then (wd, p) :: bound_for ls v r else bound_for ls v r
      | _, _ => bound_for ls v r
      end
  | SHost u p :: r => if Nat.eqb u v then ("host"%string, p) :: bound_for ls v r else bound_for ls v r
  | _ :: r => bound_for ls v r
  end.
(** What recv_packet handed to the code on node [v]. *)
Fixpoint received (v : nat) (l : list (sact P * sres P)) : list (string * P) :=
  match l with
  | [] => []
  | (SRecv u, SGot dev p) :: r => if Nat.eqb u v then (dev, p) :: received v r else received v r
  | _ :: r => received v r
  end.
(** Why a packet may come in at (v, dev) after the actions [l]: it was handed to the node as host packet, or it was sent
    into the other end of the link, and the link emulator there has seen a clock at which it was due. *)
Definition justified (ls : list link) (v : nat) (dev : string) (p : P) (l : list (sact P)) : Prop :=
  (dev = "host"%string /\ In (SHost v p) l) \/
  exists u ud t c delay k b, In (SSend u ud t p) l /\ far ls (u, ud) = Some (v, dev, c, delay) /\ plen p = Ok k /\
    In (SEm u (EPass b)) l /\ (t + inject_Z k / inject_Z c + delay <= b)%Q.
End Wires.
