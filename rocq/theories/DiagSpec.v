(** What the report of a failed output has to say (C109). *)
From Verif Require Import PacketModel NetModel TestModel DiagModel.
From Coq Require Ascii. Import Ascii (ascii, nat_of_ascii, ascii_of_nat).
#[local] Open Scope string_scope.
#[local] Open Scope list_scope.

(** An attribute that is looked at: one of the class, respectively one of the few compared inexactly, and no wildcard. *)
Definition compared (m : matcher) (c : hcls) (a : str) : Prop :=
  In a (if m_exact m then attr_names c else inexact_names c) /\ ~ In (c, a) (m_wc m).
(** [ds] lists the attributes in which the sent header [y] is not as the expected one [x]: each of them, with both values,
    and no other. *)
Definition wrong_in (m : matcher) (x y : hdr) (ds : list wrong) : Prop :=
  forall w, In w ds <-> compared m (class_of x) (g_attr w) /\ getattr x (g_attr w) = Ok (g_should w) /\
                        getattr y (g_attr w) = Ok (g_is w) /\ aval_ne (g_should w) (g_is w) = Ok true.
(** Header by header; headers that are right are not mentioned. *)
Inductive listing (m : matcher) : packet -> packet -> list (hcls * list wrong) -> Prop :=
| l_end : listing m [] [] []
| l_right x y r p l : wrong_in m x y [] -> listing m r p l -> listing m (x :: r) (y :: p) l
| l_wrong x y r p l ds : wrong_in m x y ds -> ds <> [] -> listing m r p l -> listing m (x :: r) (y :: p) ((class_of x, ds) :: l).
(** A diagnosis that is true of the expected packet [r] and the sent packet [p]. *)
Definition truth (m : matcher) (r p : packet) (d : diag) : Prop :=
  match d with
  | DType i want found =>
      want <> found /\ map class_of (firstn i r) = map class_of (firstn i p) /\
      nth_error (map class_of r) i = Some want /\ nth_error (map class_of p) i = Some found
  | DExtra l => l <> [] /\ map class_of p = map class_of r ++ l
  | DMissing l => l <> [] /\ map class_of r = map class_of p ++ l
  | DAttrs l => l <> [] /\ map class_of r = map class_of p /\ listing m r p l
  end.
(** A report that is true: contents and predicates. *)
Definition honest (m : matcher) (r p : packet) (x : reason) : Prop :=
  e_exact x = m_exact m /\ (e_wild x = true <-> m_wc m <> []) /\
  Forall2 (fun f b => f p = Ok b) (m_preds m) (e_preds x) /\
  match e_body x with
  | BMatched s => e_contents x = true /\ In false (e_preds x) /\ map fst s = p /\ map class_of r = map class_of p /\ listing m r p []
  | BDiag d _ => e_contents x = false /\ truth m r p d
  end.
(** Values that can be compared without further ado. *)
Definition plain (v : aval) : Prop := match v with AOpts _ | AData _ => False | _ => True end.

(** Port names without capital letters. *)
Fixpoint no_capitals (s : str) : Prop :=
  match s with EmptyString => True | String c t => (nat_of_ascii c < 65 \/ 90 < nat_of_ascii c)%nat /\ no_capitals t end.
(** The sentence for the ports that have seen their packet and those that have not. *)
Definition names (l : list str) : str := (match l with [_] => "" | _ => "s" end ++ " " ++ String.concat "," l)%string.
Definition sentence (sent wait : list str) : str :=
  match sent, wait with
  | [], [] => ""
  | [], _ => ("Your code did not send packet" ++ (match wait with [_] => "" | _ => "s" end) ++ " on port" ++ names wait)%string
  | _, [] => ("Your code has sent a packet on port" ++ names sent)%string
  | _, _ => ("Your code has sent a packet on port" ++ names sent ++ ", but not on port" ++ names wait)%string
  end.
