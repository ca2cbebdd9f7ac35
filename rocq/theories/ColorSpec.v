(** What coloured output should be (C115). *)
From Verif Require Import Base Dict ColorModel.
#[local] Open Scope list_scope.

(** What a reader sees: texts with the colour they have, None for the default colour.  Line ends are not looked at. *)
Fixpoint seen (cur : option color) (l : list piece) : list (str * option color) :=
  match l with
  | [] => []
  | Txt s :: r => if str_eqb s newline then seen cur r else (s, cur) :: seen cur r
  | Fore c :: r => seen (Some c) r
  | Reset :: r => seen None r
  end.
(** What should be seen: text in a region has the colour of the innermost region around it, other text the default. *)
Fixpoint wanted (cur : option color) (p : prog) : list (str * option color) * bool :=
  match p with
  | Say s => ([(s, cur)], false)
  | In c p => wanted (Some c) p
  | Raise => ([], true)
  | Try p h => let '(o, x) := wanted cur p in if x then let '(o2, y) := wanted cur h in (o ++ o2, y) else (o, false)
  | Then p q => let '(o, x) := wanted cur p in if x then (o, true) else let '(o2, y) := wanted cur q in (o ++ o2, y)
  | Nothing => ([], false)
  end.
(** Texts that are no line end by themselves. *)
Fixpoint visible (p : prog) : Prop :=
  match p with
  | Say s => str_eqb s newline = false
  | In _ p => visible p
  | Try p h => visible p /\ visible h
  | Then p q => visible p /\ visible q
  | _ => True
  end.
(** No region within a region; no exception leaves a region. *)
Fixpoint regionless (p : prog) : Prop :=
  match p with In _ _ => False | Try p h => regionless p /\ regionless h | Then p q => regionless p /\ regionless q | _ => True end.
Fixpoint tidy (p : prog) : Prop :=
  match p with
  | In _ p => regionless p /\ snd (wanted None p) = false
  | Try p h => tidy p /\ tidy h
  | Then p q => tidy p /\ tidy q
  | _ => True
  end.
(** The words, without their colours; all of it in the default colour. *)
Definition words (l : list (str * option color)) : list str := map fst l.
Definition plain (l : list (str * option color)) : list (str * option color) := map (fun x => (fst x, None)) l.
