(** Coloured output: switchyard/textcolor.py.  A program prints, and opens coloured regions with the context managers
    (61-95).  The output is a sequence of pieces; what colorama does with each piece is its documented autoreset: a reset
    sequence after every piece that is written.  Before TextColor.setup nothing stands between print and the terminal. *)
From Verif Require Import Base Dict.
#[local] Open Scope list_scope.

Inductive color := Red | Green | Blue | Cyan | Magenta | Yellow.
(** What reaches the terminal: text, a colour sequence, the three reset sequences of line 29 or colorama's own. *)
Inductive piece := Txt (s : str) | Fore (c : color) | Reset.
(** A program: printing a text, a region, an exception, a handler for it, one thing after the other. *)
Inductive prog := Say (s : str) | In (c : color) (p : prog) | Raise | Try (p h : prog) | Then (p q : prog) | Nothing.

(** _NoColor and whether the output is wrapped with autoreset (15-25). *)
Record tty := mkTty { t_nocolor : bool; t_wrapped : bool }.
Definition setup (nocolor : bool) : tty := mkTty nocolor true.
Definition direct : tty := mkTty false false.
(** One piece written. *)
Definition put (t : tty) (x : piece) : list piece := x :: (if t_wrapped t then [Reset] else []).
(** print(s); print adds the end of the line as a second piece. *)
Definition newline : str := String (Ascii.ascii_of_nat 10) EmptyString.
Definition say (t : tty) (s : str) : list piece := put t (Txt s) ++ put t (Txt newline).
(** reset (27-29), green ... yellow (31-59). *)
Definition reset (t : tty) : list piece := put t Reset ++ put t (Txt newline).
Definition start (t : tty) (c : color) : list piece := if t_nocolor t then [] else put t (Fore c).
(** The context managers (61-95): without try, the part after the yield is not run when the body raises.
    True: the program ended with an exception. *)
Fixpoint run (t : tty) (p : prog) : list piece * bool :=
  match p with
  | Say s => (say t s, false)
  | In c p => let '(o, x) := run t p in (start t c ++ o ++ (if x then [] else reset t), x)
  | Raise => ([], true)
  | Try p h => let '(o, x) := run t p in if x then let '(o2, y) := run t h in (o ++ o2, y) else (o, false)
  | Then p q => let '(o, x) := run t p in if x then (o, true) else let '(o2, y) := run t q in (o ++ o2, y)
  | Nothing => ([], false)
  end.
