(** What users expect of command-line arguments for their code (C53) and of the start and end of an application (C85). *)
From Verif Require Import Base EthAddrModel UserModel.

(** Text made of words separated by white space. *)
Inductive spaced : text -> list text -> Prop :=
| sp_nil : forall s, Forall (fun c => space c = true) s -> spaced s []
| sp_cons : forall lead w rest ws, Forall (fun c => space c = true) lead -> w <> [] -> Forall (fun c => space c = false) w ->
    (forall c r, rest = c :: r -> space c = true) -> spaced rest ws -> spaced (lead ++ w ++ rest) (w :: ws).
(** A word without '=', or with exactly one. *)
Definition plain (w : text) : Prop := ~ In 61 w.
Definition pair_word (w k v : text) : Prop := w = k ++ 61 :: v /\ ~ In 61 k /\ ~ In 61 v.
Definition wellformed (w : text) : Prop := plain w \/ exists k v, pair_word w k v.
(** The last word that sets [k] sets it to [v]. *)
Definition last_set (ws : list text) (k v : text) : Prop :=
  exists a w b, ws = a ++ w :: b /\ pair_word w k v /\ forall w' v', In w' b -> ~ pair_word w' k v'.
Definition positional (ws : list text) : list text := filter (fun w => negb (zmem 61 w)) ws.
(** Values of the parameters after the first, cut to the number of arguments given, then those of the starred parameter. *)
Definition values (b : bound) : list val := map snd (b_named b).

(** The command line leads to a run of the user's code: not compiling, user code given in test mode or interfaces found
    otherwise, and the firewall can be set up. *)
Definition prepared (c : cfg) : bool := f_fwok c && negb (f_compile c) && if f_tests c then f_usercode c else f_devs c.
(** The main thread gets to the barrier. *)
Definition reaches (c : cfg) : bool := negb (f_compile c) && if f_tests c then f_usercode c && f_fwok c else f_fwok c || negb (f_devs c).
(** No thread can move. *)
Definition idle (c : cfg) (s : fst_) : Prop := main_step c s = None /\ app_step s = None.
