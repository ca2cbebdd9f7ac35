(** Looking over a scenario before it is used, and comparing scenarios: TestScenario.scenario_sanity_check and the
    comparisons of lib/testing.py. *)
From Verif Require Import Base Dict PacketModel NetModel TestModel.
#[local] Open Scope string_scope.
#[local] Open Scope Z_scope.
#[local] Open Scope list_scope.

(** ** scenario_sanity_check (testing.py:880-923) *)
(** A warning that has the event in its text; then nowarnings is False. *)
Definition warn (e : event) : res bool := if ev_shows e then Ok false else Err EAttr.
Definition both (a : bool) (r : res bool) : res bool := b <- r;; Ok (a && b).
(** The devices of an output event (901-917).  Packets are Packet objects, expectations are matchers and their predicates
    are functions already (MakeModel.v has what is checked when they are made), so that no other warning comes up. *)
Fixpoint check_devs (s : scen) (e : event) (ds : list str) : res bool :=
  match ds with
  | [] => Ok true
  | d :: t => a <- (if din d (sc_ifs s) then Ok true else warn e);; both a (check_devs s e t)
  end.
Definition check_event (s : scen) (e : event) : res bool :=
  match e with
  | EvIn dev _ => if din dev (sc_ifs s) then Ok true else warn e
  | EvOut o => a <- (match oe_wait o with [] => warn e | _ => Ok true end);; both a (check_devs s e (dkeys (oe_wait o)))
  | EvTimeout _ => Ok true
  end.
Fixpoint check_events (s : scen) (es : list sev) : res bool :=
  match es with [] => Ok true | e :: t => a <- check_event s (sv_ev e);; both a (check_events s t) end.
Definition sanity (s : scen) : res bool := check_events s (sc_pend s).

(** ** Comparisons (387-389, 444-447, 588-590, 866-878) *)
Section Eq.
(** str() of a packet; of the bytes an output event holds once it has been saved (574-579). *)
Variable show : packet -> str.
Variable show_raw : bytes -> str.
Definition one_out (x : str * str) : str := append (fst x) (append " out " (snd x)).
(** PacketOutputEvent.__str__ (565-572), without the display argument. *)
Definition out_text (o : oev) : str :=
  append "send_packet(s) "
    (String.concat " and "
      (map one_out (map (fun x => (show (m_ref (snd x)), fst x)) (oe_wait o) ++
                    map (fun x => (match snd x with SeenPkt p => show p | SeenRaw b => show_raw b end, fst x)) (oe_got o)))).
Definition ev_same (a b : event) : bool :=
  match a, b with
  | EvTimeout n, EvTimeout m => n =? m
  | EvIn d p, EvIn d' p' => str_eqb d d' && str_eqb (show p) (show p')
  | EvOut o, EvOut o' => str_eqb (out_text o) (out_text o')
  | _, _ => false
  end.
(** The named tuples (593) are compared part by part. *)
Definition sev_same (a b : sev) : bool := ev_same (sv_ev a) (sv_ev b) && str_eqb (sv_desc a) (sv_desc b) && (sv_time a =? sv_time b).
Fixpoint sevs_same (l m : list sev) : bool :=
  match l, m with [], [] => true | x :: l', y :: m' => sev_same x y && sevs_same l' m' | _, _ => false end.
Definition scen_same (s t : scen) : bool :=
  (sc_next s =? sc_next t) && sevs_same (sc_pend s ++ sc_done s) (sc_pend t ++ sc_done t).
End Eq.
