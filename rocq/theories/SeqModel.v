(** Model of run_tests for several scenarios (llnettest.py:141-253) and of the alarm between them (testing.py:726-790): the
    process has one alarm, armed and cancelled only by testpass; nothing cancels it when a scenario is over (the lines that
    would are comments, llnettest.py:186-188).  Unlike in TestModel.v the alarm strikes at most once for each time it is
    armed.  It strikes between calls, never inside one.  Left out: the text printed, Windows, a debugger that sets the flag
    read at testing.py:731. *)
From Verif Require Import Base TestModel.

(** No alarm; one armed by the scenario now running; one armed by an earlier scenario (whose _timer is still set). *)
Inductive alarm := NoAlarm | OwnAlarm | OldAlarm.
Definition armed (a : alarm) : bool := match a with NoAlarm => false | _ => true end.
(** A call passes an event when an event is taken from the pending list: then testpass has cancelled whatever was armed
    (763) and armed it again if an output comes next (772-788); signal.alarm(0) arms nothing. *)
Definition passes (t t1 : tnet) : bool := negb (Nat.eqb (List.length (sc_pend (t_scen t1))) (List.length (sc_pend (t_scen t)))).
Definition alarm_after (al : alarm) (t t1 : tnet) : alarm :=
  if passes t t1 then if sc_timer (t_scen t1) && negb (sc_timeout (t_scen t1) =? 0) then OwnAlarm else NoAlarm else al.
(** A program running with an alarm that may strike before any of its calls and before it ends. *)
Inductive runs_with : alarm -> tnet -> prog -> alarm -> tnet -> list (call * answer) -> ending -> Prop :=
| rw_return al t : runs_with al t Return al t [] EndReturn
| rw_raise al t e : runs_with al t (Raise e) al t [] (EndRaise e)
| rw_strike_return al t : armed al = true -> runs_with al t Return NoAlarm t [] (EndRaise ETestFail)
| rw_strike_raise al t e : armed al = true -> runs_with al t (Raise e) NoAlarm t [] (EndRaise ETestFail)
| rw_call al t c k t1 a al2 t2 tr e : do_call t c = (t1, a) -> runs_with (alarm_after al t t1) t1 (k a) al2 t2 tr e ->
    runs_with al t (Call c k) al2 t2 ((c, a) :: tr) e
| rw_strike al t c k al2 t2 tr e : armed al = true -> runs_with NoAlarm t (k (AnsExn ETestFail)) al2 t2 tr e ->
    runs_with al t (Call c k) al2 t2 tr e.
(** What an alarm still armed is for the next scenario. *)
Definition kept (a : alarm) : alarm := match a with NoAlarm => NoAlarm | _ => OldAlarm end.
(** What comes out of one scenario: the scenario and the ending, or the run stops with an exception outside the user's code. *)
Inductive result := Tested (s : scen) (e : ending) | Stopped.
Definition passed (r : result) : bool := match r with Tested s e => reports_pass s e | Stopped => false end.
(** The loop over the scenarios, with the program that the user's code is in each of them.  Printing the summary can raise;
    with --nohandle a failure is raised again (223-224); and the alarm can strike outside the user's code. *)
Inductive session (nohandle : bool) : alarm -> list (scen * prog) -> list result -> Prop :=
| ss_end al : session nohandle al [] []
| ss_next al s p al' t' tr e rest out : runs_with al (tnet_new s) p al' t' tr e -> summary_prints (t_scen t') = true ->
    (nohandle = true -> reports_pass (t_scen t') e = true) -> session nohandle (kept al') rest out ->
    session nohandle al ((s, p) :: rest) (Tested (t_scen t') e :: out)
| ss_raised al s p al' t' tr e rest : runs_with al (tnet_new s) p al' t' tr e -> summary_prints (t_scen t') = true ->
    nohandle = true -> reports_pass (t_scen t') e = false -> session nohandle al ((s, p) :: rest) [Tested (t_scen t') e]
| ss_noprint al s p al' t' tr e rest : runs_with al (tnet_new s) p al' t' tr e -> summary_prints (t_scen t') = false ->
    session nohandle al ((s, p) :: rest) [Stopped]
| ss_struck_after al s p al' t' tr e rest : runs_with al (tnet_new s) p al' t' tr e -> armed al' = true ->
    session nohandle al ((s, p) :: rest) [Stopped]
| ss_struck_before al s p rest : armed al = true -> session nohandle al ((s, p) :: rest) [Stopped].
