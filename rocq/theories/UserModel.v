(** Model of the start of user code: syinit.py:_parse_codeargs (25-40), llnetbase.py:_start_usercode (12-46), the choice of
    the entry point in importcode.py (40-51), main_real (llnetreal.py:276-314), and the threads of
    syinit.py:start_framework and _start_app.  Text is a list of ASCII codes.  Left out: argparse, logging, module import,
    the debugger. *)
From Verif Require Import Base EthAddrModel.

(** ** _parse_codeargs *)
(** The characters at which str.split() splits. *)
Definition space (c : Z) : bool := ((9 <=? c) && (c <=? 13)) || ((28 <=? c) && (c <=? 32)).
Fixpoint split_ws (cur : text) (s : text) : list text :=
  match s with
  | [] => match cur with [] => [] | _ => [cur] end
  | c :: s' =>
      if space c then match cur with [] => split_ws [] s' | _ => cur :: split_ws [] s' end
      else split_ws (cur ++ [c]) s'
  end.
Definition tdict := list (text * text).
Fixpoint tset (d : tdict) (k v : text) : tdict :=
  match d with [] => [(k, v)] | (k', v') :: r => if bytes_eqb k' k then (k', v) :: r else (k', v') :: tset r k v end.
(** The loop over the words; k,attr = a.split('=') raises ValueError unless there are exactly two pieces. *)
Fixpoint codeargs_loop (ws : list text) (args : list text) (kw : tdict) : res (list text * tdict) :=
  match ws with
  | [] => Ok (args, kw)
  | a :: r =>
      if zmem 61 a then
        match split 61 a with
        | [k; v] => codeargs_loop r args (tset kw k v)
        | _ => Err EValue
        end
      else codeargs_loop r (args ++ [a]) kw
  end.
(** None stands for an argument that is not a string. *)
Definition parse_codeargs (s : option text) : res (list text * tdict) :=
  match s with Some s => codeargs_loop (split_ws [] s) [] [] | None => Ok ([], []) end.

(** ** Python's call (language reference, 6.3.4, for functions without positional-only parameters) *)
Inductive val := VNet | VText (t : text) | VDefault.
(** A signature: parameters with a flag for a default value, a starred parameter, keyword-only parameters, a
    double-starred parameter. *)
Record sig := mkSig { sg_pos : list (text * bool); sg_star : bool; sg_kwonly : list (text * bool); sg_kw : bool }.
Definition slots := list (text * option val).
Fixpoint fill_pos (ps : list (text * bool)) (vs : list val) : slots :=
  match ps, vs with
  | [], _ => []
  | (n, _) :: ps', [] => (n, None) :: fill_pos ps' []
  | (n, _) :: ps', v :: vs' => (n, Some v) :: fill_pos ps' vs'
  end.
Fixpoint slot_set (s : slots) (k : text) (v : val) : option (res slots) :=
  match s with
  | [] => None
  | (n, x) :: r =>
      if bytes_eqb n k then Some (match x with Some _ => Err EType | None => Ok ((n, Some v) :: r) end)
      else match slot_set r k v with Some (Ok r') => Some (Ok ((n, x) :: r')) | y => y end
  end.
Fixpoint fill_kw (kw : bool) (s : slots) (extra : list (text * val)) (ks : list (text * val)) : res (slots * list (text * val)) :=
  match ks with
  | [] => Ok (s, extra)
  | (k, v) :: r =>
      match slot_set s k v with
      | Some (Ok s') => fill_kw kw s' extra r
      | Some (Err e) => Err e
      | None => if kw then fill_kw kw s (extra ++ [(k, v)]) r else Err EType
      end
  end.
Fixpoint finish (s : slots) (ps : list (text * bool)) : res (list (text * val)) :=
  match s, ps with
  | (n, x) :: s', (_, d) :: ps' =>
      v <- (match x with Some v => Ok v | None => if (d : bool) then Ok VDefault else Err EType end);;
      r <- finish s' ps';; Ok ((n, v) :: r)
  | _, _ => Ok []
  end.
(** What the function's parameters hold: named ones, the starred one, the double-starred one. *)
Record bound := mkBound { b_named : list (text * val); b_star : list val; b_kw : list (text * val) }.
Definition call (sg : sig) (vs : list val) (ks : list (text * val)) : res bound :=
  let np := length (sg_pos sg) in
  if Nat.ltb np (length vs) && negb (sg_star sg) then Err EType
  else
    r <- fill_kw (sg_kw sg) (fill_pos (sg_pos sg) vs ++ fill_pos (sg_kwonly sg) []) [] ks;;
    n <- finish (fst r) (sg_pos sg ++ sg_kwonly sg);;
    Ok (mkBound n (skipn np vs) (snd r)).

(** ** _start_usercode (llnetbase.py:12-46): co_argcount counts the named positional parameters. *)
Definition start_usercode (sg : sig) (args : list text) (kw : tdict) : res bound :=
  let vs := map VText args in
  let ks := map (fun x => (fst x, VText (snd x))) kw in
  if Nat.ltb (length (sg_pos sg)) 1 then Err ERuntime
  else if sg_star sg && sg_kw sg then call sg (VNet :: vs) ks
  else if sg_star sg then call sg (VNet :: vs) []
  else if sg_kw sg then call sg [VNet] ks
  else call sg [VNet] [].

(** ** import_or_die (importcode.py:40-51): which name is used, given the names in the module; None when no name was asked
    for. *)
Fixpoint first_in (names existing : list text) : option text :=
  match names with
  | [] => None
  | n :: r => if existsb (bytes_eqb n) existing then Some n else first_in r existing
  end.
Definition entry (names existing : list text) : res (option text) :=
  match names with
  | [] => Ok None
  | _ => match first_in names existing with Some n => Ok (Some n) | None => Err EImport end
  end.

(** ** Threads of start_framework (syinit.py:81-137) and _start_app (140-164)
    The main thread runs a list of instructions that depends on the command line; the application thread waits at the
    barrier.  [f_fwok]: the firewall can be set up.  [f_raises]: the user's code raises. *)
Record cfg := mkCfg { f_app : bool; f_compile : bool; f_tests : bool; f_usercode : bool; f_devs : bool; f_fwok : bool; f_raises : bool; f_nohandle : bool; f_dryrun : bool }.
Inductive minstr := MApp | MFwUp | MSetup | MBarrier | MNet | MUser | MShutdown | MFwDown.
(** main_real (llnetreal.py:276-314) after import: the debugger returns. *)
Definition main_real (c : cfg) : list minstr :=
  if f_dryrun c then [MShutdown] else if f_raises c then [MUser] else [MUser; MShutdown].
(** main_test (llnettest.py:256-267). *)
Definition main_test (c : cfg) : list minstr := if f_dryrun c then [] else [MUser].
(** A failing firewall ends the main thread with an exception at [MFwUp] (nothing of the with statement is left to do). *)
Definition main_prog (c : cfg) : list minstr :=
  (if f_app c then [MApp] else []) ++
  if f_compile c || f_tests c then
    if f_compile c then []
    else if negb (f_usercode c) then []
    else if f_fwok c then [MFwUp; MSetup; MBarrier] ++ main_test c ++ [MFwDown]
    else []
  else if negb (f_devs c) then [MBarrier]
  else if f_fwok c then [MFwUp; MSetup; MBarrier; MNet] ++ main_real c ++ [MFwDown]
  else [].
Inductive appst := ANone | AStart | AWait | APassed | AEnded | ADone.
Record fst_ := mkF { fm : list minstr; fm_at : bool; fa : appst; f_fw : bool; f_setup : bool; f_net : option bool }.
  (* rest of the main thread, waiting at the barrier; application thread; firewall up; _setup_ok; _netobj and whether it was shut down *)
Definition f_new (c : cfg) : fst_ := mkF (main_prog c) false ANone false false None.
Inductive fev := EvNone | EvFwUp | EvFwDown | EvUser | EvAppRuns | EvNet | EvShutdown.
(** One step of the main thread. *)
Definition main_step (c : cfg) (s : fst_) : option (fst_ * fev) :=
  match fm s with
  | [] => None
  | i :: r =>
      match i with
      | MApp => Some (mkF r false AStart (f_fw s) (f_setup s) (f_net s), EvNone)
      | MFwUp => Some (mkF r false (fa s) true (f_setup s) (f_net s), EvFwUp)
      | MSetup => Some (mkF r false (fa s) (f_fw s) true (f_net s), EvNone)
      | MBarrier =>
          if f_app c then
            if fm_at s then match fa s with APassed | AEnded | ADone => Some (mkF r false (fa s) (f_fw s) (f_setup s) (f_net s), EvNone) | _ => None end
            else Some (mkF (fm s) true (match fa s with AWait => APassed | x => x end) (f_fw s) (f_setup s) (f_net s), EvNone)
          else Some (mkF r false (fa s) (f_fw s) (f_setup s) (f_net s), EvNone)
      | MNet => Some (mkF r false (fa s) (f_fw s) (f_setup s) (Some false), EvNet)
      | MUser => Some (mkF r false (fa s) (f_fw s) (f_setup s) (f_net s), EvUser)
      | MShutdown => Some (mkF r false (fa s) (f_fw s) (f_setup s) (match f_net s with Some _ => Some true | None => None end), EvShutdown)
      | MFwDown => Some (mkF r false (fa s) false (f_setup s) (f_net s), EvFwDown)
      end
  end.
(** One step of the application thread: arrive at the barrier; run the application when the set-up is good; shut the network
    down when there is one. *)
Definition app_step (s : fst_) : option (fst_ * fev) :=
  match fa s with
  | AStart => Some (mkF (fm s) (fm_at s) (if fm_at s then APassed else AWait) (f_fw s) (f_setup s) (f_net s), EvNone)
  | APassed => Some (mkF (fm s) (fm_at s) AEnded (f_fw s) (f_setup s) (f_net s), if f_setup s then EvAppRuns else EvNone)
  | AEnded => Some (mkF (fm s) (fm_at s) ADone (f_fw s) (f_setup s) (match f_net s with Some _ => Some true | None => None end),
                    match f_net s with Some _ => EvShutdown | None => EvNone end)
  | _ => None
  end.
(** A schedule: true is a step of the main thread.  A thread that cannot move stays. *)
Fixpoint f_run (c : cfg) (s : fst_) (l : list bool) : fst_ * list fev :=
  match l with
  | [] => (s, [])
  | b :: l' =>
      match (if b then main_step c s else app_step s) with
      | Some (s', e) => let '(s2, es) := f_run c s' l' in (s2, e :: es)
      | None => f_run c s l'
      end
  end.
