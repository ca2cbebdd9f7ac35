(** The macOS host firewall as a whole and the Firewall object (switchyard/hostfirewall.py).
    Simplified: pfctl's commands are structural instead of shell text; what pf does with them is stated at [pf]. *)
From Verif Require Import Base Dict EthAddrModel FwModel.

(** pf as far as the code touches it: the rules of the anchor "switchyard", the references that keep pf enabled, and the number the
    next reference gets.  pfctl -E takes a reference and prints its token, -X gives it back; -a switchyard -f - replaces the rules of the
    anchor by the ones read, or, if one of them is wrong, keeps the old ones; -a switchyard -Fr removes them. *)
Record pf := mkPf { pf_anchor : list pfrule; pf_refs : list Z; pf_next : Z }.
(** A port needs tcp or udp and a number up to 65535. *)
Definition pf_valid (r : pfrule) : bool :=
  match r with
  | PfAll _ | PfProto _ _ None => true
  | PfProto _ p (Some s) => (text_eqb p t_tcp || text_eqb p t_udp) && (value10 s <=? 65535)
  end.
Definition pf_load (rs : list pfrule) (p : pf) : pf := if forallb pf_valid rs then mkPf rs (pf_refs p) (pf_next p) else p.
Definition pf_flush (p : pf) : pf := mkPf [] (pf_refs p) (pf_next p).
Definition pf_enable (p : pf) : Z * pf := (pf_next p, mkPf (pf_anchor p) (pf_next p :: pf_refs p) (pf_next p + 1)).
Definition pf_release (t : Z) (p : pf) : pf := mkPf (pf_anchor p) (filter (fun x => negb (x =? t)) (pf_refs p)) (pf_next p).

Record macfw := mkMac { m_intfs : list str; m_rules : list pfrule; m_token : Z }.
(** MacOSFirewall.__init__ (213-226); without root pfctl prints no token. *)
Definition mac_init (intfs : list str) (rules : list text) (root : bool) (p : pf) : res (macfw * pf) :=
  rs <- mac_rules intfs rules;;
  if root then let '(t, p') := pf_enable p in Ok (mkMac intfs rs t, p') else Err ERuntime.
(** block (252-259). *)
Definition mac_block (f : macfw) (p : pf) : pf := pf_load (m_rules f) p.
(** add_rule (246-250): the commands of the new rule alone are given to pfctl. *)
Definition mac_add (f : macfw) (rule : text) (p : pf) : (macfw * pf) * option exn :=
  match mac_rule (m_intfs f) rule with
  | Ok cs => ((mkMac (m_intfs f) (m_rules f ++ cs) (m_token f), pf_load cs p), None)
  | Err e => ((f, p), Some e)
  end.
(** unblock (261-267). *)
Definition mac_unblock (f : macfw) (p : pf) : pf := pf_release (m_token f) (pf_flush p).

(** What the program does inside "with Firewall(...)" (syinit.py:133-137): it adds rules (socketemu.py:140-175 does for every port bound),
    the exception of a refused rule being caught or not, or raises something else. *)
Inductive fstep := FAdd (rule : text) | FTryAdd (rule : text) | FRaise (e : exn).
Fixpoint mac_body (steps : list fstep) (f : macfw) (p : pf) : macfw * pf * option exn :=
  match steps with
  | [] => (f, p, None)
  | FAdd r :: t => let '((f1, p1), e) := mac_add f r p in match e with Some e => (f1, p1, Some e) | None => mac_body t f1 p1 end
  | FTryAdd r :: t => let '((f1, p1), _) := mac_add f r p in mac_body t f1 p1
  | FRaise e :: _ => (f, p, Some e)
  end.
(** Making the object and entering the with statement (52-65): the rules are in force from then on. *)
Definition mac_enter (intfs : list str) (rules : list text) (root : bool) (p : pf) : res (macfw * pf) :=
  ' (f, p1) <- mac_init intfs rules root p;; Ok (f, mac_block f p1).
(** The with statement (61-69): __exit__ runs however the body ends, and returns None, so an exception goes on. *)
Definition mac_with (intfs : list str) (rules : list text) (root : bool) (steps : list fstep) (p : pf) : pf * option exn :=
  match mac_enter intfs rules root p with
  | Err e => (p, Some e)
  | Ok (f, p1) => let '(f2, p2, e) := mac_body steps f p1 in (mac_unblock f2 p2, e)
  end.

(** ** The Firewall class (50-73): [FwNone] before the first constructor call, [FwBroken] when the constructor registered the object and
    then raised, [FwUp] with its delegate.  What the delegate's constructor does is given. *)
Inductive fwobj (D : Type) := FwNone | FwBroken | FwUp (d : D).
Arguments FwNone {D}. Arguments FwBroken {D}. Arguments FwUp {D} _.
Definition fw_construct {D : Type} (platform : str) (delegate : res D) (o : fwobj D) : fwobj D * option exn :=
  match o with
  | FwNone => if existsb (str_eqb platform) ["darwin"; "linux"; "test"]%string then match delegate with Ok d => (FwUp d, None) | Err e => (FwBroken, Some e) end
              else (FwBroken, Some EExc)
  | _ => (o, Some EExc)
  end.
(** Firewall.add_rule (72-73): None and an object without delegate have no such attribute. *)
Definition fw_add {D : Type} (add : D -> D * option exn) (o : fwobj D) : fwobj D * option exn :=
  match o with FwUp d => let '(d', e) := add d in (FwUp d', e) | _ => (o, Some EAttr) end.
(** A history of constructor calls and added rules; each with its outcome. *)
Inductive fwcall (D : Type) := CNew (platform : str) (delegate : res D) | CAddR (add : D -> D * option exn).
Arguments CNew {D} _ _. Arguments CAddR {D} _.
Definition fw_call {D : Type} (c : fwcall D) (o : fwobj D) : fwobj D * option exn :=
  match c with CNew pl d => fw_construct pl d o | CAddR a => fw_add a o end.
Fixpoint fw_calls {D : Type} (cs : list (fwcall D)) (o : fwobj D) : fwobj D * list (option exn) :=
  match cs with [] => (o, []) | c :: t => let '(o1, e) := fw_call c o in let '(o2, es) := fw_calls t o1 in (o2, e :: es) end.
