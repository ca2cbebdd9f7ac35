(** Test scenarios and the packet objects given to them (lib/testing.py, llnettest.py over the object model AliasModel.v):
    what an event keeps a reference to, what it copies, and copyfromlastout.  TestModel.v has the scenario machine itself
    (timers, printing, saving); here packets are objects. *)
From Verif Require Import Base Dict EthAddrModel PacketModel TestModel FieldModel AliasModel.
#[local] Open Scope nat_scope.

(** copyfromlastout (testing.py:427-433, 469-474): device, class and attribute to copy from, class and attribute to copy to. *)
Record rule := mkRule { r_dev : str; r_from : hcls; r_attr : fld; r_to : hcls; r_set : fld }.
(** _PacketMatcher (testing.py:78-88): the reference packet is a copy of its own. *)
Record want := mkWant { w_ref : nat; w_exact : bool; w_wc : list wildcard; w_preds : list predicate }.
(** PacketInputEvent (testing.py:417-426): the packet object itself, and the class of its first header at that time.
    PacketOutputEvent (487-517): the matchers by device, and the packet objects accepted so far (_matches). *)
Inductive kev := KIn (dev : str) (p : nat) (first : option hcls) (rules : list rule) | KOut (wants : dict want) (seen : dict nat).
Record script := mkScript { k_store : store; k_pend : list kev; k_done : list kev; k_last : option (dict nat) }.
Definition with_store (k : script) (s : store) : script := mkScript s (k_pend k) (k_done k) (k_last k).

(** ** The author of the scenario *)
(** PacketOutputEvent.__init__ (512-516), matcher by matcher; deepcopy at line 79.  Reading the attributes of the
    reference (line 82) is taken to succeed. *)
Fixpoint out_refs (s : store) (args : list (str * nat)) (ex : bool) (wc : list wildcard) (ps : list predicate) (d : dict want) : store * dict want :=
  match args with
  | [] => (s, d)
  | (dev, p) :: t => out_refs (fst (step s (OCopy p))) t ex wc ps (dset dev (mkWant (List.length (st_pkts s)) ex wc ps) d)
  end.
Inductive astep :=
| ADo (o : op)                                           (* building and changing packets *)
| AIn (dev : str) (p : nat) (rules : list rule)          (* scenario.expect(PacketInputEvent(dev, p, copyfromlastout=rules)) *)
| AOut (args : list (str * nat)) (ex : bool) (wc : list wildcard) (ps : list predicate).
(** expect (testing.py:687-695) appends the event. *)
Definition author (k : script) (a : astep) : script :=
  match a with
  | ADo o => with_store k (fst (step (k_store k) o))
  | AIn dev p rules =>
      let first := match content (k_store k) p with h :: _ => Some (class_of h) | [] => None end in
      mkScript (k_store k) (k_pend k ++ [KIn dev p first rules]) (k_done k) (k_last k)
  | AOut args ex wc ps =>
      let '(s, d) := out_refs (k_store k) args ex wc ps [] in mkScript s (k_pend k ++ [KOut d []]) (k_done k) (k_last k)
  end.
Fixpoint authors (k : script) (l : list astep) : script := match l with [] => k | a :: t => authors (author k a) t end.

(** ** The program under test *)
(** TestScenario.lastout (testing.py:633-638): None when nothing was sent yet, or not on that device in the last output
    event; an exception when the header or attribute is missing. *)
Definition lastout (s : store) (last : option (dict nat)) (r : rule) : res (option gval) :=
  match last with
  | None => Ok None
  | Some d =>
      match dget (r_dev r) d with
      | None => Ok None
      | Some p =>
          match pkt_get_header (content s p) (r_from r) with
          | None => Err EAttr
          | Some h => match get h (r_attr r) with Some v => Ok (Some v) | None => Err EAttr end
          end
      end
  end.
Definition aval_of (v : gval) : aval :=
  match v with GInt z => AInt z | GBool b => ABool b | GHw a => AHw (AEth a) | GIp b => AIp b end.
(** get_header (packet.py:154-166), the object. *)
Fixpoint first_ref (objs : list hdr) (l : list nat) (c : hcls) : option nat :=
  match l with [] => None | a :: t => if isinst (obj objs a) c then Some a else first_ref objs t c end.
(** One round of the loop in generate_packet (470-474).  Assigning None is taken to raise; the ports, sequence numbers and
    window of UDP and TCP would store it. *)
Definition copy_one (s : store) (last : option (dict nat)) (q : nat) (r : rule) : res store :=
  v <- lastout s last r;;
  match first_ref (st_objs s) (refs s q) (r_to r), v with
  | Some a, Some v => h <- set (obj (st_objs s) a) (r_set r) (aval_of v);; Ok (fst (step s (OAssign a h)))
  | None, _ => Err EAttr
  | _, None => Err EType
  end.
Fixpoint copy_all (s : store) (last : option (dict nat)) (q : nat) (rs : list rule) : store * res unit :=
  match rs with
  | [] => (s, Ok tt)
  | r :: t => match copy_one s last q r with Ok s' => copy_all s' last q t | Err e => (s, Err e) end
  end.
(** recv_packet at an input event (llnettest.py:76-79; testpass testing.py:757-760; generate_packet 463-475): the packet is
    serialised and read again; the new packet is delivered and kept by the event.  The device is taken to be configured. *)
Definition k_recv (k : script) : script * res (str * nat) :=
  match k_pend k with
  | KIn dev p first rules :: rest =>
      let k1 s ev := mkScript s rest (k_done k ++ [ev]) (k_last k) in
      match step (k_store k) (OSer p) with
      | (s1, Sent b) =>
          match step s1 (OParse b (match first with Some c => c | None => CEth end)) with
          | (s2, NewPkt q) =>
              let '(s3, r) := copy_all s2 (k_last k) q rules in
              (k1 s3 (KIn dev q first rules), match r with Ok _ => Ok (dev, q) | Err e => Err e end)
          | (s2, Raised e) => (k1 s2 (KIn dev p first rules), Err e)
          | (s2, _) => (k1 s2 (KIn dev p first rules), Err EFuel)
          end
      | (s1, Raised e) => (k1 s1 (KIn dev p first rules), Err e)
      | (s1, _) => (k1 s1 (KIn dev p first rules), Err EFuel)
      end
  | _ => (k, Err ETestFail)
  end.
(** send_packet (llnettest.py:84-105), PacketOutputEvent.match (519-541), _PacketMatcher.match (288-307), testpass
    (757-764): both packets are serialised, then compared; the accepted packet object itself is kept. *)
Definition k_send (k : script) (dev : str) (p : nat) : script * res unit :=
  match k_pend k with
  | KOut w seen :: rest =>
      match dget dev w with
      | None => (k, Err ETestFail)
      | Some m =>
          match step (k_store k) (OSer p) with
          | (s1, Sent _) =>
              match step s1 (OSer (w_ref m)) with
              | (s2, Sent _) =>
                  let r := content s2 (w_ref m) in
                  match (b <- compare (mkM r (w_exact m) (w_wc m) (w_preds m)) r (content s2 p);; c <- eval_preds (w_preds m) (content s2 p);; Ok (b && c)) with
                  | Ok true =>
                      let w' := ddel dev w in
                      let seen' := dset dev p seen in
                      match w' with
                      | [] => (mkScript s2 rest (k_done k ++ [KOut [] seen']) (Some seen'), Ok tt)
                      | _ => (mkScript s2 (KOut w' seen' :: rest) (k_done k) (k_last k), Ok tt)
                      end
                  | Ok false => (with_store k s2, Err ETestFail)
                  | Err e => (with_store k s2, Err e)
                  end
              | (s2, Raised e) => (with_store k s2, Err e)
              | (s2, _) => (with_store k s2, Err EFuel)
              end
          | (s1, Raised e) => (with_store k s1, Err e)
          | (s1, _) => (with_store k s1, Err EFuel)
          end
      end
  | _ => (k, Err ETestFail)
  end.
