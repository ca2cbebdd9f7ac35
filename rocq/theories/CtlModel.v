(** Settings of a live capture device: PcapLiveDevice.create (461-463), its setters and getters, activate, stats and
    set_direction (465-600, 673-692) of switchyard/pcapffi.py, and the failure of _recv_packet (268-288).

    libpcap is taken to behave as its manual says: settings are recorded until the handle is activated and are in force
    from then on; afterwards they are refused with PCAP_ERROR_ACTIVATED (-4); what needs an activated handle is refused
    before with PCAP_ERROR_NOT_ACTIVATED (-3); the nonblocking state can be set at any time.  What depends on the device
    (time stamp types, precisions, directions, the answer of pcap_activate for given settings, link type, the counters)
    is a parameter.  Numbers that do not fit a C int are refused by cffi with OverflowError.  Left out: numbers that
    libpcap replaces by others when it is activated, and memory running out. *)
From Verif Require Import Base.
#[local] Open Scope list_scope.

Inductive opt := Snaplen | Promisc | Timeout | Buffer | Immediate | Tstamp | Precision | Nonblock | Direction.
Definition opt_eqb (a b : opt) : bool :=
  match a, b with
  | Snaplen, Snaplen | Promisc, Promisc | Timeout, Timeout | Buffer, Buffer | Immediate, Immediate | Tstamp, Tstamp
  | Precision, Precision | Nonblock, Nonblock | Direction, Direction => true
  | _, _ => false
  end.
Definition settings := opt -> Z.
Record device := mkDev {
  d_default : settings;                         (* what libpcap starts with *)
  d_types : list Z;                             (* pcap_list_tstamp_types *)
  d_prec : Z -> bool;
  d_dir : Z -> bool;
  d_act : settings -> Z;                        (* pcap_activate *)
  d_dlt : Z;
  d_stats : option (Z * Z * Z) }.               (* pcap_stats on an activated handle; None: it fails *)
(** The handle: activated or not, and what has been set. *)
Record handle := mkH { h_on : bool; h_set : settings }.
Definition upd (s : settings) (o : opt) (v : Z) : settings := fun x => if opt_eqb x o then v else s x.

Section Device.
Context (d : device).
(** PcapLiveDevice(device, only_create=True). *)
Definition h_new : handle := mkH false (d_default d).

(** ** libpcap *)
Definition lib_set (o : opt) (v : Z) (h : handle) : Z * handle :=
  let ok := (0, mkH (h_on h) (upd (h_set h) o v)) in
  match o with
  | Snaplen | Promisc | Timeout | Buffer | Immediate => if h_on h then (-4, h) else ok
  | Tstamp => if h_on h then (-4, h) else if zmem v (d_types d) then ok else (3, h)
  | Precision => if h_on h then (-4, h) else if d_prec d v then ok else (-12, h)
  | Nonblock => ok
  | Direction => if h_on h then (if d_dir d v then ok else (-1, h)) else (-3, h)
  end.

(** ** The class *)
Definition pcap_exn : exn := EExc.              (* PcapException *)
Definition cint (v : Z) : bool := (- 2 ^ 31 <=? v) && (v <? 2 ^ 31).
Definition TstampTypes : list Z := [0; 1; 2; 3; 4].
Definition Precisions : list Z := [0; 1].
Definition Warnings : list Z := [1; 2; 3].
Definition Dlts : list Z := [0; 1; 2; 3; 4; 5; 6; 7; 8; 9; 10; 12; 113].
(** The pattern of all setters: rv != 0 raises (487-492, 499-527, 549-552, 562-565, 685-691). *)
Definition call_set (o : opt) (v : Z) (h : handle) : handle * res unit :=
  if negb (cint v) then (h, Err EOverflow)
  else let '(rv, h') := lib_set o v h in (h', if rv =? 0 then Ok tt else Err pcap_exn).
(** list_tstamp_types (529-542). *)
Fixpoint enum_all (members l : list Z) : res (list Z) :=
  match l with [] => Ok [] | x :: t => v <- enum_of members x;; r <- enum_all members t;; Ok (v :: r) end.
Definition list_types : res (list Z) := enum_all TstampTypes (d_types d).
(** set_tstamp_type (544-552); tstamp_precision (559-565); blocking (487-492): int(value) of a bool. *)
Definition set_opt (o : opt) (v : Z) (h : handle) : handle * res unit :=
  match o with
  | Tstamp =>
      match enum_of TstampTypes v with
      | Err e => (h, Err e)
      | Ok v =>
          match list_types with
          | Err e => (h, Err e)
          | Ok l => if zmem v l then call_set Tstamp v h else (h, Err pcap_exn)
          end
      end
  | Precision => match enum_of Precisions v with Err e => (h, Err e) | Ok v => call_set Precision v h end
  | _ => call_set o v h
  end.
(** snaplen (494-496), tstamp_precision (554-557), dlt (577-584), blocking (478-485). *)
Definition get_snaplen (h : handle) : res Z := Ok (if h_on h then h_set h Snaplen else -3).
Definition get_precision (h : handle) : res Z := enum_of Precisions (h_set h Precision).
Definition get_dlt (h : handle) : res Z :=
  let dl := if h_on h then d_dlt d else -3 in if zmem dl Dlts then Ok dl else Err pcap_exn.
Definition get_blocking (h : handle) : res bool :=
  let rv := if h_on h then h_set h Nonblock else -3 in if rv =? 0 then Ok false else Err pcap_exn.
(** activate (465-476): the warning, 0 for none. *)
Definition activate (h : handle) : handle * res Z :=
  let rv := if h_on h then -4 else d_act d (h_set h) in
  if rv <? 0 then (h, Err pcap_exn)
  else
    let h' := mkH true (h_set h) in
    (h', w <- (if 0 <? rv then enum_of Warnings rv else Ok 0);; _ <- get_dlt h';; _ <- get_blocking h';; Ok w).
(** stats (673-680): the name xpcap does not exist. *)
Definition stats (h : handle) : res (Z * Z * Z) :=
  if h_on h then match d_stats d with Some x => Ok x | None => Err EName end else Err EName.
(** _recv_packet (268-288) for the answers of pcap_next_ex: a packet, nothing, an error, the end of a file. *)
Definition recv_answer {A} (rv : Z) (pkt : A) : res (option A) :=
  if rv =? 1 then Ok (Some pkt) else if rv =? 0 then Ok None else if rv =? -1 then Err EName else Ok None.

(** ** Histories of calls *)
Inductive op := Set_ (o : opt) (v : Z) | Activate.
Definition step (h : handle) (x : op) : handle * bool :=
  match x with
  | Set_ o v => let '(h', r) := set_opt o v h in (h', is_ok r)
  | Activate => let '(h', r) := activate h in (h', is_ok r)
  end.
Fixpoint run (h : handle) (l : list op) : handle * list bool :=
  match l with [] => (h, []) | x :: t => let '(h1, b) := step h x in let '(h2, r) := run h1 t in (h2, b :: r) end.
End Device.
