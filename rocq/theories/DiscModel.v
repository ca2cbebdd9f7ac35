(** Device discovery (switchyard/pcapffi.py: _PcapFfi.__init__ 77-196, instance 198-202, discoverdevs 208-254, devices 256-258,
    pcap_devices 307-308) and the list of devices of the command line (switchyard/syinit.py: _assemble_device_list 42-48, the
    --listif option 54-58).

    Simplified: what the operating system answers is an input: whether libpcap can be loaded, whether pcap_findalldevs succeeds,
    and the list it builds (names without the terminating zero byte). *)
From Verif Require Import Base EthAddrModel UnitModel Dict NetModel.
From Coq Require Import Ascii.
#[local] Open Scope list_scope.

(** One element of the list of pcap_findalldevs: name, description (None: null pointer), flags. *)
Record cdev := mkCdev { cd_name : bytes; cd_desc : option bytes; cd_flags : Z }.
(** PcapInterface (11). *)
Record pcapif := mkPi { pi_name : text; pi_internal : text; pi_desc : text; pi_loop : bool; pi_up : bool; pi_running : bool }.
(** b.decode('ascii', 'ignore') *)
Definition ascii_ignore (b : bytes) : text := filter (fun c => c <? 128) b.
(** The loop of discoverdevs (222-253); [win] is _windoze, [k] is pindex. *)
Fixpoint discover (win : bool) (k : Z) (l : list cdev) : list pcapif :=
  match l with
  | [] => []
  | d :: r =>
      let xname := ascii_ignore (cd_name d) in
      let ext := if win then [112; 111; 114; 116] ++ dec k else xname in       (* "port{}" *)
      let desc := match cd_desc d with None => ext | Some b => ascii_ignore b end in
      mkPi ext xname desc (Z.land (cd_flags d) 1 =? 1) (Z.land (cd_flags d) 2 =? 2) (Z.land (cd_flags d) 4 =? 4) :: discover win (k + 1) r
  end.
(** The answers of the system when the object is made: libpcap cannot be loaded (190-193), pcap_findalldevs fails (217-219), or it
    answers a list. *)
Inductive sysans := NoLib | FindFails | Found (l : list cdev).
(** The object, if there is one, with its attribute _interfaces, if that has been assigned (195).  _instance is assigned first (84). *)
Definition single := option (option (list pcapif)).
Definition make_instance (win : bool) (a : sysans) : single * option exn :=
  match a with
  | NoLib => (Some None, Some EExc)
  | FindFails => (Some (Some []), Some EExc)
  | Found l => (Some (Some (discover win 0 l)), None)
  end.
(** pcap_devices (307-308). *)
Definition pcap_devices (win : bool) (a : sysans) (s : single) : single * res (list pcapif) :=
  let '(s1, e) := match s with None => make_instance win a | Some _ => (s, None) end in
  (s1, match e with
       | Some e => Err e
       | None => match s1 with Some (Some l) => Ok l | Some None => Err EAttr | None => Err EAttr end
       end).
(** A history of calls, each with what the system would answer at that moment. *)
Fixpoint calls (win : bool) (l : list sysans) (s : single) : list (res (list pcapif)) :=
  match l with [] => [] | a :: r => let '(s1, o) := pcap_devices win a s in o :: calls win r s1 end.

Definition as_str (t : text) : str := string_of_list_ascii (map (fun c => ascii_of_N (Z.to_N c)) t).
(** _assemble_device_list: the arguments --intf and --exclude, None when not given. *)
Definition assemble (devs : list pcapif) (index : str -> bool) (intf exclude : option (list str)) : list str :=
  make_device_list (map (fun d => (as_str (pi_name d), pi_loop d)) devs) index (match intf with None => [] | Some l => l end) (match exclude with None => [] | Some l => l end).
