(** Model of switchyard/lib/interface.py (Interface, make_device_list), of the interface table of
    switchyard/llnetbase.py (LLNetBase) and of TestScenario.add_interface (testing.py:671-682). *)
From Verif Require Export Dict.
From Verif Require Import EthAddrModel.

(** An IPv4Interface or IPv6Interface object: packed address and prefix length. *)
Definition ipif := (bytes * Z)%type.
Definition ipif_eqb (a b : ipif) : bool := bytes_eqb (fst a) (fst b) && (snd a =? snd b).

(** Interface (interface.py:15-110).  The address set is kept as a list in order of insertion; iftype is left out
    (it is stored and returned unchanged). *)
Record iface := mkIf { if_name : str; if_mac : ethaddr; if_ips : list ipif; if_num : Z }.
(** ifnum setter (93-98): a value that is not an int takes the next number of the class counter. *)
Definition take_num (v : option Z) (next : Z) : Z * Z := match v with Some n => (n, next) | None => (next, next + 1) end.
(** ethaddr setter (43-52): EthAddr, str and bytes go through EthAddr (C02), None is all zeros.  [Some m] is the address
    the constructor made. *)
Definition mac_of (v : option ethaddr) : ethaddr := match v with Some m => m | None => repeat 0 6 end.
Definition if_new (name : str) (mac : option ethaddr) (num : option Z) (next : Z) : iface * Z :=
  let '(n, next') := take_num num next in (mkIf name (mac_of mac) [] n, next').
Definition if_set_mac (mac : option ethaddr) (i : iface) : iface := mkIf (if_name i) (mac_of mac) (if_ips i) (if_num i).
Definition if_set_num (n : Z) (i : iface) : iface := mkIf (if_name i) (if_mac i) (if_ips i) n.
(** assign_ipaddr (60-74) with a parsed interface address; set.add keeps one copy. *)
Definition if_assign (a : ipif) (i : iface) : iface :=
  if existsb (ipif_eqb a) (if_ips i) then i else mkIf (if_name i) (if_mac i) (if_ips i ++ [a]) (if_num i).
(** remove_ipaddr (76-86): the first entry with that address (whatever its prefix) goes. *)
Fixpoint rem_ip (ip : bytes) (l : list ipif) : option (list ipif) :=
  match l with
  | [] => None
  | a :: r => if bytes_eqb (fst a) ip then Some r else match rem_ip ip r with Some r' => Some (a :: r') | None => None end
  end.
Definition if_remove (ip : bytes) (i : iface) : res iface :=
  match rem_ip ip (if_ips i) with Some l => Ok (mkIf (if_name i) (if_mac i) l (if_num i)) | None => Err EExc end.

(** _devinfo of LLNetBase (llnetbase.py:54-56). *)
Definition devinfo := dict iface.
(** interface_by_name (105-111). *)
Definition by_name (n : str) (d : devinfo) : res iface := match dget n d with Some i => Ok i | None => Err EKey end.
(** The loops over _devinfo.items() that return the first interface with a property (124-128, 141-144, 190-193). *)
Fixpoint first_such (f : iface -> bool) (d : devinfo) : res (str * iface) :=
  match d with [] => Err EKey | (n, i) :: r => if f i then Ok (n, i) else first_such f r end.
(** interface_by_ipaddr (119-128), on a parsed address; comparing the printed forms is comparing address and version. *)
Definition has_ip (ip : bytes) (i : iface) : bool := existsb (fun a => bytes_eqb (fst a) ip) (if_ips i).
Definition by_ip (ip : bytes) (d : devinfo) : res iface := x <- first_such (has_ip ip) d;; Ok (snd x).
(** interface_by_macaddr (136-144). *)
Definition by_mac (m : etharg) (d : devinfo) : res iface :=
  a <- eth_init m;; x <- first_such (fun i => bytes_eqb (if_mac i) a) d;; Ok (snd x).
(** _lookup_devname (189-193). *)
Definition by_num (n : Z) (d : devinfo) : res str := x <- first_such (fun i => if_num i =? n) d;; Ok (fst x).

(** The net object: table, whether a callback is installed, and the calls made to it. *)
Record net := mkNet { nt_dev : devinfo; nt_cb : bool; nt_log : list (str * bool) }.
Definition net_new : net := mkNet [] false [].
Definition notify (n : net) (d : devinfo) (name : str) (up : bool) : net :=
  mkNet d (nt_cb n) (if nt_cb n then nt_log n ++ [(name, up)] else nt_log n).
(** intf_up (78-89), intf_down (69-76), set_devupdown_callback (58-67). *)
Definition intf_up (i : iface) (n : net) : net * option exn :=
  if din (if_name i) (nt_dev n) then (n, Some EValue)
  else (notify n (dset (if_name i) i (nt_dev n)) (if_name i) true, None).
Definition intf_down (name : str) (n : net) : net :=
  match dget name (nt_dev n) with Some i => notify n (nt_dev n) (if_name i) false | None => n end.
(** Operations on the table, and on the Interface objects in it. *)
Inductive net_op :=
| NUp (i : iface) | NDown (name : str) | NCallback (on : bool)
| NAssign (name : str) (a : ipif) | NRemove (name : str) (ip : bytes) | NMac (name : str) (m : option ethaddr) | NNum (name : str) (n : Z).
Definition on_iface (name : str) (f : iface -> res iface) (n : net) : net * option exn :=
  match dget name (nt_dev n) with
  | None => (n, Some EKey)
  | Some i => match f i with Ok j => (mkNet (dset name j (nt_dev n)) (nt_cb n) (nt_log n), None) | Err e => (n, Some e) end
  end.
Definition net_step (n : net) (o : net_op) : net * option exn :=
  match o with
  | NUp i => intf_up i n
  | NDown name => (intf_down name n, None)
  | NCallback on => (mkNet (nt_dev n) on (nt_log n), None)
  | NAssign name a => on_iface name (fun i => Ok (if_assign a i)) n
  | NRemove name ip => on_iface name (if_remove ip) n
  | NMac name m => on_iface name (fun i => Ok (if_set_mac m i)) n
  | NNum name k => on_iface name (fun i => Ok (if_set_num k i)) n
  end.
Definition net_run (n : net) (os : list net_op) : net := fold_left (fun n o => fst (net_step n o)) os n.

(** TestScenario.add_interface (testing.py:671-682): the number is the size of the table unless given. *)
Definition add_interface (name : str) (mac : option ethaddr) (ips : list ipif) (num : option Z) (d : devinfo) : devinfo :=
  let n := match num with Some n => n | None => zlen d end in
  dset name (fold_left (fun i a => if_assign a i) ips (mkIf name (mac_of mac) [] n)) d.

(** make_device_list (interface.py:112-136): [devs] are the (name, isloop) pairs of pcap_devices(), [index] tells
    whether if_nametoindex succeeds.  The result set is a list without repetitions. *)
Fixpoint dedup (l : list str) : list str :=
  match l with [] => [] | x :: r => if smem x r then dedup r else x :: dedup r end.
Definition make_device_list (pcap : list (str * bool)) (index : str -> bool) (includes excludes : list str) : list str :=
  let devs := dedup (map fst (filter (fun d => negb (snd d) || smem (fst d) includes) pcap)) in
  let includes := filter (fun x => smem x devs) includes in
  let devs := filter index devs in
  let devs := filter (fun x => negb (smem x excludes)) devs in
  match includes with [] => devs | _ => filter (fun x => smem x includes) devs end.
