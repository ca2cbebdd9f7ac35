(** switchyard/hostfirewall.py: rule text, the Linux, macOS and test-mode firewalls, and the host they act on. *)
From Verif Require Import Base Dict EthAddrModel.

(** Python's str.strip() on ASCII text. *)
Definition pyspace (c : Z) : bool := ((9 <=? c) && (c <=? 13)) || ((28 <=? c) && (c <=? 32)).
Fixpoint dropsp (s : text) : text := match s with c :: s' => if pyspace c then dropsp s' else s | [] => [] end.
Definition strip (s : text) : text := rev (dropsp (rev (dropsp s))).
Definition text_eqb (a b : text) : bool := bytes_eqb a b.
Definition t_tcp : text := [116; 99; 112].
Definition t_udp : text := [117; 100; 112].
Definition t_icmp : text := [105; 99; 109; 112].
Definition t_all : text := [97; 108; 108].
Definition t_none : text := [110; 111; 110; 101].
(** What follows the prefix [p] in [s]. *)
Fixpoint after (p s : text) : option text :=
  match p, s with
  | [], _ => Some s
  | c :: p', d :: s' => if c =? d then after p' s' else None
  | _ :: _, [] => None
  end.
Definition isdigit (c : Z) : bool := (48 <=? c) && (c <=? 57).
Fixpoint digits (s : text) : text := match s with c :: s' => if isdigit c then c :: digits s' else [] | [] => [] end.
(** AbstractFirewall._interp_rule (80-91): re.match of tcp, udp or icmp, optionally followed by a colon
    and digits or a star; not anchored at the end. *)
Definition rule_port (rest : text) : option text :=
  match rest with
  | c :: r => if c =? 58 then match digits r with [] => None | d => Some d end else None
  | [] => None
  end.
Definition interp_rule (s : text) : res (text * option text) :=
  match after t_tcp s with
  | Some r => Ok (t_tcp, rule_port r)
  | None => match after t_udp s with
            | Some r => Ok (t_udp, rule_port r)
            | None => match after t_icmp s with
                      | Some r => Ok (t_icmp, rule_port r)
                      | None => Err EValue
                      end
            end
  end.

(** ** Linux *)
(** A command: flush the filter table, flush the raw table, append DROP on an interface, for a protocol, to a port. *)
Inductive cmd := CFlush | CFlushRaw | CDrop (i : str) | CDropP (i : str) (proto : text) (port : option text).
(** Rules of the raw table; [ROther] stands for whatever the administrator had there. *)
Inductive rawrule := RDrop (i : str) (proto : option text) (dport : option Z) | ROther (n : Z).
(** Filter table, raw table, other tables (nat, mangle), as iptables-save prints and iptables-restore reads them. *)
Record tables := mkTables { tb_filter : list Z; tb_raw : list rawrule; tb_other : list Z }.
(** Host: tables and the arp_ignore setting of each interface; [None] if sysctl knows no such interface. *)
Record host := mkHost { h_tb : tables; h_arp : str -> option Z }.
Definition value10 (s : text) : Z := fold_left (fun acc c => 10 * acc + (c - 48)) s 0.
(** The port text iptables accepts: --dport needs tcp or udp and at most 65535.  Text with superfluous leading zeros is
    read as octal by iptables; here it is refused. *)
Definition plain10 (s : text) : bool :=
  forallb isdigit s && match s with [] => false | [_] => true | c :: _ => negb (c =? 48) end.
Definition dport (proto port : text) : option Z :=
  if (text_eqb proto t_tcp || text_eqb proto t_udp) && plain10 port && (value10 port <=? 65535) then Some (value10 port) else None.
Definition add_raw (r : rawrule) (t : tables) : tables := mkTables (tb_filter t) (tb_raw t ++ [r]) (tb_other t).
Definition with_tb (f : tables -> tables) (h : host) : host := mkHost (f (h_tb h)) (h_arp h).
(** Effect of a command; one that iptables refuses changes nothing (its exit status is ignored, line 187). *)
Definition exec (h : host) (c : cmd) : host :=
  match c with
  | CFlush => with_tb (fun t => mkTables [] (tb_raw t) (tb_other t)) h
  | CFlushRaw => with_tb (fun t => mkTables (tb_filter t) [] (tb_other t)) h
  | CDrop i => with_tb (add_raw (RDrop i None None)) h
  | CDropP i p None => with_tb (add_raw (RDrop i (Some p) None)) h
  | CDropP i p (Some port) => match dport p port with Some n => with_tb (add_raw (RDrop i (Some p) (Some n))) h | None => h end
  end.
Definition exec_all (h : host) (cs : list cmd) : host := fold_left exec cs h.
(** sysctl -w net.ipv4.conf.I.arp_ignore=V *)
Definition set_arp (i : str) (v : Z) (h : host) : host := mkHost (h_tb h) (fun j => if str_eqb i j then Some v else h_arp h j).

Record linux := mkLinux { l_intf : list str; l_saved : tables; l_arp : dict Z; l_cmds : list cmd }.
(** LinuxFirewall._parse_rule (166-183). *)
Definition linux_rule (intfs : list str) (rule : text) : res (list cmd) :=
  if text_eqb (strip rule) t_none then Ok []
  else if text_eqb (strip rule) t_all then Ok (map CDrop intfs)
  else ' (proto, port) <- interp_rule rule;; Ok (map (fun i => CDropP i proto port) intfs).
Fixpoint linux_rules (intfs : list str) (rules : list text) : res (list cmd) :=
  match rules with
  | [] => Ok []
  | r :: t => a <- linux_rule intfs r;; b <- linux_rules intfs t;; Ok (a ++ b)
  end.
(** The arp_ignore part of __init__ (152-163): read, remember, set to 8; interfaces that cannot be read are listed. *)
Fixpoint arp_setup (intfs : list str) (saved : dict Z) (bad : list str) (h : host) : dict Z * list str * host :=
  match intfs with
  | [] => (saved, bad, h)
  | i :: t => match h_arp h i with
              | None => arp_setup t saved (bad ++ [i]) h
              | Some v => arp_setup t (dset i v saved) bad (set_arp i 8 h)
              end
  end.
(** list.remove *)
Fixpoint sremove (x : str) (l : list str) : list str :=
  match l with [] => [] | y :: t => if str_eqb x y then t else y :: sremove x t end.
(** LinuxFirewall.__init__ (136-164). *)
Definition linux_init (intfs : list str) (rules : list text) (h : host) : res (linux * host) :=
  cmds <- linux_rules intfs rules;;
  if existsb (fun r => text_eqb r t_all) rules then
    let '(saved, bad, h') := arp_setup intfs [] [] h in
    Ok (mkLinux (fold_left (fun l b => sremove b l) bad intfs) (h_tb h) saved ([CFlush; CFlushRaw] ++ cmds), h')
  else Ok (mkLinux intfs (h_tb h) [] ([CFlush; CFlushRaw] ++ cmds), h).
(** block (191-194). *)
Definition linux_block (f : linux) (h : host) : host := exec_all h (l_cmds f).
(** add_rule (185-189). *)
Definition linux_add (f : linux) (rule : text) (h : host) : (linux * host) * option exn :=
  match linux_rule (l_intf f) rule with
  | Ok cs => ((mkLinux (l_intf f) (l_saved f) (l_arp f) (l_cmds f ++ cs), exec_all h cs), None)
  | Err e => ((f, h), Some e)
  end.
Fixpoint linux_adds (f : linux) (rules : list text) (h : host) : linux * host :=
  match rules with [] => (f, h) | r :: t => let '((f1, h1), _) := linux_add f r h in linux_adds f1 t h1 end.
(** unblock (196-204). *)
Definition linux_unblock (f : linux) (h : host) : host :=
  let h1 := exec_all h [CFlush; CFlushRaw] in
  let h2 := mkHost (l_saved f) (h_arp h1) in
  fold_left (fun h i => match dget i (l_arp f) with Some v => set_arp i v h | None => h end) (l_intf f) h2.

(** ** macOS: rules for pf, by interface: everything, or a protocol with one port for both ends. *)
Inductive pfrule := PfAll (i : str) | PfProto (i : str) (proto : text) (port : option text).
(** MacOSFirewall._parse_rule (228-244): with none, [rulestr] is unbound when the first interface is reached. *)
Definition mac_rule (intfs : list str) (rule : text) : res (list pfrule) :=
  if text_eqb (strip rule) t_none then match intfs with [] => Ok [] | _ => Err EUnbound end
  else if text_eqb (strip rule) t_all then Ok (map PfAll intfs)
  else ' (proto, port) <- interp_rule rule;; Ok (map (fun i => PfProto i proto port) intfs).
Fixpoint mac_rules (intfs : list str) (rules : list text) : res (list pfrule) :=
  match rules with [] => Ok [] | r :: t => a <- mac_rule intfs r;; b <- mac_rules intfs t;; Ok (a ++ b) end.
(** ** Test mode: TestModeFirewall.add_rule (125-132). *)
Definition test_rule (rule : text) : res (text * option text) :=
  if text_eqb (strip rule) t_all then Ok (t_all, None)
  else if text_eqb (strip rule) t_none then Ok (t_none, None)
  else interp_rule rule.
