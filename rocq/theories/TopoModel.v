(** Model of switchyard/lib/topo/topobuild.py (Node, Topology) over a model of the parts of networkx it uses: an undirected
    graph with node and edge attribute dictionaries.  Names are ASCII strings.  Left out: drawing, file I/O, and the text
    of the edge label; JSON is a structure instead of text. *)
From Coq Require Import DecimalString.
From Verif Require Export NetModel.
From Verif Require Import EthAddrModel.
#[local] Open Scope string_scope.
#[local] Open Scope Z_scope.
#[local] Open Scope list_scope.

(** str(n) for a counter. *)
Definition dec (n : N) : str := NilZero.string_of_uint (N.to_uint n).

(** ** Node (16-74): Host, Switch and Router differ in the class only.  The number that each Interface takes from a
    class-wide counter is not kept (it is 0 here): nothing in a topology shows it. *)
Inductive kind := Host | Switch | Router.
Definition kind_eqb (a b : kind) : bool := match a, b with Host, Host | Switch, Switch | Router, Router => true | _, _ => false end.
Record tnode := mkNode { tn_kind : kind; tn_ifnum : N; tn_ifs : dict iface }.
Definition node_new (k : kind) : tnode := mkNode k 0 [].
Definition eth_name (n : N) : str := append "eth" (dec n).
(** addInterface (48-53): the counter moves before the Interface constructor can raise. *)
Definition node_add_if (mac : etharg) (n : tnode) : tnode * res str :=
  let name := eth_name (tn_ifnum n) in
  match eth_init mac with
  | Ok a => (mkNode (tn_kind n) (tn_ifnum n + 1) (dset name (mkIf name a [] 0) (tn_ifs n)), Ok name)
  | Err e => (mkNode (tn_kind n) (tn_ifnum n + 1) (tn_ifs n), Err e)
  end.

(** ** The graph *)
(** Values in an edge's attribute dictionary: interface names, capacity and delay (None when the text could not be
    parsed; the delay in an integer unit), and the label. *)
Inductive attr := AName (s : str) | ACap (c : option Z) | ADelay (d : option Z) | ALabel.
Definition edge := (str * str * dict attr)%type.
Record topo := mkTopo { tp_name : str; tp_nodes : dict tnode; tp_edges : list edge; tp_h : N; tp_s : N; tp_r : N; tp_auto : bool; tp_ifnum : Z }.
Definition with_nodes (ns : dict tnode) (t : topo) : topo := mkTopo (tp_name t) ns (tp_edges t) (tp_h t) (tp_s t) (tp_r t) (tp_auto t) (tp_ifnum t).
Definition with_edges (es : list edge) (t : topo) : topo := mkTopo (tp_name t) (tp_nodes t) es (tp_h t) (tp_s t) (tp_r t) (tp_auto t) (tp_ifnum t).
Definition with_ifnum (z : Z) (t : topo) : topo := mkTopo (tp_name t) (tp_nodes t) (tp_edges t) (tp_h t) (tp_s t) (tp_r t) (tp_auto t) z.
(** Topology.__init__ (85-94). *)
Definition topo_new (name : str) (auto : bool) : topo := mkTopo name [] [] 0 0 0 auto 1.
(** The edge between u and v, in either direction (networkx Graph). *)
Definition joins (u v : str) (e : edge) : bool :=
  let '(a, b, _) := e in (str_eqb u a && str_eqb v b) || (str_eqb u b && str_eqb v a).
(** hasLink / has_edge (140-144), getLink / getEdge (137-147). *)
Definition has_link (u v : str) (t : topo) : bool := existsb (joins u v) (tp_edges t).
Definition get_link (u v : str) (t : topo) : res (dict attr) :=
  match find (joins u v) (tp_edges t) with Some e => Ok (snd e) | None => Err EKey end.
(** Graph.add_edge without attributes: nothing happens when the edge is there. *)
Definition add_edge (u v : str) (es : list edge) : list edge := if existsb (joins u v) es then es else es ++ [(u, v, [])].
(** graph[u][v][k] = x *)
Definition set_attr (u v k : str) (x : attr) (es : list edge) : list edge :=
  map (fun e => if joins u v e then (fst e, dset k x (snd e)) else e) es.
(** Graph.edges: for every node in order its edges in order of insertion, each edge once, seen from that node. *)
Fixpoint edges_from (ns : list str) (seen : list str) (es : list edge) : list edge :=
  match ns with
  | [] => []
  | n :: r =>
      List.concat (map (fun e => let '(a, b, d) := e in
        if str_eqb n a then (if smem b seen then [] else [(a, b, d)])
        else if str_eqb n b then (if smem a seen then [] else [(b, a, d)]) else []) es)
      ++ edges_from r (n :: seen) es
  end.
Definition edge_list (t : topo) : list edge := edges_from (dkeys (tp_nodes t)) [] (tp_edges t).
(** links (149-151). *)
Definition links (t : topo) : list (str * str) := map fst (edge_list t).
(** nodes, hosts, switches, routers (153-172). *)
Definition nodes (t : topo) : list str := dkeys (tp_nodes t).
Definition nodes_of (k : kind) (t : topo) : list str := map fst (filter (fun x => kind_eqb (tn_kind (snd x)) k) (tp_nodes t)).

(** ** Adding nodes *)
(** __addNode (123-132). *)
Definition add_node (name : str) (k : kind) (t : topo) : topo * res str :=
  if din name (tp_nodes t) then (t, Err EExc) else (with_nodes (dset name (node_new k) (tp_nodes t)) t, Ok name).
(** The while loop that looks for an unused name (179-183, 211-215, 224-228).  The fuel given below is enough
    (TopoProofs.fresh_total). *)
Fixpoint fresh (fuel : nat) (pre : str) (n : N) (ns : dict tnode) : option (str * N) :=
  match fuel with
  | O => None
  | S f => let name := append pre (dec n) in if din name ns then fresh f pre (n + 1) ns else Some (name, (n + 1)%N)
  end.
Definition set_counter (k : kind) (n : N) (t : topo) : topo :=
  match k with
  | Host => mkTopo (tp_name t) (tp_nodes t) (tp_edges t) n (tp_s t) (tp_r t) (tp_auto t) (tp_ifnum t)
  | Switch => mkTopo (tp_name t) (tp_nodes t) (tp_edges t) (tp_h t) n (tp_r t) (tp_auto t) (tp_ifnum t)
  | Router => mkTopo (tp_name t) (tp_nodes t) (tp_edges t) (tp_h t) (tp_s t) n (tp_auto t) (tp_ifnum t)
  end.
Definition counter (k : kind) (t : topo) : N := match k with Host => tp_h t | Switch => tp_s t | Router => tp_r t end.
Definition prefix_of (k : kind) : str := match k with Host => "h" | Switch => "s" | Router => "r" end.
(** addHost, addSwitch, addRouter (174-185, 206-230). *)
Definition add (k : kind) (name : option str) (t : topo) : topo * res str :=
  match name with
  | Some s => add_node s k t
  | None => match fresh (S (List.length (tp_nodes t))) (prefix_of k) (counter k t) (tp_nodes t) with
            | Some (s, n) => add_node s k (set_counter k n t)
            | None => (t, Err EFuel)
            end
  end.
(** removeNode (193-198), removeLink (200-204); networkx raises NetworkXError, a subclass of Exception. *)
Definition remove_node (name : str) (t : topo) : topo * option exn :=
  if din name (tp_nodes t)
  then (with_edges (filter (fun e => let '(a, b, _) := e in negb (str_eqb name a || str_eqb name b)) (tp_edges t))
         (with_nodes (ddel name (tp_nodes t)) t), None)
  else (t, Some EExc).
Definition remove_link (u v : str) (t : topo) : topo * option exn :=
  if has_link u v t then (with_edges (filter (fun e => negb (joins u v e)) (tp_edges t)) t, None) else (t, Some EExc).

(** ** Links *)
(** '{:012x}'.format(n), cut into pairs and joined with colons (243-245). *)
Fixpoint hexs (k : nat) (n : Z) : text :=
  match k with O => [] | S k' => hexs k' (n / 16) ++ [hexdigit (n mod 16)] end.
Definition hexlen (n : Z) : nat := if n <=? 0 then 1 else Z.to_nat (Z.log2 n / 4 + 1).
Definition format012x (n : Z) : text := hexs (Nat.max 12 (hexlen n)) n.
Fixpoint pairs (s : text) : list text :=
  match s with [] => [] | [c] => [[c]] | a :: b :: r => [a; b] :: pairs r end.
Definition mac_text (n : Z) : text := join 58 (pairs (format012x n)).
Definition node_update (name : str) (n : tnode) (t : topo) : topo := with_nodes (dset name n (tp_nodes t)) t.
(** setLinkCharacteristics (254-265).  An argument is None when it is absent (or false), otherwise what the text means,
    None when it cannot be parsed. *)
Definition set_link (u v : str) (cap delay : option (option Z)) (t : topo) : topo * option exn :=
  if has_link u v t then
    let es := match cap with Some c => set_attr u v "capacity" (ACap c) (tp_edges t) | None => tp_edges t end in
    let es := match delay with Some d => set_attr u v "delay" (ADelay d) es | None => es end in
    let t := with_edges es t in
    match get_link u v t with
    | Err e => (t, Some e)
    | Ok d =>
        match dget "capacity" d with
        | None => (t, Some EKey)
        | Some (ACap (Some c)) =>
            if 1000000000000000 <=? c then (t, Some EExc)      (* humanize_capacity *)
            else match dget "delay" d with
                 | None => (t, Some EKey)
                 | Some (ADelay (Some _)) => (with_edges (set_attr u v "label" ALabel es) t, None)
                 | Some _ => (t, Some EType)
                 end
        | Some _ => (t, Some EType)
        end
    end
  else (t, Some EExc).
(** addLink (232-251), up to the call that sets capacity and delay. *)
Definition link_up (u v : str) (t : topo) : topo * option exn :=
  if negb (din u (tp_nodes t)) then (t, Some EExc) else
  if negb (din v (tp_nodes t)) then (t, Some EExc) else
  let '(m1, m2, t) := if tp_auto t then (AStr (mac_text (tp_ifnum t)), AStr (mac_text (tp_ifnum t + 1)), with_ifnum (tp_ifnum t + 2) t)
                      else (ANone, ANone, t) in
  match dget u (tp_nodes t) with
  | None => (t, Some EKey)
  | Some n1 =>
      let '(n1, i1) := node_add_if m1 n1 in
      let t := node_update u n1 t in
      match i1 with
      | Err e => (t, Some e)
      | Ok i1 =>
          match dget v (tp_nodes t) with
          | None => (t, Some EKey)
          | Some n2 =>
              let '(n2, i2) := node_add_if m2 n2 in
              let t := node_update v n2 t in
              match i2 with
              | Err e => (t, Some e)
              | Ok i2 =>
                  let es := set_attr u v v (AName i2) (set_attr u v u (AName i1) (add_edge u v (tp_edges t))) in
                  (with_edges es t, None)
              end
          end
      end
  end.
(** addLink (232-252). *)
Definition add_link (u v : str) (cap delay : option (option Z)) (t : topo) : topo * option exn :=
  match link_up u v t with
  | (t, None) => set_link u v cap delay t
  | r => r
  end.
(** getLinkInterfaces (321-328). *)
Definition link_interfaces (u v : str) (t : topo) : res (attr * attr) :=
  d <- get_link u v t;;
  match dget u d with Some a => Ok (a, a) | None => Err EKey end.

(** ** Addresses *)
(** setInterfaceAddresses (330-345): [mac] and [ip] are None when absent; the address text is already parsed. *)
Definition set_addresses (node intf : str) (mac : option etharg) (ip : option ipif) (t : topo) : topo * option exn :=
  match dget node (tp_nodes t) with
  | None => (t, Some EExc)
  | Some n =>
      match dget intf (tn_ifs n) with
      | None => (t, Some EExc)
      | Some i =>
          match match mac with Some m => eth_init m | None => Ok (if_mac i) end with
          | Err e => (t, Some e)
          | Ok a =>
              let i := if_set_mac (Some a) i in
              let i := match ip with Some p => if_assign p i | None => i end in
              (node_update node (mkNode (tn_kind n) (tn_ifnum n) (dset intf i (tn_ifs n))) t, None)
          end
      end
  end.
(** getInterfaceAddresses (347-353). *)
Definition get_addresses (node intf : str) (t : topo) : res (ethaddr * list ipif) :=
  match dget node (tp_nodes t) with
  | None => Err EKey
  | Some n => match dget intf (tn_ifs n) with Some i => Ok (if_mac i, if_ips i) | None => Err EKey end
  end.
(** sorted() on pairs of names. *)
Definition pair_leb (a b : str * str) : bool :=
  if str_eqb (fst a) (fst b) then String.leb (snd a) (snd b) else String.leb (fst a) (fst b).
Fixpoint insert (x : str * str) (l : list (str * str)) : list (str * str) :=
  match l with [] => [x] | y :: r => if pair_leb x y then x :: l else y :: insert x r end.
Definition sorted (l : list (str * str)) : list (str * str) := fold_right insert [] l.
(** IPv4Network.hosts(): the first and the last address of the generator.  A prefix of length 32 gives a list, for
    which next() raises TypeError. *)
Definition hosts_first (addr plen : Z) : Z := let base := addr - addr mod 2 ^ (32 - plen) in if plen =? 31 then base else base + 1.
Definition hosts_last (addr plen : Z) : Z :=
  let base := addr - addr mod 2 ^ (32 - plen) in if plen =? 31 then base + 1 else base + 2 ^ (32 - plen) - 2.
(** One turn of the inner loop of assignIPAddresses (313-319). *)
Definition assign_one (plen last : Z) (d : dict attr) (node : str) (s : topo * Z) : (topo * Z) * option exn :=
  let '(t, next) := s in
  match dget node (tp_nodes t) with
  | None => (s, Some EKey)
  | Some n =>
      if kind_eqb (tn_kind n) Switch then (s, None)
      else match dget node d with
           | Some (AName ifname) =>
               match dget ifname (tn_ifs n) with
               | None => (s, Some EKey)
               | Some i =>
                   if plen =? 32 then (s, Some EType)
                   else if last <? next then (s, Some EStopIter)
                   else ((node_update node (mkNode (tn_kind n) (tn_ifnum n) (dset ifname (if_assign (be 4 next, plen) i) (tn_ifs n))) t, next + 1), None)
               end
           | _ => (s, Some EKey)
           end
  end.
Fixpoint assign_loop (plen last : Z) (work : list (str * str)) (s : topo * Z) : (topo * Z) * option exn :=
  match work with
  | [] => (s, None)
  | (u, v) :: r =>
      match get_link u v (fst s) with
      | Err e => (s, Some e)
      | Ok d =>
          match assign_one plen last d u s with
          | (s, Some e) => (s, Some e)
          | (s, None) => match assign_one plen last d v s with
                         | (s, Some e) => (s, Some e)
                         | (s, None) => assign_loop plen last r s
                         end
          end
      end
  end.
(** assignIPAddresses (292-319); without argument the prefix is 10.0.0.0/8. *)
Definition assign_ips (prefix : option (Z * Z)) (t : topo) : topo * option exn :=
  let '(addr, plen) := match prefix with Some p => p | None => (10 * 2 ^ 24, 8) end in
  let '(s, e) := assign_loop plen (hosts_last addr plen) (sorted (links t)) (t, hosts_first addr plen) in (fst s, e).

(** ** Renaming and joining *)
Definition rename (prefix name : str) : str := append prefix (append "_" name).
(** The loop over the edges in __relabel_graph (367-372), for one edge with the names before renaming. *)
Definition relabel_attrs (prefix u v : str) (d : dict attr) : res (dict attr) :=
  match dget u d with
  | None => Err EKey
  | Some a =>
      let d := ddel u (dset (rename prefix u) a d) in
      match dget v d with
      | None => Err EKey
      | Some b => Ok (ddel v (dset (rename prefix v) b d))
      end
  end.
Definition relabel_edge (prefix : str) (e : edge) : res edge :=
  let '(u, v, d) := e in d <- relabel_attrs prefix u v d;; Ok (rename prefix u, rename prefix v, d).
(** __relabel_graph (355-373) with a prefix. *)
Definition relabel (prefix : str) (t : topo) : res topo :=
  es <- mapr (relabel_edge prefix) (edge_list t);;
  Ok (with_edges es (with_nodes (map (fun x => (rename prefix (fst x), snd x)) (tp_nodes t)) t)).
(** addNodeLabelPrefix (375-390) with copy=False: without prefix len(None) raises as soon as there is a link. *)
Definition label_prefix (prefix : option str) (t : topo) : topo * option exn :=
  match prefix with
  | Some p => match relabel p t with Ok t' => (t', None) | Err e => (t, Some e) end
  | None => match edge_list t with
            | [] => (with_nodes (map (fun x => (rename "None" (fst x), snd x)) (tp_nodes t)) t, None)
            | _ => (t, Some EType)
            end
  end.
(** union (392-411): the new topology; nx.union refuses common node names.  Node objects are shared with the arguments
    in Python, here they are copied. *)
Definition union (ren : bool) (a b : topo) : res topo :=
  a <- (if ren then relabel (tp_name a) a else Ok a);;
  b <- (if ren then relabel (tp_name b) b else Ok b);;
  if existsb (fun n => din n (tp_nodes a)) (nodes b) then Err EExc
  else Ok (mkTopo (append (tp_name a) (append "_" (tp_name b))) (tp_nodes a ++ tp_nodes b) (edge_list a ++ edge_list b) 0 0 0 true 1).

(** ** Saving and loading *)
(** What the JSON text holds: for every node its name, class and interfaces (asDict, 60-62; Interface.__str__ in
    interface.py:104-109 leaves out zero addresses), for every edge its attributes with "source" and "target"
    (networkx node_link_data). *)
Record saved_if := mkSavedIf { si_name : str; si_mac : ethaddr; si_ips : list ipif }.
Record saved := mkSaved { sv_name : str; sv_nodes : list (str * kind * dict saved_if); sv_links : list (dict attr) }.
Definition zero_ip (a : ipif) : bool := forallb (Z.eqb 0) (fst a).
Definition save_if (i : iface) : saved_if := mkSavedIf (if_name i) (if_mac i) (filter (fun a => negb (zero_ip a)) (if_ips i)).
Definition save_edge (e : edge) : dict attr := let '(u, v, d) := e in dset "target" (AName v) (dset "source" (AName u) d).
(** serialize (267-271). *)
Definition serialize (t : topo) : saved :=
  mkSaved (tp_name t) (map (fun x => (fst x, tn_kind (snd x), map (fun y => (fst y, save_if (snd y))) (tn_ifs (snd x)))) (tp_nodes t))
    (map save_edge (edge_list t)).
(** Node.__init__ (18-29): the text "ip:a.b.c.d/n" is split at colons into exactly two pieces. *)
Definition load_if (name : str) (s : saved_if) : res iface :=
  ips <- mapr (fun a : ipif => if Nat.eqb (List.length (fst a)) 4 then Ok a else Err EValue) (si_ips s);;
  Ok (fold_left (fun i a => if_assign a i) ips (mkIf name (si_mac s) [] 0)).
Definition load_node (x : str * kind * dict saved_if) : res (str * tnode) :=
  let '(name, k, ifs) := x in
  l <- mapr (fun y => i <- load_if (fst y) (snd y);; Ok (fst y, i)) ifs;;
  Ok (name, mkNode k 0 l).
Definition load_edge (d : dict attr) : res edge :=
  match dget "source" d, dget "target" d with
  | Some (AName u), Some (AName v) => Ok (u, v, ddel "target" (ddel "source" d))
  | _, _ => Err EKey
  end.
(** unserialize (273-287): counters start again (85-94); a graph without nodes is false, so the constructor makes a new
    one with its default name (86-89). *)
Definition unserialize (s : saved) : res topo :=
  ns <- mapr load_node (sv_nodes s);;
  es <- mapr load_edge (sv_links s);;
  Ok (mkTopo (match ns with [] => "No name topology" | _ => sv_name s end) ns es 0 0 0 true 1).

(** ** Histories *)
Inductive topo_op :=
| TAdd (k : kind) (name : option str)
| TLink (u v : str) (cap delay : option (option Z))
| TSetLink (u v : str) (cap delay : option (option Z))
| TRemoveNode (name : str)
| TRemoveLink (u v : str)
| TAddresses (node intf : str) (mac : option etharg) (ip : option ipif)
| TAssign (prefix : option (Z * Z))
| TPrefix (prefix : option str)
| TReload.
Definition topo_step (t : topo) (o : topo_op) : topo :=
  match o with
  | TAdd k name => fst (add k name t)
  | TLink u v c d => fst (add_link u v c d t)
  | TSetLink u v c d => fst (set_link u v c d t)
  | TRemoveNode n => fst (remove_node n t)
  | TRemoveLink u v => fst (remove_link u v t)
  | TAddresses n i m p => fst (set_addresses n i m p t)
  | TAssign p => fst (assign_ips p t)
  | TPrefix p => fst (label_prefix p t)
  | TReload => match unserialize (serialize t) with Ok t' => t' | Err _ => t end
  end.
Definition topo_run (t : topo) (os : list topo_op) : topo := fold_left topo_step os t.
