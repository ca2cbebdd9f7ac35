(** switchyard/lib/socket/socketemu.py: emulated UDP sockets and the application layer registry.
    Each call is a sequence of atomic actions on shared state, so that calls of different threads can interleave; the
    sequential calls at the end of the file run the actions of one call without interruption. *)
From Verif Require Import Base Enums.

(** Addresses as arguments: [None] is text that ip_address refuses; ports may be integers or text (read by int()). *)
Inductive portarg := PInt (p : Z) | PStr (p : option Z).
Record address := mkAddr { a_ip : option bytes; a_port : portarg }.
Definition endpoint := (bytes * Z)%type.
(** _normalize_addrs (socketemu.py:83-84). *)
Definition normalize (a : address) : res endpoint :=
  match a_ip a, a_port a with
  | Some ip, PInt p | Some ip, PStr (Some p) => Ok (ip, p)
  | _, _ => Err EValue
  end.
Definition any_ip : bytes := [0; 0; 0; 0].

(** Identity of a socket in the registry: protocol, local address, local port (_sockid, 290-291). *)
Definition key := (Z * bytes * Z)%type.
Fixpoint bytes_same (a b : bytes) : bool :=
  match a, b with [], [] => true | x :: a', y :: b' => (x =? y) && bytes_same a' b' | _, _ => false end.
Definition key_same (a b : key) : bool :=
  let '(p, i, n) := a in let '(p', i', n') := b in (p =? p') && bytes_same i i' && (n =? n').
Definition registry := list (key * nat).
Fixpoint rget (k : key) (r : registry) : option nat :=
  match r with [] => None | (k', v) :: t => if key_same k k' then Some v else rget k t end.
Fixpoint rset (k : key) (v : nat) (r : registry) : registry :=
  match r with [] => [(k, v)] | (k', v') :: t => if key_same k k' then (k', v) :: t else (k', v') :: rset k v t end.
Fixpoint rdel (k : key) (r : registry) : registry :=
  match r with [] => [] | (k', v') :: t => if key_same k k' then t else (k', v') :: rdel k t end.
(** _emuports (114-119). *)
Definition emuports (r : registry) : list Z := map (fun x => snd (fst x)) r.

Record sock := mkSock { k_proto : Z; k_ip : bytes; k_port : Z; k_remote : option endpoint; k_timeout : option Z; k_block : bool }.
(** Upward messages: local address, remote address, data; downward: flow address and data. *)
Definition msg := (endpoint * endpoint * bytes)%type.
Definition flow := (Z * bytes * Z * bytes * Z)%type.
(** Calls in progress: socket() before registration, bind() before the registry update (with the old id), send_to_app()
    before its second lookup and before the put, bind() looking through the registry (with its size at the beginning). *)
Inductive flight := InNew (s : nat) | InBind (s : nat) (old : key) | InWild (proto : Z) (m : msg) | InPut (q : nat) (m : msg) | InScan (s : nat) (size : nat).
(** Sockets in order of creation; socket [n] has queue [n]; the registry maps ids to queues. *)
Record snet := mkNet { n_socks : list sock; n_queues : list (list msg); n_reg : registry; n_down : list (flow * bytes);
  n_fl : list (option flight); n_default : option Z }.
Definition snet_new : snet := mkNet [] [] [] [] [] None.

Inductive result :=
| RSock (s : nat)             (* the new socket *)
| RFlight (i : nat)           (* call still running, number i *)
| RNum (z : Z)                (* an integer returned *)
| RExn (e : exn)
| RBool (b : bool)
| RPut (q : nat) (m : msg)    (* send_to_app returned True, having put m on the queue of socket q *)
| RGot (m : msg)
| RSent (f : flow) (d : bytes) (* send returned len(d), having queued (f, d) for the stack *)
| RApp (f : flow) (d : bytes)
| RNone.                      (* no such action *)

Fixpoint upd {A} (n : nat) (x : A) (l : list A) : list A :=
  match n, l with _, [] => [] | O, _ :: t => x :: t | S n', y :: t => y :: upd n' x t end.
Definition with_sock (s : nat) (k : sock) (n : snet) : snet :=
  mkNet (upd s k (n_socks n)) (n_queues n) (n_reg n) (n_down n) (n_fl n) (n_default n).
Definition with_queue (q : nat) (l : list msg) (n : snet) : snet :=
  mkNet (n_socks n) (upd q l (n_queues n)) (n_reg n) (n_down n) (n_fl n) (n_default n).
Definition with_reg (r : registry) (n : snet) : snet := mkNet (n_socks n) (n_queues n) r (n_down n) (n_fl n) (n_default n).
Definition with_down (d : list (flow * bytes)) (n : snet) : snet := mkNet (n_socks n) (n_queues n) (n_reg n) d (n_fl n) (n_default n).
Definition with_flights (f : list (option flight)) (n : snet) : snet := mkNet (n_socks n) (n_queues n) (n_reg n) (n_down n) f (n_default n).
Definition with_default (t : option Z) (n : snet) : snet := mkNet (n_socks n) (n_queues n) (n_reg n) (n_down n) (n_fl n) t.
Definition start (f : flight) (n : snet) : snet * result := (with_flights (n_fl n ++ [Some f]) n, RFlight (length (n_fl n))).
Definition stop (i : nat) (n : snet) : snet := with_flights (upd i None (n_fl n)) n.
Definition flying (i : nat) (n : snet) : option flight := match nth_error (n_fl n) i with Some (Some f) => Some f | _ => None end.

(** _sockid: IPProtocol(self._proto) raises ValueError for an unknown number. *)
Definition sockid (k : sock) : res key := p <- enum_of IPProtocols (k_proto k);; Ok (p, k_ip k, k_port k).

Inductive act :=
| ANew (fam typ proto port : Z) (sys : list Z) (fw : bool)
| AReg (i : nat)
| ABind (s : nat) (a : address) (sys : list Z)
| ARebind (i : nat) (fw : bool)
| AClose (s : nat)
| AConnect (s : nat) (a : address)
| ASend (s : nat) (d : bytes)
| ASendto (s : nat) (d : bytes) (a : address)
| ARecv (s : nat)
| ASettimeout (s : nat) (t : option Z)
| ASetblocking (s : nat) (b : bool)
| ASetdefault (t : option Z)
| ADeliver (proto : Z) (local remote : address) (d : bytes)
| AWild (i : nat)
| APut (i : nat)
| ARecvApp
| AScan (s : nat)
| AScanned (i : nat).

(** socket.__init__ (220-243) up to the firewall rules: [port] is the number drawn by _get_ephemeral_port (57-63), [sys] the
    ports reported by netstat, [fw] whether installing the firewall rules succeeds.  AF_INET 2, AF_INET6 10, SOCK_DGRAM 2.  (A family Python has no name for raises ValueError
    instead of NotImplementedError.) *)
Definition a_new (fam typ proto port : Z) (sys : list Z) (fw : bool) (n : snet) : snet * result :=
  if negb ((fam =? 2) || (fam =? 10)) then (n, RExn ENotImpl)
  else if negb (typ =? 2) then (n, RExn ENotImpl)
  else if negb ((30000 <=? port) && (port <=? 60000)) || zmem port sys || zmem port (emuports (n_reg n)) then (n, RNone)
  else if fw then
    let k := mkSock (if proto =? 0 then 17 else proto) any_ip port None (n_default n) true in
    start (InNew (length (n_socks n)))
      (mkNet (n_socks n ++ [k]) (n_queues n ++ [[]]) (n_reg n) (n_down n) (n_fl n) (n_default n))
  else (n, RExn EExc).
(** _register_socket (177-187). *)
Definition a_reg (i : nat) (n : snet) : snet * result :=
  match flying i n with
  | Some (InNew s) =>
      match nth_error (n_socks n) s with
      | Some k => match sockid k with
                  | Ok id => (with_reg (rset id s (n_reg n)) (stop i n), RSock s)
                  | Err e => (stop i n, RExn e)
                  end
      | None => (n, RNone)
      end
  | _ => (n, RNone)
  end.
(** bind (314-332) up to the firewall rules. *)
Definition in_use (p : portarg) (sys : list Z) (r : registry) : bool :=
  match p with PInt p => zmem p sys || zmem p (emuports r) | PStr _ => false end.
Definition a_bind (s : nat) (a : address) (sys : list Z) (n : snet) : snet * result :=
  match nth_error (n_socks n) s with
  | None => (n, RNone)
  | Some k =>
      if in_use (a_port a) sys (n_reg n) then (n, RNum (-1))
      else match sockid k with
           | Err e => (n, RExn e)
           | Ok old =>
               match normalize a with
               | Err e => (n, RExn e)
               | Ok (ip, p) => start (InBind s old) (with_sock s (mkSock (k_proto k) ip p (k_remote k) (k_timeout k) (k_block k)) n)
               end
           end
  end.
(** bind looks through the registry without the lock (323, 114-119): [a_bind] is the case in which nothing is registered or
    removed meanwhile.  When the number of entries changes while it looks, Python raises RuntimeError. *)
Definition a_scan (s : nat) (n : snet) : snet * result :=
  match nth_error (n_socks n) s with None => (n, RNone) | Some _ => start (InScan s (length (n_reg n))) n end.
Definition a_scanned (i : nat) (n : snet) : snet * result :=
  match flying i n with
  | Some (InScan _ size) => if Nat.eqb (length (n_reg n)) size then (n, RNone) else (stop i n, RExn ERuntime)
  | _ => (n, RNone)
  end.
(** The rest of bind: firewall rules (334, 245-267), _registry_update (189-198). *)
Definition a_rebind (i : nat) (fw : bool) (n : snet) : snet * result :=
  match flying i n with
  | Some (InBind s old) =>
      if fw then
        match rget old (n_reg n), nth_error (n_socks n) s with
        | Some q, Some k =>
            match sockid k with
            | Ok id => (with_reg (rset id q (rdel old (n_reg n))) (stop i n), RNum 0)
            | Err e => (with_reg (rdel old (n_reg n)) (stop i n), RExn e)
            end
        | _, _ => (stop i n, RExn EKey)
        end
      else (stop i n, RExn EExc)
  | _ => (n, RNone)
  end.
(** close (303-312), _unregister_socket (200-209); shutdown (499-504) is the same. *)
Definition a_close (s : nat) (n : snet) : snet * result :=
  match nth_error (n_socks n) s with
  | None => (n, RNone)
  | Some k => (match sockid k with Ok id => with_reg (rdel id (n_reg n)) n | Err _ => n end, RNum 0)
  end.
(** connect, connect_ex (338-352). *)
Definition a_connect (s : nat) (a : address) (n : snet) : snet * result :=
  match nth_error (n_socks n) s with
  | None => (n, RNone)
  | Some k => match normalize a with
              | Err e => (n, RExn e)
              | Ok r => (with_sock s (mkSock (k_proto k) (k_ip k) (k_port k) (Some r) (k_timeout k) (k_block k)) n, RNum 0)
              end
  end.
(** send (431-439), sendto (441-451), _send (453-455). *)
Definition flow_of (k : sock) (r : endpoint) : flow := (k_proto k, k_ip k, k_port k, fst r, snd r).
Definition put_down (f : flow) (d : bytes) (n : snet) : snet * result := (with_down (n_down n ++ [(f, d)]) n, RSent f d).
Definition a_send (s : nat) (d : bytes) (n : snet) : snet * result :=
  match nth_error (n_socks n) s with
  | None => (n, RNone)
  | Some k => match k_remote k with None => (n, RExn ESockError) | Some r => put_down (flow_of k r) d n end
  end.
Definition a_sendto (s : nat) (d : bytes) (a : address) (n : snet) : snet * result :=
  match nth_error (n_socks n) s with
  | None => (n, RNone)
  | Some k => match normalize a with Err e => (n, RExn e) | Ok r => put_down (flow_of k r) d n end
  end.
(** Queue.get refuses a negative time with ValueError, even when there is something to get. *)
Definition bad_wait (s : nat) (n : snet) : bool :=
  match nth_error (n_socks n) s with
  | Some k => k_block k && match k_timeout k with Some t => t <? 0 | None => false end
  | None => false
  end.
(** _recv (422-429); on an empty queue socket.timeout, after the wait given by [recv_wait]. *)
Definition a_recv (s : nat) (n : snet) : snet * result :=
  match nth_error (n_queues n) s with
  | Some q =>
      if bad_wait s n then (n, RExn EValue)
      else match q with m :: l => (with_queue s l n, RGot m) | [] => (n, RExn ETimeout) end
  | None => (n, RNone)
  end.
(** How long a receive on an empty queue waits: Queue.get(block, timeout); [None] is for ever. *)
Definition recv_wait (k : sock) : option Z := if k_block k then k_timeout k else Some 0.
(** settimeout (487-497), setblocking (475-479), setdefaulttimeout (74-81); times in milliseconds. *)
Definition set_wait (k : sock) (t : option Z) (b : bool) : sock := mkSock (k_proto k) (k_ip k) (k_port k) (k_remote k) t b.
Definition settimeout (t : option Z) (k : sock) : sock :=
  match t with
  | None => set_wait k (k_timeout k) true
  | Some 0 => set_wait k (k_timeout k) false
  | Some x => set_wait k (Some x) true
  end.
Definition a_settimeout (s : nat) (t : option Z) (n : snet) : snet * result :=
  match nth_error (n_socks n) s with None => (n, RNone) | Some k => (with_sock s (settimeout t k) n, RNum 0) end.
Definition a_setblocking (s : nat) (b : bool) (n : snet) : snet * result :=
  match nth_error (n_socks n) s with None => (n, RNone) | Some k => (with_sock s (set_wait k (k_timeout k) b) n, RNum 0) end.
(** send_to_app (140-175): the first lookup, *)
Definition a_deliver (proto : Z) (local remote : address) (d : bytes) (n : snet) : snet * result :=
  match enum_of IPProtocols proto, normalize local, normalize remote with
  | Ok p, Ok l, Ok r =>
      match rget (p, fst l, snd l) (n_reg n) with
      | Some q => start (InPut q (l, r, d)) n
      | None => start (InWild p (l, r, d)) n
      end
  | Err e, _, _ | _, Err e, _ | _, _, Err e => (n, RExn e)
  end.
(** the second with address 0.0.0.0, *)
Definition a_wild (i : nat) (n : snet) : snet * result :=
  match flying i n with
  | Some (InWild p m) =>
      match rget (p, any_ip, snd (fst (fst m))) (n_reg n) with
      | Some q => (with_flights (upd i (Some (InPut q m)) (n_fl n)) n, RFlight i)
      | None => (stop i n, RBool false)
      end
  | _ => (n, RNone)
  end.
(** and the put. *)
Definition a_put (i : nat) (n : snet) : snet * result :=
  match flying i n with
  | Some (InPut q m) =>
      match nth_error (n_queues n) q with
      | Some l => (with_queue q (l ++ [m]) (stop i n), RPut q m)
      | None => (n, RNone)
      end
  | _ => (n, RNone)
  end.
(** recv_from_app (121-138). *)
Definition a_recv_app (n : snet) : snet * result :=
  match n_down n with [] => (n, RExn ENoPackets) | (f, d) :: t => (with_down t n, RApp f d) end.

Definition do_act (n : snet) (a : act) : snet * result :=
  match a with
  | ANew f t p port sys fw => a_new f t p port sys fw n
  | AReg i => a_reg i n
  | ABind s a sys => a_bind s a sys n
  | ARebind i fw => a_rebind i fw n
  | AClose s => a_close s n
  | AConnect s a => a_connect s a n
  | ASend s d => a_send s d n
  | ASendto s d a => a_sendto s d a n
  | ARecv s => a_recv s n
  | ASettimeout s t => a_settimeout s t n
  | ASetblocking s b => a_setblocking s b n
  | ASetdefault t => (with_default t n, RNum 0)
  | ADeliver p l r d => a_deliver p l r d n
  | AWild i => a_wild i n
  | APut i => a_put i n
  | ARecvApp => a_recv_app n
  | AScan s => a_scan s n
  | AScanned i => a_scanned i n
  end.
(** Any interleaving of the actions of any number of calls. *)
Fixpoint acts_run (n : snet) (l : list act) : snet * list (act * result) :=
  match l with
  | [] => (n, [])
  | a :: t => let '(n1, r) := do_act n a in let '(n2, log) := acts_run n1 t in (n2, (a, r) :: log)
  end.

(** ** Calls one at a time *)
Inductive sop :=
| SNew (fam typ proto port : Z) (sys : list Z) (fw : bool)
| SBind (s : nat) (a : address) (sys : list Z) (fw : bool)
| SDeliver (proto : Z) (local remote : address) (d : bytes)
| SOther (a : act).
Definition then_act (x : snet * result) (f : nat -> act) : snet * result :=
  match snd x with RFlight i => do_act (fst x) (f i) | _ => x end.
Definition do_op (n : snet) (o : sop) : snet * result :=
  match o with
  | SNew f t p port sys fw => then_act (do_act n (ANew f t p port sys fw)) AReg
  | SBind s a sys fw => then_act (do_act n (ABind s a sys)) (fun i => ARebind i fw)
  | SDeliver p l r d =>
      let x := do_act n (ADeliver p l r d) in
      match snd x with
      | RFlight i =>
          match flying i (fst x) with
          | Some (InWild _ _) => then_act (do_act (fst x) (AWild i)) APut
          | _ => do_act (fst x) (APut i)
          end
      | _ => x
      end
  | SOther a => do_act n a
  end.
Fixpoint ops_run (n : snet) (l : list sop) : snet * list (sop * result) :=
  match l with
  | [] => (n, [])
  | o :: t => let '(n1, r) := do_op n o in let '(n2, log) := ops_run n1 t in (n2, (o, r) :: log)
  end.
