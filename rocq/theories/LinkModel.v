(** Model of switchyard/sim/linkem.py (LinkEmulator) and switchyard/sim/nodeexec.py (NodeExecutor), and of the plumbing
    of cli.py:729-768 that joins nodes by links.  Times (floats in the code) are rational numbers; each reading of the
    clock is an input.  A packet is any value [P] with a length and an equality test that may raise.
    Left out: monitors (calls with a packet received, nodeexec.py:81), user code (startcode), and the fact that a packet
    is passed by reference. *)
From Coq Require Import QArith String.
From Verif Require Import Base.

(** ** heapq (Python's library module; [lt] is the comparison of elements, which may raise). *)
Section Heap.
Context {A : Type} (d : A) (lt : A -> A -> res bool).
Definition put (i : nat) (x : A) (h : list A) : list A := firstn i h ++ x :: skipn (S i) h.
Definition swap (i j : nat) (h : list A) : list A := put j (nth i h d) (put i (nth j h d) h).
Definition parent (i : nat) : nat := ((i - 1) / 2)%nat.
(** _siftdown(heap, 0, pos). *)
Fixpoint siftdown (fuel : nat) (h : list A) (pos : nat) : res (list A) :=
  match fuel with
  | O => Err EFuel
  | S f =>
      if Nat.eqb pos 0 then Ok h
      else
        b <- lt (nth pos h d) (nth (parent pos) h d);;
        if (b : bool) then siftdown f (swap pos (parent pos) h) (parent pos) else Ok h
  end.
Definition heappush (h : list A) (x : A) : res (list A) := siftdown (S (List.length h)) (h ++ [x]) (List.length h).
(** _siftup(heap, pos). *)
Fixpoint siftup (fuel : nat) (h : list A) (pos : nat) : res (list A) :=
  match fuel with
  | O => Err EFuel
  | S f =>
      let child := (2 * pos + 1)%nat in
      if Nat.ltb child (List.length h) then
        c <- (if Nat.ltb (S child) (List.length h)
              then b <- lt (nth child h d) (nth (S child) h d);; Ok (if (b : bool) then child else S child)
              else Ok child);;
        siftup f (swap pos c h) c
      else siftdown (S pos) h pos
  end.
Definition heappop (h : list A) : res (A * list A) :=
  match h with
  | [] => Err EIndex
  | _ =>
      let x := last h d in
      match removelast h with
      | [] => Ok (x, [])
      | y :: r => h' <- siftup (S (List.length r)) (x :: r) 0;; Ok (y, h')
      end
  end.
End Heap.

Section Link.
Context {P : Type} (p0 : P) (plen : P -> res Z) (peq : P -> P -> res bool).

(** What send_packet hands to the link emulator (nodeexec.py:93-97): due time, (device at the other end, packet),
    queue of the node at the other end (a node number here). *)
Record item := mkItem { it_due : Q; it_dev : string; it_pkt : P; it_to : nat }.
(** [<] of two such tuples: the first components that differ decide; packets and queues have no order. *)
Definition item_lt (a b : item) : res bool :=
  if negb (Qeq_bool (it_due a) (it_due b)) then Ok (negb (Qle_bool (it_due b) (it_due a)))
  else if negb (String.eqb (it_dev a) (it_dev b)) then Ok (String.ltb (it_dev a) (it_dev b))
  else
    e <- peq (it_pkt a) (it_pkt b);;
    if negb e then Err EType
    else if Nat.eqb (it_to a) (it_to b) then Ok false else Err EType.
Definition item0 : item := mkItem 0%Q EmptyString p0 0.

(** ** LinkEmulator (linkem.py:6-34). *)
Inductive emstate := EmTop | EmGet | EmStopped | EmDead (e : exn).   (* before line 19; before line 31; left the loop; died *)
Record em := mkEm { em_in : list item; em_heap : list item; em_st : emstate; em_stop : bool }.
Definition em_new : em := mkEm [] [] EmTop false.
(** Lines 19-21, on fuel: items delivered, the heap left and the exception, if any. *)
Fixpoint em_expire (fuel : nat) (now : Q) (h : list item) : list item * list item * option exn :=
  match fuel with
  | O => ([], h, Some EFuel)
  | S f =>
      match h with
      | [] => ([], [], None)
      | x :: _ =>
          if Qle_bool (it_due x) now then
            match heappop item0 item_lt h with
            | Err e => ([], h, Some e)
            | Ok (y, h') => let '(l, h2, e) := em_expire f now h' in (y :: l, h2, e)
            end
          else ([], h, None)
      end
  end.
Inductive eact :=
| EPut (x : item)     (* a sender's queue.put *)
| EShut               (* shutdown (12-13) *)
| EPass (now : Q)     (* lines 16-21, [now] is the clock *)
| ETake (now : Q).    (* lines 23-34: [now] is the second reading; Queue.get refuses a negative timeout (ValueError) *)
(** The result is the new state and what was put into the nodes' queues. *)
Definition em_step (s : em) (a : eact) : em * list item :=
  match a with
  | EPut x => (mkEm (em_in s ++ [x]) (em_heap s) (em_st s) (em_stop s), [])
  | EShut => (mkEm (em_in s) (em_heap s) (em_st s) true, [])
  | EPass now =>
      match em_st s with
      | EmTop =>
          if em_stop s then (mkEm (em_in s) (em_heap s) EmStopped true, [])
          else
            let '(l, h, e) := em_expire (S (List.length (em_heap s))) now (em_heap s) in
            (mkEm (em_in s) h (match e with None => EmGet | Some x => EmDead x end) (em_stop s), l)
      | _ => (s, [])
      end
  | ETake now =>
      match em_st s with
      | EmGet =>
          if match em_heap s with x :: _ => negb (Qle_bool now (it_due x)) | [] => false end
          then (mkEm (em_in s) (em_heap s) (EmDead EValue) (em_stop s), [])
          else
            match em_in s with
            | [] => (mkEm [] (em_heap s) EmTop (em_stop s), [])
            | x :: q =>
                match heappush item0 item_lt (em_heap s) x with
                | Ok h => (mkEm q h EmTop (em_stop s), [])
                | Err e => (mkEm q (em_heap s ++ [x]) (EmDead e) (em_stop s), [])
                end
            end
      | _ => (s, [])
      end
  end.
(** A run: the state and the deliveries with the clock of the pass that made them. *)
Fixpoint em_run (s : em) (l : list eact) : em * list (Q * item) :=
  match l with
  | [] => (s, [])
  | a :: l' =>
      let '(s1, o) := em_step s a in
      let now := match a with EPass t => t | _ => 0%Q end in
      let '(s2, o2) := em_run s1 l' in (s2, map (fun x => (now, x)) o ++ o2)
  end.

(** ** NodeExecutor (nodeexec.py:21-135) *)
(** EgressPipe (20) under the name of its device (addEgressInterface, 39-43). *)
Record pipe := mkPipe { pi_to : nat; pi_delay : Q; pi_cap : Z; pi_rdev : string }.
Fixpoint pget (l : list (string * pipe)) (k : string) : option pipe :=
  match l with [] => None | (k', v) :: l' => if String.eqb k' k then Some v else pget l' k end.
Fixpoint pset (l : list (string * pipe)) (k : string) (v : pipe) : list (string * pipe) :=
  match l with [] => [(k, v)] | (k', v') :: l' => if String.eqb k' k then (k, v) :: l' else (k', v') :: pset l' k v end.
(** send_packet (93-97): KeyError for an unknown device; a capacity of 0 divides by zero ([EOverflow] stands for
    ZeroDivisionError). *)
Definition node_send (pipes : list (string * pipe)) (now : Q) (dev : string) (p : P) : res item :=
  match pget pipes dev with
  | None => Err EKey
  | Some g =>
      n <- plen p;;
      if pi_cap g =? 0 then Err EOverflow
      else Ok (mkItem (now + (inject_Z n / inject_Z (pi_cap g)) + pi_delay g)%Q (pi_rdev g) p (pi_to g))
  end.
Record node := mkNode { nd_pipes : list (string * pipe); nd_em : em; nd_queue : list (string * P) }.
Definition sim := list node.
(** A link of the topology: two ends (node number, device), capacity and delay. *)
Record link := mkLink { ln_u : nat; ln_ud : string; ln_v : nat; ln_vd : string; ln_cap : Z; ln_delay : Q }.
Definition upnode (i : nat) (n : node) (s : sim) : sim := firstn i s ++ n :: skipn (S i) s.
Definition add_pipe (u : nat) (dev : string) (g : pipe) (s : sim) : sim :=
  match nth_error s u with
  | Some n => upnode u (mkNode (pset (nd_pipes n) dev g) (nd_em n) (nd_queue n)) s
  | None => s
  end.
(** __addLink (cli.py:755-768). *)
Definition add_link (s : sim) (l : link) : sim :=
  add_pipe (ln_v l) (ln_vd l) (mkPipe (ln_u l) (ln_delay l) (ln_cap l) (ln_ud l))
    (add_pipe (ln_u l) (ln_ud l) (mkPipe (ln_v l) (ln_delay l) (ln_cap l) (ln_vd l)) s).
(** rebuildGlue (710-745). *)
Definition sim_new (n : nat) (ls : list link) : sim := fold_left add_link ls (repeat (mkNode [] em_new []) n).

Inductive sact :=
| SSend (u : nat) (dev : string) (now : Q) (p : P)
| SHost (u : nat) (p : P)                      (* sendHostPacket (36-37) *)
| SEm (u : nat) (a : eact)                     (* a step of a node's link emulator; EPut only through SSend *)
| SRecv (u : nat).                             (* recv_packet (70-91): the head of the queue *)
Inductive sres := SNone | SSent (x : item) | SErr (e : exn) | SDeliv (now : Q) (l : list item) | SGot (dev : string) (p : P) | SEmpty.
(** queue.put of each delivered item. *)
Definition deliver (s : sim) (x : item) : sim :=
  match nth_error s (it_to x) with
  | Some n => upnode (it_to x) (mkNode (nd_pipes n) (nd_em n) (nd_queue n ++ [(it_dev x, it_pkt x)])) s
  | None => s
  end.
Definition sim_step (s : sim) (a : sact) : sim * sres :=
  match a with
  | SSend u dev now p =>
      match nth_error s u with
      | None => (s, SNone)
      | Some n =>
          match node_send (nd_pipes n) now dev p with
          | Err e => (s, SErr e)
          | Ok x => (upnode u (mkNode (nd_pipes n) (fst (em_step (nd_em n) (EPut x))) (nd_queue n)) s, SSent x)
          end
      end
  | SHost u p =>
      match nth_error s u with
      | None => (s, SNone)
      | Some n => (upnode u (mkNode (nd_pipes n) (nd_em n) (nd_queue n ++ [("host"%string, p)])) s, SNone)
      end
  | SEm u (EPut _) => (s, SNone)
  | SEm u a =>
      match nth_error s u with
      | None => (s, SNone)
      | Some n =>
          let '(e, o) := em_step (nd_em n) a in
          (fold_left deliver o (upnode u (mkNode (nd_pipes n) e (nd_queue n)) s),
           SDeliv (match a with EPass t => t | _ => 0%Q end) o)
      end
  | SRecv u =>
      match nth_error s u with
      | None => (s, SNone)
      | Some n =>
          match nd_queue n with
          | [] => (s, SEmpty)
          | (dev, p) :: q => (upnode u (mkNode (nd_pipes n) (nd_em n) q) s, SGot dev p)
          end
      end
  end.
Fixpoint sim_run (s : sim) (l : list sact) : sim * list sres :=
  match l with
  | [] => (s, [])
  | a :: l' => let '(s1, r) := sim_step s a in let '(s2, rs) := sim_run s1 l' in (s2, r :: rs)
  end.
End Link.
Arguments item P : clear implicits.
Arguments em P : clear implicits.
Arguments eact P : clear implicits.
Arguments sact P : clear implicits.
Arguments sres P : clear implicits.
Arguments node P : clear implicits.
Arguments sim P : clear implicits.
