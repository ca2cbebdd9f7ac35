(** Model of the register of live capture devices: PcapLiveDevice in switchyard/pcapffi.py, its constructor, create,
    activate, set_filter, close and set_bpf_filter_on_all_devices (398-476, 567-575, 667-671, 682-683) with
    _PcapFfi._set_filter (290-304), called by any number of threads.

    libpcap is a table of the handles it has given out and not yet closed.  What a constructor learns about a device
    (does it open, is its link type known, is it put in nonblocking state) is part of the input.  Objects are known by
    id(object): two objects that exist at the same time differ in it, but an id may be used again once an object is
    gone.  The lock's blocks that hold one dictionary operation are single steps; setting a filter on all devices holds
    the lock over one step per device.  Left out: messages, option setters, statistics, and receiving (see RdevModel). *)
From Coq Require Import List ZArith Bool.
From Verif Require Import Dict.
Import ListNotations.

(** ** Python dictionaries with number keys: a key keeps its place when its value is replaced *)
Section N.
Context {V : Type}.
Fixpoint nget (d : list (nat * V)) (k : nat) : option V :=
  match d with [] => None | (k', v) :: d => if Nat.eqb k' k then Some v else nget d k end.
Fixpoint nset (d : list (nat * V)) (k : nat) (v : V) : list (nat * V) :=
  match d with [] => [(k, v)] | (k', w) :: d => if Nat.eqb k' k then (k, v) :: d else (k', w) :: nset d k v end.
Definition ndel (d : list (nat * V)) (k : nat) : list (nat * V) := filter (fun e => negb (Nat.eqb (fst e) k)) d.
End N.

(** A handle of libpcap: is it activated, its link type, the filter on it. *)
Record hst := mkH { h_act : bool; h_dlt : Z; h_flt : option str }.

(** What happens, oldest first.  A handle is [Some h], the null pointer [None]. *)
Inductive ev :=
| EOpen (h : nat)                               (* libpcap gives out a handle *)
| EClose (h : nat)                              (* pcap_close *)
| EFilt (t : nat) (r : option nat) (f : str)    (* _set_filter by a constructor or by set_bpf_filter_on_all_devices *)
| EUser (h : nat) (f : str)                     (* _set_filter through an object's set_filter *)
| EUse (h : nat)                                (* any other call of libpcap with the handle of an object *)
| EReady (id h : nat)                           (* a constructor returns *)
| EGone (id h : nat)                            (* close takes an object off the register *)
| EDrop (id : nat)                              (* an object is no longer referenced *)
| EKeyErr (t id : nat)                          (* close raises KeyError *)
| EFail (t : nat)                               (* a constructor raises *)
| EAll (t : nat) (f : str)                      (* set_bpf_filter_on_all_devices begins *)
| EDone (t : nat) (f : str) (ok : bool).        (* ... ends: normally, or with PcapException *)

(** Where a thread is. *)
Inductive pc :=
| PIdle
| POpened (id h : nat) (fl : option str)        (* before the lock of line 455 *)
| PCreated (id : nat) (r : option nat)          (* before the lock of line 428 *)
| POwn (id h : nat) (f : str)                   (* registered, before set_filter (459) *)
| PClosing (h : nat)                            (* off the register, before pcap_close (671) *)
| PAll (f : str) (todo : list (option nat)).    (* inside the loop (573-575), holding the lock *)

Record st := mkSt {
  reg : list (nat * option nat);                (* _OpenDevices *)
  lock : option nat;
  opn : list (nat * hst);
  nexth : nat;
  objs : list (nat * nat);                      (* objects whose constructor has returned, and their handles *)
  busy : list nat;                              (* objects under construction *)
  pcs : nat -> pc;
  log : list ev }.

Definition st0 : st := mkSt [] None [] 0 [] [] (fun _ => PIdle) [].

Definition upd (p : nat -> pc) (t : nat) (c : pc) : nat -> pc := fun u => if Nat.eqb u t then c else p u.
Definition nmem (k : nat) (l : list nat) : bool := existsb (Nat.eqb k) l.
Definition live (s : st) (id : nat) : bool := nmem id (busy s) || match nget (objs s) id with Some _ => true | None => false end.
Definition nrm (k : nat) (l : list nat) : list nat := filter (fun x => negb (Nat.eqb x k)) l.

Inductive ores := OFail | OLeak | OOk (dlt : Z).
Inductive cres := CNull | COk (dlt : Z).

Inductive act :=
| AOpen (t id : nat) (fl : option str) (r : ores)  (* constructor up to 454 *)
| ACreate (t id : nat) (r : cres)                  (* constructor with only_create up to 427 *)
| ARegister (t : nat)                              (* 428-432, 455-456 *)
| AOwn (t : nat)                                   (* 458-459 *)
| AClose (t id : nat)                              (* 668-670 *)
| APclose (t : nat)                                (* 671 *)
| AAll (t : nat) (f : str)                         (* 573 *)
| AEach (t : nat)                                  (* 574-575, and leaving the block *)
| AFilter (t id : nat) (f : str)                   (* set_filter 682-683 *)
| AActivate (t id : nat)                           (* pcap_activate (466) *)
| AUse (t id : nat)                                (* any other method that calls libpcap *)
| ADrop (id : nat).

Section Step.
(** Does pcap_compile accept this filter for this link type? *)
Variable fok : str -> Z -> bool.

(** _set_filter (290-304) on the handles: None is PcapException, or whatever a handle that is not open leads to. *)
Definition setf (o : list (nat * hst)) (r : option nat) (f : str) : option (list (nat * hst)) :=
  match r with
  | None => None
  | Some h =>
      match nget o h with
      | None => None
      | Some k => if h_act k && fok f (h_dlt k) then Some (nset o h (mkH true (h_dlt k) (Some f))) else None
      end
  end.

Definition setpc (s : st) (t : nat) (c : pc) (e : list ev) : st :=
  mkSt (reg s) (lock s) (opn s) (nexth s) (objs s) (busy s) (upd (pcs s) t c) (log s ++ e).

Definition step (s : st) (a : act) : option st :=
  match a with
  | AOpen t id fl r =>
      match pcs s t, live s id with
      | PIdle, false =>
          match r with
          | OFail => Some (setpc s t PIdle [EFail t])
          | OLeak => Some (mkSt (reg s) (lock s) (opn s ++ [(nexth s, mkH true 0 None)]) (S (nexth s)) (objs s) (busy s)
                             (pcs s) (log s ++ [EOpen (nexth s); EFail t]))
          | OOk d => Some (mkSt (reg s) (lock s) (opn s ++ [(nexth s, mkH true d None)]) (S (nexth s)) (objs s)
                             (id :: busy s) (upd (pcs s) t (POpened id (nexth s) fl)) (log s ++ [EOpen (nexth s)]))
          end
      | _, _ => None
      end
  | ACreate t id r =>
      match pcs s t, live s id with
      | PIdle, false =>
          match r with
          | CNull => Some (mkSt (reg s) (lock s) (opn s) (nexth s) (objs s) (id :: busy s)
                             (upd (pcs s) t (PCreated id None)) (log s))
          | COk d => Some (mkSt (reg s) (lock s) (opn s ++ [(nexth s, mkH false d None)]) (S (nexth s)) (objs s)
                             (id :: busy s) (upd (pcs s) t (PCreated id (Some (nexth s)))) (log s ++ [EOpen (nexth s)]))
          end
      | _, _ => None
      end
  | ARegister t =>
      match lock s, pcs s t with
      | None, POpened id h (Some f) =>
          Some (mkSt (nset (reg s) id (Some h)) None (opn s) (nexth s) (objs s) (busy s) (upd (pcs s) t (POwn id h f)) (log s))
      | None, POpened id h None =>
          Some (mkSt (nset (reg s) id (Some h)) None (opn s) (nexth s) (nset (objs s) id h) (nrm id (busy s))
                  (upd (pcs s) t PIdle) (log s ++ [EReady id h]))
      | None, PCreated id (Some h) =>
          Some (mkSt (nset (reg s) id (Some h)) None (opn s) (nexth s) (nset (objs s) id h) (nrm id (busy s))
                  (upd (pcs s) t PIdle) (log s ++ [EReady id h]))
      | None, PCreated id None =>
          Some (mkSt (nset (reg s) id None) None (opn s) (nexth s) (objs s) (nrm id (busy s))
                  (upd (pcs s) t PIdle) (log s ++ [EFail t]))
      | _, _ => None
      end
  | AOwn t =>
      match pcs s t with
      | POwn id h f =>
          match setf (opn s) (Some h) f with
          | Some o => Some (mkSt (reg s) (lock s) o (nexth s) (nset (objs s) id h) (nrm id (busy s)) (upd (pcs s) t PIdle)
                              (log s ++ [EFilt t (Some h) f; EReady id h]))
          | None => Some (mkSt (reg s) (lock s) (opn s) (nexth s) (objs s) (nrm id (busy s)) (upd (pcs s) t PIdle)
                            (log s ++ [EFilt t (Some h) f; EFail t]))
          end
      | _ => None
      end
  | AClose t id =>
      match lock s, pcs s t, nget (objs s) id with
      | None, PIdle, Some h =>
          match nget (reg s) id with
          | Some _ => Some (mkSt (ndel (reg s) id) None (opn s) (nexth s) (objs s) (busy s) (upd (pcs s) t (PClosing h))
                              (log s ++ [EGone id h]))
          | None => Some (setpc s t PIdle [EKeyErr t id])
          end
      | _, _, _ => None
      end
  | APclose t =>
      match pcs s t with
      | PClosing h => Some (mkSt (reg s) (lock s) (ndel (opn s) h) (nexth s) (objs s) (busy s) (upd (pcs s) t PIdle)
                              (log s ++ [EClose h]))
      | _ => None
      end
  | AAll t f =>
      match lock s, pcs s t with
      | None, PIdle => Some (mkSt (reg s) (Some t) (opn s) (nexth s) (objs s) (busy s)
                               (upd (pcs s) t (PAll f (map snd (reg s)))) (log s ++ [EAll t f]))
      | _, _ => None
      end
  | AEach t =>
      match pcs s t with
      | PAll f [] => Some (mkSt (reg s) None (opn s) (nexth s) (objs s) (busy s) (upd (pcs s) t PIdle)
                             (log s ++ [EDone t f true]))
      | PAll f (r :: todo) =>
          match setf (opn s) r f with
          | Some o => Some (mkSt (reg s) (lock s) o (nexth s) (objs s) (busy s) (upd (pcs s) t (PAll f todo))
                              (log s ++ [EFilt t r f]))
          | None => Some (mkSt (reg s) None (opn s) (nexth s) (objs s) (busy s) (upd (pcs s) t PIdle)
                            (log s ++ [EFilt t r f; EDone t f false]))
          end
      | _ => None
      end
  | AFilter t id f =>
      match pcs s t, nget (objs s) id with
      | PIdle, Some h =>
          Some (mkSt (reg s) (lock s) (match setf (opn s) (Some h) f with Some o => o | None => opn s end) (nexth s) (objs s)
                  (busy s) (pcs s) (log s ++ [EUser h f]))
      | _, _ => None
      end
  | AActivate t id =>
      match pcs s t, nget (objs s) id with
      | PIdle, Some h =>
          Some (mkSt (reg s) (lock s)
                  (match nget (opn s) h with Some k => nset (opn s) h (mkH true (h_dlt k) (h_flt k)) | None => opn s end)
                  (nexth s) (objs s) (busy s) (pcs s) (log s ++ [EUse h]))
      | _, _ => None
      end
  | AUse t id =>
      match pcs s t, nget (objs s) id with
      | PIdle, Some h => Some (setpc s t PIdle [EUse h])
      | _, _ => None
      end
  | ADrop id =>
      match nget (objs s) id with
      | Some _ => Some (mkSt (reg s) (lock s) (opn s) (nexth s) (ndel (objs s) id) (busy s) (pcs s) (log s ++ [EDrop id]))
      | None => None
      end
  end.

(** Any schedule: an action that is not possible where it stands is passed over. *)
Definition next (s : st) (a : act) : st := match step s a with Some s' => s' | None => s end.
Definition run (l : list act) : st := fold_left next l st0.
End Step.
