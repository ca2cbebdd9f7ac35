(** What making a test event should do (C114). *)
From Verif Require Import Base Dict PacketModel TestModel MakeModel.
#[local] Open Scope list_scope.

(** Arguments device, packet, device, packet, ... *)
Definition right_args (pairs : list (str * packet)) (args : list arg) : Prop :=
  args = List.concat (map (fun x => [GStr (fst x); GPkt (snd x)]) pairs).
(** Predicates: strings that define a function. *)
Definition right_preds (fs : list predicate) (ps : list parg) : Prop := ps = map (fun f => PStr (EFun f)) fs.
(** Wildcards: pairs of a header class and the name of an attribute of that class. *)
Definition right_wilds (known : hcls -> str -> bool) (ws : list wildcard) (l : list warg) : Prop :=
  l = map (fun w => WSeq [WCls (fst w); WStr (snd w)]) ws /\ Forall (fun w => known (fst w) (snd w) = true) ws.
(** All that was given, by the plural keyword and by the singular one. *)
Definition given {A} (m : option (many A)) (o : option A) (l : list A) : Prop :=
  m <> Some NotIter /\ l = match m with Some (Many x) => x | _ => [] end ++ match o with Some x => [x] | None => [] end.
(** The last packet given for a device. *)
Definition last_given (pairs : list (str * packet)) (dev : str) (p : packet) : Prop :=
  exists a b, pairs = a ++ (dev, p) :: b /\ ~ In dev (map fst b).

(** All that the code accepts: a packet may be a string, a device a number. *)
Fixpoint usable_args (exact : bool) (args : list arg) : Prop :=
  match args with
  | [] => True
  | dev :: p :: t => (forall q, dev <> GPkt q) /\ (forall z, p <> GNum z) /\ (forall q, p = GPkt q -> exact = true -> readable q = Ok tt) /\ usable_args exact t
  | _ => False
  end.

(** What is wrong with a wildcard, and with a predicate, and the exception for it. *)
Inductive bad_wild (known : hcls -> str -> bool) : warg -> exn -> Prop :=
| BwObject : bad_wild known WObj EValue
| BwLength l : List.length l <> 2%nat -> bad_wild known (WSeq l) EValue
| BwClass b : bad_wild known (WSeq [WAlien; b]) EValue
| BwNoClass a b : (forall c, a <> WCls c) -> a <> WAlien -> bad_wild known (WSeq [a; b]) EType
| BwName c b : (forall s, b <> WStr s) -> bad_wild known (WSeq [WCls c; b]) EValue
| BwAttr c s : known c s = false -> bad_wild known (WSeq [WCls c; WStr s]) EValue.
Inductive bad_pred : parg -> exn -> Prop :=
| BpObject : bad_pred PObj EExc
| BpOther : bad_pred (PStr ENotFun) EName
| BpFails e : bad_pred (PStr (EFails e)) e.
