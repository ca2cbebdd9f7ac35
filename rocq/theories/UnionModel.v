(** Several topologies in one program: switchyard/lib/topo/topobuild.py, Topology.union (392-411), with the node objects
    that topologies share afterwards.
    A topology of TopoModel.v holds its node objects as values.  Here the objects are in a heap and a topology holds
    their places in the order of its nodes; an operation reads the objects, works as in TopoModel.v and writes them back.
    Left out: a union of two topologies that already share an object (a node would be in one graph under two names). *)
From Verif Require Export TopoModel.
#[local] Open Scope list_scope.

(** A graph, with the place of every node object. *)
Record wtop := mkW { w_t : topo; w_ids : list nat }.
Record world := mkWorld { w_heap : list tnode; w_tops : list wtop }.
Definition world0 : world := mkWorld [] [].
Definition deref (h : list tnode) (i : nat) : tnode := nth i h (node_new Host).
(** A topology with what its node objects hold now. *)
Definition show (h : list tnode) (x : wtop) : topo := with_nodes (combine (nodes (w_t x)) (map (deref h) (w_ids x))) (w_t x).
Definition look (i : nat) (w : world) : option topo := option_map (show (w_heap w)) (nth_error (w_tops w) i).
Fixpoint put_at {A} (i : nat) (x : A) (l : list A) : list A :=
  match l, i with [], _ => [] | _ :: r, O => x :: r | y :: r, S j => y :: put_at j x r end.
Definition write (h : list tnode) (ids : list nat) (ns : list tnode) : list tnode :=
  fold_left (fun h x => put_at (fst x) (snd x) h) (combine ids ns) h.

(** Topology() (85-94). *)
Definition w_new (name : str) (auto : bool) (w : world) : world := mkWorld (w_heap w) (w_tops w ++ [mkW (topo_new name auto) []]).
(** A method of topology i.  __addNode makes an object (131); removeNode drops one (198); loading makes new ones
    (283-285); prefixing keeps the objects (relabel_nodes copies the attributes of a node, not the object, 360); the
    other methods change objects in place. *)
Definition w_op (i : nat) (o : topo_op) (w : world) : world :=
  match nth_error (w_tops w) i with
  | None => w
  | Some x =>
      let h := w_heap w in
      let t := show h x in
      let t' := topo_step t o in
      let '(h, ids) :=
        match o with
        | TAdd _ _ => let new := map snd (skipn (List.length (w_ids x)) (tp_nodes t')) in (h ++ new, w_ids x ++ seq (List.length h) (List.length new))
        | TRemoveNode n => (h, map snd (ddel n (combine (nodes t) (w_ids x))))
        | TReload => match unserialize (serialize t) with
                     | Ok _ => (h ++ map snd (tp_nodes t'), seq (List.length h) (List.length (tp_nodes t')))
                     | Err _ => (h, w_ids x)
                     end
        | _ => (write h (w_ids x) (map snd (tp_nodes t')), w_ids x)
        end in
      mkWorld h (put_at i (mkW t' ids) (w_tops w))
  end.
Definition disjoint (a b : list nat) : bool := forallb (fun i => negb (existsb (Nat.eqb i) b)) a.
(** union (392-411): with [ren] the graphs of both arguments are replaced first (406-408), the other one even when
    nx.union then fails.  The new topology holds the same objects. *)
Definition w_union (ren : bool) (i j : nat) (w : world) : world * option exn :=
  match nth_error (w_tops w) i, nth_error (w_tops w) j with
  | Some x, Some y =>
      if disjoint (w_ids x) (w_ids y) then
        let h := w_heap w in
        let a := show h x in
        let b := show h y in
        match (if ren then relabel (tp_name a) a else Ok a) with
        | Err e => (w, Some e)
        | Ok a =>
            let tops := put_at i (mkW a (w_ids x)) (w_tops w) in
            match (if ren then relabel (tp_name b) b else Ok b) with
            | Err e => (mkWorld h tops, Some e)
            | Ok b =>
                let tops := put_at j (mkW b (w_ids y)) tops in
                match union false a b with
                | Err e => (mkWorld h tops, Some e)
                | Ok t => (mkWorld h (tops ++ [mkW t (w_ids x ++ w_ids y)]), None)
                end
            end
        end
      else (w, Some EFuel)
  | _, _ => (w, Some EFuel)
  end.
Inductive w_act := WNew (name : str) (auto : bool) | WOp (i : nat) (o : topo_op) | WUnion (ren : bool) (i j : nat).
Definition w_step (w : world) (a : w_act) : world :=
  match a with WNew n auto => w_new n auto w | WOp i o => w_op i o w | WUnion r i j => fst (w_union r i j w) end.
Definition w_run (w : world) (l : list w_act) : world := fold_left w_step l w.
