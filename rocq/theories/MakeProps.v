(** C114: making test events (testing.py). *)
From Verif Require Import BaseLemmas Dict EthModel PacketModel TestModel MakeModel MakeSpec MakeProofs.
#[local] Open Scope string_scope.
#[local] Open Scope Z_scope.
#[local] Open Scope list_scope.

Definition mk_frame (t : Z) : packet := [HEth (mkEth [2; 0; 0; 0; 0; 2] [2; 0; 0; 0; 0; 1] t)].
Definition mk_known (c : hcls) (a : str) : bool := existsb (str_eqb a) (attr_names c).
Definition always : predicate := fun _ => Ok true.
Definition two : list arg := [GStr "eth0"; GPkt (mk_frame 0x800); GStr "eth1"; GPkt (mk_frame 0x806)].
Definition both : kwargs := mkKw (Some (Many [PStr (EFun always)])) (Some (PStr (EFun always))) (Some (Many [WSeq [WCls CEth; WStr "src"]])) (Some (WSeq [WCls CEth; WStr "dst"])) None.

(** Right arguments: the event is made; it expects on each device the last packet given for it, with all wildcards and all
    predicates given, by whichever keyword, and nothing on other devices. *)
Theorem C114_made : forall known pairs args kw ps ws fs wcs, right_args pairs args -> pairs <> [] ->
  given (k_predicates kw) (k_predicate kw) ps -> given (k_wildcards kw) (k_wildcard kw) ws -> right_preds fs ps -> right_wilds known wcs ws ->
  (forall dev p, In (dev, p) pairs -> match k_exact kw with Some b => b | None => true end = true -> readable p = Ok tt) ->
  exists e, make_out known args kw = Ok e /\
    (forall dev p, last_given pairs dev p -> kget (KS dev) e = Some (RPkt (mkM p (match k_exact kw with Some b => b | None => true end) wcs fs))) /\
    (forall dev, kget (KS dev) e <> None -> In dev (map fst pairs)).
Proof. exact made_expects. Qed.
Print Assumptions C114_made.
Example C114_made_ex : right_args [("eth0", mk_frame 0x800); ("eth1", mk_frame 0x806)] two /\ given (k_predicates both) (k_predicate both) [PStr (EFun always); PStr (EFun always)] /\
  given (k_wildcards both) (k_wildcard both) [WSeq [WCls CEth; WStr "src"]; WSeq [WCls CEth; WStr "dst"]] /\
  right_wilds mk_known [(CEth, "src"); (CEth, "dst")] [WSeq [WCls CEth; WStr "src"]; WSeq [WCls CEth; WStr "dst"]] /\ readable (mk_frame 0x800) = Ok tt /\
  last_given [("eth0", mk_frame 0x800); ("eth1", mk_frame 0x806)] "eth0" (mk_frame 0x800).
Proof. split; [reflexivity|]. split; [split; [discriminate|reflexivity]|]. split; [split; [discriminate|reflexivity]|]. split; [split; [reflexivity|repeat constructor]|].
  split; [reflexivity|]. exists [], [("eth1", mk_frame 0x806)]. split; [reflexivity|]. intros [H|[]]; discriminate. Qed.

(** The event made is the one that C30 to C36 are about. *)
Theorem C114_as_modelled : forall known pairs args kw ps ws fs wcs, right_args pairs args -> pairs <> [] ->
  given (k_predicates kw) (k_predicate kw) ps -> given (k_wildcards kw) (k_wildcard kw) ws -> right_preds fs ps -> right_wilds known wcs ws ->
  make_out known args kw = (o <- out_new pairs (match k_exact kw with Some b => b | None => true end) wcs fs;; Ok (map (fun x => (KS (fst x), RPkt (snd x))) (oe_wait o))).
Proof. exact made. Qed.
Print Assumptions C114_as_modelled.

(** Which arguments are accepted: exactly those with predicates that are functions written in strings, wildcards that are
    pairs of a header class and an attribute of it, and a positive even number of positional arguments in which no device
    is a packet and no packet is a number.  All others raise an exception at once. *)
Theorem C114_accepted : forall known args kw, (exists e, make_out known args kw = Ok e) <->
  exists ps ws fs wcs, given (k_predicates kw) (k_predicate kw) ps /\ given (k_wildcards kw) (k_wildcard kw) ws /\
    right_preds fs ps /\ right_wilds known wcs ws /\ args <> [] /\ usable_args (match k_exact kw with Some b => b | None => true end) args.
Proof. exact accepted_iff. Qed.
Print Assumptions C114_accepted.
Definition no_kw : kwargs := mkKw None None None None None.
Example C114_accepted_ex : (exists e, make_out mk_known two both = Ok e) /\ make_out mk_known [GStr "eth0"] no_kw = Err EValue /\
  make_out mk_known two (mkKw None (Some (PStr ENotFun)) None None None) = Err EName /\
  make_out mk_known two (mkKw None None None (Some (WSeq [WCls CEth; WStr "nope"])) None) = Err EValue /\
  make_out mk_known [GPkt (mk_frame 0x800); GStr "eth0"] no_kw = Err EType.
Proof. split; [eexists; reflexivity|]. repeat split. Qed.

(** A string is accepted where a packet should be. *)
Theorem C114_text_packet_refuted : exists known args kw e, args = [GStr "eth0"; GStr "eth1"] /\ make_out known args kw = Ok e /\ kget (KS "eth0") e = Some (RText "eth1").
Proof. exists mk_known. eexists. exists no_kw. eexists. split; [reflexivity|]. split; reflexivity. Qed.
Print Assumptions C114_text_packet_refuted.

(** Of two packets given for one device the first is dropped, and never expected. *)
Theorem C114_repeated_device_refuted : exists known p q e, p <> q /\ make_out known [GStr "eth0"; GPkt p; GStr "eth0"; GPkt q] no_kw = Ok e /\
  forall k m, In (k, RPkt m) e -> m_ref m <> p.
Proof. exists mk_known, (mk_frame 0x800), (mk_frame 0x806). eexists. split; [discriminate|]. split; [reflexivity|]. intros k m [H|[]]. injection H as <- <-. discriminate. Qed.
Print Assumptions C114_repeated_device_refuted.

(** Which exception: the first wrong wildcard decides, and when there is none the first wrong predicate. *)
Theorem C114_reason : forall known args kw ps ws, args <> [] -> Nat.odd (List.length args) = false ->
  given (k_predicates kw) (k_predicate kw) ps -> given (k_wildcards kw) (k_wildcard kw) ws ->
  (forall wcs a w t e, ws = a ++ w :: t -> right_wilds known wcs a -> bad_wild known w e -> make_out known args kw = Err e) /\
  (forall wcs fs a p t e, right_wilds known wcs ws -> ps = a ++ p :: t -> right_preds fs a -> bad_pred p e -> make_out known args kw = Err e).
Proof. exact first_fault. Qed.
Print Assumptions C114_reason.
Example C114_reason_ex : make_out mk_known two (mkKw (Some (Many [PStr (EFun always); PObj; PStr ENotFun])) None (Some (Many [WSeq [WAlien; WStr "x"]; WObj])) None None) = Err EValue /\
  make_out mk_known two (mkKw (Some (Many [PStr (EFun always); PObj; PStr ENotFun])) None None None None) = Err EExc /\
  bad_pred PObj EExc /\ bad_wild mk_known (WSeq [WItem; WStr "x"]) EType.
Proof. split; [reflexivity|]. split; [reflexivity|]. split; [constructor|]. constructor; discriminate. Qed.

(** copyfromlastout: one rule of five parts, or a list of such rules, is kept as given. *)
Theorem C114_copy_one : forall l s t, l = CStr s :: t -> List.length l = 5%nat -> exists c, make_copy (Some (CSeq l)) = Ok c /\ rules_of c = Ok [l].
Proof. exact copy_one. Qed.
Print Assumptions C114_copy_one.
Theorem C114_copy_many : forall rs, rs <> [] -> Forall (fun r => List.length r = 5%nat) rs -> exists c, make_copy (Some (CSeq (map CSeq rs))) = Ok c /\ rules_of c = Ok rs.
Proof. exact copy_many. Qed.
Print Assumptions C114_copy_many.
Definition crule : list citem := [CStr "eth0"; CObj; CStr "src"; CObj; CStr "dst"].
Example C114_copy_ex : List.length crule = 5%nat /\ rules_of (Some (CSeq [CSeq crule; CSeq crule])) = Ok [crule; crule].
Proof. split; reflexivity. Qed.
(** A rule of four parts is accepted when the event is made, and fails when the packet is to be delivered. *)
Theorem C114_copy_refuted : exists l c, List.length l = 4%nat /\ make_copy (Some (CSeq l)) = Ok c /\ rules_of c = Err EValue.
Proof. exists [CStr "eth0"; CObj; CStr "src"; CObj]. eexists. split; [reflexivity|]. split; reflexivity. Qed.
Print Assumptions C114_copy_refuted.

(** Without arguments, or with an odd number of them, there is no event: ValueError. *)
Theorem C114_nothing : forall known args exact wc preds kw ps ws, args = [] \/ Nat.odd (List.length args) = true -> given (k_predicates kw) (k_predicate kw) ps -> given (k_wildcards kw) (k_wildcard kw) ws ->
  make_out known args kw = Err EValue /\ out_new [] exact wc preds = Err EValue.
Proof.
  intros known args exact wc preds kw ps ws A P W. split; [|reflexivity]. apply collect_iff in P, W. unfold make_out. rewrite P, W. cbn [bindr]. destruct args; [reflexivity|]. destruct A as [A|A]; [discriminate|]. rewrite A. reflexivity.
Qed.
Print Assumptions C114_nothing.
Example C114_nothing_ex : make_out mk_known [] both = Err EValue.
Proof. reflexivity. Qed.
