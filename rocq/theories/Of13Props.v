(** OpenFlow 1.3 messages (C100). *)
From Verif Require Import Base BaseLemmas OfModel OfSpec OfLayout Of13Model Of13Spec Of13Proofs.

(** Messages that are a bare header. *)
Theorem C100_bare_partial : forall ver ty xid, bare13 ty -> 0 <= ver < 256 -> 0 <= xid < 2 ^ 32 ->
  ser13 (build13 (TEnum ty) xid ver) = Ok (message13 ver ty xid []).
Proof. exact bare_wire. Qed.
Print Assumptions C100_bare_partial.
Example C100_bare_case : bare13 20 /\ ser13 (build13 (TEnum 20) 7 4) = Ok [4; 20; 0; 8; 0; 0; 0; 7].
Proof. split; [cbn; tauto|vm_compute; reflexivity]. Qed.

(** Error, echo, experimenter and configuration messages, whatever was assigned to their
    attributes in whatever order, failed assignments included. *)
Theorem C100_layout_partial : forall ver ty xid b0 l w,
  body13_new ty = Some b0 -> wire13 (edit13 b0 l) = Some w -> room13 (edit13 b0 l) ->
  0 <= ver < 256 -> 0 <= xid < 2 ^ 32 -> 8 + zlen w < 65536 ->
  ser13 (hdr13_new (TEnum ty) xid ver, Some (edit13 b0 l)) = Ok (message13 ver ty xid w).
Proof. exact layout. Qed.
Print Assumptions C100_layout_partial.
Example C100_layout_case :
  ser13 (hdr13_new (TEnum 1) 9 4, Some (edit13 (XError None None []) [AErrCode 1; AErrType 77; AErrType 3; AErrCode 9; AData [1; 2]]))
  = Ok (u8 4 ++ u8 1 ++ u16 14 ++ u32 9 ++ u16 3 ++ u16 1 ++ [1; 2]).
Proof. vm_compute. reflexivity. Qed.

(** The last values assigned are the ones sent: echo (2, 3), experimenter (4), get-config reply
    and set-config (8, 9), error (1).  An error code counts if it belongs to the type the error
    has when it is assigned. *)
Theorem C100_assigned_partial :
  (forall ty l, ty = 2 \/ ty = 3 -> exists b0, body13_new ty = Some b0 /\ edit13 b0 l = XEcho (last_of to_data l [])) /\
  (forall l, exists b0, body13_new 4 = Some b0 /\ edit13 b0 l = XExp (last_of to_vendor l 0) (last_of to_data l [])) /\
  (forall ty l, ty = 8 \/ ty = 9 ->
     exists b0, body13_new ty = Some b0 /\ edit13 b0 l = XConfig (last_of to_flags l 0) (last_of to_miss l 1500)) /\
  (forall l, exists b0 c, body13_new 1 = Some b0 /\ edit13 b0 l = XError (last_of to_type l None) c (last_of to_data l [])) /\
  (forall l t c m, last_of to_type l None = Some t -> In c (error_codes t) -> no_code m ->
     exists b0 t' x, body13_new 1 = Some b0 /\ edit13 b0 (l ++ AErrCode c :: m) = XError t' (Some c) x).
Proof.
  repeat apply conj.
  - intros ty l [->| ->]; eexists; (split; [reflexivity|apply assign_echo]).
  - intros l; eexists; (split; [reflexivity|apply assign_exp]).
  - intros ty l [->| ->]; eexists; (split; [reflexivity|apply assign_config]).
  - intros l. destruct (assign_error l None None []) as [c E]. eexists. exists c. split; [reflexivity|exact E].
  - intros l t c m H1 H2 H3. destruct (assign_code l t c m H1 H2 H3) as (t' & x & E). eexists. exists t', x. split; [reflexivity|exact E].
Qed.
Print Assumptions C100_assigned_partial.
Example C100_assigned_case : last_of to_flags [AMiss 40; AFlags 2; AFlags 9; AData [1]] 0 = 2 /\
  last_of to_miss [AMiss 40; AFlags 2; AFlags 9; AData [1]] 1500 = 40 /\
  last_of to_type [AErrType 3; AErrType 17; AData [1]] None = Some 3 /\ In 5 (error_codes 3) /\ no_code [AErrType 1; AData []].
Proof. repeat split; try reflexivity; [cbn; tauto|]. intros c [H|[H|[]]]; discriminate H. Qed.

(** A fresh body of the same class reads such a body back. *)
Theorem C100_read_partial : forall ty b0 l w,
  body13_new ty = Some b0 -> wire13 (edit13 b0 l) = Some w -> room13 (edit13 b0 l) -> paired (edit13 b0 l) ->
  body13_from b0 w = Ok (edit13 b0 l).
Proof. exact read_back. Qed.
Print Assumptions C100_read_partial.
Example C100_read_case : exists b0, body13_new 1 = Some b0 /\ paired (edit13 b0 [AErrType 4; AErrCode 1; AData [5]]) /\
  wire13 (edit13 b0 [AErrType 4; AErrCode 1; AData [5]]) = Some [0; 4; 0; 1; 5].
Proof. eexists. split; [reflexivity|]. split; [cbn; tauto|reflexivity]. Qed.

(** ... but not an error whose type was changed after its code. *)
Theorem C100_read_refuted : exists b0 l w e,
  body13_new 1 = Some b0 /\ body13_to (edit13 b0 l) = Ok w /\ body13_from b0 w = Err e.
Proof. exists (XError None None []), [AErrType 1; AErrCode 8; AErrType 4], [0; 4; 0; 8], EValue. repeat split; reflexivity. Qed.
Print Assumptions C100_read_refuted.

(** No byte string is parsed as an OpenFlow 1.3 message. *)
Theorem C100_parse_fails : forall raw, wfb raw -> exists e, parse13 raw = Err e /\ (e = EExc \/ e = EValue \/ e = EAttr).
Proof. exact parse_fails. Qed.
Print Assumptions C100_parse_fails.
Theorem C100_round_refuted : exists ty xid raw e, ser13 (build13 (TEnum ty) xid 4) = Ok raw /\ parse13 raw = Err e.
Proof. exists 0, 1, [4; 0; 0; 8; 0; 0; 0; 1], EAttr. split; reflexivity. Qed.
Print Assumptions C100_round_refuted.

(** Flow-mod, flow-removed, port-mod, port-status, features, packet-in and packet-out messages
    cannot be serialised, whatever is assigned; all but flow-removed cannot be read either. *)
Theorem C100_broken_fails : forall ty, broken13 ty -> exists b0, body13_new ty = Some b0 /\
  (forall l h, raises (ser13 (h, Some (edit13 b0 l)))) /\
  (ty <> 11 -> forall raw, raises (body13_from b0 raw)).
Proof.
  intros ty B. destruct (broken_has_body ty B) as [b0 N]. exists b0. split; [exact N|].
  split; intros; [eapply ser_broken; eauto|eapply read_broken; eauto].
Qed.
Print Assumptions C100_broken_fails.
Example C100_broken_case : broken13 14 /\ ser13 (build13 (TEnum 14) 1 4) = Err EName /\ ser13 (build13 (TEnum 10) 1 4) = Err EStruct.
Proof. repeat split; try reflexivity. cbn; tauto. Qed.

(** A header given its type as a plain number cannot be serialised. *)
Theorem C100_number_fails : forall t xid ver ob, raises (ser13 (hdr13_new (TInt t) xid ver, ob)).
Proof. exact int_type. Qed.
Print Assumptions C100_number_fails.

(** A queue configuration request never has the 1.3 layout (its port number is 16 bits wide). *)
Theorem C100_queue_fails : forall p l xid ver,
  ser13 (hdr13_new (TEnum 22) xid ver, Some (edit13 (XQueueReq p) l)) <> Ok (message13 ver 22 xid (queue_request13 p)).
Proof. exact queue_short. Qed.
Print Assumptions C100_queue_fails.
Example C100_queue_case : ser13 (hdr13_new (TEnum 22) 1 4, Some (XQueueReq 3)) = Ok [4; 22; 0; 12; 0; 0; 0; 1; 0; 3; 0; 0].
Proof. reflexivity. Qed.

(** C100.  Which exception: a plain Exception for fewer than eight bytes, ValueError for a type that does not exist, AttributeError for all
    others. *)
Theorem C100_parse_reason : forall v t l1 l2 x1 x2 x3 x4 rest raw, (List.length raw < 8)%nat ->
  parse13 raw = Err EExc /\ parse13 ([v; t; l1; l2; x1; x2; x3; x4] ++ rest) = Err (if (0 <=? t) && (t <=? 29) then EAttr else EValue).
Proof.
  intros v t l1 l2 x1 x2 x3 x4 rest raw L. split; [unfold parse13, hdr13_from; replace (Nat.ltb (List.length raw) 8) with true by (symmetry; apply Nat.ltb_lt; exact L); reflexivity|].
  assert (E : exists w l x, unpack hdr_fmt [v; t; l1; l2; x1; x2; x3; x4] = Ok [VI w; VI t; VI l; VI x]).
  { assert (E : exists w s l x, unpack hdr_fmt [v; t; l1; l2; x1; x2; x3; x4] = Ok [VI w; VI s; VI l; VI x] /\ s = t) by (do 4 eexists; split; [reflexivity|]; change (t * 1 + 0 = t); lia).
    destruct E as (w & s & l & x & E & ->). eauto. }
  destruct E as (w & l & x & E). unfold parse13, hdr13_from. cbn [app List.length Nat.ltb Nat.leb firstn]. rewrite E. cbn [bindr]. unfold enum_of.
  assert (Z1 : zmem t Types13 = ((0 <=? t) && (t <=? 29))) by (apply eq_true_iff_eq; rewrite zmem_In, andb_true_iff, !Z.leb_le; unfold Types13; cbn [In]; lia). rewrite Z1.
  destruct ((0 <=? t) && (t <=? 29)); reflexivity.
Qed.
Print Assumptions C100_parse_reason.
Example C100_parse_reason_case : parse13 [4; 0; 0; 8; 0; 0; 0; 1] = Err EAttr /\ parse13 [4; 30; 0; 8; 0; 0; 0; 1] = Err EValue.
Proof. split; reflexivity. Qed.
(** C100.  Assigning a value that does not exist raises ValueError, assigning a port always raises NameError, and nothing is changed. *)
Theorem C100_refused : forall ty code d f m bu ip re pk acts od qs v,
  (~ 0 <= v <= 5 -> set13 (XError ty code d) (AErrType v) = (XError ty code d, Some EValue)) /\
  (~ 0 <= v <= 3 -> set13 (XConfig f m) (AFlags v) = (XConfig f m, Some EValue)) /\
  (v <> 0 -> v <> 1 -> v <> 255 -> set13 (XPacketIn bu ip re pk) (AReason v) = (XPacketIn bu ip re pk, Some EValue)) /\
  set13 (XPacketIn bu ip re pk) (AInPort v) = (XPacketIn bu ip re pk, Some EName) /\ set13 (XPacketOut bu ip acts od) (AInPort v) = (XPacketOut bu ip acts od, Some EName) /\
  set13 (XQueueReq ip) (APort v) = (XQueueReq ip, Some EName) /\ set13 (XQueueRep ip qs) (APort v) = (XQueueRep ip qs, Some EName).
Proof.
  intros ty code d f m bu ip re pk acts od qs v. assert (K : forall l, ~ In v l -> enum_of l v = Err EValue) by (intros l N; unfold enum_of; destruct (zmem v l) eqn:E; [apply zmem_In in E; contradiction|reflexivity]).
  repeat split; intros; cbn [set13]; rewrite K; try reflexivity; unfold ErrorTypes, ConfigFlags, PacketInReasons; cbn [In]; lia.
Qed.
Print Assumptions C100_refused.
