(** What a user expects of header attributes, independently of the setters. *)
From Verif Require Import Base EthAddrModel Enums PacketModel FieldModel.

Definition rng (lo hi z : Z) : option gval := if (lo <=? z) && (z <=? hi) then Some (GInt z) else None.
Definition mem (l : list Z) (z : Z) : option gval := if zmem z l then Some (GInt z) else None.
Definition hw (x : etharg) : option gval := match eth_init x with Ok a => Some (GHw a) | Err _ => None end.
Definition ip (ls : list nat) (b : bytes) : option gval :=
  if existsb (Nat.eqb (length b)) ls then Some (GIp b) else None.

(** [ideal c a v]: the value attribute [a] of a [c] header reads after [v] was assigned to it, if the protocol's
    field can hold [v]. *)
Definition ideal (c : hcls) (a : fld) (v : aval) : option gval :=
  match c, a, v with
  | CEth, (FSrc | FDst), AHw x => hw x
  | CEth, FEthertype, AInt z => mem EtherTypes z
  | CVlan, FVlanid, AInt z => rng 0 4095 z
  | CVlan, FPcp, AInt z => rng 0 7 z
  | CVlan, FEthertype, AInt z => mem EtherTypes z
  | CArp, FOperation, AInt z => mem ArpOperations z
  | CArp, (FSenderHw | FTargetHw), AHw x => hw x
  | CArp, (FSenderProto | FTargetProto), AIp b => ip [4%nat; 16%nat] b
  | CIp4, FTtl, AInt z => rng 0 255 z
  | CIp4, FTos, AInt z => rng 0 255 z
  | CIp4, FDscp, AInt z => rng 0 63 z
  | CIp4, FEcn, AInt z => rng 0 3 z
  | CIp4, FIpid, AInt z => rng 0 65535 z
  | CIp4, FProtocol, AInt z => mem IPProtocols z
  | CIp4, (FSrc | FDst), AIp b => ip [4%nat; 16%nat] b
  | CIp4, FFlags, AInt z => mem IPFragmentFlags z
  | CIp4, FFragOff, AInt z => rng 0 8191 z
  | CIp6, FTrafficClass, AInt z => rng 0 255 z
  | CIp6, FFlowLabel, AInt z => rng 0 1048575 z
  | CIp6, FNextHeader, AInt z => mem IPProtocols z
  | CIp6, (FTtl | FHopLimit), AInt z => rng 0 255 z
  | CIp6, (FSrc | FDst), AIp b => ip [16%nat] b
  | CUdp, (FSrc | FDst), AInt z => rng 0 65535 z
  | CTcp, (FSrc | FDst | FWindow | FUrg), AInt z => rng 0 65535 z
  | CTcp, (FSeq | FAck), AInt z => rng 0 4294967295 z
  | CTcp, FBit _, ABool b => Some (GBool b)
  | CTcp, FBit _, AInt z => Some (GBool (negb (z =? 0)))
  | _, _, _ => None
  end.

(** Attributes that show (part of) the same stored information. *)
Definition family (c : hcls) (a : fld) : Z :=
  match c, a with
  | CIp4, (FTos | FDscp | FEcn) => 1
  | CIp6, (FTtl | FHopLimit) => 2
  | _, _ => 0
  end.
Definition overlaps (c : hcls) (a b : fld) : Prop :=
  a = b \/ (family c a <> 0 /\ family c a = family c b) \/
  (c = CTcp /\ ((a = FFlags /\ exists x, b = FBit x) \/ (b = FFlags /\ exists x, a = FBit x))).

(** What a freshly constructed header shows. *)
Definition documented_default (c : hcls) (a : fld) : option gval :=
  match c, a with
  | CEth, (FSrc | FDst) => Some (GHw [0;0;0;0;0;0])
  | CEth, FEthertype => Some (GInt 0x0800)
  | CVlan, (FVlanid | FPcp) => Some (GInt 0)
  | CVlan, FEthertype => Some (GInt 0x0800)
  | CArp, FHwType => Some (GInt 1)
  | CArp, FProtoType => Some (GInt 0x0800)
  | CArp, FOperation => Some (GInt 1)
  | CArp, FSenderHw => Some (GHw [0;0;0;0;0;0])
  | CArp, FTargetHw => Some (GHw [255;255;255;255;255;255])
  | CArp, (FSenderProto | FTargetProto) => Some (GIp [0;0;0;0])
  | CIp4, FTotalLen => Some (GInt 20)
  | CIp4, FProtocol => Some (GInt 1)
  | CIp4, (FSrc | FDst) => Some (GIp [0;0;0;0])
  | CIp4, (FTtl | FTos | FDscp | FEcn | FIpid | FFlags | FFragOff) => Some (GInt 0)
  | CIp6, FNextHeader => Some (GInt 58)
  | CIp6, (FTtl | FHopLimit) => Some (GInt 128)
  | CIp6, (FTrafficClass | FFlowLabel) => Some (GInt 0)
  | CIp6, (FSrc | FDst) => Some (GIp [0;0;0;0;0;0;0;0;0;0;0;0;0;0;0;0])
  | CUdp, FLength => Some (GInt 8)
  | CUdp, (FSrc | FDst | FChecksum) => Some (GInt 0)
  | CTcp, FOffset => Some (GInt 5)
  | CTcp, (FSrc | FDst | FSeq | FAck | FWindow | FUrg | FFlags | FChecksum) => Some (GInt 0)
  | CTcp, FBit _ => Some (GBool false)
  | _, _ => None
  end.

(** The assignments on which the code departs from [ideal]. *)
Definition faithful (c : hcls) (a : fld) (v : aval) : Prop :=
  match c, a, v with
  | CIp4, FEcn, _ => False
  | CVlan, FPcp, AInt z => z <= 3
  | _, _, _ => True
  end.
(** The attributes whose setter checks its argument. *)
Definition validated (c : hcls) (a : fld) : Prop :=
  match c, a with
  | CVlan, (FVlanid | FPcp) => False
  | CIp6, (FTrafficClass | FFlowLabel | FTtl | FHopLimit) => False
  | (CUdp | CTcp), _ => False
  | _, _ => True
  end.
(** The kind of value an attribute is meant for. *)
Definition kind_ok (c : hcls) (a : fld) (v : aval) : Prop :=
  match c, a, v with
  | CEth, (FSrc | FDst), AHw _ => True
  | CEth, FEthertype, AInt _ => True
  | CVlan, FEthertype, AInt _ => True
  | CArp, FOperation, AInt _ => True
  | CArp, (FSenderHw | FTargetHw), AHw _ => True
  | CArp, (FSenderProto | FTargetProto), AIp _ => True
  | CIp4, (FTtl | FTos | FDscp | FEcn | FIpid | FProtocol | FFlags | FFragOff), AInt _ => True
  | CIp4, (FSrc | FDst), AIp _ => True
  | CIp6, FNextHeader, AInt _ => True
  | CIp6, (FSrc | FDst), AIp _ => True
  | _, _, _ => False
  end.
