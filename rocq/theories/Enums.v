(** IntEnum member values, switchyard/lib/packet/common.py. Aliases appear once. *)
From Verif Require Import Base.

(** EtherType (common.py:7-36). *)
Definition etNoType := 0xFFFF.
Definition etIP := 0x0800.
Definition etARP := 0x0806.
Definition etVlan := 0x8100.
Definition etIPv6 := 0x86dd.
Definition EtherTypes : list Z :=
  [0xFFFF; 0x05dc; 0x0800; 0x0806; 0x0842; 0x22F0; 0x22F3; 0x22EA; 0x8035; 0x8100; 0x8102; 0x8103;
   0x8137; 0x86dd; 0x8809; 0x8847; 0x8848; 0x888e; 0x88a8; 0x88a2; 0x88a4; 0x88bb; 0x88cc; 0x88e7; 0x88f7].
(** ArpHwType (common.py:39-40), ArpOperation (common.py:43-47). *)
Definition ArpHwTypes : list Z := [1].
Definition ArpOperations : list Z := [1; 2; 3; 4].
Definition arpRequest := 1.
Definition arpReply := 2.
(** IPProtocol (common.py:50-76). *)
Definition ipICMP := 1.
Definition ipTCP := 6.
Definition ipUDP := 17.
Definition ipICMPv6 := 58.
Definition IPProtocols : list Z :=
  [0; 1; 2; 4; 6; 17; 41; 43; 44; 46; 47; 50; 51; 55; 56; 58; 59; 60; 88; 89; 94; 97; 132; 135; 137; 140].
(** IPFragmentFlag (common.py:79-82). *)
Definition IPFragmentFlags : list Z := [0; 2; 4].
(** IPOptionNumber (common.py:85-94). *)
Definition IPOptionNumbers : list Z := [0; 1; 3; 4; 7; 9; 11; 12; 20].
(** ICMPType (common.py:98-113) and ICMPTypeCodeMap (209-225). *)
Definition ICMPTypes : list Z := [0; 3; 4; 5; 8; 9; 10; 11; 12; 13; 14; 15; 16; 17; 18].
Definition icmp_codes (t : Z) : option (list Z) :=
  if zmem t ICMPTypes then
    Some (if t =? 3 then [0;1;2;3;4;5;6;7;8;9;10;11;12;13;14;15]    (* 120-136 *)
          else if t =? 5 then [0;1;2;3]                             (* 155-159 *)
          else if t =? 11 then [0;1]                                (* 174-176 *)
          else if t =? 12 then [0;1;2]                              (* 179-182 *)
          else [0])
  else None.
(** ICMPv6Type (common.py:228-267), ICMPv6TypeCodeMap (306-319): no entry for most types. *)
Definition ICMPv6Types : list Z :=
  [1; 2; 3; 4; 100; 101; 128; 129; 130; 131; 132; 133; 134; 135; 136; 137; 138; 139; 140; 141; 142; 143; 144;
   145; 146; 147; 148; 149; 150; 151; 152; 153; 154; 155; 156; 157; 158; 200; 201].
Definition icmp6_codes (t : Z) : option (list Z) :=
  if t =? 1 then Some [0;1;2;3;4;5;6;7;8]                           (* 139-148 *)
  else if zmem t [128; 129; 130; 131; 132; 133; 134; 135; 136; 137; 143] then Some [0] else None.
(** ICMPv6OptionNumber (common.py:323-328). *)
Definition ICMPv6OptionNumbers : list Z := [1; 2; 3; 4; 5].
