(** Properties C04-C06 and C54: Ethernet addresses. *)
From Verif Require Import BaseLemmas EthAddrModel EthAddrSpec EthAddrProofs.

(** C04. For every address, reading back its text (with ':' or '-', in lower or upper case) gives the
    address; the text is 17 characters, six lower-case hex pairs separated by colons. *)
Theorem C04_text_round_trip :
  forall a, addr6 a ->
  (forall sep, sep = 58 \/ sep = 45 ->
     eth_init (AStr (to_str sep a)) = Ok a /\ eth_init (AStr (upcase (to_str sep a))) = Ok a) /\
  exists g0 g1 g2 g3 g4 g5 b0 b1 b2 b3 b4 b5,
    a = [b0; b1; b2; b3; b4; b5] /\
    to_str 58 a = g0 ++ 58 :: g1 ++ 58 :: g2 ++ 58 :: g3 ++ 58 :: g4 ++ 58 :: g5 /\
    hexpair g0 b0 /\ hexpair g1 b1 /\ hexpair g2 b2 /\ hexpair g3 b3 /\ hexpair g4 b4 /\ hexpair g5 b5 /\
    length (to_str 58 a) = 17%nat.
Proof. exact eth_text_form. Qed.
Print Assumptions C04_text_round_trip.

(** C04. Two addresses with the same text are the same address. *)
Theorem C04_text_injective :
  forall a b sep, sep = 58 \/ sep = 45 -> addr6 a -> addr6 b ->
  to_str sep a = to_str sep b -> a = b.
Proof. exact eth_text_injective. Qed.
Print Assumptions C04_text_injective.

Example C04_example :
  let a := [0x00; 0x1f; 0xa0; 0xff; 0x09; 0xbc] in
  addr6 a /\
  (* "00:1f:a0:ff:09:bc" *)
  to_str 58 a = [48;48;58;49;102;58;97;48;58;102;102;58;48;57;58;98;99] /\
  eth_init (AStr (upcase (to_str 45 a))) = Ok a.
Proof. split; [split; [repeat constructor; lia|reflexivity]|]. split; vm_compute; reflexivity. Qed.

(** C05. Comparing two address objects is comparing their unsigned 48-bit numbers (hence a strict
    total order, with == an equivalence), and equal objects hold the same bytes, which is all
    that the hash is computed from. *)
Theorem C05_compare_is_numeric :
  forall a b, addr6 a -> addr6 b ->
  eth_eq a (AEth b) = Ok (num48 a =? num48 b) /\
  eth_lt a (AEth b) = Ok (num48 a <? num48 b) /\
  (num48 a = num48 b <-> a = b).
Proof. exact eth_compare. Qed.
Print Assumptions C05_compare_is_numeric.

(** C05. Exactly one of a<b, a==b, b<a holds, < is transitive and irreflexive, equal objects hash
    equally for every hash function of the bytes. *)
Theorem C05_total_order_and_hash :
  forall a b c (hash : bytes -> Z), addr6 a -> addr6 b -> addr6 c ->
  eth_lt a (AEth a) = Ok false /\ eth_eq a (AEth a) = Ok true /\
  (eth_lt a (AEth b) = Ok true -> eth_lt b (AEth c) = Ok true -> eth_lt a (AEth c) = Ok true) /\
  (eth_eq a (AEth b) = Ok true -> eth_eq b (AEth a) = Ok true) /\
  (eth_eq a (AEth b) = Ok true -> eth_eq b (AEth c) = Ok true -> eth_eq a (AEth c) = Ok true) /\
  ((eth_lt a (AEth b) = Ok true /\ eth_eq a (AEth b) = Ok false /\ eth_lt b (AEth a) = Ok false) \/
   (eth_lt a (AEth b) = Ok false /\ eth_eq a (AEth b) = Ok true /\ eth_lt b (AEth a) = Ok false) \/
   (eth_lt a (AEth b) = Ok false /\ eth_eq a (AEth b) = Ok false /\ eth_lt b (AEth a) = Ok true)) /\
  (eth_eq a (AEth b) = Ok true -> hash a = hash b).
Proof. exact eth_order_laws. Qed.
Print Assumptions C05_total_order_and_hash.

Example C05_example :
  let a := [0; 0; 0; 0; 1; 0] in let b := [0; 0; 0; 0; 0; 255] in
  addr6 a /\ addr6 b /\ eth_lt b (AEth a) = Ok true /\ eth_lt a (AEth b) = Ok false.
Proof. repeat split; repeat constructor; lia. Qed.

(** C06. The accepted texts are exactly: six groups separated by ':' (or six by '-'), each a base-16
    numeral as Python reads it, of value 0..255; the result is the six values. *)
Theorem C06_accepted_texts :
  forall s a,
  eth_init (AStr s) = Ok a <-> address_text 58 s a \/ address_text 45 s a.
Proof. exact eth_text_exact. Qed.
Print Assumptions C06_accepted_texts.

Theorem C06_text_gives_six_bytes :
  forall s a, eth_init (AStr s) = Ok a -> addr6 a.
Proof. exact eth_init_str_six. Qed.
Print Assumptions C06_text_gives_six_bytes.

(** C06. Any byte string of at least six bytes gives its first six bytes. *)
Theorem C06_from_bytes :
  forall b, (6 <= length b)%nat -> eth_init (ABytes b) = Ok (firstn 6 b).
Proof. exact eth_from_bytes. Qed.
Print Assumptions C06_from_bytes.

(** C06. Classification: group bit (bit 40 of the 48-bit number), locally administered bit (bit 41),
    and the range 01-80-C2-00-00-00 .. 01-80-C2-00-00-0F. *)
Theorem C06_classification :
  forall a, addr6 a ->
  is_multicast a = Ok (Z.odd (num48 a / 2 ^ 40)) /\
  is_local a = Ok (Z.odd (num48 a / 2 ^ 41)) /\
  is_bridge_filtered a = Ok ((0x0180C2000000 <=? num48 a) && (num48 a <=? 0x0180C200000F)).
Proof. exact eth_classes. Qed.
Print Assumptions C06_classification.

Example C06_example :
  (* "0:1:2:3:4:ff" accepted, "0:1:2:3:4:100", "0:1:2:3:4" and "g:1:2:3:4:5" refused *)
  eth_init (AStr [48;58;49;58;50;58;51;58;52;58;102;102]) = Ok [0;1;2;3;4;255] /\
  eth_init (AStr [48;58;49;58;50;58;51;58;52;58;49;48;48]) = Err EValue /\
  eth_init (AStr [48;58;49;58;50;58;51;58;52]) = Err ERuntime /\
  eth_init (AStr [103;58;49;58;50;58;51;58;52;58;53]) = Err EValue /\
  is_bridge_filtered [1; 0x80; 0xC2; 0; 0; 0xE] = Ok true /\
  is_multicast [0xFE; 0xFF; 0; 0; 0; 0] = Ok false /\ is_local [2; 0; 0; 0; 0; 0] = Ok true.
Proof. vm_compute. repeat split. Qed.

(** C54. An address object may hold fewer than six bytes. *)
Theorem C54_six_bytes_refuted :
  exists b a, wfb b /\ eth_init (ABytes b) = Ok a /\ length a <> 6%nat.
Proof. exists [7], [7]. repeat split; try discriminate. repeat constructor; lia. Qed.
Print Assumptions C54_six_bytes_refuted.

(** C54. Comparing with something that is no address can be True, or raise. *)
Theorem C54_equality_with_non_address_refuted :
  (exists a, addr6 a /\ eth_eq a ANone = Ok true) /\
  (forall a, eth_eq a AOther = Err ERuntime).
Proof. exact eth_eq_odd. Qed.
Print Assumptions C54_equality_with_non_address_refuted.
