(** Properties C01-C03: the Internet checksum. *)
From Verif Require Import BaseLemmas ChecksumModel ChecksumSpec ChecksumProofs.

(** C01. For every byte string of at most 131072 bytes, on little- and big-endian hosts alike,
    checksum(data) is the RFC 1071 checksum. *)
Theorem C01_checksum_is_rfc1071 :
  forall little data, wfb data -> zlen data <= 131072 ->
  checksum little data 0 None = rfc1071 data.
Proof. exact checksum_rfc1071. Qed.
Print Assumptions C01_checksum_is_rfc1071.

(** The bound in C01 is needed: a 131078-byte string gets a wrong checksum. *)
Theorem C01_unbounded_length_refuted :
  exists data, wfb data /\ checksum true data 0 None <> rfc1071 data.
Proof. exists long_data. destruct long_data_wrong as (H & -> & ->). split; [exact H|discriminate]. Qed.
Print Assumptions C01_unbounded_length_refuted.

Example C01_example : (* RFC 1071 section 3 *)
  let d := [0x00;0x01;0xf2;0x03;0xf4;0xf5;0xf6;0xf7] in
  wfb d /\ checksum true d 0 None = 0x220d /\ rfc1071 d = 0x220d.
Proof. split; [repeat constructor; lia|]. split; vm_compute; reflexivity. Qed.
Example C01_example_odd : checksum true [0x12; 0x34; 0xff] 0 None = 0xeeca /\ rfc1071 [0x12; 0x34; 0xff] = 0xeeca.
Proof. split; vm_compute; reflexivity. Qed.

(** C02 (first half). Storing the checksum of data whose (aligned) checksum field was zero makes the
    one's-complement sum all ones, and switchyard's own checksum over the result zero. *)
Theorem C02_stored_checksum_verifies :
  forall little a b,
  wfb a -> wfb b -> Nat.even (length a) = true -> zlen (a ++ [0; 0] ++ b) <= 131072 ->
  let c := checksum little (a ++ [0; 0] ++ b) 0 None in
  0 <= c <= 65535 /\
  verifies (a ++ be 2 c ++ b) /\
  checksum little (a ++ be 2 c ++ b) 0 None = 0.
Proof. exact stored_checksum_ok. Qed.
Print Assumptions C02_stored_checksum_verifies.

(** C02 (second half). Replacing one aligned word by a word of different one's-complement value
    is always detected. *)
Theorem C02_corruption_detected :
  forall a b x y x' y',
  wfb (a ++ [x; y] ++ b) -> wfb [x'; y'] -> Nat.even (length a) = true ->
  verifies (a ++ [x; y] ++ b) ->
  (256 * x + y) mod 65535 <> (256 * x' + y') mod 65535 ->
  ~ verifies (a ++ [x'; y'] ++ b).
Proof. exact corrupted_word_detected. Qed.
Print Assumptions C02_corruption_detected.

Example C02_example :
  let c := checksum true [0x45; 0x00; 0; 0; 0x7f] 0 None in
  be 2 c = [0x3b; 0xff] /\ verifies [0x45; 0x00; 0x3b; 0xff; 0x7f]
  /\ ~ verifies [0x45; 0x01; 0x3b; 0xff; 0x7f].
Proof. vm_compute. repeat split; discriminate. Qed.

(** C03. skip_word=k gives the checksum of the data with its k-th 16-bit word zeroed, for any
    start value and any length; an index outside the data skips nothing. *)
Theorem C03_skip_word_zeroes :
  forall little a x y b start k,
  length a = (2 * k)%nat ->
  checksum little (a ++ [x; y] ++ b) start (Some (Z.of_nat k))
  = checksum little (a ++ [0; 0] ++ b) start None.
Proof. exact skip_word_zeroes. Qed.
Print Assumptions C03_skip_word_zeroes.

Theorem C03_skip_word_outside :
  forall little data start k, (k < 0 \/ zlen data / 2 <= k) ->
  checksum little data start (Some k) = checksum little data start None.
Proof. exact skip_word_outside. Qed.
Print Assumptions C03_skip_word_outside.

Example C03_example :
  checksum true ([1; 2] ++ [0xaa; 0xbb] ++ [3]) 0 (Some (Z.of_nat 1)) = checksum true [1; 2; 0; 0; 3] 0 None
  /\ checksum true [1; 2; 0; 0; 3] 0 None <> checksum true [1; 2; 0xaa; 0xbb; 3] 0 None.
Proof. vm_compute. split; [reflexivity|discriminate]. Qed.
