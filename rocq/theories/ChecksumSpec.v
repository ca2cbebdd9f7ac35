(** RFC 1071 specification of the Internet checksum, independent of the model. *)
From Verif Require Import Base.

(** Big-endian 16-bit words of a byte string, odd tail padded with zero. *)
Fixpoint be_words (data : bytes) : list Z :=
  match data with
  | a :: b :: r => (256 * a + b) :: be_words r
  | [a] => [256 * a]
  | [] => []
  end.

(** One's-complement addition on 16 bits: the end-around carry. *)
Definition oc_add (x y : Z) : Z := if x + y <? 65536 then x + y else x + y - 65535.
Definition oc_sum (ws : list Z) : Z := fold_left oc_add ws 0.

(** The checksum a sender stores, and what a receiver checks. *)
Definition rfc1071 (data : bytes) : Z := 65535 - oc_sum (be_words data).
Definition verifies (data : bytes) : Prop := oc_sum (be_words data) = 65535.
