(** Model of the Internet checksum, switchyard/lib/packet/common.py lines 352-384. *)
From Verif Require Import Base.

(** [array.array('H', ..)] and [struct.unpack('H', ..)] use the host byte order
    (common.py:363-365, 377); [little = true] is a little-endian host such as x86. *)
Definition word (little : bool) (a b : Z) : Z :=
  if little then a + 256 * b else 256 * a + b.

(** [array.array('H', data)], or [data[:-1]] when the length is odd (common.py:362-365). *)
Fixpoint hwords (little : bool) (data : bytes) : list Z :=
  match data with
  | a :: b :: r => word little a b :: hwords little r
  | _ => []
  end.

(** The two summation loops (common.py:367-374): [i] is the loop index. *)
Fixpoint sum_words (skip : option Z) (i : Z) (arr : list Z) (start : Z) : Z :=
  match arr with
  | [] => start
  | w :: arr' =>
      let start' := match skip with
                    | Some k => if i =? k then start else start + w
                    | None => start + w
                    end in
      sum_words skip (i + 1) arr' start'
  end.

(** socket.ntohs: byte swap on a little-endian host, identity otherwise (common.py:384). *)
Definition ntohs (little : bool) (v : Z) : Z :=
  if little then Z.lor (Z.shiftl (Z.land v 255) 8) (Z.shiftr v 8) else v.

(** checksum(data, start=0, skip_word=None) (common.py:352-384). *)
Definition checksum (little : bool) (data : bytes) (start : Z) (skip : option Z) : Z :=
  let s := sum_words skip 0 (hwords little data) start in
  let s := if Nat.odd (length data) then s + word little (last data 0) 0 else s in
  let s := Z.shiftr s 16 + Z.land s 0xffff in
  let s := s + Z.shiftr s 16 in
  ntohs little (Z.land (Z.lnot s) 0xffff).
