(** Packets that share header objects (C105). *)
From Verif Require Import BaseLemmas EthModel Ipv4Model TransportModel PacketModel PacketProps AliasModel AliasSpec AliasProofs.
#[local] Open Scope nat_scope.

(** Two packets: [Ethernet, IPv4, UDP] and [UDP]; nothing is shared. *)
Definition two : store := mkStore [HEth xe; HIp4 (xip 17); HUdp xudp] [[0; 1]; [2]].
Lemma two_sound : sound two.
Proof. intros [|[|[|p]]] a; cbn; intros H; repeat destruct H as [<-|H]; try lia; try contradiction. Qed.

(** A program given one packet changes no packet that shares no header object with it, whatever it does: it may assign
    to the headers, add, remove and replace them, serialise, copy, and build sums. *)
Theorem C105_isolated : forall s x y, sound s -> x < length (st_pkts s) -> y < length (st_pkts s) -> x <> y -> share_no_header s x y ->
  unaffected s x y.
Proof. exact isolated. Qed.
Print Assumptions C105_isolated.
Example C105_isolated_ex : sound two /\ share_no_header two 0 1 /\ given two 0 (OAssign 1 HNullHdr) /\ given two 0 (OSer 0) /\ given two 0 (OPlus 0 2) /\ ~ given two 0 (OAssign 2 HNullHdr).
Proof. split; [exact two_sound|]. split; [intros a; cbn; intros [<-|[<-|[]]] [H|[]]; discriminate|]. unfold given. cbn.
  split; [split; [intros ? []|intros a [<-|[]]; auto]|]. split; [split; [intros p [<-|[]]; auto|intros ? []]|]. split; [split; [intros p [<-|[<-|[]]]; auto|intros ? []]|].
  intros [_ H]. destruct (H 2 (or_introl eq_refl)) as [[?|[?|[]]]|?]; lia. Qed.

(** A deep copy, and a packet read from bytes, share nothing with any packet that existed: neither side's changes show
    on the other side. *)
Theorem C105_copy : forall s p, sound s -> exists s', step s (OCopy p) = (s', NewPkt (length (st_pkts s))) /\ content s' (length (st_pkts s)) = content s p /\
  forall y, y < length (st_pkts s) -> content s' y = content s y /\ unaffected s' (length (st_pkts s)) y /\ unaffected s' y (length (st_pkts s)).
Proof. exact copy_made. Qed.
Print Assumptions C105_copy.
Theorem C105_parsed : forall s raw c hs, sound s -> pkt_new raw c = Ok hs -> exists s', step s (OParse raw c) = (s', NewPkt (length (st_pkts s))) /\ content s' (length (st_pkts s)) = hs /\
  forall y, y < length (st_pkts s) -> content s' y = content s y /\ unaffected s' (length (st_pkts s)) y /\ unaffected s' y (length (st_pkts s)).
Proof. exact parse_made. Qed.
Print Assumptions C105_parsed.
Example C105_parsed_ex : pkt_new [1; 2; 3]%Z CNullHdr = Ok [HNullHdr; HRaw [1; 2; 3]%Z] /\ exists h b, pkt_new (repeat 2%Z 12 ++ [8; 0; 7]%Z) CEth = Err ENotEnough /\ pkt_new (repeat 2%Z 12 ++ [136; 9; 7]%Z) CEth = Ok [HEth h; HRaw b].
Proof. split; [reflexivity|]. eexists. eexists. split; reflexivity. Qed.

(** The sum p + q holds the headers of p and then those of q, p and q stay as they are, and the sum is independent of
    every packet that shares no header with q, so of p. *)
Theorem C105_sum_partial : forall s p q, sound s -> exists s', step s (OPlus p q) = (s', NewPkt (length (st_pkts s))) /\
  content s' (length (st_pkts s)) = content s p ++ map wrap_bytes (content s q) /\
  forall y, y < length (st_pkts s) -> content s' y = content s y /\
    (share_no_header s q y -> unaffected s' (length (st_pkts s)) y /\ unaffected s' y (length (st_pkts s))).
Proof. exact plus_made. Qed.
Print Assumptions C105_sum_partial.
(** It is not independent of q itself: the sum holds q's own header objects.  Serialising the sum changes q. *)
Theorem C105_sum_refuted : exists s p q, sound s /\ share_no_header s p q /\
  let s' := fst (step s (OPlus p q)) in
  snd (step s (OPlus p q)) = NewPkt 2 /\ ~ unaffected s' 2 q /\ content (fst (step s' (OSer 2))) q <> content s' q.
Proof.
  exists two, 0, 1. split; [exact two_sound|]. split; [intros a; cbn; intros [<-|[<-|[]]] [H|[]]; discriminate|]. cbv zeta. split; [reflexivity|].
  assert (D : content (fst (step (fst (step two (OPlus 0 1))) (OSer 2))) 1 <> content (fst (step two (OPlus 0 1))) 1) by (intros H; vm_compute in H; discriminate).
  split; [|exact D]. intros U. apply D. apply (U [OSer 2]). constructor; [|constructor]. split; [intros p [<-|[]]; now left|intros ? []].
Qed.
Print Assumptions C105_sum_refuted.
(** The sum of two headers does not copy either: it shares the header with the packet it was taken from. *)
Theorem C105_header_sum_refuted : exists s x a b, sound s /\ In a (refs s x) /\
  let s' := fst (step s (OHdrPlus a b)) in
  snd (step s (OHdrPlus a b)) = NewPkt 2 /\ ~ unaffected s' 2 x.
Proof.
  exists two, 0, 1, 2. split; [exact two_sound|]. split; [cbn; auto|]. cbv zeta. split; [reflexivity|]. intros U.
  assert (D : content (fst (step (fst (step two (OHdrPlus 1 2))) (OSer 2))) 0 <> content (fst (step two (OHdrPlus 1 2))) 0) by (intros H; vm_compute in H; discriminate).
  apply D. apply (U [OSer 2]). constructor; [|constructor]. split; [intros p [<-|[]]; now left|intros ? []].
Qed.
Print Assumptions C105_header_sum_refuted.

(** Serialising a packet that holds no header object twice sends the bytes the headers stand for (C23, C24) and changes
    only its own headers. *)
Theorem C105_serialise_partial : forall s p, sound s -> NoDup (refs s p) ->
  match pkt_to_bytes (content s p) with
  | Ok (c, b) => exists s', step s (OSer p) = (s', Sent b) /\ content s' p = c /\ forall y, share_no_header s p y -> content s' y = content s y
  | Err e => snd (step s (OSer p)) = Raised e
  end.
Proof. exact serialised. Qed.
Print Assumptions C105_serialise_partial.
Example C105_serialise_ex : NoDup (refs two 0) /\ exists c b, pkt_to_bytes (content two 0) = Ok (c, b) /\ zlen b = 34%Z /\ c <> content two 0.
Proof. split; [repeat (constructor; [cbn; intuition discriminate|]); constructor|]. eexists. eexists. split; [vm_compute; reflexivity|]. split; [reflexivity|discriminate]. Qed.
(** A serialisation that raises may have changed headers already: here the UDP header behind a bytes object that was
    stored by p[0] = b''. *)
Theorem C105_failed_serialise_refuted : exists s p e, sound s /\ snd (step s (OSer p)) = Raised e /\ content (fst (step s (OSer p))) p <> content s p.
Proof.
  exists (mkStore [HBytes []; HUdp xudp] [[0; 1]]), 0, EAttr. split; [intros [|[|p]] a; cbn; intros H; repeat destruct H as [<-|H]; try lia; try contradiction|].
  split; [reflexivity|]. intros H. vm_compute in H. discriminate.
Qed.
Print Assumptions C105_failed_serialise_refuted.
