(** Theorems about capture files (C92). *)
From Coq Require Import QArith Sorted.
From Verif Require Import Base BaseLemmas UnitModel UnitSpec UnitProofs CapModel CapSpec CapProofs.
#[local] Open Scope list_scope.
#[local] Open Scope Z_scope.

(** * C92: what is written to a capture file is what is read from it *)

(** Whatever packets are written, with whatever filter on their bytes, reading until None gives exactly those that pass, in
    the order they were written, each with its bytes and both lengths, and with a time at most 1.25 microseconds before and
    at most 0.25 microseconds after the one given. *)
Definition faithful (x : bytes * Q) (p : packet) : Prop :=
  p_raw p = fst x /\ p_caplen p = zlen (fst x) /\ p_len p = zlen (fst x) /\ within (125 # 100000000) (25 # 100000000) (snd x) (p_time p).
Lemma faithful_all : forall l ps, Forall2 packet_for l ps -> Forall (fun x => usual_time (snd x)) l -> Forall2 faithful l ps.
Proof.
  intros l ps H. induction H as [|x p l ps (A & B & C & D) _ IH]; intros F; constructor; inversion F; subst; [|auto].
  repeat split; auto; rewrite D; apply seen_within; assumption.
Qed.
Lemma Forall_filter : forall {A} (P : A -> Prop) k l, Forall P l -> Forall P (filter k l).
Proof. intros A P k l H. induction H; cbn [filter]; [constructor|]. destruct (k x); [constructor|]; assumption. Qed.
Theorem C92_round_partial : forall l f k n, written l f -> Forall (fun x => usual_time (snd x)) l -> (List.length l < n)%nat ->
  exists ps, read_all n (on_data k) f = Ok ps /\ Forall2 faithful (filter (fun x => k (fst x)) l) ps.
Proof.
  intros l f k n W F L. destruct (written_packets l f W F k) as (E & ps & E1 & E2). exists ps. rewrite read_enough by lia. split; [exact E1|].
  apply faithful_all; [exact E2|]. apply Forall_filter. exact F.
Qed.
Print Assumptions C92_round_partial.
(** Files made elsewhere, with packets cut off when they were captured: each packet comes with what the record says. *)
Theorem C92_elsewhere : forall f n, Forall (fun r => 0 <= r_sec r /\ 0 <= r_usec r < 1000000 /\ r_caplen r = zlen (r_data r)) f -> (List.length f < n)%nat ->
  exists ps, read_all n (fun _ => true) f = Ok ps /\
    Forall2 (fun r p => p_raw p = r_data r /\ p_caplen p = r_caplen r /\ p_len p = r_len r /\ nearest (inject_Z (r_sec r) + (r_usec r # 1000000)) (p_time p)) f ps.
Proof.
  intros f n F L. rewrite read_enough by exact L. clear n L. induction F as [|r f (S & U & C) _ IH]; cbn [filter]; [exists []; split; [reflexivity|constructor]|].
  destruct IH as (ps & E & M). cbn [packets]. unfold packet_of. rewrite (time_text _ _ S U). cbn [bindr]. rewrite E. cbn [bindr].
  eexists. split; [reflexivity|]. constructor; [|exact M]. cbn [p_raw p_caplen p_len p_time]. split; [apply firstn_all2; rewrite C; unfold zlen; lia|]. split; [reflexivity|]. split; [reflexivity|]. apply rnd_nearest.
Qed.
Print Assumptions C92_elsewhere.
(** Packets written in the order of their times are read in the order of their times. *)
Theorem C92_order : forall l f k n ps, written l f -> Forall (fun x => usual_time (snd x)) l -> (List.length l < n)%nat ->
  StronglySorted Qle (map snd l) -> read_all n (on_data k) f = Ok ps -> StronglySorted Qle (map p_time ps).
Proof.
  intros l f k n ps W F L S E. destruct (written_packets l f W F k) as (El & ps' & E1 & E2). rewrite read_enough in E by lia. rewrite E in E1. injection E1 as <-.
  assert (S2 : StronglySorted Qle (map snd (filter (fun x => k (fst x)) l))).
  { clear - S. induction l as [|x l IH]; cbn [filter map] in *; [constructor|]. inversion S as [|? ? S1 S2]; subst. destruct (k (fst x)); [|auto]. cbn [map]. constructor; [auto|].
    rewrite Forall_map in *. apply Forall_filter. exact S2. }
  pose proof (Forall_filter _ (fun x => k (fst x)) l F) as F2. clear - E2 S2 F2. revert E2 S2 F2. generalize (filter (fun x => k (fst x)) l). clear l. intros l E2 S2 F2. induction E2 as [|x p l ps (_ & _ & _ & T) E2 IH]; cbn [map] in *; [constructor|].
  inversion S2 as [|? ? S3 S4]; subst. inversion F2 as [|? ? Ux F3]; subst. constructor; [auto|]. clear IH S2 S3 F2. rewrite T. clear T.
  induction E2 as [|y q l ps (_ & _ & _ & T) E2 IH]; cbn [map] in *; [constructor|]. inversion S4; subst. inversion F3; subst. constructor; [|auto]. rewrite T.
  destruct Ux as (D1 & P1 & _). destruct H3 as (D2 & P2 & _). apply seen_mono; auto. apply Qlt_le_weak. exact P1.
Qed.
Print Assumptions C92_order.
(** Handling a file in pieces, with dispatch and any counts, and reading on, gives what reading it at once gives; a count of
    zero or less takes all there is. *)
Theorem C92_pieces : forall keep ns f out g n, pieces keep ns f out g -> (List.length f < n)%nat ->
  read_all n keep f = (l <- read_all (S (List.length g)) keep g;; Ok (out ++ l)).
Proof. intros keep ns f out g n H L. rewrite !read_enough by lia. apply (pieces_rest keep ns); exact H. Qed.
Print Assumptions C92_pieces.
Theorem C92_count : forall keep c f out g, dispatch keep (dispatch_count c) f = (Ok out, g) ->
  (0 < c -> zlen out <= c /\ (zlen out < c -> g = [])) /\ (c <= 0 -> g = []).
Proof.
  intros keep c f out g E. destruct (dispatch_rest _ _ _ _ _ E) as [_ K]. unfold dispatch_count in K. unfold zlen. destruct (Z.ltb_spec 0 c).
  - destruct K as [K1 K2]. split; [|lia]. intros _. split; [lia|]. intros L. apply K2. lia.
  - split; [lia|auto].
Qed.
Print Assumptions C92_count.
(** Anything that is not bytes is refused and the file stays as it was (nothing is returned to replace it). *)
Theorem C92_bytes : forall v ts clock f f', write_packet v ts clock f = Ok f' -> exists b r, v = VBytes b /\ f' = f ++ [r] /\ r_data r = b.
Proof. intros [b|] ts clock f f' E; [|discriminate]. unfold write_packet in E. destruct (stamp _) as [s u]. injection E as <-. exists b, (mkRec s u (zlen b) (zlen b) b). auto. Qed.
Print Assumptions C92_bytes.
(** A time of zero is not kept: the clock is used instead, so the packet comes back years later. *)
Theorem C92_zero_refuted : exists b clock f p, usual_time clock /\ write_packet (VBytes b) (Some 0%Q) clock [] = Ok f /\
  read_all 2 (fun _ => true) f = Ok [p] /\ (inject_Z 1000000000 < p_time p)%Q.
Proof.
  exists [1; 2; 3], (inject_Z 1500000000), [mkRec 1500000000 0 3 3 [1; 2; 3]], (mkPacket (inject_Z 1500000000) 3 3 [1; 2; 3]).
  split; [|split; [vm_compute; reflexivity|split; [vm_compute; reflexivity|reflexivity]]]. split; [apply double_Z; lia|split; reflexivity].
Qed.
Print Assumptions C92_zero_refuted.
(** Copying a file by reading each packet and writing it with the time it came with keeps the number and order of the
    records, the bytes and the lengths; the time stays or goes down by one microsecond, and never goes up. *)
Theorem C92_copy_partial : forall f g, copied f g -> Forall (fun r => usual_record r /\ 0 < micros r) f ->
  Forall2 (fun r r' => r_data r' = r_data r /\ r_caplen r' = r_caplen r /\ r_len r' = r_len r /\ micros r - 1 <= micros r' <= micros r) f g.
Proof. exact copied_records. Qed.
Print Assumptions C92_copy_partial.
(** It does go down. *)
Theorem C92_copy_refuted : exists r p r', usual_record r /\ 0 < micros r /\ packet_of r = Ok p /\
  write_packet (VBytes (p_raw p)) (Some (p_time p)) 0 [] = Ok [r'] /\ micros r' = micros r - 1.
Proof.
  set (r := mkRec 1500000000 6 3 3 [1; 2; 3]). destruct (packet_of r) as [p|e] eqn:E; [|vm_compute in E; discriminate].
  vm_compute in E. injection E as <-. exists r. eexists. exists (mkRec 1500000000 (5) 3 3 [1; 2; 3]).
  split; [repeat split|]; try lia; try discriminate. split; [reflexivity|]. split; [vm_compute; reflexivity|]. split; [vm_compute; reflexivity|reflexivity].
Qed.
Print Assumptions C92_copy_refuted.
(** A file of three packets, one of them empty, meets the hypotheses. *)
Example C92_case : exists f ps, written [([1; 2; 3], (3 # 2)%Q); ([], inject_Z 2); ([4; 5], inject_Z 1500000000)] f /\
  Forall (fun x => usual_time (snd x)) [([1; 2; 3] : bytes, (3 # 2)%Q); ([], inject_Z 2); ([4; 5], inject_Z 1500000000)] /\
  read_all 4 (on_data (fun b => negb (bytes_eqb b []))) f = Ok ps /\ map p_raw ps = [[1; 2; 3]; [4; 5]] /\ map p_time ps = [(3 # 2)%Q; inject_Z 1500000000] /\
  exists g1 g2 o1 o2, dispatch (fun _ => true) (dispatch_count 2) f = (Ok o1, g1) /\ dispatch (fun _ => true) (dispatch_count (-1)) g1 = (Ok o2, g2) /\
    map p_raw o1 = [[1; 2; 3]; []] /\ map p_raw o2 = [[4; 5]] /\ g2 = [].
Proof.
  exists [mkRec 1 500000 3 3 [1; 2; 3]; mkRec 2 0 0 0 []; mkRec 1500000000 0 2 2 [4; 5]].
  exists [mkPacket (3 # 2) 3 3 [1; 2; 3]; mkPacket (inject_Z 1500000000) 2 2 [4; 5]]. split; [|split; [|split; [vm_compute; reflexivity|split; [reflexivity|split; [reflexivity|]]]]].
  - change [([1; 2; 3], (3 # 2)%Q); ([], inject_Z 2); ([4; 5], inject_Z 1500000000)] with ((([] ++ [([1; 2; 3], (3 # 2)%Q)]) ++ [([], inject_Z 2)]) ++ [([4; 5], inject_Z 1500000000)]).
    eapply w_add with (clock := 0%Q) (f := [mkRec 1 500000 3 3 [1; 2; 3]; mkRec 2 0 0 0 []]); [|vm_compute; reflexivity].
    eapply w_add with (clock := 0%Q) (f := [mkRec 1 500000 3 3 [1; 2; 3]]); [|vm_compute; reflexivity].
    eapply w_add with (clock := 0%Q) (f := []); [constructor|vm_compute; reflexivity].
  - repeat constructor; try reflexivity; cbn [snd]; try (apply double_Z; lia). exists 3, (-1). split; [lia|reflexivity].
  - exists [mkRec 1500000000 0 2 2 [4; 5]], [], [mkPacket (3 # 2) 3 3 [1; 2; 3]; mkPacket (inject_Z 2) 0 0 []], [mkPacket (inject_Z 1500000000) 2 2 [4; 5]].
    repeat split; vm_compute; reflexivity.
Qed.
(** Copying twice loses two microseconds. *)
Example C92_case2 : exists g h, copied [mkRec 1500000000 7 1 1 [9]] g /\ copied g h /\ map micros h = [micros (mkRec 1500000000 7 1 1 [9]) - 2].
Proof.
  exists [mkRec 1500000000 6 1 1 [9]], [mkRec 1500000000 5 1 1 [9]]. split; [|split; [|reflexivity]].
  - destruct (packet_of (mkRec 1500000000 7 1 1 [9])) as [p|e] eqn:E; [|vm_compute in E; discriminate]. apply (c_add [] [] _ p 0%Q); [constructor|exact E|]. vm_compute in E. injection E as <-. vm_compute. reflexivity.
  - destruct (packet_of (mkRec 1500000000 6 1 1 [9])) as [p|e] eqn:E; [|vm_compute in E; discriminate]. apply (c_add [] [] _ p 0%Q); [constructor|exact E|]. vm_compute in E. injection E as <-. vm_compute. reflexivity.
Qed.
