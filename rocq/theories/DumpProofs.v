(** Proofs about the programs that save and show packets (C125). *)
From Coq Require Import QArith.
From Verif Require Import Base BaseLemmas EthAddrModel Dict PacketModel TestModel TestSpec TestRun UnitModel UnitSpec CapModel CapSpec CapProofs DumpModel DumpSpec.
#[local] Open Scope list_scope.
#[local] Open Scope Z_scope.

Lemma show_readable raw p : show_raw raw = Shown p <-> readable raw p.
Proof. unfold show_raw, readable. rewrite <- pkt_prints. destruct (pkt_parse raw) as [q|e].
  - destruct (pkt_shows q) eqn:S; split; intros H; try discriminate.
    + injection H as <-. auto.
    + destruct H as [H _]. injection H as <-. reflexivity.
    + destruct H as [H X]. injection H as <-. congruence.
  - split; [destruct e; discriminate|intros [H _]; discriminate]. Qed.
Lemma show_hangs raw : show_raw raw = Hangs <-> ~ finishes raw.
Proof. unfold show_raw, finishes. destruct (pkt_parse raw) as [q|e]; [destruct (pkt_shows q)|]; split; intros H; try discriminate; try (exfalso; apply H; discriminate).
  - intros X. apply X. destruct e; try discriminate H. reflexivity.
  - destruct e; try reflexivity; exfalso; apply H; discriminate. Qed.

Definition rec_of (x : bytes * Q) : record := let '(s, u) := stamp (snd x) in mkRec s u (zlen (fst x)) (zlen (fst x)) (fst x).
Definition line_of (x : bytes * Q) : line := match show_raw (fst x) with Shown p => LPacket p | Failed e => LFailed e | Hangs => LFailed EFuel end.
Lemma line_tells x : tells x (line_of x).
Proof. unfold tells, line_of. destruct (show_raw (fst x)) as [p|e|] eqn:S; [apply show_readable, S| |]; intros p H; apply show_readable in H; congruence. Qed.
Lemma dump_frames fs : forall rest f out n, Forall (fun x => finishes (fst x)) fs ->
  dump_loop (delivers fs ++ rest) f out n = dump_loop rest (f ++ map rec_of fs) (out ++ map line_of fs) (n + zlen fs).
Proof. induction fs as [|[raw clock] fs IH]; intros rest f out n F; [cbn [delivers map app]; rewrite !app_nil_r; f_equal; unfold zlen; cbn [List.length]; lia|].
  inversion F as [|? ? A B]; subst. cbn [delivers map app dump_loop fst snd] in *. assert (NH : show_raw raw <> Hangs) by (rewrite show_hangs; tauto).
  unfold write_packet. unfold rec_of at 1, line_of at 1. cbn [fst snd]. destruct (stamp clock) as [s u].
  destruct (show_raw raw) as [p|e|]; [| |congruence]; fold (delivers fs); rewrite IH by exact B; rewrite <- !app_assoc; cbn [app]; f_equal; unfold zlen; cbn [List.length]; lia. Qed.
Lemma rec_data fs : map r_data (map rec_of fs) = map fst fs.
Proof. rewrite map_map. apply map_ext. intros [b t]. unfold rec_of. cbn [fst snd]. destruct (stamp t). reflexivity. Qed.
Lemma lines_tell fs : Forall2 tells fs (map line_of fs).
Proof. induction fs; cbn [map]; constructor; [apply line_tells|assumption]. Qed.
Theorem dump_saves fs rest : Forall (fun x => finishes (fst x)) fs -> (forall raw c l, rest <> DFrame raw c :: l) ->
  exists f out e, sydump (delivers fs ++ rest) = (f, out, e) /\ map r_data f = map fst fs /\ Forall (fun r => r_caplen r = zlen (r_data r) /\ r_len r = zlen (r_data r)) f /\
    Forall2 tells fs out /\ then_ends (zlen fs) rest e.
Proof. intros F N. unfold sydump. rewrite dump_frames by exact F. cbn [app].
  assert (L : Forall (fun r => r_caplen r = zlen (r_data r) /\ r_len r = zlen (r_data r)) (map rec_of fs)).
  { apply Forall_map, Forall_forall. intros [b t] _. unfold rec_of. cbn [fst snd]. destruct (stamp t). auto. }
  destruct rest as [|[raw c| |x] rest]; [|exfalso; exact (N raw c rest eq_refl)| |]; cbn [dump_loop]; eexists _, _, _; (split; [reflexivity|]); (split; [apply rec_data|]); (split; [exact L|]); (split; [apply lines_tell|]);
    cbn [then_ends]; try reflexivity. Qed.
Theorem dump_hangs fs raw c rest : Forall (fun x => finishes (fst x)) fs -> ~ finishes raw ->
  exists f out, sydump (delivers fs ++ DFrame raw c :: rest) = (f, out, DHangs) /\ map r_data f = map fst fs /\ Forall2 tells fs out.
Proof. intros F N. unfold sydump. rewrite dump_frames by exact F. cbn [app dump_loop]. apply show_hangs in N. rewrite N. eexists _, _. split; [reflexivity|]. split; [apply rec_data|apply lines_tell]. Qed.
Lemma rec_written fs : Forall (fun x => usual_time (snd x)) fs -> written fs (map rec_of fs).
Proof. induction fs as [|x fs IH] using rev_ind; intros F; [constructor|]. apply Forall_app in F as [F1 F2]. rewrite map_app. cbn [map]. destruct x as [b t].
  apply (w_add fs (map rec_of fs) b t t); [apply IH, F1|]. inversion F2 as [|? ? (D & P & _) _]; subst. cbn [snd] in *. unfold write_packet, rec_of. cbn [fst snd].
  destruct (Qeq_bool t 0) eqn:Q0; [apply Qeq_bool_iff in Q0; rewrite Q0 in P; discriminate|]. destruct (stamp t). reflexivity. Qed.
Lemma rec_whole fs : Forall (fun x => usual_time (snd x)) fs -> Forall whole (map rec_of fs).
Proof. intros F. apply Forall_map. eapply Forall_impl; [|exact F]. intros [b t] (D & P & _). cbn [snd] in *. destruct (stamp_spec t D ltac:(apply Qlt_le_weak, P)) as (s & u & v & E & _ & S & U & _).
  unfold whole, rec_of. cbn [fst snd]. rewrite E. cbn [r_sec r_usec r_caplen r_data]. auto. Qed.
Lemma dump_file fs rest f out e : Forall (fun x => finishes (fst x)) fs -> (forall raw c l, rest <> DFrame raw c :: l) -> sydump (delivers fs ++ rest) = (f, out, e) -> f = map rec_of fs.
Proof. intros F N. unfold sydump. rewrite dump_frames by exact F. cbn [app]. destruct rest as [|[raw c| |x] rest]; [|exfalso; exact (N raw c rest eq_refl)| |]; cbn [dump_loop]; intros H; injection H as <- _ _; reflexivity. Qed.

Lemma whole_packet r : whole r -> exists p, packet_of r = Ok p /\ p_raw p = r_data r.
Proof. intros (S & U & C). unfold packet_of. rewrite (time_text _ _ S U). cbn [bindr]. eexists. split; [reflexivity|]. cbn [p_raw]. apply firstn_all2. rewrite C. unfold zlen. lia. Qed.
Lemma show_good name f : forall ps rest n, holds f ps ->
  show_file name (f ++ rest) n = (map RPacket ps ++ fst (show_file name rest (n + zlen ps)), snd (show_file name rest (n + zlen ps))).
Proof. induction f as [|r f IH]; intros ps rest n [W R].
  - inversion R; subst. cbn [map app]. replace (n + zlen []) with n by (unfold zlen; cbn [List.length]; lia). destruct (show_file name rest n). reflexivity.
  - inversion R as [|? p ? ps' Rp R']; subst. inversion W as [|? ? Wr W']; subst. destruct (whole_packet r Wr) as (q & E & D). cbn [app show_file]. rewrite E, D. apply show_readable in Rp. rewrite Rp.
    rewrite (IH ps' rest (n + 1) (conj W' R')). replace (n + zlen (p :: ps')) with (n + 1 + zlen ps') by (unfold zlen; cbn [List.length]; lia). reflexivity. Qed.
Theorem read_good files : forall l rest, Forall2 (fun x y => fst x = fst y /\ exists f, snd x = Some f /\ holds f (snd y)) files l ->
  readpkt (files ++ rest) = (listing l ++ fst (readpkt rest), snd (readpkt rest)).
Proof. induction files as [|[name o] files IH]; intros l rest H.
  - inversion H; subst. cbn [listing flat_map app]. destruct (readpkt rest). reflexivity.
  - inversion H as [|? [name' ps] ? l' (E & f & Eo & Hf) H']; subst. cbn [fst snd] in *. subst name' o. cbn [app readpkt]. rewrite <- (app_nil_r f), (show_good name f ps [] 0 Hf). cbn [show_file fst snd].
    rewrite (IH l' rest H'). change (0 + zlen ps) with (zlen ps). unfold listing at 2. cbn [flat_map fst snd]. fold (listing l'). cbn [app]. rewrite <- !app_assoc. cbn [app]. rewrite <- ?app_assoc. reflexivity. Qed.
(** The program ends at the first frame that it cannot show. *)
Theorem read_stops files l name f r ps more rest : Forall2 (fun x y => fst x = fst y /\ exists f, snd x = Some f /\ holds f (snd y)) files l -> holds f ps -> whole r -> (forall p, ~ readable (r_data r) p) ->
  exists e, readpkt (files ++ (name, Some (f ++ r :: more)) :: rest) = (listing l ++ ROpening name :: map RPacket ps, e) /\ e <> REnds /\ (e = RHangs <-> ~ finishes (r_data r)).
Proof. intros H Hf W N. rewrite (read_good files l _ H). cbn [readpkt]. rewrite (show_good name f ps _ 0 Hf). cbn [show_file]. destruct (whole_packet r W) as (q & -> & ->).
  destruct (show_raw (r_data r)) as [p|x|] eqn:S; [exfalso; apply (N p), show_readable, S| |]; cbn [fst snd]; rewrite app_nil_r; eexists; (split; [reflexivity|]); (split; [discriminate|]); rewrite <- show_hangs; split; congruence. Qed.
