(** Theorems about the programs that save and show packets (C125). *)
From Coq Require Import QArith.
From Verif Require Import Base BaseLemmas EthAddrModel Dict PacketModel TestModel TestSpec TestRun UnitModel UnitSpec UnitProofs CapModel CapSpec CapProofs CapProps DumpModel DumpSpec DumpProofs.
#[local] Open Scope list_scope.
#[local] Open Scope Z_scope.
#[local] Open Scope string_scope.
#[local] Open Scope list_scope.

(** * C125: saving what a device receives and showing what was saved *)

Definition xarp : bytes := [255; 255; 255; 255; 255; 255; 2; 0; 0; 0; 0; 1; 8; 6; 0; 1; 8; 0; 6; 4; 0; 1; 2; 0; 0; 0; 0; 1; 10; 0; 0; 1; 0; 0; 0; 0; 0; 0; 10; 0; 0; 2].
Definition xshort : bytes := [1; 2; 3].
Definition xloop : bytes := [2; 0; 0; 0; 0; 2; 2; 0; 0; 0; 0; 1; 8; 0; 0x46; 0; 0; 24; 0; 0; 0; 0; 64; 17; 0; 0; 10; 0; 0; 1; 10; 0; 0; 2; 0x44; 0; 0; 0].
Definition t1 : Q := inject_Z 1500000000.
Lemma t1_usual : usual_time t1. Proof. split; [apply double_Z; lia|split; reflexivity]. Qed.
Lemma xarp_readable : exists p, readable xarp p.
Proof. destruct (pkt_parse xarp) as [p|e] eqn:E; [|vm_compute in E; discriminate]. exists p. split; [exact E|]. apply pkt_prints. vm_compute in E. injection E as <-. vm_compute. reflexivity. Qed.
Lemma xshort_not : finishes xshort /\ forall p, ~ readable xshort p.
Proof. split; [unfold finishes; vm_compute; discriminate|]. intros p [H _]. vm_compute in H. discriminate. Qed.
Lemma xarp_finishes : finishes xarp. Proof. destruct xarp_readable as (p & E & _). unfold finishes. rewrite E. discriminate. Qed.
Lemma xloop_not : ~ finishes xloop. Proof. intros H. apply H. vm_compute. reflexivity. Qed.

(** C125.  However many frames the device delivers, readable or not, at every moment at which the program waits, at its end, and when the device fails, the file holds exactly the
    bytes of the frames, in order, each once and uncut, one line has been printed for each that tells the packet or that it cannot be read, and the count at the end is their
    number.  Missing: frames whose reading never finishes (C125_hang_fails). *)
Theorem C125_saved_partial : forall fs rest, Forall (fun x => finishes (fst x)) fs -> (forall raw c l, rest <> DFrame raw c :: l) ->
  exists f out e, sydump (delivers fs ++ rest) = (f, out, e) /\ map r_data f = map fst fs /\ Forall (fun r => r_caplen r = zlen (r_data r) /\ r_len r = zlen (r_data r)) f /\
    Forall2 tells fs out /\ then_ends (zlen fs) rest e.
Proof. exact dump_saves. Qed.
Print Assumptions C125_saved_partial.
Example C125_saved_case : Forall (fun x => finishes (fst x)) [(xarp, t1); (xshort, t1); (xarp, t1)] /\ (forall raw c l, [DQuiet; DFrame xarp t1] <> DFrame raw c :: l) /\
  snd (sydump (delivers [(xarp, t1); (xshort, t1); (xarp, t1)] ++ [DQuiet; DFrame xarp t1])) = DEnds 3.
Proof. split; [repeat constructor; cbn [fst]; first [apply xarp_finishes|apply xshort_not]|]. split; [discriminate|]. vm_compute. reflexivity. Qed.

(** C125.  Reading the file back gives those frames with the times at which they were saved (to within 1.25 microseconds, C92). *)
Theorem C125_times_partial : forall fs rest f out e n, Forall (fun x => finishes (fst x)) fs -> Forall (fun x => usual_time (snd x)) fs -> (forall raw c l, rest <> DFrame raw c :: l) ->
  sydump (delivers fs ++ rest) = (f, out, e) -> (List.length fs < n)%nat -> exists ps, read_all n (fun _ => true) f = Ok ps /\ Forall2 faithful fs ps.
Proof. intros fs rest f out e n F U N E L. rewrite (dump_file _ _ _ _ _ F N E). destruct (C92_round_partial fs (map rec_of fs) (fun _ => true) n (rec_written fs U) U L) as (ps & E1 & E2).
  exists ps. split; [exact E1|]. replace (filter (fun x => true) fs) with fs in E2; [exact E2|]. clear. induction fs; cbn [filter]; congruence. Qed.
Print Assumptions C125_times_partial.
Example C125_times_case : exists f out e, Forall (fun x => usual_time (snd x)) [(xarp, t1); (xshort, t1)] /\ sydump (delivers [(xarp, t1); (xshort, t1)] ++ []) = (f, out, e) /\ map r_sec f = [1500000000; 1500000000] /\ e = DWaits.
Proof. eexists _, _, _. split; [repeat constructor; apply t1_usual|]. split; [vm_compute; reflexivity|]. split; reflexivity. Qed.

(** C125 fails for a frame whose reading never finishes (an IPv4 timestamp option of length zero, C14): the program hangs there, whatever comes after, and neither that frame nor
    any later one is saved. *)
Theorem C125_hang_fails : forall fs raw c rest, Forall (fun x => finishes (fst x)) fs -> ~ finishes raw ->
  exists f out, sydump (delivers fs ++ DFrame raw c :: rest) = (f, out, DHangs) /\ map r_data f = map fst fs /\ Forall2 tells fs out.
Proof. exact dump_hangs. Qed.
Print Assumptions C125_hang_fails.
Theorem C125_hang_refuted : exists fs raw c f out, wfb raw /\ sydump (delivers (fs ++ [(raw, c)]) ++ [DQuiet]) = (f, out, DHangs) /\ ~ In raw (map r_data f).
Proof. exists [(xarp, t1)], xloop, t1. eexists _, _. split; [unfold wfb, xloop; repeat (constructor; [lia|]); constructor|]. split; [vm_compute; reflexivity|]. intros [H|[]]. discriminate. Qed.
Print Assumptions C125_hang_refuted.

(** C125.  Showing files: when all frames can be shown, what is printed is for every file, in order, its name, its packets in order and their number, and the program ends normally. *)
Theorem C125_shown_partial : forall files l, Forall2 (fun x y => fst x = fst y /\ exists f, snd x = Some f /\ holds f (snd y)) files l -> readpkt files = (listing l, REnds).
Proof. intros files l H. rewrite <- (app_nil_r files), (read_good files l [] H). cbn [readpkt fst snd]. rewrite app_nil_r. reflexivity. Qed.
Print Assumptions C125_shown_partial.
(** C125.  Saving and then showing: readable frames come out as the packets they are, in order, none left out. *)
Theorem C125_round_partial : forall fs ps name l f out e, Forall2 (fun x p => readable (fst x) p) fs ps -> Forall (fun x => usual_time (snd x)) fs ->
  sydump (delivers fs ++ DQuiet :: l) = (f, out, e) -> e = DEnds (zlen fs) /\ readpkt [(name, Some f)] = (ROpening name :: map RPacket ps ++ [RGot (zlen fs) name], REnds).
Proof. intros fs ps name l f out e R U E.
  assert (F : Forall (fun x => finishes (fst x)) fs). { clear - R. induction R as [|x p fs ps [H _] _ IH]; constructor; [|exact IH]. unfold finishes. rewrite H. discriminate. }
  assert (Ef : f = map rec_of fs) by (apply (dump_file fs (DQuiet :: l) f out e F); [discriminate|exact E]). split.
  - destruct (dump_saves fs (DQuiet :: l) F ltac:(discriminate)) as (f' & o' & e' & E' & _ & _ & _ & X). rewrite E in E'. injection E' as _ _ <-. exact X.
  - assert (L : zlen fs = zlen ps) by (unfold zlen; clear - R; induction R; cbn [List.length]; lia). rewrite (C125_shown_partial _ [(name, ps)]); [unfold listing; cbn [flat_map fst snd]; rewrite app_nil_r, L; reflexivity|].
    constructor; [|constructor]. split; [reflexivity|]. exists f. split; [reflexivity|]. cbn [snd]. subst f. split; [apply rec_whole, U|]. clear - R. induction R as [|[b t] p fs ps H _ IH]; cbn [map]; constructor; [|exact IH].
    unfold rec_of. cbn [fst snd] in *. destruct (stamp t). exact H. Qed.
Print Assumptions C125_round_partial.
Example C125_round_case : exists p, Forall2 (fun (x : bytes * Q) p => readable (fst x) p) [(xarp, t1); (xarp, t1)] [p; p] /\ Forall (fun x : bytes * Q => usual_time (snd x)) [(xarp, t1); (xarp, t1)].
Proof. destruct xarp_readable as (p & H). exists p. split; repeat constructor; try apply H; apply t1_usual. Qed.

(** C125 fails for files with a frame that cannot be shown, wherever they come from: the program ends there with the exception (or hangs), and nothing of the rest of that file and
    of all later files is shown. *)
Theorem C125_stops_fails : forall files l name f r ps more rest, Forall2 (fun x y => fst x = fst y /\ exists f, snd x = Some f /\ holds f (snd y)) files l -> holds f ps -> whole r ->
  (forall p, ~ readable (r_data r) p) ->
  exists e, readpkt (files ++ (name, Some (f ++ r :: more)) :: rest) = (listing l ++ ROpening name :: map RPacket ps, e) /\ e <> REnds /\ (e = RHangs <-> ~ finishes (r_data r)).
Proof. exact read_stops. Qed.
Print Assumptions C125_stops_fails.
(** C125 fails for a file that the saving program itself has made, of frames it took without complaint: a readable frame after an unreadable one is saved and never shown. *)
Theorem C125_round_refuted : exists fs f out p, sydump (delivers fs ++ [DQuiet]) = (f, out, DEnds 2) /\ In xarp (map r_data f) /\ readable xarp p /\ exists e, readpkt [("sydump.pcap", Some f)] = ([ROpening "sydump.pcap"], RDies e).
Proof. destruct xarp_readable as (p & H). exists [(xshort, t1); (xarp, t1)]. eexists _, _, p. split; [vm_compute; reflexivity|]. split; [right; left; reflexivity|]. split; [exact H|]. eexists. vm_compute. reflexivity. Qed.
Print Assumptions C125_round_refuted.
(** C125.  A file that cannot be opened ends the program with an exception; the files before it have been shown. *)
Theorem C125_missing : forall files l name rest, Forall2 (fun x y => fst x = fst y /\ exists f, snd x = Some f /\ holds f (snd y)) files l ->
  readpkt (files ++ (name, None) :: rest) = (listing l ++ [ROpening name], RDies EExc).
Proof. intros files l name rest H. rewrite (read_good files l _ H). reflexivity. Qed.
Print Assumptions C125_missing.
Example C125_shown_case : exists p, holds [mkRec 1 2 42 42 xarp] [p] /\ whole (mkRec 1 2 3 3 xshort) /\ (forall q, ~ readable xshort q) /\
  Forall2 (fun (x : str * option capture) (y : str * list PacketModel.packet) => fst x = fst y /\ exists f, snd x = Some f /\ holds f (snd y)) [("a.pcap", Some [mkRec 1 2 42 42 xarp])] [("a.pcap", [p])].
Proof. destruct xarp_readable as (p & H). exists p. assert (Hh : holds [mkRec 1 2 42 42 xarp] [p]) by (split; [constructor; [unfold whole; cbn [r_sec r_usec r_caplen r_data]; split; [lia|split; [lia|reflexivity]]|constructor]|constructor; [exact H|constructor]]). split; [exact Hh|]. split; [unfold whole; cbn [r_sec r_usec r_caplen r_data]; split; [lia|split; [lia|reflexivity]]|]. split; [apply xshort_not|].
  constructor; [|constructor]. split; [reflexivity|]. eexists. split; [reflexivity|exact Hh]. Qed.
