(** Property C122: the macOS firewall while a program runs and afterwards; the Firewall object. *)
From Coq Require Import String.
From Verif Require Import BaseLemmas Base Dict DictLemmas EthAddrModel FwModel FwSpec FwProofs FwProps MacModel MacSpec MacProofs.
Local Open Scope string_scope.
Import ListNotations.
Local Open Scope list_scope. Local Open Scope Z_scope.

Definition pf0 : pf := mkPf [] [4] 7.
Lemma pf0_ok : pf_ok pf0.
Proof. repeat constructor. Qed.
Definition r_tcp : text := [116; 99; 112].
Definition r_udp53 : text := [117; 100; 112; 58; 53; 51].
Definition r_icmp5 : text := [105; 99; 109; 112; 58; 53].
Lemma r_tcp_means : rule_means r_tcp (SProto r_tcp).
Proof. apply (MProto r_tcp). left. reflexivity. Qed.
Lemma r_udp53_means : rule_means r_udp53 (SPort [117; 100; 112] 53).
Proof. apply (MPort [117; 100; 112] [53; 51] 53); [right; reflexivity| |lia]. repeat split; try discriminate; cbn in *; lia. Qed.

(** C122.  Whatever rules are requested, whatever the program adds, and however it ends (normally, with the exception of a refused rule, or with
    another): afterwards exactly those references keep pf enabled that did before, and of the rules in the anchor none is left that was not there. *)
Theorem C122_restored : forall intfs rules root steps p p' e, pf_ok p -> mac_with intfs rules root steps p = (p', e) ->
  pf_refs p' = pf_refs p /\ (pf_anchor p' = [] \/ pf_anchor p' = pf_anchor p).
Proof. exact mac_restores. Qed.
Print Assumptions C122_restored.
Example C122_restored_case : pf_ok pf0 /\ exists p', mac_with ["en0"; "en1"] [r_tcp; r_tcp80] true [FAdd r_udp53; FTryAdd [120]; FRaise EKey] pf0 = (p', Some EKey) /\ pf_anchor p' = [] /\ pf_refs p' = [4].
Proof. split; [exact pf0_ok|]. eexists. split; [vm_compute; reflexivity|]. split; reflexivity. Qed.

(** C122.  An exception of the program is not swallowed, and no exception arises otherwise. *)
Theorem C122_exception : forall intfs rules ss p adds, Forall2 rule_means rules ss -> ~ In SNone ss ->
  snd (mac_with intfs rules true (map FTryAdd adds) p) = None /\ forall e more, snd (mac_with intfs rules true (map FTryAdd adds ++ FRaise e :: more) p) = Some e.
Proof.
  intros intfs rules ss p adds F N. unfold mac_with, mac_enter, mac_init. destruct (mac_rules_mean _ _ intfs F N) as (cs & -> & _). cbn [bindr]. unfold pf_enable. cbn [bindr]. cbv zeta beta iota.
  assert (Bt : forall l f q, exists f' q', forall m, mac_body (map FTryAdd l ++ m) f q = mac_body m f' q').
  { induction l as [|a l IH]; intros f q; [exists f, q; reflexivity|]. destruct (mac_add f a q) as [[f1 p1] x] eqn:A. destruct (IH f1 p1) as (f' & q' & E). exists f', q'. intros m. cbn [map app mac_body]. rewrite A. apply E. }
  match goal with |- context [mac_body _ ?f ?q] => destruct (Bt adds f q) as (f' & q' & E) end. split.
  - specialize (E []). rewrite app_nil_r in E. rewrite E. reflexivity.
  - intros e more. rewrite E. reflexivity. Qed.
Print Assumptions C122_exception.

(** C122.  While the program runs, before it adds a rule, exactly the packets that some requested rule covers are dropped; a rule with a port takes
    effect only when both ports of the packet are that port (C44), and none is an error (C44). *)
Theorem C122_blocks_partial : forall intfs rules ss p, Forall2 rule_means rules ss -> ~ In SNone ss ->
  exists f p1, mac_enter intfs rules true p = Ok (f, p1) /\ forall k, pf_dropped p1 k <-> In (pk_intf k) intfs /\ exists s, In s ss /\ covers_both s k.
Proof. intros intfs rules ss p F N. unfold mac_enter, mac_init. destruct (mac_rules_mean _ _ intfs F N) as (cs & -> & V & X). cbn [bindr pf_enable]. unfold pf_enable. eexists _, _. split; [reflexivity|]. intros k. unfold mac_block, pf_load, pf_dropped.
  cbn [m_rules]. rewrite V. cbn [pf_refs pf_anchor]. rewrite <- X. split; [tauto|]. intros H. split; [discriminate|exact H]. Qed.
Print Assumptions C122_blocks_partial.
Example C122_blocks_case : Forall2 rule_means [r_tcp; r_udp53] [SProto r_tcp; SPort [117; 100; 112] 53] /\ ~ In SNone [SProto r_tcp; SPort [117; 100; 112] 53] /\
  exists f p1, mac_enter ["en0"; "en1"] [r_tcp; r_udp53] true pf0 = Ok (f, p1) /\ pf_anchor p1 = [PfProto "en0" r_tcp None; PfProto "en1" r_tcp None; PfProto "en0" [117; 100; 112] (Some [53; 51]); PfProto "en1" [117; 100; 112] (Some [53; 51])].
Proof. split; [constructor; [exact r_tcp_means|constructor; [exact r_udp53_means|constructor]]|]. split; [intros [H|[H|[]]]; discriminate|]. eexists _, _. split; vm_compute; reflexivity. Qed.

(** C122 fails for added rules: an added rule replaces all the ones before it, so packets that a requested rule covers pass from then on. *)
Theorem C122_added_refuted : exists intfs rules ss r s p f p1 f2 p2 k, Forall2 rule_means rules ss /\ rule_means r s /\ mac_enter intfs rules true p = Ok (f, p1) /\
  pf_dropped p1 k /\ mac_add f r p1 = ((f2, p2), None) /\ ~ pf_dropped p2 k.
Proof. exists ["en0"], [r_tcp], [SProto r_tcp], r_udp53, (SPort [117; 100; 112] 53), pf0. eexists _, _, _, _, (mkPkt "en0" r_tcp 5000 80). split; [constructor; [exact r_tcp_means|constructor]|]. split; [exact r_udp53_means|]. split; [reflexivity|].
  split; [split; [discriminate|]; exists (PfProto "en0" r_tcp None); split; [left; reflexivity|split; reflexivity]|]. split; [reflexivity|]. intros (_ & x & [<-|[]] & (_ & E & _)). discriminate. Qed.
Print Assumptions C122_added_refuted.

(** C122.  What holds instead: after a well-formed rule was added, whatever happened before, exactly the packets that this rule covers are dropped. *)
Theorem C122_added_partial : forall steps f p f' p' r s, mac_body steps f p = (f', p', None) -> pf_refs p <> [] -> rule_means r s -> s <> SNone ->
  exists f2 p2, mac_add f' r p' = ((f2, p2), None) /\ forall k, pf_dropped p2 k <-> In (pk_intf k) (m_intfs f) /\ covers_both s k.
Proof. intros steps f p f' p' r s B R M N. apply body_keeps in B as (_ & I & R'). unfold mac_add. destruct (mac_rule_means r s (m_intfs f') M N) as (cs & -> & V & X). eexists _, _. split; [reflexivity|]. intros k.
  unfold pf_dropped, pf_load. rewrite V. cbn [pf_refs pf_anchor]. rewrite R', X, I. tauto. Qed.
Print Assumptions C122_added_partial.
Example C122_added_case : exists f p1 f' p', mac_enter ["en0"] [r_tcp] true pf0 = Ok (f, p1) /\ mac_body [FAdd r_tcp80; FTryAdd [120]] f p1 = (f', p', None) /\ pf_refs p1 <> [] /\
  snd (fst (mac_add f' r_udp53 p')) = mkPf [PfProto "en0" [117; 100; 112] (Some [53; 51])] [7; 4] 8.
Proof. eexists _, _, _, _. split; [vm_compute; reflexivity|]. split; [vm_compute; reflexivity|]. split; [discriminate|]. vm_compute. reflexivity. Qed.

(** C122 fails for a wrong rule among good ones: the constructor accepts it, pfctl refuses the lot, and nothing is blocked. *)
Theorem C122_wrong_rule_refuted : exists intfs rules r s f p1 k, In r rules /\ rule_means r s /\ mac_enter intfs rules true pf0 = Ok (f, p1) /\ In (pk_intf k) intfs /\ covers_both s k /\ ~ pf_dropped p1 k.
Proof. exists ["en0"], [r_tcp; r_icmp5], r_tcp, (SProto r_tcp). eexists _, _, (mkPkt "en0" r_tcp 5000 80). split; [left; reflexivity|]. split; [exact r_tcp_means|]. split; [reflexivity|]. split; [left; reflexivity|]. split; [reflexivity|].
  intros (_ & x & I & _). vm_compute in I. exact I. Qed.
Print Assumptions C122_wrong_rule_refuted.

(** C122.  Text that is neither all, none nor starts with a protocol is refused with ValueError, at the start and later, and changes nothing. *)
Theorem C122_refused : forall intfs r, strip r <> [97; 108; 108] -> strip r <> [110; 111; 110; 101] -> (forall p s, known_proto p -> r <> p ++ s) ->
  (forall f p, mac_add f r p = ((f, p), Some EValue)) /\
  (forall good ss more root steps p, Forall2 rule_means good ss -> ~ In SNone ss -> mac_with intfs (good ++ r :: more) root steps p = (p, Some EValue)).
Proof. intros intfs r A B C. assert (R : forall i, mac_rule i r = Err EValue).
  { intros i. unfold mac_rule. destruct (text_eqb (strip r) t_none) eqn:E; [apply text_eqb_spec in E; exfalso; exact (B E)|]. destruct (text_eqb (strip r) t_all) eqn:E2; [apply text_eqb_spec in E2; exfalso; exact (A E2)|]. rewrite (interp_refuses r C). reflexivity. }
  split; [intros f p; unfold mac_add; rewrite R; reflexivity|]. intros good ss more root steps p F N. unfold mac_with, mac_enter, mac_init.
  assert (Q : mac_rules intfs (good ++ r :: more) = Err EValue).
  { revert N. induction F as [|g s good ss M _ IH]; intros N; cbn [app mac_rules]; [rewrite R; reflexivity|]. cbn [In] in N. destruct (mac_rule_means g s intfs M) as (c & -> & _); [intros ->; tauto|]. cbn [bindr]. rewrite IH by tauto. reflexivity. }
  rewrite Q. reflexivity. Qed.
Print Assumptions C122_refused.
Example C122_refused_case : strip [120; 121] <> [97; 108; 108] /\ strip [120; 121] <> [110; 111; 110; 101] /\ (forall p s, known_proto p -> [120; 121] <> p ++ s).
Proof. split; [discriminate|]. split; [discriminate|]. intros p s [->|[->| ->]]; discriminate. Qed.

(** C122.  Without the right to use pf the firewall cannot be made (RuntimeError) and nothing is changed. *)
Theorem C122_no_root : forall intfs rules ss steps p, Forall2 rule_means rules ss -> ~ In SNone ss -> mac_with intfs rules false steps p = (p, Some ERuntime).
Proof. intros intfs rules ss steps p F N. unfold mac_with, mac_enter, mac_init. destruct (mac_rules_mean _ _ intfs F N) as (cs & -> & _). reflexivity. Qed.
Print Assumptions C122_no_root.

(** C122.  A Firewall is made at most once in a process, whatever the platform: after the first attempt, successful or not, every further one raises. *)
Theorem C122_once : forall (D : Type) (cs : list (fwcall D)) i j pl d pl' d', nth_error cs j = Some (CNew pl' d') -> (j < i)%nat -> nth_error cs i = Some (CNew pl d) ->
  nth_error (snd (fw_calls cs FwNone)) i = Some (Some EExc).
Proof.
  intros D cs i j pl d pl' d'. generalize (@FwNone D). revert i j. induction cs as [|c cs IH]; intros i j o Hj L Hi; [destruct i; discriminate|].
  destruct i as [|i]; [lia|]. cbn [fw_calls]. destruct (fw_call c o) as [o1 e] eqn:F. destruct (fw_calls cs o1) as [o2 es] eqn:G. cbn [snd nth_error] in *.
  destruct j as [|j].
  - cbn [nth_error] in Hj. injection Hj as ->. assert (No : o1 <> FwNone). { cbn [fw_call] in F. unfold fw_construct in F. destruct o; [destruct (existsb _ _); [destruct d'|]|..]; injection F as <- <-; discriminate. }
    pose proof (once_stays cs o1 No i pl d Hi) as Q. rewrite G in Q. exact Q.
  - cbn [nth_error] in Hj. pose proof (IH i j o1 Hj ltac:(lia) Hi) as Q. rewrite G in Q. exact Q. Qed.
Print Assumptions C122_once.
(** C122.  A rule added while no Firewall has been made successfully raises AttributeError. *)
Theorem C122_not_made : forall (D : Type) (cs : list (fwcall D)) i a, nth_error cs i = Some (CAddR a) ->
  (forall j pl d, (j < i)%nat -> nth_error cs j = Some (CNew pl d) -> nth_error (snd (fw_calls cs FwNone)) j <> Some None) ->
  nth_error (snd (fw_calls cs FwNone)) i = Some (Some EAttr).
Proof.
  intros D cs i a. assert (G : forall o, (forall d, o <> FwUp d) -> nth_error cs i = Some (CAddR a) -> (forall j pl d, (j < i)%nat -> nth_error cs j = Some (CNew pl d) -> nth_error (snd (fw_calls cs o)) j <> Some None) ->
    nth_error (snd (fw_calls cs o)) i = Some (Some EAttr)); [|intros H K; apply G; [discriminate|exact H|exact K]].
  revert i. induction cs as [|c cs IH]; intros i o U Hi K; [destruct i; discriminate|]. cbn [fw_calls] in *. destruct (fw_call c o) as [o1 e] eqn:F. destruct (fw_calls cs o1) as [o2 es] eqn:G. cbn [snd] in *.
  destruct i as [|i]; cbn [nth_error] in *.
  - injection Hi as ->. cbn [fw_call] in F. unfold fw_add in F. destruct o as [| |d]; [| |exfalso; exact (U d eq_refl)]; injection F as <- <-; reflexivity.
  - assert (U1 : forall d, o1 <> FwUp d).
    { intros d ->. destruct c as [pl dd|a']; cbn [fw_call] in F.
      - apply (K 0%nat pl dd); [lia|reflexivity|]. cbn [nth_error]. unfold fw_construct in F. destruct o as [| |x]; [|discriminate|exfalso; exact (U x eq_refl)]. destruct (existsb _ _); [|discriminate]. destruct dd; [|discriminate]. injection F as _ <-. reflexivity.
      - unfold fw_add in F. destruct o as [| |x]; [discriminate|discriminate|exact (U x eq_refl)]. }
    pose proof (IH i o1 U1 Hi) as Q. rewrite G in Q. cbn [snd] in Q. apply Q. intros j pl d L Hj. exact (K (S j) pl d ltac:(lia) Hj). Qed.
Print Assumptions C122_not_made.
Example C122_once_case : snd (fw_calls [CAddR (fun d : Z => (d, None)); CNew "win32" (Ok 1); CNew "linux" (Ok 1); CAddR (fun d => (d, None))] FwNone) = [Some EAttr; Some EExc; Some EExc; Some EAttr] /\
  snd (fw_calls [CNew "linux" (Ok 1); CNew "linux" (Ok 1); CAddR (fun d : Z => (d, None))] FwNone) = [None; Some EExc; None].
Proof. split; reflexivity. Qed.
