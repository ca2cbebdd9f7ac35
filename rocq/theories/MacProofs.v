(** Proofs about the macOS firewall and the Firewall object. *)
From Coq Require Import String.
From Verif Require Import BaseLemmas Base Dict DictLemmas EthAddrModel FwModel FwSpec FwProofs MacModel MacSpec.
Local Open Scope string_scope.
Import ListNotations.
Local Open Scope list_scope. Local Open Scope Z_scope.

(** The rules of one selector that pf gets. *)
Lemma mac_rule_means r s intfs : rule_means r s -> s <> SNone -> exists cs, mac_rule intfs r = Ok cs /\ forallb pf_valid cs = true /\
  forall k, (exists x, In x cs /\ pf_drops x k) <-> In (pk_intf k) intfs /\ covers_both s k.
Proof.
  intros M N. destruct M as [| |p K|p K|p ds n W D L]; [| congruence| | |].
  - exists (map PfAll intfs). split; [reflexivity|]. split; [apply forallb_forall; intros x I; apply in_map_iff in I as (i & <- & _); reflexivity|].
    intros k. split; [intros (y & I & E); apply in_map_iff in I as (i & <- & I); cbn [pf_drops] in E; subst; cbn; auto|intros [I _]; exists (PfAll (pk_intf k)); split; [apply in_map; exact I|reflexivity]].
  - exists (map (fun i => PfProto i p None) intfs). split; [unfold mac_rule; destruct (strip_proto p [] K) as [S1 S2]; pose proof (interp_at p [] K) as Ip; rewrite app_nil_r in S1, S2, Ip; rewrite S1, S2, Ip; reflexivity|].
    split; [apply forallb_forall; intros x I; apply in_map_iff in I as (i & <- & _); reflexivity|].
    intros k. split; [intros (y & I & E); apply in_map_iff in I as (i & <- & I); cbn [pf_drops] in E; destruct E as [<- <-]; cbn; auto|intros [I E]; exists (PfProto (pk_intf k) p None); split; [apply in_map_iff; eauto|split; [reflexivity|exact E]]].
  - exists (map (fun i => PfProto i p None) intfs). split; [unfold mac_rule; destruct (strip_proto p [58; 42] K) as [-> ->]; rewrite (interp_at p [58; 42] K); reflexivity|].
    split; [apply forallb_forall; intros x I; apply in_map_iff in I as (i & <- & _); reflexivity|].
    intros k. split; [intros (y & I & E); apply in_map_iff in I as (i & <- & I); cbn [pf_drops] in E; destruct E as [<- <-]; cbn; auto|intros [I E]; exists (PfProto (pk_intf k) p None); split; [apply in_map_iff; eauto|split; [reflexivity|exact E]]].
  - assert (K : known_proto p) by (destruct W as [->| ->]; [left|right; left]; reflexivity). destruct D as (Ne & Dg & _ & Vn).
    assert (Rp : rule_port (58 :: ds) = Some ds).
    { destruct ds as [|c ds]; [congruence|]. assert (Hc : 48 <= c <= 57) by (apply Dg; left; reflexivity). destruct (digits_all (c :: ds) Dg) as [E _]. unfold rule_port.
      repeat match goal with |- context [if ?b then _ else _] => destruct b eqn:? end; try lia; rewrite ?E; try reflexivity. }
    assert (Vs : value10 ds = n) by (symmetry; exact Vn).
    exists (map (fun i => PfProto i p (Some ds)) intfs). split; [unfold mac_rule; destruct (strip_proto p (58 :: ds) K) as [-> ->]; rewrite (interp_at p (58 :: ds) K), Rp; reflexivity|].
    split; [apply forallb_forall; intros x I; apply in_map_iff in I as (i & <- & _); cbn [pf_valid]; rewrite Vs; destruct W as [->| ->]; cbn [t_tcp t_udp text_eqb]; (replace (n <=? 65535) with true by lia); reflexivity|].
    intros k. split.
    + intros (y & I & E). apply in_map_iff in I as (i & <- & I). cbn [pf_drops] in E. rewrite Vs in E. destruct E as (<- & E1 & E2 & E3). cbn [covers_both]. auto.
    + intros [I (E1 & E2 & E3)]. exists (PfProto (pk_intf k) p (Some ds)). split; [apply in_map_iff; eauto|]. cbn [pf_drops]. rewrite Vs. auto.
Qed.
Lemma mac_rules_mean rs ss intfs : Forall2 rule_means rs ss -> ~ In SNone ss -> exists cs, mac_rules intfs rs = Ok cs /\ forallb pf_valid cs = true /\
  forall k, (exists x, In x cs /\ pf_drops x k) <-> In (pk_intf k) intfs /\ exists s, In s ss /\ covers_both s k.
Proof.
  induction 1 as [|r s rs ss M _ IH]; intros N; cbn [mac_rules].
  - exists []. split; [reflexivity|]. split; [reflexivity|]. intros k. split; [intros (x & [] & _)|intros (_ & s & [] & _)].
  - cbn [In] in N. destruct (mac_rule_means r s intfs M) as (c1 & E1 & V1 & X1); [intros ->; tauto|]. destruct IH as (c2 & E2 & V2 & X2); [tauto|]. rewrite E1, E2. cbn [bindr]. exists (c1 ++ c2). split; [reflexivity|].
    split; [rewrite forallb_app, V1, V2; reflexivity|]. intros k. split.
    + intros (x & I & D). apply in_app_iff in I as [I|I].
      * destruct (proj1 (X1 k)) as [A B]; [eauto|]. split; [exact A|]. exists s. cbn; auto.
      * destruct (proj1 (X2 k)) as [A (s' & B & C)]; [eauto|]. split; [exact A|]. exists s'. cbn; auto.
    + intros (A & s' & [<-|B] & C).
      * destruct (proj2 (X1 k)) as (x & I & D); [auto|]. exists x. split; [apply in_app_iff; auto|exact D].
      * destruct (proj2 (X2 k)) as (x & I & D); [eauto|]. exists x. split; [apply in_app_iff; auto|exact D]. Qed.

Lemma load_refs rs p : pf_refs (pf_load rs p) = pf_refs p /\ pf_next (pf_load rs p) = pf_next p.
Proof. unfold pf_load. destruct (forallb _ _); auto. Qed.
Lemma body_keeps steps : forall f p f' p' e, mac_body steps f p = (f', p', e) -> m_token f' = m_token f /\ m_intfs f' = m_intfs f /\ pf_refs p' = pf_refs p.
Proof. induction steps as [|s steps IH]; intros f p f' p' e H; cbn [mac_body] in H; [injection H as <- <- <-; auto|].
  destruct s as [r|r|x].
  - unfold mac_add in H. destruct (mac_rule (m_intfs f) r) as [cs|x]; [|injection H as <- <- <-; auto]. apply IH in H. cbn [m_token m_intfs] in H. destruct (load_refs cs p) as [R _]. rewrite R in H. exact H.
  - unfold mac_add in H. destruct (mac_rule (m_intfs f) r) as [cs|x]; apply IH in H; [|exact H]. cbn [m_token m_intfs] in H. destruct (load_refs cs p) as [R _]. rewrite R in H. exact H.
  - injection H as <- <- <-. auto. Qed.
Lemma filter_new (l : list Z) n : Forall (fun t => t < n) l -> filter (fun x => negb (x =? n)) l = l.
Proof. induction 1 as [|x l H _ IH]; cbn [filter]; [reflexivity|]. rewrite IH. destruct (Z.eqb_spec x n); [lia|reflexivity]. Qed.
Theorem mac_restores intfs rules root steps p p' e : pf_ok p -> mac_with intfs rules root steps p = (p', e) ->
  pf_refs p' = pf_refs p /\ (pf_anchor p' = [] \/ pf_anchor p' = pf_anchor p).
Proof. intros W H. unfold mac_with in H. destruct (mac_enter intfs rules root p) as [[f p1]|x] eqn:I; [|injection H as <- <-; auto].
  unfold mac_enter, mac_init in I. destruct (mac_rules intfs rules) as [rs|]; [|discriminate]. cbn [bindr] in I. destruct root; [|discriminate]. unfold pf_enable in I. cbn [bindr] in I. injection I as <- <-.
  destruct (mac_body steps _ _) as [[f2 p2] e2] eqn:B. injection H as <- <-. apply body_keeps in B as (T & _ & R). cbn [m_token] in T. unfold mac_unblock, pf_release, pf_flush. cbn [pf_refs pf_anchor]. split; [|left; reflexivity].
  rewrite T, R. unfold mac_block. rewrite (proj1 (load_refs _ _)). cbn [pf_refs filter]. rewrite Z.eqb_refl. cbn [negb]. apply filter_new. exact W. Qed.

(** ** The Firewall object *)
Lemma once_stays {D : Type} (cs : list (fwcall D)) : forall o, o <> FwNone -> forall i pl d, nth_error cs i = Some (CNew pl d) -> nth_error (snd (fw_calls cs o)) i = Some (Some EExc).
Proof. induction cs as [|c cs IH]; intros o No i pl d H; [destruct i; discriminate|]. cbn [fw_calls]. destruct (fw_call c o) as [o1 e] eqn:F. destruct (fw_calls cs o1) as [o2 es] eqn:G. cbn [snd].
  destruct i as [|i]; cbn [nth_error] in H |- *.
  - injection H as ->. cbn [fw_call fw_construct] in F. unfold fw_construct in F. destruct o; [congruence| |]; injection F as <- <-; reflexivity.
  - assert (No1 : o1 <> FwNone).
    { destruct c as [pl' d'|a]; cbn [fw_call] in F; unfold fw_construct, fw_add in F; destruct o as [| |dd]; try congruence; try (injection F as <- <-; discriminate). destruct (a dd). injection F as <- <-. discriminate. }
    specialize (IH o1 No1 i pl d H). rewrite G in IH. exact IH. Qed.
