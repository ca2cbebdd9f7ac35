(** Proofs about ICMP: the setters (both families) and the IPv4 message codecs. *)
From Verif Require Import BaseLemmas CodecLemmas Enums ArpModel EthProofs ChecksumModel ChecksumSpec ChecksumProofs
  Ipv4Model Ipv4Proofs Ipv4Proofs2 Ipv6Model IcmpModel.

(** ** Which data objects belong to which type (RFC 792 / RFC 4443, 4861 message formats).  An echo-reply object is
    also an echo-request object and likewise for address masks (IPv4 classes only). *)
Definition kind4 (t : Z) (d : icmpdata) : Prop :=
  match d with
  | DEcho false false _ _ _ => t = 8
  | DEcho false true _ _ _ => t = 0 \/ t = 8
  | DMask false _ _ _ _ => t = 17
  | DMask true _ _ _ _ => t = 17 \/ t = 18
  | DUnreach false _ _ _ => t = 3
  | DQuench _ => t = 4
  | DRedirect _ _ => t = 5
  | DTimeEx _ _ => t = 11
  | DPlain (K4 c) _ => t = c /\ In c [9; 10; 12; 13; 14; 15; 16]
  | _ => False
  end.
Definition kind6 (t : Z) (d : icmpdata) : Prop :=
  match d with
  | DEcho true false _ _ _ => t = 128
  | DEcho true true _ _ _ => t = 129
  | DUnreach true _ _ _ => t = 1
  | DRS _ => t = 133
  | DRA _ _ _ _ _ _ _ _ _ => t = 134
  | DNS _ _ => t = 135
  | DNA _ _ _ _ _ => t = 136
  | DRedir6 _ _ _ => t = 137
  | DPlain (K6 c) _ => t = c /\ In c [130; 131; 132; 143]
  | _ => False
  end.
Definition kind (v6 : bool) := if v6 then kind6 else kind4.

(** Codes of RFC 792 / 4443 as the library lists them. *)
Definition code_ok (v6 : bool) (t c : Z) : Prop :=
  if v6 then
    (t = 1 /\ 0 <= c <= 8) \/ (In t [128; 129; 130; 131; 132; 133; 134; 135; 136; 137; 143] /\ c = 0)
  else
    (t = 3 /\ 0 <= c <= 15) \/ (t = 5 /\ 0 <= c <= 3) \/ (t = 11 /\ 0 <= c <= 1) \/ (t = 12 /\ 0 <= c <= 2) \/
    (In t [0; 4; 8; 9; 10; 13; 14; 15; 16; 17; 18] /\ c = 0).
Definition consistent (v6 : bool) (m : icmp) : Prop := code_ok v6 (ic_type m) (ic_code m) /\ kind v6 (ic_type m) (ic_data m).

(** Data objects of the family: those the user can construct and assign. *)
Definition own_data (v6 : bool) (d : icmpdata) : Prop := exists t, kind v6 t d.

Inductive icmp_op :=
| OpType (v : tval) | OpCode (v : cval) | OpData (v : dval)
| OpFields (d : icmpdata).   (* assigning fields of the data object: same class, new values *)
Definition icmp_step (v6 : bool) (o : icmp_op) (m : icmp) : icmp * option exn :=
  match o with
  | OpType v => icmp_set_type v6 v m
  | OpCode v => icmp_set_code v6 v m
  | OpData v => icmp_set_data v6 v m
  | OpFields d => if icls_eqb (data_class d) (data_class (ic_data m)) then (with_data d m, None) else (m, None)
  end.
Definition icmp_run (v6 : bool) (ops : list icmp_op) (m : icmp) : icmp :=
  fold_left (fun m o => fst (icmp_step v6 o m)) ops m.
(** Python objects only: enumeration members exist, data objects are of the classes of the family. *)
Definition op_ok (v6 : bool) (o : icmp_op) : Prop :=
  match o with
  | OpCode (CEnum t c) => code_ok v6 t c
  | OpData (DObj d) | OpFields d => own_data v6 d
  | _ => True
  end.

Lemma zmem_dec z l : {In z l} + {zmem z l = false}.
Proof. destruct (zmem z l) eqn:E; [left; apply zmem_In; auto|right; auto]. Qed.

Ltac in_cases H := cbn [In] in H; repeat (destruct H as [H|H]; [subst|]); [..|contradiction].

Definition classed (v6 : bool) : list Z := if v6 then icmp6_classes else ICMPTypes.

Lemma code_ok_codes v6 t c : code_ok v6 t c <-> exists l, valid_codes v6 t = Some l /\ In c l.
Proof. split.
  - destruct v6; unfold code_ok, valid_codes; intros H.
    + destruct H as [[-> H]|[H ->]]; [exists [0;1;2;3;4;5;6;7;8]; split; [reflexivity|]; cbn; lia|].
      in_cases H; eexists; (split; [reflexivity|]); cbn; auto.
    + destruct H as [[-> H]|[[-> H]|[[-> H]|[[-> H]|[H ->]]]]]; try (eexists; split; [reflexivity|]; cbn; lia).
      in_cases H; eexists; (split; [reflexivity|]); cbn; auto.
  - intros (l & H1 & H2). destruct v6; unfold valid_codes, icmp6_codes, icmp_codes, code_ok in *.
    + destruct (Z.eqb_spec t 1); [apply f_equal with (f := fun o => match o with Some x => x | None => [] end) in H1; subst l; cbn in H2; lia|].
      destruct (zmem_dec t [128; 129; 130; 131; 132; 133; 134; 135; 136; 137; 143]) as [Hi|Hi]; [|rewrite Hi in H1; discriminate].
      rewrite (proj2 (zmem_In _ _) Hi) in H1. injection H1 as <-. cbn [In] in H2. right. split; [exact Hi|lia].
    + destruct (zmem_dec t ICMPTypes) as [Hi|Hi]; [|rewrite Hi in H1; discriminate].
      rewrite (proj2 (zmem_In _ _) Hi) in H1. injection H1 as <-.
      unfold ICMPTypes in Hi. in_cases Hi; cbn in H2; cbn [In]; lia. Qed.

Lemma set_type_spec v6 z m : In z (classed v6) -> exists cls, class_of_type v6 z = Some cls /\
  icmp_set_type v6 (TInt z) m =
    (mkIcmp z 0 (if subclass (data_class (ic_data m)) cls then ic_data m else data_new cls) (ic_csum m), None).
Proof. intros H. destruct m as [t c d k]. cbn [ic_data ic_csum].
  destruct v6; cbn [classed icmp6_classes ICMPTypes] in H;
  in_cases H; eexists; (split; [reflexivity|]);
  (unfold icmp_set_type; cbn [set_type]; cbn [ic_data];
   match goal with |- context [negb (zmem ?a ?b)] => change (negb (zmem a b)) with false end; cbn iota;
   match goal with |- context [class_of_type ?a ?b] => let x := eval vm_compute in (class_of_type a b) in change (class_of_type a b) with x end; cbn iota;
   match goal with |- context [subclass (data_class d) ?c] => destruct (subclass (data_class d) c) end; reflexivity). Qed.

Lemma set_type_refused v6 v m : (forall z, v = TInt z -> ~ In z (classed v6)) ->
  exists e, icmp_set_type v6 v m = (m, Some e).
Proof. intros H. unfold icmp_set_type. cbn [set_type]. destruct v as [z|]; [|eauto].
  specialize (H z eq_refl). destruct (negb (zmem z (valid_types v6))) eqn:E; [eauto|].
  destruct v6; cbn [class_of_type classed valid_types] in *.
  - destruct (zmem_dec z icmp6_classes) as [Hi|Hi]; [contradiction|]. rewrite Hi. eauto.
  - exfalso. apply H. apply zmem_In. destruct (zmem z ICMPTypes); [reflexivity|discriminate]. Qed.

Lemma kind_sub v6 t d cls z : kind v6 t d -> class_of_type v6 z = Some cls -> In z (classed v6) ->
  subclass (data_class d) cls = true -> kind v6 z d.
Proof. intros Hk Hc Hz Hs. destruct v6; cbn [kind classed class_of_type] in *.
  - unfold icmp6_classes in *. destruct d as [c ?|?|? ?|[|] ? ? ?|[|] [|] ? ? ?|? ?|[|] ? ? ? ?|?|? ? ? ? ? ? ? ? ?|? ?|? ? ? ? ?|? ? ?]; cbn [kind6] in Hk; try contradiction;
    try (destruct c as [c|c| |]; try contradiction);
    in_cases Hz; cbn in Hc; injection Hc as <-; cbn in Hs |- *; try discriminate; try reflexivity;
    try (destruct Hk as [-> Hk]; in_cases Hk; cbn in Hs; try discriminate; cbn; auto 10).
  - injection Hc as <-. unfold ICMPTypes in *.
    destruct d as [c ?|?|? ?|[|] ? ? ?|[|] [|] ? ? ?|? ?|[|] ? ? ? ?|?|? ? ? ? ? ? ? ? ?|? ?|? ? ? ? ?|? ? ?]; cbn [kind4] in Hk; try contradiction;
    try (destruct c as [c|c| |]; try contradiction);
    in_cases Hz; cbn in Hs |- *; try discriminate; try tauto; try reflexivity;
    try (destruct Hk as [-> Hk]; in_cases Hk; cbn in Hs; try discriminate; cbn; tauto). Qed.
Lemma kind_new v6 z cls : In z (classed v6) -> class_of_type v6 z = Some cls -> kind v6 z (data_new cls).
Proof. intros Hz Hc. destruct v6; cbn [classed icmp6_classes ICMPTypes class_of_type kind] in *.
  - in_cases Hz; cbn in Hc; injection Hc as <-; cbn; auto 10.
  - injection Hc as <-. in_cases Hz; cbn; auto 10. Qed.
Lemma kind_class v6 t d : kind v6 t d -> exists t', type_of_class v6 (data_class d) = Some t' /\ In t' (classed v6) /\ kind v6 t' d /\
  exists cls, class_of_type v6 t' = Some cls /\ subclass (data_class d) cls = true.
Proof. intros Hk. destruct v6; cbn [kind classed] in *;
    destruct d as [c ?|?|? ?|[|] ? ? ?|[|] [|] ? ? ?|? ?|[|] ? ? ? ?|?|? ? ? ? ? ? ? ? ?|? ?|? ? ? ? ?|? ? ?]; cbn [kind4 kind6] in *; try contradiction;
    try (destruct c as [c|c| |]; try contradiction; destruct Hk as [-> Hk]; in_cases Hk);
    (eexists; split; [reflexivity|]; split; [cbn; auto 20|]; split; [cbn; auto 10|]; eexists; split; reflexivity). Qed.
Lemma kind_classed v6 t d : kind v6 t d -> In t (classed v6).
Proof. intros Hk. destruct v6; cbn [kind classed icmp6_classes ICMPTypes] in *;
    destruct d as [c ?|?|? ?|[|] ? ? ?|[|] [|] ? ? ?|? ?|[|] ? ? ? ?|?|? ? ? ? ? ? ? ? ?|? ?|? ? ? ? ?|? ? ?]; cbn [kind4 kind6] in *; try contradiction;
    try (destruct c as [c|c| |]; try contradiction; destruct Hk as [-> Hk]; in_cases Hk); cbn; auto 20;
    repeat (destruct Hk as [Hk|Hk]); subst; cbn; auto 20. Qed.
Lemma classed_code0 v6 z : In z (classed v6) -> code_ok v6 z 0.
Proof. intros H. apply code_ok_codes. destruct v6; cbn [classed icmp6_classes ICMPTypes] in H;
  in_cases H; eexists; (split; [reflexivity|]); cbn; auto. Qed.

Lemma set_data_spec v6 d m : own_data v6 d -> exists t, kind v6 t d /\ icmp_set_data v6 (DObj d) m = (mkIcmp t 0 d (ic_csum m), None).
Proof. intros (t0 & Hk). destruct (kind_class v6 t0 d Hk) as (t & Ht & Hc & Hk' & cls & Hcl & Hs).
  exists t. split; auto. unfold icmp_set_data. change (set_data_aux 5 v6 d m) with
    (match type_of_class v6 (data_class d) with Some t => icmp_set_type v6 (TInt t) (with_data d m) | None => icmp_set_type v6 TBad (with_data d m) end).
  rewrite Ht. destruct (set_type_spec v6 t (with_data d m) Hc) as (cls' & E1 & E2). rewrite E2.
  cbn [ic_data with_data ic_csum]. rewrite E1 in Hcl. injection Hcl as ->. rewrite Hs. reflexivity. Qed.

(** The state before and after one operation. *)
Lemma icmp_step_ok v6 o m : op_ok v6 o -> consistent v6 m ->
  consistent v6 (fst (icmp_step v6 o m)) /\
  (forall e, snd (icmp_step v6 o m) = Some e -> fst (icmp_step v6 o m) = m).
Proof. intros Ho Hm. destruct o as [v|v|v|d]; cbn [icmp_step op_ok] in *.
  - assert (D : (exists z, v = TInt z /\ In z (classed v6)) \/ (forall z, v = TInt z -> ~ In z (classed v6))).
    { destruct v as [z|]; [|right; congruence]. destruct (in_dec Z.eq_dec z (classed v6)); [left; eauto|right; congruence]. }
    destruct D as [(z & -> & Hz)|D].
    + destruct (set_type_spec v6 z m Hz) as (cls & Hc & ->). cbn [fst snd]. split; [|discriminate].
      destruct Hm as [_ Hk]. split; cbn [ic_type ic_code ic_data]; [apply classed_code0; auto|].
      destruct (subclass _ _) eqn:E; [eapply kind_sub; eauto|apply kind_new; auto].
    + destruct (set_type_refused v6 v m D) as (e & ->). cbn. auto.
  - destruct v as [t c| |z|]; cbn [icmp_set_code fst snd].
    + destruct (Z.eqb_spec t (ic_type m)); cbn [fst snd]; auto. subst t. split; [|discriminate].
      split; [exact Ho|apply Hm].
    + auto.
    + destruct (valid_codes v6 (ic_type m)) as [l|] eqn:El; cbn [fst snd]; auto.
      destruct (zmem z l) eqn:E; cbn [fst snd]; auto. split; [|discriminate]. split; [|apply Hm].
      cbn [ic_type ic_code with_code]. apply code_ok_codes. exists l. split; auto. apply zmem_In; auto.
    + auto.
  - destruct v as [d|]; [|cbn; auto]. destruct (set_data_spec v6 d m Ho) as (t & Hk & ->). cbn [fst snd]. split; [|discriminate].
    split; cbn [ic_type ic_code ic_data]; auto. apply classed_code0. eapply kind_classed; eauto.
  - destruct (icls_eqb _ _) eqn:E; cbn [fst snd]; [|auto]. split; [|discriminate]. destruct Hm as [Hc Hk]. split; [exact Hc|].
    cbn [ic_type ic_data with_data]. destruct Ho as [t Ht].
    destruct (kind_class v6 _ _ Hk) as (t' & E1 & E2 & E3 & cls & E4 & E5).
    assert (Hcl : data_class d = data_class (ic_data m)).
    { destruct (data_class d), (data_class (ic_data m)); cbn in E; try discriminate; try reflexivity; apply Z.eqb_eq in E; congruence. }
    destruct v6; cbn [kind] in *; destruct d as [c ?|?|? ?|[|] ? ? ?|[|] [|] ? ? ?|? ?|[|] ? ? ? ?|?|? ? ? ? ? ? ? ? ?|? ?|? ? ? ? ?|? ? ?]; cbn [kind4 kind6 data_class] in *; try contradiction;
    destruct (ic_data m) as [c' ?|?|? ?|[|] ? ? ?|[|] [|] ? ? ?|? ?|[|] ? ? ? ?|?|? ? ? ? ? ? ? ? ?|? ?|? ? ? ? ?|? ? ?]; cbn [kind4 kind6 data_class] in *; try contradiction; try discriminate; auto;
    try (subst; exact Hk); try (subst c'; destruct Hk as [-> Hk]; cbn in Hk; intuition lia);
    try (subst c; destruct Ht as [-> Ht]; cbn in Ht; intuition lia). Qed.

Lemma icmp_new_consistent v6 : consistent v6 (icmp_new v6).
Proof. destruct v6; split; cbn; auto 20. Qed.
Lemma icmp_run_consistent v6 ops m : Forall (op_ok v6) ops -> consistent v6 m -> consistent v6 (icmp_run v6 ops m).
Proof. intros H. revert m. induction H as [|o ops Ho _ IH]; intros m Hm; [exact Hm|]. cbn. apply IH. apply icmp_step_ok; auto. Qed.

(** A data object of a foreign class is refused only after it was stored. *)
Lemma icmp_foreign_data v6 d m : type_of_class v6 (data_class d) = None ->
  icmp_set_data v6 (DObj d) m = (with_data d m, Some EValue).
Proof. intros H. unfold icmp_set_data. cbn [set_data_aux]. rewrite H. reflexivity. Qed.
