(** Proofs about packet matching. *)
From Verif Require Import BaseLemmas CodecLemmas Dict DictLemmas EthAddrModel Enums EthModel ArpModel Ipv4Model Ipv4Proofs TransportModel Ipv6Model IcmpModel
  IcmpProofs IcmpCodecProofs RipModel PacketModel PacketSpec PacketProofs PacketParse NetModel TestModel TestSpec.
#[local] Open Scope string_scope.
#[local] Open Scope Z_scope.
#[local] Open Scope list_scope.

Lemma cls_eqb_eq a b : cls_eqb a b = true <-> a = b.
Proof. split; [destruct a, b; intros H; try reflexivity; discriminate H|intros ->; unfold cls_eqb; apply Z.eqb_refl]. Qed.
(** ** Wildcards *)
Lemma remove1_In a l x : In x (remove1 a l) -> In x l.
Proof. induction l as [|y l IH]; cbn [remove1]; [auto|]. destruct (str_eqb a y); cbn [In]; tauto. Qed.
Lemma remove1_spec a l : NoDup l -> (forall x, In x (remove1 a l) <-> In x l /\ x <> a) /\ NoDup (remove1 a l).
Proof. induction l as [|y l IH]; intros N; [split; [cbn; tauto|constructor]|]. inversion N as [|? ? Hy Hl]; subst. destruct (IH Hl) as [I1 I2].
  cbn [remove1]. destruct (str_spec a y) as [->|Hn].
  - split; [|exact Hl]. intros x. cbn [In]. split; [intros H; split; [right; exact H|intros ->; contradiction]|intros [[->|H] D]; [congruence|exact H]].
  - split.
    + intros x. cbn [In]. rewrite I1. split; [intros [->|[H D]]; [split; [left; reflexivity|congruence]|split; [right; exact H|exact D]]|].
      intros [[->|H] D]; [left; reflexivity|right; split; assumption].
    + constructor; [|exact I2]. intros H. apply Hy. eapply remove1_In; eauto. Qed.
Lemma filter_spec wc c : forall l, NoDup l -> forall x, In x (filter_wildcards wc c l) <-> In x l /\ ~ In (c, x) wc.
Proof. unfold filter_wildcards. induction wc as [|[c' n] wc IH]; intros l N x; cbn [fold_left]; [cbn [In]; tauto|].
  cbn [fst snd]. destruct (cls_eqb c' c) eqn:E.
  - apply cls_eqb_eq in E. subst c'. destruct (remove1_spec n l N) as [R1 R2]. rewrite (IH _ R2). rewrite R1. cbn [In].
    split; [intros [[A B] C]; split; [exact A|intros [D|D]; [congruence|contradiction]]|].
    intros [A B]. split; [split; [exact A|intros ->; apply B; left; reflexivity]|tauto].
  - rewrite (IH _ N). cbn [In]. split; [intros [A B]; split; [exact A|intros [D|D]; [|contradiction]]|tauto].
    injection D as -> ->. rewrite (proj2 (cls_eqb_eq c c) eq_refl) in E. discriminate. Qed.
Lemma wild_dec wc (c : hcls) (x : str) : {In (c, x) wc} + {~ In (c, x) wc}.
Proof. apply in_dec. intros [a b] [a' b']. decide equality; [apply String.string_dec|decide equality]. Qed.
Lemma filter_Forall wc c l (P : str -> Prop) : NoDup l -> Forall P (filter_wildcards wc c l) <-> Forall (fun x => on wc c x (P x)) l.
Proof. intros N. rewrite !Forall_forall. split; intros H x Hx.
  - destruct (wild_dec wc c x) as [W|W]; [left; exact W|right; apply H; apply filter_spec; auto].
  - apply filter_spec in Hx as [Hx Hn]; [|exact N]. destruct (H x Hx) as [W|W]; [contradiction|exact W]. Qed.

(** ** Attribute comparison *)
Definition agree (x y : res aval) : Prop := exists a b, x = Ok a /\ y = Ok b /\ aval_ne a b = Ok false.
Lemma differs_false names r c : differs names r c = Ok false <-> Forall (fun n => agree (getattr r n) (getattr c n)) names.
Proof. induction names as [|n names IH]; cbn [differs]; [split; [constructor|reflexivity]|]. split.
  - intros H. ok_step H. ok_step H. ok_step H. destruct (_ && _) eqn:Sh; [discriminate|]. ok_step H. apply ok_inj in H. apply orb_false_elim in H as [-> ->].
    constructor; [exists a, a0; auto|apply IH; reflexivity].
  - intros H. inversion H as [|? ? (a & b & E1 & E2 & E3) Ht]; subst. apply IH in Ht. rewrite E1, E2, Ht. cbn [bindr]. rewrite E3. reflexivity. Qed.
Lemma same_types_spec r : forall p, same_types r p = true <-> map class_of r = map class_of p.
Proof. induction r as [|x r IH]; intros [|y p]; cbn [same_types map]; try (split; [reflexivity||discriminate|reflexivity||discriminate]).
  rewrite andb_true_iff, cls_eqb_eq, IH. split; [intros [-> ->]; reflexivity|intros H; injection H; auto]. Qed.
Lemma attrs_differ_false m r : forall p, map class_of r = map class_of p ->
  (attrs_differ m r p = Ok false <-> Forall2 (fun x y => differs (comparison_attrs m (class_of x)) x y = Ok false) r p).
Proof. induction r as [|x r IH]; intros [|y p] C; try discriminate C; cbn [attrs_differ].
  - split; [constructor|reflexivity].
  - injection C as C1 C2. split.
    + intros H. ok_step H. ok_step H. apply ok_inj in H. apply orb_false_elim in H as [-> ->]. constructor; [exact E|apply IH; auto].
    + intros H. inversion H as [|? ? ? ? Hx Ht]; subst. apply IH in Ht; [|exact C2]. rewrite Hx, Ht. reflexivity. Qed.
Definition header_agrees (m : matcher) (x y : hdr) : Prop :=
  class_of x = class_of y /\ Forall (fun n => on (m_wc m) (class_of x) n (agree (getattr x n) (getattr y n))) (if m_exact m then attr_names (class_of x) else inexact_names (class_of x)).
Lemma attr_names_nodup c : NoDup (attr_names c).
Proof. destruct c; cbn [attr_names]; repeat (constructor; [intros H; repeat (destruct H as [H|H]; [discriminate H|]); exact H|]); constructor. Qed.
Lemma inexact_names_nodup c : NoDup (inexact_names c).
Proof. destruct c; cbn [inexact_names]; repeat (constructor; [intros H; repeat (destruct H as [H|H]; [discriminate H|]); exact H|]); constructor. Qed.
Lemma compare_spec m r p : compare m r p = Ok true <-> Forall2 (header_agrees m) r p.
Proof. unfold compare. assert (K : map class_of r = map class_of p -> (attrs_differ m r p = Ok false <-> Forall2 (header_agrees m) r p)).
  { intros C. rewrite attrs_differ_false by exact C. revert p C. induction r as [|x r IH]; intros [|y p] C; try discriminate C; [split; constructor|].
    injection C as C1 C2. split; intros H; inversion H as [|? ? ? ? Hx Ht]; subst; constructor; try (apply IH; auto; fail).
    - split; [exact C1|]. apply differs_false in Hx. unfold comparison_attrs in Hx. apply filter_Forall in Hx; [exact Hx|]. destruct (m_exact m); [apply attr_names_nodup|apply inexact_names_nodup].
    - destruct Hx as [_ Hx]. apply differs_false. unfold comparison_attrs. apply filter_Forall; [destruct (m_exact m); [apply attr_names_nodup|apply inexact_names_nodup]|exact Hx]. }
  destruct (same_types r p) eqn:S.
  - apply same_types_spec in S. rewrite <- (K S). split; [intros H; ok_step H; apply ok_inj in H; destruct a; [discriminate|reflexivity]|intros ->; reflexivity].
  - split; [discriminate|]. intros H. assert (map class_of r = map class_of p) as C.
    { clear -H. induction H as [|x y r p [Hx _] _ IH]; [reflexivity|cbn [map]; congruence]. }
    apply same_types_spec in C. congruence. Qed.

(** ** Attribute values *)
Lemma agree_Z a b : agree (Ok (AZ a)) (Ok (AZ b)) <-> a = b.
Proof. split; [intros (x & y & E1 & E2 & H)|intros ->; exists (AZ b), (AZ b)].
  - apply ok_inj in E1, E2. subst. cbn [aval_ne] in H. apply ok_inj in H. destruct (Z.eqb_spec a b); [assumption|discriminate].
  - cbn [aval_ne]. rewrite Z.eqb_refl. auto. Qed.
Lemma agree_B a b : agree (Ok (AB a)) (Ok (AB b)) <-> a = b.
Proof. split; [intros (x & y & E1 & E2 & H)|intros ->; exists (AB b), (AB b)].
  - apply ok_inj in E1, E2. subst. cbn [aval_ne] in H. apply ok_inj in H. destruct (bytes_eqb a b) eqn:E; [apply bytes_eqb_eq in E; exact E|discriminate].
  - cbn [aval_ne]. rewrite bytes_eqb_refl. auto. Qed.
Lemma agree_bool a b : agree (Ok (ABool a)) (Ok (ABool b)) <-> a = b.
Proof. split; [intros (x & y & E1 & E2 & H)|intros ->; exists (ABool b), (ABool b)].
  - apply ok_inj in E1, E2. subst. cbn [aval_ne] in H. destruct a, b; try reflexivity; discriminate.
  - cbn [aval_ne]. destruct b; auto. Qed.
Lemma agree_opt a b : agree (Ok (aopt a)) (Ok (aopt b)) <-> a = b.
Proof. destruct a as [a|], b as [b|]; cbn [aopt].
  - rewrite agree_Z. split; congruence.
  - split; [intros (x & y & E1 & E2 & H); apply ok_inj in E1, E2; subst; discriminate|discriminate].
  - split; [intros (x & y & E1 & E2 & H); apply ok_inj in E1, E2; subst; discriminate|discriminate].
  - split; [reflexivity|]. intros _. exists ANone, ANone. auto. Qed.
Lemma list_eqb_spec {A} (f : A -> A -> bool) (R : A -> A -> Prop) : (forall x y, f x y = true <-> R x y) ->
  forall a b, list_eqb f a b = true <-> Forall2 R a b.
Proof. intros F. induction a as [|x a IH]; intros [|y b]; cbn [list_eqb]; try (split; [discriminate|intros H; inversion H]); [split; auto|].
  rewrite andb_true_iff, F, IH. split; [intros [H1 H2]; constructor; auto|intros H; inversion H; auto]. Qed.
Lemma Forall2_eq {A} (a b : list A) : Forall2 eq a b <-> a = b.
Proof. split; [induction 1; congruence|intros ->; induction b; constructor; auto]. Qed.
Lemma ipopt_eqb_spec a b : ipopt_eqb a b = true <-> same_option a b.
Proof. assert (R : forall o, ipopt_eqb o o = true).
  { intros [| |n p l|p f l|n v c]; cbn [ipopt_eqb]; rewrite ?Z.eqb_refl; cbn [andb]; auto.
    - apply (list_eqb_spec _ eq); [intros; apply bytes_eqb_eq|apply Forall2_eq; reflexivity].
    - rewrite andb_true_r. apply (list_eqb_spec _ eq); [|apply Forall2_eq; reflexivity]. intros [x n] [y k]. cbn [fst snd].
      rewrite andb_true_iff, Z.eqb_eq. destruct x as [x|], y as [y|]; cbn [optbytes_eqb]; rewrite ?bytes_eqb_eq; split; try (intros [H1 H2]); try congruence; intros H; split; congruence. }
  split.
  - destruct a as [| |n p l|p f l|n v c], b as [| |n' p' l'|p' f' l'|n' v' c']; cbn [ipopt_eqb]; intros H; try discriminate; try constructor.
    + apply andb_prop in H as [H L]. apply andb_prop in H as [H1 H2]. apply Z.eqb_eq in H1, H2. apply (list_eqb_spec _ eq) in L; [|intros; apply bytes_eqb_eq].
      apply Forall2_eq in L. subst. constructor.
    + apply andb_prop in H as [L H]. apply Z.eqb_eq in H. apply (list_eqb_spec _ eq) in L.
      * apply Forall2_eq in L. subst. constructor.
      * intros [x n] [y k]. cbn [fst snd]. rewrite andb_true_iff, Z.eqb_eq.
        destruct x as [x|], y as [y|]; cbn [optbytes_eqb]; rewrite ?bytes_eqb_eq; split; try (intros [? ?]); try congruence; intros ?; split; congruence.
    + apply andb_prop in H as [H L]. apply andb_prop in H as [H1 H2]. apply Z.eqb_eq in H1, H2, L. subst. constructor.
  - intros H. destruct H; [apply R|]. pose proof (R (OTs p f l)) as K. exact K. Qed.
Lemma agree_opts a b : agree (Ok (AOpts a)) (Ok (AOpts b)) <-> Forall2 same_option a b.
Proof. rewrite <- (list_eqb_spec _ _ ipopt_eqb_spec). split; [intros (x & y & E1 & E2 & H)|intros H; exists (AOpts a), (AOpts b)].
  - apply ok_inj in E1, E2. subst. cbn [aval_ne] in H. apply ok_inj in H. destruct (list_eqb ipopt_eqb a b); [reflexivity|discriminate].
  - cbn [aval_ne]. rewrite H. auto. Qed.
Lemma data_eqb_same a b : data_eqb a b = Ok true <-> same_body a b.
Proof. unfold data_eqb, same_body. destruct a as [k x| | | | | | | | | | |]; [destruct k; [| |destruct b|]|..];
    try (split; [intros H; apply ok_inj in H; apply bytes_eqb_eq in H; exact H|intros H; f_equal; apply bytes_eqb_eq; exact H]);
    try (split; [discriminate|contradiction]).
  destruct b; try (split; [discriminate|contradiction]).
  1,2: split; [intros H; apply ok_inj in H; apply andb_prop in H as [H H3]; apply andb_prop in H as [H1 H2]; apply Z.eqb_eq in H1, H2; apply bytes_eqb_eq in H3; auto|
    intros (-> & -> & ->); rewrite !Z.eqb_refl, bytes_eqb_refl; reflexivity]. Qed.
Lemma agree_data a b : agree (Ok (AData a)) (Ok (AData b)) <-> same_body a b.
Proof. rewrite <- data_eqb_same. split; [intros (x & y & E1 & E2 & H)|intros H; exists (AData a), (AData b)].
  - apply ok_inj in E1, E2. subst. cbn [aval_ne] in H. ok_step H. apply ok_inj in H. destruct a0; [reflexivity|discriminate].
  - cbn [aval_ne]. rewrite H. auto. Qed.
Lemma agree_hl a b : agree (s <- ip_size a;; Ok (AZ (s / 4))) (s <- ip_size b;; Ok (AZ (s / 4))) <->
  exists m n, ip_size a = Ok m /\ ip_size b = Ok n /\ m / 4 = n / 4.
Proof. split.
  - intros (x & y & E1 & E2 & H). ok_step E1. ok_step E2. apply ok_inj in E1, E2. subst. exists a0, a1. split; [reflexivity|]. split; [reflexivity|].
    cbn [aval_ne] in H. apply ok_inj in H. destruct (Z.eqb_spec (a0 / 4) (a1 / 4)); [assumption|discriminate].
  - intros (m & n & -> & -> & E). cbn [bindr]. apply agree_Z. exact E. Qed.
Lemma isset_testbit f k : 0 <= k -> tcp_isset f k = Z.testbit f k.
Proof. intros Hk. unfold tcp_isset. rewrite Z.shiftl_1_l. destruct (Z.testbit f k) eqn:E.
  - apply Z.eqb_eq. apply Z.bits_inj'. intros n Hn. rewrite Z.land_spec, Z.pow2_bits_eqb by lia. destruct (Z.eqb_spec k n); [subst; rewrite E; reflexivity|apply andb_false_r].
  - apply Z.eqb_neq. intros H. assert (T : Z.testbit (Z.land f (2 ^ k)) k = true) by (rewrite H; apply Z.pow2_bits_true; lia).
    rewrite Z.land_spec, E in T. discriminate. Qed.
Definition flag_letters : list (Z * Z) := [(0, 70); (1, 83); (2, 82); (3, 80); (4, 65); (5, 85); (6, 69); (7, 67); (8, 78)].
Lemma flagstr_In f l : In l (tcp_flagstr f) <-> exists k, In (k, l) flag_letters /\ tcp_isset f k = true.
Proof. unfold tcp_flagstr. fold flag_letters. rewrite in_concat. split.
  - intros (x & Hx & Hl). apply in_map_iff in Hx as ([k c] & <- & Hk). cbn [fst snd] in Hl. destruct (tcp_isset f k) eqn:E; [|contradiction].
    destruct Hl as [<-|[]]. exists k. auto.
  - intros (k & Hk & E). exists [l]. split; [|left; reflexivity]. apply in_map_iff. exists (k, l). cbn [fst snd]. rewrite E. auto. Qed.
Lemma flagstr_eq a b : tcp_flagstr a = tcp_flagstr b <-> forall k, 0 <= k <= 8 -> Z.testbit a k = Z.testbit b k.
Proof. split.
  - intros H k Hk. assert (exists l, In (k, l) flag_letters) as [l Hl].
    { assert (k = 0 \/ k = 1 \/ k = 2 \/ k = 3 \/ k = 4 \/ k = 5 \/ k = 6 \/ k = 7 \/ k = 8) as K by lia. unfold flag_letters.
      repeat (destruct K as [->|K]; [eexists; cbn [In]; tauto|]). subst. eexists. cbn [In]. tauto. }
    assert (U : forall j, In (j, l) flag_letters -> j = k).
    { intros j Hj. unfold flag_letters in Hl, Hj. cbn [In] in Hl, Hj.
      repeat (destruct Hl as [Hl|Hl]; [injection Hl as <- <-; repeat (destruct Hj as [Hj|Hj]; [congruence|]); contradiction|]). contradiction. }
    rewrite <- !isset_testbit by lia.
    assert (D : forall x y, tcp_flagstr x = tcp_flagstr y -> tcp_isset x k = true -> tcp_isset y k = true).
    { intros x y E I. assert (J : In l (tcp_flagstr x)) by (apply flagstr_In; eauto). rewrite E in J. apply flagstr_In in J as (j & Hj & J). rewrite (U j Hj) in J. exact J. }
    destruct (tcp_isset a k) eqn:Ea; [symmetry; eapply D; eauto|]. destruct (tcp_isset b k) eqn:Eb; [|reflexivity].
    rewrite (D b a (eq_sym H) Eb) in Ea. discriminate.
  - intros H. unfold tcp_flagstr. cbn [map fst snd List.concat]. rewrite !isset_testbit by lia. rewrite !(fun k => H k) by lia. reflexivity. Qed.
(** ** Headers *)
Lemma on_iff wc c n (P Q : Prop) : (P <-> Q) -> (on wc c n P <-> on wc c n Q).
Proof. unfold on. tauto. Qed.
Lemma shiftr2 n : Z.shiftr n 2 = n / 4.
Proof. rewrite Z.shiftr_div_pow2 by lia. reflexivity. Qed.
Lemma land3 n : Z.land n 3 = n mod 4.
Proof. change 3 with (Z.ones 2). rewrite Z.land_ones by lia. reflexivity. Qed.
#[local] Instance on_proper wc c n : Morphisms.Proper (Morphisms.respectful iff iff) (on wc c n).
Proof. intros P Q H. apply on_iff. exact H. Qed.
Ltac attr_step :=
  cbn [attr_names inexact_names class_of]; rewrite ?Forall_cons_iff, ?Forall_nil_iff;
  unfold getattr; cbn [attrs dget str_eqb String.eqb Ascii.eqb Bool.eqb];
  rewrite ?agree_Z, ?agree_B, ?agree_bool, ?agree_opt, ?agree_opts, ?agree_data, ?agree_hl.
Lemma exact_header wc preds ref r h : header_agrees (mkM ref true wc preds) r h <-> exact_same wc r h.
Proof. unfold header_agrees. cbn [m_wc m_exact]. destruct r, h; cbn [class_of]; try (split; [intros [H _]; discriminate H|contradiction]); unfold exact_same; cbn [class_of];
    attr_step; rewrite ?shiftr2, ?land3, ?flagstr_eq, ?isset_testbit by lia; try tauto.
  - assert (on wc CTcp "offset" (tcp_offset h0 = tcp_offset h)) by (right; reflexivity). assert (on wc CTcp "options" ([] = @nil Z)) by (right; reflexivity). tauto.
  - assert (on wc CRip "version" (2 = 2)) by (right; reflexivity). tauto. Qed.
Lemma inexact_header wc preds ref r h : header_agrees (mkM ref false wc preds) r h <-> inexact_same wc r h.
Proof. unfold header_agrees. cbn [m_wc m_exact]. destruct r, h; cbn [class_of]; unfold inexact_same; cbn [class_of]; try (split; [intros [H _]; discriminate H|discriminate]);
    attr_step; try tauto. Qed.

Lemma eval_preds_true l p : eval_preds l p = Ok true <-> Forall (fun f => f p = Ok true) l.
Proof. induction l as [|f l IH]; cbn [eval_preds]; [split; [constructor|reflexivity]|]. split.
  - intros H. ok_step H. ok_step H. apply ok_inj in H. apply andb_prop in H as [-> ->]. constructor; [exact E|apply IH; reflexivity].
  - intros H. inversion H as [|? ? Hf Ht]; subst. apply IH in Ht. rewrite Hf, Ht. reflexivity. Qed.
Lemma match_spec m p p' : m_match m p = Ok (true, p') <->
  (exists b r' rb, pkt_to_bytes p = Ok (p', b) /\ pkt_to_bytes (m_ref m) = Ok (r', rb) /\ Forall2 (header_agrees m) r' p') /\ Forall (fun f => f p' = Ok true) (m_preds m).
Proof. unfold m_match. rewrite <- eval_preds_true. split.
  - intros H. ok_step H. destruct a as [q b]. ok_step H. destruct a as [r' rb]. ok_step H. ok_step H. apply ok_pair_inj in H as [H <-]. apply andb_prop in H as [-> ->].
    split; [|exact E2]. exists b, r', rb. split; [reflexivity|]. split; [reflexivity|]. apply compare_spec. exact E1.
  - intros [(b & r' & rb & -> & -> & H) P]. cbn [bindr]. apply compare_spec in H. rewrite H. cbn [bindr]. rewrite P. reflexivity. Qed.
(** Exact match: agreement of every attribute of the serialised packets that is not wildcarded. *)
Theorem exact_match_iff ref wc preds p p' : m_match (mkM ref true wc preds) p = Ok (true, p') <->
  (exists b r' rb, pkt_to_bytes p = Ok (p', b) /\ pkt_to_bytes ref = Ok (r', rb) /\ Forall2 (exact_same wc) r' p') /\ Forall (fun f => f p' = Ok true) preds.
Proof. rewrite match_spec. cbn [m_ref m_preds].
  split; intros [(b & r' & rb & H1 & H2 & H3) H4]; (split; [|exact H4]); exists b, r', rb; (split; [exact H1|]); (split; [exact H2|]);
    clear -H3; induction H3; constructor; auto; eapply exact_header; eauto. Qed.
(** ** Serialising leaves the compared fields of an inexact match alone *)
Lemma pre_ser_inexact raw pk h h1 : pre_ser raw pk h = Ok h1 -> forall wc x, (inexact_same wc (hdr_after h1) x <-> inexact_same wc h x) /\ (inexact_same wc x (hdr_after h1) <-> inexact_same wc x h).
Proof. intros H wc x. destruct h; cbn [pre_ser] in H; try discriminate H.
  all: try (apply ok_inj in H; subst h1; cbn [hdr_after]; split; destruct x; reflexivity).
  - ok_step H. apply ok_inj in H. subst. unfold ip_pre_serialize in E. ok_step E. apply ok_inj in E. subst. cbn [hdr_after]. split; destruct x; reflexivity.
  - ok_step H. apply ok_inj in H. subst. unfold udp_pre_serialize in E. ok_step E. apply ok_inj in E. subst. cbn [hdr_after]. split; destruct x; reflexivity.
  - ok_step H. apply ok_inj in H. subst. unfold tcp_pre_serialize in E. ok_step E. apply ok_inj in E. subst. cbn [hdr_after]. split; destruct x; reflexivity.
  - apply ok_inj in H. subst h1. cbn [hdr_after]. unfold icmp_serialised. destruct (icmp_pack h 0); split; destruct x; reflexivity.
  - ok_step H. apply ok_inj in H. subst. unfold icmp6_pre_serialize in E. destruct (first_ip6 pk); [|discriminate]. ok_step E. apply ok_inj in E. subst. cbn [hdr_after]. split; destruct x; reflexivity. Qed.
Lemma ser_inexact wc hs : forall pre hs' b xs, ser pre hs = Ok (hs', b) -> (Forall2 (inexact_same wc) hs' xs <-> Forall2 (inexact_same wc) hs xs) /\ (Forall2 (inexact_same wc) xs hs' <-> Forall2 (inexact_same wc) xs hs).
Proof. induction hs as [|h hs IH]; intros pre hs' b xs H; [apply ok_pair_inj in H as [<- <-]; tauto|].
  cbn [ser] in H. ok_step H. destruct a as [t' raw]. ok_step H. ok_step H. apply ok_pair_inj in H as [<- <-].
  pose proof (fun xs => IH _ _ _ xs E) as K. pose proof (pre_ser_inexact _ _ _ _ E0 wc) as J.
  split; (split; intros F; inversion F; subst; (constructor; [apply J; assumption|apply K; assumption])). Qed.
Theorem inexact_match_iff ref wc preds p p' b : pkt_to_bytes p = Ok (p', b) -> forall r' rb, pkt_to_bytes ref = Ok (r', rb) ->
  (m_match (mkM ref false wc preds) p = Ok (true, p') <-> Forall2 (inexact_same wc) ref p /\ Forall (fun f => f p' = Ok true) preds).
Proof. intros Hp r' rb Hr. rewrite match_spec. cbn [m_ref m_preds].
  assert (K : Forall2 (inexact_same wc) r' p' <-> Forall2 (inexact_same wc) ref p).
  { rewrite (proj1 (ser_inexact wc ref [] r' rb p' Hr)). exact (proj2 (ser_inexact wc p [] p' b ref Hp)). }
  assert (J : Forall2 (header_agrees (mkM ref false wc preds)) r' p' <-> Forall2 (inexact_same wc) r' p').
  { split; intros F; clear -F; induction F; constructor; auto; eapply inexact_header; eauto. }
  rewrite <- K, <- J. split.
  - intros [(b' & r2 & rb2 & H1 & H2 & H3) H4]. split; [|exact H4]. assert (r2 = r') by congruence. subst. exact H3.
  - intros [H3 H4]. split; [|exact H4]. exists b, r', rb. auto. Qed.
(** More wildcards accept more, more predicates accept less. *)
Lemma exact_mono wc wc' r h : incl wc wc' -> exact_same wc r h -> exact_same wc' r h.
Proof. intros I. assert (O : forall c n P, on wc c n P -> on wc' c n P) by (intros c n P [W|W]; [left; apply I; exact W|right; exact W]).
  destruct r, h; cbn [exact_same]; try tauto; intros H; repeat (match goal with H : _ /\ _ |- _ => destruct H end); repeat split; auto. Qed.
Lemma inexact_mono wc wc' r h : incl wc wc' -> inexact_same wc r h -> inexact_same wc' r h.
Proof. intros I. assert (O : forall c n P, on wc c n P -> on wc' c n P) by (intros c n P [W|W]; [left; apply I; exact W|right; exact W]).
  destruct r, h; cbn [inexact_same]; try tauto; intros H; repeat (match goal with H : _ /\ _ |- _ => destruct H end); repeat split; auto. Qed.
Theorem match_monotone ref exact wc wc' preds preds' p p' : incl wc wc' -> incl preds' preds ->
  m_match (mkM ref exact wc preds) p = Ok (true, p') -> m_match (mkM ref exact wc' preds') p = Ok (true, p').
Proof. intros I J. rewrite !match_spec. cbn [m_ref m_preds]. intros [(b & r' & rb & H1 & H2 & H3) H4]. split.
  - exists b, r', rb. split; [exact H1|]. split; [exact H2|]. clear -H3 I. induction H3 as [|x y l l' Hx Ht IH]; constructor; [|exact IH].
    destruct exact; [apply exact_header; apply exact_header in Hx; eapply exact_mono; eauto|apply inexact_header; apply inexact_header in Hx; eapply inexact_mono; eauto].
  - rewrite Forall_forall in *. auto. Qed.
