From Verif Require Import BaseLemmas CodecLemmas CtlModel CtlSpec.
#[local] Open Scope list_scope.

Lemma opt_eq a b : opt_eqb a b = true <-> a = b.
Proof. split; [destruct a, b; cbn; congruence|intros ->; destruct b; reflexivity]. Qed.
Lemma zmem_iff v l : zmem v l = true <-> In v l.
Proof. unfold zmem. rewrite existsb_exists. split; [intros (x & I & E); apply Z.eqb_eq in E; now subst|intros I; exists v; split; [exact I|apply Z.eqb_refl]]. Qed.
Lemma enum_iff m v x : enum_of m v = Ok x <-> x = v /\ In v m.
Proof. unfold enum_of. rewrite <- zmem_iff. destruct (zmem v m); split; [intros H; apply ok_inj in H; auto|intros [-> _]; reflexivity|discriminate|intros [_ H]; discriminate]. Qed.
Lemma enum_all_iff m l r : enum_all m l = Ok r <-> r = l /\ Forall (fun x => In x m) l.
Proof.
  revert r. induction l as [|x l IH]; intros r; cbn [enum_all].
  - split; [intros H; apply ok_inj in H; subst; auto|intros [-> _]; reflexivity].
  - destruct (enum_of m x) as [v|e] eqn:E; cbn [bindr].
    + apply enum_iff in E as [-> E]. destruct (enum_all m l) as [t|e] eqn:T; cbn [bindr].
      * destruct (proj1 (IH t) eq_refl) as [-> F0]. split; [intros H; apply ok_inj in H; subst; auto|intros [-> _]; reflexivity].
      * split; [discriminate|]. intros [_ F]. inversion F as [|? ? _ F']; subst. assert (K : Err e = Ok l) by (apply IH; auto). discriminate K.
    + split; [discriminate|]. intros [_ F]. inversion F as [|? ? I _]; subst. assert (K : enum_of m x = Ok x) by (apply enum_iff; auto). congruence.
Qed.
Lemma types_in v : In v TstampTypes <-> 0 <= v <= 4.
Proof. unfold TstampTypes. cbn [In]. lia. Qed.
Section Device.
Context (d : device).
#[local] Notation set_opt := (set_opt d).

(** A setter changes what is set exactly when it returns. *)
Lemma call_effect o v h : call_set d o v h = (mkH (h_on h) (upd (h_set h) o v), Ok tt) \/ exists e, call_set d o v h = (h, Err e).
Proof.
  unfold call_set. destruct (negb (cint v)); [eauto|]. unfold lib_set.
  destruct o; try (destruct (h_on h) eqn:A; cbn; rewrite ?A; eauto; fail); try (left; reflexivity).
  - destruct (h_on h) eqn:A; [cbn; eauto|]. destruct (zmem v (d_types d)); cbn; eauto.
  - destruct (h_on h) eqn:A; [cbn; eauto|]. destruct (d_prec d v); cbn; eauto.
  - destruct (h_on h) eqn:A; [|cbn; eauto]. destruct (d_dir d v); cbn; eauto.
Qed.
Lemma set_effect o v h : set_opt o v h = (mkH (h_on h) (upd (h_set h) o v), Ok tt) \/ exists e, set_opt o v h = (h, Err e).
Proof.
  unfold CtlModel.set_opt. destruct o; try apply call_effect.
  - destruct (enum_of TstampTypes v) as [x|e] eqn:E; [|eauto]. apply enum_iff in E as [-> _]. destruct (list_types d); [|eauto]. destruct (zmem v a); [apply call_effect|eauto].
  - destruct (enum_of Precisions v) as [x|e] eqn:E; [|eauto]. apply enum_iff in E as [-> _]. apply call_effect.
Qed.
Lemma cint_iff v : cint v = true <-> - 2 ^ 31 <= v < 2 ^ 31.
Proof. unfold cint. lia. Qed.
Lemma call_accept o v h : snd (call_set d o v h) = Ok tt <->
  - 2 ^ 31 <= v < 2 ^ 31 /\ (early o -> h_on h = false) /\
  match o with Tstamp => In v (d_types d) | Precision => d_prec d v = true | Direction => h_on h = true /\ d_dir d v = true | _ => True end.
Proof.
  unfold call_set. destruct (cint v) eqn:C; cbn [negb]; [apply cint_iff in C|split; [discriminate|intros [K _]; apply cint_iff in K; congruence]].
  assert (E : forall o, early o <-> o <> Nonblock /\ o <> Direction) by reflexivity.
  unfold lib_set. destruct o, (h_on h) eqn:A; cbn [snd Z.eqb]; rewrite E; clear E; cbn [snd].
  all: try (split; [discriminate|intros (_ & K & _); exfalso; assert (true = false) by (apply K; split; discriminate); discriminate]).
  all: try (split; [intros _; split; [exact C|split; [intros [K1 K2]; congruence|exact I]]|intros _; reflexivity]).
  - rewrite <- zmem_iff. destruct (zmem v (d_types d)); cbn; split; try discriminate; intuition congruence.
  - destruct (d_prec d v); cbn; split; try discriminate; intuition congruence.
  - destruct (d_dir d v); cbn; split; try discriminate; intuition congruence.
  - split; [discriminate|intuition congruence].
Qed.
Lemma set_accept o v h : snd (set_opt o v h) = Ok tt <-> acceptable d o v /\ (early o -> h_on h = false) /\ (o = Direction -> h_on h = true).
Proof.
  unfold acceptable. destruct o; cbn [CtlModel.set_opt]; try (rewrite call_accept; intuition congruence).
  - destruct (enum_of TstampTypes v) as [x|e] eqn:E.
    + apply enum_iff in E as [-> E]. apply types_in in E. unfold list_types. destruct (enum_all TstampTypes (d_types d)) as [l|e] eqn:L.
      * apply enum_all_iff in L as [-> L]. assert (F : Forall (fun t => 0 <= t <= 4) (d_types d)) by (eapply Forall_impl; [|exact L]; intros a; apply types_in).
        destruct (zmem v (d_types d)) eqn:Z; [rewrite call_accept; intuition congruence|]. split; [discriminate|]. intros ((_ & I & _) & _). apply zmem_iff in I. congruence.
      * split; [discriminate|]. intros ((_ & _ & F) & _). assert (K : enum_all TstampTypes (d_types d) = Ok (d_types d)); [|congruence].
        apply enum_all_iff. split; [reflexivity|]. eapply Forall_impl; [|exact F]. intros a. apply types_in.
    + split; [discriminate|]. intros ((_ & I & F) & _). rewrite Forall_forall in F. apply F, types_in in I. assert (K : enum_of TstampTypes v = Ok v) by (apply enum_iff; auto). congruence.
  - destruct (enum_of Precisions v) as [x|e] eqn:E.
    + apply enum_iff in E as [-> E]. assert (v = 0 \/ v = 1) by (cbn [Precisions In] in E; lia). rewrite call_accept. intuition congruence.
    + split; [discriminate|]. intros ((_ & I & _) & _). assert (K : enum_of Precisions v = Ok v); [|congruence]. apply enum_iff. split; [reflexivity|]. cbn [Precisions In]. lia.
Qed.
(** Which exception. *)
Lemma set_exn o v h e : snd (set_opt o v h) = Err e -> - 2 ^ 31 <= v < 2 ^ 31 -> (o = Tstamp -> Forall (fun t => 0 <= t <= 4) (d_types d) /\ 0 <= v <= 4) -> (o = Precision -> v = 0 \/ v = 1) -> e = pcap_exn.
Proof.
  intros H C T P. assert (B : forall o, snd (call_set d o v h) = Err e -> e = pcap_exn).
  { intros o' K. unfold call_set in K. apply cint_iff in C. rewrite C in K. cbn [negb] in K. destruct (lib_set d o' v h) as [rv h']. cbn [snd] in K. destruct (rv =? 0); congruence. }
  destruct o; try (apply (B _ H)); cbn [CtlModel.set_opt] in H.
  - destruct (T eq_refl) as [F I]. assert (E : enum_of TstampTypes v = Ok v) by (apply enum_iff; split; [reflexivity|apply types_in, I]). rewrite E in H.
    assert (L : list_types d = Ok (d_types d)). { apply enum_all_iff. split; [reflexivity|]. eapply Forall_impl; [|exact F]. intros a. apply types_in. }
    rewrite L in H. destruct (zmem v (d_types d)); [apply (B _ H)|cbn in H; congruence].
  - assert (E : enum_of Precisions v = Ok v) by (apply enum_iff; split; [reflexivity|cbn [Precisions In]; destruct (P eq_refl); lia]). rewrite E in H. apply (B _ H).
Qed.

(** ** Histories *)
Lemma last_set_cons x o c ok l : last_set x o ((c, ok) :: l) = last_set (match c with Set_ o' v => if opt_eqb o' o && ok then v else x | Activate => x end) o l.
Proof. reflexivity. Qed.
Lemma activate_set h : h_set (fst (activate d h)) = h_set h.
Proof. unfold activate. destruct (_ <? 0); reflexivity. Qed.
Lemma run_set l : forall h h' oks o, run d h l = (h', oks) -> h_set h' o = last_set (h_set h o) o (combine l oks).
Proof.
  induction l as [|x l IH]; intros h h' oks o; cbn [run]; [intros [= <- <-]; reflexivity|].
  destruct (step d h x) as [h1 b] eqn:S. destruct (run d h1 l) as [h2 r] eqn:R. intros [= <- <-]. cbn [combine]. rewrite last_set_cons, (IH _ _ _ o R). f_equal.
  destruct x as [o' v|]; cbn [step] in S.
  - destruct (set_effect o' v h) as [E|[e E]]; rewrite E in S; cbn [is_ok] in S; injection S as <- <-.
    + cbn [h_set]. unfold upd. rewrite Bool.andb_true_r. destruct (opt_eqb o' o) eqn:Q.
      * apply opt_eq in Q. subst. rewrite (proj2 (opt_eq o o) eq_refl). reflexivity.
      * destruct (opt_eqb o o') eqn:Q2; [apply opt_eq in Q2; subst; rewrite (proj2 (opt_eq o' o') eq_refl) in Q; discriminate|reflexivity].
    + rewrite Bool.andb_false_r. reflexivity.
  - destruct (activate d h) as [h3 w] eqn:A. injection S as <- <-. change h3 with (fst (h3, w)). rewrite <- A, activate_set. reflexivity.
Qed.
(** ** Activation *)
Lemma activate_ok h w : snd (activate d h) = Ok w <->
  h_on h = false /\ d_act d (h_set h) = w /\ 0 <= w <= 3 /\ In (d_dlt d) Dlts /\ h_set h Nonblock = 0.
Proof.
  unfold activate. destruct (h_on h) eqn:A; [cbn; split; [discriminate|intros [K _]; discriminate]|].
  destruct (d_act d (h_set h) <? 0) eqn:N; cbn [snd]; [split; [discriminate|lia]|]. unfold get_dlt, get_blocking. cbn [h_on h_set]. rewrite <- zmem_iff.
  assert (W : (if 0 <? d_act d (h_set h) then enum_of Warnings (d_act d (h_set h)) else Ok 0) = if (d_act d (h_set h) <=? 3) then Ok (d_act d (h_set h)) else Err EValue).
  { destruct (0 <? d_act d (h_set h)) eqn:P.
    - unfold enum_of. destruct (d_act d (h_set h) <=? 3) eqn:Q.
      + assert (K : zmem (d_act d (h_set h)) Warnings = true) by (apply zmem_iff; cbn [Warnings In]; lia). rewrite K. reflexivity.
      + destruct (zmem (d_act d (h_set h)) Warnings) eqn:K; [apply zmem_iff in K; cbn [Warnings In] in K; lia|reflexivity].
    - assert (K : d_act d (h_set h) = 0) by lia. rewrite K. reflexivity. }
  rewrite W. destruct (d_act d (h_set h) <=? 3) eqn:Q; cbn [bindr]; [|split; [discriminate|lia]].
  destruct (zmem (d_dlt d) Dlts); cbn [bindr]; [|split; [discriminate|intuition discriminate]].
  destruct (Z.eqb_spec (h_set h Nonblock) 0) as [Z|Z]; cbn [bindr]; [|split; [discriminate|intuition congruence]].
  split; [intros K; apply ok_inj in K; subst; repeat split; auto; lia|intros (_ & -> & _); reflexivity].
Qed.
Lemma activate_on h : h_on (fst (activate d h)) = true <-> h_on h = true \/ 0 <= d_act d (h_set h).
Proof.
  unfold activate. destruct (h_on h) eqn:A; [cbn; rewrite A; tauto|]. destruct (d_act d (h_set h) <? 0) eqn:N; cbn [fst h_on]; [rewrite A; split; [discriminate|intros [K|K]; [discriminate|lia]]|].
  split; [right; lia|reflexivity].
Qed.
End Device.
