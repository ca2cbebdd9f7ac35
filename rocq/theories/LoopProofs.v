(** Proofs about handing packets to a callback. *)
From Verif Require Import BaseLemmas LoopModel LoopSpec.
#[local] Open Scope list_scope.

Section Proofs.
Context {P U : Type} (cb : U -> P -> U * act).
Lemma call_eq u p : call cb u p = (fst (cb u p), a_break (snd (cb u p))).
Proof. unfold call. destruct (cb u p). reflexivity. Qed.
Lemma breaks_cons u p d : breaks cb u (p :: d) <-> a_break (snd (cb u p)) = true \/ breaks cb (fst (cb u p)) d.
Proof.
  split.
  - intros (pre & x & post & E & B). destruct pre as [|y pre]; cbn [app] in E; injection E as <- E.
    + left. exact B.
    + right. exists pre, x, post. auto.
  - intros [B|(pre & x & post & E & B)]; [exists [], p, d; auto|]. exists (p :: pre), x, post. rewrite E. auto.
Qed.
Lemma stops_cons u p d : stops_at_break cb u (p :: d) <-> (a_break (snd (cb u p)) = true -> d = []) /\ stops_at_break cb (fst (cb u p)) d.
Proof.
  split.
  - intros S. split; [apply (S [] p d eq_refl)|]. intros pre x post E B. apply (S (p :: pre) x post); [rewrite E; reflexivity|exact B].
  - intros [S1 S2] pre x post E B. destruct pre as [|y pre]; cbn [app] in E; injection E as <- E; [subst; auto|]. exact (S2 pre x post E B).
Qed.
Lemma breaks_nil u : ~ breaks cb u [].
Proof. intros (pre & x & post & E & _). destruct pre; discriminate. Qed.
Lemma stops_nil u : stops_at_break cb u [].
Proof. intros pre x post E. destruct pre; discriminate. Qed.

Lemma read_spec file cnt b : forall n flag u st d b' f u', read cb file cnt n b flag u = (st, d, b', f, u') -> 0 <= n -> (0 < cnt -> n < cnt) ->
  b = d ++ b' /\ u' = handled cb u d /\ stops_at_break cb u d /\ (flag = true -> d = []) /\
  (0 < cnt -> n + zlen d <= cnt) /\
  match st with
  | Used => b' = [] /\ flag = false /\ ~ breaks cb u d /\ f = false /\ (0 < cnt -> n + zlen d < cnt)
  | Counted => 0 < cnt /\ n + zlen d = cnt /\ flag = false /\ (f = true -> breaks cb u d /\ file = true)
  | Flagged => (flag = true \/ breaks cb u d) /\ (f = true -> file = true)
  end.
Proof.
  induction b as [|p t IH]; intros n flag u st d b' f u' R N C; cbn [read] in R.
  - destruct flag; injection R as <- <- <- <- <-.
    + split; [reflexivity|]. split; [reflexivity|]. split; [apply stops_nil|]. split; [auto|]. split; [unfold zlen; cbn [List.length]; lia|]. split; [auto|]. destruct file; auto.
    + split; [reflexivity|]. split; [reflexivity|]. split; [apply stops_nil|]. split; [auto|]. unfold zlen; cbn [List.length]. split; [lia|]. split; [auto|]. split; [auto|]. split; [apply breaks_nil|]. split; [auto|]. lia.
  - destruct flag.
    + injection R as <- <- <- <- <-. split; [reflexivity|]. split; [reflexivity|]. split; [apply stops_nil|]. split; [auto|]. split; [unfold zlen; cbn [List.length]; lia|]. split; [auto|]. destruct file; auto.
    + rewrite call_eq in R. destruct ((0 <? cnt) && (cnt <=? n + 1)) eqn:K.
      * apply andb_true_iff in K as [K1 K2]. apply Z.ltb_lt in K1. apply Z.leb_le in K2.
        assert (S : stops_at_break cb u [p]) by (apply stops_cons; split; [auto|apply stops_nil]).
        destruct (a_break (snd (cb u p))) eqn:B; destruct file; cbn [andb negb] in R; injection R as <- <- <- <- <-; (split; [reflexivity|]; split; [reflexivity|]; split; [exact S|]; split; [discriminate|]; change (zlen [p]) with 1; split; [lia|]).
        -- split; [lia|]. split; [lia|]. split; [reflexivity|]. intros _. split; [|reflexivity]. apply breaks_cons. auto.
        -- split; [|discriminate]. right. apply breaks_cons. auto.
        -- split; [lia|]. split; [lia|]. split; [reflexivity|]. discriminate.
        -- split; [lia|]. split; [lia|]. split; [reflexivity|]. discriminate.
      * destruct (read cb file cnt (n + 1) t (a_break (snd (cb u p))) (fst (cb u p))) as [[[[st0 d0] t0] f0] u0] eqn:R0. injection R as <- <- <- <- <-.
        assert (C0 : 0 < cnt -> n + 1 < cnt). { intros Q. apply andb_false_iff in K as [K|K]; [apply Z.ltb_ge in K; lia|apply Z.leb_gt in K; lia]. }
        destruct (IH _ _ _ _ _ _ _ _ R0 ltac:(lia) C0) as (E1 & E2 & E3 & E4 & E5 & E6).
        assert (Z0 : zlen (p :: d0) = 1 + zlen d0) by (unfold zlen; cbn [List.length]; lia).
        split; [rewrite E1; reflexivity|]. split; [rewrite E2; reflexivity|]. split; [apply stops_cons; auto|]. split; [discriminate|]. rewrite Z0. split; [lia|].
        destruct st0.
        -- destruct E6 as (F1 & F2 & F3 & F4 & F5). split; [exact F1|]. split; [reflexivity|]. split; [|split; [exact F4|lia]]. rewrite breaks_cons. rewrite F2. intros [X|X]; [discriminate|contradiction].
        -- destruct E6 as (F1 & F2 & F3 & F4). split; [exact F1|]. split; [lia|]. split; [reflexivity|]. intros X. split; [apply breaks_cons; right; apply F4; exact X|apply F4; exact X].
        -- destruct E6 as [F1 F2]. split; [|exact F2]. right. apply breaks_cons. exact F1.
Qed.
Lemma handled_app u a b : handled cb u (a ++ b) = handled cb (handled cb u a) b.
Proof. apply fold_left_app. Qed.
Lemma breaks_app a : forall u b, breaks cb u (a ++ b) <-> breaks cb u a \/ breaks cb (handled cb u a) b.
Proof.
  induction a as [|p a IH]; intros u b; cbn [app].
  - split; [auto|]. intros [X|X]; [apply breaks_nil in X; contradiction|exact X].
  - rewrite !breaks_cons, IH. cbn [handled fold_left]. tauto.
Qed.
Lemma stops_app a : forall u b, stops_at_break cb u a -> ~ breaks cb u a -> stops_at_break cb (handled cb u a) b -> stops_at_break cb u (a ++ b).
Proof.
  induction a as [|p a IH]; intros u b S N T; [exact T|]. cbn [app]. apply stops_cons in S as [S1 S2]. rewrite breaks_cons in N. apply stops_cons. split; [intros X; exfalso; auto|]. apply IH; auto.
Qed.
Lemma loop_spec file e l : forall cnt flag u o d l' f u', loop_bufs cb file e cnt l flag u = (o, d, l', f, u') ->
  concat l = d ++ concat l' /\ u' = handled cb u d /\ stops_at_break cb u d /\ (flag = true -> d = [] /\ o = Returned /\ f = false) /\
  (0 < cnt -> zlen d <= cnt) /\ (o = Waits -> e = Quiet) /\
  (flag = true \/ breaks cb u d \/ (0 < cnt /\ zlen d = cnt) \/ concat l' = [] /\ (o = Returned -> e <> Quiet)) /\
  (f = true -> file = true /\ 0 < cnt /\ zlen d = cnt /\ breaks cb u d) /\ (o = Waits -> ~ breaks cb u d).
Proof.
  induction l as [|b r IH]; intros cnt flag u o d l' f u' R; cbn [loop_bufs] in R.
  - injection R as <- <- <- <- <-. split; [reflexivity|]. split; [reflexivity|]. split; [apply stops_nil|]. split; [intros ->; auto|]. split; [unfold zlen; cbn [List.length]; lia|].
    split; [destruct flag, e; discriminate || auto|]. split; [destruct flag; [auto|]; right; right; right; split; [reflexivity|]; destruct e; discriminate|]. split; [discriminate|]. intros _. apply breaks_nil.
  - destruct (read cb file cnt 0 b flag u) as [[[[st d0] b0] f0] u0] eqn:R0. destruct (read_spec file cnt b 0 flag u _ _ _ _ _ R0 ltac:(lia) ltac:(lia)) as (E1 & E2 & E3 & E4 & E5 & E6).
    cbn [concat]. destruct st.
    + destruct E6 as (F1 & F2 & F3 & F4 & F5). subst f0 flag b0. destruct (loop_bufs cb file e (if 0 <? cnt then cnt - zlen d0 else cnt) r false u0) as [[[[o1 d1] l1] f1] u1] eqn:R1. injection R as <- <- <- <- <-.
      destruct (IH _ _ _ _ _ _ _ _ R1) as (G1 & G2 & G3 & G4 & G5 & G6 & G7 & G8 & G9). rewrite app_nil_r in E1. subst d0.
      assert (Z0 : zlen (b ++ d1) = zlen b + zlen d1) by (unfold zlen; rewrite app_length; lia).
      assert (Z1 : 0 <= zlen b) by (unfold zlen; lia).
      split; [rewrite G1, app_assoc; reflexivity|]. split; [rewrite handled_app, <- E2; exact G2|]. split; [apply stops_app; [exact E3|exact F3|rewrite <- E2; exact G3]|]. split; [discriminate|]. rewrite Z0.
      split; [intros Q; destruct (Z.ltb_spec 0 cnt); lia|]. split; [exact G6|]. split; [|split].
      * destruct G7 as [G7|[G7|[[G7 G7']|G7]]]; [discriminate|right; left; apply breaks_app; right; rewrite <- E2; exact G7| |auto]. right; right; left. destruct (Z.ltb_spec 0 cnt); lia.
      * intros X. destruct (G8 X) as (H1 & H2 & H3 & H4). split; [exact H1|]. destruct (Z.ltb_spec 0 cnt); [|lia]. split; [lia|]. split; [lia|]. apply breaks_app. right. rewrite <- E2. exact H4.
      * intros X Y. apply breaks_app in Y as [Y|Y]; [contradiction|]. rewrite <- E2 in Y. exact (G9 X Y).
    + injection R as <- <- <- <- <-. destruct E6 as (F1 & F2 & F3 & F4). cbn [concat]. rewrite app_assoc, <- E1. split; [reflexivity|]. split; [exact E2|]. split; [exact E3|]. split; [rewrite F3; discriminate|]. split; [intros; lia|]. split; [discriminate|].
      split; [right; right; left; lia|]. split; [|discriminate]. intros X. destruct (F4 X). repeat split; auto; lia.
    + injection R as <- <- <- <- <-. destruct E6 as [F1 F2]. cbn [concat]. rewrite app_assoc, <- E1. split; [reflexivity|]. split; [exact E2|]. split; [exact E3|]. split; [auto|]. split; [intros; lia|]. split; [discriminate|].
      split; [tauto|]. split; [discriminate|]. discriminate.
Qed.
Lemma dispatch_spec cnt c u o d c' u' : dispatch cb cnt c u = (o, d, c', u') ->
  waiting c = d ++ waiting c' /\ u' = handled cb u d /\ stops_at_break cb u d /\ (c_flag c = true -> d = []) /\ (0 < cnt -> zlen d <= cnt) /\ o = Returned.
Proof.
  unfold dispatch, waiting. destruct (c_bufs c) as [|b r] eqn:B.
  - intros [= <- <- <- <-]. cbn [c_bufs concat]. repeat split; auto; [apply stops_nil|unfold zlen; cbn [List.length]; lia].
  - destruct (read cb (c_file c) cnt 0 b (c_flag c) u) as [[[[st d0] b0] f0] u0] eqn:R0. intros [= <- <- <- <-]. destruct (read_spec _ cnt b 0 _ u _ _ _ _ _ R0 ltac:(lia) ltac:(lia)) as (E1 & E2 & E3 & E4 & E5 & _).
    cbn [c_bufs concat]. rewrite app_assoc, <- E1. repeat split; auto; intros; lia.
Qed.
Lemma run_spec l : forall c u ds c' u', run cb l c u = (ds, c', u') -> waiting c = concat ds ++ waiting c' /\ u' = handled cb u (concat ds).
Proof.
  induction l as [|x l IH]; intros c u ds c' u' R; cbn [run] in R; [injection R as <- <- <-; auto|].
  destruct (match x with Dispatch n => dispatch cb n c u | Loop n => loop cb n c u | Break => (Returned, [], breakloop c, u) end) as [[[o d] c1] u1] eqn:S.
  assert (A : waiting c = d ++ waiting c1 /\ u1 = handled cb u d).
  { destruct x as [n|n|].
    - apply dispatch_spec in S. tauto.
    - unfold loop in S. destruct (loop_bufs cb (c_file c) (c_end c) n (c_bufs c) (c_flag c) u) as [[[[o0 d0] l0] f0] u0] eqn:L. injection S as <- <- <- <-. apply loop_spec in L. unfold waiting. cbn [c_bufs]. tauto.
    - injection S as <- <- <- <-. auto. }
  destruct A as [A1 A2]. destruct o.
  - destruct (run cb l c1 u1) as [[ds2 c2] u2] eqn:R2. injection R as <- <- <-. destruct (IH _ _ _ _ _ R2) as [B1 B2]. cbn [concat]. rewrite A1, B1, app_assoc, handled_app, <- A2. auto.
  - injection R as <- <- <-. cbn [concat]. rewrite app_nil_r. auto.
Qed.
End Proofs.
