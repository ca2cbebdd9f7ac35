(** Proofs about signals during a receive. *)
From Coq Require Import List Bool Arith Lia.
From Verif Require Import SigModel.
Import ListNotations.

Lemma nth_set_other {A} (l : list A) j k x : j <> k -> nth_error (set_nth k x l) j = nth_error l j.
Proof. revert j k. induction l as [|y l IH]; intros [|j] [|k] H; cbn; try reflexivity; try congruence. apply IH. congruence. Qed.

(** ** Caught holding the lock *)
Definition stuck (s0 s : st) : Prop :=
  s_user s = s_user s0 /\ s_q s = s_q s0 /\ s_log s = s_log s0 /\ (exists h, s_h s = h ++ s_h s0) /\
  (forall k m, nth_error (s_th s0) k = Some (THas m) -> nth_error (s_th s) k = Some (THas m)).
Lemma stuck_step s0 s a : held (s_user s0) = true -> s_h s0 <> [] -> stuck s0 s -> stuck s0 (step s a).
Proof. intros H N (U & Q & L & (h & Hh) & T). assert (HS : held (s_user s) = true) by congruence.
  assert (NH : s_h s <> []) by (rewrite Hh; destruct h; [exact N|discriminate]). unfold stuck.
  destruct a as [tmo|exp| | |k n got]; cbn [step].
  - assert (K : match s_user s, s_h s with UOut, [] => mkS (s_run s) (s_q s) tmo UAcq [] (s_th s) (s_log s) | _, _ => s end = s) by (destruct (s_user s); try reflexivity; discriminate HS).
    rewrite K. repeat split; eauto.
  - assert (K : match s_h s with [] => user_step exp s | _ => s end = s) by (destruct (s_h s); [contradiction|reflexivity]). rewrite K. repeat split; eauto.
  - unfold handler_step. rewrite HS. repeat split; eauto.
  - cbn [s_user s_q s_log s_h s_th]. repeat split; eauto. exists (HSize :: h). rewrite Hh. reflexivity.
  - unfold thread_step. destruct (nth_error (s_th s) k) as [[| |m|]|] eqn:E; try (repeat split; eauto; fail).
    + cbn [threads s_user s_q s_log s_h s_th]. repeat split; eauto. intros j x J. specialize (T j x J). destruct (Nat.eq_dec j k) as [->|D]; [congruence|]. rewrite nth_set_other; assumption.
    + cbn [threads s_user s_q s_log s_h s_th]. repeat split; eauto. intros j x J. specialize (T j x J). destruct (Nat.eq_dec j k) as [->|D]; [congruence|]. rewrite nth_set_other; assumption.
    + rewrite HS. repeat split; eauto. Qed.
Lemma stuck_run s0 l : held (s_user s0) = true -> s_h s0 <> [] -> stuck s0 (run s0 l).
Proof. intros H N. unfold run. assert (G : forall s, stuck s0 s -> stuck s0 (fold_left step l s)).
  { induction l as [|a l IH]; intros s S; cbn [fold_left]; [exact S|]. apply IH. apply stuck_step; assumption. }
  apply G. repeat split; auto. exists []. reflexivity. Qed.

(** ** A waiting thread that has not been woken has nothing to get *)
Definition inv (s : st) : Prop := s_user s = UWait false -> s_q s = [].
Lemma put_inv x s : inv (put x s).
Proof. unfold inv, put. cbn. destruct (s_user s); cbn; discriminate. Qed.
Lemma inv_step s a : inv s -> inv (step s a).
Proof. intros I. destruct a as [tmo|exp| | |k n got]; cbn [step].
  - destruct (s_user s) eqn:E; try exact I. destruct (s_h s); [|exact I]. discriminate.
  - destruct (s_h s); [|exact I]. unfold user_step. destruct (s_user s) as [| | |w|x| |x] eqn:E; try exact I; try (intros D; discriminate D).
    + destruct (s_q s); [destruct (s_tmo s && exp); [discriminate|intros _; reflexivity]|discriminate].
    + destruct (w || s_tmo s && exp); [discriminate|exact I].
    + destruct (s_run s); [|discriminate]. destruct x as [[x|]|]; discriminate.
  - unfold handler_step. destruct (held (s_user s)); [exact I|]. destruct (s_h s) as [|[] h]; [exact I| |apply put_inv]. destruct (s_q s) eqn:E; unfold inv; cbn; rewrite E; exact I || auto.
    all: intros D; specialize (I D); congruence.
  - exact I.
  - unfold thread_step. destruct (nth_error (s_th s) k) as [[| |m|]|]; try exact I. destruct (held (s_user s)); [exact I|apply put_inv]. Qed.
Lemma inv_run l : forall s, inv s -> inv (run s l).
Proof. unfold run. induction l as [|a l IH]; intros s I; cbn [fold_left]; [exact I|]. apply IH, inv_step, I. Qed.
Lemma inv_start d : inv (start d).
Proof. discriminate. Qed.

(** ** Caught elsewhere *)
Definition done (L : list res) (s : st) : Prop := exists rest, s_log s = L ++ RShutdown :: rest.
(** Where the thread may be when the handler starts, and whether what is needed to go on is there. *)
Definition loose (u : upc) : Prop := match u with UAcq | UWait _ | UTest _ => True | _ => False end.
Definition left_over (s : st) : nat :=
  match s_user s with UOut => 0 | UTest _ => 1 | UGot _ | UNone => 2 | UHas => 3 | UAcq => 4 | UWait _ => 5 end.
Definition ready (s : st) : Prop :=
  match s_user s with UOut => False | UAcq | UHas => s_q s <> [] | UWait w => w = true /\ s_q s <> [] | _ => True end.
Definition busy (L : list res) (k : nat) (s : st) : Prop :=
  s_run s = false /\ s_log s = L /\ inv s /\
  match k with
  | 0 => s_h s = [] /\ ready s
  | 1 => s_h s = [HPut] /\ loose (s_user s)
  | _ => s_h s = [HSize] /\ loose (s_user s)
  end.
Definition is_handler (a : act) : bool := match a with AHandler => true | _ => false end.
Definition is_user (a : act) : bool := match a with AUser _ => true | _ => false end.
Definition no_sig (a : act) : Prop := match a with ASig => False | _ => True end.
Definition count (f : act -> bool) (l : list act) : nat := List.length (filter f l).

Lemma loose_held u : loose u -> held u = false.
Proof. destruct u; cbn; tauto. Qed.
Lemma done_step L s a : done L s -> done L (step s a).
Proof. intros (r & E). unfold done. destruct a as [tmo|exp| | |k n got]; cbn [step].
  - destruct (s_user s), (s_h s); eauto.
  - destruct (s_h s); [|eauto]. unfold user_step. destruct (s_user s) as [| | |w|x| |x]; eauto.
    + destruct (s_q s); [destruct (s_tmo s && exp)|]; eauto.
    + destruct (w || s_tmo s && exp); eauto.
    + destruct (s_run s); [destruct x as [[x|]|]|]; cbn [ends user s_log]; try (eauto; fail); rewrite E, <- app_assoc; cbn; eauto.
  - unfold handler_step. destruct (held (s_user s)); [eauto|]. destruct (s_h s) as [|[] h]; [eauto| |eauto]. destruct (s_q s); eauto.
  - eauto.
  - unfold thread_step. destruct (nth_error (s_th s) k) as [[| |m|]|]; eauto. destruct (held (s_user s)); eauto. Qed.
(** A capture thread does not get in the way. *)
Lemma thread_busy L k s i n got : busy L k s -> busy L k (thread_step i n got s) /\ left_over (thread_step i n got s) = left_over s.
Proof. intros (R & G & I & H). pose proof (inv_step s (AThread i n got) I) as I'. cbn [step] in I'. revert I'. unfold thread_step, busy.
  destruct (nth_error (s_th s) i) as [[| |m|]|]; cbn [threads s_run s_log s_h s_user s_q]; intros I'; try (split; [repeat split; auto|reflexivity]).
  destruct (held (s_user s)) eqn:E; [split; [repeat split; auto|reflexivity]|]. cbn [put threads s_run s_log s_h s_user s_q] in *.
  split; [|unfold left_over; cbn; destruct (s_user s); reflexivity]. split; [exact R|]. split; [exact G|]. split; [exact I'|].
  destruct k as [|[|k]]; (destruct H as [H1 H2]; split; [exact H1|]).
  - unfold ready in *. cbn. destruct (s_user s); cbn in *; auto; try (destruct H2; split; [reflexivity|]); destruct (s_q s); discriminate.
  - destruct (s_user s); cbn in *; auto.
  - destruct (s_user s); cbn in *; auto. Qed.
Lemma waiting_step L k s a : busy L (S k) s -> no_sig a -> is_handler a = false -> busy L (S k) (step s a).
Proof. intros B N H. destruct a as [tmo|exp| | |i n got]; try contradiction; try discriminate H; cbn [step].
  - assert (NH : s_h s <> []) by (destruct B as (_ & _ & _ & B); destruct k; destruct B as [-> _]; discriminate).
    destruct (s_user s), (s_h s); try exact B; contradiction.
  - assert (NH : s_h s <> []) by (destruct B as (_ & _ & _ & B); destruct k; destruct B as [-> _]; discriminate). destruct (s_h s); [contradiction|exact B].
  - apply thread_busy. exact B. Qed.
Lemma loose_ready s : loose (s_user s) -> inv s -> s_q s <> [] -> ready s.
Proof. unfold ready, inv. destruct (s_user s); cbn; try contradiction; auto. intros _ I Q. destruct woken; [auto|]. exfalso. auto. Qed.
Lemma handler_two L k s : busy L (S (S k)) s -> busy L 1 (handler_step s) \/ busy L 0 (handler_step s).
Proof. intros (R & G & I & H1 & H2). pose proof (inv_step s AHandler I) as I'. cbn [step] in I'. revert I'. unfold handler_step. rewrite (loose_held _ H2), H1.
  destruct (s_q s) eqn:E; intros I'; [left|right]; (split; [exact R|]; split; [exact G|]; split; [exact I'|]; split; [reflexivity|]); [exact H2|].
  assert (RD : ready s) by (apply loose_ready; auto; congruence). exact RD. Qed.
Lemma handler_one L s : busy L 1 s -> busy L 0 (handler_step s).
Proof. intros (R & G & I & H1 & H2). pose proof (inv_step s AHandler I) as I'. cbn [step] in I'. revert I'. unfold handler_step. rewrite (loose_held _ H2), H1. intros I'.
  split; [exact R|]. split; [exact G|]. split; [exact I'|]. split; [reflexivity|]. unfold ready. cbn. destruct (s_user s); cbn in *; try contradiction; auto; try (split; [reflexivity|]); destruct (s_q s); discriminate. Qed.
Lemma user_zero L s exp : busy L 0 s -> done L (user_step exp s) \/ (busy L 0 (user_step exp s) /\ S (left_over (user_step exp s)) = left_over s).
Proof. intros (R & G & I & H1 & H2). assert (I' : inv (user_step exp s)) by (pose proof (inv_step s (AUser exp) I) as K; cbn [step] in K; rewrite H1 in K; exact K).
  revert I'. unfold user_step, ready, left_over, busy in *. destruct (s_user s) as [| | |w|x| |x] eqn:E; cbn [user ends s_user s_q s_run s_h s_log].
  - contradiction.
  - right. repeat split; auto.
  - destruct (s_q s) as [|y q] eqn:Q; [contradiction|]. right. cbn [user s_user s_q s_run s_h s_log]. repeat split; auto.
  - destruct H2 as [-> H2]. cbn [orb]. right. cbn [user s_user s_q s_run s_h s_log]. repeat split; auto.
  - right. repeat split; auto.
  - right. repeat split; auto.
  - rewrite R. intros _. left. exists []. cbn [ends s_log]. rewrite G. reflexivity. Qed.
Lemma zero_step L s a : busy L 0 s -> no_sig a -> done L (step s a) \/
  (busy L 0 (step s a) /\ (if is_user a then S (left_over (step s a)) = left_over s else left_over (step s a) = left_over s)).
Proof. intros B N. destruct a as [tmo|exp| | |i n got]; try contradiction; cbn [step is_user].
  - right. destruct (s_user s) eqn:E; try (split; [exact B|reflexivity]). destruct B as (_ & _ & _ & _ & B). unfold ready in B. rewrite E in B. contradiction.
  - destruct B as (R & G & I & H1 & H2). rewrite H1. apply user_zero. repeat split; auto.
  - right. destruct B as (R & G & I & H1 & H2). unfold handler_step. rewrite H1. destruct (held (s_user s)); repeat split; auto.
  - right. apply thread_busy. exact B. Qed.
Lemma zero_run L l : forall s, busy L 0 s -> Forall no_sig l -> done L (run s l) \/ (busy L 0 (run s l) /\ left_over (run s l) + count is_user l = left_over s).
Proof. assert (DR : forall l s, done L s -> done L (run s l)).
  { unfold run. induction l0 as [|a l0 IH]; intros s D; cbn [fold_left]; [exact D|]. apply IH, done_step, D. }
  induction l as [|a l IH]; intros s B N; [right; split; [exact B|cbn; lia]|]. inversion N as [|? ? Na Nl]; subst. change (run s (a :: l)) with (run (step s a) l).
  destruct (zero_step L s a B Na) as [D|[B' M]]; [left; apply DR; exact D|]. destruct (IH _ B' Nl) as [D|[B'' M'']]; [left; exact D|right].
  split; [exact B''|]. unfold count in *. cbn [filter]. destruct (is_user a); cbn [List.length]; lia. Qed.
Lemma done_run L l : forall s, done L s -> done L (run s l).
Proof. unfold run. induction l as [|a l IH]; intros s D; cbn [fold_left]; [exact D|]. apply IH, done_step, D. Qed.
Lemma handler_run L l : forall k s, k <= 2 -> busy L k s -> Forall no_sig l -> k <= count is_handler l -> done L (run s l) \/ busy L 0 (run s l).
Proof. induction l as [|a l IH]; intros k s K B N C.
  - unfold count in C. cbn in C. right. assert (k = 0) by lia. subst. exact B.
  - change (run s (a :: l)) with (run (step s a) l). inversion N as [|? ? Na Nl]; subst. destruct k as [|k].
    + destruct (zero_step L s a B Na) as [D|[B' _]]; [left; apply done_run; exact D|]. apply (IH 0); auto. lia.
    + destruct (is_handler a) eqn:A.
      * unfold count in *. cbn [filter] in C. rewrite A in C. cbn [List.length] in C. destruct a; try discriminate A. cbn [step]. destruct k as [|k].
        -- apply (IH 0); auto; [apply handler_one; exact B|lia].
        -- destruct (handler_two L k s B) as [B'|B']; [apply (IH 1)|apply (IH 0)]; auto; lia.
      * unfold count in *. cbn [filter] in C. rewrite A in C. apply (IH (S k)); auto. apply waiting_step; auto. Qed.
Theorem interrupted devs l0 l1 l2 : let s := run (start devs) l0 in
  s_user s <> UOut -> held (s_user s) = false -> s_h s = [] -> Forall no_sig l1 -> Forall no_sig l2 -> 2 <= count is_handler l1 -> 5 <= count is_user l2 ->
  exists rest, s_log (run s (ASig :: l1 ++ l2)) = s_log s ++ RShutdown :: rest.
Proof. intros s U H E N1 N2 C1 C2. assert (I : inv s) by (apply inv_run, inv_start).
  set (s1 := step s ASig). assert (B : busy (s_log s) 2 s1).
  { split; [reflexivity|]. split; [reflexivity|]. split; [exact I|]. cbn. rewrite E. split; [reflexivity|]. destruct (s_user s); cbn in *; try discriminate; auto. }
  change (run s (ASig :: l1 ++ l2)) with (run s1 (l1 ++ l2)). unfold run at 1. rewrite fold_left_app. fold (run s1 l1). change (fold_left step l2 (run s1 l1)) with (run (run s1 l1) l2).
  destruct (handler_run (s_log s) l1 2 s1 (le_n 2) B N1 C1) as [D|B0]; [apply done_run; exact D|].
  destruct (zero_run (s_log s) l2 _ B0 N2) as [D|[B1 M]]; [exact D|]. exfalso.
  destruct B1 as (_ & _ & _ & _ & R). unfold ready in R. assert (X : left_over (run (run s1 l1) l2) = 0).
  { assert (left_over (run s1 l1) <= 5) by (unfold left_over; destruct (s_user (run s1 l1)); lia). lia. }
  unfold left_over in X. destruct (s_user (run (run s1 l1) l2)); try discriminate X. exact R. Qed.
