(** Proofs about stopping the simulator's nodes. *)
From Coq Require Import Lia.
From Verif Require Import Base StopModel StopSpec.
Open Scope nat_scope.

Lemma upd_len {A} i (f : A -> A) l : List.length (upd i f l) = List.length l.
Proof. revert i; induction l as [|x l IH]; intros [|i]; cbn [upd List.length]; auto. Qed.
Lemma upd_same {A} i (f : A -> A) l x : nth_error l i = Some x -> nth_error (upd i f l) i = Some (f x).
Proof. revert i; induction l as [|y l IH]; intros [|i]; cbn [upd nth_error]; intros E; try discriminate; [now injection E as <-|auto]. Qed.
Lemma upd_other {A} i j (f : A -> A) l : i <> j -> nth_error (upd i f l) j = nth_error l j.
Proof. revert i j; induction l as [|y l IH]; intros [|i] [|j]; cbn [upd nth_error]; intros E; auto; congruence. Qed.
Lemma upd_none {A} i (f : A -> A) l : nth_error l i = None -> upd i f l = l.
Proof. revert i; induction l as [|y l IH]; intros [|i]; cbn [upd nth_error]; intros E; auto; [discriminate|now rewrite IH]. Qed.

(** The invariant: what a node looks like before, while and after the main thread stops it. *)
Definition looping (p : npc) : Prop := p = RTop \/ p = RWait \/ p = RDead.
Definition late (p : npc) : Prop := looping p \/ p = RJoin \/ p = RDelT.
Definition later (p : npc) : Prop := late p \/ p = RDelEm \/ p = RDelRest \/ p = ROver.
Definition cur (p : mpc) (x : nd) : Prop :=
  e_pc x <> EOff /\
  match p with
  | M0 => up x
  | M1 => looping (n_pc x) /\ n_linkem x = ASet /\ n_t x = ASet /\ n_done x = false /\ e_stop x = true
  | M2 | M3 => late (n_pc x) /\ n_t x = ASet /\ n_done x = true /\ e_stop x = true
  | M4 => later (n_pc x) /\ n_done x = true /\ e_stop x = true
  | M5 => later (n_pc x) /\ n_done x = true /\ e_stop x = true /\ e_pc x = EOver
  end.
Definition Good (s : sys) : Prop :=
  exists i p, s_main s = MRun i p /\ i <= List.length (s_nodes s) /\ (i = List.length (s_nodes s) -> p = M0) /\
    forall j x, nth_error (s_nodes s) j = Some x ->
      (j < i -> ended x) /\ (j = i -> cur p x) /\ (i < j -> up x).

Lemma em_up b x : up x -> up (em_step b x).
Proof.
  destruct x as [p l t d e st]; unfold up, em_step; cbn [n_pc n_linkem n_t n_done e_pc e_stop].
  intros (P & L & T & D & E & S); subst; destruct e; try congruence; destruct b; cbn [n_pc n_linkem n_t n_done e_pc e_stop]; repeat split; auto; congruence.
Qed.
Lemma node_up w x : up x -> up (node_step w x).
Proof.
  destruct x as [p l t d e st]; unfold up, node_step, set_pc; cbn [n_pc n_linkem n_t n_done e_pc e_stop].
  intros ([P|[P|P]] & L & T & D & E & S); subst; cbn [n_pc n_linkem n_t n_done e_pc e_stop]; [|destruct w|];
    cbn [n_pc n_linkem n_t n_done e_pc e_stop]; repeat split; auto.
Qed.
Lemma em_ended b x : ended x -> em_step b x = x.
Proof. destruct x as [p l t d e st]; unfold ended, em_step; cbn [n_pc n_linkem n_t n_done e_pc e_stop]; intros (_ & ->); reflexivity. Qed.
Lemma node_ended w x : ended x -> node_step w x = x.
Proof. destruct x as [p l t d e st]; unfold ended, node_step; cbn [n_pc n_linkem n_t n_done e_pc e_stop]; intros ([->| ->] & _); reflexivity. Qed.

Lemma em_cur b p x : cur p x -> cur p (em_step b x).
Proof.
  destruct p; unfold cur; intros (E & H).
  1:{ pose proof (em_up b x H) as U; split; [apply U|exact U]. }
  all: destruct x as [q l t d e st]; unfold em_step; cbn [n_pc n_linkem n_t n_done e_pc e_stop] in *; decompose [and] H; subst;
    try (destruct e); try congruence; try (destruct b); cbn [n_pc n_linkem n_t n_done e_pc e_stop]; repeat split; auto; congruence.
Qed.
Ltac opts H := let P := fresh "P" in repeat (destruct H as [P|H]; [subst|]); subst.
Lemma node_cur w p x : ((p = M2 \/ p = M3) -> n_pc x <> RDelT) -> cur p x -> cur p (node_step w x).
Proof.
  destruct p; unfold cur; intros C (E & H).
  1:{ pose proof (node_up w x H) as U; split; [apply U|exact U]. }
  all: destruct x as [q l t d e st]; unfold node_step, set_pc, later, late, looping in *; cbn [n_pc n_linkem n_t n_done e_pc e_stop] in *;
    decompose [and] H; subst; clear H.
  all: try (assert (N : q <> RDelT) by (apply C; auto)).
  all: destruct q; try congruence; try (exfalso; intuition discriminate); try (destruct w); try (destruct e); cbn [n_pc n_linkem n_t n_done e_pc e_stop];
    repeat split; auto 6; congruence.
Qed.

Lemma main_cur i p x y m : cur p x -> main_step i p x = (y, m) ->
  (p = M5 /\ (ended x /\ y = x /\ m = MRun (S i) M0 \/ y = x /\ m = MRun i M5)) \/ (p <> M5 /\ exists q, m = MRun i q /\ cur q y).
Proof.
  unfold cur; intros (E & H) S; destruct p; cbn [main_step] in S.
  - destruct H as (P & L & T & D & E' & ST); rewrite L in S; injection S as <- <-; right; split; [discriminate|]; exists M1; split; [reflexivity|].
    cbn [n_pc n_linkem n_t n_done e_pc e_stop]; repeat split; auto.
  - injection S as <- <-; right; split; [discriminate|]; exists M2; split; [reflexivity|]; cbn [n_pc n_linkem n_t n_done e_pc e_stop].
    destruct H as (P & L & T & D & ST); repeat split; auto; left; exact P.
  - destruct H as (P & T & D & ST); rewrite T in S; injection S as <- <-; right; split; [discriminate|]; exists M3; repeat split; auto.
  - destruct H as (P & T & D & ST); rewrite T in S; right; split; [discriminate|]; exists M4.
    destruct (e_pc x) eqn:EE; try congruence; injection S as <- <-; (split; [reflexivity|]); rewrite ?EE; repeat split; auto; left; exact P.
  - right; split; [discriminate|]; destruct (e_pc x) eqn:EE; injection S as <- <-; try congruence.
    1,2: exists M4; rewrite ?EE; repeat split; auto; apply H.
    exists M5; rewrite EE; destruct H as (P & D & ST); repeat split; auto.
  - left; split; [reflexivity|]; destruct H as (P & D & ST & EO); destruct (n_pc x) eqn:NP; injection S as <- <-; auto.
    all: left; unfold ended; rewrite NP, EO; auto.
Qed.

Lemma good_step s a : Good s -> ~ overtakes s a -> Good (step s a).
Proof.
  intros (i & p & M & LE & FIN & N) C; destruct a as [|k w|k b]; cbn [step].
  - rewrite M; destruct (nth_error (s_nodes s) i) as [x|] eqn:NX; [|exists i, p; auto].
    destruct (main_step i p x) as [y m] eqn:MS; cbn [fst snd].
    assert (LT : i < List.length (s_nodes s)) by (apply nth_error_Some; congruence).
    destruct (N i x NX) as (_ & CU & _); specialize (CU eq_refl).
    destruct (main_cur i p x y m CU MS) as [(-> & [(EN & -> & ->)|(-> & ->)])|(NP & q & -> & CQ)]; unfold Good; cbn [s_nodes s_main]; rewrite upd_len.
    + exists (S i), M0; split; [reflexivity|]; split; [lia|]; split; [reflexivity|]; intros j z H.
      destruct (Nat.eq_dec i j) as [<-|NE].
      * rewrite (upd_same _ _ _ _ NX) in H; injection H as <-; split; [auto|]; split; lia.
      * rewrite upd_other in H by exact NE; destruct (N j z H) as (A & _ & B); split; [intros L; apply A; lia|].
        split; [intros L|intros L; apply B; lia]. assert (U : up z) by (apply B; lia). split; [apply U|exact U].
    + exists i, M5; split; [reflexivity|]; split; [exact LE|]; split; [lia|]; intros j z H.
      destruct (Nat.eq_dec i j) as [<-|NE]; [rewrite (upd_same _ _ _ _ NX) in H; injection H as <-; apply N; exact NX|].
      rewrite upd_other in H by exact NE; apply N; exact H.
    + exists i, q; split; [reflexivity|]; split; [exact LE|]; split; [lia|]; intros j z H.
      destruct (Nat.eq_dec i j) as [<-|NE].
      * rewrite (upd_same _ _ _ _ NX) in H; injection H as <-; split; [lia|]; split; [auto|lia].
      * rewrite upd_other in H by exact NE; destruct (N j z H) as (A & _ & B); split; [exact A|]; split; [intros ->; lia|exact B].
  - exists i, p; cbn [s_nodes s_main]; rewrite upd_len; split; [exact M|]; split; [exact LE|]; split; [exact FIN|]; intros j z H.
    destruct (Nat.eq_dec k j) as [<-|NE]; [|rewrite upd_other in H by exact NE; apply N; exact H].
    destruct (nth_error (s_nodes s) k) as [x|] eqn:NX; [|rewrite upd_none in H by exact NX; congruence].
    rewrite (upd_same _ _ _ _ NX) in H; injection H as <-; destruct (N k x NX) as (A & B & D).
    split; [intros L; rewrite node_ended; auto|]; split; [|intros L; apply node_up; auto].
    intros ->; apply node_cur; [|auto]; intros PP EQ; apply C; exists i, w, x; split; [reflexivity|]; split; [|auto].
    rewrite M; destruct PP as [->| ->]; auto.
  - exists i, p; cbn [s_nodes s_main]; rewrite upd_len; split; [exact M|]; split; [exact LE|]; split; [exact FIN|]; intros j z H.
    destruct (Nat.eq_dec k j) as [<-|NE]; [|rewrite upd_other in H by exact NE; apply N; exact H].
    destruct (nth_error (s_nodes s) k) as [x|] eqn:NX; [|rewrite upd_none in H by exact NX; congruence].
    rewrite (upd_same _ _ _ _ NX) in H; injection H as <-; destruct (N k x NX) as (A & B & D).
    split; [intros L; rewrite em_ended; auto|]; split; [|intros L; apply em_up; auto].
    intros ->; apply em_cur; auto.
Qed.
Lemma good_start ns : Forall up ns -> Good (stop_call ns).
Proof.
  intros U; exists 0, M0; cbn [stop_call s_main s_nodes]; split; [reflexivity|]; split; [lia|]; split; [reflexivity|]; intros j x H.
  pose proof (proj1 (Forall_forall _ _) U x (nth_error_In _ _ H)) as UX; split; [lia|]; split; [|auto]; intros _; split; [apply UX|exact UX].
Qed.
Lemma good_run l s : Good s -> calm s l -> Good (run s l).
Proof. revert s; induction l as [|a l IH]; intros s G C; cbn [run fold_left]; [exact G|]; destruct C as (C1 & C2); apply IH; [apply good_step; assumption|exact C2]. Qed.

(** * Progress: how much is left to do. *)
Definition left_e (x : nd) : nat := if e_stop x then match e_pc x with EOver => 0 | ETop => 1 | EGet => 2 | EOff => 2 end else 2.
Definition left_n (x : nd) : nat :=
  if n_done x then match n_pc x with ROver | RDead => 0 | RDelRest => 1 | RDelEm => 2 | RDelT => 3 | RJoin => 4 | RTop => 5 | _ => 6 end else 6.
Definition left_m (n : nat) (m : mst) : nat :=
  match m with MErr _ => 0 | MRun i p => 6 * (n - i) - match p with M0 => 0 | M1 => 1 | M2 => 2 | M3 => 3 | M4 => 4 | M5 => 5 end end.
Definition left_all (ns : list nd) : nat := fold_right (fun x a => left_e x + left_n x + a) 0 ns.
Definition todo (s : sys) : nat := left_m (List.length (s_nodes s)) (s_main s) + left_all (s_nodes s).
Definition unfinished (s : sys) : Prop := exists i p, s_main s = MRun i p /\ i < List.length (s_nodes s).
(** The thread whose turn it is. *)
Inductive who := WMain | WNode (i : nat) | WEm (i : nat).
Definition by_ (a : act) : who := match a with AMain => WMain | ANode i _ => WNode i | AEm i _ => WEm i end.
Definition turn (s : sys) : who :=
  match s_main s with
  | MRun i p =>
      match nth_error (s_nodes s) i with
      | None => WMain
      | Some x =>
          match p with
          | M4 => match e_pc x with EOver => WMain | _ => WEm i end
          | M5 => match n_pc x with ROver | RDead => WMain | _ => WNode i end
          | _ => WMain
          end
      end
  | _ => WMain
  end.
Lemma left_upd k f ns x : nth_error ns k = Some x ->
  left_all (upd k f ns) + left_e x + left_n x = left_all ns + left_e (f x) + left_n (f x).
Proof.
  revert k; induction ns as [|y ns IH]; intros [|k] E; cbn [upd nth_error left_all fold_right] in *; try discriminate.
  - injection E as ->; lia.
  - specialize (IH k E); unfold left_all in IH; lia.
Qed.
Lemma left_em b x : left_e (em_step b x) <= left_e x /\ left_n (em_step b x) = left_n x.
Proof.
  destruct x as [p l t d e st]; unfold em_step, left_e, left_n; cbn [n_pc n_linkem n_t n_done e_pc e_stop]; destruct e, st, b;
    cbn [n_pc n_linkem n_t n_done e_pc e_stop]; split; auto.
Qed.
Lemma left_em_turn b x : e_stop x = true -> e_pc x <> EOff -> e_pc x <> EOver -> left_e (em_step b x) < left_e x.
Proof.
  destruct x as [p l t d e st]; unfold em_step, left_e; cbn [n_pc n_linkem n_t n_done e_pc e_stop]; intros -> A B; destruct e, b; try congruence;
    cbn [n_pc n_linkem n_t n_done e_pc e_stop]; auto.
Qed.
Definition started (x : nd) : Prop := n_pc x <> RQueue /\ n_pc x <> REm /\ n_pc x <> RThread /\ n_pc x <> RStart.
Lemma left_node w x : started x -> left_n (node_step w x) <= left_n x /\ left_e (node_step w x) = left_e x.
Proof.
  intros (S1 & S2 & S3 & S4).
  destruct x as [p l t d e st]; unfold node_step, set_pc, left_e, left_n in *; cbn [n_pc n_linkem n_t n_done e_pc e_stop] in *;
    destruct p; try congruence; destruct d; try (destruct w); try (destruct e); cbn [n_pc n_linkem n_t n_done e_pc e_stop]; split; auto; lia.
Qed.
Lemma left_node_turn w x : started x -> n_done x = true -> e_pc x = EOver -> n_pc x <> ROver -> n_pc x <> RDead -> left_n (node_step w x) < left_n x.
Proof.
  intros (S1 & S2 & S3 & S4) D E A B.
  destruct x as [p l t d e st]; unfold node_step, set_pc, left_n in *; cbn [n_pc n_linkem n_t n_done e_pc e_stop] in *; subst;
    destruct p; try congruence; try (destruct w); cbn [n_pc n_linkem n_t n_done e_pc e_stop]; lia.
Qed.
Lemma later_started x : later (n_pc x) -> started x.
Proof. unfold later, late, looping, started; intros H; repeat split; intros E; rewrite E in H; intuition discriminate. Qed.
Lemma good_started s j x : Good s -> nth_error (s_nodes s) j = Some x -> started x.
Proof.
  intros (i & p & M & LE & FIN & N) H; destruct (N j x H) as (A & B & C); apply later_started; unfold later, late.
  destruct (Compare_dec.lt_eq_lt_dec j i) as [[L|L]|L].
  - destruct (A L) as ([->| ->] & _); unfold looping; auto 6.
  - specialize (B L); destruct p; destruct B as (_ & B).
    + destruct B as (P & _); auto.
    + destruct B as (P & _); auto.
    + destruct B as (P & _); auto.
    + destruct B as (P & _); auto.
    + destruct B as (P & _); exact P.
    + destruct B as (P & _); exact P.
  - destruct (C L) as (P & _); auto.
Qed.
Lemma main_left i p x y m : cur p x -> main_step i p x = (y, m) ->
  left_e y <= left_e x /\ left_n y <= left_n x /\
  (m = MRun i p /\ y = x /\ (p = M4 /\ e_pc x <> EOver \/ p = M5 /\ n_pc x <> ROver /\ n_pc x <> RDead)
   \/ forall n, i < n -> left_m n m < left_m n (MRun i p)).
Proof.
  unfold cur; intros (E & H) S; destruct p; cbn [main_step] in S.
  - destruct H as (P & L & T & D & E' & ST); rewrite L in S; injection S as <- <-.
    unfold left_e, left_n; cbn [n_pc n_linkem n_t n_done e_pc e_stop]; rewrite D, ST; split; [destruct (e_pc x); lia|]; split; [lia|].
    right; intros n L'; unfold left_m; lia.
  - destruct H as (P & L & T & D & ST); injection S as <- <-; unfold left_e, left_n; cbn [n_pc n_linkem n_t n_done e_pc e_stop]; rewrite D.
    split; [lia|]; split; [destruct (n_pc x); lia|]; right; intros n L'; unfold left_m; lia.
  - destruct H as (P & T & D & ST); rewrite T in S; injection S as <- <-; split; [lia|]; split; [lia|]; right; intros n L'; unfold left_m; lia.
  - destruct H as (P & T & D & ST); rewrite T in S; destruct (e_pc x) eqn:EE; try congruence; injection S as <- <-; (split; [lia|]; split; [lia|]; right; intros n L'; unfold left_m; lia).
  - destruct (e_pc x) eqn:EE; injection S as <- <-; (split; [lia|]; split; [lia|]).
    1-3: left; split; [reflexivity|]; split; [reflexivity|]; left; split; [reflexivity|]; congruence.
    right; intros n L'; unfold left_m; lia.
  - destruct (n_pc x) eqn:NP; injection S as <- <-; (split; [lia|]; split; [lia|]);
      try (left; split; [reflexivity|]; split; [reflexivity|]; right; split; [reflexivity|]; split; congruence).
    all: right; intros n L'; unfold left_m; lia.
Qed.
Lemma upd_id {A} i (f : A -> A) l x : nth_error l i = Some x -> f x = x -> upd i f l = l.
Proof. revert i; induction l as [|y l IH]; intros [|i]; cbn [upd nth_error]; intros E F; try discriminate; [now injection E as ->; rewrite F|now rewrite IH]. Qed.

(** One step: never more is left; it is the same thread's turn or less is left; the thread whose turn it is leaves less. *)
Lemma one_step s a : Good s -> unfinished s ->
  todo (step s a) <= todo s /\ (todo (step s a) = todo s -> turn (step s a) = turn s /\ unfinished (step s a)) /\
  (by_ a = turn s -> todo (step s a) < todo s).
Proof.
  intros G (i & p & M & LT); pose proof G as (i' & p' & M' & LE & FIN & N); rewrite M in M'; injection M' as <- <-.
  destruct (nth_error (s_nodes s) i) as [x|] eqn:NX; [|apply nth_error_None in NX; lia].
  destruct (N i x NX) as (_ & CU & _); specialize (CU eq_refl).
  destruct a as [|k w|k b]; cbn [step by_].
  - rewrite M, NX. destruct (main_step i p x) as [y m] eqn:MS; cbn [fst snd].
    destruct (main_left i p x y m CU MS) as (LEe & LEn & [(-> & -> & B)|LESS]).
    + rewrite (upd_id i (fun _ => x) (s_nodes s) x NX eq_refl).
      assert (EQ : mkSys (s_nodes s) (MRun i p) = s) by (destruct s as [ns mm]; cbn [s_nodes s_main] in *; now rewrite M).
      rewrite EQ; split; [lia|]; split; [intros _; split; [reflexivity|exists i, p; auto]|].
      unfold turn; rewrite M, NX; destruct B as [(-> & NE)|(-> & N1 & N2)].
      * destruct (e_pc x); try discriminate; congruence.
      * destruct (n_pc x); try discriminate; congruence.
    + pose proof (left_upd i (fun _ => y) (s_nodes s) x NX) as LU; cbn beta in LU.
      specialize (LESS _ LT); unfold todo; cbn [s_nodes s_main]; rewrite upd_len, M; split; [lia|]; split; [lia|]; intros _; lia.
  - destruct (nth_error (s_nodes s) k) as [z|] eqn:NZ.
    + pose proof (left_upd k (node_step w) (s_nodes s) z NZ) as LU.
      pose proof (good_started s k z G NZ) as SZ; destruct (left_node w z SZ) as (L1 & L2).
      unfold todo; cbn [s_nodes s_main]; rewrite upd_len; split; [lia|]; split.
      * intros EQ; split; [|exists i, p; cbn [s_nodes s_main]; rewrite upd_len; auto].
        unfold turn; cbn [s_nodes s_main]; rewrite M; destruct (Nat.eq_dec k i) as [->|NE]; [|rewrite upd_other by exact NE; reflexivity].
        rewrite NX in NZ; injection NZ as <-; rewrite (upd_same _ _ _ _ NX), NX.
        destruct p; try reflexivity.
        -- replace (e_pc (node_step w x)) with (e_pc x); [reflexivity|].
           clear - SZ; destruct SZ as (S1 & S2 & S3 & S4); destruct x as [q l t d e st]; unfold node_step, set_pc; cbn [n_pc n_linkem n_t n_done e_pc e_stop] in *.
           destruct q; try congruence; try (destruct w); try (destruct d); try (destruct e); reflexivity.
        -- destruct CU as (_ & P & D & ST & EO).
           destruct (n_pc x) eqn:NP; try (exfalso; enough (left_n (node_step w x) < left_n x) by lia;
             apply left_node_turn; try assumption; rewrite NP; discriminate);
             replace (node_step w x) with x by (unfold node_step; rewrite NP; reflexivity); rewrite NP; reflexivity.
      * intros T; enough (left_n (node_step w z) < left_n z) by lia.
        unfold turn in T; rewrite M, NX in T; destruct p; try discriminate; [destruct (e_pc x); discriminate|].
        assert (NN : n_pc x <> ROver /\ n_pc x <> RDead /\ k = i) by (destruct (n_pc x); try discriminate T; injection T as ->; repeat split; congruence).
        destruct NN as (N1 & N2 & ->); rewrite NX in NZ; injection NZ as <-; destruct CU as (_ & P & D & ST & EO); apply left_node_turn; auto.
    + rewrite upd_none by exact NZ.
      assert (EQ : mkSys (s_nodes s) (s_main s) = s) by (destruct s; reflexivity); rewrite EQ; split; [lia|]; split; [intros _; split; [reflexivity|exists i, p; auto]|].
      unfold turn; rewrite M, NX; intros T; exfalso.
      assert (k = i) by (destruct p; try discriminate T; [destruct (e_pc x)|destruct (n_pc x)]; try discriminate T; injection T as ->; reflexivity); congruence.
  - destruct (nth_error (s_nodes s) k) as [z|] eqn:NZ.
    + pose proof (left_upd k (em_step b) (s_nodes s) z NZ) as LU.
      destruct (left_em b z) as (L1 & L2).
      unfold todo; cbn [s_nodes s_main]; rewrite upd_len; split; [lia|]; split.
      * intros EQ; split; [|exists i, p; cbn [s_nodes s_main]; rewrite upd_len; auto].
        unfold turn; cbn [s_nodes s_main]; rewrite M; destruct (Nat.eq_dec k i) as [->|NE]; [|rewrite upd_other by exact NE; reflexivity].
        rewrite NX in NZ; injection NZ as <-; rewrite (upd_same _ _ _ _ NX), NX.
        destruct p; try reflexivity.
        -- destruct CU as (E & P & D & ST).
           destruct (e_pc x) eqn:EP; try (exfalso; enough (left_e (em_step b x) < left_e x) by lia;
             apply left_em_turn; try assumption; rewrite EP; congruence).
           replace (em_step b x) with x by (unfold em_step; rewrite EP; reflexivity); rewrite EP; reflexivity.
        -- replace (n_pc (em_step b x)) with (n_pc x); [reflexivity|].
           destruct x as [q l t d e st]; unfold em_step; cbn [n_pc e_pc e_stop]; destruct e, st, b; reflexivity.
      * intros T; enough (left_e (em_step b z) < left_e z) by lia.
        unfold turn in T; rewrite M, NX in T; destruct p; try discriminate; [|destruct (n_pc x); discriminate].
        assert (NN : e_pc x <> EOver /\ k = i) by (destruct (e_pc x); try discriminate T; injection T as ->; split; congruence).
        destruct NN as (N1 & ->); rewrite NX in NZ; injection NZ as <-; destruct CU as (E & P & D & ST); apply left_em_turn; auto.
    + rewrite upd_none by exact NZ.
      assert (EQ : mkSys (s_nodes s) (s_main s) = s) by (destruct s; reflexivity); rewrite EQ; split; [lia|]; split; [intros _; split; [reflexivity|exists i, p; auto]|].
      unfold turn; rewrite M, NX; intros T; exfalso.
      assert (k = i) by (destruct p; try discriminate T; [destruct (e_pc x)|destruct (n_pc x)]; try discriminate T; injection T as ->; reflexivity); congruence.
Qed.
Lemma finished_step s a : Good s -> ~ overtakes s a -> ~ unfinished s -> ~ unfinished (step s a).
Proof.
  intros (i & p & M & LE & FIN & N) C U (j & q & M' & L).
  assert (II : i = List.length (s_nodes s)) by (destruct (Nat.eq_dec i (List.length (s_nodes s))); [assumption|exfalso; apply U; exists i, p; split; [exact M|lia]]).
  destruct a as [|k w|k b]; cbn [step s_main s_nodes] in *; rewrite ?upd_len in L.
  - rewrite M in M', L; destruct (nth_error (s_nodes s) i) as [x|] eqn:NX; [assert (i < List.length (s_nodes s)) by (apply nth_error_Some; congruence); lia|].
    rewrite M in M'; injection M' as <- <-; lia.
  - rewrite M in M'; injection M' as <- <-; lia.
  - rewrite M in M'; injection M' as <- <-; lia.
Qed.

Lemma step_len s a : List.length (s_nodes (step s a)) = List.length (s_nodes s).
Proof.
  destruct a as [|k w|k b]; cbn [step s_nodes]; rewrite ?upd_len; auto.
  destruct (s_main s) as [i p|e]; auto; destruct (nth_error (s_nodes s) i); cbn [s_nodes]; rewrite ?upd_len; auto.
Qed.
Lemma run_len l s : List.length (s_nodes (run s l)) = List.length (s_nodes s).
Proof. revert s; induction l as [|a l IH]; intros s; cbn [run fold_left]; [reflexivity|]. fold (run (step s a) l); now rewrite IH, step_len. Qed.
Lemma calm_app l r s : calm s (l ++ r) <-> calm s l /\ calm (run s l) r.
Proof. revert s; induction l as [|a l IH]; intros s; cbn [app calm run fold_left]; [tauto|]; fold (run (step s a) l); rewrite IH; tauto. Qed.
Lemma run_app l r s : run s (l ++ r) = run (run s l) r.
Proof. apply fold_left_app. Qed.
Lemma finished_run l s : Good s -> calm s l -> ~ unfinished s -> ~ unfinished (run s l).
Proof.
  revert s; induction l as [|a l IH]; intros s G C U; cbn [run fold_left]; [exact U|]; destruct C as (C1 & C2).
  apply IH; [apply good_step; assumption|exact C2|apply finished_step; assumption].
Qed.
Lemma unfinished_dec s : unfinished s \/ ~ unfinished s.
Proof.
  destruct (s_main s) as [i p|e] eqn:M.
  - destruct (Compare_dec.lt_dec i (List.length (s_nodes s))); [left; exists i, p; auto|right; intros (j & q & M' & L); rewrite M in M'; injection M' as <- <-; auto].
  - right; intros (j & q & M' & _); congruence.
Qed.
(** A schedule in which the thread whose turn it is runs: less is left, or all is done. *)
Lemma less_left l s : Good s -> calm s l -> unfinished s -> (exists a, In a l /\ by_ a = turn s) ->
  todo (run s l) < todo s \/ ~ unfinished (run s l).
Proof.
  revert s; induction l as [|a l IH]; intros s G C U (a' & I & B); [destruct I|]; cbn [run fold_left]; fold (run (step s a) l).
  destruct C as (C1 & C2); pose proof (good_step s a G C1) as G'.
  destruct (one_step s a G U) as (L1 & L2 & L3).
  assert (MONO : todo (run (step s a) l) <= todo (step s a) \/ ~ unfinished (run (step s a) l)).
  { clear IH I L1 L2 L3 G U C1 B; revert C2 G'; generalize (step s a); induction l as [|b l IH]; intros s' C G; cbn [run fold_left]; [auto|].
    fold (run (step s' b) l); destruct C as (C1 & C2); destruct (unfinished_dec s') as [U|U].
    - destruct (one_step s' b G U) as (L & _ & _); destruct (IH (step s' b) C2 (good_step _ _ G C1)) as [R|R]; [left; lia|auto].
    - right; apply (finished_run (b :: l) s'); [exact G|split; assumption|exact U]. }
  destruct (Compare_dec.lt_dec (todo (step s a)) (todo s)) as [L|L]; [destruct MONO; [left; lia|auto]|].
  destruct (L2 ltac:(lia)) as (T & U'); destruct I as [<-|I]; [specialize (L3 B); lia|].
  destruct (IH (step s a) G' C2 U' ltac:(exists a'; split; [exact I|congruence])) as [R|R]; [left; lia|auto].
Qed.
Lemma turn_in s l : unfinished s -> round (List.length (s_nodes s)) l -> exists a, In a l /\ by_ a = turn s.
Proof.
  intros (i & p & M & L) (R1 & R2); unfold turn; rewrite M; destruct (nth_error (s_nodes s) i) as [x|]; [|exists AMain; auto].
  destruct (R2 i L) as ((w & IW) & (b & IB)).
  destruct p; try (exists AMain; now auto).
  - destruct (e_pc x); try (exists AMain; now auto); exists (AEm i b); auto.
  - destruct (n_pc x); try (exists AMain; now auto); exists (ANode i w); auto.
Qed.
Lemma rounds_end ls s : Good s -> calm s (concat ls) -> Forall (round (List.length (s_nodes s))) ls -> todo s <= List.length ls ->
  ~ unfinished (run s (concat ls)).
Proof.
  revert s; induction ls as [|l ls IH]; intros s G C F L; cbn [concat List.length] in *.
  - cbn [run fold_left]; intros (i & p & M & LT); pose proof G as (i' & p' & M' & _); unfold todo in L; rewrite M in L; unfold left_m in L.
    destruct p; lia.
  - rewrite run_app; apply calm_app in C; destruct C as (C1 & C2); apply Forall_cons_iff in F; destruct F as (R & F).
    pose proof (good_run l s G C1) as G'.
    destruct (unfinished_dec s) as [U|U]; [|apply finished_run; [exact G'|exact C2|apply finished_run; assumption]].
    destruct (less_left l s G C1 U (turn_in s l U R)) as [D|D]; [|apply finished_run; assumption].
    apply IH; [exact G'|exact C2|now rewrite run_len|lia].
Qed.
Lemma todo_start ns : todo (stop_call ns) <= 14 * List.length ns.
Proof.
  unfold todo, stop_call; cbn [s_nodes s_main left_m].
  enough (left_all ns <= 8 * List.length ns) by lia.
  induction ns as [|x ns IH]; cbn [left_all fold_right List.length]; [lia|].
  assert (left_e x <= 2) by (unfold left_e; destruct (e_stop x), (e_pc x); lia).
  assert (left_n x <= 6) by (unfold left_n; destruct (n_done x), (n_pc x); lia).
  unfold left_all in IH; lia.
Qed.
Lemma good_done s : Good s -> ~ unfinished s -> stopped s.
Proof.
  intros (i & p & M & LE & FIN & N) U.
  assert (II : i = List.length (s_nodes s)) by (destruct (Nat.eq_dec i (List.length (s_nodes s))); [assumption|exfalso; apply U; exists i, p; split; [exact M|lia]]).
  split; [rewrite M, (FIN II), II; reflexivity|]; apply Forall_forall; intros x I; apply In_nth_error in I; destruct I as (j & NJ).
  destruct (N j x NJ) as (A & _); apply A; rewrite II; apply nth_error_Some; congruence.
Qed.
Lemma stop_safe ns l : Forall up ns -> calm (stop_call ns) l -> exists i p, s_main (run (stop_call ns) l) = MRun i p.
Proof. intros U C; destruct (good_run l _ (good_start ns U) C) as (i & p & M & _); eauto. Qed.
Lemma stop_returned ns l : Forall up ns -> calm (stop_call ns) l -> s_main (run (stop_call ns) l) = MRun (List.length ns) M0 -> stopped (run (stop_call ns) l).
Proof.
  intros U C M; apply good_done; [apply good_run; [apply good_start; exact U|exact C]|].
  intros (i & p & M' & L); rewrite M in M'; injection M' as <- <-; rewrite run_len in L; cbn [stop_call s_nodes] in L; lia.
Qed.
Lemma stop_ends ns ls : Forall up ns -> calm (stop_call ns) (concat ls) -> Forall (round (List.length ns)) ls -> 14 * List.length ns <= List.length ls ->
  stopped (run (stop_call ns) (concat ls)).
Proof.
  intros U C F L; pose proof (good_start ns U) as G; apply good_done; [apply good_run; assumption|].
  apply rounds_end; try assumption. pose proof (todo_start ns); lia.
Qed.

(** * Whenever stop returns, for any schedule at all, the threads of all nodes have ended. *)
Definition Weak (s : sys) : Prop :=
  forall i p, s_main s = MRun i p -> forall j x, nth_error (s_nodes s) j = Some x -> (j < i -> ended x) /\ (j = i -> p = M5 -> e_pc x = EOver).
Lemma node_e_over w x : e_pc x = EOver -> n_pc x <> RStart -> e_pc (node_step w x) = EOver.
Proof. destruct x as [q l t d e st]; cbn [e_pc n_pc]; intros -> N; unfold node_step, set_pc; cbn [n_pc n_linkem n_t n_done e_pc e_stop]; destruct q, w, d; cbn [e_pc]; congruence. Qed.
Lemma em_over b x : e_pc x = EOver -> em_step b x = x.
Proof. destruct x as [p l t d e st]; unfold em_step; cbn [n_pc n_linkem n_t n_done e_pc e_stop]; intros ->; reflexivity. Qed.
(** The emulator's thread exists only once __t.start() has been called. *)
Definition sane (x : nd) : Prop := started x \/ e_pc x = EOff.
Lemma sane_node w x : sane x -> sane (node_step w x).
Proof.
  destruct x as [q l t d e st]; unfold sane, started, node_step, set_pc; cbn [n_pc n_linkem n_t n_done e_pc e_stop].
  intros [(A & B & C & D)| ->]; destruct q; try congruence; try (destruct w); try (destruct d); try (destruct e); cbn [n_pc e_pc];
    try (left; repeat split; discriminate); right; reflexivity.
Qed.
Lemma sane_em b x : sane x -> sane (em_step b x).
Proof.
  destruct x as [q l t d e st]; unfold sane, started, em_step; cbn [n_pc n_linkem n_t n_done e_pc e_stop].
  intros [H| ->]; [|right; reflexivity]; left; destruct e, st, b; cbn [n_pc]; exact H.
Qed.
Lemma sane_main i p x : sane x -> sane (fst (main_step i p x)).
Proof.
  destruct x as [q l t d e st]; unfold sane, started; intros H; destruct p; cbn [main_step n_pc n_linkem n_t n_done e_pc e_stop];
    [destruct l| |destruct t|destruct t, e|destruct e|destruct q]; cbn [fst n_pc e_pc] in *; exact H.
Qed.
Lemma sane_step s a : Forall sane (s_nodes s) -> Forall sane (s_nodes (step s a)).
Proof.
  assert (U : forall k f l, (forall x : nd, sane x -> sane (f x)) -> Forall sane l -> Forall sane (upd k f l)).
  { intros k f l Hf F; revert k; induction F as [|x l Hx F IH]; intros [|k]; cbn [upd]; constructor; auto. }
  intros F; destruct a as [|k w|k b]; cbn [step s_nodes]; [|apply U; [intros; now apply sane_node|exact F]|apply U; [intros; now apply sane_em|exact F]].
  destruct (s_main s) as [i p|e]; [|exact F]; destruct (nth_error (s_nodes s) i) as [x|] eqn:NX; [|exact F]; cbn [s_nodes].
  apply U; [|exact F]; intros _ _; apply sane_main; apply (proj1 (Forall_forall _ _) F x); exact (nth_error_In _ _ NX).
Qed.
Lemma weak_step s a : Forall sane (s_nodes s) -> Weak s -> Weak (step s a).
Proof.
  intros SA W i p M j z H; destruct a as [|k w|k b]; cbn [step] in *.
  - destruct (s_main s) as [i0 p0|e] eqn:M0'; [|now rewrite M0' in M].
    destruct (nth_error (s_nodes s) i0) as [x|] eqn:NX; [|rewrite M0' in M; injection M as <- <-; apply (W _ _ M0'); exact H].
    cbn [s_main s_nodes] in *; specialize (W _ _ M0').
    destruct (Nat.eq_dec i0 j) as [<-|NE].
    + rewrite (upd_same _ _ _ _ NX) in H; injection H as <-; destruct (W i0 x NX) as (_ & W5).
      destruct p0; cbn [main_step] in *.
      * destruct (n_linkem x); cbn [fst snd] in *; try discriminate; injection M as <- <-; (split; [lia|discriminate]).
      * cbn [fst snd] in *; injection M as <- <-; (split; [lia|discriminate]).
      * destruct (n_t x); cbn [fst snd] in *; try discriminate; injection M as <- <-; (split; [lia|discriminate]).
      * destruct (n_t x), (e_pc x); cbn [fst snd] in *; try discriminate; injection M as <- <-; (split; [lia|discriminate]).
      * destruct (e_pc x) eqn:EP; cbn [fst snd] in *; injection M as <- <-; split; try lia; try discriminate; auto.
      * destruct (n_pc x) eqn:NP; cbn [fst snd] in *; injection M as <- <-; split; try lia; auto; try discriminate.
        all: intros _; split; [auto|apply W5; auto].
    + rewrite upd_other in H by exact NE; destruct (W j z H) as (WE & _).
      assert (II : i = i0 \/ i = S i0).
      { destruct p0; cbn [main_step] in M; [destruct (n_linkem x)| |destruct (n_t x)|destruct (n_t x), (e_pc x)|destruct (e_pc x)|destruct (n_pc x)]; cbn [snd] in M;
          try discriminate; injection M as <- _; auto. }
      split; [intros L; apply WE; lia|].
      intros -> ->; exfalso; destruct II as [II|II]; [congruence|]; subst i. destruct p0; cbn [main_step] in M; [destruct (n_linkem x)| |destruct (n_t x)|destruct (n_t x), (e_pc x)|destruct (e_pc x)|destruct (n_pc x)]; cbn [snd] in M;
          try discriminate; injection M as M; try discriminate; lia.
  - cbn [s_main s_nodes] in *; specialize (W _ _ M).
    destruct (Nat.eq_dec k j) as [<-|NE]; [|rewrite upd_other in H by exact NE; apply W; exact H].
    destruct (nth_error (s_nodes s) k) as [x|] eqn:NX; [|rewrite upd_none in H by exact NX; congruence].
    rewrite (upd_same _ _ _ _ NX) in H; injection H as <-; destruct (W k x NX) as (WE & W5).
    split; [intros L; rewrite node_ended; auto|intros EQ P5; apply node_e_over; [auto|]].
    intros RS; pose proof (proj1 (Forall_forall _ _) SA x (nth_error_In _ _ NX)) as [(_ & _ & _ & S4)|EO]; [auto|]; rewrite (W5 EQ P5) in EO; discriminate.
  - cbn [s_main s_nodes] in *; specialize (W _ _ M).
    destruct (Nat.eq_dec k j) as [<-|NE]; [|rewrite upd_other in H by exact NE; apply W; exact H].
    destruct (nth_error (s_nodes s) k) as [x|] eqn:NX; [|rewrite upd_none in H by exact NX; congruence].
    rewrite (upd_same _ _ _ _ NX) in H; injection H as <-; destruct (W k x NX) as (WE & W5).
    split; [intros L; rewrite em_ended; auto|intros EQ P5; rewrite em_over; auto].
Qed.
Lemma weak_run l s : Forall sane (s_nodes s) -> Weak s -> Weak (run s l).
Proof. revert s; induction l as [|a l IH]; intros s S W; cbn [run fold_left]; [exact W|]; apply IH; [apply sane_step; exact S|apply weak_step; assumption]. Qed.
Lemma sane_run l s : Forall sane (s_nodes s) -> Forall sane (s_nodes (run s l)).
Proof. revert s; induction l as [|a l IH]; intros s S; cbn [run fold_left]; [exact S|]; apply IH; apply sane_step; exact S. Qed.
Lemma returned pre l n :
  let ns := s_nodes (run (mkSys (repeat nd_new n) (MErr EAttr)) pre) in
  s_main (run (stop_call ns) l) = MRun n M0 -> stopped (run (stop_call ns) l).
Proof.
  intros ns M.
  assert (S : Forall sane ns).
  { apply sane_run; cbn [s_nodes]; apply Forall_forall; intros x I; apply repeat_spec in I; subst; right; reflexivity. }
  assert (LN : List.length ns = n) by (unfold ns; rewrite run_len; cbn [s_nodes]; apply repeat_length).
  assert (W : Weak (run (stop_call ns) l)).
  { apply weak_run; [exact S|]; intros i p E j x _; cbn [stop_call s_main] in E; injection E as <- <-; split; [lia|discriminate]. }
  split; [rewrite run_len; cbn [stop_call s_nodes]; now rewrite LN|]; apply Forall_forall; intros x I; apply In_nth_error in I; destruct I as (j & NJ).
  apply (W _ _ M j x NJ). replace n with (List.length (s_nodes (run (stop_call ns) l))) by (rewrite run_len; exact LN). apply nth_error_Some; congruence.
Qed.

(** * What can go wrong. *)
(** A step in which no exception ends a thread. *)
Definition quiet (a : act) : Prop := match a with AMain => True | ANode _ w => w <> Raises | AEm _ b => b = false end.
Definition alive (x : nd) : Prop := n_pc x <> ROver /\ n_pc x <> RDead /\ e_pc x <> EOver.
Definition on (x : nd) : Prop :=
  n_done x = false /\ e_stop x = false /\ e_pc x <> EOver /\ n_pc x <> RJoin /\ n_pc x <> RDelT /\ n_pc x <> RDelEm /\ n_pc x <> RDelRest /\ n_pc x <> ROver /\ n_pc x <> RDead.
Lemma on_node w x : w <> Raises -> on x -> on (node_step w x).
Proof.
  intros NR (A & B & C & D & E & F & G & H & I); destruct x as [q l t d e st]; unfold on, node_step, set_pc; cbn [n_pc n_linkem n_t n_done e_pc e_stop] in *; subst.
  destruct q; try congruence; try (destruct w; try congruence); cbn [n_pc n_linkem n_t n_done e_pc e_stop]; repeat split; auto; discriminate.
Qed.
Lemma on_em x : on x -> on (em_step false x).
Proof.
  intros (A & B & C & D & E & F & G & H & I); destruct x as [q l t d e st]; unfold on, em_step; cbn [n_pc n_linkem n_t n_done e_pc e_stop] in *; subst.
  destruct e; try congruence; cbn [n_pc n_linkem n_t n_done e_pc e_stop]; repeat split; auto; discriminate.
Qed.
Lemma stuck_run l s e k : s_main s = MErr e -> (exists x, nth_error (s_nodes s) k = Some x /\ on x) -> Forall quiet l ->
  s_main (run s l) = MErr e /\ exists x, nth_error (s_nodes (run s l)) k = Some x /\ on x.
Proof.
  revert s; induction l as [|a l IH]; intros s M (x & NX & ON) Q; cbn [run fold_left]; [eauto|].
  apply Forall_cons_iff in Q; destruct Q as (Q1 & Q2); apply IH; [| |exact Q2].
  - destruct a; cbn [step s_main]; [now rewrite M|exact M|exact M].
  - destruct a as [|j w|j b]; cbn [step s_nodes quiet] in *; [rewrite M; eauto| |].
    + destruct (Nat.eq_dec j k) as [->|NE]; [rewrite (upd_same _ _ _ _ NX); eauto using on_node|rewrite upd_other by exact NE; eauto].
    + subst b; destruct (Nat.eq_dec j k) as [->|NE]; [rewrite (upd_same _ _ _ _ NX); eauto using on_em|rewrite upd_other by exact NE; eauto].
Qed.
Lemma on_alive x : on x -> alive x.
Proof. intros (A & B & C & D & E & F & G & H & I); repeat split; assumption. Qed.
Lemma early n k l : k < n -> Forall quiet l ->
  s_main (run (stop_call (repeat nd_new n)) (AMain :: l)) = MErr EAttr /\
  exists x, nth_error (s_nodes (run (stop_call (repeat nd_new n)) (AMain :: l))) k = Some x /\ alive x.
Proof.
  intros L Q; cbn [run fold_left]; fold (run (step (stop_call (repeat nd_new n)) AMain) l).
  assert (ST : exists s, step (stop_call (repeat nd_new n)) AMain = s /\ s_main s = MErr EAttr /\ s_nodes s = repeat nd_new n).
  { eexists; split; [reflexivity|]. destruct n; [lia|]; split; reflexivity. }
  destruct ST as (s & -> & M & N).
  destruct (stuck_run l s EAttr k M) as (A & x & B & C); [|exact Q|split; [exact A|exists x; split; [exact B|apply on_alive; exact C]]].
  exists nd_new; rewrite N; split; [apply nth_error_repeat; exact L|]; repeat split; discriminate.
Qed.

(** The attribute __linkem of a thread that ran to its end is gone. *)
Definition gone (x : nd) : Prop := n_pc x = RDelRest \/ n_pc x = ROver -> n_linkem x = AGone.
Lemma gone_step s a : Forall gone (s_nodes s) -> Forall gone (s_nodes (step s a)).
Proof.
  assert (U : forall k f l, (forall x : nd, gone x -> gone (f x)) -> Forall gone l -> Forall gone (upd k f l)).
  { intros k f l Hf F; revert k; induction F as [|x l Hx F IH]; intros [|k]; cbn [upd]; constructor; auto. }
  intros F; destruct a as [|k w|k b]; cbn [step s_nodes].
  - destruct (s_main s) as [i p|e]; [|exact F]; destruct (nth_error (s_nodes s) i) as [x|] eqn:NX; [|exact F]; cbn [s_nodes].
    apply U; [|exact F]; intros _ _. pose proof (proj1 (Forall_forall _ _) F x (nth_error_In _ _ NX)) as G.
    destruct x as [q l t d e st]; unfold gone in *; destruct p; cbn [main_step n_pc n_linkem n_t n_done e_pc e_stop] in *;
      [destruct l| |destruct t|destruct t, e|destruct e|destruct q]; cbn [fst n_pc n_linkem] in *; exact G.
  - apply U; [|exact F]; intros x G; destruct x as [q l t d e st]; unfold gone, node_step, set_pc in *; cbn [n_pc n_linkem n_t n_done e_pc e_stop] in *.
    destruct q; try (destruct w); try (destruct d); try (destruct e); cbn [n_pc n_linkem]; intros [H|H]; try discriminate; auto.
  - apply U; [|exact F]; intros x G; destruct x as [q l t d e st]; unfold gone, em_step in *; cbn [n_pc n_linkem n_t n_done e_pc e_stop] in *.
    destruct e, st, b; cbn [n_pc n_linkem]; exact G.
Qed.
Lemma gone_run l s : Forall gone (s_nodes s) -> Forall gone (s_nodes (run s l)).
Proof. revert s; induction l as [|a l IH]; intros s S; cbn [run fold_left]; [exact S|]; apply IH; apply gone_step; exact S. Qed.
Lemma err_run l s e : s_main s = MErr e -> s_main (run s l) = MErr e.
Proof. revert s; induction l as [|a l IH]; intros s M; cbn [run fold_left]; [exact M|]; apply IH; destruct a; cbn [step s_main]; rewrite ?M; auto. Qed.
Lemma again ns l x : Forall up ns -> nth_error (s_nodes (run (stop_call ns) l)) 0 = Some x -> n_pc x = ROver ->
  forall l2, In AMain l2 -> s_main (run (stop_call (s_nodes (run (stop_call ns) l))) l2) = MErr EAttr.
Proof.
  intros U NX NP l2 I; set (ns' := s_nodes (run (stop_call ns) l)) in *.
  assert (G : Forall gone ns').
  { apply gone_run; cbn [stop_call s_nodes]; apply Forall_forall; intros z Iz; pose proof (proj1 (Forall_forall _ _) U z Iz) as (P & _).
    intros [H|H]; rewrite H in P; decompose [or] P; discriminate. }
  assert (GX : n_linkem x = AGone) by (apply (proj1 (Forall_forall _ _) G x (nth_error_In _ _ NX)); auto).
  assert (H : forall l2 ns2, In AMain l2 -> (exists z, nth_error ns2 0 = Some z /\ n_pc z = ROver /\ n_linkem z = AGone) ->
    s_main (run (stop_call ns2) l2) = MErr EAttr); [|apply H; [exact I|eauto]].
  clear; induction l2 as [|a l2 IH]; intros ns2 I (z & NZ & P & L); [destruct I|].
  destruct ns2 as [|z0 ns2]; [discriminate|]; injection NZ as ->; cbn [run fold_left].
  destruct a as [|k w|k b].
  - cbn [step stop_call s_main s_nodes nth_error main_step]; rewrite L; cbn [fst snd]; fold (run (mkSys (upd 0 (fun _ => z) (z :: ns2)) (MErr EAttr)) l2); now apply err_run.
  - destruct I as [I|I]; [discriminate|]; apply (IH _ I); destruct k as [|k]; cbn [stop_call s_nodes upd nth_error]; [|exists z; auto].
    exists (node_step w z); split; [reflexivity|]; unfold node_step; rewrite P; auto.
  - destruct I as [I|I]; [discriminate|]; apply (IH _ I); destruct k as [|k]; cbn [stop_call s_nodes upd nth_error]; [|exists z; auto].
    exists (em_step b z); split; [reflexivity|]; unfold em_step; destruct (e_pc z), (e_stop z), b; auto.
Qed.
