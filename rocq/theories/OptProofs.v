(** Proofs for C111. *)
From Verif Require Import Base BaseLemmas CodecLemmas Enums EthProofs Ipv4Model Ipv4Proofs OptModel OptSpec.
#[local] Open Scope list_scope.
#[local] Open Scope Z_scope.

Section P.
Context {A : Type}.
Implicit Types l pre post : list A.

Lemma zlen_app l m : zlen (l ++ m) = zlen l + zlen m.
Proof. unfold zlen. rewrite app_length. lia. Qed.
Lemma zlen_cons a l : zlen (a :: l) = 1 + zlen l.
Proof. unfold zlen. cbn [List.length]. lia. Qed.
Lemma zlen_pos l : 0 <= zlen l.
Proof. unfold zlen. lia. Qed.

(** In range: the list splits there. *)
Lemma split_at l n : (n < List.length l)%nat -> exists pre x post, l = pre ++ x :: post /\ List.length pre = n.
Proof.
  revert n. induction l as [|a l IH]; intros n H; [cbn in H; lia|].
  destruct n as [|n]; [exists [], a, l; auto|].
  destruct (IH n) as (pre & x & post & -> & <-); [cbn [List.length] in H; lia|].
  exists (a :: pre), x, post. auto.
Qed.
Lemma at_split pre x post : nth_error (pre ++ x :: post) (List.length pre) = Some x.
Proof. induction pre; cbn; auto. Qed.
Lemma put_split pre x post a : put_nat (pre ++ x :: post) (List.length pre) a = pre ++ a :: post.
Proof. induction pre; cbn; congruence. Qed.
Lemma del_split pre x post : del_nat (pre ++ x :: post) (List.length pre) = pre ++ post.
Proof. induction pre; cbn; congruence. Qed.

Lemma place_wrap l i pre x post : place l i pre x post ->
  inside l (wrap l i) = true /\ Z.to_nat (wrap l i) = List.length pre.
Proof.
  intros [-> H]. unfold inside, wrap. fold (zlen (x :: post)) in H. fold (zlen pre) in H.
  assert (E : zlen (pre ++ x :: post) = zlen pre + (1 + zlen post)) by (rewrite zlen_app, zlen_cons; reflexivity).
  rewrite zlen_cons in H. rewrite E. pose proof (zlen_pos pre). pose proof (zlen_pos post).
  destruct H as [-> | ->].
  - replace (zlen pre <? 0) with false by lia. split; [lia|unfold zlen; lia].
  - replace (- (1 + zlen post) <? 0) with true by lia. split; [lia|]. unfold zlen in *. lia.
Qed.
Lemma wrap_place l i : inside l (wrap l i) = true -> exists pre x post, place l i pre x post.
Proof.
  unfold inside. intros H. apply andb_true_iff in H as [H1 H2].
  destruct (split_at l (Z.to_nat (wrap l i))) as (pre & x & post & E & L); [unfold zlen in *; lia|].
  exists pre, x, post. split; [exact E|]. unfold wrap in *.
  assert (zlen l = zlen pre + (1 + zlen post)) by (rewrite E, zlen_app, zlen_cons; reflexivity).
  unfold zlen in *. cbn [List.length]. destruct (i <? 0) eqn:N; lia.
Qed.
Lemma place_fun l i pre x post pre' x' post' : place l i pre x post -> place l i pre' x' post' ->
  pre = pre' /\ x = x' /\ post = post'.
Proof.
  intros P Q. pose proof (place_wrap _ _ _ _ _ P) as [_ L]. pose proof (place_wrap _ _ _ _ _ Q) as [_ L'].
  destruct P as [E _], Q as [E' _]. rewrite L in L'. rewrite E in E'. clear -L' E'.
  revert pre' L' E'. induction pre as [|a pre IH]; intros [|b pre'] L E; try discriminate L; cbn in *.
  - injection E as -> ->. auto.
  - injection E as -> E. injection L as L. destruct (IH _ L E) as (-> & -> & ->). auto.
Qed.
Lemma no_place l i : inside l (wrap l i) = false -> forall pre x post, ~ place l i pre x post.
Proof. intros H pre x post P. apply place_wrap in P as [P _]. congruence. Qed.

(** Reading. *)
Lemma get_place l i pre x post : place l i pre x post -> ip_get l (IInt i) = Ok x.
Proof.
  intros P. pose proof (place_wrap _ _ _ _ _ P) as [I L]. cbn [ip_get]. rewrite I. unfold at_nat. rewrite L.
  destruct P as [-> _]. now rewrite at_split.
Qed.
Lemma get_none l i : (forall pre x post, ~ place l i pre x post) -> ip_get l (IInt i) = Err EIndex.
Proof.
  intros H. cbn [ip_get]. destruct (inside l (wrap l i)) eqn:I; [|reflexivity].
  destruct (wrap_place _ _ I) as (pre & x & post & P). destruct (H _ _ _ P).
Qed.
Lemma nd_get_ip (cls : A -> nat) l i : nd_get cls l (IInt i) = ip_get l (IInt i).
Proof. reflexivity. Qed.

(** One call. *)
Definition good (one : list A -> ocall -> res unit * list A) : Prop :=
  forall l c, (exists l1, effect l c l1 /\ one l c = (Ok tt, l1)) \/
              (exists e, (forall l1, ~ effect l c l1) /\ one l c = (Err e, l)).
Lemma ip_good : good ip_call.
Proof.
  intros l [[a|]|[i|c| |] [a|]|[i|c| |]]; cbn [ip_call ip_append ip_put ip_del];
    try (right; eexists; split; [|reflexivity]; intros l1 H; inversion H; fail).
  - left. eexists. split; [constructor|reflexivity].
  - destruct (inside l (wrap l i)) eqn:I.
    + left. destruct (wrap_place _ _ I) as (pre & x & post & P). exists (pre ++ a :: post).
      split; [econstructor; exact P|]. pose proof (place_wrap _ _ _ _ _ P) as [_ L]. rewrite L.
      destruct P as [-> _]. now rewrite put_split.
    + right. eexists. split; [|reflexivity]. intros l1 H. inversion H; subst. eapply no_place; eauto.
  - destruct (inside l (wrap l i)) eqn:I.
    + left. destruct (wrap_place _ _ I) as (pre & x & post & P). exists (pre ++ post).
      split; [econstructor; exact P|]. pose proof (place_wrap _ _ _ _ _ P) as [_ L]. rewrite L.
      destruct P as [-> _]. now rewrite del_split.
    + right. eexists. split; [|reflexivity]. intros l1 H. inversion H; subst. eapply no_place; eauto.
Qed.
Lemma nd_good : good nd_call.
Proof.
  intros l c. destruct (ip_good l c) as [(l1 & E & H)|(e & E & H)].
  - left. exists l1. split; [exact E|]. destruct c as [[a|]|i v|i]; [exact H|discriminate H|exact H|exact H].
  - right. destruct c as [[a|]|i v|i]; [discriminate H|exists EType; auto|exists e; auto|exists e; auto].
Qed.
Lemma good_history one : good one -> forall cs l, history l cs (fst (calls one l cs)) (snd (calls one l cs)).
Proof.
  intros G cs. induction cs as [|c cs IH]; intros l; [constructor|].
  cbn [calls]. destruct (G l c) as [(l1 & E & ->)|(e & E & ->)].
  - specialize (IH l1). destruct (calls one l1 cs) as [rs l2]. cbn [fst snd] in *. econstructor; eauto.
  - specialize (IH l). destruct (calls one l cs) as [rs l2]. cbn [fst snd] in *. now constructor.
Qed.
(** Histories are functions of the calls, up to the kind of exception. *)
Lemma effect_fun l c l1 l2 : effect l c l1 -> effect l c l2 -> l1 = l2.
Proof.
  intros H K. destruct H; inversion K; subst; auto;
    match goal with P : place _ _ _ _ _, Q : place _ _ _ _ _ |- _ => destruct (place_fun _ _ _ _ _ _ _ _ P Q) as (-> & -> & ->) end;
    reflexivity.
Qed.
Lemma history_fun l cs rs l1 : history l cs rs l1 -> forall rs' l2, history l cs rs' l2 ->
  l1 = l2 /\ map (fun r => match r with Ok _ => true | Err _ => false end) rs =
             map (fun r => match r with Ok _ => true | Err _ => false end) rs'.
Proof.
  induction 1; intros rs' l9 K; inversion K; subst; cbn [map].
  - auto.
  - match goal with P : effect _ _ _, Q : effect _ _ _ |- _ => pose proof (effect_fun _ _ _ _ P Q); subst end.
    edestruct IHhistory as [-> ->]; eauto.
  - exfalso. match goal with N : forall l1, ~ effect _ _ l1 |- _ => eapply N; eauto end.
  - exfalso. match goal with N : forall l1, ~ effect _ _ l1 |- _ => eapply N; eauto end.
  - edestruct IHhistory as [-> ->]; eauto.
Qed.

(** Iteration. *)
Lemma iterate_from l get : (forall i, get (IInt i) = ip_get l (IInt i)) ->
  forall post pre fuel, l = pre ++ post -> (List.length post < fuel)%nat -> iterate get fuel (zlen pre) = Ok post.
Proof.
  intros G. induction post as [|x post IH]; intros pre fuel E F; (destruct fuel as [|fuel]; [lia|]); cbn [iterate]; rewrite G.
  - rewrite get_none; [reflexivity|]. intros p x q [E' H]. rewrite app_nil_r in E. subst pre.
    assert (L : zlen l = zlen p + (1 + zlen q)) by (rewrite E', zlen_app, zlen_cons; reflexivity).
    fold (zlen (x :: q)) in H. fold (zlen p) in H. rewrite zlen_cons in H.
    pose proof (zlen_pos p). pose proof (zlen_pos q). lia.
  - rewrite (get_place l (zlen pre) pre x post); [|split; [exact E|left; reflexivity]].
    assert (K : zlen pre + 1 = zlen (pre ++ [x])) by (rewrite zlen_app; reflexivity).
    rewrite K, IH.
    + reflexivity.
    + now rewrite <- app_assoc.
    + cbn [List.length] in F. lia.
Qed.

(** Reading by class. *)
Lemma first_of_spec (cls : A -> nat) c l a :
  first_of cls c l = Ok a <->
  exists pre post, l = pre ++ a :: post /\ cls a = c /\ Forall (fun b => cls b <> c) pre.
Proof.
  induction l as [|b l IH]; cbn [first_of].
  - split; [discriminate|]. intros (pre & post & E & _). now destruct pre.
  - destruct (Nat.eqb (cls b) c) eqn:E.
    + apply Nat.eqb_eq in E. split.
      * intros H. injection H as ->. exists [], l. auto.
      * intros (pre & post & H & _ & F). destruct pre as [|d pre]; cbn in H; injection H as -> _; [reflexivity|].
        apply Forall_cons_iff in F as [F _]. congruence.
    + apply Nat.eqb_neq in E. rewrite IH. split.
      * intros (pre & post & -> & H & F). exists (b :: pre), post. repeat split; auto.
      * intros (pre & post & H & C & F). destruct pre as [|d pre]; cbn in H; injection H as -> ->; [congruence|].
        apply Forall_cons_iff in F as [_ F]. eauto.
Qed.
Lemma first_of_none (cls : A -> nat) c l : Forall (fun b => cls b <> c) l -> first_of cls c l = Err EIndex.
Proof.
  induction 1 as [|b l H _ IH]; [reflexivity|]. cbn [first_of]. apply Nat.eqb_neq in H. now rewrite H.
Qed.
End P.

(** Routes. *)
Definition raddr_ok (c : rcall) : Prop := match c with RPut _ (AAddr (Some a)) => ip4 a | _ => True end.
Definition no_del (c : rcall) : Prop := match c with RDel _ => False | _ => True end.
Definition rinv (p : Z) (l : list bytes) : Prop := Forall ip4 l /\ zlen l <= 9 /\ 4 <= p < 40.
Lemma forall_put (P : bytes -> Prop) l n a : Forall P l -> P a -> Forall P (put_nat l n a).
Proof. revert n. induction l; intros [|n] H Ha; cbn; auto; apply Forall_cons_iff in H as [H1 H2]; constructor; auto. Qed.
Lemma forall_del (P : bytes -> Prop) l n : Forall P l -> Forall P (del_nat l n).
Proof. revert n. induction l; intros [|n] H; cbn; auto; apply Forall_cons_iff in H as [H1 H2]; auto. Qed.
Lemma len_put (l : list bytes) n a : zlen (put_nat l n a) = zlen l.
Proof. unfold zlen. f_equal. revert n. induction l; intros [|n]; cbn; auto. Qed.
Lemma len_del (l : list bytes) n : zlen (del_nat l n) <= zlen l.
Proof. unfold zlen. apply inj_le. revert n. induction l; intros [|n]; cbn; auto. specialize (IHl n). lia. Qed.
Lemma rinv_call p l c : rinv p l -> raddr_ok c -> rinv (fst (snd (route_call p l c))) (snd (snd (route_call p l c))).
Proof.
  intros (F & L & P) R. destruct c as [q|i v|i]; cbn [route_call].
  - destruct (route_ptr_ok q (zlen l)) eqn:E; cbn [fst snd]; [|split; auto].
    unfold route_ptr_ok in E. apply andb_true_iff in E as [E1 E2]. repeat split; auto.
    + assert (1 <= q / 4) by lia. pose proof (Z_mult_div_ge q 4). lia.
    + assert (q / 4 < 10) by lia. pose proof (Z_div_mod_eq_full q 4). pose proof (Z.mod_pos_bound q 4). lia.
  - destruct v as [r|]; cbn [fst snd]; [|split; auto]. destruct (inside l (wrap l i)); cbn [fst snd]; [|split; auto].
    destruct r as [a|]; cbn [fst snd]; [|split; auto]. repeat split; try lia; [now apply forall_put|now rewrite len_put].
  - destruct (inside l (wrap l i)); cbn [fst snd]; [|split; auto]. repeat split; try lia; [now apply forall_del|].
    pose proof (len_del l (Z.to_nat (wrap l i))). lia.
Qed.
Lemma rinv_calls cs : forall p l, rinv p l -> Forall raddr_ok cs -> rinv (fst (route_calls p l cs)) (snd (route_calls p l cs)).
Proof.
  induction cs as [|c cs IH]; intros p l I F; [exact I|]. apply Forall_cons_iff in F as [F1 F2].
  pose proof (rinv_call _ _ _ I F1) as K. cbn [route_calls]. destruct (snd (route_call p l c)) as [p' l']. auto.
Qed.
Lemma keep_ptr cs : forall p l, p / 4 <= zlen l -> Forall no_del cs ->
  fst (route_calls p l cs) / 4 <= zlen (snd (route_calls p l cs)).
Proof.
  induction cs as [|c cs IH]; intros p l I F; [exact I|]. apply Forall_cons_iff in F as [F1 F2].
  cbn [route_calls].
  assert (K : fst (snd (route_call p l c)) / 4 <= zlen (snd (snd (route_call p l c)))).
  { destruct c as [q|i v|i]; cbn [route_call]; [| |contradiction].
    - destruct (route_ptr_ok q (zlen l)) eqn:E; cbn [fst snd]; [|auto].
      unfold route_ptr_ok in E. apply andb_true_iff in E as [E1 E2]. lia.
    - destruct v as [r|]; cbn [fst snd]; [|auto]. destruct (inside l (wrap l i)); cbn [fst snd]; [|auto].
      destruct r as [a|]; cbn [fst snd]; [|auto]. now rewrite len_put. }
  destruct (snd (route_call p l c)) as [p' l']. auto.
Qed.
Lemma route_new_inv num n o : route_new num n = Ok o ->
  exists l, o = ORoute num 4 l /\ rinv 4 l /\ zlen l = n /\ 1 <= n.
Proof.
  unfold route_new. destruct ((n <? 1) || (9 <? n)) eqn:E; [discriminate|]. intros H. injection H as <-.
  exists (repeat (repeat 0 4) (Z.to_nat n)). split; [reflexivity|].
  assert (K : @zlen bytes (repeat (repeat 0 4) (Z.to_nat n)) = n) by (unfold zlen; rewrite repeat_length; lia).
  unfold rinv. rewrite K. repeat split; try lia. apply Forall_forall. intros x Hx. apply repeat_spec in Hx as ->.
  unfold ip4. split; [|reflexivity]. unfold wfb. cbn [repeat]. repeat apply Forall_cons; try apply Forall_nil; lia.
Qed.
Lemma concat_len4 (l : list bytes) : Forall ip4 l -> zlen (concat l) = 4 * zlen l.
Proof.
  induction 1 as [|a l [_ Ha] _ IH]; [reflexivity|]. cbn [concat]. rewrite zlen_app, zlen_cons, IH.
  unfold zlen at 1. rewrite Ha. lia.
Qed.
(** A route option whose pointer lies within its addresses is read back; one whose pointer does not is refused. *)
Lemma route_back num p l : num = 3 \/ num = 7 \/ num = 9 -> rinv p l -> p / 4 <= zlen l ->
  exists b, opt_to_bytes (ORoute num p l) = Ok b /\ zlen b = 3 + 4 * zlen l /\
            forall t, opt_from_bytes num (b ++ t) = Ok (ORoute num p l, zlen b).
Proof.
  intros N (F & L & P) Q.
  assert (W : wf_opt (ORoute num p l)).
  { cbn [wf_opt]. repeat split; auto; try lia. }
  destruct (opt_parse _ W) as (x & b & H1 & H2 & _ & _ & _ & H3). exists (x :: b). repeat split; auto.
  cbn [opt_length] in H2. lia.
Qed.
Lemma route_refused num p l : num = 3 \/ num = 7 \/ num = 9 -> rinv p l -> zlen l < p / 4 ->
  exists b, opt_to_bytes (ORoute num p l) = Ok b /\ forall t, opt_from_bytes num (b ++ t) = Err EValue.
Proof.
  intros N (F & L & P) Q. pose proof (zlen_pos l).
  cbn [opt_to_bytes opt_length]. rewrite pack_bbb by (destruct N as [-> |[-> | ->]]; lia). cbn [bindr app].
  eexists. split; [reflexivity|]. intros t.
  assert (E : opt_from_bytes num ((num :: 3 + zlen l * 4 :: p :: concat l) ++ t) =
    (addrs <- route_addrs (Z.to_nat ((3 + zlen l * 4 - 3) / 4)) 0 ([num; 3 + zlen l * 4; p] ++ concat l ++ t);;
     if route_ptr_ok p (zlen addrs) then Ok (ORoute num p addrs, 3 + zlen l * 4) else Err EValue)).
  { destruct N as [-> |[-> | ->]]; reflexivity. }
  change ((num :: 3 + zlen l * 4 :: p :: concat l ++ t)) with ((num :: 3 + zlen l * 4 :: p :: concat l) ++ t).
  rewrite E. replace (Z.to_nat ((3 + zlen l * 4 - 3) / 4)) with (List.length l).
  - rewrite route_addrs_ok by auto. cbn [bindr]. unfold route_ptr_ok.
    replace ((0 <=? p / 4 - 1) && (p / 4 - 1 <? zlen l)) with false by lia. reflexivity.
  - replace (3 + zlen l * 4 - 3) with (zlen l * 4) by lia. rewrite Z.div_mul by lia. unfold zlen. lia.
Qed.
