(** C111: the option containers of IPv4 and ICMPv6 headers behave as lists. *)
From Verif Require Import Base BaseLemmas EthProofs EthAddrModel Ipv4Model IcmpModel OptModel OptSpec OptProofs.
#[local] Open Scope list_scope.
#[local] Open Scope Z_scope.

(** Whatever a program calls, in whatever order, and whatever it catches: both containers go through the history the list
    goes through, and that history is fixed by the calls. *)
Theorem C111_history :
  forall (A : Type) (l : list A) cs,
  history l cs (fst (calls ip_call l cs)) (snd (calls ip_call l cs)) /\
  history l cs (fst (calls nd_call l cs)) (snd (calls nd_call l cs)) /\
  snd (calls ip_call l cs) = snd (calls nd_call l cs) /\
  (forall rs l1 rs' l2, history l cs rs l1 -> history l cs rs' l2 ->
     l1 = l2 /\ forall n, (nth_error rs n = Some (Ok tt) <-> nth_error rs' n = Some (Ok tt))).
Proof.
  intros A l cs. pose proof (good_history _ ip_good cs l) as H1. pose proof (good_history _ nd_good cs l) as H2.
  repeat split; auto; try (eapply history_fun; eauto; fail).
  - intros K. destruct (history_fun _ _ _ _ H _ _ H0) as [_ E]. apply (f_equal (fun m => nth_error m n)) in E.
    rewrite !nth_error_map, K in E. cbn in E. destruct (nth_error rs' n) as [[[]|]|]; cbn in E; congruence.
  - intros K. destruct (history_fun _ _ _ _ H _ _ H0) as [_ E]. apply (f_equal (fun m => nth_error m n)) in E.
    rewrite !nth_error_map, K in E. cbn in E. destruct (nth_error rs n) as [[[]|]|]; cbn in E; congruence.
Qed.
Print Assumptions C111_history.

(** Reading at a place gives what is there; reading anywhere else raises IndexError, and so do changes there. *)
Theorem C111_read :
  forall (A : Type) (cls : A -> nat) (l : list A) i,
  (forall pre x post, place l i pre x post -> ip_get l (IInt i) = Ok x /\ nd_get cls l (IInt i) = Ok x) /\
  ((forall pre x post, ~ place l i pre x post) ->
     ip_get l (IInt i) = Err EIndex /\ nd_get cls l (IInt i) = Err EIndex /\
     (forall v, fst (ip_put l (IInt i) (VOpt v)) = Err EIndex) /\ fst (ip_del l (IInt i)) = Err EIndex /\
     (forall v, fst (nd_put l (IInt i) (VOpt v)) = Err EIndex) /\ fst (nd_del l (IInt i)) = Err EIndex).
Proof.
  intros A cls l i. split.
  - intros pre x post P. split; exact (get_place _ _ _ _ _ P).
  - intros N. pose proof (get_none l i N) as G.
    assert (I : inside l (wrap l i) = false).
    { destruct (inside l (wrap l i)) eqn:I; [|reflexivity]. destruct (wrap_place _ _ I) as (p & x & q & P). destruct (N _ _ _ P). }
    repeat split; try exact G; intros; cbn [ip_put ip_del nd_put nd_del]; now rewrite I.
Qed.
Print Assumptions C111_read.

(** Going through a container with "for" visits every option once, in order. *)
Theorem C111_iterate :
  forall (A : Type) (cls : A -> nat) (l : list A) fuel, (List.length l < fuel)%nat ->
  iterate (ip_get l) fuel 0 = Ok l /\ iterate (nd_get cls l) fuel 0 = Ok l.
Proof.
  intros A cls l fuel F. change 0 with (zlen (@nil A)).
  split; apply iterate_from with (l := l); auto.
Qed.
Print Assumptions C111_iterate.

(** An ICMPv6 list can be read with an option class: the first option of exactly that class. *)
Theorem C111_class :
  forall (A : Type) (cls : A -> nat) (l : list A) c,
  (forall a, nd_get cls l (IOptCls c) = Ok a <->
     exists pre post, l = pre ++ a :: post /\ cls a = c /\ Forall (fun b => cls b <> c) pre) /\
  (Forall (fun b => cls b <> c) l -> nd_get cls l (IOptCls c) = Err EIndex).
Proof. intros. split; [intros; apply first_of_spec|apply first_of_none]. Qed.
Print Assumptions C111_class.

(** But an index that can be read cannot always be used to change the list: with a class that raises TypeError. *)
Theorem C111_class_refuted :
  exists (l : list ndopt) cls c o, nd_get cls l (IOptCls c) = Ok o /\
  (forall v, nd_put l (IOptCls c) v = (Err EType, l)) /\ nd_del l (IOptCls c) = (Err EType, l).
Proof.
  exists [NMtu 1500], (fun o => match o with NMtu _ => 5%nat | _ => 0%nat end), 5%nat, (NMtu 1500). repeat split.
Qed.
Print Assumptions C111_class_refuted.

(** A route option, however its addresses and pointer are edited: it is sent with all its addresses, and read back as it is
    if its pointer is within them - which it is unless an address was deleted. *)
Theorem C111_route_partial :
  forall num n o cs, num = 3 \/ num = 7 \/ num = 9 -> route_new num n = Ok o ->
  Forall raddr_ok cs ->
  exists addrs0, o = ORoute num 4 addrs0 /\ zlen addrs0 = n /\
  let p := fst (route_calls 4 addrs0 cs) in let addrs := snd (route_calls 4 addrs0 cs) in
  (Forall no_del cs -> zlen addrs = n /\ p / 4 <= zlen addrs) /\
  exists b, opt_to_bytes (ORoute num p addrs) = Ok b /\
  (p / 4 <= zlen addrs -> zlen b = 3 + 4 * zlen addrs /\ forall t, opt_from_bytes num (b ++ t) = Ok (ORoute num p addrs, zlen b)) /\
  (zlen addrs < p / 4 -> forall t, opt_from_bytes num (b ++ t) = Err EValue).
Proof.
  intros num n o cs N H F. destruct (route_new_inv _ _ _ H) as (l & -> & I & L & G). exists l. split; [reflexivity|].
  split; [exact L|]. pose proof (rinv_calls cs 4 l I F) as K. cbv zeta. split.
  - intros D. split; [|apply keep_ptr; [change (4 / 4) with 1; lia|exact D]].
    rewrite <- L. clear -D. generalize 4. intros p. revert p l. induction cs as [|c cs IH]; intros p l; [reflexivity|].
    apply Forall_cons_iff in D as [D1 D2]. cbn [route_calls].
    assert (E : zlen (snd (snd (route_call p l c))) = zlen l).
    { destruct c as [q|i v|i]; cbn [route_call]; [| |contradiction].
      - now destruct (route_ptr_ok q (zlen l)).
      - destruct v as [r|]; [|reflexivity]. destruct (inside l (wrap l i)); [|reflexivity].
        destruct r; cbn [fst snd]; [apply len_put|reflexivity]. }
    destruct (snd (route_call p l c)) as [p' l']. cbn [snd] in E. rewrite <- E. apply IH; auto.
  - destruct (Z_le_gt_dec (fst (route_calls 4 l cs) / 4) (zlen (snd (route_calls 4 l cs)))) as [Q|Q].
    + destruct (route_back num _ _ N K Q) as (b & B1 & B2 & B3). exists b. split; [exact B1|]. split; [auto|intros; lia].
    + destruct (route_refused num _ _ N K) as (b & B1 & B2); [lia|]. exists b. split; [exact B1|]. split; [intros; lia|auto].
Qed.
Print Assumptions C111_route_partial.

(** The addresses of a route option are a list as well. *)
Theorem C111_addresses :
  forall (l : list bytes) p i,
  (forall pre x post, place l i pre x post ->
     route_get l i = Ok x /\ (forall a, route_call p l (RPut i (AAddr (Some a))) = (Ok tt, (p, pre ++ a :: post))) /\
     route_call p l (RDel i) = (Ok tt, (p, pre ++ post))) /\
  ((forall pre x post, ~ place l i pre x post) ->
     route_get l i = Err EIndex /\ (forall a, route_call p l (RPut i (AAddr a)) = (Err EIndex, (p, l))) /\
     route_call p l (RDel i) = (Err EIndex, (p, l))) /\
  (forall q, fst (route_call p l (RPointer q)) = Ok tt <-> 1 <= q / 4 <= Z.of_nat (List.length l)).
Proof.
  intros l p i. split; [|split].
  - intros pre x post P. pose proof (place_wrap _ _ _ _ _ P) as [I L]. split; [exact (get_place _ _ _ _ _ P)|].
    destruct P as [-> _]. split; intros; cbn [route_call]; rewrite I, L; [now rewrite put_split|now rewrite del_split].
  - intros N. split; [exact (get_none _ _ N)|].
    assert (I : inside l (wrap l i) = false).
    { destruct (inside l (wrap l i)) eqn:I; [|reflexivity]. destruct (wrap_place _ _ I) as (a & x & q & P). destruct (N _ _ _ P). }
    split; intros; cbn [route_call]; now rewrite I.
  - intros q. cbn [route_call]. unfold route_ptr_ok. fold (zlen l). destruct ((0 <=? q / 4 - 1) && (q / 4 - 1 <? zlen l)) eqn:E;
      cbn [fst]; split; intros; try discriminate; try reflexivity; lia.
Qed.
Print Assumptions C111_addresses.

(** Deleting an address may leave an option that is sent but refused by the receiver. *)
Theorem C111_route_refuted :
  exists o cs p addrs b, route_new 7 2 = Ok o /\ o = ORoute 7 4 [[0; 0; 0; 0]; [0; 0; 0; 0]] /\
  route_calls 4 [[0; 0; 0; 0]; [0; 0; 0; 0]] cs = (p, addrs) /\ opt_to_bytes (ORoute 7 p addrs) = Ok b /\
  opt_from_bytes 7 b = Err EValue.
Proof.
  exists (ORoute 7 4 [[0; 0; 0; 0]; [0; 0; 0; 0]]), [RPut (-1) (AAddr (Some [10; 0; 0; 1])); RPointer 8; RDel 0], 8, [[10; 0; 0; 1]],
    [7; 7; 8; 10; 0; 0; 1]. repeat split.
Qed.
Print Assumptions C111_route_refuted.

Example C111_history_ex :
  calls ip_call [ONop] [CAppend (VOpt (O4 20 0 128)); CPut (IInt (-2)) (VOpt OEnd); CDel (IInt 5); CAppend VAny; CDel (IInt (-1))] =
  ([Ok tt; Ok tt; Err EIndex; Err EExc; Ok tt], [OEnd]).
Proof. reflexivity. Qed.
Example C111_place_ex : place [1; 2; 3] (-2) [1] 2 [3] /\ place [1; 2; 3] 1 [1] 2 [3].
Proof. split; (split; [reflexivity|]); [right|left]; reflexivity. Qed.
Example C111_route_ex :
  Forall no_del [RPointer 8; RPut 1 (AAddr (Some [10; 0; 0; 1]))] /\ Forall raddr_ok [RPointer 8; RPut 1 (AAddr (Some [10; 0; 0; 1]))] /\
  route_calls 4 [[0; 0; 0; 0]; [0; 0; 0; 0]] [RPointer 8; RPut 1 (AAddr (Some [10; 0; 0; 1]))] = (8, [[0; 0; 0; 0]; [10; 0; 0; 1]]).
Proof. split; [repeat constructor|]. split; [|reflexivity]. repeat constructor; lia. Qed.
