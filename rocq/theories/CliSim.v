(** The simulated network of a topology as a set of links in the sense of LinkModel.v. *)
From Coq Require Import QArith Permutation.
From Verif Require Import BaseLemmas DictLemmas TopoModel TopoSpec TopoProofs TopoInv TopoMore TopoAddr LinkModel LinkSpec LinkSim CliModel CliSpec CliNet.
#[local] Open Scope string_scope.
#[local] Open Scope list_scope.
#[local] Open Scope Z_scope.

(** The number of a name in a list. *)
Fixpoint number (n : str) (l : list str) : nat := match l with [] => O | m :: r => if str_eqb n m then O else S (number n r) end.
Definition name_in (n : str) (d : dict attr) : string := match dget n d with Some (AName s) => s | _ => "" end.
Section Values.
(** What the numbers of a link record stand for. *)
Context (cap : option Z -> Z) (delay : option Z -> Q).
(** One turn of the loop in rebuildGlue (cli.py:737-741): the two ends, capacity and delay of a link. *)
Definition sim_link (t : topo) (l : str * str) : LinkModel.link :=
  let d := match get_link (fst l) (snd l) t with Ok d => d | Err _ => [] end in
  mkLink (number (fst l) (nodes t)) (name_in (fst l) d) (number (snd l) (nodes t)) (name_in (snd l) d)
         (cap (match dget "capacity" d with Some (ACap c) => c | _ => None end)) (delay (match dget "delay" d with Some (ADelay c) => c | _ => None end)).
Definition sim_links (t : topo) : list LinkModel.link := map (sim_link t) (links t).

Lemma number_below n l : In n l -> (number n l < List.length l)%nat.
Proof. induction l as [|m r IH]; [intros []|]. cbn [number List.length]. destruct (str_spec n m) as [->|N]; [lia|]. intros [->|H]; [congruence|]. specialize (IH H). lia. Qed.
Lemma number_inj n m l : In n l -> In m l -> number n l = number m l -> n = m.
Proof.
  induction l as [|x r IH]; [intros []|]. cbn [number]. destruct (str_spec n x) as [->|N], (str_spec m x) as [->|M]; try lia; auto.
  intros [->|Hn]; [congruence|]. intros [->|Hm]; [congruence|]. intros E. injection E as E. auto.
Qed.
Lemma number_nth n l : In n l -> nth_error l (number n l) = Some n.
Proof. induction l as [|m r IH]; [intros []|]. cbn [number]. destruct (str_spec n m) as [->|N]; [reflexivity|]. intros [->|H]; [congruence|]. exact (IH H). Qed.
Lemma NoDup_flat_map {A B} (f : A -> list B) l : NoDup l -> (forall a, In a l -> NoDup (f a)) -> (forall a b x, In a l -> In b l -> In x (f a) -> In x (f b) -> a = b) -> NoDup (flat_map f l).
Proof.
  induction 1 as [|a r H N IH]; intros F D; [constructor|]. cbn [flat_map]. apply NoDup_app.
  - apply F. left. reflexivity.
  - apply IH; [intros v Hv; apply F; right; exact Hv|]. intros a1 a2 x H1 H2. apply D; right; assumption.
  - intros x X1 X2. apply in_flat_map in X2 as (v & V & X2). apply H. rewrite (D a v x); auto; [left; reflexivity|right; exact V].
Qed.
Lemma ends_sim t : ends (sim_links t) = flat_map (fun l => [(ln_u (sim_link t l), ln_ud (sim_link t l)); (ln_v (sim_link t l), ln_vd (sim_link t l))]) (links t).
Proof. unfold ends, sim_links. induction (links t) as [|l r IH]; [reflexivity|]. cbn [map flat_map]. rewrite IH. reflexivity. Qed.
(** What a link record says about each of its links. *)
Lemma link_facts b t u v : Inv b t -> In (u, v) (links t) -> exists d ui vi, get_link u v t = Ok d /\ get_link v u t = Ok d /\
  dget u d = Some (AName ui) /\ dget v d = Some (AName vi) /\ In u (nodes t) /\ In v (nodes t).
Proof.
  intros I H. assert (L : has_link u v t = true) by (apply (links_iff b t u v I); auto).
  assert (exists d, get_link u v t = Ok d) as (d & G). { unfold has_link in L. apply existsb_exists in L as (e & He & J). unfold get_link. destruct (find (joins u v) (tp_edges t)) eqn:F; [eauto|]. apply (find_none _ _ F) in He. congruence. }
  destruct (link_end b t u v d u I G (or_introl eq_refl)) as (nu & i & U1 & U2 & _). destruct (link_end b t u v d v I G (or_intror eq_refl)) as (nv & j & V1 & V2 & _).
  exists d, (eth_name i), (eth_name j). split; [exact G|]. split; [rewrite get_link_sym; exact G|]. split; [exact U2|]. split; [exact V2|].
  split; unfold nodes, dkeys; [apply dget_In, (in_map fst) in U1; exact U1|apply dget_In, (in_map fst) in V1; exact V1].
Qed.
Lemma sim_below b t : Inv b t -> nodes_below (List.length (nodes t)) (sim_links t).
Proof.
  intros I e H. rewrite ends_sim in H. apply in_flat_map in H as ([u v] & L & H). destruct (link_facts b t u v I L) as (d & ui & vi & _ & _ & _ & _ & U & V).
  destruct H as [<-|[<-|[]]]; cbn; apply number_below; assumption.
Qed.
Lemma sim_NoDup t : Inv true t -> (forall n, has_link n n t = false) -> NoDup (ends (sim_links t)).
Proof.
  intros I NS. rewrite ends_sim. apply NoDup_flat_map.
  - apply (links_NoDup true t I).
  - intros [u v] L. destruct (link_facts true t u v I L) as (d & ui & vi & _ & _ & _ & _ & U & V). constructor; [|repeat constructor; intros []].
    intros [E|[]]. injection E as E _. cbn in E. symmetry in E. apply number_inj in E; auto. subst v.
    assert (has_link u u t = true) by (apply (links_iff true t u u I); auto). rewrite NS in *. discriminate.
  - intros [u v] [u2 v2] x L1 L2 X1 X2. destruct (link_facts true t u v I L1) as (d1 & ui & vi & G1 & G1' & U1 & V1 & N1 & N2). destruct (link_facts true t u2 v2 I L2) as (d2 & ui2 & vi2 & G2 & G2' & U2 & V2 & N3 & N4).
    apply (link_pairs true t u v u2 v2 I L1 L2). unfold sim_link in X1, X2. cbn [fst snd ln_u ln_ud ln_v ln_vd] in X1, X2. rewrite G1 in X1. rewrite G2 in X2. unfold name_in in X1, X2. rewrite U1, V1 in X1. rewrite U2, V2 in X2.
    destruct X1 as [<-|[<-|[]]]; destruct X2 as [E|[E|[]]]; injection E as E1 E2; apply number_inj in E1; auto; subst.
    + left. split; [reflexivity|]. apply (link_distinct t u v v2 d1 d2 I G1 G2). congruence.
    + right. split; [reflexivity|]. apply (link_distinct t u v u2 d1 d2 I G1 G2'). congruence.
    + right. split; [|reflexivity]. apply (link_distinct t v u v2 d1 d2 I G1' G2). congruence.
    + left. split; [|reflexivity]. apply (link_distinct t v u u2 d1 d2 I G1' G2'). congruence.
Qed.
(** The far end in terms of names. *)
Lemma sim_far t u v d ui vi c l : Inv true t -> (forall n, has_link n n t = false) -> get_link u v t = Ok d -> dget u d = Some (AName ui) -> dget v d = Some (AName vi) ->
  dget "capacity" d = Some (ACap c) -> dget "delay" d = Some (ADelay l) ->
  far (sim_links t) (number u (nodes t), ui) = Some (number v (nodes t), vi, cap c, delay l).
Proof.
  intros I NS G U V C D. assert (L : has_link u v t = true) by (apply get_link_in in G as (e & H & J & _); apply has_link_in; eauto).
  pose proof (sim_NoDup t I NS) as N. apply (links_iff true t u v I) in L. destruct L as [L|L].
  - pose proof (in_map (sim_link t) _ _ L) as H. fold (sim_links t) in H. apply (LinkSim.far_of _ _ N) in H as [H _]. unfold sim_link in H at 1 2 3 4 5 6. cbn [fst snd ln_u ln_ud ln_v ln_vd ln_cap ln_delay] in H.
    rewrite G in H. unfold name_in in H. rewrite U, V, C, D in H. exact H.
  - pose proof (in_map (sim_link t) _ _ L) as H. fold (sim_links t) in H. apply (LinkSim.far_of _ _ N) in H as [_ H]. unfold sim_link in H at 1 2 3 4 5 6. cbn [fst snd ln_u ln_ud ln_v ln_vd ln_cap ln_delay] in H.
    rewrite get_link_sym, G in H. unfold name_in in H. rewrite U, V, C, D in H. exact H.
Qed.
Lemma net_links t x u v : Inv true t -> net_of t = Ok x -> In (u, v) (links t) -> both t x u v.
Proof.
  intros I H L. unfold net_of in H. destruct (wire_all_ok t (links t) I (map (fun n => (n, [])) (nodes t)) x [] ltac:(intros a i w K; rewrite empty_at in K; discriminate K) ltac:(intros ? ? []) H) as (_ & _ & B).
  apply B. exact L.
Qed.
(** Each end of a link in the simulation is a wire of the network. *)
Lemma far_wire t x a ad v dev c l : Inv true t -> (forall n, has_link n n t = false) -> net_of t = Ok x -> far (sim_links t) (a, ad) = Some (v, dev, c, l) ->
  exists u w c0 l0, a = number u (nodes t) /\ v = number w (nodes t) /\ In u (nodes t) /\ In w (nodes t) /\ wire_at x u ad = Some (mkWire w dev c0 l0) /\ c = cap c0 /\ l = delay l0.
Proof.
  intros I NS N F. pose proof (sim_NoDup t I NS) as ND.
  assert (E : In (a, ad) (ends (sim_links t))).
  { assert (Q : forall p q : nat * string, {p = q} + {p <> q}) by (intros [p1 p2] [q1 q2]; destruct (Nat.eq_dec p1 q1), (string_dec p2 q2); [left; congruence|right; congruence..]).
    destruct (in_dec Q (a, ad) (ends (sim_links t))) as [E|E]; [exact E|]. rewrite (far_none _ _ E) in F. discriminate F. }
  rewrite ends_sim in E. apply in_flat_map in E as ([p q] & L & E). pose proof (net_links t x p q I N L) as (d & ui & vi & c0 & l0 & G & U & V & C & D & H1 & H2).
  destruct (link_facts true t p q I L) as (_ & _ & _ & _ & _ & _ & _ & Np & Nq).
  unfold sim_link in E. cbn [fst snd ln_u ln_ud ln_v ln_vd] in E. rewrite G in E. unfold name_in in E. rewrite U, V in E. destruct E as [E|[E|[]]]; injection E as <- <-.
  - pose proof (eq_trans (eq_sym (sim_far t p q d ui vi c0 l0 I NS G U V C D)) F) as F2. injection F2 as <- <- <- <-. exists p, q, c0, l0. repeat (split; [assumption || reflexivity|]). auto.
  - rewrite get_link_sym in G. pose proof (eq_trans (eq_sym (sim_far t q p d vi ui c0 l0 I NS G V U C D)) F) as F2. injection F2 as <- <- <- <-. exists q, p, c0, l0. repeat (split; [assumption || reflexivity|]). auto.
Qed.
End Values.
