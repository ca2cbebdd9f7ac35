(** Proofs about what a union and a renamed topology contain. *)
From Verif Require Import BaseLemmas CodecLemmas EthAddrModel EthAddrProofs TopoModel TopoNames TopoProofs TopoSpec TopoInv TopoMore TopoAddr UnionModel UnionSpec UnionProofs.
#[local] Open Scope string_scope.
#[local] Open Scope Z_scope.
#[local] Open Scope list_scope.

Definition has_edge (es : list edge) (u v : str) (d : dict attr) : Prop := exists e, In e es /\ joins u v e = true /\ snd e = d.
Lemma link_edge t u v d : sep (tp_edges t) -> get_link u v t = Ok d <-> has_edge (tp_edges t) u v d.
Proof. intros S. split; [apply get_link_in|]. intros (e & E & J & D). unfold get_link. rewrite (find_sep _ _ _ _ S E J). rewrite D. reflexivity. Qed.
Lemma edge_listed b t u v d : Inv b t -> has_edge (edge_list t) u v d <-> has_edge (tp_edges t) u v d.
Proof. intros I. split; intros (e & E & J & D).
  - destruct (edge_list_in t e E) as (x & X & S & V). exists x. split; [exact X|]. split; [|congruence]. rewrite same_sym in S. eapply same_joins2; eauto.
  - destruct (inv_ends b t I e (fst (fst e)) E (or_introl eq_refl)) as (nd & j & G & _). apply dget_nodes in G. destruct (edge_list_all t e E G) as (x & X & S & V).
    exists x. split; [exact X|]. split; [eapply same_joins2; eauto|congruence]. Qed.
Lemma edge_ends b t e n : Inv b t -> In e (edge_list t) -> touches n e -> In n (nodes t).
Proof. intros I E T. destruct (edge_list_good b t e n I E T) as (nd & j & G & _). apply dget_nodes in G. exact G. Qed.
Lemma dget_app {V} k (a b : dict V) : dget k (a ++ b) = match dget k a with Some v => Some v | None => dget k b end.
Proof. induction a as [|[k' v] a IH]; [reflexivity|]. cbn [app dget]. destruct (str_eqb k k'); auto. Qed.
Lemma common_iff (a b : topo) : existsb (fun n => din n (tp_nodes a)) (nodes b) = true <-> exists n, In n (nodes a) /\ In n (nodes b).
Proof. rewrite existsb_exists. split; intros (n & A & B); exists n; [|]; (split; [|try assumption]); try (apply din_iff; exact A); try exact B. apply din_iff in B. exact B. Qed.
Theorem union_err a b : (exists n, In n (nodes a) /\ In n (nodes b)) <-> union false a b = Err EExc.
Proof. rewrite <- common_iff. unfold union. cbn [bindr]. destruct (existsb _ _); split; auto; discriminate. Qed.
Theorem union_ok a b : (forall n, In n (nodes a) -> ~ In n (nodes b)) <-> exists t, union false a b = Ok t.
Proof. split.
  - intros H. unfold union. cbn [bindr]. destruct (existsb _ _) eqn:E; [|eauto]. apply common_iff in E as (n & A & B). destruct (H n A B).
  - intros [t U] n A B. assert (E : union false a b = Err EExc) by (apply union_err; eauto). congruence. Qed.
Theorem union_joined b1 b2 a b t : Inv b1 a -> Inv b2 b -> union false a b = Ok t -> joined a b t.
Proof. intros I J U. assert (D : forall n, In n (nodes a) -> ~ In n (nodes b)) by (apply union_ok; eauto).
  unfold union in U. cbn [bindr] in U. destruct (existsb _ _); [discriminate|]. apply ok_inj in U. subst t. split; [|split; [|split]].
  - unfold nodes, dkeys. cbn [tp_nodes]. apply map_app.
  - intros k. unfold nodes_of. cbn [tp_nodes]. rewrite filter_app. apply map_app.
  - intros n i. unfold get_addresses. cbn [tp_nodes]. rewrite dget_app. destruct (smem n (nodes a)) eqn:S.
    + apply smem_In in S. destruct (dget n (tp_nodes a)) eqn:G; [reflexivity|]. apply dget_None in G. contradiction.
    + destruct (dget n (tp_nodes a)) eqn:G; [|reflexivity]. apply dget_nodes in G. apply smem_In in G. congruence.
  - intros u v d. rewrite link_edge; cbn [tp_edges].
    + rewrite (link_edge a) by apply I. rewrite (link_edge b) by apply J. rewrite <- (edge_listed b1 a) by exact I. rewrite <- (edge_listed b2 b) by exact J. unfold has_edge. split.
      * intros (e & E & R). apply in_app_or in E. destruct E as [E|E]; [left|right]; eauto.
      * intros [(e & E & R)|(e & E & R)]; exists e; (split; [apply in_or_app; auto|exact R]).
    + apply sep_app; [apply edge_list_sep; apply I|apply edge_list_sep; apply J|]. intros x y X Y. destruct (same x y) eqn:S; [|reflexivity]. exfalso.
      apply (D (fst (fst x))); [apply (edge_ends b1 a x); [exact I|exact X|left; reflexivity]|]. destruct y as [[p q] r]. unfold same in S. apply joins_iff in S.
      destruct S as [[S _]|[S _]]; rewrite S; (apply (edge_ends b2 b (p, q, r)); [exact J|exact Y|]); [left|right]; reflexivity. Qed.

(** ** Renaming *)
Lemma nodes_of_renamed p k ns : map fst (filter (fun x => kind_eqb (tn_kind (snd x)) k) (map (fun x : str * tnode => (rename p (fst x), snd x)) ns)) =
  map (rename p) (map fst (filter (fun x => kind_eqb (tn_kind (snd x)) k) ns)).
Proof. induction ns as [|[n d] ns IH]; [reflexivity|]. cbn [map filter fst snd]. destruct (kind_eqb (tn_kind d) k); cbn [map fst]; rewrite IH; reflexivity. Qed.
Theorem relabel_renamed b p a : Inv b a -> no_clash p a -> exists t, relabel p a = Ok t /\ Inv b t /\ renamed p a t.
Proof. intros I C. destruct (inv_relabel b p a I C) as (t & E & IT). exists t. split; [exact E|]. split; [exact IT|]. unfold relabel in E. destruct (mapr (relabel_edge p) (edge_list a)) as [es|] eqn:M; [|discriminate].
  cbn [bindr] in E. apply ok_inj in E. assert (EN : tp_nodes t = map (fun x => (rename p (fst x), snd x)) (tp_nodes a)) by (subst t; reflexivity). assert (EE : tp_edges t = es) by (subst t; reflexivity). clear E.
  split; [|split; [|split; [|split]]].
  - unfold nodes. rewrite EN. apply dkeys_rename.
  - intros k. unfold nodes_of. rewrite EN. apply nodes_of_renamed.
  - intros n i. unfold get_addresses. rewrite EN, dget_rename. reflexivity.
  - intros u v d G. apply (link_edge a) in G; [|apply I]. apply (edge_listed b a) in G; [|exact I]. destruct G as (x & X & J & D).
    pose proof (proj1 (mapr_ok _ _ _) M) as M2. destruct (Forall2_in_l _ _ _ _ M2 X) as (y & Y & R).
    assert (Y2 : fst y = (rename p (fst (fst x)), rename p (snd (fst x)))).
    { destruct x as [[x1 x2] dx]. cbn [relabel_edge] in R. destruct (relabel_attrs p x1 x2 dx); [|discriminate]. cbn [bindr] in R. apply ok_inj in R. subst y. reflexivity. }
    destruct (in_relabelled b p a es y I C M Y) as (x' & X' & A1 & A2 & A3 & A4).
    assert (x' = x).
    { assert (SL : sep (edge_list a)) by (apply edge_list_sep; apply I). apply (sep_unique _ SL); auto. rewrite Y2 in A1, A2. cbn [fst snd] in A1, A2. apply rename_inj in A1, A2.
      unfold same. destruct x as [[x1 x2] dx]. cbn [fst snd] in *. rewrite <- A1, <- A2. apply joins_iff. auto. }
    subst x'. exists (snd y). split.
    { apply link_edge; [apply IT|]. rewrite EE. exists y. split; [exact Y|]. split; [|reflexivity]. destruct y as [[y1 y2] dy]. cbn [fst snd] in *. injection Y2 as -> ->.
      destruct x as [[x1 x2] dx]. apply joins_iff in J. cbn [fst snd]. apply joins_iff. destruct J as [[-> ->]|[-> ->]]; auto. }
    assert (T : touches u x /\ touches v x) by (destruct x as [[x1 x2] dx]; apply joins_iff in J; unfold touches; cbn [fst snd]; intuition). destruct T as [T1 T2].
    split; [rewrite A3 by exact T1; congruence|]. split; [rewrite A3 by exact T2; congruence|]. intros k K.
    assert (RK : reserved k) by (unfold reserved; intuition).
    assert (NR : forall n, touches n x -> k <> n) by (intros n T <-; apply (inv_res b a I k); [apply (edge_ends b a x k I X T)|exact RK]).
    rewrite A4; [congruence|apply NR; left; reflexivity|apply NR; right; reflexivity| |]; intros ->; exact (rename_not_reserved _ _ RK).
  - intros u v H. apply has_link_in in H as (y & Y & J). rewrite EE in Y. destruct (in_relabelled b p a es y I C M Y) as (x & X & A1 & A2 & _).
    destruct y as [[y1 y2] dy]. destruct x as [[x1 x2] dx]. cbn [fst snd] in *. subst y1 y2.
    assert (HL : has_link x1 x2 a = true /\ has_link x2 x1 a = true).
    { assert (L : has_edge (tp_edges a) x1 x2 dx) by (apply (edge_listed b a); [exact I|]; exists (x1, x2, dx); split; [exact X|]; split; [apply joins_iff; auto|reflexivity]).
      destruct L as (e & E & Q & _). split; apply has_link_in; exists e; (split; [exact E|]); [exact Q|rewrite joins_sym; exact Q]. }
    apply joins_iff in J. destruct J as [[-> ->]|[-> ->]]; [exists x1, x2|exists x2, x1]; intuition. Qed.
Theorem union_renamed b1 b2 a b : Inv b1 a -> Inv b2 b -> no_clash (tp_name a) a -> no_clash (tp_name b) b ->
  (forall x y, In x (nodes a) -> In y (nodes b) -> rename (tp_name a) x <> rename (tp_name b) y) ->
  exists a' b' t, union true a b = Ok t /\ renamed (tp_name a) a a' /\ renamed (tp_name b) b b' /\ joined a' b' t.
Proof. intros I J C1 C2 N. destruct (relabel_renamed b1 _ a I C1) as (a' & A1 & A2 & A3). destruct (relabel_renamed b2 _ b J C2) as (b' & B1 & B2 & B3). exists a', b'.
  assert (U : exists t, union false a' b' = Ok t).
  { apply union_ok. destruct A3 as (-> & _). destruct B3 as (-> & _). intros n X Y. apply in_map_iff in X as (x & <- & X). apply in_map_iff in Y as (y & E & Y). exact (N x y X Y (eq_sym E)). }
  destruct U as [t U]. exists t. split; [|split; [exact A3|]; split; [exact B3|]; apply (union_joined b1 b2); assumption].
  rewrite union_ren. unfold ren_or. rewrite A1. cbn [bindr]. rewrite B1. exact U. Qed.
Lemma rename_apart a b x y : has_us a = false -> has_us b = false -> a <> b -> rename a x <> rename b y.
Proof. unfold rename. revert b. induction a as [|c a IH]; intros [|c' b] A B N E; cbn [append has_us] in *.
  - congruence.
  - injection E as E1 E2. subst c'. cbn in B. discriminate.
  - injection E as E1 E2. subst c. cbn in A. discriminate.
  - injection E as E1 E2. subst c'. apply orb_false_iff in A, B. apply (IH b); try tauto. congruence. Qed.
