(** Proofs about the reports of failed outputs. *)
From Verif Require Import BaseLemmas CodecLemmas Dict DictLemmas PacketModel NetModel TestModel TestSpec TestMatch TestRun DiagModel DiagSpec.
From Coq Require Import Permutation. From Coq Require Ascii. Import Ascii (ascii, nat_of_ascii). Import Ascii.AsciiSyntax.
Delimit Scope char_scope with char.
#[local] Open Scope string_scope.
#[local] Open Scope list_scope.

Ltac ok_split H := let E := fresh "E" in match type of H with bindr ?e _ = Ok _ => destruct e eqn:E; [cbn [bindr] in H|discriminate H] end.

(** ** The diagnosis and the comparison agree *)
Lemma diag_attrs_differs names x y : differs names x y = (d <- diag_attrs names x y;; Ok (match d with [] => false | _ => true end)).
Proof. induction names as [|a t IH]; [reflexivity|]. cbn [differs diag_attrs].
  destruct (getattr x a) as [u|e]; cbn [bindr]; [|reflexivity]. destruct (getattr y a) as [v|e]; cbn [bindr]; [|reflexivity].
  destruct (aval_ne u v) as [d|e]; cbn [bindr]; [|reflexivity]. destruct d; cbn [andb orb].
  - destruct (aval_shows u && aval_shows v); cbn [negb]; [|reflexivity]. rewrite IH. destruct (diag_attrs t x y) as [l|e]; cbn [bindr]; [|reflexivity].
    destruct l; reflexivity.
  - rewrite IH. destruct (diag_attrs t x y) as [l|e]; cbn [bindr]; [|reflexivity]. destruct l; reflexivity. Qed.
Lemma diag_hdrs_differ m r : forall p, attrs_differ m r p = (d <- diag_hdrs m r p;; Ok (match d with [] => false | _ => true end)).
Proof. induction r as [|x r IH]; intros [|y p]; try reflexivity. cbn [attrs_differ diag_hdrs]. rewrite diag_attrs_differs.
  destruct (diag_attrs _ x y) as [d|e]; cbn [bindr]; [|reflexivity]. rewrite IH. destruct (diag_hdrs m r p) as [l|e]; cbn [bindr]; [|reflexivity].
  destruct d, l; reflexivity. Qed.
Lemma diag_types_same r : forall i p, same_types r p = match diag_types i r p with None => true | Some _ => false end.
Proof. induction r as [|x r IH]; intros i [|y p]; try reflexivity. cbn [same_types diag_types]. destruct (cls_eqb _ _); cbn [andb]; [apply IH|reflexivity]. Qed.
Lemma compare_diagnose m r p : TestModel.compare m r p = (d <- diagnose m r p;; Ok (match d with None => true | Some _ => false end)).
Proof. unfold TestModel.compare, diagnose. rewrite (diag_types_same r 0 p). destruct (diag_types 0 r p); [reflexivity|]. rewrite diag_hdrs_differ.
  destruct (diag_hdrs m r p) as [l|e]; cbn [bindr]; [|reflexivity]. destruct l; reflexivity. Qed.
Lemma preds_results l p : eval_preds l p = (c <- pred_results l p;; Ok (forallb (fun b => b) c)).
Proof. induction l as [|f l IH]; [reflexivity|]. cbn [eval_preds pred_results]. destruct (f p) as [a|e]; cbn [bindr]; [|reflexivity]. rewrite IH.
  destruct (pred_results l p); reflexivity. Qed.
Lemma results_spec l p : forall c, pred_results l p = Ok c -> Forall2 (fun f b => f p = Ok b) l c.
Proof. induction l as [|f l IH]; intros c H; cbn [pred_results] in H; [apply ok_inj in H; subst; constructor|]. ok_split H. ok_split H. apply ok_inj in H. subst. constructor; auto. Qed.
Lemma not_all_true c : forallb (fun b : bool => b) c = false -> In false c.
Proof. induction c as [|[] c IH]; cbn; intros H; [discriminate|auto|auto]. Qed.
Lemma all_true_not c : forallb (fun b : bool => b) c = true -> ~ In false c.
Proof. intros H I. rewrite forallb_forall in H. specialize (H _ I). discriminate. Qed.

(** ** Matching and reporting *)
Lemma report_none v m p : report v m p = Ok None <-> exists p', m_match m p = Ok (true, p').
Proof. unfold report, m_match. destruct (pkt_to_bytes p) as [[p' b]|e]; cbn [bindr]; [|split; [discriminate|intros (? & H); discriminate H]].
  destruct (pkt_to_bytes (m_ref m)) as [[r' rb]|e]; cbn [bindr]; [|split; [discriminate|intros (? & H); discriminate H]].
  rewrite compare_diagnose, preds_results. destruct (diagnose m r' p') as [d|e]; cbn [bindr]; [|split; [discriminate|intros (? & H); discriminate H]].
  destruct (pred_results (m_preds m) p') as [c|e]; cbn [bindr]; [|split; [discriminate|intros (? & H); discriminate H]].
  destruct d as [d|]; cbn [andb].
  - split; [|intros (? & H); discriminate H]. intros H. ok_split H. discriminate H.
  - destruct (forallb _ c); [split; [exists p'; reflexivity|reflexivity]|]. split; [|intros (? & H); discriminate H]. intros H. ok_split H. discriminate H. Qed.
Lemma show_showpkt wc p : showpkt wc p = (q <- show wc p;; Ok tt).
Proof. unfold showpkt, show. destruct (star_all wc _) as [q|e]; cbn [bindr]; [|reflexivity]. destruct (all_ok (map show_starred q)) as [[]|e]; reflexivity. Qed.
(** Without verbose output: a failed match is reported, or the exception of the model of C33 is raised. *)
Lemma report_some m p p' : m_match m p = Ok (false, p') ->
  (exists x, report false m p = Ok (Some x) /\ fail_exn m p' = ETestFail) \/ (exists e, report false m p = Err e /\ fail_exn m p' = e).
Proof. unfold report, m_match, fail_exn. intros H. destruct (pkt_to_bytes p) as [[q b]|e]; cbn [bindr] in *; [|discriminate H].
  destruct (pkt_to_bytes (m_ref m)) as [[r' rb]|e]; cbn [bindr] in *; [|discriminate H].
  rewrite compare_diagnose, preds_results in H. destruct (diagnose m r' q) as [d|e] eqn:D; cbn [bindr] in *; [|discriminate H].
  destruct (pred_results (m_preds m) q) as [c|e]; cbn [bindr] in *; [|discriminate H]. apply ok_pair_inj in H as [H ->].
  rewrite H. rewrite compare_diagnose, D. cbn [bindr]. destruct d as [d|].
  - left. eexists. split; reflexivity.
  - rewrite show_showpkt. destruct (show (m_wc m) p') as [s|e]; cbn [bindr]; [left; eexists; split; reflexivity|right; exists e; auto]. Qed.

(** ** The diagnosis is true *)
Lemma compared_In m c a : In a (comparison_attrs m c) <-> compared m c a.
Proof. unfold comparison_attrs, compared. apply filter_spec. destruct (m_exact m); [apply attr_names_nodup|apply inexact_names_nodup]. Qed.
Lemma diag_attrs_spec x y : forall l ds, diag_attrs l x y = Ok ds -> forall w, In w ds <->
  In (g_attr w) l /\ getattr x (g_attr w) = Ok (g_should w) /\ getattr y (g_attr w) = Ok (g_is w) /\ aval_ne (g_should w) (g_is w) = Ok true.
Proof. induction l as [|a l IH]; intros ds H w; cbn [diag_attrs] in H; [apply ok_inj in H; subst; cbn [In]; tauto|].
  ok_split H. ok_split H. ok_split H. destruct a2.
  - destruct (_ && _); [|discriminate H]. ok_split H. apply ok_inj in H. subst ds. cbn [In]. rewrite (IH _ eq_refl w). split.
    + intros [<-|(A & B & C & D)]; [cbn [g_attr g_should g_is]; auto|auto].
    + intros ([A|A] & B & C & D); [|tauto]. left. destruct w as [n i s]. cbn [g_attr g_should g_is] in *. subst n.
      rewrite E in B. rewrite E0 in C. apply ok_inj in B, C. congruence.
  - rewrite (IH _ H w). cbn [In]. split; [tauto|]. intros ([A|A] & B & C & D); [|tauto]. rewrite <- A in B, C. rewrite E in B. rewrite E0 in C.
    apply ok_inj in B, C. subst. congruence. Qed.
Lemma diag_attrs_wrong m x y ds : diag_attrs (comparison_attrs m (class_of x)) x y = Ok ds -> wrong_in m x y ds.
Proof. intros H w. rewrite <- compared_In. exact (diag_attrs_spec x y _ _ H w). Qed.
Lemma diag_hdrs_listing m r : forall p l, map class_of r = map class_of p -> diag_hdrs m r p = Ok l -> listing m r p l.
Proof. induction r as [|x r IH]; intros [|y p] l C H; try discriminate C; cbn [diag_hdrs] in H; [apply ok_inj in H; subst; constructor|].
  injection C as C1 C2. ok_split H. ok_split H. apply ok_inj in H. specialize (IH p _ C2 E0). apply diag_attrs_wrong in E. destruct a as [|w a]; subst l.
  - constructor; assumption.
  - constructor; [assumption|discriminate|assumption]. Qed.
Lemma diag_types_truth m r p : forall i r0 p0, map class_of r0 = map class_of p0 -> List.length r0 = i -> forall d, diag_types i r p = Some d -> truth m (r0 ++ r) (p0 ++ p) d.
Proof. revert p. induction r as [|x r IH]; intros [|y p] i r0 p0 C L d H; cbn [diag_types] in H; try discriminate H.
  - injection H as <-. cbn [truth]. split; [discriminate|]. rewrite !map_app, C, app_nil_r. reflexivity.
  - injection H as <-. cbn [truth]. split; [discriminate|]. rewrite !map_app, C, app_nil_r. reflexivity.
  - destruct (cls_eqb (class_of x) (class_of y)) eqn:Q.
    + apply cls_eqb_eq in Q. replace (r0 ++ x :: r) with ((r0 ++ [x]) ++ r) by (rewrite <- app_assoc; reflexivity).
      replace (p0 ++ y :: p) with ((p0 ++ [y]) ++ p) by (rewrite <- app_assoc; reflexivity). apply (IH p (S i)); [|rewrite app_length; cbn; lia|exact H].
      rewrite !map_app, C. cbn [map]. congruence.
    + injection H as <-. cbn [truth]. assert (L' : List.length p0 = i) by (rewrite <- (map_length class_of p0), <- C, map_length; exact L).
      split; [intros E; apply cls_eqb_eq in E; congruence|]. split; [|split].
      * rewrite !firstn_app. rewrite L, L'. replace (i - i)%nat with 0%nat by lia. rewrite !firstn_O, !app_nil_r. rewrite !firstn_all2 by lia. exact C.
      * rewrite map_app, nth_error_app2 by (rewrite map_length; lia). rewrite map_length, L. replace (i - i)%nat with 0%nat by lia. reflexivity.
      * rewrite map_app, nth_error_app2 by (rewrite map_length; lia). rewrite map_length, L'. replace (i - i)%nat with 0%nat by lia. reflexivity. Qed.
Lemma diag_types_none r : forall i p, diag_types i r p = None -> map class_of r = map class_of p.
Proof. intros i p H. apply same_types_spec. rewrite (diag_types_same r i p), H. reflexivity. Qed.
Lemma diagnose_truth m r p d : diagnose m r p = Ok (Some d) -> truth m r p d.
Proof. unfold diagnose. intros H. destruct (diag_types 0 r p) as [d'|] eqn:T.
  - apply ok_inj in H. injection H as ->. exact (diag_types_truth m r p 0 [] [] eq_refl eq_refl d T).
  - apply diag_types_none in T. ok_split H. apply ok_inj in H. destruct a as [|w l]; [discriminate H|]. injection H as <-. cbn [truth].
    split; [discriminate|]. split; [exact T|]. apply diag_hdrs_listing; assumption. Qed.
Lemma diagnose_none m r p : diagnose m r p = Ok None -> map class_of r = map class_of p /\ listing m r p [].
Proof. unfold diagnose. intros H. destruct (diag_types 0 r p) eqn:T; [discriminate H|]. apply diag_types_none in T. ok_split H.
  destruct a as [|w l]; [|discriminate H]. split; [exact T|]. apply diag_hdrs_listing; assumption. Qed.
Lemma star_first_fst c a : forall p q, star_first c a p = Ok q -> map fst q = map fst p.
Proof. induction p as [|[h l] p IH]; intros q H; cbn [star_first] in H; [apply ok_inj in H; subst; reflexivity|]. destruct (isinst h c).
  - destruct (_ || _); [|discriminate H]. apply ok_inj in H. subst. reflexivity.
  - ok_split H. apply ok_inj in H. subst. cbn [map fst]. f_equal. apply IH. reflexivity. Qed.
Lemma star_all_fst wc : forall p q, star_all wc p = Ok q -> map fst q = map fst p.
Proof. induction wc as [|[c a] wc IH]; intros p q H; cbn [star_all] in H; [apply ok_inj in H; subst; reflexivity|]. ok_split H.
  rewrite (IH _ _ H). eapply star_first_fst; eassumption. Qed.
Lemma show_fst wc p s : show wc p = Ok s -> map fst s = p.
Proof. unfold show. intros H. ok_split H. ok_split H. apply ok_inj in H. subst. rewrite (star_all_fst _ _ _ E), map_map. cbn [fst]. apply map_id. Qed.
Lemma report_honest v m p x : report v m p = Ok (Some x) ->
  exists p' b r' rb, pkt_to_bytes p = Ok (p', b) /\ pkt_to_bytes (m_ref m) = Ok (r', rb) /\ honest m r' p' x.
Proof. unfold report. intros H. destruct (pkt_to_bytes p) as [[p' b]|e]; cbn [bindr] in H; [|discriminate H].
  destruct (pkt_to_bytes (m_ref m)) as [[r' rb]|e] eqn:R; cbn [bindr] in H; [|discriminate H].
  exists p', b, r', rb. split; [reflexivity|]. split; [reflexivity|].
  ok_split H. ok_split H. destruct (_ && _) eqn:A; [discriminate H|]. ok_split H. apply ok_inj in H. injection H as <-.
  unfold honest. cbn [e_exact e_wild e_preds e_contents e_body]. split; [reflexivity|].
  split; [destruct (m_wc m); split; intros K; try reflexivity; try discriminate; contradiction|]. split; [apply results_spec; exact E0|].
  destruct a as [d|].
  - assert (X : exists t, a1 = BDiag d t).
    { destruct v; [|apply ok_inj in E1; subst; eexists; reflexivity]. destruct (pkt_shows p'); [|discriminate E1]. ok_split E1. apply ok_inj in E1. subst. eexists. reflexivity. }
    destruct X as [t ->]. split; [reflexivity|]. apply diagnose_truth. exact E.
  - ok_split E1. apply ok_inj in E1. subst a1. cbn [andb] in A. split; [reflexivity|]. split; [apply not_all_true; exact A|].
    split; [eapply show_fst; eassumption|]. apply diagnose_none. exact E. Qed.

(** ** What counts as a difference *)
Lemma ne_plain x y : plain x -> plain y -> (aval_ne x y = Ok true <-> x <> y).
Proof. intros P Q. assert (D : forall b : bool, Ok (negb b) = Ok true <-> b = false).
  { intros []; cbn; split; intros H; try reflexivity; discriminate. }
  destruct x, y; try contradiction; cbn [aval_ne]; try (split; [discriminate|reflexivity]);
    try rewrite D; try (split; [intros _ H; discriminate H|reflexivity]).
  - rewrite Z.eqb_neq. split; congruence.
  - split; [intros H K; injection K as ->; rewrite bytes_eqb_refl in H; discriminate|]. intros H. destruct (bytes_eqb b b0) eqn:E; [|reflexivity].
    apply bytes_eqb_eq in E. subst. contradiction.
  - destruct b, b0; cbn; split; intros H; try reflexivity; try discriminate; contradiction.
  - split; [discriminate|congruence]. Qed.
Lemma ne_differs x y : aval_ne x y = Ok true -> x <> y.
Proof. intros H <-. destruct x; cbn [aval_ne] in H.
  - rewrite Z.eqb_refl in H. discriminate.
  - rewrite bytes_eqb_refl in H. discriminate.
  - destruct b; discriminate.
  - discriminate.
  - assert (K : list_eqb ipopt_eqb os os = true).
    { apply (list_eqb_spec _ _ ipopt_eqb_spec). clear H. induction os; constructor; [constructor|assumption]. }
    rewrite K in H. discriminate.
  - assert (K : forall e, IcmpModel.data_eqb d d = Ok e -> e = true).
    { clear. intros e H. destruct d as [k ?| | | | | | | | | | |]; cbn [IcmpModel.data_eqb] in H; try destruct k; apply ok_inj in H; rewrite ?Z.eqb_refl, ?bytes_eqb_refl in H; auto. }
    ok_split H. rewrite (K _ eq_refl) in H. discriminate. Qed.

(** ** Ports *)
Lemma lower_same c : (nat_of_ascii c < 65 \/ 90 < nat_of_ascii c)%nat -> lower c = c.
Proof. intros H. unfold lower. destruct (Nat.leb_spec 65 (nat_of_ascii c)); cbn [andb]; [|reflexivity]. destruct (Nat.leb_spec (nat_of_ascii c) 90); [lia|reflexivity]. Qed.
Lemma smap_lower s : no_capitals s -> smap lower s = s.
Proof. induction s as [|c s IH]; cbn [no_capitals smap]; [reflexivity|]. intros [A B]. rewrite lower_same, IH by assumption. reflexivity. Qed.
Lemma no_capitals_app a b : no_capitals a -> no_capitals b -> no_capitals (a ++ b)%string.
Proof. induction a as [|c a IH]; cbn [String.append no_capitals]; [auto|]. intros [A B] C. split; auto. Qed.
Lemma no_capitals_concat l : Forall no_capitals l -> no_capitals (String.concat "," l).
Proof. induction 1 as [|x l Hx Hl IH]; [exact I|]. destruct l as [|y l]; cbn [String.concat]; [exact Hx|].
  apply no_capitals_app; [exact Hx|]. apply no_capitals_app; [cbn; split; [left; lia|exact I]|exact IH]. Qed.
Ltac small := repeat (first [exact I | split; [cbn; lia|]]).
Lemma no_capitals_plural {A} (l : list A) : no_capitals (plural l).
Proof. destruct l as [|? [|? ?]]; cbn [plural]; small. Qed.
Lemma capitalize_rest c s : no_capitals s -> capitalize (String c s) = String (upper c) s.
Proof. intros H. cbn [capitalize]. rewrite smap_lower by exact H. reflexivity. Qed.
Lemma append_assoc a b c : ((a ++ b) ++ c)%string = (a ++ b ++ c)%string.
Proof. induction a as [|x a IH]; cbn [String.append]; [reflexivity|]. rewrite IH. reflexivity. Qed.
Lemma append_nil a : (a ++ "")%string = a.
Proof. induction a as [|x a IH]; cbn [String.append]; [reflexivity|]. rewrite IH. reflexivity. Qed.
Lemma cap_message sent wait : Forall no_capitals sent -> Forall no_capitals wait -> capitalize (message sent wait) = sentence sent wait.
Proof. intros A B.
  assert (NS := no_capitals_concat _ A). assert (NW := no_capitals_concat _ B). assert (PS := no_capitals_plural sent). assert (PW := no_capitals_plural wait).
  assert (G : forall t, no_capitals t -> capitalize ("y" ++ t)%string = ("Y" ++ t)%string) by (intros t T; exact (capitalize_rest "y"%char t T)).
  assert (S1 : no_capitals "our code has sent a packet on port") by small.
  assert (S2 : no_capitals "our code did not send packet") by small.
  assert (S3 : no_capitals " ") by small. assert (S4 : no_capitals ", but ") by small. assert (S5 : no_capitals "not ") by small.
  assert (S6 : no_capitals "on port") by small.
  destruct sent as [|s sent], wait as [|w wait].
  - reflexivity.
  - transitivity (capitalize ("y" ++ ("our code did not send packet" ++ plural (w :: wait) ++ " " ++ "on port" ++ plural (w :: wait) ++ " " ++ String.concat "," (w :: wait)))%string).
    { f_equal. unfold message. rewrite !append_assoc. reflexivity. }
    rewrite G; [reflexivity|]. repeat (apply no_capitals_app; [assumption|]). exact NW.
  - transitivity (capitalize ("y" ++ ("our code has sent a packet on port" ++ plural (s :: sent) ++ " " ++ String.concat "," (s :: sent)))%string).
    { f_equal. unfold message. rewrite !append_nil. reflexivity. }
    rewrite G; [reflexivity|]. repeat (apply no_capitals_app; [assumption|]). exact NS.
  - transitivity (capitalize ("y" ++ ("our code has sent a packet on port" ++ plural (s :: sent) ++ " " ++ String.concat "," (s :: sent) ++ ", but " ++ "not " ++ "on port" ++ plural (w :: wait) ++ " " ++ String.concat "," (w :: wait)))%string).
    { f_equal. unfold message. rewrite !append_assoc. reflexivity. }
    rewrite G. 2:{ repeat (apply no_capitals_app; [assumption|]). exact NW. }
    unfold sentence, names. rewrite !append_assoc. reflexivity. Qed.
Lemma event_reason_sentence o : Forall no_capitals (dkeys (oe_got o)) -> Forall no_capitals (dkeys (oe_wait o)) ->
  event_reason o = sentence (dkeys (oe_got o)) (dkeys (oe_wait o)).
Proof. apply cap_message. Qed.
Lemma dkeys_ddel_filter {V} k (d : dict V) : NoDup (dkeys d) -> dkeys (ddel k d) = filter (fun x => negb (str_eqb x k)) (dkeys d).
Proof. unfold dkeys. induction d as [|[k' v] d IH]; intros N; [reflexivity|]. cbn [ddel map fst filter] in *. inversion N as [|? ? Hn Hd]; subst.
  destruct (str_spec k k') as [->|Hk].
  - rewrite str_eqb_refl. cbn [negb]. clear -Hn. induction (map fst d) as [|x l IH]; [reflexivity|]. cbn [filter]. rewrite str_eqb_neq by (intros ->; apply Hn; left; reflexivity).
    cbn [negb]. f_equal. apply IH. intros H. apply Hn. right. exact H.
  - rewrite str_eqb_neq by congruence. cbn [negb map fst]. f_equal. apply IH. exact Hd. Qed.
Lemma filter_filter {A} (f g : A -> bool) l : filter f (filter g l) = filter (fun x => g x && f x) l.
Proof. induction l as [|x l IH]; [reflexivity|]. cbn [filter]. destruct (g x); cbn [filter andb]; [destruct (f x); rewrite IH; reflexivity|exact IH]. Qed.
Lemma attempts_keys l : forall o o' rs, NoDup (dkeys (oe_wait o)) -> (forall d, In d (dkeys (oe_wait o)) -> ~ In d (dkeys (oe_got o))) -> attempts o l = (o', rs) ->
  dkeys (oe_got o') = dkeys (oe_got o) ++ map fst (accepted l rs) /\
  dkeys (oe_wait o') = filter (fun d => negb (smem d (map fst (accepted l rs)))) (dkeys (oe_wait o)).
Proof. assert (F : forall l : list str, filter (fun _ => true) l = l) by (induction l0 as [|x l0 IH]; cbn; congruence).
  induction l as [|[d p] l IH]; intros o o' rs N J H; cbn [attempts] in H.
  - injection H as <- <-. cbn [accepted map]. split; [rewrite app_nil_r; reflexivity|]. symmetry. apply F.
  - destruct (out_match o d p) as [o1 x] eqn:E. destruct (attempts o1 l) as [o2 xs] eqn:A. injection H as <- <-. destruct x as [x|x].
    + destruct (out_match_ok _ _ _ _ _ E) as (m & p' & E1 & E2 & E3 & E4 & _).
      assert (Hd : In d (dkeys (oe_wait o))) by (unfold dkeys; apply in_map_iff; exists (d, m); split; [reflexivity|apply dget_In; exact E1]).
      assert (G : dkeys (oe_got o1) = dkeys (oe_got o) ++ [d]) by (rewrite E4; apply dkeys_dset_new; apply J; exact Hd).
      destruct (IH o1 o2 xs) as [I1 I2].
      * rewrite E3. apply ddel_NoDup. exact N.
      * intros d' H'. rewrite G, in_app_iff. rewrite E3, dkeys_ddel_filter in H' by exact N. apply filter_In in H' as [H1 H2]. intros [K|[K|[]]]; [exact (J _ H1 K)|].
        subst. rewrite str_eqb_refl in H2. discriminate.
      * exact A.
      * cbn [accepted map fst]. rewrite I1, I2, G, <- app_assoc. split; [reflexivity|]. rewrite E3, dkeys_ddel_filter, filter_filter by exact N.
        apply filter_ext. intros a. change (smem a (d :: map fst (accepted l xs))) with (str_eqb a d || smem a (map fst (accepted l xs))). rewrite negb_orb. reflexivity.
    + apply out_match_err in E. subst o1. cbn [accepted]. apply (IH o o2 xs N J A). Qed.
Lemma reason_after wait l o' rs : NoDup (dkeys wait) -> Forall no_capitals (dkeys wait) -> attempts (mkOut wait []) l = (o', rs) ->
  let sent := map fst (accepted l rs) in
  event_reason o' = sentence sent (filter (fun d => negb (smem d sent)) (dkeys wait)).
Proof. intros N C A sent. destruct (attempts_keys l (mkOut wait []) o' rs N (fun d _ H => H) A) as [K1 K2]. cbn [oe_got oe_wait] in K1, K2. cbn [dkeys map app] in K1. fold sent in K1, K2.
  rewrite event_reason_sentence; [rewrite K1, K2; reflexivity|rewrite K1|rewrite K2].
  - destruct (attempts_spec l _ _ _ (N : NoDup (dkeys (oe_wait (mkOut wait [])))) A) as (_ & S & _). apply Forall_forall. intros d Hd.
    unfold sent in Hd. apply in_map_iff in Hd as ([d' p] & Hd & Hi). cbn [fst] in Hd. subst d'. apply S in Hi as (m & Hm & _). cbn [oe_wait] in Hm.
    rewrite Forall_forall in C. apply C. unfold dkeys. apply in_map_iff. exists (d, m). split; [reflexivity|apply dget_In; exact Hm].
  - apply Forall_forall. intros d Hd. apply filter_In in Hd as [Hd _]. rewrite Forall_forall in C. exact (C d Hd). Qed.
Lemma verbose_shows m p x d q s : report true m p = Ok (Some x) -> e_body x = BDiag d (Some (q, s)) -> map fst s = q.
Proof. unfold report. intros H B. destruct (pkt_to_bytes p) as [[p' b]|e]; cbn [bindr] in H; [|discriminate H].
  destruct (pkt_to_bytes (m_ref m)) as [[r' rb]|e] eqn:R; cbn [bindr] in H; [|discriminate H].
  ok_split H. ok_split H. destruct (_ && _) eqn:A; [discriminate H|]. ok_split H. apply ok_inj in H. injection H as <-. cbn [e_body] in B. subst a1.
  destruct a as [d'|]; [|ok_split E1; discriminate E1]. destruct (pkt_shows p'); [|discriminate E1]. ok_split E1. apply ok_inj in E1. injection E1 as <- <- <-.
  eapply show_fst; eassumption. Qed.
