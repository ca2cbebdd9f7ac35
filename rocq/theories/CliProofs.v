(** Proofs about the command line model. *)
From Coq Require Import Ascii.
From Verif Require Import BaseLemmas DictLemmas TopoModel TopoNames TopoSpec TopoProofs TopoInv TopoMore TopoAddr CliModel CliSpec.
#[local] Open Scope string_scope.
#[local] Open Scope list_scope.
#[local] Open Scope Z_scope.

(** ** Prefixes *)
Fixpoint prefixes (s : str) : list str := "" :: match s with EmptyString => [] | String c r => map (String c) (prefixes r) end.
Lemma starts_in s : forall p, starts s p = true -> In p (prefixes s).
Proof.
  unfold starts. induction s as [|c s IH]; intros [|a p] H; cbn [String.prefix prefixes] in *; try (left; reflexivity); try discriminate.
  destruct (ascii_dec a c) as [->|]; [|discriminate]. right. apply in_map. apply IH. exact H.
Qed.
Lemma in_starts s : forall p, In p (prefixes s) -> starts s p = true.
Proof.
  unfold starts. induction s as [|c s IH]; intros p H; cbn [prefixes] in H.
  - destruct H as [<-|[]]. reflexivity.
  - destruct H as [<-|H]; [reflexivity|]. apply in_map_iff in H as (q & <- & H). cbn [String.prefix]. destruct (ascii_dec c c); [|congruence]. apply IH, H.
Qed.

(** ** Which command a word runs *)
Ltac by_cases H := repeat (destruct H as [H|H]; [subst; try reflexivity; try discriminate; try tauto|]); try contradiction.
Definition resolve (w : str) : option str :=
  if existsb (str_eqb w) (commands ++ ["EOF"; "help"]) then Some w else find_command w.
Section Texts.
Context (capp dlyp : str -> res (option Z)).
#[local] Notation line := (line capp dlyp).
#[local] Notation session := (session capp dlyp).
#[local] Notation command := (command capp dlyp).
Lemma line_resolve ans w r c : line ans (w :: r) c = match resolve w with Some x => match command x ans r c with Some y => y | None => stay c end | None => stay c end.
Proof.
  unfold resolve. cbn [commands app existsb]. unfold CliModel.line. unfold CliModel.command at 1.
  repeat match goal with |- context [str_eqb w ?x] => destruct (str_spec w x) as [->|?]; [cbn [orb]; reflexivity|] end.
  cbn [orb]. destruct (find_command w); reflexivity.
Qed.
Lemma resolve_in (w x : str) : resolve w = Some x -> In w (commands ++ ["EOF"; "help"]) \/ (In x abbreviated /\ In w (prefixes x) /\ find_command w = Some x).
Proof.
  unfold resolve. destruct (existsb _ _) eqn:E; intros H.
  - left. apply existsb_exists in E as (y & Hy & K). destruct (str_spec w y); [subst; exact Hy|discriminate].
  - right. pose proof H as F. unfold find_command in H. apply find_some in H as [A B]. split; [exact A|]. split; [apply starts_in, B|exact F].
Qed.
Lemma resolve_set w : resolve w = Some "set" -> In w ["set"; "se"].
Proof.
  intros H. destruct (resolve_in _ _ H) as [K|(_ & K & _)]; cbn [commands app In prefixes map] in K;
  repeat (destruct K as [<-|K]; [try discriminate H; cbn; tauto|]); contradiction.
Qed.
Lemma resolve_load w : resolve w = Some "load" -> In w ["load"; "loa"; "lo"; "l"].
Proof.
  intros H. destruct (resolve_in _ _ H) as [K|(_ & K & _)]; cbn [commands app In prefixes map] in K;
  repeat (destruct K as [<-|K]; [try discriminate H; cbn; tauto|]); contradiction.
Qed.
Lemma resolve_add w : resolve w = Some "add" -> In w ["add"; "ad"; "a"].
Proof.
  intros H. destruct (resolve_in _ _ H) as [K|(_ & K & _)]; cbn [commands app In prefixes map] in K;
  repeat (destruct K as [<-|K]; [try discriminate H; cbn; tauto|]); contradiction.
Qed.
(** Every line runs one of the commands. *)
Lemma line_elim (P : result -> Prop) ans ws c :
  P (stay c) -> (forall r, P (do_show r c)) -> (forall w r, ws = w :: r -> In w ["set"; "se"] -> P (do_set capp dlyp r c)) ->
  (forall r, P (do_sendeth r c)) -> (forall w r, ws = w :: r -> In w ["load"; "loa"; "lo"; "l"] -> P (do_load r ans c)) -> (forall r, P (do_save r c)) ->
  (forall r, P (do_exec r c)) -> (forall w r, ws = w :: r -> In w ["add"; "ad"; "a"] -> P (do_add capp dlyp r c)) -> (forall r, P (do_remove r c)) -> (forall r, P (do_replay r c)) ->
  P (do_exit ans c) -> P (line ans ws c).
Proof.
  intros H0 H1 H2 H3 H4 H5 H6 H7 H8 H9 HE. destruct ws as [|w r]; [exact H0|]. rewrite line_resolve. destruct (resolve w) as [x|] eqn:R; [|exact H0].
  unfold CliModel.command.
  repeat match goal with |- context [str_eqb x ?y] => destruct (str_spec x y) as [->|?]; [first [apply H0|apply H1|apply (H2 w); [reflexivity|apply resolve_set, R]|apply H3|apply (H4 w); [reflexivity|apply resolve_load, R]|apply H5|apply H6|apply (H7 w); [reflexivity|apply resolve_add, R]|apply H8|apply H9|apply HE]|] end.
  exact H0.
Qed.

(** ** Unsaved changes *)
Definition kept (t0 : topo) (x : result) : Prop := snd (fst x) = Stay -> c_unsaved (fst (fst x)) = false -> c_topo (fst (fst x)) = t0 \/ stored (fst (fst x)).
Lemma kept_stay t0 c : (c_unsaved c = false -> c_topo c = t0 \/ stored c) -> kept t0 (stay c).
Proof. intros H _. exact H. Qed.
Lemma kept_changed t0 c : kept t0 (changed c).
Proof. unfold changed, kept. destruct (rebuild _ _); cbn; intros _ H; discriminate H. Qed.
Lemma set_case w what a b r : In w ["set"; "se"] -> starts "node" what = false -> starts "link" what = true -> set_link_line (w :: what :: a :: b :: r).
Proof.
  intros Hw N S. exists w, what, (a :: b :: r). split; [reflexivity|]. split; [exact Hw|]. apply starts_in in S. cbn [prefixes map In] in S.
  destruct S as [<-|S]; [discriminate N|]. repeat (destruct S as [<-|S]; [cbn; tauto|]). contradiction.
Qed.
Lemma kept_line t0 ans ws c : ~ set_link_line ws -> (c_unsaved c = false -> c_topo c = t0 \/ stored c) -> kept t0 (line ans ws c).
Proof.
  intros NL K. apply line_elim.
  - apply kept_stay, K.
  - intros [|what r]; [apply kept_stay, K|]. unfold do_show. destruct (starts _ _); [|apply kept_stay, K]. destruct (all_labelled _); [apply kept_stay, K|]. intros H; discriminate H.
  - intros w r -> Hw. unfold do_set. destruct r as [|what [|a [|b r]]]; try (apply kept_stay, K). destruct (_ <? _)%nat; [apply kept_stay, K|].
    destruct (starts "node" what) eqn:N; [apply kept_stay, K|]. destruct (starts "link" what) eqn:S; [|apply kept_stay, K]. exfalso. apply NL, set_case; assumption.
  - intros r. unfold do_sendeth. destruct r as [|n [|? ?]]; try (apply kept_stay, K). destruct (din _ _); [|apply kept_stay, K]. destruct (din _ _); [apply kept_stay, K|intros H; discriminate H].
  - intros w r _ _. unfold do_load. destruct r as [|f [|? ?]]; try (apply kept_stay, K). destruct (_ && _); [intros _; exact K|].
    destruct (dget f (c_disk c)) as [[s| |]|] eqn:G; [|intros H; discriminate H..|intros _; exact K]. destruct (unserialize s) as [t|] eqn:U; [|intros H; discriminate H].
    unfold kept. cbn [fst snd]. unfold restart. destruct (net_stop _) as [n|]; [|intros H; discriminate H]. cbn [c_topo]. destruct (rebuild t n); [|intros H; discriminate H].
    cbn. intros _ _. right. exists f, s. split; [exact G|]. right. exact U.
  - intros r. unfold do_save. destruct r as [|f [|? ?]]; try (apply kept_stay, K). intros _ _. right. exists f, (serialize (c_topo c)). cbn. rewrite dget_dset_same. auto.
  - intros r. unfold do_exec. destruct r as [|f [|? ?]]; try (apply kept_stay, K). unfold kept. cbn [fst snd]. unfold restart. destruct (net_stop _) as [n|]; [|intros H; discriminate H].
    destruct (rebuild _ n); [|intros H; discriminate H]. cbn. intros _. exact K.
  - intros w r _ _. unfold do_add. destruct r as [|what r]; [apply kept_stay, K|].
    assert (A : forall k, kept t0 (add_kind k r c)). { intros k. unfold add_kind. destruct (add _ _ _) as [t [x|e]]; [apply kept_changed|intros H; discriminate H]. }
    destruct (starts _ _); [apply A|]. destruct (starts _ _); [apply A|]. destruct (starts _ _); [apply A|]. destruct (starts _ _); [|apply kept_stay, K].
    destruct r as [|u [|v s]]; try (apply kept_stay, K). destruct (_ <? _)%nat; [apply kept_stay, K|apply kept_changed].
  - intros r. unfold do_remove. destruct r as [|what [|a r]]; try (apply kept_stay, K). destruct (_ || _ || _ || _).
    + destruct r; [apply kept_changed|apply kept_stay, K].
    + destruct (_ || _); [|apply kept_stay, K]. destruct r as [|b [|? ?]]; try (apply kept_stay, K). apply kept_changed.
  - intros r. unfold do_replay. destruct r as [|f [|n [|i [|? ?]]]]; try (apply kept_stay, K). destruct (dget f _) as [x|]; [|apply kept_stay, K].
    destruct (dget n _) as [nd|]; [|apply kept_stay, K]. destruct (din _ _); [|apply kept_stay, K]. destruct x as [s|[|k]|]; try (intros H; discriminate H); [apply kept_stay, K|].
    destruct (emit n i c); [intros H; discriminate H|apply kept_stay, K].
  - unfold do_exit. destruct (_ && _); [intros _; exact K|]. destruct (net_stop _); intros H; discriminate H.
Qed.
Lemma kept_session t0 h : forall c c', (forall ws a, In (ws, a) h -> ~ set_link_line ws) -> (c_unsaved c = false -> c_topo c = t0 \/ stored c) ->
  session h c = (c', Stay) -> c_unsaved c' = false -> c_topo c' = t0 \/ stored c'.
Proof.
  induction h as [|[ws a] r IH]; intros c c' N K H; cbn [CliModel.session] in H.
  - injection H as <-. exact K.
  - pose proof (kept_line t0 a ws c (N ws a (or_introl eq_refl)) K) as L. destruct (line a ws c) as [[c1 o] b].
    destruct o; [|discriminate H..]. apply (IH c1); [intros ? ? ?; eapply N; right; eassumption|intros U; apply L; [reflexivity|exact U]|exact H].
Qed.
Lemma start_new t disk c : start t disk = Ok c -> c_topo c = t /\ c_unsaved c = false /\ c_disk c = disk /\ exists x, net_of t = Ok x /\ c_net c = mkNet true x.
Proof. unfold start, rebuild. cbn [net_stop nt_up nt_nodes bindr]. destruct (net_of t) as [x|]; [|discriminate]. cbn [bindr]. intros H; injection H as <-. cbn. eauto 10. Qed.
Lemma asks t0 disk c0 h c : start t0 disk = Ok c0 -> (forall ws a, In (ws, a) h -> ~ set_link_line ws) -> session h c0 = (c, Stay) ->
  c_topo c <> t0 -> ~ stored c -> c_unsaved c = true.
Proof.
  intros S N H T D. apply start_new in S as (S1 & S2 & _). destruct (c_unsaved c) eqn:U; [reflexivity|].
  destruct (kept_session t0 h c0 c N ltac:(intros _; left; exact S1) H U); contradiction.
Qed.
(** Answering no leaves everything as it is. *)
Lemma answer_no ws c c' o : line false ws c = (c', o, true) -> c' = c /\ o = Stay.
Proof.
  revert c' o. apply (line_elim (fun x => forall c' o, x = (c', o, true) -> c' = c /\ o = Stay)).
  - intros ? ? H; discriminate H.
  - intros r c' o. unfold do_show. destruct r as [|what r]; [discriminate|]. destruct (starts _ _); [|discriminate]. destruct (all_labelled _); discriminate.
  - intros w r _ _ c' o. unfold do_set. destruct r as [|what [|a [|b r]]]; try discriminate. destruct (_ <? _)%nat; [discriminate|]. destruct (starts _ _); [discriminate|].
    destruct (starts _ _); [|discriminate]. destruct (gather r) as [[? ?]|]; discriminate.
  - intros r c' o. unfold do_sendeth. destruct r as [|n [|? ?]]; try discriminate. destruct (din _ _); [|discriminate]. destruct (din _ _); discriminate.
  - intros w r _ _ c' o. unfold do_load. destruct r as [|f [|? ?]]; try discriminate. destruct (c_unsaved c); cbn [negb andb]; [intros H; injection H as <- <-; auto|].
    destruct (dget f _) as [[s| |]|]; try discriminate. destruct (unserialize s); discriminate.
  - intros r c' o. unfold do_save. destruct r as [|f [|? ?]]; discriminate.
  - intros r c' o. unfold do_exec. destruct r as [|f [|? ?]]; discriminate.
  - intros w r _ _ c' o. unfold do_add. destruct r as [|what r]; [discriminate|].
    assert (C : forall x, changed x = (c', o, true) -> c' = c /\ o = Stay) by (intros x; unfold changed; destruct (rebuild _ _); discriminate).
    assert (A : forall k, add_kind k r c = (c', o, true) -> c' = c /\ o = Stay). { intros k. unfold add_kind. destruct (add _ _ _) as [t [x|e]]; [apply C|discriminate]. }
    destruct (starts _ _); [apply A|]. destruct (starts _ _); [apply A|]. destruct (starts _ _); [apply A|]. destruct (starts _ _); [|discriminate].
    destruct r as [|u [|v s]]; try discriminate. destruct (_ <? _)%nat; [discriminate|apply C].
  - intros r c' o. unfold do_remove.
    assert (C : forall x, changed x = (c', o, true) -> c' = c /\ o = Stay) by (intros x; unfold changed; destruct (rebuild _ _); discriminate).
    destruct r as [|what [|a r]]; try discriminate. destruct (_ || _ || _ || _).
    + destruct r; [apply C|discriminate].
    + destruct (_ || _); [|discriminate]. destruct r as [|b [|? ?]]; try discriminate. apply C.
  - intros r c' o. unfold do_replay. destruct r as [|f [|n [|i [|? ?]]]]; try discriminate. destruct (dget f _) as [x|]; [|discriminate].
    destruct (dget n _) as [nd|]; [|discriminate]. destruct (din _ _); [|discriminate]. destruct x as [s|[|k]|]; try discriminate. destruct (emit n i c); discriminate.
  - intros c' o. unfold do_exit. destruct (c_unsaved c); cbn [negb andb]; [intros H; injection H as <- <-; auto|]. destruct (net_stop _); discriminate.
Qed.
End Texts.
