From Verif Require Import BaseLemmas Dict ColorModel ColorSpec.
#[local] Open Scope list_scope.

(** The colour that is on after some output. *)
Fixpoint after (cur : option color) (l : list piece) : option color :=
  match l with [] => cur | Txt _ :: r => after cur r | Fore c :: r => after (Some c) r | Reset :: r => after None r end.
Lemma seen_app l m : forall cur, seen cur (l ++ m) = seen cur l ++ seen (after cur l) m.
Proof. induction l as [|[s|c|] t IH]; intros cur; cbn [app seen after]; auto. destruct (str_eqb s newline); [apply IH|]. cbn [app]. now rewrite IH. Qed.
Lemma after_app l m : forall cur, after cur (l ++ m) = after (after cur l) m.
Proof. induction l as [|[s|c|] t IH]; intros cur; cbn [app after]; auto. Qed.
Lemma newline_eq : str_eqb newline newline = true. Proof. reflexivity. Qed.

Lemma raised p : forall t cur, snd (run t p) = snd (wanted cur p).
Proof.
  induction p as [s|c p IH| |p IHp h IHh|p IHp q IHq|]; intros t cur; cbn [run wanted]; try reflexivity.
  - specialize (IH t (Some c)). destruct (run t p) as [o x], (wanted (Some c) p) as [o' x']; cbn [snd] in *. exact IH.
  - specialize (IHp t cur). destruct (run t p) as [o x], (wanted cur p) as [o' x']; cbn [snd] in *. subst x'. destruct x; [|reflexivity].
    specialize (IHh t cur). destruct (run t h), (wanted cur h). exact IHh.
  - specialize (IHp t cur). destruct (run t p) as [o x], (wanted cur p) as [o' x']; cbn [snd] in *. subst x'. destruct x; [reflexivity|].
    specialize (IHq t cur). destruct (run t q), (wanted cur q). exact IHq.
Qed.

(** ** Directly on the terminal *)
Lemma say_seen s cur : str_eqb s newline = false -> seen cur (say direct s) = [(s, cur)] /\ after cur (say direct s) = cur.
Proof. intros H. cbn [say direct put t_wrapped app seen after]. rewrite H, newline_eq. auto. Qed.
Lemma plain_seen p : regionless p -> visible p -> forall cur, seen cur (fst (run direct p)) = fst (wanted cur p) /\ after cur (fst (run direct p)) = cur.
Proof.
  induction p as [s|c p IH| |p IHp h IHh|p IHp q IHq|]; intros R V cur; cbn [run wanted fst]; try (split; reflexivity).
  - apply say_seen, V.
  - destruct R.
  - destruct R as [Rp Rh], V as [Vp Vh]. destruct (IHp Rp Vp cur) as [A B]. pose proof (raised p direct cur) as X. destruct (run direct p) as [o x], (wanted cur p) as [o' x']; cbn [fst snd] in *. subst x'.
    destruct x; [|auto]. destruct (IHh Rh Vh cur) as [C D]. destruct (run direct h) as [o2 y], (wanted cur h) as [o2' y']; cbn [fst] in *. rewrite seen_app, after_app, A, B, C, D. auto.
  - destruct R as [Rp Rh], V as [Vp Vh]. destruct (IHp Rp Vp cur) as [A B]. pose proof (raised p direct cur) as X. destruct (run direct p) as [o x], (wanted cur p) as [o' x']; cbn [fst snd] in *. subst x'.
    destruct x; [auto|]. destruct (IHq Rh Vh cur) as [C D]. destruct (run direct q) as [o2 y], (wanted cur q) as [o2' y']; cbn [fst] in *. rewrite seen_app, after_app, A, B, C, D. auto.
Qed.
Theorem tidy_seen p : tidy p -> visible p -> seen None (fst (run direct p)) = fst (wanted None p) /\ after None (fst (run direct p)) = None.
Proof.
  induction p as [s|c p IH| |p IHp h IHh|p IHp q IHq|]; intros T V; cbn [run wanted fst]; try (split; reflexivity).
  - apply say_seen, V.
  - destruct T as [R X]. destruct (plain_seen p R V (Some c)) as [A B]. pose proof (raised p direct None) as Y. rewrite X in Y.
    destruct (run direct p) as [o x]; cbn [fst snd] in *. subst x. cbn [start direct t_nocolor put t_wrapped app seen after]. rewrite seen_app, after_app, A, B. cbn. rewrite app_nil_r. auto.
  - destruct T as [Tp Th], V as [Vp Vh]. destruct (IHp Tp Vp) as [A B]. pose proof (raised p direct None) as X. destruct (run direct p) as [o x], (wanted None p) as [o' x']; cbn [fst snd] in *. subst x'.
    destruct x; [|auto]. destruct (IHh Th Vh) as [C D]. destruct (run direct h) as [o2 y], (wanted None h) as [o2' y']; cbn [fst] in *. rewrite seen_app, after_app, A, B, C, D. auto.
  - destruct T as [Tp Th], V as [Vp Vh]. destruct (IHp Tp Vp) as [A B]. pose proof (raised p direct None) as X. destruct (run direct p) as [o x], (wanted None p) as [o' x']; cbn [fst snd] in *. subst x'.
    destruct x; [auto|]. destruct (IHq Th Vh) as [C D]. destruct (run direct q) as [o2 y], (wanted None q) as [o2' y']; cbn [fst] in *. rewrite seen_app, after_app, A, B, C, D. auto.
Qed.

(** ** No colours: by choice, or because every piece is followed by a reset *)
Lemma drab t p : t_nocolor t = true \/ t_wrapped t = true ->
  Forall (fun x : str * option color => snd x = None) (seen None (fst (run t p))) /\ after None (fst (run t p)) = None.
Proof.
  intros H. induction p as [s|c p IH| |p IHp h IHh|p IHp q IHq|]; cbn [run fst]; try (split; [constructor|reflexivity]).
  - unfold say, put. destruct (t_wrapped t); cbn [app seen after]; rewrite newline_eq; destruct (str_eqb s newline); split; repeat constructor.
  - destruct IH as [A B]. destruct (run t p) as [o x]; cbn [fst] in *.
    assert (S : seen None (start t c) = [] /\ after None (start t c) = None).
    { unfold start, put. destruct (t_nocolor t); [split; reflexivity|]. destruct H as [H|H]; [discriminate|]. rewrite H. split; reflexivity. }
    assert (Q : seen None (reset t) = [] /\ after None (reset t) = None).
    { unfold reset, put. destruct (t_wrapped t); split; reflexivity. }
    destruct S as [S1 S2], Q as [Q1 Q2]. rewrite seen_app, S1, S2, after_app, S2. cbn [app]. rewrite seen_app, after_app, B. destruct x; cbn [seen after app]; [rewrite app_nil_r; auto|]. rewrite Q1, Q2, app_nil_r. auto.
  - destruct IHp as [A B]. destruct (run t p) as [o x]; cbn [fst] in *. destruct x; [|auto]. destruct IHh as [C D]. destruct (run t h) as [o2 y]; cbn [fst] in *. rewrite seen_app, after_app, B. split; [apply Forall_app; auto|exact D].
  - destruct IHp as [A B]. destruct (run t p) as [o x]; cbn [fst] in *. destruct x; [auto|]. destruct IHq as [C D]. destruct (run t q) as [o2 y]; cbn [fst] in *. rewrite seen_app, after_app, B. split; [apply Forall_app; auto|exact D].
Qed.

Lemma words_run t p : visible p -> forall cur cur', words (seen cur (fst (run t p))) = words (fst (wanted cur' p)).
Proof.
  unfold words. induction p as [s|c p IH| |p IHp h IHh|p IHp q IHq|]; intros V cur cur'; cbn [run wanted fst]; try reflexivity.
  - cbn [visible] in V. unfold say, put. destruct (t_wrapped t); cbn [app seen]; rewrite V, newline_eq; reflexivity.
  - cbn [visible] in V. specialize (IH V (after cur (start t c)) (Some c)). destruct (run t p) as [o x]; cbn [fst] in *. rewrite !seen_app, !map_app, IH.
    replace (map fst (seen cur (start t c))) with (@nil str) by (unfold start, put; destruct (t_nocolor t), (t_wrapped t); reflexivity).
    destruct x; cbn [app seen map]; [apply app_nil_r|]. unfold reset, put. destruct (t_wrapped t); cbn [app seen]; rewrite newline_eq; cbn [map]; apply app_nil_r.
  - destruct V as [Vp Vh]. specialize (IHp Vp cur cur'). pose proof (raised p t cur') as X. destruct (run t p) as [o x], (wanted cur' p) as [o' x']; cbn [fst snd] in *. subst x'.
    destruct x; [|exact IHp]. specialize (IHh Vh (after cur o) cur'). destruct (run t h), (wanted cur' h); cbn [fst] in *. now rewrite seen_app, !map_app, IHp, IHh.
  - destruct V as [Vp Vh]. specialize (IHp Vp cur cur'). pose proof (raised p t cur') as X. destruct (run t p) as [o x], (wanted cur' p) as [o' x']; cbn [fst snd] in *. subst x'.
    destruct x; [exact IHp|]. specialize (IHq Vh (after cur o) cur'). destruct (run t q), (wanted cur' q); cbn [fst] in *. now rewrite seen_app, !map_app, IHp, IHq.
Qed.
Lemma drab_words l m : Forall (fun x : str * option color => snd x = None) l -> words l = words m -> l = plain m.
Proof.
  revert m. induction l as [|[s c] l IH]; intros [|[s' c'] m] F W; try discriminate; [reflexivity|]. inversion F as [|? ? E F']; subst. cbn in *. injection W as -> W. subst c. f_equal. apply IH; auto.
Qed.
Theorem no_colour t p : t_nocolor t = true \/ t_wrapped t = true -> visible p -> seen None (fst (run t p)) = plain (fst (wanted None p)).
Proof. intros H V. apply drab_words; [apply drab, H|now apply words_run]. Qed.

(** After a region that ended normally the default colour is on, whatever was in it and whatever colour was on before. *)
Lemma after_region t c p cur : snd (run t p) = false -> after cur (fst (run t (In c p))) = None.
Proof. cbn [run]. destruct (run t p) as [o x]; cbn [fst snd]. intros ->. rewrite !after_app. unfold reset, put. destruct (t_wrapped t); reflexivity. Qed.
Theorem next_text t c p s : visible p -> str_eqb s newline = false -> snd (wanted None p) = false ->
  exists l, seen None (fst (run t (Then (In c p) (Say s)))) = l ++ [(s, None)] /\ words l = words (fst (wanted (Some c) p)).
Proof.
  intros V N X. rewrite <- (raised p t None) in X. pose proof (after_region t c p None X) as A. pose proof (words_run t (In c p) V None None) as W.
  cbn [run wanted] in *. destruct (run t p) as [o x]; cbn [fst snd] in *. subst x. cbn [fst snd] in *. rewrite seen_app, A. eexists. split; [|exact W]. f_equal.
  unfold say, put. destruct (t_wrapped t); cbn [app seen]; now rewrite N, newline_eq.
Qed.
