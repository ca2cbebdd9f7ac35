(** C115: coloured output. *)
From Verif Require Import BaseLemmas Dict ColorModel ColorSpec ColorProofs.
#[local] Open Scope list_scope.

(** Used directly: with regions that are not nested and that no exception leaves, every text has exactly the colour it
    should have. *)
Theorem C115_colours_partial : forall p, tidy p -> visible p -> seen None (fst (run direct p)) = fst (wanted None p).
Proof. intros p T V. exact (proj1 (tidy_seen p T V)). Qed.
(** Whatever the settings, the program and its exceptions: the words are all there, in order; and exceptions go through. *)
Theorem C115_words : forall t p, visible p -> words (seen None (fst (run t p))) = words (fst (wanted None p)).
Proof. intros t p V. exact (words_run t p V None None). Qed.
Theorem C115_exceptions : forall t p, snd (run t p) = snd (wanted None p).
Proof. intros t p. exact (raised p t None). Qed.
(** The text after a region that ended normally has the default colour, whatever the region contained. *)
Theorem C115_after : forall t c p s, visible p -> str_eqb s newline = false -> snd (wanted None p) = false ->
  exists l, seen None (fst (run t (Then (In c p) (Say s)))) = l ++ [(s, None)] /\ words l = words (fst (wanted (Some c) p)).
Proof. exact next_text. Qed.
(** With colours switched off nothing is coloured. *)
Theorem C115_nocolor : forall p, visible p -> seen None (fst (run (setup true) p)) = plain (fst (wanted None p)).
Proof. intros p. exact (no_colour (setup true) p (or_introl eq_refl)). Qed.
(** The full statement is false: after the setup that the command line program does, with colours on, no text is ever
    coloured (the reset after every piece takes the colour back before the text comes); *)
Theorem C115_after_setup : forall p, visible p -> seen None (fst (run (setup false) p)) = plain (fst (wanted None p)).
Proof. intros p. exact (no_colour (setup false) p (or_intror eq_refl)). Qed.
Theorem C115_after_setup_refuted : exists p, tidy p /\ visible p /\ seen None (fst (run (setup false) p)) <> fst (wanted None p).
Proof. exists (In Red (Say "failed"%string)). repeat split. vm_compute. discriminate. Qed.
(** the rest of an outer region after an inner one is not coloured; *)
Theorem C115_nested_refuted : exists p, visible p /\ snd (wanted None p) = false /\ seen None (fst (run direct p)) <> fst (wanted None p).
Proof. exists (In Red (Then (In Blue (Say "b"%string)) (Say "r"%string))). repeat split. vm_compute. discriminate. Qed.
(** and after an exception the colour stays on. *)
Theorem C115_exception_refuted : exists p, visible p /\ snd (run direct p) = false /\ seen None (fst (run direct p)) <> fst (wanted None p).
Proof. exists (Then (Try (In Red Raise) Nothing) (Say "later"%string)). repeat split. vm_compute. discriminate. Qed.
Print Assumptions C115_colours_partial.
Print Assumptions C115_words.
Print Assumptions C115_exceptions.
Print Assumptions C115_after.
Print Assumptions C115_nocolor.
Print Assumptions C115_after_setup.
Print Assumptions C115_after_setup_refuted.
Print Assumptions C115_nested_refuted.
Print Assumptions C115_exception_refuted.

Definition report : prog := Then (In Green (Then (Say "passed"%string) (Try (Then (Say "1"%string) Raise) (Say "2"%string)))) (Then (Say "and"%string) (In Red (Say "failed"%string))).
Example C115_case : tidy report /\ visible report /\
  seen None (fst (run direct report)) = [("passed", Some Green); ("1", Some Green); ("2", Some Green); ("and", None); ("failed", Some Red)]%string.
Proof. repeat split. Qed.
