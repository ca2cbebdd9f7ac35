(** Scenario files (C103). *)
From Verif Require Import BaseLemmas CodecLemmas Dict EthAddrModel FwModel TestModel TestSpec TestRun TestSave TestProps StartModel FileModel.
#[local] Open Scope string_scope.
#[local] Open Scope Z_scope.
#[local] Open Scope list_scope.

(** What is assumed of Python's pickle, hashlib, bz2 and base64: nothing is lost (of the saved form [d], by pickle), digests have 64 bytes, and base64 text has no
    white space at its ends. *)
Record faithful (L : codecs) (d : saved) : Prop := mkFaithful {
  ok_pickle : loads L (dumps L d) = Ok d;
  ok_digest : forall b, List.length (sha512 L b) = 64%nat;
  ok_bz : forall b, bz_unpack L (bz_pack L b) = Ok b;
  ok_b64 : forall b, b64_bytes L (b64_text L b) = Ok b;
  ok_edges : forall b, FwModel.strip (b64_text L b) = b64_text L b }.
(** A scenario fit for saving (as in C35). *)
Definition fit (s : scen) : Prop := sc_done s = [] /\ Forall fresh_sev (sc_pend s) /\ Forall (fun e => storable_event (sv_ev e)) (sc_pend s).

Lemma ends_iff suf s : ends_with suf s = true <-> exists x, s = x ++ suf.
Proof. split.
  - induction s as [|c s IH]; cbn [ends_with]; intros H.
    + rewrite orb_false_r in H. apply bytes_eqb_eq in H. subst. exists []. reflexivity.
    + apply orb_true_iff in H as [H|H]; [apply bytes_eqb_eq in H; subst; exists []; reflexivity|]. destruct (IH H) as [x ->]. exists (c :: x). reflexivity.
  - intros [x ->]. induction x as [|c x IH]; cbn [app]; [destruct suf; cbn [ends_with]; rewrite bytes_eqb_refl; reflexivity|]. cbn [ends_with]. rewrite IH, orb_true_r. reflexivity. Qed.
Lemma srpy_compiled x : kind_of (x ++ dot_srpy) = KCompiled.
Proof. unfold kind_of. destruct (ends_with dot_py (x ++ dot_srpy)) eqn:E.
  - apply ends_iff in E as [y E]. exfalso. apply (f_equal (@rev Z)) in E. rewrite !rev_app_distr in E. cbn in E. discriminate.
  - rewrite (proj2 (ends_iff dot_srpy (x ++ dot_srpy))); [reflexivity|exists x; reflexivity]. Qed.
Lemma drop_any_len chars s : (List.length (drop_any chars s) <= List.length s)%nat.
Proof. induction s as [|c s IH]; cbn [drop_any List.length]; [lia|]. destruct (zmem c chars); cbn [List.length]; lia. Qed.
Lemma rstrip_same chars s : rstrip chars s = s <-> forall x c, s = x ++ [c] -> ~ In c chars.
Proof. unfold rstrip. split.
  - intros E x c -> I. rewrite rev_app_distr in E. cbn [rev app drop_any] in E. apply zmem_In in I. rewrite I in E. apply (f_equal (@List.length Z)) in E. rewrite rev_length, app_length in E. cbn [List.length] in E. pose proof (drop_any_len chars (rev x)) as B. rewrite rev_length in B. lia.
  - intros N. destruct s as [|c x] using rev_ind; [reflexivity|]. clear IHx. rewrite rev_app_distr. cbn [rev app drop_any]. destruct (zmem c chars) eqn:Z; [apply zmem_In in Z; exfalso; exact (N x c eq_refl Z)|]. cbn [rev]. rewrite rev_involutive. reflexivity. Qed.
Lemma rstrip_py x : rstrip [46; 112; 121] (x ++ [46; 112; 121]) = rstrip [46; 112; 121] x.
Proof. unfold rstrip. rewrite rev_app_distr. reflexivity. Qed.

(** C103.  When the compiled file gets the name of the scenario file with .srpy in place of .py: exactly when what comes
    before .py does not itself end in a dot, a p or a y. *)
Theorem C103_name : forall x, out_name (x ++ [46; 112; 121]) None = x ++ [46; 115; 114; 112; 121] <-> forall y c, x = y ++ [c] -> c <> 46 /\ c <> 112 /\ c <> 121.
Proof. intros x. unfold out_name. rewrite rstrip_py. change [46; 115; 114; 112; 121] with dot_srpy. split.
  - intros E y c X. apply app_inv_tail in E. pose proof (proj1 (rstrip_same _ _) E y c X) as N. repeat split; intros ->; apply N; cbn; auto.
  - intros H. f_equal. apply rstrip_same. intros y c X [I|[I|[I|[]]]]; subst; destruct (H y _ eq_refl) as (A & B & C); congruence. Qed.
Print Assumptions C103_name.
Example C103_name_ex : (forall y c, [116; 101; 115; 116] = y ++ [c] -> c <> 46 /\ c <> 112 /\ c <> 121) /\ out_name [116; 101; 115; 116; 46; 112; 121] None = [116; 101; 115; 116; 46; 115; 114; 112; 121].
Proof. split; [|reflexivity]. intros y c E. change [116; 101; 115; 116] with ([116; 101; 115] ++ [116]) in E. apply app_inj_tail in E as [_ <-]. repeat split; discriminate. Qed.
(** happy.py is compiled to ha.srpy. *)
Theorem C103_name_refuted : exists x, out_name (x ++ [46; 112; 121]) None <> x ++ [46; 115; 114; 112; 121] /\ x = [104; 97; 112; 112; 121] /\ out_name (x ++ [46; 112; 121]) None = [104; 97; 46; 115; 114; 112; 121].
Proof. eexists. split; [|split; reflexivity]. vm_compute. discriminate. Qed.
Print Assumptions C103_name_refuted.
(** C103.  A scenario compiled and read back under the name returned behaves as the original under every sequence of calls
    (the conditions of C35).  Missing: the setup and teardown functions. *)
Theorem C103_compiled_behaves_partial : forall L h file fs fs' n, (forall d s', scen_save (h_scen h) = Ok (d, s') -> faithful L d) -> fit (h_scen h) -> compile_scenario L h file None fs = Ok (n, fs') ->
  kind_of n = KCompiled /\ exists h2, read_compiled L fs' n = Ok h2 /\ sc_name (h_scen h2) = sc_name (h_scen h) /\ sc_ifs (h_scen h2) = sc_ifs (h_scen h) /\ sc_files (h_scen h2) = sc_files (h_scen h) /\
  forall cs, snd (t_run (tnet_new (h_scen h2)) cs) = snd (t_run (tnet_new (h_scen h)) cs) /\
    scen_done (t_scen (fst (t_run (tnet_new (h_scen h2)) cs))) = scen_done (t_scen (fst (t_run (tnet_new (h_scen h)) cs))).
Proof. intros L h file fs fs' n FL (D & F & St) H. unfold compile_scenario in H. destruct (scen_save (h_scen h)) as [[d s']|e] eqn:S; [|discriminate]. destruct (FL d s' eq_refl) as [O1 O2 O3 O4 O5]. cbn [bindr] in H. injection H as <- <-.
  split; [apply srpy_compiled|]. destruct (save_load _ _ _ D F St S) as (_ & s2 & Ld & N2 & I2 & F2 & _). exists (mkH s2 None None). split.
  - unfold read_compiled. cbn [fget]. rewrite bytes_eqb_refl. unfold uncompile_text, compiled_text. rewrite O5, O4. cbn [bindr]. rewrite O3. cbn [bindr].
    rewrite firstn_app, skipn_app. rewrite (O2 (dumps L d)). rewrite firstn_all2 by (rewrite O2; lia). rewrite skipn_all2 by (rewrite O2; lia). change (64 - 64)%nat with 0%nat. cbn [firstn skipn app]. rewrite app_nil_r, bytes_eqb_refl, O1. cbn [bindr]. rewrite Ld. reflexivity.
  - cbn [h_scen]. repeat (split; [assumption|]). intros cs. exact (loaded_behaves _ _ _ _ cs D F St S Ld). Qed.
Print Assumptions C103_compiled_behaves_partial.
(** Codecs that keep one saved form [d0]. *)
Definition xcodecs (d0 : saved) : codecs :=
  mkCodecs (fun _ => [7]) (fun b => if bytes_eqb b [7] then Ok d0 else Err EValue) (fun b => repeat (zlen b) 64) (fun b => 9 :: b) (fun b => match b with 9 :: r => Ok r | _ => Err EValue end)
    (fun b => 65 :: b ++ [65]) (fun t => match t with 65 :: r => Ok (removelast r) | _ => Err EValue end).
Lemma xcodecs_ok d : faithful (xcodecs d) d.
Proof. constructor; cbn [xcodecs loads dumps sha512 bz_pack bz_unpack b64_text b64_bytes]; intros; try reflexivity.
  - rewrite removelast_last. reflexivity.
  - unfold FwModel.strip. cbn [dropsp pyspace]. change (pyspace 65) with false. cbv iota. cbn [rev]. rewrite rev_app_distr. cbn [rev app dropsp]. change (pyspace 65) with false. cbv iota. cbn [rev]. rewrite rev_app_distr, rev_involutive. reflexivity. Qed.
Example C103_compiled_ex : exists d s' n fs', fit xkept /\ scen_save xkept = Ok (d, s') /\ faithful (xcodecs d) d /\ compile_scenario (xcodecs d) (mkH xkept None None) [120; 46; 112; 121] None [] = Ok (n, fs').
Proof. destruct C35_example as (A & B & C & d & s2 & S & _). exists d, xkept. do 2 eexists. split; [exact (conj A (conj B C))|]. split; [exact S|]. split; [apply xcodecs_ok|]. unfold compile_scenario. cbn [h_scen]. rewrite S. reflexivity. Qed.
(** Setup and teardown functions are lost. *)
Theorem C103_hooks_refuted : exists L h file fs n fs' h2, fit (h_scen h) /\ (forall d s', scen_save (h_scen h) = Ok (d, s') -> faithful L d) /\ h_setup h = Some 1 /\ h_teardown h = Some 2 /\ compile_scenario L h file None fs = Ok (n, fs') /\
  read_compiled L fs' n = Ok h2 /\ h_setup h2 = None /\ h_teardown h2 = None.
Proof. destruct C35_example as (A & B & C & d & s2 & S & Ld & _). exists (xcodecs d), (mkH xkept (Some 1) (Some 2)), [120], []. do 2 eexists. exists (mkH s2 None None). split; [exact (conj A (conj B C))|].
  split; [cbn [h_scen]; intros d' s' E; rewrite S in E; injection E as <- <-; apply xcodecs_ok|]. split; [reflexivity|]. split; [reflexivity|].
  split; [unfold compile_scenario; cbn [h_scen]; rewrite S; reflexivity|]. split; [|split; reflexivity].
  unfold read_compiled. cbn [fget]. rewrite bytes_eqb_refl. unfold uncompile_text, compiled_text. destruct (xcodecs_ok d) as [O1 O2 O3 O4 O5]. rewrite O5, O4. cbn [bindr]. rewrite O3. cbn [bindr].
  rewrite firstn_app, skipn_app. rewrite (O2 (dumps (xcodecs d) d)). rewrite firstn_all2 by (rewrite O2; lia). rewrite skipn_all2 by (rewrite O2; lia). change (64 - 64)%nat with 0%nat. cbn [firstn skipn app]. rewrite app_nil_r, bytes_eqb_refl, O1. cbn [bindr]. rewrite Ld. reflexivity. Qed.
Print Assumptions C103_hooks_refuted.
(** Two scenario files compiled to one: after compiling test.py and then testp.py, the name returned for the first holds the
    second scenario. *)
Theorem C103_overwritten_refuted : exists f1 f2, f1 = [116; 101; 115; 116; 46; 112; 121] /\ f2 = [116; 101; 115; 116; 112; 46; 112; 121] /\
  forall L h1 h2 fs n1 fs1 n2 fs2, compile_scenario L h1 f1 None fs = Ok (n1, fs1) -> compile_scenario L h2 f2 None fs1 = Ok (n2, fs2) ->
    exists d s', scen_save (h_scen h2) = Ok (d, s') /\ fget fs2 n1 = Some (compiled_text L d).
Proof. do 2 eexists. split; [reflexivity|]. split; [reflexivity|]. intros L h1 h2 fs n1 fs1 n2 fs2 H1 H2. unfold compile_scenario in *. destruct (scen_save (h_scen h1)) as [[d1 s1]|]; [|discriminate]. destruct (scen_save (h_scen h2)) as [[d2 s2]|]; [|discriminate]. cbn [bindr] in *. injection H1 as <- <-. injection H2 as <- <-. exists d2, s2. split; reflexivity. Qed.
Print Assumptions C103_overwritten_refuted.
(** C103.  A compiled file is accepted only if the digest at its start is that of the rest; any other is refused. *)
Theorem C103_digest : forall L t z x, b64_bytes L (FwModel.strip t) = Ok z -> bz_unpack L z = Ok x ->
  (sha512 L (skipn 64 x) <> firstn 64 x -> uncompile_text L t = Err EValue) /\
  forall h, uncompile_text L t = Ok h -> exists body d, x = sha512 L body ++ body /\ loads L body = Ok d /\ scen_load d = Ok (h_scen h).
Proof. intros L t z x E1 E2. unfold uncompile_text. rewrite E1. cbn [bindr]. rewrite E2. cbn [bindr]. destruct (bytes_eqb (sha512 L (skipn 64 x)) (firstn 64 x)) eqn:Eq.
  - apply bytes_eqb_eq in Eq. split; [congruence|]. intros h H. destruct (loads L (skipn 64 x)) as [d|] eqn:Ld; [|discriminate]. cbn [bindr] in H. destruct (scen_load d) as [s|] eqn:Sl; [|discriminate]. injection H as <-.
    exists (skipn 64 x), d. split; [rewrite Eq; symmetry; apply firstn_skipn|]. auto.
  - split; [reflexivity|]. intros h H. discriminate. Qed.
Print Assumptions C103_digest.
(** C103.  A file cut short before the end of the digest is refused. *)
Theorem C103_cut_short : forall L d t z x, faithful L d -> b64_bytes L (FwModel.strip t) = Ok z -> bz_unpack L z = Ok x -> (List.length x < 64)%nat -> uncompile_text L t = Err EValue.
Proof. intros L d t z x FL E1 E2 Len. apply (C103_digest L t z x E1 E2). intros E. apply (f_equal (@List.length Z)) in E. rewrite (ok_digest L d FL), firstn_length in E. lia. Qed.
Print Assumptions C103_cut_short.
