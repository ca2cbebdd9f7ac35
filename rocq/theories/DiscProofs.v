(** Proofs about device discovery. *)
From Verif Require Import BaseLemmas EthAddrModel UnitModel Dict DictLemmas NetModel NetProofs DiscModel DiscSpec.
From Coq Require Import Ascii.
#[local] Open Scope list_scope.

Lemma ignore_plain b : plain b -> ascii_ignore b = b.
Proof. induction 1 as [|c b H _ IH]; [reflexivity|]. unfold ascii_ignore in *. cbn [filter]. destruct (Z.ltb_spec c 128); [rewrite IH; reflexivity|lia]. Qed.
Lemma ignore_is_plain b : wfb b -> plain (ascii_ignore b).
Proof. intros H. apply Forall_forall. intros c Hc. apply filter_In in Hc as [H1 H2]. apply (proj1 (Forall_forall _ _) H) in H1. lia. Qed.
Lemma land_bit f k : (Z.land f (2 ^ Z.of_nat k) =? 2 ^ Z.of_nat k) = Z.testbit f (Z.of_nat k).
Proof.
  destruct (Z.eqb_spec (Z.land f (2 ^ Z.of_nat k)) (2 ^ Z.of_nat k)) as [E|E].
  - symmetry. apply (f_equal (fun x => Z.testbit x (Z.of_nat k))) in E. rewrite Z.land_spec, Z.pow2_bits_true, andb_true_r in E by lia. exact E.
  - destruct (Z.testbit f (Z.of_nat k)) eqn:T; [|reflexivity]. exfalso. apply E. apply Z.bits_inj'. intros m Hm. rewrite Z.land_spec. destruct (Z.eqb_spec m (Z.of_nat k)) as [->|N].
    + rewrite T. reflexivity.
    + rewrite Z.pow2_bits_false by lia. apply andb_false_r.
Qed.
Lemma flag0 f : (Z.land f 1 =? 1) = Z.odd f. Proof. rewrite <- Z.bit0_odd. exact (land_bit f 0). Qed.
Lemma flag1 f : (Z.land f 2 =? 2) = Z.odd (f / 2). Proof. rewrite <- Z.bit0_odd. change (f / 2) with (f / 2 ^ 1). rewrite Z.div_pow2_bits by lia. exact (land_bit f 1). Qed.
Lemma flag2 f : (Z.land f 4 =? 4) = Z.odd (f / 4). Proof. rewrite <- Z.bit0_odd. change (f / 4) with (f / 2 ^ 2). rewrite Z.div_pow2_bits by lia. exact (land_bit f 2). Qed.
Lemma discover_describes l : forall k, Forall plain_dev l -> Forall2 describes l (discover false k l).
Proof.
  induction l as [|d l IH]; intros k H; cbn [discover]; [constructor|]. inversion H as [|? ? [H1 H2] H3]; subst. constructor; [|apply IH; assumption].
  unfold describes. cbn [pi_name pi_internal pi_desc pi_loop pi_up pi_running]. rewrite (ignore_plain _ H1), flag0, flag1, flag2. split; [reflexivity|]. split; [reflexivity|]. split; [destruct (cd_desc d); [apply ignore_plain; exact H2|reflexivity]|]. tauto.
Qed.
(** ** Numbered names *)
Lemma dec_loop_value f : forall n acc, 0 <= n -> Z.log2 n < Z.of_nat f -> numv 0 (dec_loop f n acc) = numv n acc.
Proof.
  induction f as [|f IH]; intros n acc H L; [pose proof (Z.log2_nonneg n); lia|]. cbn [dec_loop]. destruct (Z.ltb_spec n 10) as [S|S].
  - cbn [numv]. rewrite Z.mod_small by lia. f_equal. lia.
  - assert (L2 : Z.log2 (n / 10) < Z.of_nat f).
    { assert (A : Z.log2 (n / 10) <= Z.log2 (n / 2)).
      { apply Z.log2_le_mono. apply Z.div_le_compat_l; lia. }
      assert (B : Z.log2 (n / 2) = Z.log2 n - 1).
      { change (n / 2) with (n / 2 ^ 1). rewrite <- Z.shiftr_div_pow2 by lia. rewrite Z.log2_shiftr by lia. assert (1 <= Z.log2 n) by (apply Z.log2_le_pow2; lia). lia. }
      lia. }
    rewrite IH by (try apply Z.div_pos; lia). cbn [numv]. f_equal. pose proof (Z.div_mod n 10). lia.
Qed.
Lemma dec_value n : 0 <= n -> numv 0 (dec n) = n.
Proof. intros H. unfold dec. destruct (Z.ltb_spec n 0); [lia|]. rewrite dec_loop_value; [reflexivity|exact H|]. rewrite Nat2Z.inj_succ, Z2Nat.id by apply Z.log2_nonneg. lia. Qed.
Lemma discover_names l : forall k, 0 <= k -> map pi_name (discover true k l) = map (fun i => [112; 111; 114; 116] ++ dec (k + Z.of_nat i)) (seq 0 (List.length l)).
Proof.
  induction l as [|d l IH]; intros k H; cbn [discover map List.length seq]; [reflexivity|]. cbn [pi_name]. f_equal; [rewrite Z.add_0_r; reflexivity|]. rewrite IH by lia. rewrite <- seq_shift, map_map. apply map_ext. intros i. do 2 f_equal. lia.
Qed.
(** ** Histories *)
Lemma calls_known win l ds : calls win l (Some (Some ds)) = map (fun _ => Ok ds) l.
Proof. induction l as [|a l IH]; [reflexivity|]. cbn [calls pcap_devices map]. rewrite IH. reflexivity. Qed.
Lemma calls_nolib win l : calls win l (Some None) = map (fun _ => Err EAttr) l.
Proof. induction l as [|a l IH]; [reflexivity|]. cbn [calls pcap_devices map]. rewrite IH. reflexivity. Qed.
(** ** Names as strings *)
Lemma as_str_inj a b : plain a -> plain b -> as_str a = as_str b -> a = b.
Proof.
  intros A B E. unfold as_str in E. apply (f_equal list_ascii_of_string) in E. rewrite !list_ascii_of_string_of_list_ascii in E. revert b B E.
  induction A as [|x a Hx A IH]; intros [|y b] B E; try discriminate; [reflexivity|]. inversion B as [|? ? Hy B']; subst. cbn [map] in E. injection E as E1 E2. f_equal; [|apply IH; assumption].
  assert (K : N_of_ascii (ascii_of_N (Z.to_N x)) = N_of_ascii (ascii_of_N (Z.to_N y))) by congruence. rewrite !N_ascii_embedding in K by lia. lia.
Qed.
