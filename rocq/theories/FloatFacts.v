(** Link between the computable floats of the model and Flocq's theory. *)
From Coq Require Import Reals Lia Lra Psatz.
From Flocq Require Import Core Relative BinarySingleNaN.
From Verif Require Import GoBase GoFloat SpecReal BaseFacts.
Import BinarySingleNaN.
Local Open Scope Z_scope.

Section Generic.
Variables prec emax : Z.
Context (prec_gt_0_ : FLX.Prec_gt_0 prec).
Context (prec_lt_emax_ : Prec_lt_emax prec emax).
Notation emin := (3 - emax - prec).
Notation fexp := (FLT_exp emin prec).
Notation rnd := (round radix2 fexp ZnearestE).
Notation valid x := (valid_binary prec emax x = true).
Notation V := (SF2R radix2).

Lemma round_aux_equiv sx mx ex lx :
  SpecFloat.binary_round_aux prec emax sx mx ex lx = binary_round_aux prec emax mode_NE sx mx ex lx.
Proof.
  unfold SpecFloat.binary_round_aux, binary_round_aux. destruct (shr_fexp _ _ _ _ _) as [mrs' e']. cbn.
  assert (H : forall s m l, round_nearest_even m l = choice_mode mode_NE s m l).
  { intros s m [|[]]; try reflexivity. cbn. unfold Round.cond_incr. now destruct (Z.even m). }
  now rewrite (H sx).
Qed.

Lemma round_equiv s m e :
  SpecFloat.binary_round prec emax s m e = binary_round prec emax mode_NE s m e.
Proof.
  unfold SpecFloat.binary_round, binary_round, shl_align_fexp.
  destruct (shl_align _ _ _) as [mz ez]. apply round_aux_equiv.
Qed.

Lemma normalize_equiv m e szero :
  SpecFloat.binary_normalize prec emax m e szero = B2SF (binary_normalize prec emax prec_gt_0_ prec_lt_emax_ mode_NE m e szero).
Proof.
  destruct m as [|p|p]; [reflexivity| |]; cbn; rewrite B2SF_SF2B; apply round_equiv.
Qed.

Lemma mul_equiv (x y : binary_float prec emax) : SFmul prec emax (B2SF x) (B2SF y) = B2SF (Bmult mode_NE x y).
Proof.
  destruct x as [sx|sx| |sx mx ex Bx], y as [sy|sy| |sy my ey By]; try reflexivity.
  cbn. rewrite B2SF_SF2B. apply round_aux_equiv.
Qed.
Lemma add_equiv (x y : binary_float prec emax) : SFadd prec emax (B2SF x) (B2SF y) = B2SF (Bplus mode_NE x y).
Proof.
  destruct x as [sx|sx| |sx mx ex Bx], y as [sy|sy| |sy my ey By]; try reflexivity; try (cbn; now destruct (Bool.eqb _ _)).
  apply normalize_equiv.
Qed.
Lemma sub_equiv (x y : binary_float prec emax) : SFsub prec emax (B2SF x) (B2SF y) = B2SF (Bminus mode_NE x y).
Proof.
  destruct x as [sx|sx| |sx mx ex Bx], y as [sy|sy| |sy my ey By]; try reflexivity; try (cbn; now destruct (Bool.eqb _ _)).
  cbn. unfold Zminus. rewrite <- cond_Zopp_negb. apply normalize_equiv.
Qed.
Lemma div_equiv (x y : binary_float prec emax) : SFdiv prec emax (B2SF x) (B2SF y) = B2SF (Bdiv mode_NE x y).
Proof.
  destruct x as [sx|sx| |sx mx ex Bx], y as [sy|sy| |sy my ey By]; try reflexivity.
  cbn. rewrite B2SF_SF2B. destruct (SFdiv_core_binary _ _ _ _ _ _) as [[mz ez] lz]. apply round_aux_equiv.
Qed.

(** The result of an operation whose exact value is [r]: rounded, or an
    infinity of the sign of [r]. *)
Definition result (z : spec_float) (r : R) : Prop :=
  valid z /\
  if Rlt_bool (Rabs (rnd r)) (bpow radix2 emax) then is_finite_SF z = true /\ V z = rnd r
  else z = S754_infinity (Rlt_bool r 0).


Lemma is_value_iff x r : is_value x r <-> is_finite_SF x = true /\ r = V x.
Proof.
  destruct x as [s|s| |s m e]; cbn; try (intuition congruence).
  unfold F2R. cbn [Fnum Fexp]. rewrite bpow_powerRZ. change (IZR radix2) with 2%R.
  assert (H : IZR (cond_Zopp s (Z.pos m)) = ((if s then -1 else 1) * IZR (Z.pos m))%R).
  { destruct s; cbn [cond_Zopp]; [rewrite Ropp_Ropp_IZR|]; lra. }
  rewrite H. intuition.
Qed.

Lemma is_value_fun x r r' : is_value x r -> is_value x r' -> r = r'.
Proof. rewrite !is_value_iff. intuition congruence. Qed.

Lemma lift x : valid x -> exists b : binary_float prec emax, x = B2SF b.
Proof. intros H. exists (SF2B x H). now rewrite B2SF_SF2B. Qed.

Lemma B2SF_value (b : binary_float prec emax) r : is_value (B2SF b) r <-> is_finite b = true /\ r = B2R b.
Proof. rewrite is_value_iff, is_finite_SF_B2SF, SF2R_B2SF. reflexivity. Qed.

Lemma sign_le (b : binary_float prec emax) : is_finite b = true ->
  if Bsign b then (B2R b <= 0)%R else (0 <= B2R b)%R.
Proof.
  destruct b as [s|s| |s m e Hb]; try discriminate; intros _; cbn.
  - destruct s; lra.
  - destruct s; cbn.
    + apply F2R_le_0. cbn. lia.
    + apply F2R_ge_0. cbn. lia.
Qed.

Lemma rnd_0 : rnd 0 = 0%R.
Proof. apply round_0. apply valid_rnd_N. Qed.

Lemma not_overflow_0 : Rlt_bool (Rabs (rnd 0)) (bpow radix2 emax) = true.
Proof. rewrite rnd_0, Rabs_R0. apply Rlt_bool_true. apply bpow_gt_0. Qed.

Lemma overflow_nonzero r : Rlt_bool (Rabs (rnd r)) (bpow radix2 emax) = false -> r <> 0%R.
Proof. intros H ->. rewrite not_overflow_0 in H. discriminate. Qed.

Lemma signs_mul (a b : R) (sa sb : bool) : (if sa then a <= 0 else 0 <= a)%R -> (if sb then b <= 0 else 0 <= b)%R ->
  (if xorb sa sb then a * b <= 0 else 0 <= a * b)%R.
Proof. destruct sa, sb; cbn; intros; nra. Qed.
Lemma signs_inv (b : R) (sb : bool) : (if sb then b <= 0 else 0 <= b)%R -> (if sb then / b <= 0 else 0 <= / b)%R.
Proof.
  intros H. destruct (Req_dec b 0) as [->|Hn]; [rewrite Rinv_0; destruct sb; lra|].
  destruct sb.
  - apply Rlt_le, Rinv_lt_0_compat. lra.
  - apply Rlt_le, Rinv_0_lt_compat. lra.
Qed.
Lemma sign_bool (r : R) (s : bool) : (if s then r <= 0 else 0 <= r)%R -> r <> 0%R -> s = Rlt_bool r 0.
Proof. intros H Hn. symmetry. destruct s; [apply Rlt_bool_true|apply Rlt_bool_false]; lra. Qed.

Lemma mul_result x y a b : valid x -> valid y -> is_value x a -> is_value y b -> result (SFmul prec emax x y) (a * b).
Proof.
  intros Hx Hy. destruct (lift x Hx) as [bx ->]. destruct (lift y Hy) as [by' ->]. rewrite !B2SF_value. intros [Fx ->] [Fy ->].
  rewrite mul_equiv. split; [apply valid_binary_B2SF|].
  generalize (Bmult_correct prec emax _ _ mode_NE bx by'). cbn [round_mode].
  destruct (Rlt_bool _ _) eqn:Ho.
  - intros (H1 & H2 & _). rewrite is_finite_SF_B2SF, SF2R_B2SF, H2, Fx, Fy. auto.
  - intros ->. unfold binary_overflow. cbn. f_equal. apply sign_bool; [|now apply overflow_nonzero].
    apply signs_mul; now apply sign_le.
Qed.

Lemma div_result x y a b : valid x -> valid y -> is_value x a -> is_value y b -> b <> 0%R -> result (SFdiv prec emax x y) (a / b).
Proof.
  intros Hx Hy. destruct (lift x Hx) as [bx ->]. destruct (lift y Hy) as [by' ->]. rewrite !B2SF_value. intros [Fx ->] [Fy ->] Hn.
  rewrite div_equiv. split; [apply valid_binary_B2SF|].
  generalize (Bdiv_correct prec emax _ _ mode_NE bx by' Hn). cbn [round_mode].
  destruct (Rlt_bool _ _) eqn:Ho.
  - intros (H1 & H2 & _). rewrite is_finite_SF_B2SF, SF2R_B2SF, H2. auto.
  - intros ->. unfold binary_overflow. cbn. f_equal. apply sign_bool; [|now apply overflow_nonzero].
    unfold Rdiv. apply signs_mul; [|apply signs_inv]; now apply sign_le.
Qed.

Lemma add_result x y a b : valid x -> valid y -> is_value x a -> is_value y b -> result (SFadd prec emax x y) (a + b).
Proof.
  intros Hx Hy. destruct (lift x Hx) as [bx ->]. destruct (lift y Hy) as [by' ->]. rewrite !B2SF_value. intros [Fx ->] [Fy ->].
  rewrite add_equiv. split; [apply valid_binary_B2SF|].
  generalize (Bplus_correct prec emax _ _ mode_NE bx by' Fx Fy). cbn [round_mode].
  destruct (Rlt_bool _ _) eqn:Ho.
  - intros (H1 & H2 & _). rewrite is_finite_SF_B2SF, SF2R_B2SF. auto.
  - intros [-> Hs]. unfold binary_overflow. cbn. f_equal. apply sign_bool; [|now apply overflow_nonzero].
    pose proof (sign_le bx Fx) as H1. pose proof (sign_le by' Fy) as H2. rewrite <- Hs in H2. destruct (Bsign bx); lra.
Qed.

Lemma sub_result x y a b : valid x -> valid y -> is_value x a -> is_value y b -> result (SFsub prec emax x y) (a - b).
Proof.
  intros Hx Hy. destruct (lift x Hx) as [bx ->]. destruct (lift y Hy) as [by' ->]. rewrite !B2SF_value. intros [Fx ->] [Fy ->].
  rewrite sub_equiv. split; [apply valid_binary_B2SF|].
  generalize (Bminus_correct prec emax _ _ mode_NE bx by' Fx Fy). cbn [round_mode].
  destruct (Rlt_bool _ _) eqn:Ho.
  - intros (H1 & H2 & _). rewrite is_finite_SF_B2SF, SF2R_B2SF. auto.
  - intros [-> Hs]. unfold binary_overflow. cbn. f_equal. apply sign_bool; [|now apply overflow_nonzero].
    pose proof (sign_le bx Fx) as H1. pose proof (sign_le by' Fy) as H2. rewrite Hs. rewrite Hs in H1. destruct (Bsign by'); cbn in *; lra.
Qed.

Lemma signed_value s m e : F2R (Float radix2 (cond_Zopp s (Zpos m)) e) = ((if s then -1 else 1) * IZR (Zpos m) * powerRZ 2 e)%R.
Proof.
  unfold F2R. cbn [Fnum Fexp]. rewrite bpow_powerRZ. change (IZR radix2) with 2%R.
  destruct s; cbn [cond_Zopp]; [rewrite Ropp_Ropp_IZR|]; lra.
Qed.
Lemma signed_sign s m e : Rlt_bool (F2R (Float radix2 (cond_Zopp s (Zpos m)) e)) 0 = s.
Proof.
  destruct s; cbn [cond_Zopp].
  - apply Rlt_bool_true. apply F2R_lt_0. cbn. lia.
  - apply Rlt_bool_false. apply F2R_ge_0. cbn. lia.
Qed.

Lemma round_result s m e : result (SpecFloat.binary_round prec emax s m e) (F2R (Float radix2 (cond_Zopp s (Zpos m)) e)).
Proof.
  rewrite round_equiv. generalize (binary_round_correct prec emax _ _ mode_NE s m e). cbn [round_mode].
  intros [H1 H2]. split; [assumption|]. destruct (Rlt_bool _ _).
  - destruct H2 as (H2 & H3 & _). auto.
  - rewrite H2, signed_sign. reflexivity.
Qed.

Lemma normalize_result m e sz : result (SpecFloat.binary_normalize prec emax m e sz) (F2R (Float radix2 m e)).
Proof.
  rewrite normalize_equiv. split; [apply valid_binary_B2SF|].
  generalize (binary_normalize_correct prec emax _ _ mode_NE m e sz). cbn [round_mode].
  destruct (Rlt_bool _ _).
  - intros (H1 & H2 & _). rewrite is_finite_SF_B2SF, SF2R_B2SF. auto.
  - intros ->. reflexivity.
Qed.

Lemma ratio_result s n d : result (of_ratio prec emax s n d) ((if s then -1 else 1) * (IZR (Zpos n) / IZR (Zpos d))).
Proof.
  unfold of_ratio. pose proof (Bdiv_correct_aux prec emax _ _ mode_NE s n 0 false d 0) as H. cbv zeta in H.
  rewrite !signed_value, xorb_false_r in H. cbn [powerRZ round_mode] in H.
  replace ((if s then -1 else 1) * IZR (Z.pos n) * 1 / (1 * IZR (Z.pos d) * 1))%R with ((if s then -1 else 1) * (IZR (Zpos n) / IZR (Zpos d)))%R in H.
  2:{ field. apply IZR_neq. discriminate. }
  destruct (SFdiv_core_binary _ _ _ _ _ _) as [[mz ez] lz]. rewrite round_aux_equiv.
  destruct H as [H1 H2]. split; [assumption|]. destruct (Rlt_bool _ _).
  - destruct H2 as (H2 & H3 & _). auto.
  - rewrite H2. unfold binary_overflow. cbn. f_equal.
    assert (Hpos : (0 < IZR (Zpos n) / IZR (Zpos d))%R) by (apply Rdiv_lt_0_compat; apply IZR_lt; lia).
    symmetry. destruct s; [apply Rlt_bool_true|apply Rlt_bool_false]; lra.
Qed.

(** Using results. *)
Lemma result_valid z r : result z r -> valid z.
Proof. now intros [H _]. Qed.
Lemma result_value z r : result z r -> (Rabs (rnd r) < bpow radix2 emax)%R -> is_value z (rnd r).
Proof.
  intros [_ H] Hb. rewrite Rlt_bool_true in H by assumption. apply is_value_iff. intuition.
Qed.
Lemma result_exact z r : result z r -> generic_format radix2 fexp r -> (Rabs r < bpow radix2 emax)%R -> is_value z r.
Proof.
  intros H Hg Hb. assert (Hr : rnd r = r) by (apply round_generic; [apply valid_rnd_N|assumption]).
  rewrite <- Hr. apply result_value; [assumption|]. now rewrite Hr.
Qed.

Lemma compare_values x y a b : valid x -> valid y -> is_value x a -> is_value y b -> SFcompare x y = Some (Rcompare a b).
Proof.
  intros Hx Hy. destruct (lift x Hx) as [bx ->]. destruct (lift y Hy) as [by' ->]. rewrite !B2SF_value. intros [Fx ->] [Fy ->].
  now apply Bcompare_correct.
Qed.
Lemma ltb_values x y a b : valid x -> valid y -> is_value x a -> is_value y b -> SFltb x y = true <-> (a < b)%R.
Proof.
  intros Hx Hy Ha Hb. unfold SFltb. rewrite (compare_values _ _ _ _ Hx Hy Ha Hb).
  destruct (Rcompare_spec a b); intuition (try discriminate; lra).
Qed.
Lemma leb_values x y a b : valid x -> valid y -> is_value x a -> is_value y b -> SFleb x y = true <-> (a <= b)%R.
Proof.
  intros Hx Hy Ha Hb. unfold SFleb. rewrite (compare_values _ _ _ _ Hx Hy Ha Hb).
  destruct (Rcompare_spec a b); intuition (try discriminate; lra).
Qed.
Lemma eqb_values x y a b : valid x -> valid y -> is_value x a -> is_value y b -> SFeqb x y = true <-> a = b.
Proof.
  intros Hx Hy Ha Hb. unfold SFeqb. rewrite (compare_values _ _ _ _ Hx Hy Ha Hb).
  destruct (Rcompare_spec a b); intuition (try discriminate; lra).
Qed.

Lemma valid_bound x r : valid x -> is_value x r -> (Rabs r < bpow radix2 emax)%R.
Proof.
  intros Hx. destruct (lift x Hx) as [bx ->]. rewrite B2SF_value. intros [_ ->]. apply abs_B2R_lt_emax.
Qed.
Lemma valid_format x r : valid x -> is_value x r -> generic_format radix2 fexp r.
Proof.
  intros Hx. destruct (lift x Hx) as [bx ->]. rewrite B2SF_value. intros [_ ->]. apply generic_format_B2R.
Qed.

Lemma rnd_le a b : (a <= b)%R -> (rnd a <= rnd b)%R.
Proof. apply round_le; [now apply FLT_exp_valid|apply valid_rnd_N]. Qed.

Lemma result_mono z1 z2 r1 r2 : result z1 r1 -> result z2 r2 -> (r1 <= r2)%R -> SFleb z1 z2 = true.
Proof.
  intros [V1 H1] [V2 H2] Hle. pose proof (rnd_le _ _ Hle) as Hr.
  destruct (Rlt_bool_spec (Rabs (rnd r1)) (bpow radix2 emax)) as [B1|B1];
  destruct (Rlt_bool_spec (Rabs (rnd r2)) (bpow radix2 emax)) as [B2|B2].
  - apply (leb_values z1 z2 (rnd r1) (rnd r2)); auto; apply is_value_iff; intuition.
  - subst z2. destruct H1 as [F1 _]. destruct (Rlt_bool_spec r2 0) as [Hn|Hn].
    + exfalso. assert (rnd r2 <= 0)%R by (rewrite <- rnd_0; apply rnd_le; lra).
      rewrite Rabs_left1 in B1 by lra. rewrite Rabs_left1 in B2 by lra. lra.
    + destruct z1 as [s|s| |s m e]; try discriminate; reflexivity.
  - subst z1. destruct H2 as [F2 _]. destruct (Rlt_bool_spec r1 0) as [Hn|Hn].
    + destruct z2 as [s|s| |s m e]; try discriminate; reflexivity.
    + exfalso. assert (0 <= rnd r1)%R by (rewrite <- rnd_0; apply rnd_le; lra).
      rewrite Rabs_pos_eq in B1 by lra. rewrite Rabs_pos_eq in B2 by lra. lra.
  - subst z1 z2. destruct (Rlt_bool_spec r1 0); destruct (Rlt_bool_spec r2 0); try reflexivity. lra.
Qed.

(** Integers up to 2^prec are representable. *)
Lemma int_format n : 0 <= - emin -> Z.abs n <= 2 ^ prec -> generic_format radix2 fexp (IZR n).
Proof.
  intros He Hn. pose proof prec_gt_0_ as Hp. unfold Prec_gt_0 in Hp.
  destruct (Z.eq_dec (Z.abs n) (2 ^ prec)) as [Heq|Hne].
  - assert (H : n = 2 ^ prec \/ n = - 2 ^ prec) by lia.
    assert (Hb : generic_format radix2 fexp (bpow radix2 prec)) by (apply generic_format_bpow; unfold FLT_exp; lia).
    assert (Hz : bpow radix2 prec = IZR (2 ^ prec)).
    { rewrite <- IZR_Zpower by lia. reflexivity. }
    rewrite Hz in Hb. destruct H as [->| ->]; [assumption|]. rewrite opp_IZR. now apply generic_format_opp.
  - apply generic_format_FLT. exists (Float radix2 n 0); cbn [Fnum Fexp]; [unfold F2R; cbn; now rewrite Rmult_1_r|change (Z.abs n < 2 ^ prec); lia|lia].
Qed.
End Generic.
