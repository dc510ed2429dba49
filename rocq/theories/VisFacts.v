(** Float facts for the colour maps. *)
From Coq Require Import Reals Lia Lra Psatz.
From Flocq Require Import Core Relative BinarySingleNaN.
From Verif Require Import GoBase GoFloat Catalog Composite Projection Radolan Vis
  SpecReal SpecVis BaseFacts FloatFacts PropFloat PropProjFloat.
Local Open Scope Z_scope.

(** * Conversions to integers *)
Lemma trunc_value x r : is_value x r -> trunc x = Some (Ztrunc r).
Proof.
  destruct x as [s|s| |s m e]; intros H; try (exfalso; exact H).
  - cbn in H. subst r. cbn. change 0%R with (IZR 0). now rewrite Ztrunc_IZR.
  - cbn [is_value] in H. cbn [trunc]. f_equal. rewrite <- (bpow_powerRZ radix2) in H.
    set (a := if 0 <=? e then Zpos m * 2 ^ e else Zpos m / 2 ^ (- e)).
    assert (E : Zfloor (IZR (Zpos m) * bpow radix2 e) = a).
    { subst a. destruct (0 <=? e) eqn:He.
      - rewrite <- IZR_Zpower by lia. rewrite <- mult_IZR. apply Zfloor_IZR.
      - replace e with (- (- e)) at 1 by lia. rewrite bpow_opp, <- IZR_Zpower by lia.
        assert (0 < 2 ^ (- e)) by (apply Z.pow_pos_nonneg; lia). 
        apply (Zfloor_div (Zpos m) (2 ^ - e)). lia. }
    assert (P : (0 < IZR (Zpos m) * bpow radix2 e)%R).
    { apply Rmult_lt_0_compat; [apply IZR_lt; lia|apply bpow_gt_0]. }
    destruct s.
    + replace r with (- (IZR (Zpos m) * bpow radix2 e))%R by (subst r; ring).
      rewrite Ztrunc_opp, Ztrunc_floor by lra. now rewrite E.
    + replace r with (IZR (Zpos m) * bpow radix2 e)%R by (subst r; ring).
      rewrite Ztrunc_floor by lra. now rewrite E.
Qed.

Lemma to_u8_value K x r : is_value x r -> (-1 < r < 256)%R -> to_u8 K x = Ztrunc r /\ 0 <= Ztrunc r <= 255.
Proof.
  intros H Hr. unfold to_u8. rewrite (trunc_value x r H).
  assert (B : 0 <= Ztrunc r <= 255).
  { split.
    - destruct (Rle_or_lt 0 r) as [Hp|Hn].
      + rewrite Ztrunc_floor by assumption. apply Zfloor_lub. exact Hp.
      + rewrite Ztrunc_ceil by lra. apply Z.lt_succ_r. apply lt_IZR. rewrite succ_IZR. pose proof (Zceil_ub r). lra.
    - destruct (Rle_or_lt 0 r) as [Hp|Hn].
      + rewrite Ztrunc_floor by assumption. apply Z.lt_succ_r. apply lt_IZR. rewrite succ_IZR. pose proof (Zfloor_lb r). lra.
      + rewrite Ztrunc_ceil by lra. apply Zceil_glb. simpl. lra. }
  replace ((0 <=? Ztrunc r) && (Ztrunc r <=? 255)) with true by lia. auto.
Qed.

Lemma to_int_value K x r : is_value x r -> (Rabs r < IZR (2 ^ 62))%R -> to_int K x = Ztrunc r.
Proof.
  intros H Hr. unfold to_int. rewrite (trunc_value x r H).
  apply Rabs_def2 in Hr. rewrite <- opp_IZR in Hr.
  assert (B : - 2 ^ 62 <= Ztrunc r <= 2 ^ 62).
  { split.
    - rewrite <- (Ztrunc_IZR (- 2 ^ 62)). apply Ztrunc_le. lra.
    - rewrite <- (Ztrunc_IZR (2 ^ 62)). apply Ztrunc_le. lra. }
  replace (in_int (Ztrunc r)) with true; [reflexivity|]. symmetry. unfold in_int. 
  change (- 2 ^ 62) with (-4611686018427387904) in B. change (2 ^ 62) with 4611686018427387904 in B.
  unfold int_min, int_max. lia.
Qed.

(** * Rounding *)
Lemma rnd64_le a b : (a <= b)%R -> (rnd64 a <= rnd64 b)%R.
Proof. apply round_le; exact _. Qed.
Lemma rnd64_format a : format64 a -> rnd64 a = a.
Proof. apply round_generic; exact _. Qed.
Lemma format64_int n : Z.abs n <= 2 ^ 53 -> format64 (IZR n).
Proof. intros H. apply int_format; [exact _|unfold emax64, prec64; lia|exact H]. Qed.
Lemma rnd64_int n : Z.abs n <= 2 ^ 53 -> rnd64 (IZR n) = IZR n.
Proof. intros H. apply rnd64_format, format64_int, H. Qed.
Lemma rnd64_0 : rnd64 0 = 0%R.
Proof. exact (rnd64_int 0 ltac:(lia)). Qed.
Lemma rnd64_1 : rnd64 1 = 1%R.
Proof. exact (rnd64_int 1 ltac:(lia)). Qed.
Lemma rnd64_pos a : (0 <= a)%R -> (0 <= rnd64 a)%R.
Proof. intros H. rewrite <- rnd64_0. now apply rnd64_le. Qed.

Lemma rnd64_error k r : -900 <= k -> (Rabs r <= bpow radix2 k)%R -> (Rabs (rnd64 r - r) <= bpow radix2 (k - 53))%R.
Proof.
  intros Hk H. eapply Rle_trans; [apply error_le_half_ulp; exact _|].
  assert (U : (ulp radix2 (FLT_exp (3 - emax64 - prec64) prec64) r <= bpow radix2 (k - 52))%R).
  { replace (bpow radix2 (k - 52)) with (ulp radix2 (FLT_exp (3 - emax64 - prec64) prec64) (bpow radix2 k)).
    - apply ulp_le; [exact _|exact _|]. rewrite (Rabs_pos_eq (bpow radix2 k)) by apply bpow_ge_0. exact H.
    - rewrite ulp_bpow. f_equal. unfold FLT_exp, emax64, prec64. lia. }
  replace (bpow radix2 (k - 53)) with (/ 2 * bpow radix2 (k - 52))%R; [lra|].
  replace (k - 53) with (-1 + (k - 52)) by lia. rewrite bpow_plus. reflexivity.
Qed.

Definition u10 : R := bpow radix2 (-43).
Lemma u10_small : (0 < u10 < / 1000000000000)%R.
Proof.
  unfold u10. split; [apply bpow_gt_0|]. change (bpow radix2 (-43)) with (/ IZR (2 ^ 43))%R.
  apply Rinv_lt_contravar; lra.
Qed.

Lemma has_int n : Z.abs n <= 2 ^ 53 -> has (fl n) (IZR n).
Proof. apply of_int_value64. Qed.

Lemma bound_1024 r : (Rabs r <= 1024)%R -> (Rabs (rnd64 r) < bpow radix2 emax64)%R.
Proof.
  intros H. pose proof (rnd64_error 10 r ltac:(lia) H) as He. apply Rabs_le_inv in He. apply Rabs_le_inv in H.
  assert (bpow radix2 (10 - 53) < 1)%R by (change 1%R with (bpow radix2 0); apply bpow_lt; lia).
  assert (2048 < bpow radix2 emax64)%R.
  { change 2048%R with (bpow radix2 11). apply bpow_lt. reflexivity. }
  apply Rabs_def1; lra.
Qed.

Lemma has_result z r : result64 z r -> (Rabs r <= 1024)%R -> has z (rnd64 r) /\ (Rabs (rnd64 r - r) <= u10)%R.
Proof.
  intros H Hr. split; [split|].
  - exact (proj1 H).
  - eapply result_value; [exact H|]. now apply bound_1024.
  - apply (rnd64_error 10); [lia|exact Hr].
Qed.
Lemma has_add x y a b : has x a -> has y b -> (Rabs (a + b) <= 1024)%R ->
  has (f64_add x y) (rnd64 (a + b)) /\ (Rabs (rnd64 (a + b) - (a + b)) <= u10)%R.
Proof. intros [Vx Hx] [Vy Hy] H. apply has_result; [|exact H]. now apply add64. Qed.
Lemma has_sub x y a b : has x a -> has y b -> (Rabs (a - b) <= 1024)%R ->
  has (f64_sub x y) (rnd64 (a - b)) /\ (Rabs (rnd64 (a - b) - (a - b)) <= u10)%R.
Proof. intros [Vx Hx] [Vy Hy] H. apply has_result; [|exact H]. now apply sub64. Qed.
Lemma has_mul x y a b : has x a -> has y b -> (Rabs (a * b) <= 1024)%R ->
  has (f64_mul x y) (rnd64 (a * b)) /\ (Rabs (rnd64 (a * b) - (a * b)) <= u10)%R.
Proof. intros [Vx Hx] [Vy Hy] H. apply has_result; [|exact H]. now apply mul64. Qed.
Lemma has_div x y a b : has x a -> has y b -> b <> 0%R -> (Rabs (a / b) <= 1024)%R ->
  has (f64_div x y) (rnd64 (a / b)) /\ (Rabs (rnd64 (a / b) - (a / b)) <= u10)%R.
Proof. intros [Vx Hx] [Vy Hy] Hb H. apply has_result; [|exact H]. now apply div64. Qed.

(** With the multiplication fused or not. *)
Lemma product_has k a b : (Rabs (a * b) <= 1024)%R -> (Rabs (product k a b - a * b) <= u10)%R.
Proof.
  intros H. unfold product. destruct k; [|apply (rnd64_error 10); [lia|exact H]].
  rewrite Rminus_eq_0, Rabs_R0. left. apply u10_small.
Qed.
Lemma product_pos k a b : (0 <= a -> 0 <= b -> 0 <= product k a b)%R.
Proof.
  intros Ha Hb. assert (0 <= a * b)%R by (now apply Rmult_le_pos). unfold product. destruct k; [assumption|].
  unfold rnd64. apply round_ge_generic; [exact _|exact _|apply generic_format_0|assumption].
Qed.
Lemma has_sub_mul k x y z a b c : has x a -> has y b -> has z c -> (Rabs (a * b) <= 1024)%R -> (Rabs (c - product k a b) <= 1024)%R ->
  has (sub_mul k z x y) (rnd64 (c - product k a b)) /\ (Rabs (rnd64 (c - product k a b) - (c - product k a b)) <= u10)%R.
Proof. intros [Vx Hx] [Vy Hy] [Vz Hz] B H. apply has_result; [|exact H]. apply sub_mul64; try assumption. now apply bound_1024. Qed.
Lemma has_mul_sub k x y z a b c : has x a -> has y b -> has z c -> (Rabs (a * b) <= 1024)%R -> (Rabs (product k a b - c) <= 1024)%R ->
  has (mul_sub k x y z) (rnd64 (product k a b - c)) /\ (Rabs (rnd64 (product k a b - c) - (product k a b - c)) <= u10)%R.
Proof. intros [Vx Hx] [Vy Hy] [Vz Hz] B H. apply has_result; [|exact H]. apply mul_sub64; try assumption. now apply bound_1024. Qed.
Lemma has_mul_add k x y z a b c : has x a -> has y b -> has z c -> (Rabs (a * b) <= 1024)%R -> (Rabs (product k a b + c) <= 1024)%R ->
  has (mul_add k x y z) (rnd64 (product k a b + c)) /\ (Rabs (rnd64 (product k a b + c) - (product k a b + c)) <= u10)%R.
Proof. intros [Vx Hx] [Vy Hy] [Vz Hz] B H. apply has_result; [|exact H]. apply mul_add64; try assumption. now apply bound_1024. Qed.

Lemma has_abs x a : has x a -> has (f_abs x) (Rabs a).
Proof.
  intros [V H]. destruct x as [s|s| |s m e]; try (exfalso; exact H); (split; [exact V|]).
  - cbn in *. subst a. apply Rabs_R0.
  - cbn [f_abs SFabs is_value] in *. subst a. rewrite <- (bpow_powerRZ radix2).
    assert (P : (0 < IZR (Zpos m) * bpow radix2 e)%R).
    { apply Rmult_lt_0_compat; [apply IZR_lt; lia|apply bpow_gt_0]. }
    destruct s; [rewrite Rabs_left|rewrite Rabs_pos_eq]; lra.
Qed.

Lemma lt_has x y a b : has x a -> has y b -> f_lt x y = true <-> (a < b)%R.
Proof. intros [Vx Hx] [Vy Hy]. exact (ltb_values prec64 emax64 x y a b Vx Vy Hx Hy). Qed.
Lemma le_has x y a b : has x a -> has y b -> f_le x y = true <-> (a <= b)%R.
Proof. intros [Vx Hx] [Vy Hy]. exact (leb_values prec64 emax64 x y a b Vx Vy Hx Hy). Qed.

(** * math.Mod of positive values *)
Lemma has_mod x y a b : has x a -> has y b -> (0 <= a)%R -> (0 < b)%R -> has (f_mod x y) (a - b * IZR (Zfloor (a / b))).
Proof.
  intros [Vx Hx] [Vy Hy] Ha Hb.
  destruct y as [sy|sy| |sy my ey]; try (exfalso; exact Hy); [cbn in Hy; lra|].
  destruct x as [sx|sx| |sx mx ex]; try (exfalso; exact Hx).
  - cbn in Hx. subst a. split; [exact Vx|]. cbn. unfold Rdiv. rewrite Rmult_0_l. change 0%R with (IZR 0). rewrite Zfloor_IZR. lra.
  - cbn [is_value] in Hx, Hy. rewrite <- (bpow_powerRZ radix2) in Hx, Hy.
    assert (Px : forall m e, (0 < IZR (Zpos m) * bpow radix2 e)%R).
    { intros m e. apply Rmult_lt_0_compat; [apply IZR_lt; lia|apply bpow_gt_0]. }
    pose proof (Px mx ex) as P1. pose proof (Px my ey) as P2.
    destruct sx; [exfalso; lra|]. destruct sy; [exfalso; lra|].
    rewrite Rmult_1_l in Hx, Hy. unfold f_mod. set (e := Z.min ex ey).
    set (A := Zpos mx * 2 ^ (ex - e)). set (B := Zpos my * 2 ^ (ey - e)).
    assert (PB : 0 < B). { apply Z.mul_pos_pos; [lia|]. apply Z.pow_pos_nonneg; lia. }
    assert (PA : 0 < A). { apply Z.mul_pos_pos; [lia|]. apply Z.pow_pos_nonneg; lia. }
    assert (EA : a = (IZR A * bpow radix2 e)%R).
    { subst a A. rewrite mult_IZR, Rmult_assoc. f_equal.
      replace (IZR (2 ^ (ex - e))) with (bpow radix2 (ex - e)) by (rewrite <- IZR_Zpower by lia; reflexivity).
      rewrite <- bpow_plus. f_equal. lia. }
    assert (EB : b = (IZR B * bpow radix2 e)%R).
    { subst b B. rewrite mult_IZR, Rmult_assoc. f_equal.
      replace (IZR (2 ^ (ey - e))) with (bpow radix2 (ey - e)) by (rewrite <- IZR_Zpower by lia; reflexivity).
      rewrite <- bpow_plus. f_equal. lia. }
    pose proof (bpow_gt_0 radix2 e) as Pe. assert (PBR : (0 < IZR B)%R) by (apply IZR_lt; lia).
    assert (EQ : (a / b = IZR A / IZR B)%R) by (rewrite EA, EB; field; split; lra).
    rewrite EQ, Zfloor_div by lia.
    assert (EV : (a - b * IZR (A / B) = IZR (A mod B) * bpow radix2 e)%R).
    { rewrite Z.mod_eq by lia. rewrite minus_IZR, mult_IZR, EA, EB. ring. }
    rewrite EV. pose proof (normalize_result prec64 emax64 _ _ (A mod B) e false) as Hr.
    split; [exact (proj1 Hr)|]. 
    change (F2R (Float radix2 (A mod B) e)) with (IZR (A mod B) * bpow radix2 e)%R in Hr.
    pose proof (Z.mod_pos_bound A B PB) as MB.
    assert (LE : A mod B <= A) by (apply Z.mod_le; lia).
    eapply result_exact; [exact Hr| |].
    + assert (Bx : Zpos mx < 2 ^ 53 /\ Zpos my < 2 ^ 53 /\ 3 - emax64 - prec64 <= ex /\ 3 - emax64 - prec64 <= ey).
      { assert (Q : forall m f, valid64 (S754_finite false m f) -> Zpos m < 2 ^ 53 /\ 3 - emax64 - prec64 <= f).
        { intros m f Hv. unfold valid64, valid_binary, bounded, canonical_mantissa in Hv.
          apply andb_prop in Hv. destruct Hv as [Hv _]. apply Zeq_bool_eq in Hv. unfold fexp in Hv.
          assert (D : Zpos (digits2_pos m) = Zdigits radix2 (Zpos m)) by (apply Digits.Zpos_digits2_pos).
          pose proof (Zpower_gt_Zdigits radix2 53 (Zpos m)) as D2. unfold emin, prec64, emax64 in *.
          split; [|lia]. change (2 ^ 53) with (Zpower radix2 53). rewrite Z.abs_eq in D2 by lia. apply D2. lia. }
        destruct (Q mx ex Vx). destruct (Q my ey Vy). auto. }
      apply generic_format_FLT. exists (Float radix2 (A mod B) e); cbn [Fnum Fexp]; [reflexivity| |unfold e; lia].
      change (Z.abs (A mod B) < 2 ^ 53). rewrite Z.abs_eq by lia.
      destruct (Z_le_gt_dec ex ey) as [Hc|Hc].
      * assert (e = ex) by (unfold e; lia). assert (A = Zpos mx) by (unfold A; rewrite H, Z.sub_diag; lia). lia.
      * assert (e = ey) by (unfold e; lia). assert (B = Zpos my) by (unfold B; rewrite H, Z.sub_diag; lia). lia.
    + assert (0 <= IZR (A mod B))%R by (apply IZR_le; lia). assert (IZR (A mod B) <= IZR A)%R by (apply IZR_le; lia).
      assert (Va : (Rabs a < bpow radix2 emax64)%R).
      { apply (value64_bound (S754_finite false mx ex)); [exact Vx|]. cbn [is_value]. rewrite <- (bpow_powerRZ radix2). lra. }
      rewrite Rabs_pos_eq by nra. rewrite Rabs_pos_eq in Va by lra. nra.
Qed.
