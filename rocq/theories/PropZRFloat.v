(** C58: the Z-R relationship as computed in float64 and float32. *)
From Coq Require Import Reals Lra Lia Psatz.
From Flocq Require Import Core Relative BinarySingleNaN.
From Verif Require Import GoBase GoFloat Composite Projection Conversion SpecReal SpecProj ExactReal SpecAccuracy SpecZR SpecRain BaseFacts
  FloatFacts PropFloat PropReal PropProjFloat AccFacts PropAccuracy PropZR.
Local Open Scope R_scope.

(** [x] is a positive float64 whose logarithm is within [e] units of that of [r]. *)
Definition lapprox (x : f64) (r e : R) : Prop :=
  valid64 x /\ 0 < r /\ 0 <= e /\ exists v, is_value x v /\ 0 < v /\ Rabs (ln v - ln r) <= e * u.

Lemma lapprox_weak x r e e' : lapprox x r e -> e <= e' -> lapprox x r e'.
Proof.
  intros (H1 & H2 & H3 & v & H4 & H5 & H6) He. split; [assumption|]. split; [assumption|]. split; [lra|].
  exists v. split; [assumption|]. split; [assumption|]. pose proof u_small. nra.
Qed.

Lemma lapprox_value x r : valid64 x -> is_value x r -> 0 < r -> lapprox x r 0.
Proof. intros H1 H2 H3. split; [assumption|]. split; [assumption|]. split; [lra|]. exists r. rewrite Rminus_eq_0, Rabs_R0. repeat split; try assumption. lra. Qed.

Lemma ln_1p t : Rabs t <= / 2 -> Rabs (ln (1 + t)) <= 2 * Rabs t.
Proof.
  intros H. pose proof (Rabs_le_inv _ _ H) as I. pose proof (ln_lip (/ 2) 1 (1 + t) ltac:(lra) ltac:(lra) ltac:(lra)) as L.
  rewrite ln_1, Rminus_0_r in L. replace (1 + t - 1) with t in L by ring. lra.
Qed.

Lemma relative_log d z r : 0 < r -> d <= / 2 -> relative d z r ->
  exists v, is_value z v /\ 0 < v /\ Rabs (ln v - ln r) <= 2 * d.
Proof.
  intros Hr Hd (V & v & Xv & Dv). rewrite (Rabs_pos_eq r) in Dv by lra. exists v. split; [assumption|].
  set (t := (v - r) / r). assert (Ev : v = r * (1 + t)) by (unfold t; field; lra).
  assert (Ht : Rabs t <= d).
  { unfold t, Rdiv. rewrite Rabs_mult, (Rabs_pos_eq (/ r)) by (left; now apply Rinv_0_lt_compat).
    apply Rmult_le_reg_r with r; [assumption|]. rewrite Rmult_assoc, Rinv_l by lra. lra. }
  pose proof (Rabs_le_inv _ _ Ht) as It. assert (0 < 1 + t) by lra.
  split; [rewrite Ev; now apply Rmult_lt_0_compat|]. rewrite Ev, ln_mult by assumption.
  replace (ln r + ln (1 + t) - ln r) with (ln (1 + t)) by ring. eapply Rle_trans; [apply ln_1p; lra|]. lra.
Qed.

Lemma exp_range t : Rabs t <= 500 -> bpow radix2 (-1000) <= exp t <= bpow radix2 1000.
Proof.
  assert (K : forall t, t <= 500 -> exp t <= bpow radix2 1000).
  { intros s Hs. apply Rle_trans with (exp (INR 500 * ln 4)).
    - assert (L : 1 <= ln 4).
      { rewrite <- (ln_exp 1). pose proof exp_le_3. pose proof (exp_pos 1). left. apply ln_increasing; lra. }
      replace (INR 500) with 500 by (rewrite INR_IZR_INZ; reflexivity).
      destruct (Req_dec s (500 * ln 4)) as [->|]; [lra|]. left. apply exp_increasing. lra.
    - right. change (exp (INR 500 * ln 4)) with (Rpower 4 (INR 500)). rewrite Rpower_pow by lra.
      rewrite pow_IZR. reflexivity. }
  intros H. apply Rabs_le_inv in H. split; [|apply K; lra].
  rewrite <- (Ropp_involutive t), exp_Ropp. change (-1000)%Z with (- (1000))%Z. rewrite bpow_opp.
  apply Rinv_le_contravar; [apply exp_pos|]. apply K. lra.
Qed.

Lemma lapprox_mul x y r s e f : lapprox x r e -> lapprox y s f -> Rabs (ln r + ln s) + (e + f) * u <= 500 ->
  lapprox (f64_mul x y) (r * s) (e + f + 1).
Proof.
  intros (Vx & Pr & Pe & v & Xv & Pv & Dv) (Vy & Ps & Pf & w & Yw & Pw & Dw) HB. pose proof u_small as Hu.
  split; [now apply valid_mul|]. split; [now apply Rmult_lt_0_compat|]. split; [lra|].
  pose proof (mul64 x y v w Vx Vy Xv Yw) as Hm. assert (Pvw : 0 < v * w) by now apply Rmult_lt_0_compat.
  assert (L : Rabs (ln (v * w)) <= 500).
  { rewrite ln_mult by assumption. apply Rle_trans with (Rabs (ln r + ln s) + (e + f) * u); [|assumption].
    replace (ln v + ln w) with ((ln r + ln s) + ((ln v - ln r) + (ln w - ln s))) by ring.
    eapply Rle_trans; [apply Rabs_triang|]. apply Rplus_le_compat_l. eapply Rle_trans; [apply Rabs_triang|]. lra. }
  pose proof (exp_range _ L) as [B1 B2]. rewrite exp_ln in B1, B2 by assumption.
  destruct (rel64 (v * w)) as (t & Ht & Et).
  { rewrite Rabs_pos_eq by lra. eapply Rle_trans; [|exact B1]. apply bpow_le. lia. }
  assert (Ht' : Rabs t <= u / 2).
  { eapply Rle_trans; [exact Ht|]. unfold u. change (-53)%Z with (-1 + -52)%Z. rewrite bpow_plus. change (bpow radix2 (-1)) with (/ 2). lra. }
  pose proof (Rabs_le_inv _ _ Ht') as It. assert (u / 2 <= / 4) by lra.
  exists (rnd64 (v * w)). split; [|split].
  - apply (result_value _ _ _ _ Hm). change (round _ _ _ (v * w)) with (rnd64 (v * w)). rewrite Et. rewrite Rabs_pos_eq by (apply Rmult_le_pos; lra).
    apply Rle_lt_trans with (bpow radix2 1000 * bpow radix2 1).
    + apply Rmult_le_compat; [lra|lra|assumption|]. change (bpow radix2 1) with 2. lra.
    + rewrite <- bpow_plus. apply bpow_lt. unfold emax64. lia.
  - rewrite Et. apply Rmult_lt_0_compat; lra.
  - rewrite Et, !ln_mult by (try assumption; try lra).
    replace (ln v + ln w + ln (1 + t) - (ln r + ln s)) with ((ln v - ln r) + (ln w - ln s) + ln (1 + t)) by ring.
    eapply Rle_trans; [apply Rabs_triang|]. pose proof (Rabs_triang (ln v - ln r) (ln w - ln s)).
    pose proof (ln_1p t ltac:(lra)). lra.
Qed.

Section Lib.
Variable M : mathlib.
Variable lg : f64 -> f64.
Hypothesis Hpow : accurate_pow (16 * u) (m_pow M).

Lemma lapprox_pow x y a b e B f La : lapprox x a e -> approx y b B f -> Rabs (ln a) <= La ->
  e * u <= 1 -> f * u <= 1 -> La + 1 <= 500 -> (B + 1) * (La + 1) <= 500 -> B <= 1000 ->
  lapprox (m_pow M x y) (Rpower a b) (f * (La + 1) + B * e + 32 * (2 + B)).
Proof.
  intros (Vx & Pa & Pe & v & Xv & Pv & Dv) (Vy & Pf & HB & w & Yw & Dw) HL He Hf H1 H2 H3. pose proof u_small as Hu.
  pose proof (Rabs_pos b) as Pb. pose proof (Rabs_pos (ln a)) as Pl.
  assert (Lv : Rabs (ln v) <= La + 1).
  { replace (ln v) with (ln a + (ln v - ln a)) by ring. eapply Rle_trans; [apply Rabs_triang|]. lra. }
  assert (Bw : Rabs w <= B + 1).
  { replace w with (b + (w - b)) by ring. eapply Rle_trans; [apply Rabs_triang|]. lra. }
  pose proof (Rabs_pos w) as Pw. pose proof (Rabs_pos (ln v)) as Plv.
  assert (Lw : Rabs (w * ln v) <= 500).
  { rewrite Rabs_mult. eapply Rle_trans; [|exact H2]. apply Rmult_le_compat; lra. }
  pose proof (Hpow x y v w Vx Vy Xv Yw Pv ltac:(lra) Lw) as Hr.
  assert (Hd : 16 * u * (1 + Rabs w) <= / 2).
  { apply Rle_trans with (16 * / 10 ^ 15 * 1002); [|lra]. apply Rmult_le_compat; [lra|lra|lra|lra]. }
  destruct (relative_log _ _ _ (exp_pos _) Hd Hr) as (z & Xz & Pz & Dz).
  split; [apply Hr|]. split; [apply exp_pos|]. split.
  { assert (0 <= f * (La + 1)) by (apply Rmult_le_pos; lra). assert (0 <= B * e) by (apply Rmult_le_pos; lra). lra. }
  exists z. split; [assumption|]. split; [assumption|].
  unfold Rpower in Dz |- *. rewrite ln_exp in Dz |- *.
  replace (ln z - b * ln a) with ((ln z - w * ln v) + ((w - b) * ln v + b * (ln v - ln a))) by ring.
  eapply Rle_trans; [apply Rabs_triang|]. pose proof (Rabs_triang ((w - b) * ln v) (b * (ln v - ln a))) as T. rewrite !Rabs_mult in T.
  assert (Rabs (w - b) * Rabs (ln v) <= f * u * (La + 1)) by (apply Rmult_le_compat; try apply Rabs_pos; assumption).
  assert (Rabs b * Rabs (ln v - ln a) <= B * (e * u)) by (apply Rmult_le_compat; try apply Rabs_pos; assumption).
  assert (16 * u * (1 + Rabs w) <= 16 * u * (2 + B)) by (apply Rmult_le_compat_l; lra).
  lra.
Qed.

Hypothesis Hlog : accurate_log10 (16 * u) lg.

Lemma ln10_range : 2 <= ln 10 <= 2.4.
Proof.
  split.
  - rewrite <- (ln_exp 2). replace (exp 2) with (exp 1 * exp 1) by (rewrite <- exp_plus; f_equal; ring).
    pose proof exp_le_3. pose proof (exp_pos 1). left. apply ln_increasing; nra.
  - assert (H : 10 <= exp 2.4).
    { pose proof (exp_ineq1_le 0.05) as H0. replace (exp 2.4) with (exp 0.05 ^ 48).
      2:{ rewrite <- Rpower_pow by apply exp_pos. unfold Rpower. rewrite ln_exp. f_equal. rewrite INR_IZR_INZ. simpl. lra. }
      apply Rle_trans with (1.05 ^ 48); [lra|]. apply pow_incr. lra. }
    rewrite <- (ln_exp 2.4). destruct (Req_dec 10 (exp 2.4)) as [<-|]; [lra|]. left. apply ln_increasing; lra.
Qed.

Lemma log10_abs x : Rabs (log10 x) <= Rabs (ln x) / 2.
Proof.
  unfold log10, Rdiv. rewrite Rabs_mult. pose proof ln10_range. rewrite (Rabs_pos_eq (/ ln 10)) by (left; apply Rinv_0_lt_compat; lra).
  apply Rmult_le_compat_l; [apply Rabs_pos|]. apply Rinv_le_contravar; lra.
Qed.

Lemma approx_log x a e K : lapprox x a e -> Rabs (ln a) <= K -> e * u <= 1 -> K + 1 <= 500 ->
  approx (lg x) (log10 a) (K / 2) (e / 2 + 16 * (2 + K / 2)).
Proof.
  intros (Vx & Pa & Pe & v & Xv & Pv & Dv) HK He H1. pose proof u_small as Hu. pose proof (Rabs_pos (ln a)).
  assert (Lv : Rabs (ln v) <= K + 1).
  { replace (ln v) with (ln a + (ln v - ln a)) by ring. eapply Rle_trans; [apply Rabs_triang|]. lra. }
  destruct (Hlog x v Vx Xv Pv ltac:(lra)) as (Vz & z & Xz & Dz).
  split; [assumption|]. split; [lra|]. split; [eapply Rle_trans; [apply log10_abs|]; lra|].
  exists z. split; [assumption|]. replace (z - log10 a) with ((z - log10 v) + (log10 v - log10 a)) by ring.
  eapply Rle_trans; [apply Rabs_triang|].
  assert (Rabs (log10 v - log10 a) <= e * u / 2).
  { unfold log10. pose proof ln10_range. replace (ln v / ln 10 - ln a / ln 10) with ((ln v - ln a) * / ln 10) by (field; lra).
    rewrite Rabs_mult, (Rabs_pos_eq (/ ln 10)) by (left; apply Rinv_0_lt_compat; lra). unfold Rdiv.
    apply Rmult_le_compat; [apply Rabs_pos|left; apply Rinv_0_lt_compat; lra|assumption|apply Rinv_le_contravar; lra]. }
  pose proof (log10_abs v). 
  assert (16 * u * (1 + Rabs (log10 v)) <= 16 * u * (2 + K / 2)) by (apply Rmult_le_compat_l; lra). lra.
Qed.

(** * The constants of a relation *)
Variables x y : f64.
Variables a b : R.
Hypothesis Hx : relative u x a.
Hypothesis Hy : relative u y b.
Hypothesis Ha : 1 <= a <= 1000.
Hypothesis Hb : 1 <= b <= 2.

Let A := arith64 M.
Let rel := new_zr A lg x y.

Lemma lx : lapprox x a 2.
Proof.
  pose proof u_small. destruct (relative_log u x a ltac:(lra) ltac:(lra) Hx) as (v & H1 & H2 & H3).
  split; [apply Hx|]. split; [lra|]. split; [lra|]. exists v. auto.
Qed.
Lemma ay : approx y b 2 2.
Proof.
  pose proof u_small. destruct Hy as (V & v & Xv & Dv). split; [assumption|]. split; [lra|]. rewrite (Rabs_pos_eq b) in * by lra. split; [lra|].
  exists v. split; [assumption|]. nra.
Qed.
Lemma c1_approx : approx (z_c1 A rel) (10 * b) 20 31.
Proof.
  unfold rel, new_zr. cbn [z_c1 A arith64 n_mul n_ofZ].
  eapply approx_weak; [apply (approx_mul _ _ (IZR 10) b 10 0 2 2 (approx_int 10 10 ltac:(lia) ltac:(rewrite Rabs_pos_eq; lra)) ay)| |]; unfold U, tiny; lra.
Qed.
Lemma ln_a : 0 <= ln a <= 7.2.
Proof.
  clear Hx.
  split.
  - rewrite <- ln_1. destruct (Req_dec 1 a) as [<-|]; [lra|]. left. apply ln_increasing; lra.
  - apply Rle_trans with (ln (10 ^ 3)).
    + destruct (Req_dec a (10 ^ 3)) as [->|]; [lra|]. left. apply ln_increasing; lra.
    + rewrite ln_pow by lra. simpl INR. pose proof ln10_range. lra.
Qed.
Lemma inv_b : / 2 <= / b <= 1.
Proof. split; [apply Rinv_le_contravar; lra|]. rewrite <- Rinv_1. apply Rinv_le_contravar; lra. Qed.
Lemma c2_approx : lapprox (z_c2 A rel) (Rpower a (-1 / b)) 200.
Proof.
  unfold rel, new_zr. cbn [z_c2 A arith64 n_pow n_ofZ n_div]. pose proof inv_b as Ib. pose proof u_small.
  assert (Q : approx (f64_div (f64_of_int (-1)) y) (-1 / b) 1 3).
  { assert (Rabs (-1 / b) <= 1).
    { unfold Rdiv. rewrite Rabs_mult, (Rabs_pos_eq (/ b)), (Rabs_left (-1)) by lra. lra. }
    assert (Rabs (-1) <= 1) by (rewrite Rabs_left; lra).
    eapply approx_weak; [apply (approx_div _ _ (IZR (-1)) b 1 0 2 2 0.9 1 (approx_int (-1) 1 ltac:(lia) ltac:(assumption)) ay)| |];
      try assumption; try rewrite (Rabs_pos_eq b) by lra; unfold U, tiny; lra. }
  pose proof ln_a. eapply lapprox_weak; [apply (lapprox_pow x _ a (-1 / b) 2 1 3 7.2 lx Q)|]; try lra. rewrite Rabs_pos_eq; lra.
Qed.
Lemma c3_approx : lapprox (z_c3 A rel) (Rpower 10 (1 / (10 * b))) 80.
Proof.
  pose proof c1_approx as C. unfold rel, new_zr in C |- *. cbn [z_c1 z_c3 A arith64 n_pow n_ofZ n_div n_mul] in C |- *. pose proof inv_b as Ib. pose proof u_small.
  set (c1 := f64_mul _ y) in *.
  assert (Q : approx (f64_div (f64_of_int 1) c1) (1 / (10 * b)) 0.1 0.5).
  { assert (Rabs (1 / (10 * b)) <= 0.1).
    { replace (1 / (10 * b)) with (/ 10 * / b) by (field; lra). rewrite Rabs_pos_eq; lra. }
    assert (Rabs 1 <= 1) by (rewrite Rabs_R1; lra).
    eapply approx_weak; [apply (approx_div _ _ (IZR 1) (10 * b) 1 0 20 31 9 0.1 (approx_int 1 1 ltac:(lia) ltac:(assumption)) C)| |];
      try assumption; try rewrite (Rabs_pos_eq (10 * b)) by lra; unfold U, tiny; lra. }
  destruct (of_int_value64 10 ltac:(lia)) as [V10 X10].
  pose proof ln10_range. eapply lapprox_weak; [apply (lapprox_pow (f64_of_int 10) _ 10 (1 / (10 * b)) 0 0.1 0.5 2.4 (lapprox_value _ 10 V10 X10 ltac:(lra)) Q)|]; try lra.
  rewrite Rabs_pos_eq; lra.
Qed.
Lemma c4_approx : approx (z_c4 A rel) (10 * log10 a) 36 1000.
Proof.
  unfold rel, new_zr. cbn [z_c4 A arith64 n_mul n_ofZ]. pose proof ln_a. pose proof u_small.
  pose proof (approx_log x a 2 7.2 lx ltac:(rewrite Rabs_pos_eq; lra) ltac:(lra) ltac:(lra)) as L.
  eapply approx_weak; [apply (approx_mul _ _ (IZR 10) (log10 a) 10 0 (7.2 / 2) _ (approx_int 10 10 ltac:(lia) ltac:(rewrite Rabs_pos_eq; lra)) L)| |]; unfold U, tiny; lra.
Qed.

(** * PrecipitationRate *)
Lemma widen_value d r : valid32 d -> is_value d r -> valid64 (f64_of_f32 d) /\ is_value (f64_of_f32 d) r.
Proof.
  intros V X. destruct d as [s|s| |s m e]; [split; [reflexivity|exact X]|destruct X|destruct X|].
  assert (F : format64 r).
  { pose proof (valid_format prec32 emax32 _ _ V X) as G. apply FLT_format_generic in G; [|reflexivity].
    destruct G as [f E1 E2 E3]. apply generic_format_FLT. exists f; [assumption| |].
    - eapply Z.lt_trans; [exact E2|]. reflexivity.
    - eapply Z.le_trans; [|exact E3]. discriminate. }
  pose proof (round_result prec64 emax64 _ _ s m e) as Hr. rewrite signed_value in Hr. cbn [is_value] in X. rewrite <- X in Hr.
  split; [apply Hr|]. eapply result_exact; [exact Hr|exact F|].
  pose proof (valid_bound prec32 emax32 (S754_finite s m e) r V X) as Bd.
  eapply Rlt_trans; [exact Bd|]. apply bpow_lt. reflexivity.
Qed.

Definition rate_f (d : f32) : f64 := precipitation_rate A f32 f64_of_f32 rel d.
Definition refl_f (z : f64) : f32 := reflectivity A lg f32 f32_of_f64 rel z.

Lemma exact_rate_exp dbz : exact_rate a b dbz = exp ((dbz / 10 * ln 10 - ln a) / b).
Proof.
  unfold exact_rate, Rpower. rewrite <- (exp_ln a) at 1 by lra. unfold Rdiv at 1. rewrite <- exp_Ropp, <- exp_plus, ln_exp. f_equal. field. lra.
Qed.
Lemma exact_rate_split dbz : exact_rate a b dbz = Rpower a (-1 / b) * Rpower (Rpower 10 (1 / (10 * b))) dbz.
Proof. rewrite exact_rate_exp. unfold Rpower. rewrite ln_exp, <- exp_plus. f_equal. field. lra. Qed.
Lemma ln_rate dbz : ln (exact_rate a b dbz) = (dbz / 10 * ln 10 - ln a) / b.
Proof. rewrite exact_rate_exp. apply ln_exp. Qed.
Lemma ln_rate_bound dbz : Rabs dbz <= 200 -> Rabs (ln (exact_rate a b dbz)) <= 56.
Proof.
  intros H. rewrite ln_rate. pose proof ln_a. pose proof ln10_range. pose proof inv_b as Ib. unfold Rdiv at 1. rewrite Rabs_mult, (Rabs_pos_eq (/ b)) by lra.
  assert (Rabs (dbz / 10 * ln 10 - ln a) <= 56).
  { replace (dbz / 10 * ln 10 - ln a) with (dbz * (ln 10 / 10) + - ln a) by field. eapply Rle_trans; [apply Rabs_triang|]. rewrite Rabs_Ropp, Rabs_mult, (Rabs_pos_eq (ln a)), (Rabs_pos_eq (ln 10 / 10)) by lra.
    assert (Rabs dbz * (ln 10 / 10) <= 200 * 0.24) by (apply Rmult_le_compat; try apply Rabs_pos; lra). lra. }
  pose proof (Rabs_pos (dbz / 10 * ln 10 - ln a)). nra.
Qed.

Lemma rate_approx d dbz : valid32 d -> is_value d dbz -> Rabs dbz <= 200 -> lapprox (rate_f d) (exact_rate a b dbz) 22700.
Proof.
  intros V X H. destruct (widen_value d dbz V X) as [Vw Xw]. pose proof u_small. pose proof u_upper. pose proof inv_b as Ib. pose proof ln10_range.
  unfold rate_f, precipitation_rate. change (n_mul A) with f64_mul. change (n_pow A) with (m_pow M).
  assert (E : Rabs (ln (Rpower 10 (1 / (10 * b)))) <= 0.24).
  { unfold Rpower. rewrite ln_exp. replace (1 / (10 * b) * ln 10) with (/ b * (ln 10 / 10)) by (field; lra). rewrite Rabs_pos_eq by nra. nra. }
  pose proof (lapprox_pow _ (f64_of_f32 d) _ dbz 80 200 0 0.24 c3_approx (approx_of_value _ dbz 200 Vw Xw H) E ltac:(lra) ltac:(lra) ltac:(lra) ltac:(lra) ltac:(lra)) as P.
  pose proof (ln_rate_bound dbz H) as L. rewrite exact_rate_split in *. rewrite ln_mult in L by apply exp_pos.
  eapply lapprox_weak; [eapply lapprox_mul; [exact c2_approx|exact P|lra]|lra].
Qed.

Lemma lapprox_relative z r e eps : lapprox z r e -> e <= 10 ^ 6 -> e * 2.6 / 10 ^ 16 <= eps -> relative eps z r.
Proof.
  intros (V & Pr & Pe & v & Xv & Pv & Dv) He Hs. pose proof u_small as Hu. pose proof u_upper as Hu'. split; [assumption|]. exists v. split; [assumption|].
  rewrite (Rabs_pos_eq r) by lra. set (t := ln v - ln r) in *. assert (Ev : v = r * exp t).
  { unfold t, Rminus. rewrite exp_plus, exp_Ropp, !exp_ln by assumption. field. lra. }
  assert (Ht : Rabs t <= 0.001).
  { eapply Rle_trans; [exact Dv|]. apply Rle_trans with (10 ^ 6 * / 10 ^ 15); [|lra]. apply Rmult_le_compat; lra. }
  pose proof (Rabs_le_inv _ _ Ht) as It.
  assert (Et : exp t <= 1.1).
  { pose proof (exp_ineq1_le (- t)) as E. rewrite exp_Ropp in E. pose proof (exp_pos t) as P.
    apply Rmult_le_reg_r with (/ exp t); [now apply Rinv_0_lt_compat|]. rewrite Rinv_r by lra. nra. }
  pose proof (exp_lip 1.1 t 0 Et ltac:(rewrite exp_0; lra)) as L. rewrite exp_0, Rminus_0_r in L.
  rewrite Ev. replace (r * exp t - r) with (r * (exp t - 1)) by ring. rewrite Rabs_mult, (Rabs_pos_eq r), Rmult_comm by lra.
  apply Rmult_le_compat_r; [lra|]. eapply Rle_trans; [exact L|]. 
  assert (e * u <= e * (2.3 / 10 ^ 16)) by (apply Rmult_le_compat_l; lra). lra.
Qed.

(** * Reflectivity *)
Lemma exact_dbz_split r : 0 < r -> exact_dbz a b r = 10 * log10 a + 10 * b * log10 r.
Proof.
  intros Hr. unfold exact_dbz, log10. rewrite ln_mult; [|lra|apply exp_pos]. unfold Rpower. rewrite ln_exp. pose proof ln10_range. field. lra.
Qed.
Lemma exact_dbz_bound r K : 0 < r -> Rabs (ln r) <= K -> Rabs (exact_dbz a b r) <= 36 + 10 * K.
Proof.
  intros Hr HK. rewrite exact_dbz_split by assumption. eapply Rle_trans; [apply Rabs_triang|]. pose proof (log10_abs a). pose proof (log10_abs r). pose proof ln_a.
  rewrite (Rabs_pos_eq (ln a)) in * by lra. rewrite !Rabs_mult, (Rabs_pos_eq 10), (Rabs_pos_eq b) by lra. 
  assert (10 * b * Rabs (log10 r) <= 10 * 2 * (K / 2)); [|lra]. apply Rmult_le_compat; [lra|apply Rabs_pos|lra|lra].
Qed.

Lemma refl_approx z r e : lapprox z r e -> Rabs (ln r) <= 60 -> e <= 30000 ->
  exists w, refl_f z = f32_of_f64 w /\ approx w (exact_dbz a b r) 636 (10 * e + 13200).
Proof.
  intros Hz Hr He. pose proof u_small. pose proof u_upper. destruct Hz as (V & Pr & Pe & Hz').
  assert (Hz : lapprox z r e) by (split; [|split; [|split]]; assumption).
  assert (Hu1 : e * u <= 1) by (apply Rle_trans with (30000 * u); [apply Rmult_le_compat_r; lra|lra]).
  pose proof (approx_log z r e 60 Hz Hr Hu1 ltac:(lra)) as L.
  pose proof (exact_dbz_bound r 60 Pr Hr) as Bd.
  eexists. split; [reflexivity|]. change (n_add_mul A AtReflectivity) with (add_mul (m_fused M AtReflectivity)).
  rewrite exact_dbz_split in * by assumption.
  eapply approx_weak; [eapply (approx_add_mul _ _ _ _ _ _ _ _ _ _ _ _ _ (10 * e + 11800) 636 c1_approx L c4_approx)| |]; try (unfold mul_err, U, tiny; lra).
Qed.
End Lib.

(** * Rounding to float32 *)
Lemma narrow_result z r : is_value z r -> valid64 z -> valid32 (f32_of_f64 z) /\ (Rabs (rnd32 r) < bpow radix2 emax32 -> is_value (f32_of_f64 z) (rnd32 r)).
Proof.
  intros X V. destruct z as [s|s| |s m e]; [|destruct X|destruct X|].
  - cbn in X. subst r. split; [reflexivity|]. intros _. unfold rnd32. rewrite round_0 by exact _. reflexivity.
  - pose proof (round_result prec32 emax32 _ _ s m e) as Hr. rewrite signed_value in Hr. cbn [is_value] in X. rewrite <- X in Hr.
    split; [apply Hr|]. intros Hb. apply (result_value _ _ _ _ Hr). exact Hb.
Qed.

Lemma small32 r : Rabs r <= 10 ^ 6 -> Rabs (rnd32 r) < bpow radix2 emax32.
Proof.
  intros H. pose proof (rnd32_err r) as E. pose proof (Rabs_triang (rnd32 r - r) r) as T. replace (rnd32 r - r + r) with (rnd32 r) in T by ring.
  apply Rlt_trans with (bpow radix2 30); [|apply bpow_lt; reflexivity]. change (bpow radix2 30) with (IZR (2 ^ 30)). change (2 ^ 30)%Z with 1073741824%Z. lra.
Qed.

(** Float32 values of at least 2^-8 are multiples of 2^-31. *)
Lemma grid32 r : format32 r -> bpow radix2 (-8) <= Rabs r -> exists k, r = IZR k * bpow radix2 (-31).
Proof.
  intros F H. unfold format32 in F. red in F. set (e := cexp _ _ r) in F. set (m := Ztrunc _) in F.
  assert (He : (-31 <= e)%Z).
  { unfold e, cexp, FLT_exp. assert (-7 <= mag radix2 r)%Z by (apply mag_ge_bpow; exact H). unfold prec32. lia. }
  exists (m * 2 ^ (e + 31))%Z. rewrite F. unfold F2R. cbn [Fnum Fexp]. rewrite mult_IZR, (IZR_Zpower radix2) by lia.
  rewrite Rmult_assoc, <- bpow_plus. do 2 f_equal. lia.
Qed.

Lemma rnd32_back s r : format32 r -> 0.01 <= Rabs r -> Rabs (s - r) <= / 10 ^ 10 -> rnd32 s = r.
Proof.
  intros F Hr Hs. set (t := rnd32 s).
  assert (Ft : format32 t) by (apply generic_format_round; exact _).
  assert (Hn : Rabs (t - s) <= Rabs (r - s)).
  { apply (round_N_pt radix2 (FLT_exp (3 - emax32 - prec32) prec32) (fun n => negb (Z.even n)) s). exact F. }
  assert (Hd : Rabs (t - r) <= 2 * / 10 ^ 10).
  { replace (t - r) with ((t - s) + (s - r)) by ring. eapply Rle_trans; [apply Rabs_triang|]. rewrite (Rabs_minus_sym r s) in Hn. lra. }
  assert (E8 : bpow radix2 (-8) = / 256) by reflexivity.
  destruct (grid32 r F ltac:(rewrite E8; lra)) as [k Ek].
  assert (Ht : bpow radix2 (-8) <= Rabs t).
  { rewrite E8. pose proof (Rabs_triang (r - t) t) as T. replace (r - t + t) with r in T by ring. rewrite (Rabs_minus_sym r t) in T. lra. }
  destruct (grid32 t Ft Ht) as [l El].
  assert (l = k); [|congruence].
  assert (H : Rabs (IZR (l - k)) * bpow radix2 (-31) <= 2 * / 10 ^ 10).
  { rewrite <- (Rabs_pos_eq (bpow radix2 (-31))) by apply bpow_ge_0. rewrite <- Rabs_mult, minus_IZR, Rmult_minus_distr_r, <- Ek, <- El. exact Hd. }
  rewrite <- abs_IZR in H. change (bpow radix2 (-31)) with (/ IZR (2 ^ 31)) in H. change (2 ^ 31)%Z with 2147483648%Z in H.
  destruct (Z.eq_dec l k) as [|N]; [assumption|]. exfalso.
  assert (1 <= IZR (Z.abs (l - k))) by (apply IZR_le; lia). lra.
Qed.

Lemma same32 (d e : f32) r : valid32 d -> valid32 e -> is_value d r -> is_value e r -> r <> 0 -> d = e.
Proof.
  intros Vd Ve Xd Xe Hr. destruct (lift prec32 emax32 d Vd) as [bd ->]. destruct (lift prec32 emax32 e Ve) as [be ->].
  apply B2SF_value in Xd, Xe. destruct Xd as [F1 E1]. destruct Xe as [F2 E2]. f_equal.
  apply B2R_inj; [| |congruence].
  - destruct bd as [s|s| |s m x H]; try reflexivity; try discriminate. now destruct Hr.
  - destruct be as [s|s| |s m x H]; try reflexivity; try discriminate. now destruct Hr.
Qed.

(** * C58 *)
Lemma unit16 : powerRZ 2 (-48) = 16 * u.
Proof.
  unfold u. rewrite bpow_powerRZ. change (IZR radix2) with 2. change (-48)%Z with (4 + -52)%Z. rewrite powerRZ_add by lra. 
  replace (powerRZ 2 4) with 16 by (simpl; lra). reflexivity.
Qed.
Lemma unit1 : powerRZ 2 (-52) = u.
Proof. unfold u. rewrite bpow_powerRZ. reflexivity. Qed.

(** PrecipitationRate in float64 is accurate to 11 digits. *)
Theorem C58_rate M lg x y a b d dbz :
  accurate_pow (powerRZ 2 (-48)) (m_pow M) ->
  relative (powerRZ 2 (-52)) x a -> relative (powerRZ 2 (-52)) y b -> 1 <= a <= 1000 -> 1 <= b <= 2 ->
  valid32 d -> is_value d dbz -> Rabs dbz <= 200 ->
  relative (/ 10 ^ 11) (precipitation_rate (arith64 M) f32 f64_of_f32 (new_zr (arith64 M) lg x y) d) (exact_rate a b dbz).
Proof.
  rewrite unit16, unit1. intros HP Hx Hy Ha Hb V X H.
  eapply lapprox_relative; [eapply (rate_approx M lg HP x y a b Hx Hy Ha Hb d dbz V X H)| |]; lra.
Qed.

Lemma ln_20 r : / 10 ^ 20 <= r <= 10 ^ 20 -> 0 < r /\ Rabs (ln r) <= 60.
Proof.
  intros H. assert (0 < / 10 ^ 20) by (apply Rinv_0_lt_compat; lra). split; [lra|]. pose proof ln10_range.
  assert (E : ln (10 ^ 20) = 20 * ln 10) by (rewrite ln_pow by lra; f_equal; rewrite INR_IZR_INZ; reflexivity).
  assert (E' : ln (/ 10 ^ 20) = - (20 * ln 10)) by (rewrite ln_Rinv by lra; now rewrite E).
  assert (ln r <= ln (10 ^ 20)) by (destruct (Req_dec r (10 ^ 20)) as [->|]; [lra|]; left; apply ln_increasing; lra).
  assert (ln (/ 10 ^ 20) <= ln r) by (destruct (Req_dec (/ 10 ^ 20) r) as [<-|]; [lra|]; left; apply ln_increasing; lra).
  apply Rabs_le. lra.
Qed.

(** Reflectivity in float32 is accurate to the precision of float32. *)
Theorem C58_reflectivity M lg x y a b z r :
  accurate_log10 (powerRZ 2 (-48)) lg ->
  relative (powerRZ 2 (-52)) x a -> relative (powerRZ 2 (-52)) y b -> 1 <= a <= 1000 -> 1 <= b <= 2 ->
  valid64 z -> is_value z r -> / 10 ^ 20 <= r <= 10 ^ 20 ->
  let dbz := reflectivity (arith64 M) lg f32 f32_of_f64 (new_zr (arith64 M) lg x y) z in
  valid32 dbz /\ exists v, is_value dbz v /\ Rabs (v - exact_dbz a b r) <= Rabs (exact_dbz a b r) / 2 ^ 24 + / 10 ^ 10.
Proof.
  rewrite unit16, unit1. intros HL Hx Hy Ha Hb V X H dbz. destruct (ln_20 r H) as [Pr Hr].
  destruct (refl_approx M lg HL x y a b Hx Hy Ha Hb z r 0 (lapprox_value z r V X Pr) Hr ltac:(lra)) as (w & E & Vw & _ & B & v & Xv & Dv).
  change dbz with (refl_f M lg x y z). rewrite E. destruct (narrow_result w v Xv Vw) as [Vn Hn]. split; [assumption|].
  pose proof u_upper. assert (Dv' : Rabs (v - exact_dbz a b r) <= / 10 ^ 11).
  { eapply Rle_trans; [exact Dv|]. apply Rle_trans with ((10 * 0 + 13200) * (2.3 / 10 ^ 16)); [apply Rmult_le_compat_l; lra|lra]. }
  pose proof (Rabs_triang (v - exact_dbz a b r) (exact_dbz a b r)) as T. replace (v - exact_dbz a b r + exact_dbz a b r) with v in T by ring.
  exists (rnd32 v). split; [apply Hn, small32; lra|].
  replace (rnd32 v - exact_dbz a b r) with ((rnd32 v - v) + (v - exact_dbz a b r)) by ring.
  eapply Rle_trans; [apply Rabs_triang|]. pose proof (rnd32_err v). lra.
Qed.

Lemma exact_inverse a b dbz : 1 <= a <= 1000 -> 1 <= b <= 2 -> exact_dbz a b (exact_rate a b dbz) = dbz.
Proof.
  intros Ha Hb. rewrite exact_dbz_split; [|lra|apply exp_pos]. unfold log10. rewrite (ln_rate a b Ha Hb). pose proof ln10_range. field. lra.
Qed.

(** Reflectivity gives back, bit for bit, the dBZ value the rate was computed
    from (values closer to 0 than 0.01 dBZ come back with an error of at most
    10^-9 dBZ). *)
Theorem C58_round_trip M lg x y a b d dbz :
  accurate_pow (powerRZ 2 (-48)) (m_pow M) -> accurate_log10 (powerRZ 2 (-48)) lg ->
  relative (powerRZ 2 (-52)) x a -> relative (powerRZ 2 (-52)) y b -> 1 <= a <= 1000 -> 1 <= b <= 2 ->
  valid32 d -> is_value d dbz -> Rabs dbz <= 200 ->
  let r := new_zr (arith64 M) lg x y in
  let back := reflectivity (arith64 M) lg f32 f32_of_f64 r (precipitation_rate (arith64 M) f32 f64_of_f32 r d) in
  (0.01 <= Rabs dbz -> back = d) /\
  (Rabs dbz < 0.01 -> exists v, is_value back v /\ Rabs (v - dbz) <= / 10 ^ 9).
Proof.
  rewrite unit16, unit1. intros HP HL Hx Hy Ha Hb V X H r back.
  pose proof (rate_approx M lg HP x y a b Hx Hy Ha Hb d dbz V X H) as Hrate.
  pose proof (ln_rate_bound a b Ha Hb dbz H) as Hln.
  destruct (refl_approx M lg HL x y a b Hx Hy Ha Hb _ _ _ Hrate ltac:(lra) ltac:(lra)) as (w & E & Vw & _ & _ & v & Xv & Dv).
  change back with (refl_f M lg x y (rate_f M lg x y d)). rewrite E. rewrite exact_inverse in Dv by lra.
  pose proof u_upper. assert (Dv' : Rabs (v - dbz) <= / 10 ^ 10).
  { eapply Rle_trans; [exact Dv|]. apply Rle_trans with ((10 * 22700 + 13200) * (2.3 / 10 ^ 16)); [apply Rmult_le_compat_l; lra|lra]. }
  pose proof (Rabs_triang (v - dbz) dbz) as T. replace (v - dbz + dbz) with v in T by ring.
  destruct (narrow_result w v Xv Vw) as [Vn Hn]. specialize (Hn (small32 v ltac:(lra))). split; intros Hd.
  - rewrite (rnd32_back v dbz (valid_format prec32 emax32 _ _ V X) Hd Dv') in Hn. apply (same32 _ _ dbz Vn V Hn X).
    intros ->. rewrite Rabs_R0 in Hd. lra.
  - exists (rnd32 v). split; [assumption|]. replace (rnd32 v - dbz) with ((rnd32 v - v) + (v - dbz)) by ring.
    eapply Rle_trans; [apply Rabs_triang|]. pose proof (rnd32_err v). lra.
Qed.

(** A stronger echo (by a thousandth of a dBZ) always gives a greater rate. *)
Theorem C58_increasing M lg x y a b d e dbz dbz' :
  accurate_pow (powerRZ 2 (-48)) (m_pow M) ->
  relative (powerRZ 2 (-52)) x a -> relative (powerRZ 2 (-52)) y b -> 1 <= a <= 1000 -> 1 <= b <= 2 ->
  valid32 d -> is_value d dbz -> Rabs dbz <= 200 -> valid32 e -> is_value e dbz' -> Rabs dbz' <= 200 -> dbz + 0.001 <= dbz' ->
  let rate := precipitation_rate (arith64 M) f32 f64_of_f32 (new_zr (arith64 M) lg x y) in f_lt (rate d) (rate e) = true.
Proof.
  rewrite unit16, unit1. intros HP Hx Hy Ha Hb V X H V' X' H' Hlt rate.
  pose proof (rate_approx M lg HP x y a b Hx Hy Ha Hb d dbz V X H) as (V1 & P1 & _ & v1 & X1 & Q1 & D1).
  pose proof (rate_approx M lg HP x y a b Hx Hy Ha Hb e dbz' V' X' H') as (V2 & P2 & _ & v2 & X2 & Q2 & D2).
  apply (ltb_values prec64 emax64 _ _ v1 v2 V1 V2 X1 X2). rewrite (ln_rate a b Ha Hb) in D1, D2.
  apply ln_lt_inv; [assumption|assumption|]. pose proof u_upper. pose proof u_small.
  assert (22700 * u <= 0.00001) by lra. apply Rabs_le_inv in D1. apply Rabs_le_inv in D2. pose proof ln10_range.
  assert ((dbz / 10 * ln 10 - ln a) / b + 0.0001 <= (dbz' / 10 * ln 10 - ln a) / b); [|lra].
  replace ((dbz' / 10 * ln 10 - ln a) / b) with ((dbz / 10 * ln 10 - ln a) / b + (dbz' - dbz) * (ln 10 / 10) * / b) by (field; lra).
  apply Rplus_le_compat_l. pose proof (inv_b b Hb). apply Rle_trans with (0.001 * 0.2 * / 2); [lra|].
  apply Rmult_le_compat; [lra|lra|apply Rmult_le_compat; lra|lra].
Qed.

(** * The named relations *)
Lemma relative_value z r : valid64 z -> is_value z r -> relative u z r.
Proof.
  intros V X. split; [assumption|]. exists r. split; [assumption|]. rewrite Rminus_eq_0, Rabs_R0. pose proof u_small. apply Rmult_le_pos; [lra|apply Rabs_pos].
Qed.
Lemma relative_lit n d r : IZR (Zpos n) / IZR (Zpos d) = r -> 1 <= r <= 1000 -> relative u (of_ratio prec64 emax64 false n d) r.
Proof.
  intros E Hr. pose proof (ratio_result prec64 emax64 _ _ false n d) as Hq. rewrite E, Rmult_1_l in Hq.
  split; [apply Hq|]. exists (rnd64 r). split.
  - apply (result_value _ _ _ _ Hq). apply no_overflow. rewrite Rabs_pos_eq; lra.
  - eapply Rle_trans; [apply rnd_err|]. rewrite (Rabs_pos_eq r), Rmult_comm by lra. pose proof u_small. apply Rmult_le_compat_l; unfold tiny; lra.
Qed.

Theorem C58_named M lg :
  accurate_pow (powerRZ 2 (-48)) (m_pow M) -> accurate_log10 (powerRZ 2 (-48)) lg ->
  List.Forall (fun '(r, a, b) => forall d dbz, valid32 d -> is_value d dbz -> Rabs dbz <= 200 ->
    let rate := precipitation_rate (arith64 M) f32 f64_of_f32 r d in
    relative (/ 10 ^ 11) rate (exact_rate a b dbz) /\
    (0.01 <= Rabs dbz -> reflectivity (arith64 M) lg f32 f32_of_f64 r rate = d)) (float_named M lg).
Proof.
  intros HP HL.
  assert (K : forall x y a b, relative u x a -> relative u y b -> 1 <= a <= 1000 -> 1 <= b <= 2 ->
    forall d dbz, valid32 d -> is_value d dbz -> Rabs dbz <= 200 ->
    let r := new_zr (arith64 M) lg x y in let rate := precipitation_rate (arith64 M) f32 f64_of_f32 r d in
    relative (/ 10 ^ 11) rate (exact_rate a b dbz) /\
    (0.01 <= Rabs dbz -> reflectivity (arith64 M) lg f32 f32_of_f64 r rate = d)).
  { intros x y a b Hx Hy Ha Hb d dbz V X H r rate. rewrite <- unit1 in Hx, Hy. split; [now apply C58_rate|].
    apply (C58_round_trip M lg x y a b d dbz HP HL Hx Hy Ha Hb V X H). }
  unfold float_named, Aniol80, Doelling98, JossWaldvogel70, MarshallPalmer55.
  assert (I : forall n, (0 < n <= 1000)%Z -> relative u (f64_of_int n) (IZR n)).
  { intros n Hn. destruct (of_int_value64 n ltac:(lia)) as [V X]. now apply relative_value. }
  repeat apply List.Forall_cons; [| | | |apply List.Forall_nil];
    (apply K; [apply I; lia|apply relative_lit; [cbn; lra|lra]|lra|lra]).
Qed.

(** * A library that meets the hypotheses *)
Lemma round64_relative r : bpow radix2 (-1000) <= r <= bpow radix2 1000 -> relative (16 * u) (round64 r) r.
Proof.
  intros H. pose proof (bpow_gt_0 radix2 (-1000)) as P. pose proof u_small as Hu.
  pose proof (normalize_result prec64 emax64 _ _ (ZnearestE (scaled_mantissa radix2 (FLT_exp (3 - emax64 - prec64) prec64) r))
    (cexp radix2 (FLT_exp (3 - emax64 - prec64) prec64) r) false) as Hr.
  change (F2R _) with (rnd64 r) in Hr.
  assert (F : generic_format radix2 (FLT_exp (3 - emax64 - prec64) prec64) (rnd64 r)) by (apply generic_format_round; exact _).
  destruct (rel64 r) as (t & Ht & Et).
  { rewrite Rabs_pos_eq by lra. eapply Rle_trans; [|apply H]. apply bpow_le. lia. }
  assert (Ht' : Rabs t <= u / 2).
  { eapply Rle_trans; [exact Ht|]. unfold u. change (-53)%Z with (-1 + -52)%Z. rewrite bpow_plus. change (bpow radix2 (-1)) with (/ 2). lra. }
  pose proof (Rabs_le_inv _ _ Ht') as It.
  split; [apply Hr|]. exists (rnd64 r). split.
  - eapply result_exact; [exact Hr|exact F|]. rewrite Et, Rabs_pos_eq by (apply Rmult_le_pos; lra).
    apply Rle_lt_trans with (bpow radix2 1000 * bpow radix2 1).
    + apply Rmult_le_compat; [lra|lra|apply H|]. change (bpow radix2 1) with 2. lra.
    + rewrite <- bpow_plus. apply bpow_lt. unfold emax64. lia.
  - rewrite Et. replace (r * (1 + t) - r) with (t * r) by ring. rewrite Rabs_mult. apply Rmult_le_compat_r; [apply Rabs_pos|]. lra.
Qed.

Lemma relative_weak e f z r : e <= f -> relative e z r -> relative f z r.
Proof.
  intros H (V & v & X & D). split; [assumption|]. exists v. split; [assumption|]. eapply Rle_trans; [exact D|]. apply Rmult_le_compat_r; [apply Rabs_pos|assumption].
Qed.

Lemma correct_pow : accurate_pow (powerRZ 2 (-48)) (m_pow correct).
Proof.
  rewrite unit16. intros x y a b _ _ Hx Hy Ha _ HB. apply is_value_iff in Hx, Hy. destruct Hx as [_ ->]. destruct Hy as [_ ->].
  cbn [correct m_pow]. pose proof u_small.
  eapply relative_weak; [|apply round64_relative; apply exp_range; exact HB]. pose proof (Rabs_pos (SF2R radix2 y)). nra.
Qed.

Definition correct_log10 (x : f64) : f64 := round64 (log10 (SF2R radix2 x)).
Lemma correct_log : accurate_log10 (powerRZ 2 (-48)) correct_log10.
Proof.
  rewrite unit16. intros x a _ Hx Ha HB. apply is_value_iff in Hx. destruct Hx as [_ ->]. unfold correct_log10.
  set (r := log10 _). pose proof u_small as Hu. assert (Hb : Rabs r <= 250) by (eapply Rle_trans; [apply log10_abs|lra]).
  pose proof (normalize_result prec64 emax64 _ _ (ZnearestE (scaled_mantissa radix2 (FLT_exp (3 - emax64 - prec64) prec64) r))
    (cexp radix2 (FLT_exp (3 - emax64 - prec64) prec64) r) false) as Hr.
  change (F2R _) with (rnd64 r) in Hr.
  assert (F : generic_format radix2 (FLT_exp (3 - emax64 - prec64) prec64) (rnd64 r)) by (apply generic_format_round; exact _).
  split; [apply Hr|]. exists (rnd64 r). split; [eapply result_exact; [exact Hr|exact F|apply no_overflow; lra]|].
  eapply Rle_trans; [apply rnd_err|]. rewrite (Rmult_comm 16 u), Rmult_assoc, (Rmult_comm _ u). apply Rmult_le_compat_l; [lra|]. pose proof (Rabs_pos r). unfold tiny. lra.
Qed.

(** 17.5 dBZ: a case of every theorem of this file. *)
Example C58_case :
  accurate_pow (powerRZ 2 (-48)) (m_pow correct) /\ accurate_log10 (powerRZ 2 (-48)) correct_log10 /\
  relative (powerRZ 2 (-52)) (f64_of_int 256) 256 /\ relative (powerRZ 2 (-52)) (f64_lit 142 (-2)) 1.42 /\
  let d := f32_lit 175 (-1) in valid32 d /\ is_value d 17.5 /\ 0.01 <= Rabs 17.5 <= 200.
Proof.
  split; [apply correct_pow|]. split; [apply correct_log|]. rewrite unit1. split.
  { destruct (of_int_value64 256 ltac:(lia)) as [V X]. now apply relative_value. }
  split; [apply relative_lit; [cbn; lra|lra]|]. split; [vm_compute; reflexivity|]. split; [|rewrite Rabs_pos_eq; lra].
  assert (E : f32_lit 175 (-1) = S754_finite false 9175040 (-19)) by (vm_compute; reflexivity). rewrite E. cbn [is_value].
  simpl powerRZ. lra.
Qed.
