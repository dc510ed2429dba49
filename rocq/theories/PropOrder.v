(** C60: order, separation and continuity of projected positions in float64. *)
From Coq Require Import Reals Lra Lia Psatz.
From Flocq Require Import Core.
From Verif Require Import GoBase GoFloat Composite Projection Radolan SpecReal SpecProj ExactReal SpecAccuracy SpecKm
  FloatFacts PropFloat PropReal PropProjFloat AccFacts PropAccuracy PropLookup PropKm.
Local Open Scope R_scope.

(** * How the distance from the pole grows *)
Lemma sin_le_id x : 0 <= x -> sin x <= x.
Proof. intros H. pose proof (sin_small x) as S. rewrite (Rabs_pos_eq x) in S by lra. pose proof (Rle_abs (sin x)). lra. Qed.

Lemma tan_colat_growth n m : 0 <= n -> n <= m -> m <= 90 ->
  0.448 * radians (m - n) <= tan (colat n) - tan (colat m) <= 1.001 * radians (m - n).
Proof.
  intros H1 H2 H3. pose proof pi_upper.
  assert (Cn : 0 <= colat n <= PI / 4) by (unfold colat, radians; split; nra).
  assert (Cm : 0 <= colat m <= colat n) by (unfold colat, radians; split; nra).
  pose proof (cos_quarter (colat n) Cn) as Xn. pose proof (cos_quarter (colat m) ltac:(lra)) as Xm.
  set (d := radians (m - n) / 2). assert (Ed : colat n - colat m = d) by (unfold d, colat, radians; field).
  assert (Hd : 0 <= d <= 0.7855) by (rewrite <- Ed; lra).
  replace (radians (m - n)) with (2 * d) by (unfold d; field).
  rewrite tan_diff by lra. rewrite Ed. pose proof (sin_le_id d ltac:(lra)) as Sd. pose proof (sin_lower d ltac:(lra)) as Sl.
  assert (P : 0.499849 <= cos (colat n) * cos (colat m)) by nra.
  assert (P' : cos (colat n) * cos (colat m) <= 1) by (pose proof (COS_bound (colat n)); pose proof (COS_bound (colat m)); nra).
  assert (Q : 0.896 * d <= sin d) by nra.
  set (p := cos (colat n) * cos (colat m)) in *.
  split; apply Rmult_le_reg_r with p; try lra; replace (sin d / p * p) with (sin d) by (field; lra); nra.
Qed.

Lemma bernoulli q a : 0 < q -> 0 <= a <= 1 -> Rpower q a <= 1 + a * (q - 1).
Proof.
  intros Hq Ha. unfold Rpower. set (L := ln q). pose proof (exp_pos (a * L)) as P.
  assert (E1 : exp (a * L) * (1 + (1 - a) * L) <= q).
  { rewrite <- (exp_ln q Hq). fold L. replace L with (a * L + (1 - a) * L) at 3 by ring. rewrite exp_plus.
    apply Rmult_le_compat_l; [lra|]. apply exp_ineq1_le. }
  assert (E2 : exp (a * L) * (1 - a * L) <= 1).
  { apply Rle_trans with (exp (a * L) * exp (- (a * L))); [|rewrite <- exp_plus, Rplus_opp_r, exp_0; lra].
    apply Rmult_le_compat_l; [lra|]. pose proof (exp_ineq1_le (- (a * L))). lra. }
  nra.
Qed.

Lemma ellipsoid_growth n m : 0 <= n -> n <= m -> m <= 90 ->
  90 * (m - n) <= ellipsoid_radius n - ellipsoid_radius m <= 223 * (m - n).
Proof.
  intros H1 H2 H3. pose proof (tan_colat_growth n m H1 H2 H3) as T. rewrite !ellipsoid_eq. pose proof pi_upper as HPI. pose proof ecc_range as He.
  destruct (flat_power n ltac:(lra)) as [F1 F2]. pose proof (tan_colat_le_1 m ltac:(lra)) as T1. pose proof (tan_colat_nonneg m ltac:(lra)) as T0.
  pose proof (flat_pos n) as Fn. pose proof (flat_pos m) as Fm.
  set (Q := Rpower (flat n / flat m) (ecc / 2)).
  assert (EQ : / Rpower (flat m) (ecc / 2) = / Rpower (flat n) (ecc / 2) * Q).
  { unfold Q. rewrite (Rpower_quot (flat n) (flat m)) by assumption.
    pose proof (Rpower_pos (flat n / flat m) (ecc / 2)). pose proof (Rpower_pos (flat m) (ecc / 2)). field. lra. }
  assert (S : 0 <= sin (radians n) <= 1) by (apply sin_pos; lra). assert (S' : 0 <= sin (radians m) <= 1) by (apply sin_pos; lra).
  assert (D : 0 <= sin (radians m) - sin (radians n) <= radians (m - n)).
  { split.
    - destruct (Req_dec n m) as [->|Hn]; [lra|]. pose proof (sin_lat_lt n m ltac:(lra) ltac:(lra) H3). lra.
    - pose proof (sin_lip (radians m) (radians n)) as L. replace (radians m - radians n) with (radians (m - n)) in L by (unfold radians; ring).
      rewrite (Rabs_pos_eq (radians (m - n))) in L by (unfold radians; nra). pose proof (Rle_abs (sin (radians m) - sin (radians n))). lra. }
  assert (Hq : 0 <= flat n / flat m - 1 <= 2.2 * ecc * (sin (radians m) - sin (radians n))).
  { unfold flat. set (s := sin (radians n)) in *. set (t := sin (radians m)) in *. set (e := ecc) in *.
    assert (K1 : 0 <= e * s <= 0.09) by (split; nra). assert (K2 : 0 <= e * t <= 0.09) by (split; nra).
    replace ((1 - e * s) / (1 + e * s) / ((1 - e * t) / (1 + e * t)) - 1) with (2 * e * (t - s) * / ((1 - e * t) * (1 + e * s))) by (field; repeat split; lra).
    assert (P : 0.91 <= (1 - e * t) * (1 + e * s)) by nra.
    assert (I : 0 < / ((1 - e * t) * (1 + e * s)) <= 1.1).
    { split; [apply Rinv_0_lt_compat; lra|]. apply Rle_trans with (/ 0.91); [apply Rinv_le_contravar; lra|lra]. }
    assert (0 <= 2 * e * (t - s)) by nra. split; nra. }
  assert (HQ : 1 <= Q <= 1 + 0.009 * radians (m - n)).
  { split.
    - unfold Q. rewrite <- (Rpower_O (flat n / flat m)) at 1 by lra. apply Rle_Rpower; lra.
    - unfold Q. eapply Rle_trans; [apply bernoulli; lra|]. nra. }
  change (tan (colat n) / Rpower (flat n) (ecc / 2)) with (tan (colat n) * / Rpower (flat n) (ecc / 2)).
  change (tan (colat m) / Rpower (flat m) (ecc / 2)) with (tan (colat m) * / Rpower (flat m) (ecc / 2)). rewrite EQ. set (G := / Rpower (flat n) (ecc / 2)).
  assert (HG : 1 <= G <= 1.0102).
  { unfold G. split; [rewrite <- Rinv_1; apply Rinv_le_contravar; lra|]. apply Rle_trans with (/ 0.99); [apply Rinv_le_contravar; lra|lra]. }
  set (a := tan (colat n)) in *. set (b := tan (colat m)) in *. set (r := radians (m - n)) in *.
  assert (Hr : 0.01745 * (m - n) <= r <= 0.017454 * (m - n)) by (unfold r, radians; split; nra).
  replace (11862.667042661695 * (a * G) - 11862.667042661695 * (b * (G * Q))) with (11862.667042661695 * (G * (a - b * Q))) by ring.
  assert (Hab : 0.439 * r <= a - b * Q <= 1.001 * r) by (split; nra).
  assert (0 <= r) by nra.
  assert (0.439 * r <= G * (a - b * Q) <= 1.0113 * r) by (split; nra). lra.
Qed.

Lemma sphere_growth n m : 0 <= n -> n <= m -> m <= 90 ->
  90 * (m - n) <= sphere_radius n - sphere_radius m <= 223 * (m - n).
Proof.
  intros H1 H2 H3. pose proof (tan_colat_growth n m H1 H2 H3) as T. unfold sphere_radius. fold (colat n) (colat m). pose proof pi_upper as HPI.
  assert (S : 0.86 <= sin (radians 60) <= 0.867).
  { replace (radians 60) with (PI / 3) by (unfold radians; field). rewrite sin_PI3.
    assert (1.72 <= sqrt 3 <= 1.734); [|lra]. split.
    - rewrite <- (sqrt_Rsqr 1.72) by lra. apply sqrt_le_1_alt. unfold Rsqr. lra.
    - rewrite <- (sqrt_Rsqr 1.734) by lra. apply sqrt_le_1_alt. unfold Rsqr. lra. }
  set (a := tan (colat n)) in *. set (b := tan (colat m)) in *. set (r := radians (m - n)) in *. set (k := sin (radians 60)) in *.
  assert (Hr : 0.01745 * (m - n) <= r <= 0.017454 * (m - n)) by (unfold r, radians; split; nra).
  replace (6370.04 * (1 + k) * a - 6370.04 * (1 + k) * b) with (6370.04 * ((1 + k) * (a - b))) by ring.
  assert (0 <= r) by nra. assert (0.833 * r <= (1 + k) * (a - b) <= 1.87 * r) by (split; nra). lra.
Qed.

(** One degree of latitude is between 90 and 223 km of map. *)
Lemma pole_growth f n m : 0 <= n -> n <= m -> m <= 90 ->
  90 * (m - n) <= pole_distance f n - pole_distance f m <= 223 * (m - n).
Proof. intros H1 H2 H3. unfold pole_distance. destruct (5 <=? f)%Z; [now apply ellipsoid_growth|now apply sphere_growth]. Qed.
Lemma pole_range f n : 0 <= n <= 90 -> 90 * (90 - n) <= pole_distance f n <= 12741.
Proof.
  intros H. split.
  - pose proof (pole_growth f n 90 ltac:(lra) ltac:(lra) ltac:(lra)) as G. rewrite pole_distance_90 in G. lra.
  - pose proof (tan_colat_le_1 n H) as T. pose proof (tan_colat_nonneg n ltac:(lra)) as T0. unfold pole_distance. destruct (5 <=? f)%Z.
    + rewrite ellipsoid_eq. destruct (flat_power n H) as [F _].
      assert (tan (colat n) / Rpower (flat n) (ecc / 2) <= 1 * / 0.99).
      { apply Rmult_le_compat; [assumption|left; apply Rinv_0_lt_compat; lra|assumption|apply Rinv_le_contravar; lra]. }
      lra.
    + unfold sphere_radius. fold (colat n). pose proof (SIN_bound (radians 60)).
      apply Rle_trans with (6370.04 * (1 + 1) * 1); [|lra]. apply Rmult_le_compat; [lra|assumption|lra|assumption].
Qed.

(** * Angles *)
Lemma angle e : -45 <= e <= 65 -> -0.96 <= radians (e - 10) <= 0.96.
Proof. intros H. pose proof pi_upper. unfold radians. split; nra. Qed.
Lemma cos_055 x : -0.96 <= x <= 0.96 -> 0.53 <= cos x <= 1.
Proof. intros H. pose proof pi_upper. pose proof (cos_lower x ltac:(lra)). pose proof (COS_bound x). split; [nra|lra]. Qed.
Lemma sin_growth a b : -0.96 <= a -> a <= b -> b <= 0.96 -> 0.44 * (b - a) <= sin b - sin a.
Proof.
  intros H1 H2 H3. rewrite form4. set (c := (b + a) / 2). set (d := (b - a) / 2).
  assert (Hc : -0.96 <= c <= 0.96) by (unfold c; lra). assert (Hd : 0 <= d <= 0.96) by (unfold d; lra).
  pose proof (cos_055 c Hc) as C. pose proof (sin_lower d ltac:(lra)) as S. assert (0.84 * d <= sin d) by nra.
  replace (b - a) with (2 * d) by (unfold d; field). nra.
Qed.
Lemma sin_away t : 0 <= t <= 1.92 -> 0.4 * t <= sin t.
Proof.
  intros H. destruct (Rle_or_lt t 1) as [H1|H1].
  - pose proof (sin_lower t ltac:(lra)). nra.
  - pose proof pi_upper. replace t with (PI / 2 + (t - PI / 2)) at 2 by ring. rewrite <- cos_sin.
    pose proof (cos_lower (t - PI / 2) ltac:(lra)). nra.
Qed.

(** * Two positions *)
Section Two.
Variables (M : mathlib) (c : composite (num (arith64 M))) (size : Z * Z) (origin : R * R).
Hypothesis HM : accurate_library (powerRZ 2 (-48)) M.
Hypothesis Hc : @calibrated (arith64 M) c.
Hypothesis Hr : resampled (c_dx c) (c_dy c) (fst size) (snd size).
Hypothesis Hl : located size (5 <=? c_format c)%Z origin.
Variables (p1 p2 : f64 * f64) (g1 g2 : R * R).
Hypothesis S1 : stands_for p1 g1.
Hypothesis S2 : stands_for p2 g2.
Let q1 := project (arith64 M) c (fst p1) (snd p1).
Let q2 := project (arith64 M) c (fst p2) (snd p2).

Lemma two_positions : exists x1 y1 x2 y2 rx ry, is_value (fst q1) x1 /\ is_value (snd q1) y1 /\ is_value (fst q2) x2 /\ is_value (snd q2) y2 /\
  is_value (c_rx c) rx /\ is_value (c_ry c) ry /\ 0 < rx /\ 0 < ry /\
  Rabs ((x1 - x2) * rx - (fst (plane (c_format c) (fst g1) (snd g1)) - fst (plane (c_format c) (fst g2) (snd g2)))) <= 4 / 10 ^ 9 /\
  Rabs ((y1 - y2) * ry - (snd (plane (c_format c) (fst g1) (snd g1)) - snd (plane (c_format c) (fst g2) (snd g2)))) <= 4 / 10 ^ 9.
Proof.
  destruct S1 as (A1 & A2 & A3 & A4), S2 as (B1 & B2 & B3 & B4).
  destruct (C56_distance M c size origin _ _ _ _ _ _ _ _ HM Hc Hr Hl A1 A2 A3 A4 B1 B2 B3 B4) as (x1 & y1 & x2 & y2 & rx & ry & X1 & Y1 & X2 & Y2 & RX & RY & D1 & D2).
  destruct (C56_resolution M c size origin HM Hc Hr Hl) as (rx' & ry' & RX' & RY' & E1 & E2).
  assert (rx' = rx) as -> by exact (is_value_fun _ _ _ RX' RX). assert (ry' = ry) as -> by exact (is_value_fun _ _ _ RY' RY).
  destruct (located_size _ _ _ Hl) as [Gx Gy].
  destruct (corners_located (c_format c) _ _ _ Hl eq_refl) as (nw & se & nwR & seR & _ & Cd & _).
  destruct (resampled_pos _ _ _ _ _ _ Cd Hr) as [Px Py]. apply IZR_lt in Px, Py.
  exists x1, y1, x2, y2, rx, ry. repeat (split; [assumption|]). apply Rabs_le_inv in E1, E2.
  split; [nra|]. split; [nra|]. split; assumption.
Qed.

(** Further east at the same latitude is further right, from a billionth of a
    degree on. *)
Theorem C60_east : fst g1 = fst g2 -> fst g1 <= 80 -> -45 <= snd g1 -> snd g1 + / 10 ^ 9 <= snd g2 -> snd g2 <= 65 ->
  exists x1 x2, is_value (fst q1) x1 /\ is_value (fst q2) x2 /\ x1 < x2.
Proof.
  intros En H80 E1 E12 E2. destruct two_positions as (x1 & y1 & x2 & y2 & rx & ry & X1 & _ & X2 & _ & _ & _ & P & _ & D & _).
  exists x1, x2. split; [exact X1|]. split; [exact X2|]. destruct S1 as (_ & _ & N1 & _).
  unfold plane in D. cbn [fst snd] in D. rewrite <- En in D. set (s := pole_distance (c_format c) (fst g1)) in *.
  pose proof (pole_range (c_format c) (fst g1) N1) as R. fold s in R.
  pose proof (angle (snd g1) ltac:(lra)) as T1. pose proof (angle (snd g2) ltac:(lra)) as T2. pose proof pi_upper.
  assert (Ed : radians (snd g2 - 10) - radians (snd g1 - 10) = radians (snd g2 - snd g1)) by (unfold radians; ring).
  assert (Hd : 0.0174 * (snd g2 - snd g1) <= radians (snd g2 - snd g1)) by (unfold radians; nra).
  pose proof (sin_growth (radians (snd g1 - 10)) (radians (snd g2 - 10)) (proj1 T1) ltac:(lra) (proj2 T2)) as G. rewrite Ed in G.
  apply Rabs_le_inv in D. set (a := sin (radians (snd g1 - 10))) in *. set (b := sin (radians (snd g2 - 10))) in *.
  assert (6.8 * (snd g2 - snd g1) <= s * (b - a)).
  { apply Rle_trans with (900 * (0.44 * (0.0174 * (snd g2 - snd g1)))); [lra|]. apply Rmult_le_compat; lra. }
  assert ((x1 - x2) * rx < 0) by nra. nra.
Qed.

(** Further south at the same longitude is further down. *)
Theorem C60_south : snd g1 = snd g2 -> -45 <= snd g1 <= 65 -> fst g2 + / 10 ^ 9 <= fst g1 ->
  exists y1 y2, is_value (snd q1) y1 /\ is_value (snd q2) y2 /\ y1 < y2.
Proof.
  intros Ee E1 N12. destruct two_positions as (x1 & y1 & x2 & y2 & rx & ry & _ & Y1 & _ & Y2 & _ & _ & _ & P & _ & D).
  exists y1, y2. split; [exact Y1|]. split; [exact Y2|]. destruct S1 as (_ & _ & N1 & _), S2 as (_ & _ & N2 & _).
  unfold plane in D. cbn [fst snd] in D. rewrite <- Ee in D.
  pose proof (pole_growth (c_format c) (fst g2) (fst g1) ltac:(lra) ltac:(lra) ltac:(lra)) as G.
  pose proof (cos_055 _ (angle (snd g1) E1)) as C. apply Rabs_le_inv in D.
  set (k := cos (radians (snd g1 - 10))) in *. set (s1 := pole_distance (c_format c) (fst g1)) in *. set (s2 := pole_distance (c_format c) (fst g2)) in *.
  assert (40 * (fst g1 - fst g2) <= (s2 - s1) * k).
  { apply Rle_trans with (90 * (fst g1 - fst g2) * 0.53); [lra|]. apply Rmult_le_compat; lra. }
  assert ((y1 - y2) * ry < 0) by nra. nra.
Qed.

(** Positions with the same coordinates are the same, up to a hundred-millionth
    of a degree (a millimetre). *)
Theorem C60_separated x y : fst g1 <= 80 -> fst g2 <= 80 -> -45 <= snd g1 <= 65 -> -45 <= snd g2 <= 65 ->
  is_value (fst q1) x -> is_value (fst q2) x -> is_value (snd q1) y -> is_value (snd q2) y ->
  Rabs (fst g1 - fst g2) <= / 10 ^ 8 /\ Rabs (snd g1 - snd g2) <= / 10 ^ 8.
Proof.
  intros H80 H80' E1 E2 X1 X2 Y1 Y2.
  destruct two_positions as (x1 & y1 & x2 & y2 & rx & ry & X1' & Y1' & X2' & Y2' & _ & _ & _ & _ & D1 & D2).
  assert (x1 = x) as -> by exact (is_value_fun _ _ _ X1' X1). assert (x2 = x) as -> by exact (is_value_fun _ _ _ X2' X2).
  assert (y1 = y) as -> by exact (is_value_fun _ _ _ Y1' Y1). assert (y2 = y) as -> by exact (is_value_fun _ _ _ Y2' Y2).
  rewrite Rminus_eq_0, Rmult_0_l in D1, D2. rewrite Rminus_0_l, Rabs_Ropp in D1, D2.
  destruct S1 as (_ & _ & N1 & _), S2 as (_ & _ & N2 & _). unfold plane in D1, D2. cbn [fst snd] in D1, D2.
  pose proof (pole_range (c_format c) (fst g1) N1) as R1. pose proof (pole_range (c_format c) (fst g2) N2) as R2.
  pose proof (angle _ E1) as T1. pose proof (angle _ E2) as T2.
  set (t1 := radians (snd g1 - 10)) in *. set (t2 := radians (snd g2 - 10)) in *.
  assert (Et : t1 - t2 = radians (snd g1 - snd g2)) by (unfold t1, t2, radians; ring).
  assert (Gn : 90 * Rabs (fst g1 - fst g2) <= Rabs (pole_distance (c_format c) (fst g1) - pole_distance (c_format c) (fst g2))).
  { destruct (Rle_or_lt (fst g1) (fst g2)) as [L|L].
    - pose proof (pole_growth (c_format c) (fst g1) (fst g2) ltac:(lra) L ltac:(lra)). rewrite (Rabs_left1 (fst g1 - fst g2)), Rabs_pos_eq by lra. lra.
    - pose proof (pole_growth (c_format c) (fst g2) (fst g1) ltac:(lra) ltac:(lra) ltac:(lra)). rewrite (Rabs_pos_eq (fst g1 - fst g2)), Rabs_left1 by lra. lra. }
  set (s1 := pole_distance (c_format c) (fst g1)) in *. set (s2 := pole_distance (c_format c) (fst g2)) in *.
  set (dx := s1 * sin t1 - s2 * sin t2) in *. set (dy := s1 * cos t1 - s2 * cos t2) in *.
  pose proof (sin2_cos2 t1) as C1. pose proof (sin2_cos2 t2) as C2. unfold Rsqr in C1, C2.
  split.
  - assert (Rabs (s1 - s2) <= 8 / 10 ^ 9).
    { assert (I : (s1 - s2) * (s1 - s2) <= dx * dx + dy * dy).
      { assert (F : dx * dx + dy * dy = s1 * s1 * (sin t1 * sin t1 + cos t1 * cos t1) + s2 * s2 * (sin t2 * sin t2 + cos t2 * cos t2) - 2 * (s1 * s2) * (cos t1 * cos t2 + sin t1 * sin t2)) by (unfold dx, dy; ring).
        rewrite C1, C2, <- cos_minus in F. pose proof (COS_bound (t1 - t2)). assert (0 <= s1 * s2) by (apply Rmult_le_pos; lra). nra. }
      apply Rabs_le_inv in D1, D2. assert (dx * dx <= 16 / 10 ^ 18) by nra. assert (dy * dy <= 16 / 10 ^ 18) by nra.
      apply Rabs_le. split; nra. }
    lra.
  - assert (Cr : s1 * (s2 * sin (t1 - t2)) = s1 * (cos t1 * dx - sin t1 * dy)).
    { rewrite sin_minus. unfold dx, dy. ring. }
    assert (Cr' : s2 * sin (t1 - t2) = cos t1 * dx - sin t1 * dy) by (apply Rmult_eq_reg_l with s1; lra).
    assert (B : Rabs (s2 * sin (t1 - t2)) <= 8 / 10 ^ 9).
    { rewrite Cr'. unfold Rminus. eapply Rle_trans; [apply Rabs_triang|]. rewrite Rabs_Ropp, !Rabs_mult.
      pose proof (Rabs_pos dx). pose proof (Rabs_pos dy).
      assert (Rabs (cos t1) <= 1) by (apply Rabs_le; pose proof (COS_bound t1); lra).
      assert (Rabs (sin t1) <= 1) by (apply Rabs_le; pose proof (SIN_bound t1); lra). nra. }
    assert (S : 0.4 * Rabs (t1 - t2) <= Rabs (sin (t1 - t2))).
    { destruct (Rle_or_lt 0 (t1 - t2)) as [L|L].
      - rewrite (Rabs_pos_eq (t1 - t2)) by lra. pose proof (sin_away (t1 - t2) ltac:(lra)). pose proof (Rle_abs (sin (t1 - t2))). lra.
      - rewrite (Rabs_left (t1 - t2)) by lra. pose proof (sin_away (- (t1 - t2)) ltac:(lra)) as W. rewrite sin_neg in W.
        pose proof (Rle_abs (- sin (t1 - t2))) as W'. rewrite Rabs_Ropp in W'. lra. }
    rewrite Rabs_mult, (Rabs_pos_eq s2) in B by lra.
    assert (Q : 360 * Rabs (t1 - t2) <= 8 / 10 ^ 9).
    { pose proof (Rabs_pos (t1 - t2)). eapply Rle_trans; [|exact B]. apply Rle_trans with (900 * (0.4 * Rabs (t1 - t2))); [lra|]. apply Rmult_le_compat; lra. }
    rewrite Et in Q. unfold radians in Q. rewrite Rabs_mult in Q. pose proof pi_upper. rewrite (Rabs_pos_eq (PI / 180)) in Q by lra.
    pose proof (Rabs_pos (snd g1 - snd g2)). nra.
Qed.

(** Positions near each other have coordinates near each other: one degree is at
    most 223 km of map. *)
Theorem C60_near : exists x1 y1 x2 y2 rx ry, is_value (fst q1) x1 /\ is_value (snd q1) y1 /\ is_value (fst q2) x2 /\ is_value (snd q2) y2 /\
  is_value (c_rx c) rx /\ is_value (c_ry c) ry /\ 0 < rx /\ 0 < ry /\
  let d := Rabs (fst g1 - fst g2) + Rabs (snd g1 - snd g2) in
  Rabs (x1 - x2) * rx <= 223 * d + 4 / 10 ^ 9 /\ Rabs (y1 - y2) * ry <= 223 * d + 4 / 10 ^ 9.
Proof.
  destruct two_positions as (x1 & y1 & x2 & y2 & rx & ry & X1 & Y1 & X2 & Y2 & RX & RY & P1 & P2 & D1 & D2).
  exists x1, y1, x2, y2, rx, ry. repeat (split; [assumption|]). cbv zeta.
  destruct S1 as (_ & _ & N1 & _), S2 as (_ & _ & N2 & _). unfold plane in D1, D2. cbn [fst snd] in D1, D2.
  assert (Gn : Rabs (pole_distance (c_format c) (fst g1) - pole_distance (c_format c) (fst g2)) <= 223 * Rabs (fst g1 - fst g2)).
  { destruct (Rle_or_lt (fst g1) (fst g2)) as [L|L].
    - pose proof (pole_growth (c_format c) (fst g1) (fst g2) ltac:(lra) L ltac:(lra)). rewrite (Rabs_left1 (fst g1 - fst g2)), Rabs_pos_eq by lra. lra.
    - pose proof (pole_growth (c_format c) (fst g2) (fst g1) ltac:(lra) ltac:(lra) ltac:(lra)). rewrite (Rabs_pos_eq (fst g1 - fst g2)), Rabs_left1 by lra. lra. }
  pose proof (pole_range (c_format c) (fst g1) N1) as R1. pose proof (pole_range (c_format c) (fst g2) N2) as R2.
  set (t1 := radians (snd g1 - 10)) in *. set (t2 := radians (snd g2 - 10)) in *.
  set (s1 := pole_distance (c_format c) (fst g1)) in *. set (s2 := pole_distance (c_format c) (fst g2)) in *.
  assert (Et : Rabs (t1 - t2) <= 0.0174534 * Rabs (snd g1 - snd g2)).
  { replace (t1 - t2) with ((snd g1 - snd g2) * (PI / 180)) by (unfold t1, t2, radians; ring). pose proof pi_upper.
    rewrite Rabs_mult, (Rabs_pos_eq (PI / 180)), Rmult_comm by lra. apply Rmult_le_compat_r; [apply Rabs_pos|lra]. }
  assert (K : forall f, (forall a b, Rabs (f a - f b) <= Rabs (a - b)) -> (forall a, Rabs (f a) <= 1) ->
    Rabs (s1 * f t1 - s2 * f t2) <= 223 * (Rabs (fst g1 - fst g2) + Rabs (snd g1 - snd g2))).
  { intros f F1 F2. replace (s1 * f t1 - s2 * f t2) with ((s1 - s2) * f t1 + s2 * (f t1 - f t2)) by ring.
    eapply Rle_trans; [apply Rabs_triang|]. rewrite !Rabs_mult, (Rabs_pos_eq s2) by lra.
    specialize (F1 t1 t2). specialize (F2 t1). pose proof (Rabs_pos (s1 - s2)). pose proof (Rabs_pos (f t1)). pose proof (Rabs_pos (f t1 - f t2)).
    pose proof (Rabs_pos (snd g1 - snd g2)).
    assert (Rabs (s1 - s2) * Rabs (f t1) <= 223 * Rabs (fst g1 - fst g2)) by nra.
    assert (s2 * Rabs (f t1 - f t2) <= 12741 * (0.0174534 * Rabs (snd g1 - snd g2))) by (apply Rmult_le_compat; lra). lra. }
  split.
  - specialize (K sin sin_lip (fun a => Rabs_le _ _ (SIN_bound a))). rewrite <- (Rabs_pos_eq rx) at 1 by lra. rewrite <- Rabs_mult.
    match type of D1 with Rabs (?u - ?v) <= _ => replace u with ((u - v) + v) by ring end.
    eapply Rle_trans; [apply Rabs_triang|]. lra.
  - specialize (K cos cos_lip (fun a => Rabs_le _ _ (COS_bound a))). rewrite <- (Rabs_pos_eq ry) at 1 by lra. rewrite <- Rabs_mult.
    match type of D2 with Rabs (?u - ?v) <= _ => replace u with ((u - v) + v) by ring end.
    eapply Rle_trans; [apply Rabs_triang|]. lra.
Qed.
End Two.

(** * Concrete case: one degree to the east, and one to the south, of the
    reference point on the national grid at 2 km. *)
Example C60_case : let c := new_dummy (arith64 correct) [] 3 450 450 in
  accurate_library (powerRZ 2 (-48)) correct /\ @calibrated (arith64 correct) c /\
  resampled (c_dx c) (c_dy c) 900 900 /\ located (900, 900)%Z (5 <=? c_format c)%Z (from_reference 450 450) /\
  stands_for (f64_of_int 51, f64_of_int 9) (51, 9) /\ stands_for (f64_of_int 51, f64_of_int 10) (51, 10) /\
  stands_for (f64_of_int 50, f64_of_int 9) (50, 9).
Proof.
  destruct C56_case as (H1 & H2 & H3 & H4 & H5 & H6 & _). cbv zeta.
  assert (K : forall z e, (0 <= z <= 100)%Z -> within (powerRZ 2 e) (f64_of_int z) (IZR z)).
  { intros z e Hz. destruct (of_int_value64 z ltac:(lia)). split; [assumption|]; eexists; split; [eassumption|].
    rewrite Rminus_eq_0, Rabs_R0. apply powerRZ_le. lra. }
  do 4 (split; [assumption|]). unfold stands_for. cbn [fst snd].
  repeat split; try lra; apply K; lia.
Qed.
Print Assumptions C60_east.
Print Assumptions C60_south.
Print Assumptions C60_separated.
Print Assumptions C60_near.
