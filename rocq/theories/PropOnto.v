(** C69: every point of the map, and every pixel, has exactly one position on
    earth. *)
From Coq Require Import Reals Ranalysis5 Lra Lia Psatz.
From Coquelicot Require Import Coquelicot.
From Flocq Require Import Core Relative BinarySingleNaN.
From Verif Require Import GoBase GoFloat Catalog Composite Header Data Projection Radolan Vis SpecReal SpecProj ExactReal SpecAccuracy SpecRain SpecKm BaseFacts
  CompositeFacts Spec ApiFacts FloatFacts PropFloat PropGrid PropReal PropProjFloat VisFacts AccFacts PropAccuracy GridNumbers PropLookup PropKm PropOrder PropTable.
Local Open Scope R_scope.

(** * Latitudes by distance from the pole *)
Definition lat_of_tan (t : R) : R := 90 - 2 * atan t * (180 / PI).

Lemma colat_lat t : colat (lat_of_tan t) = atan t.
Proof. unfold colat, lat_of_tan, radians. pose proof PI_RGT_0. field. lra. Qed.
Lemma lat_of_tan_range t : 0 < t -> -90 < lat_of_tan t < 90.
Proof.
  intros Ht. pose proof PI_RGT_0. pose proof (atan_bound t) as B.
  assert (0 < atan t) by (rewrite <- atan_0; now apply atan_increasing).
  assert (P : 0 < 180 / PI) by (apply Rdiv_lt_0_compat; lra).
  assert (E : PI / 2 * (180 / PI) = 90) by (field; lra). unfold lat_of_tan.
  assert (0 < atan t * (180 / PI) < 90) by (split; [nra|rewrite <- E; nra]). lra.
Qed.
Lemma tan_lat t : tan (colat (lat_of_tan t)) = t.
Proof. rewrite colat_lat. apply tan_atan. Qed.
Lemma lat_of_tan_dec s t : s < t -> lat_of_tan t < lat_of_tan s.
Proof. intros H. apply atan_increasing in H. unfold lat_of_tan. assert (0 < 180 / PI) by (apply Rdiv_lt_0_compat; [lra|apply PI_RGT_0]). nra. Qed.

Lemma sphere_onto rho : 0 < rho -> exists n, -90 < n < 90 /\ sphere_radius n = rho.
Proof.
  intros H. pose proof sphere_const as Hk. set (k := 6370.04 * (1 + sin (radians 60))) in *.
  assert (0 < rho / k) by (apply Rdiv_lt_0_compat; lra).
  exists (lat_of_tan (rho / k)). split; [now apply lat_of_tan_range|].
  unfold sphere_radius. fold k. fold (colat (lat_of_tan (rho / k))). rewrite tan_lat. field. lra.
Qed.

Lemma flat_two n : / 2 <= Rpower (flat n) (ecc / 2) <= 2.
Proof.
  pose proof (flat_pos n) as Fp. pose proof ecc_range as He. pose proof (SIN_bound (radians n)) as Hs.
  assert (F : / 2 <= flat n <= 2).
  { unfold flat. set (s := sin (radians n)) in *. set (e := ecc) in *. assert (0 < 1 + e * s) by nra. split.
    - apply Rmult_le_reg_r with (1 + e * s); [assumption|]. unfold Rdiv. rewrite Rmult_assoc, Rinv_l by lra. nra.
    - apply Rmult_le_reg_r with (1 + e * s); [assumption|]. unfold Rdiv. rewrite Rmult_assoc, Rinv_l by lra. nra. }
  assert (L : - ln 2 <= ln (flat n) <= ln 2).
  { split; [rewrite <- ln_Rinv by lra|]; apply Rcomplements.ln_le; lra. }
  assert (P : 0 <= ln 2) by (rewrite <- ln_1; apply Rcomplements.ln_le; lra).
  unfold Rpower. split.
  - rewrite <- (exp_ln (/ 2)) by lra. rewrite ln_Rinv by lra. destruct (Req_dec (- ln 2) (ecc / 2 * ln (flat n))) as [->|N]; [lra|].
    left. apply exp_increasing. nra.
  - rewrite <- (exp_ln 2) at 2 by lra. destruct (Req_dec (ecc / 2 * ln (flat n)) (ln 2)) as [->|N]; [lra|].
    left. apply exp_increasing. nra.
Qed.

Lemma ellipsoid_continuous n : -90 < n < 90 -> continuity_pt ellipsoid_radius n.
Proof.
  intros H. apply continuity_pt_filterlim. apply (ex_derive_continuous (V := R_NormedModule)).
  pose proof (colat_range n ltac:(lra)) as Hc. pose proof PI_RGT_0.
  assert (C : cos (PI / 4 - n * (PI / 180) / 2) <> 0).
  { apply Rgt_not_eq. apply cos_gt_0; unfold colat, radians in Hc; lra. }
  pose proof ecc_range as He. pose proof (SIN_bound (n * (PI / 180))) as Hs.
  apply (ex_derive_ext (fun n => 11862.667042661695 * (sin (PI / 4 - n * (PI / 180) / 2) / cos (PI / 4 - n * (PI / 180) / 2)) /
    exp (ecc / 2 * ln ((1 - ecc * sin (n * (PI / 180))) / (1 + ecc * sin (n * (PI / 180))))))).
  { intros t. reflexivity. }
  auto_derive. pose proof (flat_pos n) as Fp. unfold flat, radians in Fp.
  repeat split; try assumption.
  - nra.
  - apply Rgt_not_eq. apply exp_pos.
Qed.

Lemma ellipsoid_onto rho : 0 < rho -> exists n, -90 < n < 90 /\ ellipsoid_radius n = rho.
Proof.
  intros H. set (K := 11862.667042661695). assert (PK : 0 < K) by (unfold K; lra).
  set (n1 := lat_of_tan (4 * rho / K)). set (n2 := lat_of_tan (rho / (4 * K))).
  assert (T1 : 0 < 4 * rho / K) by (apply Rdiv_lt_0_compat; lra). assert (T2 : 0 < rho / (4 * K)) by (apply Rdiv_lt_0_compat; lra).
  pose proof (lat_of_tan_range _ T1) as R1. fold n1 in R1. pose proof (lat_of_tan_range _ T2) as R2. fold n2 in R2.
  assert (L : n1 < n2).
  { apply lat_of_tan_dec. apply Rmult_lt_reg_r with (4 * K); [lra|]. replace (rho / (4 * K) * (4 * K)) with rho by (field; lra).
    replace (4 * rho / K * (4 * K)) with (16 * rho) by (field; lra). lra. }
  destruct (flat_two n1) as [A1 A2]. destruct (flat_two n2) as [B1 B2].
  assert (E1 : rho < ellipsoid_radius n1).
  { rewrite ellipsoid_eq. fold K. unfold n1 at 1. rewrite tan_lat. set (w := Rpower (flat n1) (ecc / 2)) in *.
    replace (K * (4 * rho / K / w)) with (4 * rho * / w) by (field; split; lra).
    assert (/ 2 <= / w) by (apply Rinv_le_contravar; lra). nra. }
  assert (E2 : ellipsoid_radius n2 < rho).
  { rewrite ellipsoid_eq. fold K. unfold n2 at 1. rewrite tan_lat. set (w := Rpower (flat n2) (ecc / 2)) in *.
    replace (K * (rho / (4 * K) / w)) with (rho / 4 * / w) by (field; split; lra).
    assert (/ w <= 2) by (rewrite <- (Rinv_inv 2); apply Rinv_le_contravar; lra). nra. }
  destruct (Ranalysis5.IVT_interv (fun n => rho - ellipsoid_radius n) n1 n2) as (n & Hn & E).
  - intros a Ha. apply continuity_pt_minus; [apply continuity_pt_const; intros ? ?; reflexivity|apply ellipsoid_continuous; lra].
  - assumption.
  - lra.
  - lra.
  - exists n. split; lra.
Qed.

Lemma pole_onto f rho : 0 < rho -> exists n, -90 < n < 90 /\ pole_distance f n = rho.
Proof. intros H. unfold pole_distance. destruct (5 <=? f)%Z; [now apply ellipsoid_onto|now apply sphere_onto]. Qed.

(** * Angles *)
Lemma polar_onto X Y : ~ (X = 0 /\ Y <= 0) -> exists rho theta, 0 < rho /\ - PI < theta < PI /\
  rho * sin theta = X /\ rho * cos theta = Y.
Proof.
  intros H. set (rho := sqrt (X * X + Y * Y)).
  assert (Q : rho * rho = X * X + Y * Y) by (apply sqrt_sqrt; nra).
  assert (P : 0 < X * X + Y * Y). { destruct (Req_dec X 0) as [->|N]; [|nra]. assert (0 < Y) by lra. nra. }
  assert (R0 : 0 < rho) by (apply sqrt_lt_R0; assumption).
  assert (S : 0 < rho + Y). { destruct (Rle_or_lt Y 0) as [Hy|Hy]; [|lra]. assert (X <> 0) by tauto. assert (0 < X * X) by nra. nra. }
  set (t := X / (rho + Y)). exists rho, (2 * atan t). pose proof (atan_bound t) as B.
  assert (C : 0 < cos (atan t)) by (apply cos_gt_0; lra).
  assert (T : sin (atan t) = t * cos (atan t)). { rewrite <- (tan_atan t) at 2. unfold tan. field. lra. }
  assert (C2 : cos (atan t) * cos (atan t) * (1 + t * t) = 1).
  { pose proof (sin2_cos2 (atan t)) as E. unfold Rsqr in E. rewrite T in E. lra. }
  assert (T2 : 1 + t * t = 2 * rho / (rho + Y)).
  { unfold t. replace (1 + X / (rho + Y) * (X / (rho + Y))) with (((rho + Y) * (rho + Y) + X * X) / ((rho + Y) * (rho + Y))) by (field; lra).
    replace (X * X) with (rho * rho - Y * Y) by lra. field. lra. }
  assert (CC : cos (atan t) * cos (atan t) = (rho + Y) / (2 * rho)).
  { apply Rmult_eq_reg_r with (1 + t * t); [|nra]. rewrite C2, T2. field. lra. }
  split; [assumption|]. split; [lra|]. split.
  - rewrite sin_2a, T. replace (rho * (2 * (t * cos (atan t)) * cos (atan t))) with (2 * rho * t * (cos (atan t) * cos (atan t))) by ring.
    rewrite CC. unfold t. field. lra.
  - rewrite cos_2a_cos. replace (2 * cos (atan t) * cos (atan t)) with (2 * (cos (atan t) * cos (atan t))) by ring. rewrite CC. field. lra.
Qed.

Lemma plane_onto f X Y : ~ (X = 0 /\ Y <= 0) -> exists n e, -90 < n < 90 /\ -170 < e < 190 /\ plane f n e = (X, Y).
Proof.
  intros H. destruct (polar_onto X Y H) as (rho & theta & R0 & Ht & HX & HY). destruct (pole_onto f rho R0) as (n & Hn & En).
  exists n, (10 + theta * (180 / PI)). split; [assumption|]. pose proof PI_RGT_0.
  assert (E : radians (10 + theta * (180 / PI) - 10) = theta) by (unfold radians; field; lra). split.
  - assert (P : 0 < 180 / PI) by (apply Rdiv_lt_0_compat; lra). assert (Q : PI * (180 / PI) = 180) by (field; lra).
    set (q := 180 / PI) in *. assert (- 180 < theta * q < 180) by (split; nra). lra.
  - unfold plane. rewrite E, En, HX, HY. reflexivity.
Qed.

(** * Positions of the points of the map *)

(** Every point of the map plane, except the pole and the line from it away
    from Germany (the antimeridian cut), is the projection of exactly one
    position. *)
Theorem C69_point c size nw se x y : on_grid c size nw se ->
  let pole := project arithR c 90 10 in ~ (x = fst pole /\ y <= snd pole) ->
  exists n e, -90 < n < 90 /\ -170 < e < 190 /\ project arithR c n e = (x, y) /\
    forall n' e', -90 < n' < 90 -> -170 < e' < 190 -> project arithR c n' e' = (x, y) -> n' = n /\ e' = e.
Proof.
  intros H pole Hp. destruct (C34_corners c size nw se H) as (_ & _ & Rx & Ry).
  destruct (project_x c size nw se 90 10 H ltac:(lra)) as [P1 P2]. fold pole in P1, P2.
  set (N := plane (c_format c) (fst nw) (snd nw)) in *.
  rewrite pole_distance_90, !Rmult_0_l in P1, P2.
  set (X := fst N + x * c_rx c). set (Y := snd N + y * c_ry c).
  assert (Hc : ~ (X = 0 /\ Y <= 0)).
  { intros [E L]. apply Hp. unfold X in E. unfold Y in L. split.
    - rewrite P1. apply Rmult_eq_reg_r with (c_rx c); [|lra]. unfold Rdiv. rewrite Rmult_assoc, Rinv_l by lra. lra.
    - rewrite P2. apply Rmult_le_reg_r with (c_ry c); [lra|]. unfold Rdiv. rewrite Rmult_assoc, Rinv_l by lra. lra. }
  destruct (plane_onto (c_format c) X Y Hc) as (n & e & Hn & He & E).
  assert (Q : project arithR c n e = (x, y)).
  { destruct (C34_stereographic c size nw se n e H ltac:(lra)) as [Q1 Q2]. fold N in Q1, Q2. rewrite E in Q1, Q2. cbn [fst snd] in Q1, Q2.
    rewrite (surjective_pairing (project arithR c n e)). f_equal.
    - apply Rmult_eq_reg_r with (c_rx c); [|lra]. rewrite Q1. unfold X. ring.
    - apply Rmult_eq_reg_r with (c_ry c); [|lra]. rewrite Q2. unfold Y. ring. }
  exists n, e. split; [assumption|]. split; [assumption|]. split; [assumption|]. intros n' e' Hn' He' E'.
  apply (injective c size nw se); try assumption. now rewrite Q.
Qed.

(** Corner numbers, roughly. *)
Lemma corner_box f size nw se : documented_corners size (5 <=? f)%Z nw se ->
  let N := plane f (fst nw) (snd nw) in let S := plane f (fst se) (snd se) in
  -674 <= fst N <= -443 /\ 3508 <= snd N <= 3759 /\ 376 <= fst S <= 727 /\ 4658 <= snd S <= 5009.
Proof.
  intros H. assert (E : forall n e, plane f n e = plane (if (5 <=? f)%Z then 5 else 0) n e).
  { intros n e. unfold plane, pole_distance. now destruct (5 <=? f)%Z. }
  cbv zeta. rewrite !E. revert H. generalize (5 <=? f)%Z. intros w H. destruct H; cbv iota; cbn [fst snd].
  - destruct national_nw, national_se. lra.
  - destruct picture_nw, picture_se. lra.
  - destruct extended_nw, extended_se. lra.
  - destruct de1200_nw, de1200_se. lra.
  - destruct wgs84_nw, wgs84_se. lra.
  - destruct european_nw, european_se. lra.
Qed.

Lemma tan_15 : 0.267 <= tan (PI / 12) <= 0.268.
Proof.
  assert (H : tan (PI / 12) * (2 + sqrt 3) = 1).
  { replace (PI / 12) with (PI / 3 - PI / 4) by field. unfold tan. rewrite sin_minus, cos_minus, sin_PI3, cos_PI3, sin_PI4, cos_PI4.
    assert (S2 : 0 < sqrt 2) by (apply sqrt_lt_R0; lra). assert (S3 : 0 < sqrt 3) by (apply sqrt_lt_R0; lra).
    assert (Q3 : sqrt 3 * sqrt 3 = 3) by (apply sqrt_sqrt; lra).
    replace ((sqrt 3 / 2 * (1 / sqrt 2) - 1 / 2 * (1 / sqrt 2)) / (1 / 2 * (1 / sqrt 2) + sqrt 3 / 2 * (1 / sqrt 2)) * (2 + sqrt 3))
      with ((sqrt 3 - 1) * (2 + sqrt 3) / (1 + sqrt 3)) by (field; repeat split; lra).
    replace ((sqrt 3 - 1) * (2 + sqrt 3)) with (1 + sqrt 3) by lra. field. lra. }
  pose proof root3 as R3. split; nra.
Qed.
Lemma colat_60 : colat 60 = PI / 12.
Proof. unfold colat, radians. field. Qed.
Lemma tan_30_low : 0.57 <= tan (colat 30).
Proof.
  replace (colat 30) with (PI / 6) by (unfold colat, radians; field). rewrite tan_PI6. pose proof root3.
  apply Rmult_le_reg_r with (sqrt 3); [lra|]. unfold Rdiv. rewrite Rmult_assoc, Rinv_l by lra. lra.
Qed.

Lemma pole_60 f : pole_distance f 60 < 3500.
Proof.
  pose proof tan_15 as T. unfold pole_distance. destruct (5 <=? f)%Z.
  - rewrite ellipsoid_eq, colat_60. destruct (flat_power 60 ltac:(lra)) as [F _].
    apply Rle_lt_trans with (11862.667042661695 * (0.268 * / 0.99)); [|lra]. apply Rmult_le_compat_l; [lra|].
    unfold Rdiv. apply Rmult_le_compat; [lra|left; apply Rinv_0_lt_compat; lra|lra|apply Rinv_le_contravar; lra].
  - unfold sphere_radius. fold (colat 60). rewrite colat_60. pose proof (SIN_bound (radians 60)).
    apply Rle_lt_trans with (6370.04 * (1 + 1) * 0.268); [|lra]. apply Rmult_le_compat; lra.
Qed.
Lemma pole_30 f : 5100 < pole_distance f 30.
Proof.
  pose proof tan_30_low as T. unfold pole_distance. destruct (5 <=? f)%Z.
  - rewrite ellipsoid_eq. destruct (flat_power 30 ltac:(lra)) as [F1 F2].
    apply Rlt_le_trans with (11862.667042661695 * (0.57 * 1)); [lra|]. apply Rmult_le_compat_l; [lra|].
    unfold Rdiv. apply Rmult_le_compat; [lra|lra|lra|]. rewrite <- Rinv_1 at 1. apply Rinv_le_contravar; lra.
  - unfold sphere_radius. fold (colat 30). assert (0.8 <= sin (radians 60)).
    { replace (radians 60) with (PI / 3) by (unfold radians; field). rewrite sin_PI3. pose proof root3. lra. }
    apply Rlt_le_trans with (6370.04 * (1 + 0.8) * 0.57); [lra|]. apply Rmult_le_compat; lra.
Qed.

(** Where a point of the plane in the area of the grids lies. *)
Lemma plane_region f n e : -90 < n < 90 -> -170 < e < 190 ->
  -674 <= fst (plane f n e) <= 727 -> 3508 <= snd (plane f n e) <= 5009 -> 30 < n < 60 /\ -5 < e < 25.
Proof.
  intros Hn He HX HY. unfold plane in HX, HY. cbn [fst snd] in HX, HY. pose proof (lon_range e He) as Ht. pose proof PI_RGT_0 as Hpi.
  pose proof (pole_distance_pos f n Hn) as R0. set (theta := radians (e - 10)) in *. set (rho := pole_distance f n) in *.
  pose proof (sin2_cos2 theta) as E. unfold Rsqr in E.
  assert (Q : rho * rho = (rho * sin theta) * (rho * sin theta) + (rho * cos theta) * (rho * cos theta)) by (transitivity (rho * rho * (sin theta * sin theta + cos theta * cos theta)); [rewrite E; ring|ring]).
  set (X := rho * sin theta) in *. set (Y := rho * cos theta) in *.
  assert (Rl : 3508 <= rho) by nra. assert (Rh : rho < 5100) by nra.
  split.
  - pose proof (pole_60 f). pose proof (pole_30 f). split.
    + destruct (Rlt_or_le 30 n) as [|L]; [assumption|exfalso]. destruct L as [L|L]; [|assert (rho = pole_distance f 30) by (unfold rho; now rewrite L); lra].
      pose proof (pole_distance_dec f n 30 ltac:(lra) L ltac:(lra)) as D. fold rho in D. lra.
    + destruct (Rlt_or_le n 60) as [|L]; [assumption|exfalso]. destruct L as [L|L]; [|assert (rho = pole_distance f 60) by (unfold rho; now rewrite L); lra].
      pose proof (pole_distance_dec f 60 n ltac:(lra) L ltac:(lra)) as D. fold rho in D. lra.
  - assert (C : 0 < cos theta). { destruct (Rlt_or_le 0 (cos theta)); [assumption|]. unfold Y in HY. nra. }
    assert (Th : - (PI / 2) < theta < PI / 2).
    { split.
      - destruct (Rlt_or_le (- (PI / 2)) theta); [assumption|]. assert (cos (- theta) <= 0) by (apply cos_le_0; lra). rewrite cos_neg in *. lra.
      - destruct (Rlt_or_le theta (PI / 2)); [assumption|]. assert (cos theta <= 0) by (apply cos_le_0; lra). lra. }
    assert (T : tan theta * Y = X) by (unfold tan, X, Y; field; lra).
    pose proof tan_15 as T15.
    assert (B1 : theta < PI / 12).
    { destruct (Rlt_or_le theta (PI / 12)) as [|L]; [assumption|exfalso].
      assert (tan (PI / 12) <= tan theta) by (destruct L as [L|<-]; [left; apply tan_increasing; lra|lra]). nra. }
    assert (B2 : - (PI / 12) < theta).
    { destruct (Rlt_or_le (- (PI / 12)) theta) as [|L]; [assumption|exfalso].
      assert (tan theta <= tan (- (PI / 12))) by (destruct L as [L|L]; [left; apply tan_increasing; lra|rewrite L; lra]). rewrite tan_neg in *. nra. }
    unfold theta, radians in B1, B2. split; nra.
Qed.

(** Every point of the picture lies between 30 and 60 degrees north and between
    5 degrees west and 25 degrees east. *)
Theorem C69_picture c size nw se x y : on_grid c size nw se -> 0 <= x <= IZR (c_dx c) -> 0 <= y <= IZR (c_dy c) ->
  exists n e, 30 < n < 60 /\ -5 < e < 25 /\ project arithR c n e = (x, y) /\
    forall n' e', -90 < n' < 90 -> -170 < e' < 190 -> project arithR c n' e' = (x, y) -> n' = n /\ e' = e.
Proof.
  intros H Hx Hy. pose proof H as (_ & Hr & Hd). destruct (corner_box _ _ _ _ Hd) as (B1 & B2 & B3 & B4).
  destruct (C34_corners c size nw se H) as (_ & _ & Rx & Ry).
  destruct (resampled_pos _ _ _ _ _ _ Hd Hr) as [Px Py]. apply IZR_lt in Px, Py.
  destruct (on_grid_affine c size nw se H) as (_ & Ex & Ey & _).
  destruct (project_x c size nw se 90 10 H ltac:(lra)) as [P1 P2].
  set (N := plane (c_format c) (fst nw) (snd nw)) in *. set (S := plane (c_format c) (fst se) (snd se)) in *.
  rewrite pole_distance_90, !Rmult_0_l in P1, P2.
  destruct (C69_point c size nw se x y H) as (n & e & Hn & He & E & U).
  { rewrite P2. intros [_ L]. assert (0 <= - snd N / c_ry c) by lra.
    assert (0 < snd N * / c_ry c) by (apply Rmult_lt_0_compat; [lra|now apply Rinv_0_lt_compat]). unfold Rdiv in *. lra. }
  destruct (C34_stereographic c size nw se n e H ltac:(lra)) as [Q1 Q2]. fold N in Q1, Q2. rewrite E in Q1, Q2. cbn [fst snd] in Q1, Q2.
  assert (W : c_rx c * IZR (c_dx c) = fst S - fst N) by (rewrite Ex; field; lra).
  assert (W' : c_ry c * IZR (c_dy c) = snd S - snd N) by (rewrite Ey; field; lra).
  destruct (plane_region (c_format c) n e Hn He) as [A1 A2].
  - assert (0 <= x * c_rx c <= fst S - fst N) by (rewrite <- W; split; nra). lra.
  - assert (0 <= y * c_ry c <= snd S - snd N) by (rewrite <- W'; split; nra). lra.
  - exists n, e. auto.
Qed.

(** Every pixel can be looked up: there are float64 coordinates for which the
    documented lookup returns the value of that pixel. *)
Theorem C69_lookup M (c : composite (num (arith64 M))) size origin i j :
  accurate_library (powerRZ 2 (-48)) M -> @calibrated (arith64 M) c ->
  resampled (c_dx c) (c_dy c) (fst size) (snd size) -> located size (5 <=? c_format c)%Z origin ->
  (c_dx c <= 10 ^ 8)%Z -> (c_dy c <= 10 ^ 8)%Z -> (0 <= i < c_dx c)%Z -> (0 <= j < c_dy c)%Z ->
  exists north east, finite north /\ finite east /\ forall K, value_at M K c north east = at_ (arith64 M) c i j.
Proof.
  intros HM Hc Hr Hl Bx By Hi Hj.
  destruct (corners_located (c_format c) _ _ _ Hl eq_refl) as (nw & se & nwR & seR & Cf & Cd & _).
  destruct (corner_box _ _ _ _ Cd) as (B1 & B2 & B3 & B4).
  set (N := plane (c_format c) (fst nwR) (snd nwR)) in *. set (S := plane (c_format c) (fst seR) (snd seR)) in *.
  destruct (resampled_pos _ _ _ _ _ _ Cd Hr) as [Px Py]. pose proof (IZR_lt _ _ Px) as Px'. pose proof (IZR_lt _ _ Py) as Py'.
  set (u := (IZR i + / 2) / IZR (c_dx c)). set (v := (IZR j + / 2) / IZR (c_dy c)).
  assert (Hu : 0 <= u <= 1).
  { assert (IZR (i + 1) <= IZR (c_dx c)) by (apply IZR_le; lia). assert (0 <= IZR i) by (apply IZR_le; lia). rewrite plus_IZR in *.
    unfold u. split; [apply Rmult_le_pos; [lra|left; now apply Rinv_0_lt_compat]|].
    apply Rmult_le_reg_r with (IZR (c_dx c)); [assumption|]. unfold Rdiv. rewrite Rmult_assoc, Rinv_l by lra. lra. }
  assert (Hv : 0 <= v <= 1).
  { assert (IZR (j + 1) <= IZR (c_dy c)) by (apply IZR_le; lia). assert (0 <= IZR j) by (apply IZR_le; lia). rewrite plus_IZR in *.
    unfold v. split; [apply Rmult_le_pos; [lra|left; now apply Rinv_0_lt_compat]|].
    apply Rmult_le_reg_r with (IZR (c_dy c)); [assumption|]. unfold Rdiv. rewrite Rmult_assoc, Rinv_l by lra. lra. }
  set (X := fst N + u * (fst S - fst N)). set (Y := snd N + v * (snd S - snd N)).
  assert (HX : -674 <= X <= 727) by (unfold X; split; nra). assert (HY : 3508 <= Y <= 5009) by (unfold Y; split; nra).
  destruct (plane_onto (c_format c) X Y ltac:(lra)) as (n & e & Hn & He & E).
  destruct (plane_region (c_format c) n e Hn He) as [A1 A2]; [rewrite E; assumption|rewrite E; assumption|].
  destruct (round64_near n) as [V1 (a & Va & Da)]; [rewrite Rabs_pos_eq; lra|].
  destruct (round64_near e) as [V2 (b & Vb & Db)]; [apply Rabs_lt; lra|].
  exists (round64 n), (round64 e). split; [now exists a|]. split; [now exists b|]. intros K.
  apply (C55_pixel M K c size nw se nwR seR (round64 n) (round64 e) n e i j HM); try assumption; try lra; try lia.
  - split; [exact Hc|]. split; [exact Hr|exact Cf].
  - split; [assumption|]. now exists a.
  - split; [assumption|]. exists b. split; [assumption|]. eapply Rle_trans; [exact Db|]. change (powerRZ 2 (-46)) with (/ 2 ^ 46). change (powerRZ 2 (-47)) with (/ 2 ^ 47). lra.
  - unfold exact_fraction. cbv zeta. fold N S. rewrite E. cbn [fst snd].
    replace (IZR (c_dx c) * ((X - fst N) / (fst S - fst N))) with (IZR i + / 2) by (unfold X, u; field; lra).
    assert (K1 : IZR (c_dx c) <= IZR (10 ^ 8)) by (apply IZR_le; assumption). change (10 ^ 8)%Z with 100000000%Z in K1.
    unfold pixel_index. destruct (Z.eq_dec i 0) as [->|Ni]; [right; split; [reflexivity|]; lra|left; split; [lia|]; lra].
  - unfold exact_fraction. cbv zeta. fold N S. rewrite E. cbn [fst snd].
    replace (IZR (c_dy c) * ((Y - snd N) / (snd S - snd N))) with (IZR j + / 2) by (unfold Y, v; field; lra).
    assert (K1 : IZR (c_dy c) <= IZR (10 ^ 8)) by (apply IZR_le; assumption). change (10 ^ 8)%Z with 100000000%Z in K1.
    unfold pixel_index. destruct (Z.eq_dec j 0) as [->|Nj]; [right; split; [reflexivity|]; lra|left; split; [lia|]; lra].
Qed.

(** The hypotheses are met: a point in the middle of a national picture and of a
    picture of the ellipsoid format, and the last pixel of a halved national grid. *)
Example C69_case : exists n e, 30 < n < 60 /\ -5 < e < 25 /\
  project arithR (new_dummy arithR [] 3 900 900) n e = (450.5, 450.5).
Proof.
  destruct (C69_picture _ _ _ _ 450.5 450.5 C34_case_sphere) as (n & e & A & B & C & _);
    [destruct (dummy_fields arithR [] 3 900 900) as (_ & -> & _); lra|destruct (dummy_fields arithR [] 3 900 900) as (_ & _ & ->); lra|].
  exists n, e. auto.
Qed.
Example C69_case_ellipsoid : exists n e, 30 < n < 60 /\ -5 < e < 25 /\
  project arithR (new_dummy arithR [] 5 2200 2400) n e = (0.25, 2399).
Proof.
  destruct (C69_picture _ _ _ _ 0.25 2399 C34_case_ellipsoid) as (n & e & A & B & C & _);
    [destruct (dummy_fields arithR [] 5 2200 2400) as (_ & -> & _); lra|destruct (dummy_fields arithR [] 5 2200 2400) as (_ & _ & ->); lra|].
  exists n, e. auto.
Qed.
Example C69_case_lookup : let c := new_dummy (arith64 correct) [] 3 450 450 in
  exists north east, finite north /\ finite east /\ forall K, value_at correct K c north east = at_ (arith64 correct) c 449 449.
Proof.
  pose proof C56_case as H. cbv zeta in *. destruct H as (A & B & C & D & _).
  destruct (dummy_fields (arith64 correct) [] 3 450 450) as (_ & E & F).
  apply (C69_lookup correct _ (900, 900)%Z (from_reference 450 450)); try assumption; rewrite ?E, ?F; lia.
Qed.
