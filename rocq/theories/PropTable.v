(** C66: the coordinate tables of the radar service, at every point of every spherical grid. *)
From Coq Require Import Reals Lra Lia Psatz.
From Flocq Require Import Core BinarySingleNaN.
From Verif Require Import GoBase GoFloat Composite Projection Radolan Spec SpecProj SpecReal ExactReal SpecAccuracy SpecKm SpecTable
  FloatFacts PropFloat PropGrid PropReal PropProjFloat AccFacts PropAccuracy GridNumbers GridPoints PropKm.
Local Open Scope R_scope.

Lemma radians_degrees r : radians (degrees r) = r.
Proof. unfold radians, degrees. field. apply PI_neq0. Qed.
Lemma radians_minus a b : radians (a - b) = radians a - radians b.
Proof. unfold radians. ring. Qed.
Lemma radians_90 : radians 90 = PI / 2.
Proof. unfold radians. field. Qed.
Definition kk : R := 6370.04 * (1 + sin (radians 60)).

(** cos / (1 + sin) = tan (pi/4 - n/2). *)
Lemma half_angle n : -90 < n < 270 -> cos (radians n) / (1 + sin (radians n)) = tan (PI / 4 - radians n / 2).
Proof.
  intros Hn. pose proof PI_RGT_0 as P. set (a := PI / 4 - radians n / 2).
  assert (Ra : - (PI / 2) < a < PI / 2). { unfold a, radians. split; nra. }
  assert (Ca : 0 < cos a) by (apply cos_gt_0; lra).
  assert (En : radians n = PI / 2 - 2 * a) by (unfold a; field). rewrite En.
  rewrite cos_shift, <- (cos_shift (PI / 2 - 2 * a)). replace (PI / 2 - (PI / 2 - 2 * a)) with (2 * a) by ring.
  rewrite sin_2a, cos_2a_cos. unfold tan. field. split; nra.
Qed.

(** Forward: the map plane of the spherical grids. *)
Theorem C66_forward lat lon : -90 < lat <= 90 -> table_x lat lon = fst (plane 0 lat lon) /\ table_y lat lon = - snd (plane 0 lat lon).
Proof.
  intros H. unfold table_x, table_y, plane, pole_distance, sphere_radius, table_M. cbn [Z.leb Z.compare fst snd].
  rewrite <- half_angle by lra. unfold Rdiv. split; ring.
Qed.

(** Backward. *)
Lemma polar_back x y : x <> 0 -> y < 0 -> let t := atan (- x / y) in let r := - y / cos t in
  - (PI / 2) < t < PI / 2 /\ 0 < cos t /\ sin t <> 0 /\ 0 < r /\ x = r * sin t /\ y = - (r * cos t) /\ r * r = x * x + y * y.
Proof.
  intros Hx Hy t r. pose proof (atan_bound (- x / y)) as B. fold t in B.
  assert (C : 0 < cos t) by (apply cos_gt_0; lra). assert (T : tan t = - x / y) by apply tan_atan.
  assert (S : sin t = (- x / y) * cos t). { rewrite <- T. unfold tan. field. lra. }
  assert (X : x = r * sin t) by (rewrite S; unfold r; field; lra).
  assert (Y : y = - (r * cos t)) by (unfold r; field; lra).
  split; [lra|]. split; [exact C|]. split; [intros S0; apply Hx; rewrite X, S0; ring|].
  split; [unfold r; apply Rdiv_lt_0_compat; lra|]. split; [exact X|]. split; [exact Y|].
  pose proof (sin2_cos2 t) as Q. unfold Rsqr in Q. assert (Y2 : y * y = r * cos t * (r * cos t)) by (rewrite Y at 1 2; ring).
  assert (X2 : x * x = r * sin t * (r * sin t)) by congruence. rewrite X2, Y2. transitivity (r * r * (sin t * sin t + cos t * cos t)); [rewrite Q|]; ring.
Qed.

Lemma kk_pos : 0 < kk.
Proof. pose proof k_in as K. fold kk in K. assert (0 < klo) by (unfold klo; lra). lra. Qed.

Lemma table_lat_value x y : x <> 0 -> y < 0 ->
  let t := atan (- x / y) in let r := - y / cos t in
  table_lon x y = degrees t + 10 /\ PI / 4 - radians (table_lat x y) / 2 = atan (r / kk).
Proof.
  intros Hx Hy t r. destruct (polar_back x y Hx Hy) as (Bt & Ct & St & Pr & X & Y & _). fold t in Bt, Ct, St, Pr, X, Y. fold r in Pr, X, Y.
  split; [reflexivity|]. unfold table_lat, table_lon. fold t. replace (degrees t + 10 - 10) with (degrees t) by ring. rewrite radians_degrees.
  fold kk. replace (kk * sin t / x) with (/ (r / kk)).
  2:{ rewrite X. pose proof kk_pos. field. split; [|split]; lra. }
  rewrite radians_minus, radians_degrees, radians_90.
  rewrite atan_inv by (apply Rdiv_lt_0_compat; [exact Pr|exact kk_pos]). field.
Qed.

Theorem C66_inverse x y : x <> 0 -> y < 0 ->
  -90 < table_lat x y < 90 /\ -80 < table_lon x y < 100 /\
  table_x (table_lat x y) (table_lon x y) = x /\ table_y (table_lat x y) (table_lon x y) = y.
Proof.
  intros Hx Hy. destruct (table_lat_value x y Hx Hy) as [L1 L2]. destruct (polar_back x y Hx Hy) as (Bt & Ct & St & Pr & X & Y & _).
  set (t := atan (- x / y)) in *. set (r := - y / cos t) in *. pose proof PI_RGT_0 as P. pose proof kk_pos as K.
  assert (Ba : 0 < atan (r / kk) < PI / 2). { split; [|apply atan_bound]. rewrite <- atan_0. apply atan_increasing. apply Rdiv_lt_0_compat; lra. }
  assert (Rl : radians (table_lat x y) = PI / 2 - 2 * atan (r / kk)) by lra.
  assert (Bl : -90 < table_lat x y < 90). { unfold radians in Rl. split; nra. }
  split; [exact Bl|]. split. { rewrite L1. unfold degrees. assert (0 < 180 / PI) by (apply Rdiv_lt_0_compat; lra).
    assert (E90 : PI / 2 * (180 / PI) = 90) by (field; lra). split; nra. }
  destruct (C66_forward (table_lat x y) (table_lon x y) ltac:(lra)) as [F1 F2]. rewrite F1, F2. unfold plane, pole_distance, sphere_radius. cbn [Z.leb Z.compare fst snd].
  fold kk. rewrite L2, tan_atan. rewrite L1. replace (degrees t + 10 - 10) with (degrees t) by ring. rewrite radians_degrees.
  replace (kk * (r / kk)) with r by (field; lra). split; [now rewrite <- X|now rewrite <- Y].
Qed.

(** And back again. *)
Theorem C66_inverse_back lat lon : -90 < lat < 90 -> -80 < lon < 100 -> lon <> 10 ->
  table_lat (table_x lat lon) (table_y lat lon) = lat /\ table_lon (table_x lat lon) (table_y lat lon) = lon.
Proof.
  intros Hn He Hd. pose proof PI_RGT_0 as P. pose proof kk_pos as K.
  destruct (C66_forward lat lon ltac:(lra)) as [F1 F2]. unfold plane, pole_distance, sphere_radius in F1, F2. cbn [Z.leb Z.compare fst snd] in F1, F2. fold kk in F1, F2.
  set (a := PI / 4 - radians lat / 2) in *. set (t := radians (lon - 10)) in *.
  assert (Ba : 0 < a < PI / 2) by (unfold a, radians; split; nra). assert (Bt : - (PI / 2) < t < PI / 2) by (unfold t, radians; split; nra).
  assert (Nt : t <> 0) by (unfold t, radians; intros E; apply Rmult_integral in E; lra).
  assert (Ta : 0 < tan a) by (apply tan_gt_0; lra). assert (Ct : 0 < cos t) by (apply cos_gt_0; lra).
  assert (St : sin t <> 0). { intros E. destruct (Rlt_dec 0 t) as [L|L]; [pose proof (sin_gt_0 t L ltac:(lra)); lra|]. pose proof (sin_lt_0_var t ltac:(lra) ltac:(lra)). lra. }
  assert (Pr : 0 < kk * tan a) by (apply Rmult_lt_0_compat; lra).
  assert (Ex : table_x lat lon <> 0) by (rewrite F1; intros E; apply Rmult_integral in E; lra).
  assert (Ey : table_y lat lon < 0) by (rewrite F2; nra).
  destruct (table_lat_value _ _ Ex Ey) as [L1 L2]. 
  assert (At : atan (- table_x lat lon / table_y lat lon) = t).
  { rewrite F1, F2. replace (- (kk * tan a * sin t) / - (kk * tan a * cos t)) with (tan t) by (generalize (tan a) Ta; intros z Hz; unfold tan; field; repeat split; lra). now apply atan_tan. }
  rewrite At in L1, L2. assert (Er : - table_y lat lon / cos t / kk = tan a) by (rewrite F2; field; lra). rewrite Er, atan_tan in L2 by lra.
  split.
  - unfold a, radians in L2. nra.
  - rewrite L1. unfold t, degrees, radians. field. lra.
Qed.

(** * The tables *)
(** A position moved by a unit of the fifth decimal moves by less than 2 m on the map. *)
Lemma sphere_moves n e n' e' : 0 <= PI / 4 - radians n / 2 <= PI / 4 -> tan (PI / 4 - radians n / 2) <= 0.43 ->
  Rabs (n' - n) <= 0.000005 -> Rabs (e' - e) <= 0.000005 ->
  Rabs (fst (plane 0 n' e') - fst (plane 0 n e)) <= 0.0016 /\ Rabs (snd (plane 0 n' e') - snd (plane 0 n e)) <= 0.0016.
Proof.
  intros Ha Ht Hn He. unfold plane, pole_distance, sphere_radius. cbn [Z.leb Z.compare fst snd]. fold kk.
  pose proof (Rabs_le_inv _ _ pi_bounds) as P. pose proof k_in as K. fold kk in K.
  assert (K2 : kk <= 11888) by (apply Rle_trans with khi; [tauto|unfold khi; lra]). pose proof kk_pos as K0.
  set (a := PI / 4 - radians n / 2) in *. set (a' := PI / 4 - radians n' / 2). set (t := radians (e - 10)). set (t' := radians (e' - 10)).
  assert (Da : Rabs (a' - a) <= 0.0000000437).
  { replace (a' - a) with (- ((n' - n) * (PI / 360))) by (unfold a, a', radians; field). rewrite Rabs_Ropp, Rabs_mult, (Rabs_pos_eq (PI / 360)) by lra.
    pose proof (Rabs_pos (n' - n)). nra. }
  assert (Dt : Rabs (t' - t) <= 0.0000000873).
  { replace (t' - t) with ((e' - e) * (PI / 180)) by (unfold t, t', radians; field). rewrite Rabs_mult, (Rabs_pos_eq (PI / 180)) by lra.
    pose proof (Rabs_pos (e' - e)). nra. }
  pose proof (tan_lip a a' Ha ltac:(lra)) as T.
  assert (T0 : 0 <= tan a). { destruct (Req_dec a 0) as [->|Na]; [rewrite tan_0; lra|]. left. apply tan_gt_0; lra. }
  assert (Dr : Rabs (kk * tan a' - kk * tan a) <= 0.0011).
  { rewrite <- Rmult_minus_distr_l, Rabs_mult, (Rabs_pos_eq kk) by lra. pose proof (Rabs_pos (tan a' - tan a)).
    apply Rle_trans with (11888 * (2.1 * 0.0000000437)); [|lra]. apply Rmult_le_compat; try lra. }
  assert (G : forall s s', Rabs s' <= 1 -> Rabs (s' - s) <= Rabs (t' - t) -> Rabs (kk * tan a' * s' - kk * tan a * s) <= 0.0016).
  { intros s s' B L. replace (kk * tan a' * s' - kk * tan a * s) with ((kk * tan a' - kk * tan a) * s' + kk * tan a * (s' - s)) by ring.
    eapply Rle_trans; [apply Rabs_triang|]. rewrite !Rabs_mult with (x := kk * tan a' - kk * tan a).
    rewrite (Rabs_mult (kk * tan a)), (Rabs_pos_eq (kk * tan a)) by nra.
    pose proof (Rabs_pos s'). pose proof (Rabs_pos (kk * tan a' - kk * tan a)). pose proof (Rabs_pos (s' - s)).
    assert (kk * tan a <= 5112) by nra. assert (0 <= kk * tan a) by nra.
    assert (kk * tan a * Rabs (s' - s) <= 5112 * 0.0000000873) by (apply Rmult_le_compat; lra).
    assert (Rabs (kk * tan a' - kk * tan a) * Rabs s' <= 0.0011 * 1) by (apply Rmult_le_compat; lra). lra. }
  split; apply G; [apply Rabs_le; apply SIN_bound|apply sin_lip|apply Rabs_le; apply COS_bound|apply cos_lip].
Qed.

(** Like axis_km of PropKm.v, up to one km outside. *)
Lemma axis_near (N S P o g x d k : R) : 900 <= g <= 1500 -> 1 <= d ->
  Rabs (N - o) <= 0.0045 -> Rabs (S - (o + g)) <= 0.0045 -> 0 <= k <= g -> Rabs (P - o - k) <= 0.0016 ->
  Rabs (x - d * ((P - N) / (S - N))) <= d / 10 ^ 9 -> Rabs (x * (g / d) - k) <= 0.0067.
Proof.
  intros Hg Hd HN HS Hk HP Hx. apply Rabs_le_inv in HN, HS, HP.
  set (P0 := o + k). 
  assert (X0 : Rabs (d * ((P0 - N) / (S - N)) - d * ((P0 - N) / (S - N))) <= d / 10 ^ 9).
  { rewrite Rminus_eq_0, Rabs_R0. apply Rmult_le_pos; lra. }
  pose proof (axis_km N S P0 o g (d * ((P0 - N) / (S - N))) d k Hg Hd ltac:(apply Rabs_le; lra) ltac:(apply Rabs_le; lra) ltac:(unfold P0; ring) Hk X0) as H.
  assert (D : Rabs ((x - d * ((P0 - N) / (S - N))) * (g / d)) <= 0.0017).
  { replace ((x - d * ((P0 - N) / (S - N))) * (g / d)) with ((x - d * ((P - N) / (S - N))) * (g / d) + (P - P0) * (g / (S - N))) by (field; lra).
    assert (G0 : 0 <= g / d) by (apply Rmult_le_pos; [lra|left; apply Rinv_0_lt_compat; lra]).
    assert (G1 : 0 <= g / (S - N)) by (apply Rmult_le_pos; [lra|left; apply Rinv_0_lt_compat; lra]).
    assert (G2 : g / (S - N) <= 1.0001). { apply Rmult_le_reg_r with (S - N); [lra|]. unfold Rdiv. rewrite Rmult_assoc, Rinv_l by lra. lra. }
    eapply Rle_trans; [apply Rabs_triang|]. rewrite !Rabs_mult, (Rabs_pos_eq (g / d) G0), (Rabs_pos_eq (g / (S - N)) G1).
    assert (A1 : Rabs (P - P0) * (g / (S - N)) <= 0.0016 * 1.0001) by (apply Rmult_le_compat; [apply Rabs_pos|lra|apply Rabs_le; unfold P0; lra|lra]).
    assert (A2 : Rabs (x - d * ((P - N) / (S - N))) * (g / d) <= d / 10 ^ 9 * (g / d)) by (apply Rmult_le_compat_r; lra).
    replace (d / 10 ^ 9 * (g / d)) with (g / 10 ^ 9) in A2 by (field; lra). lra. }
  replace (x * (g / d) - k) with ((d * ((P0 - N) / (S - N)) * (g / d) - k) + (x - d * ((P0 - N) / (S - N))) * (g / d)) by ring.
  eapply Rle_trans; [apply Rabs_triang|]. lra.
Qed.

(** The origins of the spherical grids. *)
Lemma located_range size origin : located size false origin ->
  -674 <= fst origin <= -443 /\ 3508 <= snd origin <= 3759 /\ fst origin + IZR (fst size) <= 727 /\ snd origin + IZR (snd size) <= 5009.
Proof. intros H. pose proof ref as (R1 & R2). inversion H; subst; cbn [fst snd from_reference]; unfold from_reference; cbn [fst snd]; lra. Qed.

(** At every point of a spherical grid, [a] km east and [b] km south of its
    corner: the position by the formulas of the radar service, printed with five
    decimals, is projected there, up to 10 m, at every resolution. *)
Theorem C66_table M (c : composite (num (arith64 M))) size origin a b lat lon north east :
  accurate_library (powerRZ 2 (-48)) M -> @calibrated (arith64 M) c ->
  resampled (c_dx c) (c_dy c) (fst size) (snd size) -> (c_format c < 5)%Z -> located size false origin ->
  0 <= a <= IZR (fst size) -> 0 <= b <= IZR (snd size) -> fst origin + a <> 0 ->
  five_decimals lat (table_lat (fst origin + a) (- (snd origin + b))) ->
  five_decimals lon (table_lon (fst origin + a) (- (snd origin + b))) ->
  within (powerRZ 2 (-47)) north lat -> within (powerRZ 2 (-46)) east lon ->
  let p := project (arith64 M) c north east in
  exists x y, is_value (fst p) x /\ is_value (snd p) y /\
    sqrt ((x * (IZR (fst size) / IZR (c_dx c)) - a)² + (y * (IZR (snd size) / IZR (c_dy c)) - b)²) <= 0.01.
Proof.
  intros HM Hc Hr Hf Hl Ha Hb Nx Hn He Wn We. cbv zeta.
  assert (Ef : (5 <=? c_format c)%Z = false) by (apply Z.leb_gt; exact Hf).
  destruct (located_range _ _ Hl) as (O1 & O2 & O3 & O4).
  set (X := fst origin + a) in *. set (Y := - (snd origin + b)) in *. assert (Yn : Y < 0) by (unfold Y; lra).
  destruct (C66_inverse X Y Nx Yn) as (Rl & Ro & T1 & T2). destruct (table_lat_value X Y Nx Yn) as [L1 L2].
  destruct (polar_back X Y Nx Yn) as (Bt & Ct & St & Pr & Xr & Yr & Rr).
  set (la := table_lat X Y) in *. set (lo := table_lon X Y) in *. set (r := - Y / cos (atan (- X / Y))) in *.
  destruct (C66_forward la lo ltac:(lra)) as [F1 F2]. rewrite T1 in F1. rewrite T2 in F2.
  pose proof (Rabs_le_inv _ _ pi_bounds) as P. pose proof k_in as K. fold kk in K.
  assert (K2 : 11886 <= kk <= 11888) by (unfold klo, khi in K; lra).
  assert (Br : 3508 <= r <= 5062). { assert (X * X <= 727 * 727) by (assert (-674 <= X <= 727) by (unfold X; lra); nra). assert (3508 * 3508 <= Y * Y <= 5009 * 5009) by (assert (-5009 <= Y <= -3508) by (unfold Y; lra); nra). split; nra. }
  set (t := r / kk) in *. assert (Bt' : 0.29 <= t <= 0.43).
  { assert (Et : t * kk = r) by (unfold t; field; lra). split; nra. }
  set (q := PI / 4 - radians la / 2) in *.
  assert (Tq : tan q = t) by (rewrite L2; apply tan_atan).
  assert (Bq : 0.2 <= q <= 0.5).
  { rewrite L2. pose proof (atan_bound t) as B. assert (B0 : 0 < atan t) by (rewrite <- atan_0; apply atan_increasing; lra).
    split.
    - destruct (Rle_dec 0.2 (atan t)) as [H|H]; [exact H|exfalso]. assert (H1 : tan (atan t) < tan 0.2) by (apply tan_increasing; lra).
      rewrite tan_atan in H1. pose proof (tan_in 0.2 0.2 0.2 ltac:(num_eval) ltac:(num_eval) ltac:(lra) ltac:(lra) ltac:(lra)) as [_ Q].
      assert (shi 0.2 / clo 0.2 <= 0.29) by num_eval. lra.
    - destruct (Rle_dec (atan t) 0.5) as [H|H]; [exact H|exfalso]. assert (H1 : tan 0.5 < tan (atan t)) by (apply tan_increasing; lra).
      rewrite tan_atan in H1. pose proof (tan_in 0.5 0.5 0.5 ltac:(num_eval) ltac:(num_eval) ltac:(lra) ltac:(lra) ltac:(lra)) as [Q _].
      assert (0.43 <= slo 0.5 / chi 0.5) by num_eval. lra. }
  assert (Bla : 20 <= la <= 80). { unfold q, radians in Bq. split; nra. }
  unfold five_decimals in Hn, He.
  destruct (sphere_moves la lo lat lon) as [M1 M2]; try assumption; [fold q; lra|fold q; lra|].
  apply Rabs_le_inv in Hn, He. rewrite <- F1 in M1.
  assert (EY : snd (plane 0 la lo) = - Y) by lra. rewrite EY in M2.
  destruct (corners_located (c_format c) _ _ _ Hl Ef) as (nw & se & nwR & seR & Cf & Cd & N1 & N2 & S1 & S2).
  assert (Hg : on_float_grid M c size nw se) by (split; [exact Hc|]; split; [exact Hr|rewrite Ef; exact Cf]).
  rewrite <- Ef in Cd.
  destruct (accuracy_bounded M c size nw se nwR seR north east lat lon HM Hg Cd Wn We ltac:(lra) ltac:(lra)) as (x & y & X1 & Y1 & X2 & Y2 & _).
  exists x, y. split; [exact X1|]. split; [exact Y1|].
  destruct (located_size _ _ _ Hl) as [Gx Gy]. destruct (resampled_pos _ _ _ _ _ _ Cd Hr) as [Px Py].
  assert (Dx1 : 1 <= IZR (c_dx c)) by (apply IZR_le; lia). assert (Dy1 : 1 <= IZR (c_dy c)) by (apply IZR_le; lia).
  assert (Pl : forall n e, plane (c_format c) n e = plane 0 n e) by (intros n e; unfold plane, pole_distance; rewrite Ef; reflexivity).
  unfold exact_fraction in X2, Y2. cbv zeta in N1, N2, S1, S2, X2, Y2. rewrite (Pl (fst nwR) (snd nwR)) in N1, N2, X2, Y2. rewrite (Pl (fst seR) (snd seR)) in S1, S2, X2, Y2. rewrite (Pl lat lon) in X2, Y2. cbn [fst snd] in X2, Y2.
  assert (Ax : Rabs (x * (IZR (fst size) / IZR (c_dx c)) - a) <= 0.0067).
  { eapply axis_near; [exact Gx|exact Dx1|exact N1|exact S1|exact Ha| |exact X2]. replace (fst (plane 0 lat lon) - fst origin - a) with (fst (plane 0 lat lon) - X) by (unfold X; ring). exact M1. }
  assert (Ay : Rabs (y * (IZR (snd size) / IZR (c_dy c)) - b) <= 0.0067).
  { eapply axis_near; [exact Gy|exact Dy1|exact N2|exact S2|exact Hb| |exact Y2]. replace (snd (plane 0 lat lon) - snd origin - b) with (snd (plane 0 lat lon) - - Y) by (unfold Y; ring). exact M2. }
  clear - Ax Ay. apply Rabs_le_inv in Ax, Ay. set (u := x * _ - a) in *. set (v := y * _ - b) in *. clearbody u v.
  rewrite <- (sqrt_Rsqr 0.01) by lra. apply sqrt_le_1_alt. unfold Rsqr. nra.
Qed.

(** Pixel corners and centres are never on the central meridian. *)
Corollary C66_pixels M (c : composite (num (arith64 M))) size origin (i j : Z) (half : bool) lat lon north east :
  accurate_library (powerRZ 2 (-48)) M -> @calibrated (arith64 M) c ->
  c_dx c = fst size -> c_dy c = snd size -> (c_format c < 5)%Z -> located size false origin ->
  (0 <= i < c_dx c)%Z -> (0 <= j < c_dy c)%Z ->
  (* the centre of pixel (i, j), or its lower left corner *)
  let a := if half then IZR i + 0.5 else IZR i in let b := if half then IZR j + 0.5 else IZR j + 1 in
  five_decimals lat (table_lat (fst origin + a) (- (snd origin + b))) ->
  five_decimals lon (table_lon (fst origin + a) (- (snd origin + b))) ->
  within (powerRZ 2 (-47)) north lat -> within (powerRZ 2 (-46)) east lon ->
  let p := project (arith64 M) c north east in
  exists x y, is_value (fst p) x /\ is_value (snd p) y /\ sqrt ((x - a)² + (y - b)²) <= 0.01.
Proof.
  intros HM Hc Dx Dy Hf Hl Hi Hj a b Hn He Wn We. cbv zeta. rewrite Dx in Hi. rewrite Dy in Hj.
  destruct (located_size _ _ _ Hl) as [Gx Gy].
  assert (Bi : 0 <= IZR i /\ IZR i + 1 <= IZR (fst size)). { rewrite <- plus_IZR. split; apply IZR_le; lia. }
  assert (Bj : 0 <= IZR j /\ IZR j + 1 <= IZR (snd size)). { rewrite <- plus_IZR. split; apply IZR_le; lia. }
  destruct (C66_table M c size origin a b lat lon north east) as (x & y & X & Y & D); try assumption.
  - rewrite Dx, Dy. exists 0%Z, 0%Z. lia.
  - unfold a. destruct half; lra.
  - unfold b. destruct half; lra.
  - pose proof ref as [R1 _]. intros E0.
    assert (Hh : exists k : Z, 2 * a = IZR k) by (unfold a; destruct half; [exists (2 * i + 1)%Z; rewrite plus_IZR, mult_IZR; lra|exists (2 * i)%Z; rewrite mult_IZR; lra]).
    destruct Hh as [k Ek].
    assert (Ho : exists m : Z, fst origin = fst (plane 0 51 9) - IZR m) by (inversion Hl; subst; eexists; unfold from_reference; cbn [fst snd]; reflexivity).
    destruct Ho as [m Em]. assert (B : -147 < IZR (2 * m - k) < -146) by (rewrite minus_IZR, mult_IZR; lra).
    destruct B as [B1 B2]. apply lt_IZR in B1, B2. lia.
  - exists x, y. split; [exact X|]. split; [exact Y|]. rewrite Dx, Dy in D.
    unfold Rdiv in D. rewrite !Rinv_r, !Rmult_1_r in D by lra. exact D.
Qed.

(** * Documented points *)
Lemma axis_point (N S P g x d k eta r : R) : 900 <= g <= 1500 -> 1 <= d -> 0 <= eta <= 0.1 ->
  Rabs (r * d - (S - N)) <= 2 / 10 ^ 9 -> Rabs (x * r - (P - N)) <= 2 / 10 ^ 9 ->
  0 <= k <= g -> Rabs (P - N - k * ((S - N) / g)) <= eta -> 899 <= S - N <= 1501 ->
  Rabs (x * (g / d) - k) <= (eta + 0.000000005) * (g / (S - N)) * 1.000001.
Proof.
  intros Hg Hd He Hr Hx Hk HP HS. apply Rabs_le_inv in Hr, Hx, HP.
  assert (Rd : 898 <= r * d) by lra.
  assert (R0 : 0 < r). { destruct (Rle_or_lt r 0) as [H|H]; [nra|exact H]. }
  set (s := (S - N) / g) in *. assert (Es : s * g = S - N) by (unfold s; field; lra). assert (Ps : 0 < s) by (unfold s; apply Rdiv_lt_0_compat; lra).
  assert (E1 : Rabs (x * (g / d) - k) * (r * d) <= g * (eta + 0.000000005)).
  { rewrite <- (Rabs_pos_eq (r * d)) by lra. rewrite <- Rabs_mult. replace ((x * (g / d) - k) * (r * d)) with (g * (x * r) - k * (r * d)) by (field; lra).
    apply Rabs_le. split; nra. }
  assert (E2 : (S - N) <= r * d * 1.000001) by nra.
  assert (P1 : 0 < / (S - N)) by (apply Rinv_0_lt_compat; lra).
  assert (P2 : 0 <= Rabs (x * (g / d) - k)) by apply Rabs_pos. set (v := Rabs (x * (g / d) - k)) in *. clearbody v.
  assert (E3 : v * (S - N) <= (eta + 0.000000005) * g * 1.000001) by nra.
  apply Rmult_le_reg_r with (S - N); [lra|]. replace ((eta + 0.000000005) * (g / (S - N)) * 1.000001 * (S - N)) with ((eta + 0.000000005) * g * 1.000001) by (field; lra). exact E3.
Qed.

(** The documented corners and the reference point, at every resolution. *)
Theorem C66_points M (c : composite (num (arith64 M))) size point km eps north east :
  accurate_library (powerRZ 2 (-48)) M -> @calibrated (arith64 M) c ->
  resampled (c_dx c) (c_dy c) (fst size) (snd size) -> documented_point size (5 <=? c_format c)%Z point km eps ->
  within (powerRZ 2 (-47)) north (fst point) -> within (powerRZ 2 (-46)) east (snd point) ->
  let p := project (arith64 M) c north east in
  exists x y, is_value (fst p) x /\ is_value (snd p) y /\
    sqrt ((x * (IZR (fst size) / IZR (c_dx c)) - fst km)² + (y * (IZR (snd size) / IZR (c_dy c)) - snd km)²) <= eps.
Proof.
  intros HM Hc Hr Hd Wn We. cbv zeta.
  assert (Q : exists nw se nwR seR, float_corners size (5 <=? c_format c)%Z nw se /\ documented_corners size (5 <=? c_format c)%Z nwR seR /\
    exists ex ey, 0 <= ex <= 0.1 /\ 0 <= ey <= 0.1 /\ 
      ((ex + 0.000000005) * 1.0001)² + ((ey + 0.000000005) * 1.0001)² <= eps² /\ 0 <= eps /\
      900 <= IZR (fst size) <= 1500 /\ 900 <= IZR (snd size) <= 1500 /\ 0 <= fst km <= IZR (fst size) /\ 0 <= snd km <= IZR (snd size) /\
      0 <= fst point <= 90 /\ -180 <= snd point <= 190 /\
      let P := plane (c_format c) (fst point) (snd point) in
      let N := plane (c_format c) (fst nwR) (snd nwR) in let S := plane (c_format c) (fst seR) (snd seR) in
      Rabs (fst S - fst N - IZR (fst size)) <= 0.01 /\ Rabs (snd S - snd N - IZR (snd size)) <= 0.01 /\
      Rabs (fst P - fst N - fst km * ((fst S - fst N) / IZR (fst size))) <= ex /\
      Rabs (snd P - snd N - snd km * ((snd S - snd N) / IZR (snd size))) <= ey).
  { assert (Pl : forall n e, plane (c_format c) n e = plane (if (5 <=? c_format c)%Z then 5 else 0) n e).
    { intros n e. unfold plane, pole_distance. destruct (5 <=? c_format c)%Z; reflexivity. }
    revert Hd Pl. generalize (5 <=? c_format c)%Z. intros w Hd Pl.
    pose proof ref as R0.
    inversion Hd; subst;
      (do 4 eexists; split; [constructor|]; split; [constructor|]);
      first [exists 0.000000545, 0.00000075; match goal with H : documented_point _ true _ _ _ |- _ => idtac end|exists 0.0238, 0.012];
      (split; [lra|]; split; [lra|]; split; [unfold Rsqr; lra|]; split; [lra|]; cbn [fst snd]; do 6 (split; [lra|]); cbv zeta; rewrite !Pl).
    all: first
      [ solve [destruct R0, national_nw, national_se, national_ne, national_sw; repeat split; apply Rabs_le; lra]
      | solve [destruct R0, picture_nw, picture_se, picture_ne, picture_sw; repeat split; apply Rabs_le; lra]
      | solve [destruct R0, extended_nw, extended_se, extended_ne, extended_sw; repeat split; apply Rabs_le; lra]
      | solve [destruct R0, de1200_nw, de1200_se, de1200_ne, de1200_sw; repeat split; apply Rabs_le; lra]
      | solve [destruct R0, european_nw, european_se, european_ne, european_sw; repeat split; apply Rabs_le; lra]
      | solve [clear R0; destruct wgs84_nw_sharp, wgs84_se_sharp, wgs84_ne, wgs84_sw; repeat split; apply Rabs_le; lra] ]. }
  destruct Q as (nw & se & nwR & seR & Cf & Cd & ex & ey & E1 & E2 & E3 & E4 & Gx & Gy & Kx & Ky & Rn & Re & Q). cbv zeta in Q. destruct Q as (S1 & S2 & P1 & P2).
  assert (Hg : on_float_grid M c size nw se) by (split; [exact Hc|]; split; [exact Hr|exact Cf]).
  destruct (accuracy_bounded M c size nw se nwR seR north east _ _ HM Hg Cd Wn We Rn Re) as (x & y & X1 & Y1 & _ & _ & _ & _ & rx & ry & _ & _ & A1 & A2 & A3 & A4).
  exists x, y. split; [exact X1|]. split; [exact Y1|].
  destruct (resampled_pos _ _ _ _ _ _ Cd Hr) as [Px Py].
  assert (Dx1 : 1 <= IZR (c_dx c)) by (apply IZR_le; lia). assert (Dy1 : 1 <= IZR (c_dy c)) by (apply IZR_le; lia).
  set (P := plane (c_format c) (fst point) (snd point)) in *. set (N := plane (c_format c) (fst nwR) (snd nwR)) in *. set (S := plane (c_format c) (fst seR) (snd seR)) in *.
  apply Rabs_le_inv in S1, S2.
  pose proof (axis_point (fst N) (fst S) (fst P) _ _ _ _ ex rx Gx Dx1 E1 A1 A3 Kx P1 ltac:(lra)) as Bx.
  pose proof (axis_point (snd N) (snd S) (snd P) _ _ _ _ ey ry Gy Dy1 E2 A2 A4 Ky P2 ltac:(lra)) as By.
  assert (Gq : forall g s, 900 <= g <= 1500 -> - (0.01) <= s - g <= 0.01 -> 0 <= g / s <= 1.00002).
  { intros g s Hg1 Hs. split; [apply Rmult_le_pos; [lra|left; apply Rinv_0_lt_compat; lra]|]. apply Rmult_le_reg_r with s; [lra|]. unfold Rdiv. rewrite Rmult_assoc, Rinv_l; lra. }
  pose proof (Gq _ _ Gx S1) as G1. pose proof (Gq _ _ Gy S2) as G2.
  set (fx := IZR (fst size) / (fst S - fst N)) in *. set (fy := IZR (snd size) / (snd S - snd N)) in *.
  set (u := x * _ - fst km) in *. set (v := y * _ - snd km) in *. clearbody u v fx fy.
  assert (Bx' : Rabs u <= (ex + 0.000000005) * 1.0001) by (eapply Rle_trans; [exact Bx|]; nra).
  assert (By' : Rabs v <= (ey + 0.000000005) * 1.0001) by (eapply Rle_trans; [exact By|]; nra).
  rewrite <- (sqrt_Rsqr eps) by exact E4. apply sqrt_le_1_alt. eapply Rle_trans; [|exact E3].
  apply Rplus_le_compat; apply Rsqr_le_abs_1; (eapply Rle_trans; [eassumption|]; apply Rle_abs).
Qed.

(** Munich and Bremerhaven: the distance measured in pixels times the resolution
    is the same on every spherical grid at every resolution, to a millimetre. *)
Theorem C66_distance M (c : composite (num (arith64 M))) size origin north1 east1 north2 east2 :
  accurate_library (powerRZ 2 (-48)) M -> @calibrated (arith64 M) c ->
  resampled (c_dx c) (c_dy c) (fst size) (snd size) -> (c_format c < 5)%Z -> located size false origin ->
  within (powerRZ 2 (-47)) north1 48.173146 -> within (powerRZ 2 (-46)) east1 11.546604 ->
  within (powerRZ 2 (-47)) north2 53.534366 -> within (powerRZ 2 (-46)) east2 8.576135 ->
  let p := project (arith64 M) c north1 east1 in let q := project (arith64 M) c north2 east2 in
  exists x1 y1 x2 y2 rx ry, is_value (fst p) x1 /\ is_value (snd p) y1 /\ is_value (fst q) x2 /\ is_value (snd q) y2 /\
    is_value (c_rx c) rx /\ is_value (c_ry c) ry /\
    Rabs (sqrt ((x1 * rx - x2 * rx)² + (y1 * ry - y2 * ry)²) - 663.629945199998) <= 0.000001.
Proof.
  intros HM Hc Hr Hf Hl A1 A2 B1 B2. cbv zeta. assert (Ef : (5 <=? c_format c)%Z = false) by (apply Z.leb_gt; exact Hf).
  rewrite <- Ef in Hl.
  destruct (C56_distance M c size origin 48.173146 11.546604 53.534366 8.576135 north1 east1 north2 east2 HM Hc Hr Hl A1 A2 ltac:(lra) ltac:(lra) B1 B2 ltac:(lra) ltac:(lra))
    as (x1 & y1 & x2 & y2 & rx & ry & X1 & Y1 & X2 & Y2 & Rx & Ry & Dx & Dy).
  exists x1, y1, x2, y2, rx, ry. repeat (split; [assumption|]).
  assert (Pl : forall n e, plane (c_format c) n e = plane 0 n e) by (intros n e; unfold plane, pole_distance; rewrite Ef; reflexivity).
  rewrite (Pl 48.173146 11.546604), (Pl 53.534366 8.576135) in Dx, Dy. destruct munich as [M1 M2], bremerhaven as [N1 N2]. apply Rabs_le_inv in Dx, Dy.
  replace (x1 * rx - x2 * rx) with ((x1 - x2) * rx) by ring. replace (y1 * ry - y2 * ry) with ((y1 - y2) * ry) by ring.
  set (u := (x1 - x2) * rx) in *. set (v := (y1 - y2) * ry) in *. clearbody u v.
  assert (U : 219.8950241 <= u <= 219.8950244) by lra. assert (V : 626.1396667 <= v <= 626.1396671) by lra. clear - U V.
  assert (L : 663.6299443 <= sqrt (u² + v²)).
  { rewrite <- (sqrt_Rsqr 663.6299443) by lra. apply sqrt_le_1_alt. unfold Rsqr. nra. }
  assert (H : sqrt (u² + v²) <= 663.6299461).
  { rewrite <- (sqrt_Rsqr 663.6299461) by lra. apply sqrt_le_1_alt. unfold Rsqr. nra. }
  apply Rabs_le. lra.
Qed.

(** * Concrete cases *)
Lemma round64_near r : Rabs r < 128 -> within (powerRZ 2 (-47)) (round64 r) r.
Proof.
  intros H. pose proof (normalize_result prec64 emax64 _ _ (ZnearestE (scaled_mantissa radix2 (FLT_exp (3 - emax64 - prec64) prec64) r))
    (cexp radix2 (FLT_exp (3 - emax64 - prec64) prec64) r) false) as Hr.
  change (F2R _) with (rnd64 r) in Hr.
  assert (F : generic_format radix2 (FLT_exp (3 - emax64 - prec64) prec64) (rnd64 r)) by (apply generic_format_round; exact _).
  assert (B : Rabs (rnd64 r) < bpow radix2 emax64) by (apply no_overflow; lra).
  split; [apply Hr|]. exists (rnd64 r). split; [eapply result_exact; [exact Hr|exact F|exact B]|].
  eapply Rle_trans; [apply error_le_half_ulp; exact _|].
  assert (U : ulp radix2 (FLT_exp (3 - emax64 - prec64) prec64) r <= bpow radix2 (-46)).
  { destruct (Req_dec r 0) as [Ez|Nz].
    - rewrite Ez, ulp_FLT_0 by (unfold Prec_gt_0, prec64; lia). apply bpow_le. unfold emax64, prec64. lia.
    - rewrite (ulp_neq_0 radix2 (FLT_exp (3 - emax64 - prec64) prec64) r Nz). apply bpow_le. unfold cexp.
      assert (mag radix2 r <= 7)%Z. { apply mag_le_bpow; [exact Nz|]. change (bpow radix2 7) with 128. exact H. }
      unfold FLT_exp, emax64, prec64. lia. }
  replace (powerRZ 2 (-47)) with (/ 2 * bpow radix2 (-46)); [lra|].
  rewrite bpow_powerRZ. change (IZR radix2) with 2. simpl. lra.
Qed.

(** Every pixel of the national grid has printed coordinates and floats next to them. *)
Example C66_case (i j : Z) (half : bool) : (0 <= i < 900)%Z -> (0 <= j < 900)%Z ->
  let c := new_dummy (arith64 correct) [] 3 900 900 in let origin := from_reference 450 450 in
  let a := if half then IZR i + 0.5 else IZR i in let b := if half then IZR j + 0.5 else IZR j + 1 in
  exists lat lon north east,
    accurate_library (powerRZ 2 (-48)) correct /\ @calibrated (arith64 correct) c /\
    c_dx c = fst (900, 900)%Z /\ c_dy c = snd (900, 900)%Z /\ (c_format c < 5)%Z /\ located (900, 900)%Z false origin /\
    five_decimals lat (table_lat (fst origin + a) (- (snd origin + b))) /\
    five_decimals lon (table_lon (fst origin + a) (- (snd origin + b))) /\
    within (powerRZ 2 (-47)) north lat /\ within (powerRZ 2 (-46)) east lon.
Proof.
  intros Hi Hj c origin a b.
  assert (Bi : 0 <= IZR i /\ IZR i + 1 <= 900). { rewrite <- plus_IZR. split; apply IZR_le; lia. }
  assert (Bj : 0 <= IZR j /\ IZR j + 1 <= 900). { rewrite <- plus_IZR. split; apply IZR_le; lia. }
  assert (Hl : located (900, 900)%Z false origin) by constructor.
  destruct (located_range _ _ Hl) as (O1 & O2 & O3 & O4).
  set (X := fst origin + a) in *. set (Y := - (snd origin + b)).
  assert (Yn : Y < 0) by (unfold Y, b; destruct half; lra).
  assert (Nx : X <> 0).
  { pose proof ref as [R1 _]. intros E0. unfold X, origin, from_reference in E0. cbn [fst snd] in E0.
    assert (Hh : exists k : Z, 2 * a = IZR k) by (unfold a; destruct half; [exists (2 * i + 1)%Z; rewrite plus_IZR, mult_IZR; lra|exists (2 * i)%Z; rewrite mult_IZR; lra]).
    destruct Hh as [k Ek]. assert (B : -147 < IZR (900 - k) < -146) by (rewrite minus_IZR; lra).
    destruct B as [B1 B2]. apply lt_IZR in B1, B2. lia. }
  destruct (C66_inverse X Y Nx Yn) as (Rl & Ro & _).
  exists (table_lat X Y), (table_lon X Y), (round64 (table_lat X Y)), (round64 (table_lon X Y)).
  destruct (dummy_fields (arith64 correct) [] 3 900 900) as (F1 & F2 & F3). fold c in F1, F2, F3. rewrite F1, F2, F3.
  split; [apply correct_accurate|]. split. { right. exists [], 3%Z, 900%Z, 900%Z. auto. }
  split; [reflexivity|]. split; [reflexivity|]. split; [lia|]. split; [exact Hl|].
  split; [unfold five_decimals; rewrite Rminus_eq_0, Rabs_R0; lra|]. split; [unfold five_decimals; rewrite Rminus_eq_0, Rabs_R0; lra|].
  split; [apply round64_near; apply Rabs_def1; lra|].
  destruct (round64_near (table_lon X Y)) as (V & r & E1 & E2); [apply Rabs_def1; lra|].
  split; [exact V|]. exists r. split; [exact E1|]. eapply Rle_trans; [exact E2|]. simpl. lra.
Qed.

(** The reference point and both cities, on the grids they are documented for. *)
Example C66_case_2 : let c := new_dummy (arith64 correct) [] 3 450 450 in let w := new_dummy (arith64 correct) [] 5 1100 1200 in
  accurate_library (powerRZ 2 (-48)) correct /\
  @calibrated (arith64 correct) c /\ resampled (c_dx c) (c_dy c) 900 900 /\
  documented_point (900, 900)%Z (5 <=? c_format c)%Z (51, 9) (450, 450) 0.03 /\
  @calibrated (arith64 correct) w /\ resampled (c_dx w) (c_dy w) 1100 1200 /\
  documented_point (1100, 1200)%Z (5 <=? c_format w)%Z (45.69642538, 3.566994635) (0, 1200) 0.000001 /\
  (c_format c < 5)%Z /\ located (900, 900)%Z false (from_reference 450 450) /\
  forall r, Rabs r < 128 -> within (powerRZ 2 (-47)) (round64 r) r.
Proof.
  cbv zeta. destruct (dummy_fields (arith64 correct) [] 3 450 450) as (-> & -> & ->), (dummy_fields (arith64 correct) [] 5 1100 1200) as (-> & -> & ->).
  split; [apply correct_accurate|]. split. { right. exists [], 3%Z, 450%Z, 450%Z. auto. }
  split; [exists 1%Z, 0%Z; lia|]. split; [constructor|]. split. { right. exists [], 5%Z, 1100%Z, 1200%Z. auto. }
  split; [exists 0%Z, 0%Z; lia|]. split; [constructor|]. split; [lia|]. split; [constructor|exact round64_near].
Qed.
Print Assumptions C66_forward.
Print Assumptions C66_inverse.
Print Assumptions C66_inverse_back.
Print Assumptions C66_table.
Print Assumptions C66_pixels.
Print Assumptions C66_points.
Print Assumptions C66_distance.
