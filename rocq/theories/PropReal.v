(** C34-C37: geometry of the projection in exact arithmetic. *)
From Coq Require Import Reals Lra Lia.
From Verif Require Import GoBase GoFloat Catalog Composite Header Data Projection Radolan
  CompositeFacts Spec ApiFacts SpecProj PropGrid ExactReal.
Local Open Scope R_scope.
Notation AR := arithR.

(** * The calibrated projection is an affine image of the plane *)
Lemma calibrated_stage A (c : composite (num A)) : calibrated c ->
  exists ch : composite (num A), c = calibrate_projection A ch /\ c_has_projection ch = false /\ c_wgs84 ch = false /\ in_int (c_dx ch) = true.
Proof.
  intros [(E & input & H)|(p & f & dx & dy & Hx & Hy & ->)].
  - exact (header_stage A E input c H).
  - unfold new_dummy. eexists. split; [reflexivity|]. cbn. auto.
Qed.

Lemma project_fixed A p q r s (c : composite (num A)) : 
  fixed A p q r s c =
  let c1 := set_offy (set_offx (set_ry (set_rx (set_has_projection c true) (n_ofZ A 1)) (n_ofZ A 1)) (n_zero A)) (n_zero A) in
  let o := project A c1 p q in
  let c2 := set_offy (set_offx c1 (fst o)) (snd o) in
  let e := project A c2 r s in
  set_ry (set_rx c2 (n_div A (fst e) (n_ofZ A (c_dx c)))) (n_div A (snd e) (n_ofZ A (c_dy c))).
Proof.
  unfold fixed. cbv zeta. destruct (project A _ p q) as [ox oy]. cbn [fst snd]. destruct (project A _ r s) as [rx ry]. reflexivity.
Qed.

(** The map plane as computed by the code. *)
Definition sphere_plane (north east : R) : R * R :=
  (earth_radius AR * ((1 + sin (60 * (PI / 180))) / (1 + sin (north * (PI / 180)))) * cos (north * (PI / 180)) * sin (east * (PI / 180) - 10 * (PI / 180)),
   earth_radius AR * ((1 + sin (60 * (PI / 180))) / (1 + sin (north * (PI / 180)))) * cos (north * (PI / 180)) * cos (east * (PI / 180) - 10 * (PI / 180))).
Definition wgs_scale (north : R) : R :=
  p_k_0 AR * tan (IZR 5 / IZR (10 ^ 1) * (PI / 2 - north * (PI / 180))) /
  Rpower ((1 - p_ecc AR * sin (north * (PI / 180))) / (1 + p_ecc AR * sin (north * (PI / 180)))) (IZR 5 / IZR (10 ^ 1) * p_ecc AR).
Definition wgs_plane (north east : R) : R * R :=
  ((p_x_0 AR + wgs_scale north * sin (east * (PI / 180) - 10 * (PI / 180))) / 1000,
   (p_y_0 AR - wgs_scale north * cos (east * (PI / 180) - 10 * (PI / 180))) / - 1000).
Definition code_plane (w : bool) : num AR -> num AR -> num AR * num AR := if w then wgs_plane else sphere_plane.

Lemma project_plane (c : composite (num arithR)) north east : c_has_projection c = true ->
  project AR c north east =
  ((fst (code_plane (c_wgs84 c) north east) - c_offx c) / c_rx c, (snd (code_plane (c_wgs84 c) north east) - c_offy c) / c_ry c).
Proof.
  intros H. unfold project. rewrite H. cbn [negb]. destruct (c_wgs84 c); reflexivity.
Qed.

Lemma fixed_affine p q r s (c : composite (num arithR)) (w : bool) : c_wgs84 c = w ->
  let d := fixed AR p q r s c in let P := code_plane w in
  c_has_projection d = true /\ c_wgs84 d = w /\ c_offx d = fst (P p q) /\ c_offy d = snd (P p q) /\
  c_rx d = (fst (P r s) - fst (P p q)) / IZR (c_dx c) /\ c_ry d = (snd (P r s) - snd (P p q)) / IZR (c_dy c).
Proof.
  intros Hw d P. subst d. rewrite project_fixed. cbv zeta.
  set (c1 := set_offy (set_offx (set_ry (set_rx (set_has_projection c true) (n_ofZ AR 1)) (n_ofZ AR 1)) (n_zero AR)) (n_zero AR)).
  assert (W1 : c_wgs84 c1 = w) by exact Hw. assert (H1 : c_has_projection c1 = true) by reflexivity.
  assert (O1 : project AR c1 p q = P p q).
  { rewrite project_plane by assumption. rewrite W1. change (c_offx c1) with 0. change (c_offy c1) with 0.
    change (c_rx c1) with 1. change (c_ry c1) with 1. unfold P. rewrite !Rminus_0_r. unfold Rdiv. rewrite Rinv_1, !Rmult_1_r.
    symmetry. apply surjective_pairing. }
  rewrite O1.
  set (c2 := set_offy (set_offx c1 (fst (P p q))) (snd (P p q))).
  assert (O2 : project AR c2 r s = (fst (P r s) - fst (P p q), snd (P r s) - snd (P p q))).
  { rewrite project_plane by reflexivity. change (c_wgs84 c2) with (c_wgs84 c1). rewrite W1.
    change (c_offx c2) with (fst (P p q)). change (c_offy c2) with (snd (P p q)). change (c_rx c2) with 1. change (c_ry c2) with 1.
    unfold Rdiv. rewrite Rinv_1, !Rmult_1_r. reflexivity. }
  rewrite O2. cbn [fst snd]. 
  split; [reflexivity|]. split; [exact W1|]. split; [reflexivity|]. split; [reflexivity|]. split; reflexivity.
Qed.

(** * The plane of the code is the documented plane, up to translation *)
Lemma half_angle (phi : R) : - (PI / 2) < phi <= PI / 2 -> cos phi / (1 + sin phi) = tan (PI / 4 - phi / 2).
Proof.
  intros H. pose proof PI_RGT_0 as Hpi. set (u := PI / 4 - phi / 2).
  assert (Hu : 0 <= u < PI / 2) by (unfold u; lra).
  assert (Hc : 0 < cos u) by (apply cos_gt_0; lra).
  replace phi with (PI / 2 - 2 * u) by (unfold u; field).
  rewrite cos_shift, sin_shift, sin_2a, cos_2a_cos. unfold tan. field. split; nra.
Qed.

Lemma radians_range n : -90 < n <= 90 -> - (PI / 2) < radians n <= PI / 2.
Proof. unfold radians. pose proof PI_RGT_0. intros Hn. nra. Qed.

Lemma radians_diff e : e * (PI / 180) - 10 * (PI / 180) = radians (e - 10).
Proof. unfold radians. ring. Qed.

Lemma sphere_plane_eq n e : -90 < n <= 90 ->
  sphere_plane n e = (sphere_radius n * sin (radians (e - 10)), sphere_radius n * cos (radians (e - 10))).
Proof.
  intros H. pose proof (half_angle (radians n) (radians_range n H)) as Hh.
  assert (S : 1 + sin (radians n) <> 0).
  { pose proof (radians_range n H) as Hr. pose proof PI_RGT_0.
    assert (sin (- (PI / 2)) < sin (radians n)) by (apply sin_increasing_1; lra).
    rewrite sin_neg, sin_PI2 in *. lra. }
  unfold sphere_plane, sphere_radius. rewrite radians_diff. fold (radians n). fold (radians 60). rewrite <- Hh.
  change (earth_radius AR) with (637004 / IZR (10 ^ 2)). change (IZR (10 ^ 2)) with 100. replace 6370.04 with (637004 / 100) by lra.
  f_equal; field; lra.
Qed.

Lemma wgs_scale_eq n : wgs_scale n = 1000 * ellipsoid_radius n.
Proof.
  unfold wgs_scale, ellipsoid_radius. fold (radians n).
  change (p_ecc AR) with ecc. 
  replace (IZR 5 / IZR (10 ^ 1)) with (/ 2) by (change (IZR (10 ^ 1)) with 10; lra).
  replace (/ 2 * (PI / 2 - radians n)) with (PI / 4 - radians n / 2) by field.
  replace (/ 2 * ecc) with (ecc / 2) by (unfold Rdiv; ring).
  replace (p_k_0 AR) with (1000 * 11862.667042661695).
  2:{ change (p_k_0 AR) with (11862667042661695 / IZR (10 ^ 9)). change (IZR (10 ^ 9)) with 1000000000. lra. }
  unfold Rdiv. ring.
Qed.

Lemma plane_diff format n e n' e' : -90 < n <= 90 -> -90 < n' <= 90 ->
  fst (code_plane (5 <=? format)%Z n e) - fst (code_plane (5 <=? format)%Z n' e') = fst (plane format n e) - fst (plane format n' e') /\
  snd (code_plane (5 <=? format)%Z n e) - snd (code_plane (5 <=? format)%Z n' e') = snd (plane format n e) - snd (plane format n' e').
Proof.
  intros H H'. unfold code_plane, plane, pole_distance. destruct (5 <=? format)%Z.
  - unfold wgs_plane. rewrite !wgs_scale_eq, !radians_diff. cbn [fst snd]. split; field.
  - rewrite !sphere_plane_eq by assumption. split; reflexivity.
Qed.

(** * Composites on a documented grid *)
Lemma decimal_corners size b nw se : documented_corners size b nw se -> exists g,
  size_of g = Some size /\ (b = true -> g = DE1200Grid) /\
  forall format, (5 <=? format)%Z = b -> corner_points AR format g = Some (nw, se).
Proof.
  intros [].
  - exists nationalGrid. repeat split; try discriminate.
  - exists nationalPictureGrid. repeat split; try discriminate.
  - exists extendedNationalGrid. repeat split; try discriminate.
  - exists DE1200Grid. split; [reflexivity|]. split; [discriminate|]. intros f Hf. cbn [corner_points]. rewrite Hf. reflexivity.
  - exists DE1200Grid. split; [reflexivity|]. split; [reflexivity|]. intros f Hf. cbn [corner_points]. rewrite Hf. reflexivity.
  - exists middleEuropeanGrid. repeat split; try discriminate.
Qed.

Lemma corner_range size b nw se : documented_corners size b nw se ->
  43 < fst se /\ fst nw < 57 /\ 7.5 < fst nw - fst se /\ (b = true -> 10 < fst nw - fst se) /\ -1 < snd nw < 4 /\ 14 < snd se < 18.3.
Proof. intros []; cbn [fst snd]; repeat split; try lra; discriminate. Qed.

Lemma resampled_pos dx dy size b nw se : documented_corners size b nw se -> resampled dx dy (fst size) (snd size) -> (0 < dx /\ 0 < dy)%Z.
Proof.
  intros H (a & e & Ha & He & H1 & H2).
  assert (0 < 2 ^ a)%Z by (apply Z.pow_pos_nonneg; lia). assert (0 < 2 ^ e)%Z by (apply Z.pow_pos_nonneg; lia).
  destruct H; cbn [fst snd] in *; nia.
Qed.

Lemma on_grid_affine c size nw se : on_grid c size nw se ->
  let P := plane (c_format c) in let N := P (fst nw) (snd nw) in let S := P (fst se) (snd se) in
  c_has_projection c = true /\
  c_rx c = (fst S - fst N) / IZR (c_dx c) /\ c_ry c = (snd S - snd N) / IZR (c_dy c) /\
  forall n e, -90 < n <= 90 ->
    project AR c n e = ((fst (P n e) - fst N) / c_rx c, (snd (P n e) - snd N) / c_ry c).
Proof.
  intros (Hc & Hr & Hd). cbv zeta.
  destruct (calibrated_stage AR c Hc) as (ch & Ec & H1 & H2 & H3).
  pose proof (calibrate_frame AR ch) as F. unfold data_frame in F. rewrite <- Ec in F.
  assert (c_format c = c_format ch /\ c_dx c = c_dx ch /\ c_dy c = c_dy ch) as (Ff & Fx & Fy) by tauto. clear F.
  rewrite Ff, Fx, Fy in *. destruct size as [gx gy]. cbn [fst snd] in Hr.
  destruct (decimal_corners _ _ _ _ Hd) as (g & G1 & G2 & G3). specialize (G3 (c_format ch) eq_refl).
  pose proof (corner_range _ _ _ _ Hd) as (R1 & R2 & R3 & _).
  apply (detect_iff _ _ g) in Hr; [|assumption|assumption].
  rewrite calibrate_eq in Ec. cbv zeta in Ec. rewrite Hr, G3 in Ec. destruct nw as [p q], se as [r s]. cbn [fst snd] in *.
  assert (K : exists cw, c = fixed AR p q r s cw /\ c_wgs84 cw = (5 <=? c_format ch)%Z /\ c_dx cw = c_dx ch /\ c_dy cw = c_dy ch).
  { destruct (5 <=? c_format ch)%Z.
    - rewrite (G2 eq_refl) in Ec. exists (set_wgs84 (unset AR ch) true). auto.
    - exists (unset AR ch). auto. }
  destruct K as (cw & K1 & K2 & K3 & K4).
  pose proof (fixed_affine p q r s cw _ K2) as (A1 & A2 & A3 & A4 & A5 & A6). rewrite <- K1 in *. rewrite K3, K4 in *.
  destruct (plane_diff (c_format ch) r s p q) as [D1 D2]; [lra|lra|].
  rewrite D1 in A5. rewrite D2 in A6.
  split; [assumption|]. split; [assumption|]. split; [assumption|].
  intros n e Hn. rewrite project_plane by assumption. rewrite A2, A3, A4.
  destruct (plane_diff (c_format ch) n e p q) as [D3 D4]; [lra|lra|]. rewrite D3, D4. reflexivity.
Qed.

(** * Distance from the pole *)
Definition colat (n : R) : R := PI / 4 - radians n / 2.

Lemma colat_range n : -90 < n <= 90 -> 0 <= colat n < PI / 2.
Proof. intros H. unfold colat. pose proof (radians_range n H). lra. Qed.
Lemma colat_lt n m : n < m -> colat m < colat n.
Proof. intros Hn. unfold colat, radians. pose proof PI_RGT_0. nra. Qed.
Lemma colat_90 : colat 90 = 0.
Proof. unfold colat, radians. field. Qed.

Lemma tan_colat_dec n m : -90 < n -> n < m -> m <= 90 -> tan (colat m) < tan (colat n).
Proof.
  intros H1 H2 H3. pose proof (colat_range n ltac:(lra)). pose proof (colat_range m ltac:(lra)).
  apply tan_increasing; [lra|now apply colat_lt|lra].
Qed.
Lemma tan_colat_90 : tan (colat 90) = 0.
Proof. rewrite colat_90. apply tan_0. Qed.
Lemma tan_colat_pos n : -90 < n < 90 -> 0 < tan (colat n).
Proof. intros H. rewrite <- tan_colat_90. apply tan_colat_dec; lra. Qed.
Lemma tan_colat_nonneg n : -90 < n <= 90 -> 0 <= tan (colat n).
Proof. intros H. destruct (Req_dec n 90) as [->|Hn]; [rewrite tan_colat_90; lra|left; apply tan_colat_pos; lra]. Qed.

(** The square of the tangent, by the sine of the latitude. *)
Lemma sin_lat n : -90 < n <= 90 -> -1 < sin (radians n) <= 1.
Proof.
  intros H. pose proof (radians_range n H) as Hr. pose proof PI_RGT_0. split; [|apply SIN_bound].
  assert (Hs : sin (- (PI / 2)) < sin (radians n)) by (apply sin_increasing_1; lra). rewrite sin_neg, sin_PI2 in Hs. lra.
Qed.
Lemma sin_lat_lt n m : -90 < n -> n < m -> m <= 90 -> sin (radians n) < sin (radians m).
Proof.
  intros H1 H2 H3. pose proof (radians_range n ltac:(lra)). pose proof (radians_range m ltac:(lra)). pose proof PI_RGT_0.
  apply sin_increasing_1; try lra. unfold radians. nra.
Qed.
Lemma tan_colat_sq n : -90 < n <= 90 -> (tan (colat n)) ^ 2 * (1 + sin (radians n)) = 1 - sin (radians n).
Proof.
  intros H. pose proof (sin_lat n H). unfold colat. rewrite <- (half_angle (radians n) (radians_range n H)).
  pose proof (sin2_cos2 (radians n)) as E. unfold Rsqr in E. set (S := sin (radians n)) in *. set (C := cos (radians n)) in *.
  replace ((C / (1 + S)) ^ 2 * (1 + S)) with (C * C / (1 + S)) by (field; lra).
  replace (C * C) with ((1 - S) * (1 + S)) by lra. field. lra.
Qed.

(** The factor by which the ellipsoid deviates. *)
Definition flat (n : R) : R := (1 - ecc * sin (radians n)) / (1 + ecc * sin (radians n)).
Lemma ecc_range : 0.08 < ecc < 0.09.
Proof. unfold ecc. lra. Qed.
Lemma flat_pos n : 0 < flat n.
Proof.
  unfold flat. pose proof ecc_range. pose proof (SIN_bound (radians n)). apply Rdiv_lt_0_compat; nra.
Qed.

Lemma ellipsoid_eq n : ellipsoid_radius n = 11862.667042661695 * (tan (colat n) / Rpower (flat n) (ecc / 2)).
Proof. unfold ellipsoid_radius, flat, colat, Rdiv. ring. Qed.

Lemma Rpower_pos a b : 0 < Rpower a b.
Proof. apply exp_pos. Qed.

Lemma sq_lt a b : 0 <= a -> 0 <= b -> a ^ 2 < b ^ 2 -> a < b.
Proof. intros Ha Hb H. nra. Qed.

(** tan / flat decreases: squared it is a quotient of monotone polynomials in
    the sine. *)
Lemma tan_flat_dec n m : -90 < n -> n < m -> m <= 90 -> tan (colat m) / flat m < tan (colat n) / flat n.
Proof.
  intros H1 H2 H3.
  pose proof (tan_colat_sq n ltac:(lra)) as En. pose proof (tan_colat_sq m ltac:(lra)) as Em.
  pose proof (sin_lat n ltac:(lra)) as Sn. pose proof (sin_lat m ltac:(lra)) as Sm. pose proof (sin_lat_lt n m H1 H2 H3) as Hs.
  pose proof (tan_colat_nonneg n ltac:(lra)) as Tn. pose proof (tan_colat_nonneg m ltac:(lra)) as Tm.
  pose proof (flat_pos n) as Fn. pose proof (flat_pos m) as Fm.
  apply sq_lt.
  - apply Rmult_le_pos; [assumption|left; now apply Rinv_0_lt_compat].
  - apply Rmult_le_pos; [assumption|left; now apply Rinv_0_lt_compat].
  - unfold flat in *. pose proof ecc_range as He. set (e := ecc) in *.
    set (s := sin (radians n)) in *. set (t := sin (radians m)) in *. set (a := tan (colat n)) in *. set (b := tan (colat m)) in *.
    assert (Pn : forall x, -1 < x <= 1 -> 0 < 1 - e * x /\ 0 < 1 + e * x) by (intros x Hx; split; nra).
    destruct (Pn s Sn) as [P1 P2]. destruct (Pn t Sm) as [P3 P4].
    replace ((b / ((1 - e * t) / (1 + e * t))) ^ 2) with (((1 - t) * (1 + e * t) ^ 2) / ((1 + t) * (1 - e * t) ^ 2)).
    2:{ rewrite <- Em. field. lra. }
    replace ((a / ((1 - e * s) / (1 + e * s))) ^ 2) with (((1 - s) * (1 + e * s) ^ 2) / ((1 + s) * (1 - e * s) ^ 2)).
    2:{ rewrite <- En. field. lra. }
    assert (N : (1 - t) * (1 + e * t) ^ 2 < (1 - s) * (1 + e * s) ^ 2).
    { assert (D : (1 - s) * (1 + e * s) ^ 2 - (1 - t) * (1 + e * t) ^ 2 = (t - s) * (1 - 2 * e + (2 * e - e * e) * (s + t) + e * e * (s * s + s * t + t * t))) by ring.
      assert (0 < 1 - 2 * e + (2 * e - e * e) * (s + t) + e * e * (s * s + s * t + t * t)).
      { assert (0 <= s * s + s * t + t * t) by nra. assert (0 <= e * e * (s * s + s * t + t * t)) by (apply Rmult_le_pos; nra).
        assert (- 2 < s + t) by lra. assert (0 < 2 * e - e * e) by nra. nra. }
      assert (0 < (t - s) * (1 - 2 * e + (2 * e - e * e) * (s + t) + e * e * (s * s + s * t + t * t))) by (apply Rmult_lt_0_compat; lra). lra. }
    assert (D : (1 + s) * (1 - e * s) ^ 2 < (1 + t) * (1 - e * t) ^ 2).
    { assert (D : (1 + t) * (1 - e * t) ^ 2 - (1 + s) * (1 - e * s) ^ 2 = (t - s) * (1 - 2 * e + (e * e - 2 * e) * (s + t) + e * e * (s * s + s * t + t * t))) by ring.
      assert (0 < 1 - 2 * e + (e * e - 2 * e) * (s + t) + e * e * (s * s + s * t + t * t)).
      { assert (0 <= s * s + s * t + t * t) by nra. assert (0 <= e * e * (s * s + s * t + t * t)) by (apply Rmult_le_pos; nra).
        assert (s + t < 2) by lra. assert (0 < 2 * e - e * e) by nra. nra. }
      assert (0 < (t - s) * (1 - 2 * e + (e * e - 2 * e) * (s + t) + e * e * (s * s + s * t + t * t))) by (apply Rmult_lt_0_compat; lra). lra. }
    assert (0 < (1 + s) * (1 - e * s) ^ 2) by (apply Rmult_lt_0_compat; [lra|apply pow_lt; lra]).
    assert (0 <= (1 - t) * (1 + e * t) ^ 2) by (apply Rmult_le_pos; [lra|apply pow_le; lra]).
    apply Rle_lt_trans with ((1 - t) * (1 + e * t) ^ 2 / ((1 + s) * (1 - e * s) ^ 2)).
    + apply Rmult_le_compat_l; [assumption|]. apply Rinv_le_contravar; lra.
    + apply Rmult_lt_compat_r; [now apply Rinv_0_lt_compat|assumption].
Qed.

Lemma Rpower_le_self r a : 1 <= r -> 0 <= a <= 1 -> Rpower r a <= r.
Proof. intros Hr Ha. rewrite <- (Rpower_1 r) at 2 by lra. apply Rle_Rpower; lra. Qed.

Lemma flat_dec n m : -90 < n -> n < m -> m <= 90 -> flat m < flat n.
Proof.
  intros H1 H2 H3. pose proof (sin_lat_lt n m H1 H2 H3). pose proof ecc_range.
  pose proof (SIN_bound (radians n)). pose proof (SIN_bound (radians m)). unfold flat.
  set (s := sin (radians n)) in *. set (t := sin (radians m)) in *. set (e := ecc) in *.
  apply Rmult_lt_reg_r with ((1 + e * t) * (1 + e * s)); [apply Rmult_lt_0_compat; nra|].
  replace ((1 - e * t) / (1 + e * t) * ((1 + e * t) * (1 + e * s))) with ((1 - e * t) * (1 + e * s)) by (field; nra).
  replace ((1 - e * s) / (1 + e * s) * ((1 + e * t) * (1 + e * s))) with ((1 - e * s) * (1 + e * t)) by (field; nra). nra.
Qed.

Lemma Rpower_quot a b c : 0 < a -> 0 < b -> Rpower a c = Rpower (a / b) c * Rpower b c.
Proof.
  intros Ha Hb. rewrite Rpower_mult_distr; [f_equal; field; lra|apply Rdiv_lt_0_compat; assumption|assumption].
Qed.

Lemma ellipsoid_dec n m : -90 < n -> n < m -> m <= 90 -> ellipsoid_radius m < ellipsoid_radius n.
Proof.
  intros H1 H2 H3. rewrite !ellipsoid_eq. apply Rmult_lt_compat_l; [lra|].
  pose proof (tan_flat_dec n m H1 H2 H3) as Ht. pose proof (flat_dec n m H1 H2 H3) as Hf.
  pose proof (flat_pos n) as Fn. pose proof (flat_pos m) as Fm. pose proof ecc_range.
  pose proof (tan_colat_nonneg m ltac:(lra)) as Tm.
  rewrite (Rpower_quot (flat n) (flat m)) by assumption.
  set (q := flat n / flat m) in *.
  assert (Hq : 1 <= q).
  { unfold q. apply Rmult_le_reg_r with (flat m); [assumption|]. replace (flat n / flat m * flat m) with (flat n) by (field; lra). lra. }
  pose proof (Rpower_le_self q (ecc / 2) Hq ltac:(lra)) as Hp.
  pose proof (Rpower_pos q (ecc / 2)) as Pq. pose proof (Rpower_pos (flat m) (ecc / 2)) as Pm.
  set (B := Rpower (flat m) (ecc / 2)) in *. set (Q := Rpower q (ecc / 2)) in *.
  assert (Hx : tan (colat m) * q < tan (colat n)).
  { unfold q. apply Rmult_lt_reg_r with (/ flat n); [now apply Rinv_0_lt_compat|].
    replace (tan (colat m) * (flat n / flat m) * / flat n) with (tan (colat m) / flat m) by (field; lra). exact Ht. }
  apply Rmult_lt_reg_r with (Q * B); [now apply Rmult_lt_0_compat|].
  replace (tan (colat m) / B * (Q * B)) with (tan (colat m) * Q) by (field; lra).
  replace (tan (colat n) / (Q * B) * (Q * B)) with (tan (colat n)) by (field; split; lra).
  nra.
Qed.

Lemma sphere_const : 0 < 6370.04 * (1 + sin (radians 60)).
Proof. pose proof (sin_lat 60 ltac:(lra)). nra. Qed.

Lemma pole_distance_dec format n m : -90 < n -> n < m -> m <= 90 -> pole_distance format m < pole_distance format n.
Proof.
  intros H1 H2 H3. unfold pole_distance. destruct (5 <=? format)%Z; [now apply ellipsoid_dec|].
  unfold sphere_radius. pose proof sphere_const. apply Rmult_lt_compat_l; [assumption|]. now apply tan_colat_dec.
Qed.
Lemma pole_distance_90 format : pole_distance format 90 = 0.
Proof.
  unfold pole_distance. destruct (5 <=? format)%Z; [rewrite ellipsoid_eq|unfold sphere_radius; fold (colat 90)]; rewrite tan_colat_90; unfold Rdiv; ring.
Qed.
Lemma pole_distance_pos format n : -90 < n < 90 -> 0 < pole_distance format n.
Proof. intros H. rewrite <- (pole_distance_90 format). apply pole_distance_dec; lra. Qed.

(** * C34: corners *)
Lemma sin_lower x : 0 <= x <= 1 -> x - x * x * x / 6 <= sin x.
Proof.
  intros Hx. pose proof PI2_3_2. destruct (sin_bound x 0) as [H1 _]; [lra|lra|].
  unfold sin_approx, sin_term in H1. simpl in H1. lra.
Qed.
Lemma cos_lower x : - (PI / 2) <= x <= PI / 2 -> 1 - x * x / 2 <= cos x.
Proof.
  intros Hx. destruct (cos_bound x 0) as [H1 _]; [lra|lra|]. unfold cos_approx, cos_term in H1. simpl in H1. lra.
Qed.

Lemma tan_diff a b : cos a <> 0 -> cos b <> 0 -> tan a - tan b = sin (a - b) / (cos a * cos b).
Proof. intros Ha Hb. rewrite sin_minus. unfold tan. field. auto. Qed.

(** Growth of the tangent between two latitudes at least d degrees apart. *)
Lemma tan_growth n m : 43 <= n -> 7.5 < m - n -> m <= 57 -> 0.98 * (radians (m - n) / 2) <= tan (colat n) - tan (colat m).
Proof.
  intros H1 H2 H3. pose proof (colat_range n ltac:(lra)) as Cn. pose proof (colat_range m ltac:(lra)) as Cm.
  pose proof PI_RGT_0. pose proof PI_4. pose proof PI2_3_2.
  assert (Xn : 0 < cos (colat n)) by (apply cos_gt_0; lra). assert (Xm : 0 < cos (colat m)) by (apply cos_gt_0; lra).
  rewrite tan_diff by lra. replace (colat n - colat m) with (radians (m - n) / 2) by (unfold colat, radians; field).
  set (d := radians (m - n) / 2). assert (Hd : 0 <= d <= 0.16).
  { unfold d, radians. split; nra. }
  assert (Hs : 0 <= d - d * d * d / 6) by nra.
  pose proof (sin_lower d ltac:(lra)) as Hl.
  pose proof (COS_bound (colat n)) as Bn. pose proof (COS_bound (colat m)) as Bm.
  assert (Hc : cos (colat n) * cos (colat m) <= 1) by nra.
  assert (Hi : 1 <= / (cos (colat n) * cos (colat m))).
  { rewrite <- Rinv_1. apply Rinv_le_contravar; [nra|assumption]. }
  apply Rle_trans with (sin d); [|unfold Rdiv; nra].
  apply Rle_trans with (d - d * d * d / 6); [|assumption].
  assert (d * d <= 0.0256) by nra. assert (d * d * d <= 0.0256 * d) by nra. lra.
Qed.

Lemma tan_colat_le_1 n : 0 <= n <= 90 -> tan (colat n) <= 1.
Proof.
  intros H. pose proof (colat_range 0 ltac:(lra)) as H0. pose proof PI_RGT_0.
  assert (E : tan (colat 0) = 1) by (replace (colat 0) with (PI / 4) by (unfold colat, radians; field); apply tan_PI4).
  destruct (Req_dec n 0) as [->|Hn]; [lra|]. rewrite <- E. left. apply tan_colat_dec; lra.
Qed.

Lemma lon_cos e : 14 < e < 18.3 -> 0.98 <= cos (radians (e - 10)).
Proof.
  intros H. pose proof PI_RGT_0. pose proof PI_4. pose proof PI2_3_2. unfold radians.
  set (x := (e - 10) * (PI / 180)). assert (0 <= x <= 0.185) by (unfold x; nra).
  pose proof (cos_lower x ltac:(lra)). nra.
Qed.

Lemma flat_power n : 0 <= n <= 90 -> 0.99 <= Rpower (flat n) (ecc / 2) <= 1.
Proof.
  intros H. pose proof ecc_range. pose proof (flat_pos n) as Fp.
  assert (Hs : 0 <= sin (radians n) <= 1).
  { split; [|apply SIN_bound]. apply sin_ge_0; unfold radians; pose proof PI_RGT_0; nra. }
  assert (Fl : flat n <= 1).
  { unfold flat. apply Rmult_le_reg_r with (1 + ecc * sin (radians n)); [nra|]. unfold Rdiv. rewrite Rmult_assoc, Rinv_l by nra. nra. }
  assert (Fi : / flat n <= 1.2).
  { unfold flat. replace (/ ((1 - ecc * sin (radians n)) / (1 + ecc * sin (radians n)))) with ((1 + ecc * sin (radians n)) / (1 - ecc * sin (radians n))) by (field; nra).
    apply Rmult_le_reg_r with (1 - ecc * sin (radians n)); [nra|]. unfold Rdiv. rewrite Rmult_assoc, Rinv_l by nra. nra. }
  assert (Hl : - 0.2 <= ln (flat n)).
  { rewrite <- (Rinv_inv (flat n)), ln_Rinv by (apply Rinv_0_lt_compat; assumption).
    assert (ln (/ flat n) <= / flat n - 1).
    { pose proof (exp_ineq1_le (ln (/ flat n))) as Hx. rewrite exp_ln in Hx by (apply Rinv_0_lt_compat; assumption). lra. }
    lra. }
  split.
  - unfold Rpower. eapply Rle_trans; [|apply exp_ineq1_le]. nra.
  - rewrite <- (Rpower_O (flat n) Fp). 
    replace (Rpower (flat n) 0) with 1 by (symmetry; apply Rpower_O; assumption).
    apply Rle_trans with (Rpower 1 (ecc / 2)); [apply Rle_Rpower_l; lra|]. unfold Rpower. rewrite ln_1, Rmult_0_r, exp_0. lra.
Qed.

Lemma corner_signs format size nw se : documented_corners size (5 <=? format)%Z nw se ->
  fst (plane format (fst nw) (snd nw)) < fst (plane format (fst se) (snd se)) /\
  snd (plane format (fst nw) (snd nw)) < snd (plane format (fst se) (snd se)).
Proof.
  intros H. destruct (corner_range _ _ _ _ H) as (R1 & R2 & R3 & R3' & R4 & R5).
  destruct nw as [n l], se as [m r]. cbn [fst snd] in *. unfold plane. cbn [fst snd]. pose proof PI_RGT_0 as Hpi.
  pose proof (pole_distance_pos format n ltac:(lra)) as Pn. pose proof (pole_distance_pos format m ltac:(lra)) as Pm. split.
  - assert (sin (radians (l - 10)) < 0) by (apply sin_lt_0_var; unfold radians; nra).
    assert (0 < sin (radians (r - 10))) by (apply sin_gt_0; unfold radians; nra). nra.
  - pose proof (lon_cos r ltac:(lra)) as Cr. pose proof (COS_bound (radians (l - 10))) as [_ Cl].
    pose proof (COS_bound (radians (r - 10))) as [_ Cr1].
    pose proof (tan_growth m n ltac:(lra) ltac:(lra) ltac:(lra)) as G.
    pose proof (tan_colat_le_1 n ltac:(lra)) as T1. pose proof (tan_colat_pos n ltac:(lra)) as T0.
    pose proof (tan_colat_le_1 m ltac:(lra)) as U1.
    pose proof PI2_3_2 as P3. unfold radians in G.
    set (b := cos (radians (l - 10))) in *. set (a := cos (radians (r - 10))) in *. clearbody a b.
    assert (Hb : pole_distance format n * b <= pole_distance format n) by nra.
    eapply Rle_lt_trans; [exact Hb|]. clear Hb Cl Pn Pm. unfold pole_distance in *. destruct (5 <=? format)%Z.
    + rewrite !ellipsoid_eq. pose proof (flat_power n ltac:(lra)) as Bn. pose proof (flat_power m ltac:(lra)) as Bm.
      set (B := Rpower (flat n) (ecc / 2)) in *. set (D := Rpower (flat m) (ecc / 2)) in *.
      rewrite Rmult_assoc. apply Rmult_lt_compat_l; [lra|]. specialize (R3' eq_refl).
      assert (Q : 0.08 <= tan (colat m) - tan (colat n)) by nra. set (t := tan (colat n)) in *. set (u := tan (colat m)) in *. clearbody B D t u.
      apply Rle_lt_trans with (t / 0.99).
      { unfold Rdiv. apply Rmult_le_compat_l; [lra|]. apply Rinv_le_contravar; lra. }
      apply Rlt_le_trans with (u * a).
      { apply Rlt_le_trans with (u * 0.98); [lra|]. apply Rmult_le_compat_l; lra. }
      apply Rmult_le_compat_r; [lra|]. rewrite <- (Rmult_1_r u) at 1. apply Rmult_le_compat_l; [lra|]. rewrite <- Rinv_1. apply Rinv_le_contravar; lra.
    + unfold sphere_radius. pose proof sphere_const as Hk. fold (colat n) (colat m). set (k := 6370.04 * (1 + sin (radians 60))) in *. 
      rewrite Rmult_assoc. apply Rmult_lt_compat_l; [assumption|].
      assert (Q : 0.06 <= tan (colat m) - tan (colat n)) by nra. set (t := tan (colat n)) in *. set (u := tan (colat m)) in *. nra.
Qed.

(** The north-west corner of the grid is projected to (0, 0), the south-east
    corner to (Dx, Dy); the resolution is positive. *)
Theorem C34_corners c size nw se : on_grid c size nw se ->
  project arithR c (fst nw) (snd nw) = (0, 0) /\
  project arithR c (fst se) (snd se) = (IZR (c_dx c), IZR (c_dy c)) /\
  0 < c_rx c /\ 0 < c_ry c.
Proof.
  intros H. pose proof H as (_ & Hr & Hd). destruct (on_grid_affine c size nw se H) as (_ & Ex & Ey & Hp).
  destruct (corner_signs _ _ _ _ Hd) as [Sx Sy]. destruct (corner_range _ _ _ _ Hd) as (R1 & R2 & R3 & _).
  destruct (resampled_pos _ _ _ _ _ _ Hd Hr) as [Px Py]. apply IZR_lt in Px, Py.
  set (N := plane (c_format c) (fst nw) (snd nw)) in *. set (S := plane (c_format c) (fst se) (snd se)) in *.
  assert (Rx : 0 < c_rx c) by (rewrite Ex; apply Rdiv_lt_0_compat; lra).
  assert (Ry : 0 < c_ry c) by (rewrite Ey; apply Rdiv_lt_0_compat; lra).
  rewrite !Hp by lra. fold N S. split; [|split; [|split; assumption]].
  - rewrite !Rminus_eq_0. unfold Rdiv. rewrite !Rmult_0_l. reflexivity.
  - rewrite Ex, Ey. f_equal; field; split; lra.
Qed.

(** Project is the polar stereographic projection, in pixels from the
    north-west corner. *)
Theorem C34_stereographic c size nw se north east : on_grid c size nw se -> -90 < north <= 90 ->
  fst (project arithR c north east) * c_rx c =
    fst (plane (c_format c) north east) - fst (plane (c_format c) (fst nw) (snd nw)) /\
  snd (project arithR c north east) * c_ry c =
    snd (plane (c_format c) north east) - snd (plane (c_format c) (fst nw) (snd nw)).
Proof.
  intros H Hn. destruct (on_grid_affine c size nw se H) as (_ & _ & _ & Hp). destruct (C34_corners c size nw se H) as (_ & _ & Rx & Ry).
  rewrite Hp by assumption. cbn [fst snd]. split; field; lra.
Qed.

(** * C35, C36: order and injectivity *)
Lemma project_x c size nw se n e : on_grid c size nw se -> -90 < n <= 90 ->
  fst (project arithR c n e) = (pole_distance (c_format c) n * sin (radians (e - 10)) - fst (plane (c_format c) (fst nw) (snd nw))) / c_rx c /\
  snd (project arithR c n e) = (pole_distance (c_format c) n * cos (radians (e - 10)) - snd (plane (c_format c) (fst nw) (snd nw))) / c_ry c.
Proof.
  intros H Hn. destruct (on_grid_affine c size nw se H) as (_ & _ & _ & Hp). rewrite Hp by assumption. split; reflexivity.
Qed.

Lemma east_order c size nw se n e1 e2 : on_grid c size nw se -> -90 < n < 90 -> -80 <= e1 -> e1 < e2 -> e2 <= 100 ->
  fst (project arithR c n e1) < fst (project arithR c n e2).
Proof.
  intros H Hn H1 H2 H3. destruct (C34_corners c size nw se H) as (_ & _ & Rx & _).
  destruct (project_x c size nw se n e1 H ltac:(lra)) as [-> _]. destruct (project_x c size nw se n e2 H ltac:(lra)) as [-> _].
  apply Rmult_lt_compat_r; [now apply Rinv_0_lt_compat|]. apply Rplus_lt_compat_r.
  apply Rmult_lt_compat_l; [now apply pole_distance_pos|]. pose proof PI_RGT_0.
  apply sin_increasing_1; unfold radians; nra.
Qed.

Lemma south_order c size nw se n1 n2 e : on_grid c size nw se -> -80 < e < 100 -> -90 < n1 -> n1 < n2 -> n2 <= 90 ->
  snd (project arithR c n2 e) < snd (project arithR c n1 e).
Proof.
  intros H He H1 H2 H3. destruct (C34_corners c size nw se H) as (_ & _ & _ & Ry).
  destruct (project_x c size nw se n1 e H ltac:(lra)) as [_ ->]. destruct (project_x c size nw se n2 e H ltac:(lra)) as [_ ->].
  apply Rmult_lt_compat_r; [now apply Rinv_0_lt_compat|]. apply Rplus_lt_compat_r.
  pose proof PI_RGT_0. apply Rmult_lt_compat_r; [apply cos_gt_0; unfold radians; nra|]. now apply pole_distance_dec.
Qed.

Lemma polar rho theta : 0 < rho -> - PI < theta < PI ->
  sqrt (rho * sin theta * (rho * sin theta) + rho * cos theta * (rho * cos theta)) = rho /\
  2 * atan (rho * sin theta / (rho + rho * cos theta)) = theta.
Proof.
  intros Hr Ht. split.
  - replace (rho * sin theta * (rho * sin theta) + rho * cos theta * (rho * cos theta)) with (rho * rho).
    + apply sqrt_square. lra.
    + pose proof (sin2_cos2 theta) as E. unfold Rsqr in E. replace (rho * rho) with (rho * rho * (sin theta * sin theta + cos theta * cos theta)) by (rewrite E; ring). ring.
  - set (h := theta / 2). replace theta with (2 * h) by (unfold h; field). 
    assert (Hh : - (PI / 2) < h < PI / 2) by (unfold h; lra).
    assert (Hc : 0 < cos h) by (apply cos_gt_0; lra).
    rewrite sin_2a, cos_2a_cos.
    replace (rho * (2 * sin h * cos h) / (rho + rho * (2 * cos h * cos h - 1))) with (tan h).
    + rewrite atan_tan by assumption. reflexivity.
    + replace (rho + rho * (2 * cos h * cos h - 1)) with (2 * rho * cos h * cos h) by ring. unfold tan. field. split; lra.
Qed.

Lemma lon_range e : -170 < e < 190 -> - PI < radians (e - 10) < PI.
Proof. intros He. unfold radians. pose proof PI_RGT_0. nra. Qed.

Lemma unplane c size nw se n e : on_grid c size nw se -> -90 < n < 90 -> -170 < e < 190 ->
  let X := fst (plane (c_format c) (fst nw) (snd nw)) + fst (project arithR c n e) * c_rx c in
  let Y := snd (plane (c_format c) (fst nw) (snd nw)) + snd (project arithR c n e) * c_ry c in
  sqrt (X * X + Y * Y) = pole_distance (c_format c) n /\
  2 * atan (X / (pole_distance (c_format c) n + Y)) = radians (e - 10).
Proof.
  intros H Hn He. cbv zeta. destruct (C34_stereographic c size nw se n e H ltac:(lra)) as [-> ->].
  rewrite !Rplus_minus. unfold plane. cbn [fst snd].
  apply polar; [now apply pole_distance_pos|now apply lon_range].
Qed.

Lemma injective c size nw se n e n' e' : on_grid c size nw se ->
  -90 < n < 90 -> -170 < e < 190 -> -90 < n' < 90 -> -170 < e' < 190 ->
  project arithR c n e = project arithR c n' e' -> n = n' /\ e = e'.
Proof.
  intros H Hn He Hn' He' E.
  destruct (unplane c size nw se n e H Hn He) as [A1 A2]. destruct (unplane c size nw se n' e' H Hn' He') as [B1 B2].
  rewrite E in A1, A2. rewrite A1 in B1. rewrite <- B1, A2 in B2.
  split.
  - destruct (Rtotal_order n n') as [Hlt|[Heq|Hlt]]; [|assumption|]; exfalso.
    + pose proof (pole_distance_dec (c_format c) n n'). lra.
    + pose proof (pole_distance_dec (c_format c) n' n). lra.
  - unfold radians in B2. pose proof PI_RGT_0. nra.
Qed.

(** Spherical earth (format versions below 5). *)
Theorem C35_east c size nw se n e1 e2 : on_grid c size nw se -> (c_format c < 5)%Z ->
  -90 < n < 90 -> -80 <= e1 -> e1 < e2 -> e2 <= 100 -> fst (project arithR c n e1) < fst (project arithR c n e2).
Proof. intros H _. now apply (east_order c size nw se). Qed.
Theorem C35_south c size nw se n1 n2 e : on_grid c size nw se -> (c_format c < 5)%Z ->
  -80 < e < 100 -> -90 < n1 -> n1 < n2 -> n2 <= 90 -> snd (project arithR c n2 e) < snd (project arithR c n1 e).
Proof. intros H _. now apply (south_order c size nw se). Qed.
Theorem C35_injective c size nw se n e n' e' : on_grid c size nw se -> (c_format c < 5)%Z ->
  -90 < n < 90 -> -170 < e < 190 -> -90 < n' < 90 -> -170 < e' < 190 ->
  project arithR c n e = project arithR c n' e' -> n = n' /\ e = e'.
Proof. intros H _. now apply (injective c size nw se). Qed.
(** The explicit inverse. *)
Theorem C35_inverse c size nw se n e : on_grid c size nw se -> (c_format c < 5)%Z -> -90 < n < 90 -> -170 < e < 190 ->
  sphere_unproject nw (c_rx c) (c_ry c) (fst (project arithR c n e)) (snd (project arithR c n e)) = (n, e).
Proof.
  intros H Hf Hn He. destruct (unplane c size nw se n e H Hn He) as [A1 A2].
  unfold sphere_unproject. 
  assert (F : (5 <=? c_format c)%Z = false) by lia.
  assert (P : forall a b, plane (c_format c) a b = plane 0 a b) by (intros a b; unfold plane, pole_distance; rewrite F; reflexivity).
  rewrite P in A1, A2. rewrite A1, A2. unfold pole_distance. rewrite F. unfold sphere_radius. pose proof sphere_const as Hk.
  set (k := 6370.04 * (1 + sin (radians 60))) in *.
  replace (k * tan (PI / 4 - radians n / 2) / k) with (tan (colat n)) by (unfold colat; field; lra).
  pose proof (colat_range n ltac:(lra)) as Hc. pose proof PI_RGT_0. rewrite atan_tan by lra.
  f_equal; unfold colat, radians; field; lra.
Qed.

(** Ellipsoid (format version 5 and above). *)
Theorem C36_east c size nw se n e1 e2 : on_grid c size nw se -> (5 <= c_format c)%Z ->
  -90 < n < 90 -> -80 <= e1 -> e1 < e2 -> e2 <= 100 -> fst (project arithR c n e1) < fst (project arithR c n e2).
Proof. intros H _. now apply (east_order c size nw se). Qed.
Theorem C36_south c size nw se n1 n2 e : on_grid c size nw se -> (5 <= c_format c)%Z ->
  -80 < e < 100 -> -90 < n1 -> n1 < n2 -> n2 <= 90 -> snd (project arithR c n2 e) < snd (project arithR c n1 e).
Proof. intros H _. now apply (south_order c size nw se). Qed.
Theorem C36_injective c size nw se n e n' e' : on_grid c size nw se -> (5 <= c_format c)%Z ->
  -90 < n < 90 -> -170 < e < 190 -> -90 < n' < 90 -> -170 < e' < 190 ->
  project arithR c n e = project arithR c n' e' -> n = n' /\ e = e'.
Proof. intros H _. now apply (injective c size nw se). Qed.

(** * C37: two resolutions of the same grid *)
Theorem C37_resolution c d size nw se north east : on_grid c size nw se -> on_grid d size nw se ->
  (5 <=? c_format c)%Z = (5 <=? c_format d)%Z -> -90 < north <= 90 ->
  let (xc, yc) := project arithR c north east in
  let (xd, yd) := project arithR d north east in
  xc * c_rx c = xd * c_rx d /\ yc * c_ry c = yd * c_ry d /\
  xc * IZR (c_dx d) = xd * IZR (c_dx c) /\ yc * IZR (c_dy d) = yd * IZR (c_dy c).
Proof.
  intros Hc Hd Hf Hn.
  assert (P : forall a b, plane (c_format c) a b = plane (c_format d) a b) by (intros a b; unfold plane, pole_distance; rewrite Hf; reflexivity).
  destruct (C34_stereographic c size nw se north east Hc Hn) as [C1 C2].
  destruct (C34_stereographic d size nw se north east Hd Hn) as [D1 D2].
  destruct (on_grid_affine c size nw se Hc) as (_ & Ec & Ec' & _). destruct (on_grid_affine d size nw se Hd) as (_ & Ed & Ed' & _).
  destruct (C34_corners c size nw se Hc) as (_ & _ & Rc & Rc'). destruct (C34_corners d size nw se Hd) as (_ & _ & Rd & Rd').
  pose proof Hc as (_ & Sc & Kc). pose proof Hd as (_ & Sd & Kd).
  destruct (resampled_pos _ _ _ _ _ _ Kc Sc) as [Px Py]. destruct (resampled_pos _ _ _ _ _ _ Kd Sd) as [Qx Qy]. apply IZR_lt in Px, Py, Qx, Qy.
  rewrite !P in C1, C2, Ec, Ec'. destruct (project arithR c north east) as [xc yc], (project arithR d north east) as [xd yd]. cbn [fst snd] in *.
  set (ex := fst (plane (c_format d) (fst se) (snd se)) - fst (plane (c_format d) (fst nw) (snd nw))) in *.
  set (ey := snd (plane (c_format d) (fst se) (snd se)) - snd (plane (c_format d) (fst nw) (snd nw))) in *.
  rewrite <- D1 in C1. rewrite <- D2 in C2. split; [assumption|]. split; [assumption|].
  assert (Hx : ex = c_rx c * IZR (c_dx c) /\ ex = c_rx d * IZR (c_dx d)) by (rewrite Ec, Ed; split; field; lra).
  assert (Hy : ey = c_ry c * IZR (c_dy c) /\ ey = c_ry d * IZR (c_dy d)) by (rewrite Ec', Ed'; split; field; lra).
  clear Ec Ed Ec' Ed'. destruct Hx as [X1 X2], Hy as [Y1 Y2]. split.
  - apply Rmult_eq_reg_l with (c_rx c * c_rx d); [|nra].
    replace (c_rx c * c_rx d * (xc * IZR (c_dx d))) with (xc * c_rx c * (c_rx d * IZR (c_dx d))) by ring.
    replace (c_rx c * c_rx d * (xd * IZR (c_dx c))) with (xd * c_rx d * (c_rx c * IZR (c_dx c))) by ring. rewrite <- X1, <- X2, C1. reflexivity.
  - apply Rmult_eq_reg_l with (c_ry c * c_ry d); [|nra].
    replace (c_ry c * c_ry d * (yc * IZR (c_dy d))) with (yc * c_ry c * (c_ry d * IZR (c_dy d))) by ring.
    replace (c_ry c * c_ry d * (yd * IZR (c_dy c))) with (yd * c_ry d * (c_ry c * IZR (c_dy c))) by ring. rewrite <- Y1, <- Y2, C2. reflexivity.
Qed.

(** Concrete composites on a grid: every dummy of a documented size. *)
Lemma dummy_fields A product format dx dy :
  c_format (new_dummy A product format dx dy) = format /\ c_dx (new_dummy A product format dx dy) = dx /\ c_dy (new_dummy A product format dx dy) = dy.
Proof.
  unfold new_dummy.
  pose proof (calibrate_frame A (set_dy (set_dx (set_format (set_product (zero_composite (n_zero A)) product) format) dx) dy)) as F.
  unfold data_frame in F. destruct F as (_ & _ & _ & _ & _ & _ & _ & _ & _ & _ & F1 & F2 & _ & F3 & _). rewrite F1, F2, F3. auto.
Qed.

Lemma dummy_on_grid product format dx dy size nw se : in_int dx = true -> in_int dy = true ->
  resampled dx dy (fst size) (snd size) -> documented_corners size (5 <=? format)%Z nw se ->
  on_grid (new_dummy arithR product format dx dy) size nw se.
Proof.
  intros Hx Hy Hr Hd. unfold on_grid. destruct (dummy_fields arithR product format dx dy) as (-> & -> & ->).
  split; [right; exists product, format, dx, dy; auto|]. auto.
Qed.

Example C34_case_sphere : on_grid (new_dummy arithR [] 3 900 900) (900, 900)%Z (54.5877, 2.0715) (47.0705, 14.6209).
Proof. apply dummy_on_grid; [reflexivity|reflexivity| |constructor]. exists 0%Z, 0%Z. cbn [fst snd]. lia. Qed.
Example C34_case_ellipsoid : on_grid (new_dummy arithR [] 5 2200 2400) (1100, 1200)%Z (55.86208711, 1.463301510) (45.68460578, 16.58086935).
Proof. apply dummy_on_grid; [reflexivity|reflexivity| |constructor]. exists 0%Z, 1%Z. cbn [fst snd]. lia. Qed.
