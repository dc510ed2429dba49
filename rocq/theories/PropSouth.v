(** C55, southern hemisphere: far from every grid. *)
From Coq Require Import Reals Lra Lia Psatz.
From Flocq Require Import Core Relative BinarySingleNaN.
From Verif Require Import GoBase GoFloat Catalog Composite Header Data Projection Radolan Vis SpecReal SpecProj ExactReal SpecAccuracy SpecRain SpecSouth BaseFacts
  CompositeFacts Spec ApiFacts FloatFacts PropFloat PropGrid PropReal PropProjFloat VisFacts AccFacts PropAccuracy PropLookup GridNumbers.
Local Open Scope R_scope.

(** * Real numbers *)
Lemma half_degree : 0.00872 <= sin (radians 0.5).
Proof.
  pose proof pi_upper. assert (L : 0.008726 <= radians 0.5 <= 1) by (unfold radians; lra).
  pose proof (sin_lower 0.008726 ltac:(lra)). assert (sin 0.008726 <= sin (radians 0.5)) by (apply sin_incr_1; lra). lra.
Qed.
Lemma south_sin n : -89 <= n <= 0 -> 0.000152 <= 1 + sin (n * (PI / 180)) <= 1.
Proof.
  intros Hn. pose proof pi_upper as Hpi. set (x := (n + 90) * (PI / 180) / 2).
  assert (E : 1 + sin (n * (PI / 180)) = 2 * (sin x * sin x)).
  { assert (C : cos (2 * x) = 1 - 2 * sin x * sin x) by apply cos_2a_sin.
    replace (2 * x) with (n * (PI / 180) + PI / 2) in C by (unfold x; field). rewrite cos_plus, cos_PI2, sin_PI2 in C. lra. }
  split.
  - rewrite E. pose proof half_degree as H. assert (S : sin (radians 0.5) <= sin x).
    { unfold x, radians. apply sin_incr_1; nra. }
    nra.
  - assert (sin (n * (PI / 180)) <= 0); [|lra]. rewrite <- sin_0. apply sin_incr_1; nra.
Qed.
(** cos / (1 + sin) lies between 1 and 115. *)
Lemma south_ratio n : -89 <= n <= 0 -> 1 <= cos (n * (PI / 180)) / (1 + sin (n * (PI / 180))) <= 115.
Proof.
  intros Hn. pose proof pi_upper as Hpi. pose proof (south_sin n Hn) as Hs. set (p := n * (PI / 180)) in *.
  assert (C0 : 0 <= cos p) by (apply cos_ge_0; unfold p; nra).
  pose proof (sin2_cos2 p) as T. unfold Rsqr in T. set (s := sin p) in *. set (c := cos p) in *.
  split.
  - apply Rmult_le_reg_r with (1 + s); [lra|]. unfold Rdiv. rewrite Rmult_assoc, Rinv_l by lra. nra.
  - apply Rmult_le_reg_r with (1 + s); [lra|]. unfold Rdiv. rewrite Rmult_assoc, Rinv_l by lra. 
    assert (c * c <= 13225 * (1 + s) * (1 + s)); [|nra]. replace (c * c) with ((1 - s) * (1 + s)) by lra.
    apply Rmult_le_compat_r; [lra|]. nra.
Qed.
Lemma tan_south n : -89 <= n <= 0 -> 1 <= tan (PI / 4 - radians n / 2) <= 115.
Proof.
  intros Hn. pose proof (south_ratio n Hn) as H. unfold radians. 
  pose proof (half_angle (radians n) (radians_range n ltac:(lra))) as E. unfold radians in E. rewrite <- E. exact H.
Qed.

(** The power of the ellipsoid. *)
Lemma south_flat n : -90 <= n <= 0 -> 1 <= flat n <= 1.2.
Proof.
  intros Hn. pose proof ecc_range. pose proof pi_upper.
  assert (Hs : -1 <= sin (radians n) <= 0).
  { split; [apply SIN_bound|]. unfold radians. rewrite <- sin_0. apply sin_incr_1; nra. }
  unfold flat. assert (P : -0.09 <= ecc * sin (radians n) <= 0) by nra. split.
  - apply Rmult_le_reg_r with (1 + ecc * sin (radians n)); [lra|]. unfold Rdiv. rewrite Rmult_assoc, Rinv_l by lra. lra.
  - apply Rmult_le_reg_r with (1 + ecc * sin (radians n)); [lra|]. unfold Rdiv. rewrite Rmult_assoc, Rinv_l by lra. lra.
Qed.
Lemma south_power a b : 1 <= a <= 1.2 -> 0 <= b <= 0.05 -> 1 <= Rpower a b <= 1.0102.
Proof.
  intros Ha Hb. unfold Rpower. pose proof (ln_le a ltac:(lra)). pose proof (ln_ge a ltac:(lra)).
  assert (/ a <= 1) by (rewrite <- Rinv_1; apply Rinv_le_contravar; lra).
  assert (L : 0 <= b * ln a <= 0.01) by nra. set (t := b * ln a) in *. split.
  - pose proof (exp_ineq1_le t). lra.
  - pose proof (exp_ineq1_le (- t)) as E. rewrite exp_Ropp in E. pose proof (exp_pos t) as P.
    apply Rmult_le_reg_r with (/ exp t); [now apply Rinv_0_lt_compat|]. rewrite Rinv_r by lra. nra.
Qed.
Lemma pow_lip_south a b v w d h : 1 <= a <= 1.2 -> 0 <= b <= 0.1 -> Rabs (v - a) <= d -> Rabs (w - b) <= h -> d <= 0.0001 -> h <= 0.0001 ->
  Rabs (Rpower v w - Rpower a b) <= 0.4 * h + 0.2 * d.
Proof.
  intros Ha Hb Hv Hw Hd Hh. pose proof (Rabs_le_inv _ _ Hv) as Iv. pose proof (Rabs_le_inv _ _ Hw) as Iw.
  pose proof (Rabs_pos (v - a)) as Pv. pose proof (Rabs_pos (w - b)) as Pw.
  assert (L1 : -0.001 <= ln v <= 0.21).
  { pose proof (ln_le v ltac:(lra)). pose proof (ln_ge v ltac:(lra)). 
    assert (/ v <= / 0.9999) by (apply Rinv_le_contravar; lra). lra. }
  assert (L2 : 0 <= ln a <= 0.2).
  { pose proof (ln_le a ltac:(lra)). pose proof (ln_ge a ltac:(lra)). 
    assert (/ a <= / 1) by (apply Rinv_le_contravar; lra). lra. }
  pose proof (ln_lip 0.99 a v ltac:(lra) ltac:(lra) ltac:(lra)) as Hl.
  assert (EK : forall p, p <= 0.1 -> exp p <= 1.2).
  { intros p Hp. pose proof (exp_ineq1_le (- p)) as E. rewrite exp_Ropp in E. pose proof (exp_pos p) as P.
    apply Rmult_le_reg_r with (/ exp p); [now apply Rinv_0_lt_compat|]. rewrite Rinv_r by lra. nra. }
  unfold Rpower. eapply Rle_trans; [apply (exp_lip 1.2); apply EK; nra|].
  assert (Rabs (w * ln v - b * ln a) <= 0.26 * h + 0.1 * (d / 0.99)).
  { replace (w * ln v - b * ln a) with ((w - b) * ln v + b * (ln v - ln a)) by ring.
    eapply Rle_trans; [apply Rabs_triang|]. rewrite !Rabs_mult, (Rabs_pos_eq b) by lra. apply Rplus_le_compat.
    - rewrite (Rmult_comm 0.26). apply Rmult_le_compat; [assumption|apply Rabs_pos|assumption|]. apply Rabs_le. lra.
    - apply Rmult_le_compat; [lra|apply Rabs_pos|lra|]. eapply Rle_trans; [exact Hl|]. unfold Rdiv. apply Rmult_le_compat_r; lra. }
  lra.
Qed.

(** Every point of the southern hemisphere is at least 11700 km from the pole on the map. *)
Lemma south_distance format n : -89 <= n <= 0 -> 11700 <= pole_distance format n.
Proof.
  intros Hn. pose proof (tan_south n Hn) as T. unfold pole_distance. destruct (5 <=? format)%Z.
  - rewrite ellipsoid_eq. unfold colat. pose proof (south_flat n ltac:(lra)) as F. pose proof ecc_range.
    pose proof (south_power (flat n) (ecc / 2) F ltac:(lra)) as P. set (t := tan _) in *. set (w := Rpower _ _) in *.
    assert (0.989 <= t / w); [|lra]. apply Rmult_le_reg_r with w; [lra|]. unfold Rdiv. rewrite Rmult_assoc, Rinv_l by lra. lra.
  - unfold sphere_radius. pose proof sphere_const_lower. nra.
Qed.

(** The place of the corners. *)
Lemma corner_place format size nw se : documented_corners size (5 <=? format)%Z nw se ->
  let N := plane format (fst nw) (snd nw) in let S := plane format (fst se) (snd se) in
  -1000 <= fst N <= 1000 /\ 0 <= snd N <= 5500 /\ 400 <= fst S - fst N <= 1600 /\ 400 <= snd S - snd N <= 1600.
Proof.
  intros H. remember (5 <=? format)%Z as w eqn:Ew. symmetry in Ew.
  assert (E : forall n e, plane format n e = plane (if w then 5 else 0) n e).
  { intros n e. unfold plane, pole_distance. rewrite Ew. now destruct w. }
  cbv zeta. rewrite !E. clear E Ew. destruct H; cbn [fst snd]; cbv iota.
  - destruct national_nw, national_se. lra.
  - destruct picture_nw, picture_se. lra.
  - destruct extended_nw, extended_se. lra.
  - destruct de1200_nw, de1200_se. lra.
  - destruct wgs84_nw, wgs84_se. lra.
  - destruct european_nw, european_se. lra.
Qed.

(** Therefore it is far off one axis of every grid. *)
Lemma far_fraction N S P : 400 <= S - N <= 1600 -> 1900 <= Rabs (P - N) -> 1.1 <= Rabs ((P - N) / (S - N)).
Proof.
  intros H HP. unfold Rdiv. rewrite Rabs_mult, (Rabs_pos_eq (/ (S - N))) by (left; apply Rinv_0_lt_compat; lra).
  apply Rmult_le_reg_r with (S - N); [lra|]. rewrite Rmult_assoc, Rinv_l by lra. lra.
Qed.
Lemma south_far format size nw se n e : documented_corners size (5 <=? format)%Z nw se -> -89 <= n <= 0 ->
  let q := exact_fraction format nw se n e in 1.1 <= Rabs (fst q) \/ 1.1 <= Rabs (snd q).
Proof.
  intros Hd Hn. pose proof (corner_place _ _ _ _ Hd) as H. cbv zeta in H. unfold exact_fraction. cbv zeta. cbn [fst snd].
  set (N := plane format (fst nw) (snd nw)) in *. set (S := plane format (fst se) (snd se)) in *. clearbody N S.
  destruct H as (H1 & H2 & H3 & H4). pose proof (south_distance format n Hn) as D. unfold plane. cbn [fst snd].
  set (d := pole_distance format n) in *. clearbody d. pose proof (sin2_cos2 (radians (e - 10))) as T. unfold Rsqr in T.
  set (s := sin (radians (e - 10))) in *. set (c := cos (radians (e - 10))) in *. clearbody s c.
  assert (L : 0.7 <= Rabs s \/ 0.7 <= Rabs c).
  { destruct (Rle_or_lt 0.7 (Rabs s)) as [|Hs]; [now left|right]. destruct (Rle_or_lt 0.7 (Rabs c)) as [|Hc]; [assumption|exfalso].
    apply Rabs_def2 in Hs, Hc. nra. }
  assert (F : forall t, 0.7 <= Rabs t -> 8190 <= Rabs (d * t)).
  { intros t Ht. rewrite Rabs_mult, (Rabs_pos_eq d) by lra. nra. }
  destruct L as [L|L]; [left|right]; apply far_fraction; try assumption; specialize (F _ L).
  - pose proof (Rabs_triang_inv (d * s) (fst N)). assert (Rabs (fst N) <= 1000) by (apply Rabs_le; lra). lra.
  - pose proof (Rabs_triang_inv (d * c) (snd N)). assert (Rabs (snd N) <= 5500) by (apply Rabs_le; lra). lra.
Qed.

(** * Floats *)
Section South.
Variable M : mathlib.
Hypothesis HM : accurate_library (16 * u) M.
Hypothesis HT : accurate_tangent (16 * u) M.
Notation A := (arith64 M).
Variables (north east : f64) (n e : R).
Hypothesis Hn : approx north n 90 50.
Hypothesis He : approx east e 190 100.
Hypothesis Rn : -89 <= n <= 0.
Hypothesis Re : -180 <= e <= 190.

Lemma sphere_south : exists d s c, approx (sphere_dist M north) d 1500000 (4 * 10 ^ 13) /\
  approx (sphere_sin M east) s 1 39 /\ approx (sphere_cos M east) c 1 39 /\
  d * s = fst (sphere_plane n e) /\ d * c = snd (sphere_plane n e).
Proof.
  unfold sphere_dist, sphere_sin, sphere_cos. cbn [fst snd n_ofZ arith64 num].
  pose proof (approx_int 1 1 ltac:(lia) ltac:(rewrite Rabs_R1; lra)) as One.
  pose proof (rad_approx M _ _ _ _ (approx_int 10 10 ltac:(lia) ltac:(rewrite Rabs_pos_eq; lra)) ltac:(lra) ltac:(lra)) as L0.
  pose proof (rad_approx M _ _ _ _ (approx_int 60 60 ltac:(lia) ltac:(rewrite Rabs_pos_eq; lra)) ltac:(lra) ltac:(lra)) as P0.
  pose proof (rad_approx M _ _ _ _ Hn ltac:(lra) ltac:(lra)) as Ph.
  pose proof (south_sin n Rn) as Sn. pose proof (sin_pos 60 ltac:(lra)) as S60. pose proof pi_upper as Hpi. pose proof (south_ratio n Rn) as Rt.
  pose proof (lon_approx M (m_fused M AtSphereLonX) _ _ _ _ He Re L0) as Dx.
  pose proof (lon_approx M (m_fused M AtSphereLonY) _ _ _ _ He Re L0) as Dy.
  cbn [n_ofZ arith64 num] in *.
  set (lam0 := rad A (f64_of_int 10)) in *. set (ph0 := rad A (f64_of_int 60)) in *. set (ph := rad A north) in *.
  pose proof (approx_sin M HM _ _ _ _ P0 ltac:(num)) as Sp0. pose proof (approx_sin M HM _ _ _ _ Ph ltac:(num)) as Sp.
  pose proof (approx_cos M HM _ _ _ _ Ph ltac:(num)) as Cp.
  pose proof (approx_sin M HM _ _ _ _ Dx ltac:(num)) as Sl. pose proof (approx_cos M HM _ _ _ _ Dy ltac:(num)) as Cl.
  set (l := e * (PI / 180) - 10 * (PI / 180)) in *. set (p := n * (PI / 180)) in *.
  clearbody lam0 ph0 ph.
  assert (N1 : approx (f64_add (f64_of_int 1) (m_sin M ph0)) (1 + sin (60 * (PI / 180))) 2 29).
  { eapply approx_weak; [apply (approx_add _ _ _ _ _ _ _ _ 2 One Sp0)| |]; [apply Rabs_le; lra|num|num|num]. }
  assert (D1 : approx (f64_add (f64_of_int 1) (m_sin M ph)) (1 + sin p) 1 29).
  { eapply approx_weak; [apply (approx_add _ _ _ _ _ _ _ _ 1 One Sp)| |]; [apply Rabs_le; lra|num|num|num]. }
  assert (Q : approx (f64_div (f64_add (f64_of_int 1) (m_sin M ph0)) (f64_add (f64_of_int 1) (m_sin M ph)))
                     ((1 + sin (60 * (PI / 180))) / (1 + sin p)) 14000 2900000000).
  { assert (HQ : Rabs ((1 + sin (60 * (PI / 180))) / (1 + sin p)) <= 14000).
    { rewrite Rabs_pos_eq.
      - apply Rmult_le_reg_r with (1 + sin p); [lra|]. unfold Rdiv. rewrite Rmult_assoc, Rinv_l by lra. lra.
      - apply Rmult_le_pos; [lra|left; apply Rinv_0_lt_compat; lra]. }
    assert (Lb : 0.00015 + 29 * U <= Rabs (1 + sin p)) by (rewrite Rabs_pos_eq; num).
    eapply approx_weak; [apply (approx_div _ _ _ _ _ _ _ _ 0.00015 14000 N1 D1 ltac:(lra) Lb HQ)| |]; num. }
  assert (ER : approx (earth_radius A) (earth_radius AR) 6400 3201).
  { eapply approx_weak; [apply (approx_lit 637004 2 6400); [lia|lia| |lra]| |]; [|num|num].
    change (IZR (10 ^ 2)) with 100. apply Rabs_le. lra. }
  assert (T1 : approx (f64_mul (earth_radius A) (f64_div (f64_add (f64_of_int 1) (m_sin M ph0)) (f64_add (f64_of_int 1) (m_sin M ph))))
                      (earth_radius AR * ((1 + sin (60 * (PI / 180))) / (1 + sin p))) 89600000 (2 * 10 ^ 13)).
  { eapply approx_weak; [apply (approx_mul _ _ _ _ _ _ _ _ ER Q)| |]; num. }
  assert (T2 : approx (f64_mul (f64_mul (earth_radius A) (f64_div (f64_add (f64_of_int 1) (m_sin M ph0)) (f64_add (f64_of_int 1) (m_sin M ph)))) (m_cos M ph))
                      (earth_radius AR * ((1 + sin (60 * (PI / 180))) / (1 + sin p)) * cos p) 89600000 (4 * 10 ^ 13)).
  { eapply approx_weak; [apply (approx_mul _ _ _ _ _ _ _ _ T1 Cp)| |]; num. }
  exists (earth_radius AR * ((1 + sin (60 * (PI / 180))) / (1 + sin p)) * cos p), (sin l), (cos l).
  split.
  { destruct T2 as (V & E0 & _ & X). split; [exact V|]. split; [exact E0|]. split; [|exact X].
    replace (earth_radius AR * ((1 + sin (60 * (PI / 180))) / (1 + sin p)) * cos p)
      with (earth_radius AR * (1 + sin (60 * (PI / 180))) * (cos p / (1 + sin p))) by (field; lra).
    set (r := cos p / (1 + sin p)) in *. change (earth_radius AR) with (637004 / IZR (10 ^ 2)). change (IZR (10 ^ 2)) with 100.
    assert (B0 : 0 <= (1 + sin (60 * (PI / 180))) * r <= 2 * 115) by (split; [apply Rmult_le_pos; lra|apply Rmult_le_compat; lra]).
    rewrite Rmult_assoc. apply Rabs_le. lra. }
  split; [eapply approx_weak; [exact Sl|lra|lra]|]. split; [eapply approx_weak; [exact Cl|lra|lra]|].
  split; reflexivity.
Qed.

(** The tangent of the steep half colatitude. *)
Lemma approx_tan_south x a : approx x a 1.6 11 -> a = PI / 4 - radians n / 2 -> approx (m_tan M x) (tan a) 115 150000.
Proof.
  intros (Vx & _ & _ & v & Xv & Dv) Ea. pose proof (tan_south n Rn) as T. rewrite <- Ea in T. pose proof pi_upper as Hpi. pose proof u_small as Hu.
  assert (Ra : 0.78 <= a <= 1.5622) by (unfold radians in Ea; rewrite Ea; nra).
  assert (Sa : PI / 2 - a >= radians 0.5) by (unfold radians in *; rewrite Ea; nra).
  pose proof (Rabs_le_inv _ _ Dv) as Iv.
  assert (Ca : 0.00872 <= cos a).
  { rewrite <- sin_shift. eapply Rle_trans; [exact half_degree|]. apply sin_incr_1; unfold radians in *; lra. }
  assert (Cv : 0.0087 <= cos v). { pose proof (Rabs_le_inv _ _ (cos_lip v a)) as I. assert (Rabs (v - a) <= 0.000001) by (apply Rabs_le; lra). lra. }
  assert (Lp : Rabs (tan v - tan a) <= 13200 * Rabs (v - a)).
  { assert (E : tan v - tan a = sin (v - a) * / (cos v * cos a)).
    { unfold tan. rewrite sin_minus. field. split; lra. }
    rewrite E, Rabs_mult. pose proof (sin_small (v - a)) as Ss. rewrite (Rabs_pos_eq (/ _)) by (left; apply Rinv_0_lt_compat; nra).
    rewrite (Rmult_comm 13200). apply Rmult_le_compat; [apply Rabs_pos|left; apply Rinv_0_lt_compat; nra|exact Ss|].
    apply Rle_trans with (/ (0.0087 * 0.00872)); [apply Rinv_le_contravar; nra|lra]. }
  destruct (HT x v Vx Xv ltac:(apply Rabs_le; lra)) as (V & r & Xr & Dr).
  split; [exact V|]. split; [lra|]. split; [rewrite Rabs_pos_eq; lra|]. exists r. split; [exact Xr|].
  assert (Rabs (tan v) <= 116).
  { replace (tan v) with (tan a + (tan v - tan a)) by ring. eapply Rle_trans; [apply Rabs_triang|]. rewrite (Rabs_pos_eq (tan a)) by lra. lra. }
  replace (r - tan a) with ((r - tan v) + (tan v - tan a)) by ring. eapply Rle_trans; [apply Rabs_triang|].
  assert (16 * u * (1 + Rabs (tan v)) <= 16 * u * 117) by (apply Rmult_le_compat_l; lra). lra.
Qed.
Lemma approx_pow_south x y a b B f : approx x a 1.3 13 -> approx y b B f -> 1 <= a <= 1.2 -> 0 <= b <= 0.05 -> f <= 10 ^ 6 ->
  approx (m_pow M x y) (Rpower a b) 1.02 (0.4 * f + 20).
Proof.
  intros (Vx & _ & HA & v & Xv & Dv) (Vy & Hf & HB & w & Xw & Dw) Ha Hb Mf. destruct HM as (_ & _ & _ & H).
  pose proof (small_err 13 v a ltac:(lra) ltac:(lra) Dv) as Sv. pose proof (Rabs_le_inv _ _ Sv) as Sv'.
  pose proof (small_err f w b Hf Mf Dw) as Sw. pose proof (Rabs_le_inv _ _ Sw) as Sw'.
  destruct (H x y v w Vx Vy Xv Xw ltac:(lra) ltac:(apply Rabs_le; lra)) as (V & r & Xr & Dr).
  split; [assumption|]. split; [lra|]. split.
  - pose proof (south_power a b Ha Hb). rewrite Rabs_pos_eq; lra.
  - exists r. split; [assumption|]. replace (r - Rpower a b) with ((r - Rpower v w) + (Rpower v w - Rpower a b)) by ring.
    eapply Rle_trans; [apply Rabs_triang|].
    pose proof (pow_lip_south a b v w (13 * u) (f * u) Ha ltac:(lra) Dv Dw) as P.
    assert (Mx : 10 ^ 6 * u <= 0.0001) by (pose proof u_small; lra). pose proof u_small.
    assert (f * u <= 10 ^ 6 * u) by (apply Rmult_le_compat_r; lra).
    specialize (P ltac:(lra) ltac:(lra)). lra.
Qed.

Lemma wgs_south :
  approx (fst (raw_wgs M north east)) (fst (wgs_plane n e)) 1500000 (10 ^ 10) /\
  approx (snd (raw_wgs M north east)) (snd (wgs_plane n e)) 1500000 (10 ^ 10).
Proof.
  unfold raw_wgs.
  change (f64_mul north (n_deg A)) with (rad A north).
  pose proof (approx_int 1 1 ltac:(lia) ltac:(rewrite Rabs_R1; lra)) as One.
  pose proof (approx_int 1000 1000 ltac:(lia) ltac:(rewrite Rabs_pos_eq; lra)) as Thou.
  pose proof (approx_int (-1000) 1000 ltac:(lia) ltac:(apply Rabs_le; lra)) as NThou.
  pose proof (deg_approx M) as Dg.
  pose proof (rad_approx M _ _ _ _ Hn ltac:(lra) ltac:(lra)) as Ph.
  assert (L0 : approx (p_lon_0 A) (10 * (PI / 180)) 0.3 0.4).
  { replace (10 * (PI / 180)) with (PI / 18) by field. eapply approx_weak; [apply (approx_pi 18 0.3)| |]; num. }
  pose proof (lon_approx M (m_fused M AtLonX) _ _ _ _ He Re (approx_weak _ _ _ _ 0.3 10 L0 ltac:(lra) ltac:(lra))) as Dx.
  pose proof (lon_approx M (m_fused M AtLonY) _ _ _ _ He Re (approx_weak _ _ _ _ 0.3 10 L0 ltac:(lra) ltac:(lra))) as Dy.
  assert (HP : approx (n_half_pi A) (PI / 2) 2 2.1).
  { eapply approx_weak; [apply (approx_pi 2 2)| |]; num. }
  assert (Hf : approx (n_lit A 5 1) (IZR 5 / IZR (10 ^ 1)) 0.5 0.3).
  { change (n_lit A 5 1) with (f64_lit 5 (- 1)).
    eapply approx_weak; [apply (approx_lit 5 1 0.5); [lia|lia| |lra]| |]; [|num|num]. change (IZR (10 ^ 1)) with 10. apply Rabs_le. lra. }
  assert (K0 : approx (p_k_0 A) (p_k_0 AR) 12000000 6000001).
  { eapply approx_weak; [apply (approx_lit 11862667042661695 9 12000000); [lia|lia| |lra]| |]; [|num|num].
    change (IZR (10 ^ 9)) with 1000000000. apply Rabs_le. lra. }
  assert (Ec : approx (p_ecc A) (p_ecc AR) 0.09 0.05).
  { eapply approx_weak; [apply (approx_lit 8181919084262032 17 0.09); [lia|lia| |lra]| |]; [|num|num].
    change (IZR (10 ^ 17)) with 100000000000000000. apply Rabs_le. lra. }
  assert (X0 : approx (p_x_0 A) (p_x_0 AR) 600000 300001).
  { eapply approx_weak; [apply (approx_lit 54319683521776402 11 600000); [lia|lia| |lra]| |]; [|num|num].
    change (IZR (10 ^ 11)) with 100000000000. apply Rabs_le. lra. }
  assert (Y0 : approx (p_y_0 A) (p_y_0 AR) 3700000 1850001).
  { eapply approx_weak; [apply (approx_lit 3622588861931001 9 3700000); [lia|lia| |lra]| |]; [|num|num].
    change (IZR (10 ^ 9)) with 1000000000. apply Rabs_le. lra. }
  assert (Er : 0.08 < p_ecc AR < 0.09) by exact ecc_range.
  assert (H5 : IZR 5 / IZR (10 ^ 1) = / 2) by (change (IZR (10 ^ 1)) with 10; lra).
  pose proof (south_sin n Rn) as Sn. pose proof pi_upper as Hpi.
  (* the power *)
  change (n_ofZ A 1) with (f64_of_int 1). change (p_scale A) with (f64_of_int 1000).
  assert (EN : n_neg A (f64_of_int 1000) = f64_of_int (-1000)) by (vm_compute; reflexivity). rewrite EN.
  unfold wgs_plane, wgs_scale. cbn [fst snd].
  set (lam0 := p_lon_0 A) in *. set (ph := rad A north) in *. set (k0 := p_k_0 A) in *. set (ec := p_ecc A) in *.
  set (x0 := p_x_0 A) in *. set (y0 := p_y_0 A) in *. set (hf := n_lit A 5 1) in *. set (hp := n_half_pi A) in *. set (dg := n_deg A) in *.
  set (rk0 := p_k_0 AR) in *. set (rec := p_ecc AR) in *. set (rx0 := p_x_0 AR) in *. set (ry0 := p_y_0 AR) in *.
  set (rh := IZR 5 / IZR (10 ^ 1)) in *.
  pose proof (approx_sin M HM _ _ _ _ Dx ltac:(num)) as Sl. pose proof (approx_cos M HM _ _ _ _ Dy ltac:(num)) as Cl.
  set (l := e * (PI / 180) - 10 * (PI / 180)) in *. 
  assert (Rp : - (PI / 2) <= n * (PI / 180) <= 0) by nra.
  set (p := n * (PI / 180)) in *.
  assert (Ep : n * (PI / 180) = p) by reflexivity.
  match type of Sl with approx (m_sin M ?x) _ _ _ => set (dlx := x) in * end. match type of Cl with approx (m_cos M ?x) _ _ _ => set (dly := x) in * end.
  clearbody dlx dly lam0 ph k0 ec x0 y0 hf hp rk0 rec rx0 ry0 rh l p. clear EN.
  set (fc := m_fused M AtColat). set (fm := m_fused M AtEccMinus). set (fp := m_fused M AtEccPlus). set (fx := m_fused M AtFalseX). set (fy := m_fused M AtFalseY).
  (* the tangent *)
  assert (A1 : approx (sub_mul fc hp north dg) (PI / 2 - p) 3.2 16).
  { rewrite <- Ep in *. eapply approx_weak; [eapply (approx_sub_mul fc _ _ _ _ _ _ _ _ _ _ _ _ 10 3.2 Hn Dg HP)|lra|]; try (unfold mul_err; num). apply Rabs_le; lra. }
  assert (A2 : approx (f64_mul hf (sub_mul fc hp north dg)) (rh * (PI / 2 - p)) 1.6 11).
  { eapply approx_weak; [apply (approx_mul _ _ _ _ _ _ _ _ Hf A1)| |]; num. }
  assert (A3 : approx (m_tan M (f64_mul hf (sub_mul fc hp north dg))) (tan (rh * (PI / 2 - p))) 115 150000).
  { apply approx_tan_south; [exact A2|]. rewrite H5. unfold radians. rewrite Ep. lra. }
  assert (A4 : approx (f64_mul k0 (m_tan M (f64_mul hf (sub_mul fc hp north dg)))) (rk0 * tan (rh * (PI / 2 - p))) 1380000000 (19 * 10 ^ 11)).
  { eapply approx_weak; [apply (approx_mul _ _ _ _ _ _ _ _ K0 A3)| |]; num. }
  (* the power *)
  pose proof (approx_sin M HM _ _ _ _ Ph ltac:(num)) as Sp.
  assert (Rs : -0.09 <= rec * sin p <= 0) by nra.
  assert (B2 : approx (sub_mul fm (f64_of_int 1) ec (m_sin M ph)) (1 - rec * sin p) 1.09 4.5).
  { eapply approx_weak; [eapply (approx_sub_mul fm _ _ _ _ _ _ _ _ _ _ _ _ 3 1.09 Ec Sp One)|lra|]; try (unfold mul_err; num). apply Rabs_le; lra. }
  assert (B3 : approx (add_mul fp (f64_of_int 1) ec (m_sin M ph)) (1 + rec * sin p) 1 4.5).
  { eapply approx_weak; [eapply (approx_add_mul fp _ _ _ _ _ _ _ _ _ _ _ _ 3 1 Ec Sp One)|lra|]; try (unfold mul_err; num). apply Rabs_le; lra. }
  assert (Rb : 1 <= (1 - rec * sin p) / (1 + rec * sin p) <= 1.2).
  { split.
    - apply Rmult_le_reg_r with (1 + rec * sin p); [lra|]. unfold Rdiv. rewrite (Rmult_assoc (1 - rec * sin p)), Rinv_l by lra. lra.
    - apply Rmult_le_reg_r with (1 + rec * sin p); [lra|]. unfold Rdiv. rewrite (Rmult_assoc (1 - rec * sin p)), Rinv_l by lra. lra. }
  assert (B4 : approx (f64_div (sub_mul fm (f64_of_int 1) ec (m_sin M ph)) (add_mul fp (f64_of_int 1) ec (m_sin M ph)))
                      ((1 - rec * sin p) / (1 + rec * sin p)) 1.3 13).
  { assert (HQ : Rabs ((1 - rec * sin p) / (1 + rec * sin p)) <= 1.3) by (apply Rabs_le; lra).
    assert (Lb : 0.9 + 4.5 * U <= Rabs (1 + rec * sin p)) by (rewrite Rabs_pos_eq; num).
    eapply approx_weak; [apply (approx_div _ _ _ _ _ _ _ _ 0.9 1.3 B2 B3 ltac:(lra) Lb HQ)| |]; num. }
  assert (B5 : approx (f64_mul hf ec) (rh * rec) 0.05 1).
  { eapply approx_weak; [apply (approx_mul _ _ _ _ _ _ _ _ Hf Ec)| |]; num. }
  assert (B6 : approx (m_pow M (f64_div (sub_mul fm (f64_of_int 1) ec (m_sin M ph)) (add_mul fp (f64_of_int 1) ec (m_sin M ph))) (f64_mul hf ec))
                      (Rpower ((1 - rec * sin p) / (1 + rec * sin p)) (rh * rec)) 1.02 21).
  { eapply approx_weak; [apply (approx_pow_south _ _ _ _ _ _ B4 B5 Rb)| |]; [rewrite H5; lra|lra|lra|lra]. }
  assert (FP : 1 <= Rpower ((1 - rec * sin p) / (1 + rec * sin p)) (rh * rec)) by (apply south_power; [exact Rb|rewrite H5; lra]).
  set (tn := tan (rh * (PI / 2 - p))) in *. set (pw := Rpower ((1 - rec * sin p) / (1 + rec * sin p)) (rh * rec)) in *.
  (* the distance from the pole *)
  assert (RS : Rabs (rk0 * tn / pw) <= 1390000000).
  { destruct A4 as (_ & _ & HA & _). unfold Rdiv. rewrite Rabs_mult, Rabs_inv, (Rabs_pos_eq pw) by lra.
    assert (/ pw <= / 1) by (apply Rinv_le_contravar; lra). 
    apply Rle_trans with (1380000000 * / 1); [|lra]. apply Rmult_le_compat; [apply Rabs_pos|left; apply Rinv_0_lt_compat; lra|assumption|assumption]. }
  match goal with H4 : approx ?x (rk0 * tn) _ _, H6 : approx ?y pw _ _ |- _ => 
    assert (SS : approx (f64_div x y) (rk0 * tn / pw) 1390000000 (20 * 10 ^ 11)) end.
  { assert (Lb : 0.99 + 21 * U <= Rabs pw) by (rewrite Rabs_pos_eq; num).
    eapply approx_weak; [apply (approx_div _ _ _ _ _ _ _ _ 0.99 1390000000 A4 B6 ltac:(lra) Lb RS)| |]; num. }
  set (sr := rk0 * tn / pw) in *. match type of SS with approx ?x _ _ _ => set (sf := x) in * end. 
  clearbody sr sf. clear A1 A2 A3 A4 B2 B3 B4 B5 B6.
  split.
  - assert (C2 : approx (add_mul fx x0 sf (m_sin M dlx)) (rx0 + sr * sin l) 1400000000 (22 * 10 ^ 11)).
    { pose proof SS as (_ & _ & b1 & _). pose proof Sl as (_ & _ & b3 & _). pose proof X0 as (_ & _ & b2 & _).
      eapply approx_weak; [eapply (approx_add_mul fx _ _ _ _ _ _ _ _ _ _ _ _ (21 * 10 ^ 11) 1400000000 SS Sl X0)|lra|]; try (unfold mul_err; num).
      eapply Rle_trans; [apply Rabs_triang|]. rewrite Rabs_mult.
      assert (Rabs sr * Rabs (sin l) <= 1390000000 * 1) by (apply Rmult_le_compat; [apply Rabs_pos|apply Rabs_pos|lra|lra]). lra. }
    assert (HQ : Rabs ((rx0 + sr * sin l) / 1000) <= 1500000).
    { pose proof C2 as (_ & _ & b & _). unfold Rdiv. rewrite Rabs_mult, (Rabs_pos_eq (/ 1000)) by lra. lra. }
    assert (Lb : 999 + 0 * U <= Rabs 1000) by (rewrite Rabs_pos_eq; num).
    eapply approx_weak; [apply (approx_div _ _ _ _ _ _ _ _ 999 1500000 C2 Thou ltac:(lra) Lb HQ)| |]; num.
  - assert (C2 : approx (sub_mul fy y0 sf (m_cos M dly)) (ry0 - sr * cos l) 1400000000 (22 * 10 ^ 11)).
    { pose proof SS as (_ & _ & b1 & _). pose proof Cl as (_ & _ & b3 & _). pose proof Y0 as (_ & _ & b2 & _).
      eapply approx_weak; [eapply (approx_sub_mul fy _ _ _ _ _ _ _ _ _ _ _ _ (21 * 10 ^ 11) 1400000000 SS Cl Y0)|lra|]; try (unfold mul_err; num).
      eapply Rle_trans; [apply Rabs_triang|]. rewrite Rabs_Ropp, Rabs_mult.
      assert (Rabs sr * Rabs (cos l) <= 1390000000 * 1) by (apply Rmult_le_compat; [apply Rabs_pos|apply Rabs_pos|lra|lra]). lra. }
    assert (HQ : Rabs ((ry0 - sr * cos l) / -1000) <= 1500000).
    { pose proof C2 as (_ & _ & b & _). unfold Rdiv. rewrite Rabs_mult, Rabs_inv, (Rabs_left (-1000)) by lra. replace (- (-1000)) with 1000 by lra. lra. }
    assert (Lb : 999 + 0 * U <= Rabs (-1000)) by (rewrite Rabs_left; num).
    eapply approx_weak; [apply (approx_div _ _ _ _ _ _ _ _ 999 1500000 C2 NThou ltac:(lra) Lb HQ)| |]; num.
Qed.

(** The coordinates minus an offset. *)
Lemma plane_south w ox oy X Y : approx ox X 16000 3000000 -> approx oy Y 16000 3000000 ->
  approx (raw_x M w north east ox) (fst (code_plane w n e) - X) 1520000 (5 * 10 ^ 13) /\
  approx (raw_y M w north east oy) (snd (code_plane w n e) - Y) 1520000 (5 * 10 ^ 13).
Proof.
  intros Hx Hy. pose proof Hx as (_ & _ & BX & _). pose proof Hy as (_ & _ & BY & _). unfold raw_x, raw_y, code_plane. destruct w.
  - destruct wgs_south as [W1 W2]. pose proof W1 as (_ & _ & b1 & _). pose proof W2 as (_ & _ & b2 & _). split.
    + eapply approx_weak; [apply (approx_sub _ _ _ _ _ _ _ _ 1520000 W1 Hx)|lra|]; [|num|num]. 
      eapply Rle_trans; [apply Rabs_triang|]. rewrite Rabs_Ropp. lra.
    + eapply approx_weak; [apply (approx_sub _ _ _ _ _ _ _ _ 1520000 W2 Hy)|lra|]; [|num|num]. 
      eapply Rle_trans; [apply Rabs_triang|]. rewrite Rabs_Ropp. lra.
  - destruct sphere_south as (d & s & c & S1 & S2 & S3 & E1 & E2). 
    pose proof S1 as (_ & _ & b1 & _). pose proof S2 as (_ & _ & b2 & _). pose proof S3 as (_ & _ & b3 & _).
    assert (b4 : Rabs (d * s) <= 1500000).
    { rewrite Rabs_mult. apply Rle_trans with (1500000 * 1); [apply Rmult_le_compat; try apply Rabs_pos; lra|lra]. }
    assert (b5 : Rabs (d * c) <= 1500000).
    { rewrite Rabs_mult. apply Rle_trans with (1500000 * 1); [apply Rmult_le_compat; try apply Rabs_pos; lra|lra]. }
    assert (b6 : Rabs (d * s - X) <= 1520000) by (eapply Rle_trans; [apply Rabs_triang|]; rewrite Rabs_Ropp; lra).
    assert (b7 : Rabs (d * c - Y) <= 1520000) by (eapply Rle_trans; [apply Rabs_triang|]; rewrite Rabs_Ropp; lra).
    pose proof (approx_weak _ _ _ _ 1520000 (5 * 10 ^ 13) (approx_mul_sub (m_fused M AtSphereX) _ _ _ _ _ _ _ _ _ _ _ _ (42 * 10 ^ 12) 1520000 S1 S2 Hx ltac:(unfold mul_err; num) ltac:(unfold mul_err; num) ltac:(unfold mul_err; num) b6) ltac:(lra) ltac:(num)) as G1.
    pose proof (approx_weak _ _ _ _ 1520000 (5 * 10 ^ 13) (approx_mul_sub (m_fused M AtSphereY) _ _ _ _ _ _ _ _ _ _ _ _ (42 * 10 ^ 12) 1520000 S1 S3 Hy ltac:(unfold mul_err; num) ltac:(unfold mul_err; num) ltac:(unfold mul_err; num) b7) ltac:(lra) ltac:(num)) as G2.
    rewrite E1 in G1. rewrite E2 in G2. exact (conj G1 G2).
Qed.
End South.

(** One axis, coarsely. *)
Lemma axis_far b c n (s g k : R) :
  approx b s 32000 6100000 -> approx c g 1520000 (5 * 10 ^ 13) ->
  400 <= s -> valid64 n -> is_value n k -> 1 <= k < bpow radix2 1000 ->
  exists x, is_value (f64_div c (f64_div (f64_div b (f64_of_int 1)) n)) x /\ Rabs (x - k * (g / s)) <= k / 1000 /\ Rabs (g / s) <= 3800.
Proof.
  set (r := f64_div (f64_div b (f64_of_int 1)) n).
  intros HD HN Hs Vn Hn Hk.
  destruct HD as (VD & _ & BD & d & XD & ED). destruct HN as (VN & _ & BN & v & XN & EN).
  pose proof u_small as Hu. pose proof u_upper as Hu'.
  assert (Md : 6100000 * u <= / 10 ^ 6) by lra.
  apply Rabs_le_inv in BD, BN. pose proof (Rabs_le_inv _ _ ED) as ID. pose proof (Rabs_le_inv _ _ EN) as IN.
  assert (Pd : 399 <= d <= 32001) by lra. assert (Pv : -1520001 <= v <= 1520001) by lra.
  assert (V1 : valid64 (f64_div b (f64_of_int 1))) by exact (valid_div _ _ VD (valid_of_int 1)).
  assert (Vr : valid64 r) by exact (valid_div _ _ V1 Vn).
  pose proof (div64 _ n d k V1 Vn (div_one _ d VD XD) Hn ltac:(lra)) as R1. fold r in R1.
  assert (Ik : 0 < / k <= 1). { split; [apply Rinv_0_lt_compat; lra|]. rewrite <- Rinv_1. apply Rinv_le_contravar; lra. }
  assert (Lq : bpow radix2 (-1022) <= Rabs (d / k)).
  { rewrite Rabs_pos_eq by (apply Rmult_le_pos; lra). apply Rle_trans with (1 * / k); [|apply Rmult_le_compat_r; lra].
    rewrite Rmult_1_l. apply Rle_trans with (bpow radix2 (-1000)); [apply bpow_le; lia|].
    change (-1000)%Z with (- (1000))%Z. rewrite bpow_opp. apply Rinv_le_contravar; lra. }
  destruct (rel64 _ Lq) as (e1 & B1 & G1). apply Rabs_le_inv in B1.
  assert (B1' : - u <= e1 <= u).
  { assert (bpow radix2 (-53) <= u) by (apply bpow_le; lia). lra. }
  assert (Hr : is_value r (d / k * (1 + e1))).
  { rewrite <- G1. apply (result_value _ _ _ _ R1). apply no_overflow. rewrite Rabs_pos_eq by (apply Rmult_le_pos; lra).
    apply Rle_trans with (32001 * 1); [apply Rmult_le_compat; lra|lra]. }
  assert (Nr : d / k * (1 + e1) <> 0).
  { apply Rgt_not_eq. apply Rmult_lt_0_compat; [|lra]. apply Rmult_lt_0_compat; lra. }
  pose proof (div64 _ r v _ VN Vr XN Hr Nr) as R2.
  set (t := v / (d * (1 + e1))).
  assert (Et : v / (d / k * (1 + e1)) = k * t) by (unfold t; field; repeat split; lra). rewrite Et in R2.
  assert (Bt : Rabs (g / s) <= 3800).
  { unfold Rdiv. rewrite Rabs_mult, (Rabs_pos_eq (/ s)) by (left; apply Rinv_0_lt_compat; lra).
    assert (/ s <= / 400) by (apply Rinv_le_contravar; lra). assert (Rabs g <= 1520000) by (apply Rabs_le; lra).
    apply Rle_trans with (1520000 * / 400); [|lra]. apply Rmult_le_compat; [apply Rabs_pos|left; apply Rinv_0_lt_compat; lra|assumption|assumption]. }
  set (D := d * (1 + e1)). assert (PD : 398 <= D) by (unfold D; nra).
  assert (ED' : Rabs (D - s) <= 6140000 * u).
  { unfold D. replace (d * (1 + e1) - s) with ((d - s) + d * e1) by ring. eapply Rle_trans; [apply Rabs_triang|]. rewrite Rabs_mult, (Rabs_pos_eq d) by lra.
    assert (Rabs e1 <= u) by (apply Rabs_le; lra). assert (d * Rabs e1 <= 32001 * u) by (apply Rmult_le_compat; [lra|apply Rabs_pos|lra|assumption]). lra. }
  assert (Tt : Rabs (t - g / s) <= 0.0005).
  { unfold t. fold D. replace (v / D - g / s) with (((v - g) - g / s * (D - s)) * / D) by (field; lra).
    rewrite Rabs_mult, (Rabs_pos_eq (/ D)) by (left; apply Rinv_0_lt_compat; lra).
    assert (X : Rabs (v - g - g / s * (D - s)) <= 5 * 10 ^ 13 * u + 3800 * (6140000 * u)).
    { eapply Rle_trans; [apply Rabs_triang|]. rewrite Rabs_Ropp, Rabs_mult. apply Rplus_le_compat; [assumption|].
      apply Rmult_le_compat; [apply Rabs_pos|apply Rabs_pos|assumption|assumption]. }
    assert (Y : / D <= / 398) by (apply Rinv_le_contravar; lra).
    apply Rle_trans with ((5 * 10 ^ 13 * u + 3800 * (6140000 * u)) * / 398); [|lra].
    apply Rmult_le_compat; [apply Rabs_pos|left; apply Rinv_0_lt_compat; lra|assumption|assumption]. }
  assert (Bt' : Rabs t <= 3801).
  { replace t with (g / s + (t - g / s)) by ring. eapply Rle_trans; [apply Rabs_triang|]. lra. }
  assert (Bkt : Rabs (k * t) <= k * 3801) by (rewrite Rabs_mult, (Rabs_pos_eq k) by lra; apply Rmult_le_compat_l; lra).
  pose proof (rnd_err (k * t)) as Re.
  assert (Re' : Rabs (rnd64 (k * t) - k * t) <= k * (2000 * u)).
  { eapply Rle_trans; [exact Re|]. replace (k * (2000 * u)) with (k * 2000 * u) by ring. apply Rmult_le_compat_r; [lra|]. unfold tiny. lra. }
  exists (rnd64 (k * t)). split; [|split; [|exact Bt]].
  - apply (result_value _ _ _ _ R2). fold rnd64.
    apply Rle_lt_trans with (k * 3802).
    + replace (rnd64 (k * t)) with ((rnd64 (k * t) - k * t) + k * t) by ring. eapply Rle_trans; [apply Rabs_triang|].
      assert (k * (2000 * u) <= k * 1) by (apply Rmult_le_compat_l; lra). lra.
    + apply Rlt_trans with (bpow radix2 1000 * bpow radix2 12); [|rewrite <- bpow_plus; apply bpow_lt; reflexivity].
      apply Rle_lt_trans with (bpow radix2 1000 * 3802); [apply Rmult_le_compat_r; lra|].
      apply Rmult_lt_compat_l; [apply bpow_gt_0|]. change (bpow radix2 12) with 4096. lra.
  - replace (rnd64 (k * t) - k * (g / s)) with ((rnd64 (k * t) - k * t) + k * (t - g / s)) by ring.
    eapply Rle_trans; [apply Rabs_triang|]. rewrite (Rabs_mult k), (Rabs_pos_eq k) by lra.
    assert (k * Rabs (t - g / s) <= k * 0.0005) by (apply Rmult_le_compat_l; lra).
    assert (k * (2000 * u) <= k * 0.0005) by (apply Rmult_le_compat_l; lra). lra.
Qed.

(** The truncated coordinate is off the axis. *)
Lemma trunc_far k q x : (1 <= k)%Z -> Rabs (x - IZR k * q) <= IZR k / 1000 -> 1.1 <= Rabs q -> (Ztrunc x < 0 \/ k <= Ztrunc x)%Z.
Proof.
  intros Hk H Hq. apply Rabs_le_inv in H. pose proof (IZR_le _ _ Hk) as Hk'. unfold Rabs in Hq. destruct (Rcase_abs q) as [Hn|Hp].
  - left. assert (x <= -1) by nra. rewrite Ztrunc_ceil by lra. apply Z.le_lt_trans with (-1)%Z; [apply Zceil_glb; assumption|lia].
  - right. assert (IZR k <= x) by nra. rewrite Ztrunc_floor by lra. now apply Zfloor_lub.
Qed.
Lemma far_range k q x : (1 <= k <= 2 ^ 50)%Z -> Rabs (x - IZR k * q) <= IZR k / 1000 -> Rabs q <= 3800 -> Rabs x < IZR (2 ^ 62).
Proof.
  intros [Hk Hk'] Hx Ht. apply IZR_le in Hk, Hk'. change (2 ^ 50)%Z with 1125899906842624%Z in Hk'. change (2 ^ 62)%Z with 4611686018427387904%Z.
  apply Rabs_le_inv in Ht, Hx. apply Rabs_lt. split; nra.
Qed.

(** C55 in the southern hemisphere: to 89 degrees south no position is on a
    grid, whatever its longitude. *)
Theorem C55_south M K (c : composite (num (arith64 M))) size nw se nwR seR north east n e :
  accurate_library (powerRZ 2 (-48)) M -> accurate_tangent (powerRZ 2 (-48)) M ->
  on_float_grid M c size nw se -> documented_corners size (5 <=? c_format c)%Z nwR seR ->
  within (powerRZ 2 (-47)) north n -> within (powerRZ 2 (-46)) east e -> -89 <= n <= 0 -> -180 <= e <= 190 ->
  (c_dx c <= 2 ^ 50)%Z -> (c_dy c <= 2 ^ 50)%Z ->
  value_at M K c north east = Some NaN32.
Proof.
  intros HM0 HT0 Hg0 Hd Wn We Rn Re Bx By.
  pose proof (within_approx 47 32 north n 90 50 ltac:(lia) ltac:(simpl; lra) ltac:(lra) ltac:(apply Rabs_le; lra) Wn) as An.
  pose proof (within_approx 46 64 east e 190 100 ltac:(lia) ltac:(simpl; lra) ltac:(lra) ltac:(apply Rabs_le; lra) We) as Ae.
  assert (E16 : powerRZ 2 (-48) = 16 * u).
  { unfold u. rewrite bpow_powerRZ. change (IZR radix2) with 2.
    change (-48)%Z with (4 + -52)%Z. rewrite powerRZ_add by lra. replace (powerRZ 2 4) with 16 by (simpl; lra). reflexivity. }
  assert (HM : accurate_library (16 * u) M) by (rewrite <- E16; assumption).
  assert (HT : accurate_tangent (16 * u) M) by (rewrite <- E16; assumption).
  destruct (resampled_pos _ _ _ _ _ _ Hd (proj1 (proj2 Hg0))) as [Px Py].
  pose proof (float_grid M c size nw se Hg0) as (w & ch & Ew & Ec & Hw & E1 & E2 & Hi & V1 & V2 & V3 & V4).
  destruct Hg0 as (_ & Hr & Hf). destruct (resampled_float _ _ _ _ _ _ Hf Hi Hr) as (I1 & I2 & I3 & I4).
  pose proof (fixed_raw M (fst nw) (snd nw) (fst se) (snd se) ch w Hw) as F. cbv zeta in F.
  rewrite <- Ec in F. destruct F as (F1 & F2 & F3 & F4 & F5 & F6). rewrite E1 in F5. rewrite E2 in F6.
  unfold value_at. cbv zeta.
  rewrite project_raw by assumption. rewrite F2, F3, F4. cbn [fst snd]. rewrite F5, F6.
  destruct (corner_values _ _ _ _ _ _ Hf Hd) as ((C1 & C2) & (C3 & C4)).
  destruct (corner_range _ _ _ _ Hd) as (R1 & R2 & R3 & _ & R4 & R5).
  destruct (spans _ _ _ _ Hd) as [S1 S2].
  destruct (origin_approx M HM w _ _ _ _ C1 C2 ltac:(lra) ltac:(lra)) as [A1 A2].
  pose proof A1 as (_ & _ & b1 & _). pose proof A2 as (_ & _ & b2 & _).
  destruct (plane_approx M HM w _ _ _ _ _ _ _ _ 16000 3000000 32000 6100000 C3 C4 ltac:(lra) ltac:(lra) A1 A2 b1 b2 ltac:(lra) ltac:(lra) ltac:(lra) ltac:(lra)) as (B1 & B2 & _).
  destruct (plane_south M HM HT north east n e An Ae Rn Re w _ _ _ _ A1 A2) as (P1 & P2).
  pose proof (south_far (c_format c) size nwR seR n e Hd Rn) as Far.
  unfold exact_fraction in Far. cbv zeta in Far. cbn [fst snd] in Far. subst w.
  destruct (plane_diff (c_format c) n e (fst nwR) (snd nwR) ltac:(lra) ltac:(lra)) as [U1 U2]. rewrite <- U1, <- U2 in Far.
  destruct (plane_diff (c_format c) (fst seR) (snd seR) (fst nwR) (snd nwR) ltac:(lra) ltac:(lra)) as [T1 T2].
  rewrite <- T1 in S1, Far. rewrite <- T2 in S2, Far.
  destruct (axis_far _ _ _ _ _ _ B1 P1 S1 (valid_of_int _) I1 I3) as (x & X1 & X2 & X3).
  destruct (axis_far _ _ _ _ _ _ B2 P2 S2 (valid_of_int _) I2 I4) as (y & Y1 & Y2 & Y3).
  assert (Ix : Rabs x < IZR (2 ^ 62)) by (eapply far_range; [|exact X2|exact X3]; lia).
  assert (Iy : Rabs y < IZR (2 ^ 62)) by (eapply far_range; [|exact Y2|exact Y3]; lia).
  rewrite (to_int_value K _ x X1 Ix), (to_int_value K _ y Y1 Iy). unfold at_. apply at_z_outside. unfold inside.
  assert (Px' : (1 <= c_dx c)%Z) by lia. assert (Py' : (1 <= c_dy c)%Z) by lia.
  destruct Far as [Hq|Hq]; [pose proof (trunc_far _ _ x Px' X2 Hq)|pose proof (trunc_far _ _ y Py' Y2 Hq)]; lia.
Qed.

(** The correctly rounded library has such a tangent. *)
Lemma round64_relative r : Rabs r <= 10 ^ 6 -> within (16 * u * (1 + Rabs r)) (round64 r) r.
Proof.
  intros H. pose proof (normalize_result prec64 emax64 _ _ (ZnearestE (scaled_mantissa radix2 (FLT_exp (3 - emax64 - prec64) prec64) r))
    (cexp radix2 (FLT_exp (3 - emax64 - prec64) prec64) r) false) as Hr.
  change (F2R _) with (rnd64 r) in Hr.
  assert (F : generic_format radix2 (FLT_exp (3 - emax64 - prec64) prec64) (rnd64 r)) by (apply generic_format_round; exact _).
  assert (B : Rabs (rnd64 r) < bpow radix2 emax64) by (apply no_overflow; lra).
  split; [apply Hr|]. exists (rnd64 r). split; [eapply result_exact; [exact Hr|exact F|exact B]|].
  eapply Rle_trans; [apply rnd_err|]. pose proof u_small. pose proof (Rabs_pos r).
  replace (16 * u * (1 + Rabs r)) with ((16 + 16 * Rabs r) * u) by ring. apply Rmult_le_compat_r; [lra|]. unfold tiny. lra.
Qed.
Lemma tan_bound a : Rabs a <= 1.57 -> Rabs (tan a) <= 10 ^ 6.
Proof.
  intros Ha. apply Rabs_le_inv in Ha. pose proof pi_bounds as P. apply Rabs_le_inv in P.
  assert (C : forall b, 0 <= b <= 1.57 -> / 10 ^ 6 <= cos b).
  { intros b Hb. rewrite cos_sin. set (x := PI / 2 + b). assert (S : sin x = sin (PI - x)) by (rewrite sin_PI_x; reflexivity). rewrite S.
    assert (X : 0.0006 <= PI - x <= PI / 2) by (unfold x; lra). set (z := PI - x) in *. clearbody z. clear S.
    assert (sin 0.0006 <= sin z) by (apply sin_incr_1; lra).
    pose proof (sin_lower 0.0006 ltac:(lra)).
    lra. }
  assert (Ca : / 10 ^ 6 <= cos a). { destruct (Rle_dec 0 a); [apply C; lra|]. rewrite <- cos_neg. apply C. lra. }
  unfold tan, Rdiv. pose proof (SIN_bound a). rewrite Rabs_mult, Rabs_inv, (Rabs_pos_eq (cos a)) by lra.
  assert (I : / cos a <= / / 10 ^ 6) by (apply Rinv_le_contravar; lra). rewrite Rinv_inv in I.
  assert (Rabs (sin a) <= 1) by (apply Rabs_le; lra).
  apply Rle_trans with (1 * 10 ^ 6); [|lra]. apply Rmult_le_compat; [apply Rabs_pos|left; apply Rinv_0_lt_compat; lra|assumption|assumption].
Qed.
Lemma correct_tangent : accurate_tangent (powerRZ 2 (-48)) correct.
Proof.
  replace (powerRZ 2 (-48)) with (16 * u).
  2:{ unfold u. rewrite bpow_powerRZ. change (IZR radix2) with 2.
      change (-48)%Z with (4 + -52)%Z. rewrite powerRZ_add by lra. replace (powerRZ 2 4) with 16 by (simpl; lra). reflexivity. }
  intros x a _ Hx Ha. apply is_value_iff in Hx. destruct Hx as [_ Hx]. cbn [correct m_tan]. rewrite <- Hx in *. apply round64_relative.
  now apply tan_bound.
Qed.

(** Cape Town is on no grid. *)
Example C55_case_south : let c := new_dummy (arith64 correct) [] 3 450 450 in
  accurate_library (powerRZ 2 (-48)) correct /\ accurate_tangent (powerRZ 2 (-48)) correct /\
  on_float_grid correct c (900, 900)%Z (deg 545877 4, deg 20715 4) (deg 470705 4, deg 146209 4) /\
  documented_corners (900, 900)%Z (5 <=? c_format c)%Z (54.5877, 2.0715) (47.0705, 14.6209) /\
  within (powerRZ 2 (-47)) (deg (-3393) 2) (-33.93) /\ within (powerRZ 2 (-46)) (deg 1842 2) 18.42 /\
  (c_dx c <= 2 ^ 50)%Z /\ (c_dy c <= 2 ^ 50)%Z.
Proof.
  cbv zeta. destruct C54_case_sphere as (H1 & H2 & H3 & _). split; [exact H1|]. split; [exact correct_tangent|]. split; [exact H2|]. split; [exact H3|].
  split; [apply (lit_within (-3393) 2 55 47); try lia; try lra; try reflexivity; [apply Rabs_le; lra|simpl; lra]|].
  split; [apply (lit_within 1842 2 55 46); try lia; try lra; try reflexivity; [apply Rabs_le; lra|simpl; lra]|].
  destruct (dummy_fields (arith64 correct) [] 3 450 450) as (_ & -> & ->). split; lia.
Qed.
Print Assumptions C55_south.
