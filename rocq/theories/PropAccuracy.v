(** C54: accuracy of Project in float64 arithmetic. *)
From Coq Require Import Reals Lra Lia Psatz.
From Flocq Require Import Core Relative BinarySingleNaN.
From Verif Require Import GoBase GoFloat Catalog Composite Header Data Projection Radolan SpecReal SpecProj ExactReal SpecAccuracy BaseFacts
  CompositeFacts Spec FloatFacts PropFloat PropGrid PropReal PropProjFloat AccFacts.
Local Open Scope R_scope.

Ltac num := unfold U, tiny; lra.

Section Plane.
Variable M : mathlib.
Hypothesis HM : accurate_library (16 * u) M.
Notation A := (arith64 M).

Lemma deg_approx : approx (n_deg A) (PI / 180) 0.0223 0.023.
Proof. eapply approx_weak; [apply (approx_pi 180 0.0223); lra| |]; num. Qed.
Lemma pi_upper : 3.1415 < PI < 3.1416.
Proof. pose proof (Rabs_le_inv _ _ pi_bounds). lra. Qed.

Lemma rad_approx x a B e : approx x a B e -> B <= 190 -> e <= 100 -> approx (rad A x) (a * (PI / 180)) (B * 0.0223) 10.
Proof.
  intros H HB He. destruct (approx_bound _ _ _ _ H) as [P1 P2]. unfold rad. cbn [n_mul arith64 num].
  eapply approx_weak; [apply (approx_mul _ _ _ _ _ _ _ _ H deg_approx)|lra|]; unfold U, tiny; nra.
Qed.

Lemma sin_pos n : 0 <= n <= 90 -> 0 <= sin (n * (PI / 180)) <= 1.
Proof.
  intros H. split; [|apply SIN_bound]. pose proof PI_RGT_0. apply sin_ge_0; nra.
Qed.

(** The difference of longitudes, fused or not. *)
Lemma lon_approx k east e l0 c : approx east e 190 100 -> -180 <= e <= 190 -> approx l0 (10 * (PI / 180)) c 10 ->
  approx (mul_sub k east (n_deg A) l0) (e * (PI / 180) - 10 * (PI / 180)) 3.4 23.
Proof.
  intros He Re L0. pose proof pi_upper. 
  eapply approx_weak; [eapply (approx_mul_sub k _ _ _ _ _ _ _ _ _ _ _ _ 10 3.4 He deg_approx L0)|lra|]; 
    try (unfold mul_err; num). apply Rabs_le. nra.
Qed.

Lemma sphere_approx north east n e : approx north n 90 50 -> approx east e 190 100 -> 0 <= n <= 90 -> -180 <= e <= 190 ->
  exists d s c, approx (sphere_dist M north) d 12800 1000000 /\ approx (sphere_sin M east) s 1 39 /\ approx (sphere_cos M east) c 1 39 /\
    d * s = fst (sphere_plane n e) /\ d * c = snd (sphere_plane n e).
Proof.
  intros Hn He Rn Re. unfold sphere_dist, sphere_sin, sphere_cos. cbn [fst snd n_ofZ arith64 num].
  pose proof (approx_int 1 1 ltac:(lia) ltac:(rewrite Rabs_R1; lra)) as One.
  pose proof (rad_approx _ _ _ _ (approx_int 10 10 ltac:(lia) ltac:(rewrite Rabs_pos_eq; lra)) ltac:(lra) ltac:(lra)) as L0.
  pose proof (rad_approx _ _ _ _ (approx_int 60 60 ltac:(lia) ltac:(rewrite Rabs_pos_eq; lra)) ltac:(lra) ltac:(lra)) as P0.
  pose proof (rad_approx _ _ _ _ Hn ltac:(lra) ltac:(lra)) as Ph.
  pose proof (sin_pos n Rn) as Sn. pose proof (sin_pos 60 ltac:(lra)) as S60. pose proof pi_upper as Hpi.
  pose proof (lon_approx (m_fused M AtSphereLonX) _ _ _ _ He Re L0) as Dx.
  pose proof (lon_approx (m_fused M AtSphereLonY) _ _ _ _ He Re L0) as Dy.
  cbn [n_ofZ arith64 num] in *.
  set (lam0 := rad A (f64_of_int 10)) in *. set (ph0 := rad A (f64_of_int 60)) in *. set (ph := rad A north) in *.
  (* sines and cosines *)
  pose proof (approx_sin M HM _ _ _ _ P0 ltac:(num)) as Sp0. pose proof (approx_sin M HM _ _ _ _ Ph ltac:(num)) as Sp.
  pose proof (approx_cos M HM _ _ _ _ Ph ltac:(num)) as Cp.
  pose proof (approx_sin M HM _ _ _ _ Dx ltac:(num)) as Sl. pose proof (approx_cos M HM _ _ _ _ Dy ltac:(num)) as Cl.
  set (l := e * (PI / 180) - 10 * (PI / 180)) in *. set (p := n * (PI / 180)) in *.
  clearbody lam0 ph0 ph.
  (* the scale *)
  assert (N1 : approx (f64_add (f64_of_int 1) (m_sin M ph0)) (1 + sin (60 * (PI / 180))) 2 29).
  { eapply approx_weak; [apply (approx_add _ _ _ _ _ _ _ _ 2 One Sp0)| |]; [apply Rabs_le; lra|num|num|num]. }
  assert (D1 : approx (f64_add (f64_of_int 1) (m_sin M ph)) (1 + sin p) 2 29).
  { eapply approx_weak; [apply (approx_add _ _ _ _ _ _ _ _ 2 One Sp)| |]; [apply Rabs_le; lra|num|num|num]. }
  assert (Q : approx (f64_div (f64_add (f64_of_int 1) (m_sin M ph0)) (f64_add (f64_of_int 1) (m_sin M ph)))
                     ((1 + sin (60 * (PI / 180))) / (1 + sin p)) 2 89).
  { assert (HQ : Rabs ((1 + sin (60 * (PI / 180))) / (1 + sin p)) <= 2).
    { rewrite Rabs_pos_eq.
      - apply Rmult_le_reg_r with (1 + sin p); [lra|]. unfold Rdiv. rewrite Rmult_assoc, Rinv_l by lra. lra.
      - apply Rmult_le_pos; [lra|left; apply Rinv_0_lt_compat; lra]. }
    assert (Lb : 0.999 + 29 * U <= Rabs (1 + sin p)) by (rewrite Rabs_pos_eq; num).
    eapply approx_weak; [apply (approx_div _ _ _ _ _ _ _ _ 0.999 2 N1 D1 ltac:(lra) Lb HQ)| |]; num. }
  assert (ER : approx (earth_radius A) (earth_radius AR) 6400 3201).
  { eapply approx_weak; [apply (approx_lit 637004 2 6400); [lia|lia| |lra]| |]; [|num|num].
    change (IZR (10 ^ 2)) with 100. apply Rabs_le. lra. }
  assert (T1 : approx (f64_mul (earth_radius A) (f64_div (f64_add (f64_of_int 1) (m_sin M ph0)) (f64_add (f64_of_int 1) (m_sin M ph))))
                      (earth_radius AR * ((1 + sin (60 * (PI / 180))) / (1 + sin p))) 12800 600000).
  { eapply approx_weak; [apply (approx_mul _ _ _ _ _ _ _ _ ER Q)| |]; num. }
  assert (T2 : approx (f64_mul (f64_mul (earth_radius A) (f64_div (f64_add (f64_of_int 1) (m_sin M ph0)) (f64_add (f64_of_int 1) (m_sin M ph)))) (m_cos M ph))
                      (earth_radius AR * ((1 + sin (60 * (PI / 180))) / (1 + sin p)) * cos p) 12800 1000000).
  { eapply approx_weak; [apply (approx_mul _ _ _ _ _ _ _ _ T1 Cp)| |]; num. }
  exists (earth_radius AR * ((1 + sin (60 * (PI / 180))) / (1 + sin p)) * cos p), (sin l), (cos l).
  split; [exact T2|]. split; [eapply approx_weak; [exact Sl|lra|lra]|]. split; [eapply approx_weak; [exact Cl|lra|lra]|].
  split; reflexivity.
Qed.

Lemma wgs_approx north east n e : approx north n 90 50 -> approx east e 190 100 -> 0 <= n <= 90 -> -180 <= e <= 190 ->
  approx (fst (raw_wgs M north east)) (fst (wgs_plane n e)) 16000 2900000 /\
  approx (snd (raw_wgs M north east)) (snd (wgs_plane n e)) 16000 2900000.
Proof.
  intros Hn He Rn Re. unfold raw_wgs.
  change (f64_mul north (n_deg A)) with (rad A north).
  pose proof (approx_int 1 1 ltac:(lia) ltac:(rewrite Rabs_R1; lra)) as One.
  pose proof (approx_int 1000 1000 ltac:(lia) ltac:(rewrite Rabs_pos_eq; lra)) as Thou.
  pose proof (approx_int (-1000) 1000 ltac:(lia) ltac:(apply Rabs_le; lra)) as NThou.
  pose proof deg_approx as Dg.
  pose proof (rad_approx _ _ _ _ Hn ltac:(lra) ltac:(lra)) as Ph.
  assert (L0 : approx (p_lon_0 A) (10 * (PI / 180)) 0.3 0.4).
  { replace (10 * (PI / 180)) with (PI / 18) by field. eapply approx_weak; [apply (approx_pi 18 0.3)| |]; num. }
  pose proof (lon_approx (m_fused M AtLonX) _ _ _ _ He Re (approx_weak _ _ _ _ 0.3 10 L0 ltac:(lra) ltac:(lra))) as Dx.
  pose proof (lon_approx (m_fused M AtLonY) _ _ _ _ He Re (approx_weak _ _ _ _ 0.3 10 L0 ltac:(lra) ltac:(lra))) as Dy.
  assert (HP : approx (n_half_pi A) (PI / 2) 2 2.1).
  { eapply approx_weak; [apply (approx_pi 2 2)| |]; num. }
  assert (Hf : approx (n_lit A 5 1) (IZR 5 / IZR (10 ^ 1)) 0.5 0.3).
  { change (n_lit A 5 1) with (f64_lit 5 (- 1)).
    eapply approx_weak; [apply (approx_lit 5 1 0.5); [lia|lia| |lra]| |]; [|num|num]. change (IZR (10 ^ 1)) with 10. apply Rabs_le. lra. }
  assert (K0 : approx (p_k_0 A) (p_k_0 AR) 12000000 6000001).
  { eapply approx_weak; [apply (approx_lit 11862667042661695 9 12000000); [lia|lia| |lra]| |]; [|num|num].
    change (IZR (10 ^ 9)) with 1000000000. apply Rabs_le. lra. }
  assert (Ec : approx (p_ecc A) (p_ecc AR) 0.09 0.05).
  { eapply approx_weak; [apply (approx_lit 8181919084262032 17 0.09); [lia|lia| |lra]| |]; [|num|num].
    change (IZR (10 ^ 17)) with 100000000000000000. apply Rabs_le. lra. }
  assert (X0 : approx (p_x_0 A) (p_x_0 AR) 600000 300001).
  { eapply approx_weak; [apply (approx_lit 54319683521776402 11 600000); [lia|lia| |lra]| |]; [|num|num].
    change (IZR (10 ^ 11)) with 100000000000. apply Rabs_le. lra. }
  assert (Y0 : approx (p_y_0 A) (p_y_0 AR) 3700000 1850001).
  { eapply approx_weak; [apply (approx_lit 3622588861931001 9 3700000); [lia|lia| |lra]| |]; [|num|num].
    change (IZR (10 ^ 9)) with 1000000000. apply Rabs_le. lra. }
  assert (Er : 0.08 < p_ecc AR < 0.09) by exact ecc_range.
  assert (H5 : IZR 5 / IZR (10 ^ 1) = / 2) by (change (IZR (10 ^ 1)) with 10; lra).
  pose proof (sin_pos n Rn) as Sn. pose proof pi_upper as Hpi.
  (* the power *)
  assert (FP : 0.99 <= Rpower ((1 - p_ecc AR * sin (n * (PI / 180))) / (1 + p_ecc AR * sin (n * (PI / 180)))) (IZR 5 / IZR (10 ^ 1) * p_ecc AR)).
  { rewrite H5. replace (/ 2 * p_ecc AR) with (ecc / 2) by (change (p_ecc AR) with ecc; unfold Rdiv; ring). apply (flat_power n Rn). }
  change (n_ofZ A 1) with (f64_of_int 1). change (p_scale A) with (f64_of_int 1000).
  assert (EN : n_neg A (f64_of_int 1000) = f64_of_int (-1000)) by (vm_compute; reflexivity). rewrite EN.
  unfold wgs_plane, wgs_scale. cbn [fst snd].
  set (lam0 := p_lon_0 A) in *. set (ph := rad A north) in *. set (k0 := p_k_0 A) in *. set (ec := p_ecc A) in *.
  set (x0 := p_x_0 A) in *. set (y0 := p_y_0 A) in *. set (hf := n_lit A 5 1) in *. set (hp := n_half_pi A) in *. set (dg := n_deg A) in *.
  set (rk0 := p_k_0 AR) in *. set (rec := p_ecc AR) in *. set (rx0 := p_x_0 AR) in *. set (ry0 := p_y_0 AR) in *.
  set (rh := IZR 5 / IZR (10 ^ 1)) in *.
  pose proof (approx_sin M HM _ _ _ _ Dx ltac:(num)) as Sl. pose proof (approx_cos M HM _ _ _ _ Dy ltac:(num)) as Cl.
  set (l := e * (PI / 180) - 10 * (PI / 180)) in *. 
  assert (Rp : 0 <= n * (PI / 180) <= PI / 2) by nra.
  set (p := n * (PI / 180)) in *.
  assert (Ep : n * (PI / 180) = p) by reflexivity.
  match type of Sl with approx (m_sin M ?x) _ _ _ => set (dlx := x) in * end. match type of Cl with approx (m_cos M ?x) _ _ _ => set (dly := x) in * end.
  clearbody dlx dly lam0 ph k0 ec x0 y0 hf hp rk0 rec rx0 ry0 rh l p. clear EN.
  set (fc := m_fused M AtColat). set (fm := m_fused M AtEccMinus). set (fp := m_fused M AtEccPlus). set (fx := m_fused M AtFalseX). set (fy := m_fused M AtFalseY).
  (* the tangent *)
  assert (A1 : approx (sub_mul fc hp north dg) (PI / 2 - p) 1.6 14).
  { rewrite <- Ep in *. eapply approx_weak; [eapply (approx_sub_mul fc _ _ _ _ _ _ _ _ _ _ _ _ 10 1.6 Hn Dg HP)|lra|]; try (unfold mul_err; num). apply Rabs_le; lra. }
  assert (A2 : approx (f64_mul hf (sub_mul fc hp north dg)) (rh * (PI / 2 - p)) 0.8 9).
  { eapply approx_weak; [apply (approx_mul _ _ _ _ _ _ _ _ Hf A1)| |]; num. }
  assert (A3 : approx (m_tan M (f64_mul hf (sub_mul fc hp north dg))) (tan (rh * (PI / 2 - p))) 1 35).
  { eapply approx_weak; [apply (approx_tan M HM _ _ _ _ A2)| |]; [rewrite H5; lra|lra|lra|lra]. }
  assert (A4 : approx (f64_mul k0 (m_tan M (f64_mul hf (sub_mul fc hp north dg)))) (rk0 * tan (rh * (PI / 2 - p))) 12000000 450000000).
  { eapply approx_weak; [apply (approx_mul _ _ _ _ _ _ _ _ K0 A3)| |]; num. }
  (* the power *)
  pose proof (approx_sin M HM _ _ _ _ Ph ltac:(num)) as Sp.
  assert (Rs : 0 <= rec * sin p <= 0.09) by nra.
  assert (B2 : approx (sub_mul fm (f64_of_int 1) ec (m_sin M ph)) (1 - rec * sin p) 1 4).
  { eapply approx_weak; [eapply (approx_sub_mul fm _ _ _ _ _ _ _ _ _ _ _ _ 3 1 Ec Sp One)|lra|]; try (unfold mul_err; num). apply Rabs_le; lra. }
  assert (B3 : approx (add_mul fp (f64_of_int 1) ec (m_sin M ph)) (1 + rec * sin p) 1.1 4).
  { eapply approx_weak; [eapply (approx_add_mul fp _ _ _ _ _ _ _ _ _ _ _ _ 3 1.1 Ec Sp One)|lra|]; try (unfold mul_err; num). apply Rabs_le; lra. }
  assert (Rb : 0.8 <= (1 - rec * sin p) / (1 + rec * sin p) <= 1).
  { split.
    - apply Rmult_le_reg_r with (1 + rec * sin p); [lra|]. unfold Rdiv. rewrite (Rmult_assoc (1 - rec * sin p)), Rinv_l by lra. lra.
    - apply Rmult_le_reg_r with (1 + rec * sin p); [lra|]. unfold Rdiv. rewrite (Rmult_assoc (1 - rec * sin p)), Rinv_l by lra. lra. }
  assert (B4 : approx (f64_div (sub_mul fm (f64_of_int 1) ec (m_sin M ph)) (add_mul fp (f64_of_int 1) ec (m_sin M ph)))
                      ((1 - rec * sin p) / (1 + rec * sin p)) 1 9).
  { assert (HQ : Rabs ((1 - rec * sin p) / (1 + rec * sin p)) <= 1) by (apply Rabs_le; lra).
    assert (Lb : 0.999 + 4 * U <= Rabs (1 + rec * sin p)) by (rewrite Rabs_pos_eq; num).
    eapply approx_weak; [apply (approx_div _ _ _ _ _ _ _ _ 0.999 1 B2 B3 ltac:(lra) Lb HQ)| |]; num. }
  assert (B5 : approx (f64_mul hf ec) (rh * rec) 0.05 1).
  { eapply approx_weak; [apply (approx_mul _ _ _ _ _ _ _ _ Hf Ec)| |]; num. }
  assert (B6 : approx (m_pow M (f64_div (sub_mul fm (f64_of_int 1) ec (m_sin M ph)) (add_mul fp (f64_of_int 1) ec (m_sin M ph))) (f64_mul hf ec))
                      (Rpower ((1 - rec * sin p) / (1 + rec * sin p)) (rh * rec)) 1 20).
  { eapply approx_weak; [apply (approx_pow M HM _ _ _ _ _ _ _ _ B4 B5 Rb)| |]; [rewrite H5; lra|lra|lra|lra|lra]. }
  set (tn := tan (rh * (PI / 2 - p))) in *. set (pw := Rpower ((1 - rec * sin p) / (1 + rec * sin p)) (rh * rec)) in *.
  (* the distance from the pole *)
  assert (RS : Rabs (rk0 * tn / pw) <= 12200000).
  { destruct A4 as (_ & _ & HA & _). unfold Rdiv. rewrite Rabs_mult, Rabs_inv, (Rabs_pos_eq pw) by lra.
    assert (/ pw <= / 0.99) by (apply Rinv_le_contravar; lra). 
    apply Rle_trans with (12000000 * / 0.99); [|lra]. apply Rmult_le_compat; [apply Rabs_pos|left; apply Rinv_0_lt_compat; lra|assumption|assumption]. }
  match goal with H4 : approx ?x (rk0 * tn) _ _, H6 : approx ?y pw _ _ |- _ => 
    assert (SS : approx (f64_div x y) (rk0 * tn / pw) 12200000 750000000) end.
  { assert (Lb : 0.98 + 20 * U <= Rabs pw) by (rewrite Rabs_pos_eq; num).
    eapply approx_weak; [apply (approx_div _ _ _ _ _ _ _ _ 0.98 12200000 A4 B6 ltac:(lra) Lb RS)| |]; num. }
  set (sr := rk0 * tn / pw) in *. match type of SS with approx ?x _ _ _ => set (sf := x) in * end. 
  clearbody sr sf. clear A1 A2 A3 A4 B2 B3 B4 B5 B6.
  split.
  - assert (C2 : approx (add_mul fx x0 sf (m_sin M dlx)) (rx0 + sr * sin l) 12800000 1260000000).
    { pose proof SS as (_ & _ & b1 & _). pose proof Sl as (_ & _ & b3 & _). pose proof X0 as (_ & _ & b2 & _).
      eapply approx_weak; [eapply (approx_add_mul fx _ _ _ _ _ _ _ _ _ _ _ _ 1250000000 12800000 SS Sl X0)|lra|]; try (unfold mul_err; num).
      eapply Rle_trans; [apply Rabs_triang|]. rewrite Rabs_mult.
      assert (Rabs sr * Rabs (sin l) <= 12200000 * 1) by (apply Rmult_le_compat; [apply Rabs_pos|apply Rabs_pos|lra|lra]). lra. }
    assert (HQ : Rabs ((rx0 + sr * sin l) / 1000) <= 16000).
    { pose proof C2 as (_ & _ & b & _). unfold Rdiv. rewrite Rabs_mult, (Rabs_pos_eq (/ 1000)) by lra. lra. }
    assert (Lb : 999 + 0 * U <= Rabs 1000) by (rewrite Rabs_pos_eq; num).
    eapply approx_weak; [apply (approx_div _ _ _ _ _ _ _ _ 999 16000 C2 Thou ltac:(lra) Lb HQ)| |]; num.
  - assert (C2 : approx (sub_mul fy y0 sf (m_cos M dly)) (ry0 - sr * cos l) 15900000 1260000000).
    { pose proof SS as (_ & _ & b1 & _). pose proof Cl as (_ & _ & b3 & _). pose proof Y0 as (_ & _ & b2 & _).
      eapply approx_weak; [eapply (approx_sub_mul fy _ _ _ _ _ _ _ _ _ _ _ _ 1250000000 15900000 SS Cl Y0)|lra|]; try (unfold mul_err; num).
      eapply Rle_trans; [apply Rabs_triang|]. rewrite Rabs_Ropp, Rabs_mult.
      assert (Rabs sr * Rabs (cos l) <= 12200000 * 1) by (apply Rmult_le_compat; [apply Rabs_pos|apply Rabs_pos|lra|lra]). lra. }
    assert (HQ : Rabs ((ry0 - sr * cos l) / -1000) <= 16000).
    { pose proof C2 as (_ & _ & b & _). unfold Rdiv. rewrite Rabs_mult, Rabs_inv, (Rabs_left (-1000)) by lra. replace (- (-1000)) with 1000 by lra. lra. }
    assert (Lb : 999 + 0 * U <= Rabs (-1000)) by (rewrite Rabs_left; num).
    eapply approx_weak; [apply (approx_div _ _ _ _ _ _ _ _ 999 16000 C2 NThou ltac:(lra) Lb HQ)| |]; num.
Qed.

Lemma approx_zero : approx (S754_zero false) 0 0 0.
Proof. apply approx_of_value; [reflexivity|reflexivity|rewrite Rabs_R0; lra]. Qed.

(** The coordinates minus an offset. *)
Lemma plane_approx w north east n e ox oy X Y B g Q h : approx north n 90 50 -> approx east e 190 100 -> 0 <= n <= 90 -> -180 <= e <= 190 ->
  approx ox X B g -> approx oy Y B g -> Rabs X <= B -> Rabs Y <= B -> 16000 + B <= Q -> Q <= 32000 -> g <= 3000000 ->
  2900000 + g + Q <= h ->
  approx (raw_x M w north east ox) (fst (code_plane w n e) - X) Q h /\
  approx (raw_y M w north east oy) (snd (code_plane w n e) - Y) Q h /\
  Rabs (fst (code_plane w n e)) <= 16000 /\ Rabs (snd (code_plane w n e)) <= 16000.
Proof.
  intros H1 H2 H3 H4 Hx Hy BX BY HQ HQ' Hg Hh. unfold raw_x, raw_y, code_plane. 
  destruct (approx_bound _ _ _ _ Hx) as [PB Pg]. destruct w.
  - destruct (wgs_approx _ _ _ _ H1 H2 H3 H4) as [W1 W2]. pose proof W1 as (_ & _ & b1 & _). pose proof W2 as (_ & _ & b2 & _).
    split; [|split; [|split; assumption]].
    + eapply approx_weak; [apply (approx_sub _ _ _ _ _ _ _ _ Q W1 Hx)|lra|]; [|num|num]. 
      eapply Rle_trans; [apply Rabs_triang|]. rewrite Rabs_Ropp. lra.
    + eapply approx_weak; [apply (approx_sub _ _ _ _ _ _ _ _ Q W2 Hy)|lra|]; [|num|num]. 
      eapply Rle_trans; [apply Rabs_triang|]. rewrite Rabs_Ropp. lra.
  - destruct (sphere_approx _ _ _ _ H1 H2 H3 H4) as (d & s & c & S1 & S2 & S3 & E1 & E2). 
    pose proof S1 as (_ & _ & b1 & _). pose proof S2 as (_ & _ & b2 & _). pose proof S3 as (_ & _ & b3 & _).
    assert (b4 : Rabs (d * s) <= 16000).
    { rewrite Rabs_mult. apply Rle_trans with (12800 * 1); [apply Rmult_le_compat; try apply Rabs_pos; lra|lra]. }
    assert (b5 : Rabs (d * c) <= 16000).
    { rewrite Rabs_mult. apply Rle_trans with (12800 * 1); [apply Rmult_le_compat; try apply Rabs_pos; lra|lra]. }
    assert (G1 : approx (mul_sub (m_fused M AtSphereX) (sphere_dist M north) (sphere_sin M east) ox) (d * s - X) Q h).
    { eapply approx_weak; [eapply (approx_mul_sub _ _ _ _ _ _ _ _ _ _ _ _ _ 2800000 Q S1 S2 Hx)|lra|]; try (unfold mul_err; num).
      eapply Rle_trans; [apply Rabs_triang|]. rewrite Rabs_Ropp. lra. }
    assert (G2 : approx (mul_sub (m_fused M AtSphereY) (sphere_dist M north) (sphere_cos M east) oy) (d * c - Y) Q h).
    { eapply approx_weak; [eapply (approx_mul_sub _ _ _ _ _ _ _ _ _ _ _ _ _ 2800000 Q S1 S3 Hy)|lra|]; try (unfold mul_err; num).
      eapply Rle_trans; [apply Rabs_triang|]. rewrite Rabs_Ropp. lra. }
    rewrite E1 in b4, G1. rewrite E2 in b5, G2. exact (conj G1 (conj G2 (conj b4 b5))).
Qed.
Lemma approx_div_one x r B e : approx x r B e -> approx (f64_div x (f64_of_int 1)) r B e.
Proof.
  intros (Vx & Ex & Bx & v & Xv & Dv). split; [exact (valid_div _ _ Vx (valid_of_int 1))|]. pose proof (div_one _ v Vx Xv). eauto 10.
Qed.
(** The offset of the calibration. *)
Lemma origin_approx w north east n e : approx north n 90 50 -> approx east e 190 100 -> 0 <= n <= 90 -> -180 <= e <= 190 ->
  approx (f64_div (raw_x M w north east (S754_zero false)) (f64_of_int 1)) (fst (code_plane w n e)) 16000 3000000 /\
  approx (f64_div (raw_y M w north east (S754_zero false)) (f64_of_int 1)) (snd (code_plane w n e)) 16000 3000000.
Proof.
  intros H1 H2 H3 H4.
  destruct (plane_approx w north east n e (S754_zero false) (S754_zero false) 0 0 0 0 16000 3000000 H1 H2 H3 H4 approx_zero approx_zero) as (P1 & P2 & _);
    try (rewrite ?Rabs_R0; lra).
  rewrite Rminus_0_r in P1, P2. split; now apply approx_div_one.
Qed.
End Plane.

(** * The extent of the documented grids *)
Lemma sphere_const_lower : 11800 <= 6370.04 * (1 + sin (radians 60)).
Proof.
  replace (radians 60) with (PI / 3) by (unfold radians; field). rewrite sin_PI3.
  assert (1.73 <= sqrt 3). { apply Rsqr_incr_0_var; [|apply sqrt_pos]. unfold Rsqr. rewrite sqrt_sqrt by lra. lra. }
  lra.
Qed.
Lemma tan_ge_sin x : 0 <= x < PI / 2 -> sin x <= tan x.
Proof.
  intros H. pose proof PI_RGT_0. assert (0 < cos x) by (apply cos_gt_0; lra). assert (0 <= sin x) by (apply sin_ge_0; lra).
  pose proof (COS_bound x). unfold tan, Rdiv. rewrite <- (Rmult_1_r (sin x)) at 1. apply Rmult_le_compat_l; [assumption|].
  rewrite <- Rinv_1. apply Rinv_le_contravar; lra.
Qed.
Lemma distance_lower format n d : 0 <= n <= 57 -> 0 <= d <= 0.5 -> d <= colat n -> 11800 * (d - d * d * d / 6) <= pole_distance format n.
Proof.
  intros Hn Hd Hc. pose proof (colat_range n ltac:(lra)) as Cn. pose proof pi_upper.
  assert (T : d - d * d * d / 6 <= tan (colat n)).
  { eapply Rle_trans; [apply sin_lower; lra|]. eapply Rle_trans; [apply tan_ge_sin; lra|].
    destruct (Req_dec d (colat n)) as [<-|Hne]; [lra|]. left. apply tan_increasing; lra. }
  assert (T0 : 0 <= d - d * d * d / 6) by nra.
  unfold pole_distance. destruct (5 <=? format)%Z.
  - rewrite ellipsoid_eq. pose proof (flat_power n ltac:(lra)) as F. apply Rmult_le_compat; [lra|assumption|lra|].
    eapply Rle_trans; [exact T|]. unfold Rdiv. rewrite <- (Rmult_1_r (tan _)) at 1. apply Rmult_le_compat_l; [lra|].
    rewrite <- Rinv_1. apply Rinv_le_contravar; lra.
  - unfold sphere_radius. fold (colat n). apply Rmult_le_compat; [lra|assumption|apply sphere_const_lower|assumption].
Qed.

Lemma spans format size nw se : documented_corners size (5 <=? format)%Z nw se ->
  400 <= fst (plane format (fst se) (snd se)) - fst (plane format (fst nw) (snd nw)) /\
  400 <= snd (plane format (fst se) (snd se)) - snd (plane format (fst nw) (snd nw)).
Proof.
  intros H. destruct (corner_range _ _ _ _ H) as (R1 & R2 & R3 & R3' & R4 & R5).
  destruct nw as [n l], se as [m r]. cbn [fst snd] in *. unfold plane. cbn [fst snd]. pose proof pi_upper as Hpi. split.
  - pose proof (distance_lower format n 0.28 ltac:(lra) ltac:(lra) ltac:(unfold colat, radians; nra)) as Dn.
    pose proof (distance_lower format m 0.35 ltac:(lra) ltac:(lra) ltac:(unfold colat, radians; nra)) as Dm.
    assert (S1 : 0.069 <= sin (radians (r - 10))).
    { assert (L : 0.0695 <= radians (r - 10) <= 1) by (unfold radians; nra). pose proof (sin_lower 0.0695 ltac:(lra)).
      assert (sin 0.0695 <= sin (radians (r - 10))) by (apply sin_incr_1; lra). lra. }
    assert (S2 : sin (radians (l - 10)) <= - 0.1).
    { rewrite <- (Ropp_involutive (radians (l - 10))), sin_neg. 
      assert (L : 0.104 <= - radians (l - 10) <= 1) by (unfold radians; nra). pose proof (sin_lower 0.104 ltac:(lra)).
      assert (sin 0.104 <= sin (- radians (l - 10))) by (apply sin_incr_1; lra). lra. }
    nra.
  - pose proof (lon_cos r ltac:(lra)) as Cr. pose proof (COS_bound (radians (l - 10))) as [_ Cl].
    pose proof (COS_bound (radians (r - 10))) as [_ Cr1].
    pose proof (pole_distance_pos format n ltac:(lra)) as Pn. pose proof (pole_distance_pos format m ltac:(lra)) as Pm.
    pose proof (tan_growth m n ltac:(lra) ltac:(lra) ltac:(lra)) as G.
    pose proof (tan_colat_le_1 n ltac:(lra)) as T1. pose proof (tan_colat_pos n ltac:(lra)) as T0.
    pose proof (tan_colat_le_1 m ltac:(lra)) as U1. pose proof (tan_colat_pos m ltac:(lra)) as U0.
    unfold radians in G.
    set (b := cos (radians (l - 10))) in *. set (a := cos (radians (r - 10))) in *. clearbody a b.
    assert (Hb : pole_distance format n * b <= pole_distance format n) by nra.
    assert (Ha : pole_distance format m * 0.98 <= pole_distance format m * a) by nra.
    apply Rle_trans with (pole_distance format m * 0.98 - pole_distance format n); [|lra].
    clear Hb Ha. unfold pole_distance in *. destruct (5 <=? format)%Z.
    + rewrite !ellipsoid_eq. pose proof (flat_power n ltac:(lra)) as Bn. pose proof (flat_power m ltac:(lra)) as Bm.
      set (B := Rpower (flat n) (ecc / 2)) in *. set (D := Rpower (flat m) (ecc / 2)) in *. specialize (R3' eq_refl).
      assert (Q : 0.08 <= tan (colat m) - tan (colat n)) by nra. set (t := tan (colat n)) in *. set (w := tan (colat m)) in *. clearbody B D t w.
      assert (X1 : t / B <= t / 0.99). { unfold Rdiv. apply Rmult_le_compat_l; [lra|]. apply Rinv_le_contravar; lra. }
      assert (X2 : w <= w / D). { unfold Rdiv. rewrite <- (Rmult_1_r w) at 1. apply Rmult_le_compat_l; [lra|]. rewrite <- Rinv_1. apply Rinv_le_contravar; lra. }
      lra.
    + unfold sphere_radius. pose proof sphere_const_lower as Hk. fold (colat n) (colat m). set (k := 6370.04 * (1 + sin (radians 60))) in *. 
      assert (Q : 0.06 <= tan (colat m) - tan (colat n)) by nra. set (t := tan (colat n)) in *. set (w := tan (colat m)) in *.
      clearbody k t w. nra.
Qed.

(** * One axis: coordinates [b] of the south-east corner and [c] of the point,
    relative to the north-west corner; [n] is the dimension. *)
Lemma u_upper : u <= 2.3 / 10 ^ 16.
Proof.
  unfold u. change (bpow radix2 (-52)) with (/ IZR (2 ^ 52)). change (2 ^ 52)%Z with 4503599627370496%Z. lra.
Qed.
Lemma axis_accuracy b c n (s g k : R) :
  approx b s 32000 6100000 -> approx c g 32000 6100000 ->
  400 <= s -> valid64 n -> is_value n k -> 1 <= k < bpow radix2 1000 ->
  let r := f64_div (f64_div b (f64_of_int 1)) n in
  exists x rr, is_value (f64_div c r) x /\ is_value r rr /\
    Rabs (x - k * (g / s)) <= k / 10 ^ 9 /\
    Rabs (rr * k - s) <= 2 / 10 ^ 9 /\ Rabs (x * rr - g) <= 2 / 10 ^ 9.
Proof.
  intros HD HN Hs Vn Hn Hk r.
  destruct HD as (VD & _ & BD & d & XD & ED). destruct HN as (VN & _ & BN & v & XN & EN).
  pose proof u_small as Hu. pose proof u_upper as Hu'.
  assert (Md : 6100000 * u <= / 10 ^ 6) by lra.
  apply Rabs_le_inv in BD, BN. pose proof (Rabs_le_inv _ _ ED) as ID. pose proof (Rabs_le_inv _ _ EN) as IN.
  assert (Pd : 399 <= d <= 32001) by lra. assert (Pv : -32001 <= v <= 32001) by lra.
  (* the resolution *)
  assert (V1 : valid64 (f64_div b (f64_of_int 1))) by exact (valid_div _ _ VD (valid_of_int 1)).
  assert (Vr : valid64 r) by exact (valid_div _ _ V1 Vn).
  pose proof (div64 _ n d k V1 Vn (div_one _ d VD XD) Hn ltac:(lra)) as R1. fold r in R1.
  assert (Ik : 0 < / k <= 1). { split; [apply Rinv_0_lt_compat; lra|]. rewrite <- Rinv_1. apply Rinv_le_contravar; lra. }
  assert (Lq : bpow radix2 (-1022) <= Rabs (d / k)).
  { rewrite Rabs_pos_eq by (apply Rmult_le_pos; lra). apply Rle_trans with (1 * / k); [|apply Rmult_le_compat_r; lra].
    rewrite Rmult_1_l. apply Rle_trans with (bpow radix2 (-1000)); [apply bpow_le; lia|].
    change (-1000)%Z with (- (1000))%Z. rewrite bpow_opp. apply Rinv_le_contravar; lra. }
  destruct (rel64 _ Lq) as (e1 & B1 & G1). apply Rabs_le_inv in B1.
  assert (B1' : - u <= e1 <= u).
  { assert (bpow radix2 (-53) <= u) by (apply bpow_le; lia). lra. }
  assert (Hr : is_value r (d / k * (1 + e1))).
  { rewrite <- G1. apply (result_value _ _ _ _ R1). apply no_overflow. rewrite Rabs_pos_eq by (apply Rmult_le_pos; lra).
    apply Rle_trans with (32001 * 1); [apply Rmult_le_compat; lra|lra]. }
  assert (Nr : d / k * (1 + e1) <> 0).
  { apply Rgt_not_eq. apply Rmult_lt_0_compat; [|lra]. apply Rmult_lt_0_compat; lra. }
  pose proof (div64 _ r v _ VN Vr XN Hr Nr) as R2.
  set (t := v / (d * (1 + e1))).
  assert (Et : v / (d / k * (1 + e1)) = k * t) by (unfold t; field; repeat split; lra). rewrite Et in R2.
  (* the exact quotient *)
  assert (Bt : Rabs (g / s) <= 80).
  { unfold Rdiv. rewrite Rabs_mult, (Rabs_pos_eq (/ s)) by (left; apply Rinv_0_lt_compat; lra).
    assert (/ s <= / 400) by (apply Rinv_le_contravar; lra). assert (Rabs g <= 32000) by (apply Rabs_le; lra).
    apply Rle_trans with (32000 * / 400); [|lra]. apply Rmult_le_compat; [apply Rabs_pos|left; apply Rinv_0_lt_compat; lra|assumption|assumption]. }
  set (D := d * (1 + e1)). assert (PD : 398 <= D) by (unfold D; nra).
  assert (ED' : Rabs (D - s) <= 6140000 * u).
  { unfold D. replace (d * (1 + e1) - s) with ((d - s) + d * e1) by ring. eapply Rle_trans; [apply Rabs_triang|]. rewrite Rabs_mult, (Rabs_pos_eq d) by lra.
    assert (Rabs e1 <= u) by (apply Rabs_le; lra). assert (d * Rabs e1 <= 32001 * u) by (apply Rmult_le_compat; [lra|apply Rabs_pos|lra|assumption]). lra. }
  assert (Tt : Rabs (t - g / s) <= 1280000 * u).
  { unfold t. fold D. replace (v / D - g / s) with (((v - g) - g / s * (D - s)) * / D) by (field; lra).
    rewrite Rabs_mult, (Rabs_pos_eq (/ D)) by (left; apply Rinv_0_lt_compat; lra).
    assert (X : Rabs (v - g - g / s * (D - s)) <= 6100000 * u + 80 * (6140000 * u)).
    { eapply Rle_trans; [apply Rabs_triang|]. rewrite Rabs_Ropp, Rabs_mult. apply Rplus_le_compat; [assumption|].
      apply Rmult_le_compat; [apply Rabs_pos|apply Rabs_pos|assumption|assumption]. }
    assert (Y : / D <= / 398) by (apply Rinv_le_contravar; lra).
    apply Rle_trans with ((6100000 * u + 80 * (6140000 * u)) * / 398); [|lra].
    apply Rmult_le_compat; [apply Rabs_pos|left; apply Rinv_0_lt_compat; lra|assumption|assumption]. }
  assert (Bt' : Rabs t <= 81).
  { replace t with (g / s + (t - g / s)) by ring. eapply Rle_trans; [apply Rabs_triang|]. lra. }
  assert (Bkt : Rabs (k * t) <= k * 81) by (rewrite Rabs_mult, (Rabs_pos_eq k) by lra; apply Rmult_le_compat_l; lra).
  pose proof (rnd_err (k * t)) as Re.
  assert (Re' : Rabs (rnd64 (k * t) - k * t) <= k * (50 * u)).
  { eapply Rle_trans; [exact Re|]. replace (k * (50 * u)) with (k * 50 * u) by ring. apply Rmult_le_compat_r; [lra|]. unfold tiny. lra. }
  exists (rnd64 (k * t)), (d / k * (1 + e1)). split; [|split; [exact Hr|split; [|split]]].
  - apply (result_value _ _ _ _ R2). fold rnd64.
    apply Rle_lt_trans with (k * 82).
    + replace (rnd64 (k * t)) with ((rnd64 (k * t) - k * t) + k * t) by ring. eapply Rle_trans; [apply Rabs_triang|].
      assert (k * (50 * u) <= k * 1) by (apply Rmult_le_compat_l; lra). lra.
    + apply Rlt_trans with (bpow radix2 1000 * bpow radix2 10); [|rewrite <- bpow_plus; apply bpow_lt; reflexivity].
      apply Rle_lt_trans with (bpow radix2 1000 * 82); [apply Rmult_le_compat_r; lra|].
      apply Rmult_lt_compat_l; [apply bpow_gt_0|]. change (bpow radix2 10) with 1024. lra.
  - replace (rnd64 (k * t) - k * (g / s)) with ((rnd64 (k * t) - k * t) + k * (t - g / s)) by ring.
    eapply Rle_trans; [apply Rabs_triang|]. rewrite (Rabs_mult k), (Rabs_pos_eq k) by lra.
    assert (k * Rabs (t - g / s) <= k * (1280000 * u)) by (apply Rmult_le_compat_l; lra).
    apply Rle_trans with (k * (50 * u) + k * (1280000 * u)); [lra|].
    replace (k * (50 * u) + k * (1280000 * u)) with (k * (1280050 * u)) by ring. unfold Rdiv. apply Rmult_le_compat_l; lra.
  - replace (d / k * (1 + e1) * k) with D by (unfold D; field; lra). lra.
  - set (rr := d / k * (1 + e1)) in *.
    assert (Prr : 0 < rr <= 32002).
    { unfold rr. split; [apply Rmult_lt_0_compat; [apply Rmult_lt_0_compat; lra|lra]|].
      apply Rle_trans with (32001 * 1 * (1 + u)); [|lra]. apply Rmult_le_compat; [|lra| |lra].
      - apply Rmult_le_pos; lra.
      - apply Rmult_le_compat; lra. }
    assert (Ekt : k * t * rr = v) by (rewrite <- Et; field; lra).
    replace (rnd64 (k * t) * rr - g) with ((rnd64 (k * t) - k * t) * rr + (v - g)) by (rewrite <- Ekt; ring).
    eapply Rle_trans; [apply Rabs_triang|]. rewrite (Rabs_mult _ rr), (Rabs_pos_eq rr) by lra.
    assert (Q : Rabs (rnd64 (k * t) - k * t) * rr <= (Rabs v / 2 + tiny * rr) * u).
    { apply Rle_trans with ((Rabs (k * t) / 2 + tiny) * u * rr); [apply Rmult_le_compat_r; [lra|assumption]|].
      right. rewrite <- Ekt at 1. rewrite (Rabs_mult (k * t) rr), (Rabs_pos_eq rr) by lra. field. }
    assert (Rabs v <= 32001) by (apply Rabs_le; lra).
    assert ((Rabs v / 2 + tiny * rr) * u <= 16002 * u).
    { apply Rmult_le_compat_r; [lra|]. unfold tiny. lra. }
    lra.
Qed.

(** The float64 constants of the corners. *)
Lemma corner_values size b nw se nwR seR : float_corners size b nw se -> documented_corners size b nwR seR ->
  (approx (fst nw) (fst nwR) 90 50 /\ approx (snd nw) (snd nwR) 190 100) /\
  (approx (fst se) (fst seR) 90 50 /\ approx (snd se) (snd seR) 190 100).
Proof.
  assert (P : forall m k x, (Z.abs m <> 0)%Z -> (0 <= k)%Z -> x = IZR m / IZR (10 ^ k) -> Rabs x <= 90 -> approx (deg m k) x 90 50).
  { intros m k x Hm Hk -> Hx. unfold deg. eapply approx_weak; [apply (approx_lit m k 90)| |]; try assumption; num. }
  assert (P' : forall m k x, (Z.abs m <> 0)%Z -> (0 <= k)%Z -> x = IZR m / IZR (10 ^ k) -> Rabs x <= 90 -> approx (deg m k) x 190 100).
  { intros m k x Hm Hk E Hx. eapply approx_weak; [now apply P|lra|lra]. }
  intros HF HD. 
  destruct HF; inversion HD; subst; cbn [fst snd]; (split; split); (apply P || apply P'); try lia; try reflexivity; try (apply Rabs_le; lra).
Qed.

Lemma units k d : (0 <= k <= 52)%Z -> powerRZ 2 (52 - k) = d -> powerRZ 2 (- k) = d * u.
Proof.
  intros Hk <-. unfold u. rewrite bpow_powerRZ. change (IZR radix2) with 2. rewrite <- powerRZ_add by lra. f_equal. lia.
Qed.
Lemma within_approx k d x r B e : (0 <= k <= 52)%Z -> powerRZ 2 (52 - k) = d -> d <= e -> Rabs r <= B ->
  within (powerRZ 2 (- k)) x r -> approx x r B e.
Proof.
  intros Hk Hd He HB (Hv & v & Xv & Dv). rewrite (units k d Hk Hd) in Dv. pose proof u_small.
  assert (0 <= d) by (rewrite <- Hd; apply powerRZ_le; lra).
  split; [assumption|]. split; [lra|]. split; [assumption|]. exists v. split; [assumption|]. nra.
Qed.

Lemma quotient_bound g a s : Rabs a <= 16000 -> Rabs g <= 16000 -> 400 <= s -> Rabs ((g - a) / s) <= 80.
Proof.
  intros H1 H2 H3. apply Rabs_le_inv in H1, H2. assert (Rabs (g - a) <= 32000) by (apply Rabs_le; lra).
  unfold Rdiv. rewrite Rabs_mult, (Rabs_pos_eq (/ s)) by (left; apply Rinv_0_lt_compat; lra).
  assert (/ s <= / 400) by (apply Rinv_le_contravar; lra).
  apply Rle_trans with (32000 * / 400); [|lra]. apply Rmult_le_compat; [apply Rabs_pos|left; apply Rinv_0_lt_compat; lra|assumption|assumption].
Qed.
Lemma accuracy_approx M (c : composite (num (arith64 M))) size nw se nwR seR north east n e :
  accurate_library (powerRZ 2 (-48)) M -> on_float_grid M c size nw se -> documented_corners size (5 <=? c_format c)%Z nwR seR ->
  approx north n 90 50 -> approx east e 190 100 -> 0 <= n <= 90 -> -180 <= e <= 190 ->
  let p := project (arith64 M) c north east in let q := exact_fraction (c_format c) nwR seR n e in
  exists x y, is_value (fst p) x /\ is_value (snd p) y /\
    Rabs (x - IZR (c_dx c) * fst q) <= IZR (c_dx c) / 10 ^ 9 /\
    Rabs (y - IZR (c_dy c) * snd q) <= IZR (c_dy c) / 10 ^ 9 /\
    Rabs (fst q) <= 80 /\ Rabs (snd q) <= 80 /\
    exists rx ry, is_value (c_rx c) rx /\ is_value (c_ry c) ry /\
      (let P := plane (c_format c) n e in let N := plane (c_format c) (fst nwR) (snd nwR) in let S := plane (c_format c) (fst seR) (snd seR) in
       Rabs (rx * IZR (c_dx c) - (fst S - fst N)) <= 2 / 10 ^ 9 /\ Rabs (ry * IZR (c_dy c) - (snd S - snd N)) <= 2 / 10 ^ 9 /\
       Rabs (x * rx - (fst P - fst N)) <= 2 / 10 ^ 9 /\ Rabs (y * ry - (snd P - snd N)) <= 2 / 10 ^ 9).
Proof.
  intros HM0 Hg Hd An Ae Rn Re. cbv zeta.
  assert (HM : accurate_library (16 * u) M).
  { replace (16 * u) with (powerRZ 2 (-48)); [assumption|]. unfold u. rewrite bpow_powerRZ. change (IZR radix2) with 2.
    change (-48)%Z with (4 + -52)%Z. rewrite powerRZ_add by lra. replace (powerRZ 2 4) with 16 by (simpl; lra). reflexivity. }
  pose proof (float_grid M c size nw se Hg) as (w & ch & Ew & Ec & Hw & E1 & E2 & Hi & V1 & V2 & V3 & V4).
  destruct Hg as (_ & Hr & Hf). destruct (resampled_float _ _ _ _ _ _ Hf Hi Hr) as (I1 & I2 & I3 & I4).
  pose proof (fixed_raw M (fst nw) (snd nw) (fst se) (snd se) ch w Hw) as F. cbv zeta in F.
  rewrite <- Ec in F. destruct F as (F1 & F2 & F3 & F4 & F5 & F6). rewrite E1 in F5. rewrite E2 in F6.
  rewrite project_raw by assumption. rewrite F2, F3, F4. cbn [fst snd]. rewrite F5, F6.
  destruct (corner_values _ _ _ _ _ _ Hf Hd) as ((C1 & C2) & (C3 & C4)).
  destruct (corner_range _ _ _ _ Hd) as (R1 & R2 & R3 & _ & R4 & R5).
  destruct (spans _ _ _ _ Hd) as [S1 S2].
  destruct (origin_approx M HM w _ _ _ _ C1 C2 ltac:(lra) ltac:(lra)) as [A1 A2].
  pose proof A1 as (_ & _ & b1 & _). pose proof A2 as (_ & _ & b2 & _).
  destruct (plane_approx M HM w _ _ _ _ _ _ _ _ 16000 3000000 32000 6100000 C3 C4 ltac:(lra) ltac:(lra) A1 A2 b1 b2 ltac:(lra) ltac:(lra) ltac:(lra) ltac:(lra)) as (B1 & B2 & _).
  destruct (plane_approx M HM w _ _ _ _ _ _ _ _ 16000 3000000 32000 6100000 An Ae ltac:(lra) ltac:(lra) A1 A2 b1 b2 ltac:(lra) ltac:(lra) ltac:(lra) ltac:(lra)) as (P1 & P2 & b3 & b4).
  unfold exact_fraction. cbv zeta. cbn [fst snd]. subst w.
  destruct (plane_diff (c_format c) n e (fst nwR) (snd nwR) ltac:(lra) ltac:(lra)) as [<- <-].
  destruct (plane_diff (c_format c) (fst seR) (snd seR) (fst nwR) (snd nwR) ltac:(lra) ltac:(lra)) as [T1 T2].
  rewrite <- T1 in S1 |- *. rewrite <- T2 in S2 |- *.
  destruct (axis_accuracy _ _ _ _ _ _ B1 P1 S1 (valid_of_int _) I1 I3) as (x & rx & X1 & X3 & X2 & X4 & X5).
  destruct (axis_accuracy _ _ _ _ _ _ B2 P2 S2 (valid_of_int _) I2 I4) as (y & ry & Y1 & Y3 & Y2 & Y4 & Y5).
  exists x, y. split; [exact X1|]. split; [exact Y1|]. split; [exact X2|]. split; [exact Y2|].
  split; [apply quotient_bound; assumption|]. split; [apply quotient_bound; assumption|].
  exists rx, ry. auto 10.
Qed.

Lemma accuracy_bounded M (c : composite (num (arith64 M))) size nw se nwR seR north east n e :
  accurate_library (powerRZ 2 (-48)) M -> on_float_grid M c size nw se -> documented_corners size (5 <=? c_format c)%Z nwR seR ->
  within (powerRZ 2 (-47)) north n -> within (powerRZ 2 (-46)) east e -> 0 <= n <= 90 -> -180 <= e <= 190 ->
  let p := project (arith64 M) c north east in let q := exact_fraction (c_format c) nwR seR n e in
  exists x y, is_value (fst p) x /\ is_value (snd p) y /\
    Rabs (x - IZR (c_dx c) * fst q) <= IZR (c_dx c) / 10 ^ 9 /\
    Rabs (y - IZR (c_dy c) * snd q) <= IZR (c_dy c) / 10 ^ 9 /\
    Rabs (fst q) <= 80 /\ Rabs (snd q) <= 80 /\
    exists rx ry, is_value (c_rx c) rx /\ is_value (c_ry c) ry /\
      (let P := plane (c_format c) n e in let N := plane (c_format c) (fst nwR) (snd nwR) in let S := plane (c_format c) (fst seR) (snd seR) in
       Rabs (rx * IZR (c_dx c) - (fst S - fst N)) <= 2 / 10 ^ 9 /\ Rabs (ry * IZR (c_dy c) - (snd S - snd N)) <= 2 / 10 ^ 9 /\
       Rabs (x * rx - (fst P - fst N)) <= 2 / 10 ^ 9 /\ Rabs (y * ry - (snd P - snd N)) <= 2 / 10 ^ 9).
Proof.
  intros HM0 Hg Hd Wn We Rn Re.
  pose proof (within_approx 47 32 north n 90 50 ltac:(lia) ltac:(simpl; lra) ltac:(lra) ltac:(apply Rabs_le; lra) Wn) as An.
  pose proof (within_approx 46 64 east e 190 100 ltac:(lia) ltac:(simpl; lra) ltac:(lra) ltac:(apply Rabs_le; lra) We) as Ae.
  now apply accuracy_approx with (size := size) (nw := nw) (se := se).
Qed.

(** C54: with a math library accurate to 2^-48, every point of the northern
    hemisphere is projected to within 10^-9 of the width (height) of the grid
    of its exact position.  (Coordinates rounded to the nearest float64 are within
    2^-47 and 2^-46 degrees of the given ones.) *)
Theorem C54_accuracy M (c : composite (num (arith64 M))) size nw se nwR seR north east n e :
  accurate_library (powerRZ 2 (-48)) M -> on_float_grid M c size nw se -> documented_corners size (5 <=? c_format c)%Z nwR seR ->
  within (powerRZ 2 (-47)) north n -> within (powerRZ 2 (-46)) east e -> 0 <= n <= 90 -> -180 <= e <= 190 ->
  let p := project (arith64 M) c north east in let q := exact_fraction (c_format c) nwR seR n e in
  exists x y, is_value (fst p) x /\ is_value (snd p) y /\
    Rabs (x - IZR (c_dx c) * fst q) <= IZR (c_dx c) / 10 ^ 9 /\
    Rabs (y - IZR (c_dy c) * snd q) <= IZR (c_dy c) / 10 ^ 9.
Proof.
  intros. cbv zeta. destruct (accuracy_bounded M c size nw se nwR seR north east n e) as (x & y & H8 & H9 & H10 & H11 & _); try assumption.
  exists x, y. auto.
Qed.

(** C34, whatever the compiler fuses: the north-west corner is projected to
    within 10^-9 of the width (height) of the grid of (0, 0).  (Exactly to (0, 0)
    where the subtraction of the offset is not fused: [C34_float_nw].) *)
Theorem C34_float_nw_fused M (c : composite (num (arith64 M))) size nw se nwR seR :
  accurate_library (powerRZ 2 (-48)) M -> on_float_grid M c size nw se -> documented_corners size (5 <=? c_format c)%Z nwR seR ->
  let p := project (arith64 M) c (fst nw) (snd nw) in
  exists x y, is_value (fst p) x /\ is_value (snd p) y /\
    Rabs x <= IZR (c_dx c) / 10 ^ 9 /\ Rabs y <= IZR (c_dy c) / 10 ^ 9.
Proof.
  intros HM Hg Hd. cbv zeta. pose proof Hg as (_ & _ & Hf). destruct (corner_values _ _ _ _ _ _ Hf Hd) as ((C1 & C2) & _).
  destruct (corner_range _ _ _ _ Hd) as (R1 & R2 & R3 & _ & R4 & R5).
  destruct (accuracy_approx M c size nw se nwR seR _ _ _ _ HM Hg Hd C1 C2 ltac:(lra) ltac:(lra)) as (x & y & X & Y & Dx & Dy & _).
  unfold exact_fraction in Dx, Dy. cbv zeta in Dx, Dy. cbn [fst snd] in Dx, Dy. 
  rewrite Rminus_eq_0 in Dx, Dy. unfold Rdiv at 1 in Dx. unfold Rdiv at 1 in Dy. rewrite Rmult_0_l, Rmult_0_r, Rminus_0_r in Dx, Dy.
  exists x, y. auto.
Qed.

(** * The hypotheses are met by the correctly rounded library *)
Definition round64 (r : R) : f64 :=
  SpecFloat.binary_normalize prec64 emax64 (ZnearestE (scaled_mantissa radix2 (FLT_exp (3 - emax64 - prec64) prec64) r))
    (cexp radix2 (FLT_exp (3 - emax64 - prec64) prec64) r) false.
Definition correct : mathlib := {|
  m_sin := fun x => round64 (sin (SF2R radix2 x));
  m_cos := fun x => round64 (cos (SF2R radix2 x));
  m_tan := fun x => round64 (tan (SF2R radix2 x));
  m_pow := fun x y => round64 (Rpower (SF2R radix2 x) (SF2R radix2 y));
  m_fused := fun _ => false |}.

Lemma round64_within r : Rabs r <= 4 -> within (16 * u) (round64 r) r.
Proof.
  intros H. pose proof (normalize_result prec64 emax64 _ _ (ZnearestE (scaled_mantissa radix2 (FLT_exp (3 - emax64 - prec64) prec64) r))
    (cexp radix2 (FLT_exp (3 - emax64 - prec64) prec64) r) false) as Hr.
  change (F2R _) with (rnd64 r) in Hr.
  assert (F : generic_format radix2 (FLT_exp (3 - emax64 - prec64) prec64) (rnd64 r)) by (apply generic_format_round; exact _).
  assert (B : Rabs (rnd64 r) < bpow radix2 emax64) by (apply no_overflow; lra).
  split; [apply Hr|]. exists (rnd64 r). split; [eapply result_exact; [exact Hr|exact F|exact B]|].
  eapply Rle_trans; [apply rnd_err|]. pose proof u_small. apply Rmult_le_compat_r; [lra|]. unfold tiny. lra.
Qed.

Lemma correct_accurate : accurate_library (powerRZ 2 (-48)) correct.
Proof.
  replace (powerRZ 2 (-48)) with (16 * u).
  2:{ unfold u. rewrite bpow_powerRZ. change (IZR radix2) with 2.
      change (-48)%Z with (4 + -52)%Z. rewrite powerRZ_add by lra. replace (powerRZ 2 4) with 16 by (simpl; lra). reflexivity. }
  split; [|split; [|split]]; cbn [correct m_sin m_cos m_tan m_pow].
  - intros x a _ Hx _. apply is_value_iff in Hx. destruct Hx as [_ <-]. apply round64_within. pose proof (SIN_bound a). apply Rabs_le. lra.
  - intros x a _ Hx _. apply is_value_iff in Hx. destruct Hx as [_ <-]. apply round64_within. pose proof (COS_bound a). apply Rabs_le. lra.
  - intros x a _ Hx Ha. apply is_value_iff in Hx. destruct Hx as [_ <-]. apply round64_within. apply Rabs_le_inv in Ha.
    assert (C : / 2 <= cos a). { pose proof PI2_3_2. pose proof (cos_lower a ltac:(lra)). nra. }
    pose proof (SIN_bound a). unfold tan, Rdiv. rewrite Rabs_mult, Rabs_inv, (Rabs_pos_eq (cos a)) by lra.
    assert (/ cos a <= / (/ 2)) by (apply Rinv_le_contravar; lra). rewrite Rinv_inv in *.
    assert (Rabs (sin a) <= 1) by (apply Rabs_le; lra).
    apply Rle_trans with (1 * 2); [|lra]. apply Rmult_le_compat; [apply Rabs_pos|left; apply Rinv_0_lt_compat; lra|assumption|assumption].
  - intros x y a b _ _ Hx Hy Ha Hb. apply is_value_iff in Hx, Hy. destruct Hx as [_ <-]. destruct Hy as [_ <-]. apply round64_within.
    unfold Rpower. rewrite Rabs_pos_eq by (left; apply exp_pos).
    assert (L : Rabs (ln a) <= ln 2).
    { assert (E : ln (/ 2) = - ln 2) by (apply ln_Rinv; lra).
      assert (ln (/ 2) <= ln a) by (destruct (Req_dec (/ 2) a) as [<-|]; [lra|]; left; apply ln_increasing; lra).
      assert (ln a <= ln 2) by (destruct (Req_dec a 2) as [->|]; [lra|]; left; apply ln_increasing; lra).
      apply Rabs_le. lra. }
    assert (P : b * ln a <= ln 2).
    { eapply Rle_trans; [apply Rle_abs|]. rewrite Rabs_mult. pose proof (Rabs_pos b). pose proof (Rabs_pos (ln a)). nra. }
    apply Rle_trans with (exp (ln 2)); [|rewrite exp_ln; lra].
    destruct (Req_dec (b * ln a) (ln 2)) as [->|]; [lra|]. left. apply exp_increasing. lra.
Qed.

Example C54_case_sphere : let c := new_dummy (arith64 correct) [] 3 450 450 in
  accurate_library (powerRZ 2 (-48)) correct /\
  on_float_grid correct c (900, 900)%Z (deg 545877 4, deg 20715 4) (deg 470705 4, deg 146209 4) /\
  documented_corners (900, 900)%Z (5 <=? c_format c)%Z (54.5877, 2.0715) (47.0705, 14.6209) /\
  within (powerRZ 2 (-47)) (f64_of_int 51) 51 /\ within (powerRZ 2 (-46)) (f64_of_int 9) 9.
Proof.
  cbv zeta. split; [apply correct_accurate|]. split.
  { apply dummy_float_grid; [reflexivity|reflexivity| |constructor]. exists 1%Z, 0%Z. cbn [fst snd]. lia. }
  destruct (dummy_fields (arith64 correct) [] 3 450 450) as (-> & _ & _). split; [constructor|].
  destruct (of_int_value64 51 ltac:(lia)), (of_int_value64 9 ltac:(lia)).
  split; (split; [assumption|]; eexists; split; [eassumption|]; rewrite Rminus_eq_0, Rabs_R0; apply powerRZ_le; lra).
Qed.
Example C54_case_ellipsoid : let c := new_dummy (arith64 correct) [] 5 1100 1200 in
  on_float_grid correct c (1100, 1200)%Z (deg 5586208711 8, deg 1463301510 9) (deg 4568460578 8, deg 1658086935 8) /\
  documented_corners (1100, 1200)%Z (5 <=? c_format c)%Z (55.86208711, 1.463301510) (45.68460578, 16.58086935).
Proof.
  cbv zeta. split.
  { apply dummy_float_grid; [reflexivity|reflexivity| |constructor]. exists 0%Z, 0%Z. cbn [fst snd]. lia. }
  destruct (dummy_fields (arith64 correct) [] 5 1100 1200) as (-> & _ & _). constructor.
Qed.
Example C34_float_nw_fused_case : exists M, accurate_library (powerRZ 2 (-48)) M /\ (forall k, m_fused M k = true) /\
  on_float_grid M (new_dummy (arith64 M) [] 3 450 450) (900, 900)%Z (deg 545877 4, deg 20715 4) (deg 470705 4, deg 146209 4).
Proof.
  exists (mk_mathlib (m_sin correct) (m_cos correct) (m_tan correct) (m_pow correct) (fun _ => true)).
  split; [exact correct_accurate|]. split; [reflexivity|].
  apply dummy_float_grid; [reflexivity|reflexivity| |constructor]. exists 1%Z, 0%Z. cbn [fst snd]. lia.
Qed.
Print Assumptions C54_accuracy.
