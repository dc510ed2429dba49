(** C42: Heatmap. *)
From Coq Require Import Reals Lia Lra Psatz.
From Flocq Require Import Core Relative Plus_error BinarySingleNaN.
From Verif Require Import GoBase GoFloat Catalog Composite Projection Radolan Vis
  SpecReal SpecVis BaseFacts FloatFacts PropFloat PropProjFloat VisFacts PropGray.
Local Open Scope Z_scope.

(** The choice of the summands by the sextant. *)
Definition selection {X} (k : Z) (c : X) (x : vsite -> X) (zero : X) : X * X * X :=
  match k with
  | 0 => (c, x AtGreen, zero) | 1 => (x AtRed, c, zero) | 2 => (zero, c, x AtBlue)
  | 3 => (zero, x AtGreen, c) | 4 => (x AtRed, zero, c) | 5 => (c, zero, x AtBlue)
  | _ => (zero, zero, zero)
  end.

(** The colour at a position, as computed. *)
Definition heat_hue (F : vsite -> bool) (p : f64) : f64 :=
  f64_div (f_mod (f64_add (sub_mul (F AtHue) (fl 360) (fl 330) p) (fl 240)) (fl 360)) (fl 60).
Definition heat_light (F : vsite -> bool) (p : f64) : f64 := mul_add (F AtLight) (flit 5 1) p (flit 25 2).
Definition heat_chroma (F : vsite -> bool) (l : f64) : f64 :=
  f64_mul (f64_sub (fl 1) (f_abs (mul_sub (F AtChroma) (fl 2) l (fl 1)))) (fl 1).
Definition heat_color (K : convs) (p : f64) : rgba :=
  let F := k_fused K in
  let l := heat_light F p in
  let c := heat_chroma F l in
  let hh := heat_hue F p in
  let w := f64_sub (fl 1) (f_abs (f64_sub (f_mod hh (fl 2)) (fl 1))) in
  let hh := if IsNaN hh then fl (-1) else hh in
  let m := f64_sub l (f64_div c (fl 2)) in
  let '(rm, gm, bm) := selection (to_int K hh) (f64_add c m) (fun k => mul_add (F k) c w m) (f64_add (S754_zero false) m) in
  mk_rgba (to_u8 K (f64_mul (fl 255) rm)) (to_u8 K (f64_mul (fl 255) gm)) (to_u8 K (f64_mul (fl 255) bm)) 255.

Lemma heatmap_eq K min max compress val : heatmap K min max compress val =
  if f_lt (compress val) (compress min) then black else heat_color K (position (compress min) (compress max) (compress val)).
Proof. reflexivity. Qed.

(** * The gradient without the modulus *)
Definition tri (x : R) : R := Rmax 0 (Rmin 1 (2 - Rabs x)).
Definition turn (t : R) : R := (10 - 11 / 2 * t)%R.
Definition light (t : R) : R := (/ 4 + t / 2)%R.
Definition half_chroma (t : R) : R := Rmin (light t) (1 - light t).

Ltac cases := repeat (unfold Rmax, Rmin, Rabs in *;
  match goal with
  | |- context [Rle_dec ?a ?b] => destruct (Rle_dec a b)
  | |- context [Rcase_abs ?a] => destruct (Rcase_abs a)
  | H : context [Rle_dec ?a ?b] |- _ => destruct (Rle_dec a b)
  | H : context [Rcase_abs ?a] |- _ => destruct (Rcase_abs a)
  end).

Lemma tri_range x : (0 <= tri x <= 1)%R.
Proof. unfold tri. cases; lra. Qed.
Lemma tri_lipschitz x y : (Rabs (tri x - tri y) <= Rabs (x - y))%R.
Proof. unfold tri. cases; lra. Qed.
Lemma max_lipschitz a b c d e : (Rabs (a - c) <= e -> Rabs (b - d) <= e -> Rabs (Rmax a b - Rmax c d) <= e)%R.
Proof. cases; lra. Qed.

Lemma max_range y z : (0 <= y <= 1 -> 0 <= z <= 1 -> 0 <= Rmax y z <= 1)%R.
Proof. intros. cases; lra. Qed.

Lemma mod12 z n : (12 * IZR n <= z < 12 * IZR n + 12)%R -> (z - 12 * IZR (Zfloor (z / 12)) = z - 12 * IZR n)%R.
Proof.
  intros H. rewrite (Zfloor_imp n); [reflexivity|]. rewrite plus_IZR. lra.
Qed.

Lemma heat_red t : (0 <= t <= 1)%R -> heat_channel 0 t = (255 * (light t - half_chroma t + 2 * half_chroma t * tri (turn t - 6)))%R.
Proof.
  intros Ht. unfold heat_channel, hsl_channel. fold (light t). rewrite Rmult_1_l. fold (half_chroma t).
  set (z := (0 + (240 - 330 * t) / 30)%R). assert (Z : z = (8 - 11 * t)%R) by (unfold z; field).
  assert (E : Rmax (-1) (Rmin (Rmin ((z - 12 * IZR (Zfloor (z / 12))) - 3) (9 - (z - 12 * IZR (Zfloor (z / 12))))) 1) = (1 - 2 * tri (turn t - 6))%R).
  { destruct (Rle_or_lt 0 z).
    - rewrite (mod12 z 0) by lra. unfold tri, turn. rewrite Z in *. cases; lra.
    - rewrite (mod12 z (-1)) by lra. unfold tri, turn. rewrite Z in *. cases; lra. }
  cbv zeta. rewrite E. ring.
Qed.
Lemma heat_green t : (0 <= t <= 1)%R -> heat_channel 8 t = (255 * (light t - half_chroma t + 2 * half_chroma t * tri (turn t - 8)))%R.
Proof.
  intros Ht. unfold heat_channel, hsl_channel. fold (light t). rewrite Rmult_1_l. fold (half_chroma t).
  set (z := (8 + (240 - 330 * t) / 30)%R). assert (Z : z = (16 - 11 * t)%R) by (unfold z; field).
  assert (E : Rmax (-1) (Rmin (Rmin ((z - 12 * IZR (Zfloor (z / 12))) - 3) (9 - (z - 12 * IZR (Zfloor (z / 12))))) 1) = (1 - 2 * tri (turn t - 8))%R).
  { destruct (Rle_or_lt 12 z).
    - rewrite (mod12 z 1) by lra. unfold tri, turn. rewrite Z in *. cases; lra.
    - rewrite (mod12 z 0) by lra. unfold tri, turn. rewrite Z in *. cases; lra. }
  cbv zeta. rewrite E. ring.
Qed.
Lemma heat_blue t : (0 <= t <= 1)%R -> heat_channel 4 t = (255 * (light t - half_chroma t + 2 * half_chroma t * Rmax (tri (turn t - 4)) (tri (turn t - 10))))%R.
Proof.
  intros Ht. unfold heat_channel, hsl_channel. fold (light t). rewrite Rmult_1_l. fold (half_chroma t).
  set (z := (4 + (240 - 330 * t) / 30)%R). assert (Z : z = (12 - 11 * t)%R) by (unfold z; field).
  assert (E : Rmax (-1) (Rmin (Rmin ((z - 12 * IZR (Zfloor (z / 12))) - 3) (9 - (z - 12 * IZR (Zfloor (z / 12))))) 1) = (1 - 2 * Rmax (tri (turn t - 4)) (tri (turn t - 10)))%R).
  { pose proof (tri_range (turn t - 4)) as T4. pose proof (tri_range (turn t - 10)) as T10.
    destruct (Rle_or_lt (turn t) 7) as [H7|H7].
    - assert (Z10 : tri (turn t - 10) = 0%R) by (unfold tri, turn in *; cases; lra).
      rewrite Z10, (Rmax_left (tri (turn t - 4)) 0) by lra. clear T10 Z10 T4. rewrite (mod12 z 0) by (unfold turn in *; lra). unfold tri, turn in *. rewrite Z in *. cases; lra.
    - assert (Z4 : tri (turn t - 4) = 0%R) by (unfold tri, turn in *; cases; lra).
      rewrite Z4, (Rmax_right 0 (tri (turn t - 10))) by lra. clear T10 Z4 T4. destruct (Rle_or_lt 12 z).
      + rewrite (mod12 z 1) by lra. unfold tri, turn in *. rewrite Z in *. cases; lra.
      + rewrite (mod12 z 0) by (unfold turn in *; lra). unfold tri, turn in *. rewrite Z in *. cases; lra. }
  cbv zeta. rewrite E. ring.
Qed.

(** * The computed values *)
Lemma has_half : has (flit 5 1) (/ 2).
Proof. split; [reflexivity|]. change (is_value (flit 5 1)) with (is_value (S754_finite false 4503599627370496 (-53))).
  cbn [is_value]. rewrite <- (bpow_powerRZ radix2). change (bpow radix2 (-53)) with (/ IZR (2 ^ 53))%R. lra. Qed.
Lemma has_quarter : has (flit 25 2) (/ 4).
Proof. split; [reflexivity|]. change (is_value (flit 25 2)) with (is_value (S754_finite false 4503599627370496 (-54))).
  cbn [is_value]. rewrite <- (bpow_powerRZ radix2). change (bpow radix2 (-54)) with (/ IZR (2 ^ 54))%R. lra. Qed.

(** h / 60 stays below 6. *)
Lemma below_six h : format64 h -> (0 <= h < 360)%R -> (0 <= rnd64 (h / 60) < 6)%R.
Proof.
  intros Fh Hh. split; [apply rnd64_pos; lra|].
  destruct (Rlt_or_le h 256) as [Hs|Hs].
  - apply Rle_lt_trans with (rnd64 5); [apply rnd64_le; lra|]. rewrite (rnd64_int 5) by lia. lra.
  - assert (Fb : format64 360) by (apply format64_int; lia).
    assert (S : (succ radix2 (FLT_exp (3 - emax64 - prec64) prec64) h <= 360)%R) by (apply succ_le_lt; [exact _|exact Fh|exact Fb|lra]).
    rewrite succ_eq_pos in S by lra.
    assert (U : (bpow radix2 (-44) <= ulp radix2 (FLT_exp (3 - emax64 - prec64) prec64) h)%R).
    { replace (bpow radix2 (-44)) with (ulp radix2 (FLT_exp (3 - emax64 - prec64) prec64) (bpow radix2 8)).
      - apply ulp_le; [exact _|exact _|]. change (bpow radix2 8) with 256%R. rewrite !Rabs_pos_eq; lra.
      - rewrite ulp_bpow. f_equal. }
    assert (E : bpow radix2 (-44) = (64 * bpow radix2 (-50))%R) by (change (-44) with (6 + -50); rewrite bpow_plus; reflexivity).
    pose proof (bpow_gt_0 radix2 (-50)) as P.
    assert (F6 : format64 (6 - bpow radix2 (-50))).
    { apply generic_format_FLT. exists (Float radix2 (6 * 2 ^ 50 - 1) (-50)); cbn [Fnum Fexp]; [|reflexivity|unfold emax64, prec64; lia].
      unfold F2R. cbn [Fnum Fexp]. rewrite minus_IZR, mult_IZR. 
      assert (E2 : (IZR (2 ^ 50) * bpow radix2 (-50) = 1)%R).
      { change (bpow radix2 (-50)) with (/ IZR (2 ^ 50))%R. apply Rinv_r. lra. }
      rewrite Rmult_minus_distr_r, Rmult_assoc, E2. ring. }
    apply Rle_lt_trans with (rnd64 (6 - bpow radix2 (-50))); [apply rnd64_le; lra|]. rewrite rnd64_format by exact F6. lra.
Qed.

Lemma floor_of (z : R) n : (IZR n <= z < IZR n + 1)%R -> Zfloor z = n.
Proof. intros H. apply Zfloor_imp. rewrite plus_IZR. exact H. Qed.

(** The hue: the unwrapped turn number and the one modulo 6. *)
Lemma hue_value F p r t : has p r -> (0 <= r <= 1)%R -> (0 <= t <= 1)%R -> (Rabs (r - t) <= u10)%R ->
  exists eta, has (heat_hue F p) eta /\
    (0 <= eta < 6)%R /\
    ((Rabs (eta - turn t) <= 10 * u10 /\ 4 <= eta)%R \/ (Rabs (eta + 6 - turn t) <= 10 * u10 /\ eta <= 4)%R).
Proof.
  intros Hp Hr Ht Hd. pose proof u10_small as U. apply Rabs_le_inv in Hd. unfold heat_hue.
  assert (P1 : (Rabs (330 * r) <= 1024)%R) by (rewrite Rabs_pos_eq; lra).
  pose proof (product_has (F AtHue) 330 r P1) as E1. pose proof (product_pos (F AtHue) 330 r ltac:(lra) ltac:(lra)) as B1.
  pose proof (fun H => has_sub_mul (F AtHue) (fl 330) p (fl 360) 330 r 360 (has_int 330 ltac:(lia)) Hp (has_int 360 ltac:(lia)) P1 H) as H2.
  set (m1 := product (F AtHue) 330 r) in *. apply Rabs_le_inv in E1.
  destruct H2 as [H2 E2]; [apply Rabs_le; lra|].
  set (s1 := rnd64 (360 - m1)) in *. apply Rabs_le_inv in E2.
  assert (B2 : (s1 <= 360)%R).
  { rewrite <- (rnd64_int 360 ltac:(lia)). unfold s1. apply rnd64_le. lra. }
  destruct (has_add _ (fl 240) s1 240 H2 (has_int 240 ltac:(lia))) as [H3 E3]; [apply Rabs_le; lra|].
  set (w := rnd64 (s1 + 240)) in *. apply Rabs_le_inv in E3.
  assert (B3 : (w <= 600)%R).
  { rewrite <- (rnd64_int 600 ltac:(lia)). unfold w. apply rnd64_le. lra. }
  pose proof (has_mod _ (fl 360) w 360 H3 (has_int 360 ltac:(lia)) ltac:(lra) ltac:(lra)) as H4.
  destruct (Rlt_or_le w 360) as [Hw|Hw].
  - rewrite (floor_of (w / 360) 0) in H4 by lra. rewrite Rmult_0_r, Rminus_0_r in H4.
    destruct (has_div _ (fl 60) w 60 H4 (has_int 60 ltac:(lia)) ltac:(lra)) as [H5 E5]; [apply Rabs_le; lra|].
    apply Rabs_le_inv in E5. exists (rnd64 (w / 60)). split; [exact H5|]. split.
    + apply below_six; [|lra]. apply (format64_of _ _ (proj1 H4) (proj2 H4)).
    + left. unfold turn. split; [apply Rabs_le|]; lra.
  - rewrite (floor_of (w / 360) 1) in H4 by lra. rewrite Rmult_1_r in H4.
    destruct (has_div _ (fl 60) (w - 360) 60 H4 (has_int 60 ltac:(lia)) ltac:(lra)) as [H5 E5]; [apply Rabs_le; lra|].
    apply Rabs_le_inv in E5. exists (rnd64 ((w - 360) / 60)). split; [exact H5|]. split.
    + apply below_six; [|lra]. apply (format64_of _ _ (proj1 H4) (proj2 H4)).
    + right. unfold turn. split; [apply Rabs_le; lra|].
      rewrite <- (rnd64_int 4 ltac:(lia)). apply rnd64_le. lra.
Qed.

(** Lightness, chroma and the lightness offset. *)
Lemma light_value F p r t : has p r -> (0 <= r <= 1)%R -> (0 <= t <= 1)%R -> (Rabs (r - t) <= u10)%R ->
  let l := heat_light F p in
  let c := heat_chroma F l in
  exists gamma mu, has c gamma /\ has (f64_sub l (f64_div c (fl 2))) mu /\
    (Rabs (gamma - 2 * half_chroma t) <= 20 * u10)%R /\ (Rabs (mu - (light t - half_chroma t)) <= 20 * u10)%R.
Proof.
  intros Hp Hr Ht Hd l c. pose proof u10_small as U. apply Rabs_le_inv in Hd.
  assert (P1 : (Rabs (/ 2 * r) <= 1024)%R) by (rewrite Rabs_pos_eq; lra).
  pose proof (product_has (F AtLight) (/ 2) r P1) as E1.
  pose proof (fun H => has_mul_add (F AtLight) (flit 5 1) p (flit 25 2) (/ 2) r (/ 4) has_half Hp has_quarter P1 H) as H2.
  set (l0 := product (F AtLight) (/ 2) r) in *. apply Rabs_le_inv in E1.
  destruct H2 as [H2 E2]; [apply Rabs_le; lra|].
  change (mul_add _ _ _ _) with l in H2. set (lv := rnd64 (l0 + / 4)) in *. apply Rabs_le_inv in E2.
  assert (P3 : (Rabs (2 * lv) <= 1024)%R) by (apply Rabs_le; lra).
  pose proof (product_has (F AtChroma) 2 lv P3) as E3.
  pose proof (fun H => has_mul_sub (F AtChroma) (fl 2) l (fl 1) 2 lv 1 (has_int 2 ltac:(lia)) H2 (has_int 1 ltac:(lia)) P3 H) as H4.
  set (d := product (F AtChroma) 2 lv) in *. apply Rabs_le_inv in E3.
  destruct H4 as [H4 E4]; [apply Rabs_le; lra|].
  set (d1 := rnd64 (d - 1)) in *. apply Rabs_le_inv in E4. apply has_abs in H4.
  assert (A1 : (0 <= Rabs d1 <= 1)%R) by (split; [apply Rabs_pos|apply Rabs_le; lra]).
  destruct (has_sub (fl 1) _ 1 (Rabs d1) (has_int 1 ltac:(lia)) H4) as [H5 E5]; [apply Rabs_le; lra|].
  set (c0 := rnd64 (1 - Rabs d1)) in *. apply Rabs_le_inv in E5.
  destruct (has_mul _ (fl 1) c0 1 H5 (has_int 1 ltac:(lia))) as [H6 E6]; [apply Rabs_le; lra|].
  change (f64_mul _ (fl 1)) with c in H6. set (gamma := rnd64 (c0 * 1)) in *. apply Rabs_le_inv in E6.
  destruct (has_div c (fl 2) gamma 2 H6 (has_int 2 ltac:(lia)) ltac:(lra)) as [H7 E7]; [apply Rabs_le; lra|].
  set (g2 := rnd64 (gamma / 2)) in *. apply Rabs_le_inv in E7.
  destruct (has_sub l _ lv g2 H2 H7) as [H8 E8]; [apply Rabs_le; lra|].
  set (mu := rnd64 (lv - g2)) in *. apply Rabs_le_inv in E8.
  exists gamma, mu. split; [exact H6|]. split; [exact H8|].
  assert (Q : (Rabs (Rabs d1 - Rabs (2 * light t - 1)) <= 10 * u10)%R).
  { eapply Rle_trans; [apply Rabs_triang_inv2|]. apply Rabs_le. unfold light. lra. }
  apply Rabs_le_inv in Q.
  assert (W : (2 * half_chroma t = 1 - Rabs (2 * light t - 1))%R).
  { unfold half_chroma. cases; lra. }
  split; apply Rabs_le; unfold light in *; lra.
Qed.

Lemma channel z s mu gamma R' R A L : has z s ->
  (Rabs (s - (gamma * R' + mu)) <= 7 * u10)%R -> (0 <= R' <= 1)%R -> (0 <= R <= 1)%R -> (Rabs (R' - R) <= 10 * u10)%R ->
  (Rabs (gamma - 2 * A) <= 20 * u10)%R -> (0 <= A <= / 2)%R -> (Rabs (mu - (L - A)) <= 20 * u10)%R ->
  (0 <= L - A)%R -> (L + A <= 1)%R ->
  exists n, (forall K, to_u8 K (f64_mul (fl 255) z) = n) /\ 0 <= n <= 255 /\
    rounded_down n (255 * (L - A + 2 * A * R)).
Proof.
  intros H1 E1 B1 B2 E2 E3 BA E4 B3 B4. pose proof u10_small as U.
  apply Rabs_le_inv in E1, E2, E3, E4.
  assert (D : (- (57 * u10) <= s - (L - A + 2 * A * R) <= 57 * u10)%R).
  { assert (X : (- (20 * u10) <= (gamma - 2 * A) * R' <= 20 * u10)%R) by (split; nra).
    assert (Y : (- (10 * u10) <= 2 * A * (R' - R) <= 10 * u10)%R) by (split; nra).
    assert (V : (gamma * R' = 2 * A * R + (gamma - 2 * A) * R' + 2 * A * (R' - R))%R) by ring. lra. }
  assert (P : (0 <= L - A + 2 * A * R <= 1)%R).
  { assert (0 <= 2 * A * R <= 2 * A)%R by (split; nra). lra. }
  set (T := (L - A + 2 * A * R)%R) in *.
  destruct (has_mul (fl 255) _ 255 s (has_int 255 ltac:(lia)) H1) as [H2 F2]; [apply Rabs_le; lra|].
  set (v := rnd64 (255 * s)) in *. apply Rabs_le_inv in F2.
  exists (Ztrunc v). split.
  - intros K. apply to_u8_value; [exact (proj2 H2)|lra].
  - split; [exact (proj2 (to_u8_value (mk_convs (fun _ => 0) (fun _ => 0) (fun _ => false)) _ _ (proj2 H2) ltac:(lra)))|].
    unfold rounded_down. destruct (Rle_or_lt 0 v) as [Hv|Hv].
    + rewrite Ztrunc_floor by exact Hv. pose proof (Zfloor_lb v). pose proof (Zfloor_ub v). split; lra.
    + rewrite Ztrunc_ceil by lra. assert (Zceil v = 0).
      { apply Zceil_imp. simpl. lra. }
      rewrite H. simpl. split; lra.
Qed.

Lemma ramp_value c gamma hh eta : has c gamma -> (0 <= gamma <= 2)%R -> has hh eta -> (0 <= eta < 6)%R ->
  exists om, has (f64_sub (fl 1) (f_abs (f64_sub (f_mod hh (fl 2)) (fl 1)))) om /\
    (Rabs (gamma * om - gamma * (1 - Rabs (eta - 2 * IZR (Zfloor (eta / 2)) - 1))) <= 4 * u10)%R.
Proof.
  intros Hc Bc Hh Bh. pose proof u10_small as U.
  pose proof (has_mod hh (fl 2) eta 2 Hh (has_int 2 ltac:(lia)) ltac:(lra) ltac:(lra)) as H1.
  set (q := (eta - 2 * IZR (Zfloor (eta / 2)))%R) in *.
  assert (Bq : (0 <= q < 2)%R). { pose proof (Zfloor_lb (eta / 2)). pose proof (Zfloor_ub (eta / 2)). unfold q. lra. }
  destruct (has_sub _ (fl 1) q 1 H1 (has_int 1 ltac:(lia))) as [H2 E2]; [apply Rabs_le; lra|].
  set (q1 := rnd64 (q - 1)) in *. apply Rabs_le_inv in E2. apply has_abs in H2.
  assert (Q : (Rabs (Rabs q1 - Rabs (q - 1)) <= u10)%R).
  { eapply Rle_trans; [apply Rabs_triang_inv2|]. apply Rabs_le. lra. }
  apply Rabs_le_inv in Q. assert (A0 : (0 <= Rabs (q - 1) <= 1)%R) by (split; [apply Rabs_pos|apply Rabs_le; lra]).
  destruct (has_sub (fl 1) _ 1 (Rabs q1) (has_int 1 ltac:(lia)) H2) as [H3 E3]; [apply Rabs_le; lra|].
  set (q2 := rnd64 (1 - Rabs q1)) in *. apply Rabs_le_inv in E3.
  assert (G : (- (4 * u10) <= gamma * (q2 - (1 - Rabs (q - 1))) <= 4 * u10)%R) by (split; nra).
  exists q2. split; [exact H3|]. apply Rabs_le. lra.
Qed.

Lemma half_chroma_range t : (0 <= t <= 1)%R -> (/ 4 <= half_chroma t <= / 2)%R /\ (0 <= light t - half_chroma t)%R /\ (light t + half_chroma t <= 1)%R.
Proof. intros H. unfold half_chroma, light. cases; lra. Qed.

Lemma isnan_has x r : has x r -> IsNaN x = false.
Proof. intros [_ H]. apply not_true_is_false. intros Hn. apply C39_isnan in Hn. destruct Hn as [Hn _]. apply Hn. now exists r. Qed.

(** The ramp value on each sextant. *)
Lemma sextant eta k : (0 <= k <= 5) -> (IZR k <= eta < IZR k + 1)%R ->
  (1 - Rabs (eta - 2 * IZR (Zfloor (eta / 2)) - 1) = if Z.even k then eta - IZR k else IZR k + 1 - eta)%R.
Proof.
  intros Hk H. assert (C : k = 0 \/ k = 1 \/ k = 2 \/ k = 3 \/ k = 4 \/ k = 5) by lia.
  destruct C as [->|[->|[->|[->|[->| ->]]]]]; cbn [Z.even] in *.
  - rewrite (floor_of (eta / 2) 0) by lra. rewrite Rabs_left1 by lra. lra.
  - rewrite (floor_of (eta / 2) 0) by lra. rewrite Rabs_pos_eq by lra. lra.
  - rewrite (floor_of (eta / 2) 1) by lra. rewrite Rabs_left1 by lra. lra.
  - rewrite (floor_of (eta / 2) 1) by lra. rewrite Rabs_pos_eq by lra. lra.
  - rewrite (floor_of (eta / 2) 2) by lra. rewrite Rabs_left1 by lra. lra.
  - rewrite (floor_of (eta / 2) 2) by lra. rewrite Rabs_pos_eq by lra. lra.
Qed.

(** The ideal shares of the channels at the computed hue. *)
Lemma shares_no_wrap eta k : (4 <= eta < 6)%R -> (0 <= k <= 5) -> (IZR k <= eta < IZR k + 1)%R ->
  selection k 1%R (fun _ => if Z.even k then eta - IZR k else IZR k + 1 - eta)%R 0%R =
  (tri (eta - 6), tri (eta - 8), Rmax (tri (eta - 4)) (tri (eta - 10))).
Proof.
  intros He Hk H. assert (C : k = 4 \/ k = 5).
  { assert (3 < k). { apply lt_IZR. lra. } lia. }
  assert (Z10 : tri (eta - 10) = 0%R) by (unfold tri; cases; lra).
  pose proof (tri_range (eta - 4)). rewrite Z10, (Rmax_left (tri (eta - 4)) 0) by lra.
  destruct C as [->| ->]; cbn [selection Z.even]; (f_equal; [f_equal|]); unfold tri; cases; lra.
Qed.
Lemma shares_wrap eta k : (0 <= eta <= 4)%R -> (0 <= k <= 5) -> (IZR k <= eta < IZR k + 1)%R ->
  selection k 1%R (fun _ => if Z.even k then eta - IZR k else IZR k + 1 - eta)%R 0%R =
  (tri (eta + 6 - 6), tri (eta + 6 - 8), Rmax (tri (eta + 6 - 4)) (tri (eta + 6 - 10))).
Proof.
  intros He Hk H. assert (C : k = 0 \/ k = 1 \/ k = 2 \/ k = 3 \/ k = 4).
  { assert (k < 5). { apply lt_IZR. lra. } lia. }
  assert (Z10 : tri (eta + 6 - 4) = 0%R) by (unfold tri; cases; lra).
  pose proof (tri_range (eta + 6 - 10)). rewrite Z10, (Rmax_right 0 (tri (eta + 6 - 10))) by lra.
  destruct C as [->|[->|[->|[->| ->]]]]; cbn [selection Z.even]; (f_equal; [f_equal|]); unfold tri; cases; lra.
Qed.

Lemma selection_has F k c w m gamma om mu R' : has c gamma -> has w om -> has m mu -> (0 <= gamma <= 2)%R -> (-1 <= mu <= 2)%R -> (0 <= R' <= 1)%R ->
  (Rabs (gamma * om - gamma * R') <= 4 * u10)%R -> 0 <= k <= 5 ->
  let '(rr, gg, bb) := selection k (f64_add c m) (fun s => mul_add (F s) c w m) (f64_add (S754_zero false) m) in
  let '(r1, r2, r3) := selection k 1%R (fun _ => R') 0%R in
  (exists a, has rr a /\ (Rabs (a - (gamma * r1 + mu)) <= 7 * u10)%R) /\
  (exists a, has gg a /\ (Rabs (a - (gamma * r2 + mu)) <= 7 * u10)%R) /\
  (exists a, has bb a /\ (Rabs (a - (gamma * r3 + mu)) <= 7 * u10)%R).
Proof.
  intros Hc Hw Hm Bg Bm BR E Hk. pose proof u10_small as U. apply Rabs_le_inv in E.
  assert (Q1 : exists a, has (f64_add c m) a /\ (Rabs (a - (gamma * 1 + mu)) <= 7 * u10)%R).
  { destruct (has_add c m gamma mu Hc Hm) as [H1 E1]; [apply Rabs_le; lra|]. apply Rabs_le_inv in E1.
    eexists. split; [exact H1|]. apply Rabs_le. lra. }
  assert (Q2 : forall s, exists a, has (mul_add (F s) c w m) a /\ (Rabs (a - (gamma * R' + mu)) <= 7 * u10)%R).
  { intros s. assert (G : (0 <= gamma * R' <= 2)%R) by (split; nra).
    assert (P : (Rabs (gamma * om) <= 1024)%R) by (apply Rabs_le; lra). pose proof (product_has (F s) gamma om P) as Ep. apply Rabs_le_inv in Ep.
    destruct (has_mul_add (F s) c w m gamma om mu Hc Hw Hm P) as [H1 E1]; [apply Rabs_le; lra|]. apply Rabs_le_inv in E1.
    eexists. split; [exact H1|]. apply Rabs_le. lra. }
  assert (Q3 : exists a, has (f64_add (S754_zero false) m) a /\ (Rabs (a - (gamma * 0 + mu)) <= 7 * u10)%R).
  { destruct (has_add (S754_zero false) m 0 mu (conj eq_refl eq_refl) Hm) as [H1 E1]; [apply Rabs_le; lra|]. apply Rabs_le_inv in E1.
    eexists. split; [exact H1|]. apply Rabs_le. lra. }
  assert (C : k = 0 \/ k = 1 \/ k = 2 \/ k = 3 \/ k = 4 \/ k = 5) by lia.
  destruct C as [->|[->|[->|[->|[->| ->]]]]]; cbn [selection]; auto.
Qed.

Lemma heat_core F p r t : has p r -> (0 <= r <= 1)%R -> (0 <= t <= 1)%R -> (Rabs (r - t) <= u10)%R ->
  exists cr cg cb, (forall K, k_fused K = F -> heat_color K p = mk_rgba cr cg cb 255) /\
    (0 <= cr <= 255 /\ 0 <= cg <= 255 /\ 0 <= cb <= 255) /\
    rounded_down cr (heat_channel 0 t) /\ rounded_down cg (heat_channel 8 t) /\ rounded_down cb (heat_channel 4 t).
Proof.
  intros Hp Hr Ht Hd. pose proof u10_small as U.
  destruct (hue_value F p r t Hp Hr Ht Hd) as (eta & Hh & Be & Hturn).
  pose proof (light_value F p r t Hp Hr Ht Hd) as Hl. cbv zeta in Hl. destruct Hl as (gamma & mu & Hc & Hm & Eg & Em).
  destruct (half_chroma_range t Ht) as (A1 & A2 & A3).
  assert (Bg : (0 <= gamma <= 2)%R) by (apply Rabs_le_inv in Eg; lra).
  assert (Bm : (-1 <= mu <= 2)%R) by (apply Rabs_le_inv in Em; lra).
  destruct (ramp_value _ gamma _ eta Hc Bg Hh Be) as (om & Hw & Ex).
  set (k := Zfloor eta).
  assert (Hk : (IZR k <= eta < IZR k + 1)%R) by (split; [apply Zfloor_lb|apply Zfloor_ub]).
  assert (Bk : 0 <= k <= 5). { split; [apply Zfloor_lub; simpl; lra|]. assert (k < 6); [|lia]. apply lt_IZR. lra. }
  rewrite (sextant eta k Bk Hk) in Ex.
  assert (BR : (0 <= (if Z.even k then eta - IZR k else IZR k + 1 - eta) <= 1)%R) by (destruct (Z.even k); lra).
  pose proof (selection_has F k _ _ _ gamma om mu _ Hc Hw Hm Bg Bm BR Ex Bk) as Hs.
  assert (Sh : exists alpha, (Rabs (alpha - turn t) <= 10 * u10)%R /\
     selection k 1%R (fun _ => if Z.even k then eta - IZR k else IZR k + 1 - eta)%R 0%R = (tri (alpha - 6), tri (alpha - 8), Rmax (tri (alpha - 4)) (tri (alpha - 10)))).
  { destruct Hturn as [[T1 T2]|[T1 T2]].
    - exists eta. split; [exact T1|]. apply shares_no_wrap; [lra|exact Bk|exact Hk].
    - exists (eta + 6)%R. split; [exact T1|]. apply shares_wrap; [lra|exact Bk|exact Hk]. }
  destruct Sh as (alpha & Ea & Es). rewrite Es in Hs.
  assert (L : forall n, (Rabs (tri (alpha - n) - tri (turn t - n)) <= 10 * u10)%R).
  { intros n. eapply Rle_trans; [apply tri_lipschitz|]. replace (alpha - n - (turn t - n))%R with (alpha - turn t)%R by ring. exact Ea. }
  assert (Hti : forall K, to_int K (heat_hue F p) = k).
  { intros K. rewrite (to_int_value K _ eta (proj2 Hh)).
    - apply Ztrunc_floor. lra.
    - rewrite Rabs_pos_eq by lra. change (2 ^ 62) with 4611686018427387904. lra. }
  assert (Heq : forall K, k_fused K = F -> heat_color K p =
    let '(rr, gg, bb) := selection k (f64_add (heat_chroma F (heat_light F p)) (f64_sub (heat_light F p) (f64_div (heat_chroma F (heat_light F p)) (fl 2))))
      (fun s => mul_add (F s) (heat_chroma F (heat_light F p)) (f64_sub (fl 1) (f_abs (f64_sub (f_mod (heat_hue F p) (fl 2)) (fl 1))))
        (f64_sub (heat_light F p) (f64_div (heat_chroma F (heat_light F p)) (fl 2))))
      (f64_add (S754_zero false) (f64_sub (heat_light F p) (f64_div (heat_chroma F (heat_light F p)) (fl 2)))) in
    mk_rgba (to_u8 K (f64_mul (fl 255) rr)) (to_u8 K (f64_mul (fl 255) gg)) (to_u8 K (f64_mul (fl 255) bb)) 255).
  { intros K HK. unfold heat_color. rewrite HK, (isnan_has _ _ Hh), Hti. reflexivity. }
  destruct (selection k (f64_add _ _) _ _) as [[rr gg] bb].
  destruct Hs as ((a1 & P1 & Q1) & (a2 & P2 & Q2) & (a3 & P3 & Q3)).
  assert (HA : (0 <= half_chroma t <= / 2)%R) by lra.
  destruct (channel rr a1 mu gamma _ (tri (turn t - 6)) (half_chroma t) (light t) P1 Q1 (tri_range _) (tri_range _) (L 6%R) Eg HA Em A2 A3) as (cr & C1 & C2 & C3).
  destruct (channel gg a2 mu gamma _ (tri (turn t - 8)) (half_chroma t) (light t) P2 Q2 (tri_range _) (tri_range _) (L 8%R) Eg HA Em A2 A3) as (cg & D1 & D2 & D3).
  destruct (channel bb a3 mu gamma _ (Rmax (tri (turn t - 4)) (tri (turn t - 10))) (half_chroma t) (light t) P3 Q3
     (max_range _ _ (tri_range _) (tri_range _)) (max_range _ _ (tri_range _) (tri_range _)) (max_lipschitz _ _ _ _ _ (L 4%R) (L 10%R)) Eg HA Em A2 A3) as (cb & F1 & F2 & F3).
  exists cr, cg, cb. split.
  - intros K HK. rewrite (Heq K HK), C1, D1, F1. reflexivity.
  - split; [auto|]. rewrite heat_red, heat_green, heat_blue by exact Ht. auto.
Qed.

(** * The theorems *)
Theorem C42_below K min max compress val : f_lt (compress val) (compress min) = true ->
  heatmap K min max compress val = black.
Proof. intros H. rewrite heatmap_eq, H. reflexivity. Qed.

(** Between the bounds every channel is that of the documented gradient,
    rounded down, on every platform; the colour depends on the platform only
    through what the compiler fuses. *)
Theorem C42_between F min max compress val a b y : gradient_bounds (compress min) (compress max) a b ->
  has (compress val) y -> (a <= y)%R ->
  let t := Rmin 1 ((y - a) / (b - a)) in
  exists cr cg cb, (forall K, k_fused K = F -> heatmap K min max compress val = mk_rgba cr cg cb 255) /\
    (0 <= cr <= 255 /\ 0 <= cg <= 255 /\ 0 <= cb <= 255) /\
    rounded_down cr (heat_channel 0 t) /\ rounded_down cg (heat_channel 8 t) /\ rounded_down cb (heat_channel 4 t).
Proof.
  intros G Hv Hy t. assert (Ha : at_least a (compress val)) by (right; eauto).
  destruct (position_range _ _ a b G _ Ha) as (r & Hr & Br).
  pose proof (position_error _ _ a b G _ y r Hv Hy Hr) as Ep. rewrite <- (bpow_powerRZ radix2) in Ep. fold t in Ep.
  assert (Bt : (0 <= t <= 1)%R).
  { split; [|apply Rmin_l]. apply Rmin_glb; [lra|]. destruct G as (_ & _ & L & _). apply Rmult_le_pos; [lra|]. left. apply Rinv_0_lt_compat. lra. }
  assert (Eu : (Rabs (r - t) <= u10)%R). { eapply Rle_trans; [exact Ep|]. unfold u10. apply bpow_le. lia. }
  destruct (heat_core F _ r t Hr Br Bt Eu) as (cr & cg & cb & H1 & H2). exists cr, cg, cb. split; [|exact H2].
  intros K HK. rewrite heatmap_eq, (not_below _ _ a (proj1 G) (proj1 Hv) Ha). now apply H1.
Qed.

(** From the maximum upwards: one constant colour. *)
Lemma one_float p : has p 1 -> p = fl 1.
Proof.
  intros [V H]. destruct (lift prec64 emax64 p V) as [f ->]. 
  assert (V1 : valid64 (fl 1)) by reflexivity. destruct (lift prec64 emax64 (fl 1) V1) as [g Hg].
  rewrite Hg. f_equal. apply (B2SF_value prec64 emax64) in H. destruct H as [F1 E1].
  pose proof (has_int 1 ltac:(lia)) as [_ H1]. rewrite Hg in H1. apply (B2SF_value prec64 emax64) in H1. destruct H1 as [F2 E2].
  apply B2R_inj; [| |congruence].
  - destruct f; try reflexivity; try discriminate. cbn in E1. lra.
  - destruct g; try reflexivity; try discriminate.
Qed.

(** In the fifth sextant. *)
Lemma heat_fixed K p v :
  (forall b, let hh := f64_div (f_mod (f64_add (sub_mul b (fl 360) (fl 330) p) (fl 240)) (fl 360)) (fl 60) in
     to_int K (if IsNaN hh then fl (-1) else hh) = 4) ->
  (forall b1 b2 b3 b4, let hh := f64_div (f_mod (f64_add (sub_mul b1 (fl 360) (fl 330) p) (fl 240)) (fl 360)) (fl 60) in
     let l := mul_add b2 (flit 5 1) p (flit 25 2) in
     let c := f64_mul (f64_sub (fl 1) (f_abs (mul_sub b3 (fl 2) l (fl 1)))) (fl 1) in
     let w := f64_sub (fl 1) (f_abs (f64_sub (f_mod hh (fl 2)) (fl 1))) in
     let m := f64_sub l (f64_div c (fl 2)) in
     mk_rgba (to_u8 K (f64_mul (fl 255) (mul_add b4 c w m))) (to_u8 K (f64_mul (fl 255) (f64_add (S754_zero false) m)))
       (to_u8 K (f64_mul (fl 255) (f64_add c m))) 255 = v) ->
  heat_color K p = v.
Proof.
  intros H1 H2. unfold heat_color, heat_hue, heat_light, heat_chroma. cbv zeta in *. rewrite H1. cbn [selection]. apply H2.
Qed.

Theorem C42_above K min max compress val a b : gradient_bounds (compress min) (compress max) a b ->
  valid64 (compress val) -> at_least b (compress val) -> heatmap K min max compress val = mk_rgba 191 127 255 255.
Proof.
  intros G Vv Hv. rewrite heatmap_eq.
  assert (Ha : at_least a (compress val)). { destruct Hv as [Hv|(y & Hv & Hy)]; [now left|right; exists y; destruct G as (_ & _ & ? & _); split; [assumption|lra]]. }
  rewrite (not_below _ _ a (proj1 G) Vv Ha). rewrite (one_float _ (position_top _ _ a b G _ Hv)).
  apply heat_fixed; intros; repeat match goal with b : bool |- _ => destruct b end; vm_compute; reflexivity.
Qed.

(** At the minimum: dark blue. *)
Theorem C42_bottom K min max compress val a b : gradient_bounds (compress min) (compress max) a b ->
  has (compress val) a -> heatmap K min max compress val = mk_rgba 0 0 127 255.
Proof.
  intros G Hv. destruct (position_bottom _ _ a b G _ Hv) as [_ Hp].
  rewrite heatmap_eq, (not_below _ _ a (proj1 G) (proj1 Hv)) by (right; exists a; split; [exact Hv|lra]).
  destruct (position _ _ _) as [s|s| |s m e]; try (exfalso; exact Hp).
  - apply heat_fixed; intros; repeat match goal with b : bool |- _ => destruct b end; vm_compute; reflexivity.
  - exfalso. cbn [is_value] in Hp. rewrite <- (bpow_powerRZ radix2) in Hp.
    assert (0 < IZR (Zpos m) * bpow radix2 e)%R by (apply Rmult_lt_0_compat; [apply IZR_lt; lia|apply bpow_gt_0]).
    destruct s; lra.
Qed.

Theorem C42_opaque K min max compress val : r_a (heatmap K min max compress val) = 255.
Proof.
  rewrite heatmap_eq. destruct (f_lt _ _); [reflexivity|]. unfold heat_color. cbv zeta.
  match goal with |- r_a (match ?s with _ => _ end) = _ => destruct s as [[? ?] ?] end. reflexivity.
Qed.

(** On platforms that fuse alike the colour is the same ... *)
Theorem C42_portable K K' min max compress val a b : gradient_bounds (compress min) (compress max) a b ->
  valid64 (compress val) -> compress val <> S754_nan -> k_fused K = k_fused K' ->
  heatmap K min max compress val = heatmap K' min max compress val.
Proof.
  intros G Vv Hn HF. destruct (below_or _ _ a (proj1 G) Vv Hn) as [H|[Hi|(y & Hv & Hy)]].
  - now rewrite !C42_below.
  - rewrite !(C42_above _ min max compress val a b G Vv); auto; now left.
  - destruct (C42_between (k_fused K) min max compress val a b y G Hv Hy) as (cr & cg & cb & H & _).
    rewrite (H K eq_refl), (H K'); [reflexivity|now symmetry].
Qed.

(** ... and on any two platforms each channel differs by at most 1. *)
Theorem C42_platforms K K' min max compress val a b : gradient_bounds (compress min) (compress max) a b ->
  valid64 (compress val) -> compress val <> S754_nan ->
  let c := heatmap K min max compress val in let d := heatmap K' min max compress val in
  Z.abs (r_r c - r_r d) <= 1 /\ Z.abs (r_g c - r_g d) <= 1 /\ Z.abs (r_b c - r_b d) <= 1 /\ r_a c = r_a d.
Proof.
  intros G Vv Hn. cbv zeta. destruct (below_or _ _ a (proj1 G) Vv Hn) as [H|[Hi|(y & Hv & Hy)]].
  - rewrite !C42_below by exact H. cbn. lia.
  - rewrite !(C42_above _ min max compress val a b G Vv); [cbn; lia|now left|now left].
  - destruct (C42_between (k_fused K) min max compress val a b y G Hv Hy) as (cr & cg & cb & H & _ & R1 & R2 & R3).
    destruct (C42_between (k_fused K') min max compress val a b y G Hv Hy) as (cr' & cg' & cb' & H' & _ & S1 & S2 & S3).
    rewrite (H K eq_refl), (H' K' eq_refl). cbn [r_r r_g r_b r_a].
    assert (N : forall n n' x, rounded_down n x -> rounded_down n' x -> Z.abs (n - n') <= 1).
    { intros n n' x [N1 N2] [N3 N4]. assert (n - n' < 2) by (apply lt_IZR; rewrite minus_IZR; lra).
      assert (n' - n < 2) by (apply lt_IZR; rewrite minus_IZR; lra). lia. }
    split; [now apply (N _ _ (heat_channel 0 (Rmin 1 ((y - a) / (b - a)))))|].
    split; [now apply (N _ _ (heat_channel 8 (Rmin 1 ((y - a) / (b - a)))))|].
    split; [now apply (N _ _ (heat_channel 4 (Rmin 1 ((y - a) / (b - a)))))|reflexivity].
Qed.

(** No-data: opaque gray of the platform's conversion of NaN. *)
Theorem C42_nan K min max compress val : compress val = S754_nan ->
  heatmap K min max compress val = gray (oor_u8 K S754_nan mod 256).
Proof.
  intros H. rewrite heatmap_eq, H. assert (E : f_lt S754_nan (compress min) = false) by (destruct (compress min); reflexivity). rewrite E.
  assert (P : position (compress min) (compress max) S754_nan = S754_nan) by (destruct (compress min), (compress max); reflexivity). rewrite P.
  destruct K as [o1 o2 F]. unfold heat_color, heat_hue, heat_light, heat_chroma. cbn [k_fused].
  destruct (F AtHue), (F AtLight), (F AtChroma); reflexivity.
Qed.

Example C42_case : gradient_bounds (Id (fl 1)) (Id (fl 75)) 1 75.
Proof.
  split; [apply has_int; lia|]. split; [apply has_int; lia|]. split; [lra|]. 
  rewrite <- (bpow_powerRZ radix2). assert (bpow radix2 7 < bpow radix2 1023)%R by (apply bpow_lt; lia).
  change (bpow radix2 7) with 128%R in *. lra.
Qed.
Print Assumptions C42_between.
