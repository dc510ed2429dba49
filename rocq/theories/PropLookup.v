(** C55: looking up the pixel of a geographic position. *)
From Coq Require Import Reals Lra Lia Psatz.
From Flocq Require Import Core Relative BinarySingleNaN.
From Verif Require Import GoBase GoFloat Catalog Composite Header Data Projection Radolan Vis SpecReal SpecProj ExactReal SpecAccuracy SpecRain BaseFacts
  CompositeFacts Spec ApiFacts FloatFacts PropFloat PropGrid PropReal PropProjFloat VisFacts AccFacts PropAccuracy.
Local Open Scope R_scope.

Lemma trunc_index k t x i : Rabs (x - t) <= IZR k / 10 ^ 9 -> pixel_index k t i -> Ztrunc x = i.
Proof.
  intros H [[Hi Ht]|[-> Ht]]; apply Rabs_le_inv in H.
  - apply IZR_le in Hi. rewrite Ztrunc_floor by lra. apply Zfloor_imp. rewrite plus_IZR. lra.
  - destruct (Rle_or_lt 0 x).
    + rewrite Ztrunc_floor by lra. apply Zfloor_imp. rewrite plus_IZR. lra.
    + rewrite Ztrunc_ceil by lra. apply Zceil_imp. rewrite minus_IZR. lra.
Qed.
Lemma trunc_off k t x : (0 <= k)%Z -> Rabs (x - t) <= IZR k / 10 ^ 9 -> off_axis k t -> (Ztrunc x < 0 \/ k <= Ztrunc x)%Z.
Proof.
  intros Hk H [Ht|Ht]; apply Rabs_le_inv in H; apply IZR_le in Hk.
  - left. rewrite Ztrunc_ceil by lra. apply Z.le_lt_trans with (-1)%Z; [apply Zceil_glb; lra|lia].
  - right. rewrite Ztrunc_floor by lra. apply Zfloor_lub. lra.
Qed.

Lemma index_range k t x : (1 <= k <= 2 ^ 50)%Z -> Rabs t <= 80 -> Rabs (x - IZR k * t) <= IZR k / 10 ^ 9 -> Rabs x < IZR (2 ^ 62).
Proof.
  intros [Hk Hk'] Ht Hx. apply IZR_le in Hk, Hk'. change (2 ^ 50)%Z with 1125899906842624%Z in Hk'. change (2 ^ 62)%Z with 4611686018427387904%Z.
  apply Rabs_le_inv in Ht, Hx. apply Rabs_lt. split; nra.
Qed.

(** A position that is clearly inside the area of pixel (i, j) is looked up
    there, whatever the accurate math library. *)
Theorem C55_pixel M K (c : composite (num (arith64 M))) size nw se nwR seR north east n e i j :
  accurate_library (powerRZ 2 (-48)) M -> on_float_grid M c size nw se -> documented_corners size (5 <=? c_format c)%Z nwR seR ->
  within (powerRZ 2 (-47)) north n -> within (powerRZ 2 (-46)) east e -> 0 <= n <= 90 -> -180 <= e <= 190 ->
  (c_dx c <= 2 ^ 50)%Z -> (c_dy c <= 2 ^ 50)%Z ->
  let q := exact_fraction (c_format c) nwR seR n e in
  pixel_index (c_dx c) (IZR (c_dx c) * fst q) i -> pixel_index (c_dy c) (IZR (c_dy c) * snd q) j ->
  value_at M K c north east = at_ (arith64 M) c i j.
Proof.
  intros HM Hg Hd Wn We Rn Re Bx By q Hi Hj.
  destruct (accuracy_bounded M c size nw se nwR seR north east n e HM Hg Hd Wn We Rn Re) as (x & y & X1 & Y1 & X2 & Y2 & Q1 & Q2 & _).
  fold q in X2, Y2, Q1, Q2. destruct (resampled_pos _ _ _ _ _ _ Hd (proj1 (proj2 Hg))) as [Px Py].
  unfold value_at. cbv zeta.
  rewrite (to_int_value K _ x X1), (to_int_value K _ y Y1).
  - now rewrite (trunc_index _ _ _ _ X2 Hi), (trunc_index _ _ _ _ Y2 Hj).
  - apply (index_range (c_dy c) (snd q)); [lia|assumption|assumption].
  - apply (index_range (c_dx c) (fst q)); [lia|assumption|assumption].
Qed.

(** A position clearly off the grid gives NaN. *)
Theorem C55_outside M K (c : composite (num (arith64 M))) size nw se nwR seR north east n e :
  accurate_library (powerRZ 2 (-48)) M -> on_float_grid M c size nw se -> documented_corners size (5 <=? c_format c)%Z nwR seR ->
  within (powerRZ 2 (-47)) north n -> within (powerRZ 2 (-46)) east e -> 0 <= n <= 90 -> -180 <= e <= 190 ->
  (c_dx c <= 2 ^ 50)%Z -> (c_dy c <= 2 ^ 50)%Z ->
  let q := exact_fraction (c_format c) nwR seR n e in
  off_axis (c_dx c) (IZR (c_dx c) * fst q) \/ off_axis (c_dy c) (IZR (c_dy c) * snd q) ->
  value_at M K c north east = Some NaN32.
Proof.
  intros HM Hg Hd Wn We Rn Re Bx By q Hq.
  destruct (accuracy_bounded M c size nw se nwR seR north east n e HM Hg Hd Wn We Rn Re) as (x & y & X1 & Y1 & X2 & Y2 & Q1 & Q2 & _).
  fold q in X2, Y2, Q1, Q2. destruct (resampled_pos _ _ _ _ _ _ Hd (proj1 (proj2 Hg))) as [Px Py].
  unfold value_at. cbv zeta. 
  assert (Ix : Rabs x < IZR (2 ^ 62)) by (apply (index_range (c_dx c) (fst q)); [lia|assumption|assumption]).
  assert (Iy : Rabs y < IZR (2 ^ 62)) by (apply (index_range (c_dy c) (snd q)); [lia|assumption|assumption]).
  rewrite (to_int_value K _ x X1 Ix), (to_int_value K _ y Y1 Iy). unfold at_. apply at_z_outside. unfold inside.
  destruct Hq as [Hq|Hq]; [apply (trunc_off _ _ x) in Hq|apply (trunc_off _ _ y) in Hq]; try assumption; lia.
Qed.

(** * Concrete cases *)
Lemma lit_within m k B d x : (Z.abs m <> 0)%Z -> (0 <= k)%Z -> x = IZR m / IZR (10 ^ k) -> Rabs x <= B -> B <= 55 ->
  (0 <= d <= 52)%Z -> 32 <= powerRZ 2 (52 - d) -> within (powerRZ 2 (- d)) (deg m k) x.
Proof.
  intros Hm Hk -> HB B55 Hd Hd'. destruct (approx_lit m k B Hm Hk HB ltac:(lra)) as (V & _ & _ & v & Xv & Dv).
  split; [exact V|]. exists v. split; [exact Xv|]. eapply Rle_trans; [exact Dv|]. rewrite (units d _ Hd eq_refl).
  apply Rmult_le_compat_r; [pose proof u_small; lra|]. unfold tiny. num.
Qed.

(** The north-western corner of the national grid is in pixel (0, 0). *)
Example C55_case_pixel : let c := new_dummy (arith64 correct) [] 3 450 450 in
  let q := exact_fraction (c_format c) (54.5877, 2.0715) (47.0705, 14.6209) 54.5877 2.0715 in
  within (powerRZ 2 (-47)) (deg 545877 4) 54.5877 /\ within (powerRZ 2 (-46)) (deg 20715 4) 2.0715 /\
  (c_dx c <= 2 ^ 50)%Z /\ (c_dy c <= 2 ^ 50)%Z /\
  pixel_index (c_dx c) (IZR (c_dx c) * fst q) 0 /\ pixel_index (c_dy c) (IZR (c_dy c) * snd q) 0.
Proof.
  cbv zeta. destruct (dummy_fields (arith64 correct) [] 3 450 450) as (-> & -> & ->).
  split; [apply (lit_within 545877 4 55 47); try lia; try lra; try reflexivity; [apply Rabs_le; lra|simpl; lra]|].
  split; [apply (lit_within 20715 4 55 46); try lia; try lra; try reflexivity; [apply Rabs_le; lra|simpl; lra]|].
  split; [lia|]. split; [lia|]. unfold exact_fraction. cbn [fst snd]. rewrite !Rminus_eq_0. unfold Rdiv. rewrite !Rmult_0_l, !Rmult_0_r.
  split; right; (split; [reflexivity|lra]).
Qed.

(** The north pole is off the national grid. *)
Example C55_case_outside : let c := new_dummy (arith64 correct) [] 3 450 450 in
  let q := exact_fraction (c_format c) (54.5877, 2.0715) (47.0705, 14.6209) 90 10 in
  within (powerRZ 2 (-47)) (f64_of_int 90) 90 /\ within (powerRZ 2 (-46)) (f64_of_int 10) 10 /\
  off_axis (c_dy c) (IZR (c_dy c) * snd q).
Proof.
  cbv zeta. destruct (dummy_fields (arith64 correct) [] 3 450 450) as (-> & _ & ->).
  destruct (of_int_value64 90 ltac:(lia)), (of_int_value64 10 ltac:(lia)).
  split; [split; [assumption|]; eexists; split; [eassumption|]; rewrite Rminus_eq_0, Rabs_R0; apply powerRZ_le; lra|].
  split; [split; [assumption|]; eexists; split; [eassumption|]; rewrite Rminus_eq_0, Rabs_R0; apply powerRZ_le; lra|].
  left. destruct (spans 3 (900, 900)%Z (54.5877, 2.0715) (47.0705, 14.6209) ltac:(constructor)) as [_ S].
  unfold exact_fraction, plane in *. cbn [fst snd] in *. rewrite pole_distance_90, Rmult_0_l.
  pose proof pi_upper as Hpi.
  pose proof (distance_lower 3 54.5877 0.28 ltac:(lra) ltac:(lra) ltac:(unfold colat, radians; nra)) as Dn.
  pose proof (cos_lower (radians (2.0715 - 10)) ltac:(unfold radians; nra)) as Cn.
  pose proof (COS_bound (radians (14.6209 - 10))) as [_ Cs].
  assert (B : radians (2.0715 - 10) * radians (2.0715 - 10) <= 0.02) by (unfold radians; nra).
  assert (P : pole_distance 3 47.0705 <= 12741).
  { unfold pole_distance. change (5 <=? 3)%Z with false. cbv iota. pose proof (tan_colat_le_1 47.0705 ltac:(lra)). pose proof (tan_colat_nonneg 47.0705 ltac:(lra)).
    pose proof (SIN_bound (radians 60)). apply Rle_trans with (6370.04 * (1 + 1) * 1); [|lra].
    apply Rmult_le_compat; [|assumption| |assumption]; lra. }
  pose proof (pole_distance_pos 3 47.0705 ltac:(lra)) as P0.
  set (a := pole_distance 3 54.5877 * cos (radians (2.0715 - 10))) in *.
  set (b := pole_distance 3 47.0705 * cos (radians (14.6209 - 10))) in *.
  assert (3000 <= a).
  { unfold a. apply Rle_trans with (3200 * 0.98); [lra|]. apply Rmult_le_compat; lra. }
  assert (b <= 12741).
  { unfold b. apply Rle_trans with (pole_distance 3 47.0705 * 1); [|lra]. apply Rmult_le_compat_l; lra. }
  assert (F : (0 - a) / (b - a) <= - (1 / 5)).
  { apply Rmult_le_reg_r with (b - a); [lra|]. unfold Rdiv. rewrite Rmult_assoc, Rinv_l by lra. lra. }
  lra.
Qed.
Print Assumptions C55_pixel.
Print Assumptions C55_outside.
