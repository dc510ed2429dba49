(** C41: Graymap, and the clamped relative position all colour maps use. *)
From Coq Require Import Reals Lia Lra Psatz.
From Flocq Require Import Core Relative Plus_error BinarySingleNaN.
From Verif Require Import GoBase GoFloat Catalog Composite Projection Radolan Vis
  SpecReal SpecVis BaseFacts FloatFacts PropFloat PropProjFloat VisFacts.
Local Open Scope Z_scope.

(** The position of [v] between [lo] and [hi], as the colour maps compute it. *)
Definition position (lo hi v : f64) : f64 :=
  let p := f64_div (f64_sub v lo) (f64_sub hi lo) in if f_lt (fl 1) p then fl 1 else p.

Lemma has_fun x a b : has x a -> has x b -> a = b.
Proof. intros [_ H1] [_ H2]. exact (is_value_fun _ _ _ H1 H2). Qed.

Lemma format_top : format64 (bpow radix2 1023).
Proof. apply generic_format_bpow. unfold FLT_exp, emax64, prec64. lia. Qed.

(** A positive difference does not round to zero. *)
Lemma diff_pos x y a b : has x a -> has y b -> (a < b)%R -> (0 < rnd64 (b - a))%R.
Proof.
  intros [Vx Hx] [Vy Hy] H. pose proof (format64_of x a Vx Hx) as Fx. pose proof (format64_of y b Vy Hy) as Fy.
  assert (N : rnd64 (b - a) <> 0%R). { apply round_plus_neq_0; try exact _; [exact Fy|apply generic_format_opp; exact Fx|lra]. }
  pose proof (rnd64_pos (b - a) ltac:(lra)). lra.
Qed.

Section Pos.
Variables (lo hi : f64) (a b : R).
Hypothesis G : gradient_bounds lo hi a b.
Notation delta := (rnd64 (b - a)).

Lemma delta_has : has (f64_sub hi lo) delta /\ (0 < delta)%R.
Proof.
  destruct G as ([V1 H1] & [V2 H2] & L & U). rewrite <- (bpow_powerRZ radix2) in U.
  pose proof (sub64 hi lo b a V2 V1 H2 H1) as R0.
  assert (B : (rnd64 (b - a) <= bpow radix2 1023)%R).
  { rewrite <- (rnd64_format _ format_top). apply rnd64_le. lra. }
  assert (P : (0 < delta)%R) by (apply (diff_pos lo hi a b); [split|split|]; assumption).
  split; [split|assumption].
  - exact (proj1 R0).
  - eapply result_value; [exact R0|]. fold rnd64. rewrite Rabs_pos_eq by lra.
    assert (bpow radix2 1023 < bpow radix2 emax64)%R by (apply bpow_lt; reflexivity). lra.
Qed.

Lemma inf_position q d : q = infinity -> has d delta ->
  (let p := f64_div q d in if f_lt (fl 1) p then fl 1 else p) = fl 1.
Proof.
  intros -> [_ Hd]. destruct delta_has as [_ P].
  destruct d as [s|s| |s m e]; try (exfalso; exact Hd); [cbn in Hd; lra|].
  destruct s; [exfalso|reflexivity]. cbn [is_value] in Hd. rewrite <- (bpow_powerRZ radix2) in Hd.
  assert (0 < IZR (Zpos m) * bpow radix2 e)%R by (apply Rmult_lt_0_compat; [apply IZR_lt; lia|apply bpow_gt_0]). lra.
Qed.

Lemma position_inf : position lo hi infinity = fl 1.
Proof.
  unfold position. apply inf_position; [|exact (proj1 delta_has)].
  destruct G as ([_ H1] & _). destruct lo; try (exfalso; exact H1); reflexivity.
Qed.

(** The exact float64 result. *)
Lemma position_value v y : has v y -> (a <= y)%R -> has (position lo hi v) (Rmin 1 (rnd64 (rnd64 (y - a) / delta))).
Proof.
  intros Hv Hy. destruct delta_has as [[Vd Hd] P]. pose proof G as ([V1 H1] & _ & _ & _). destruct Hv as [Vv Hv].
  unfold position. pose proof (sub64 v lo y a Vv V1 Hv H1) as R1.
  pose proof (rnd64_pos (y - a) ltac:(lra)) as P1.
  destruct (Rlt_or_le (rnd64 (y - a)) (bpow radix2 emax64)) as [Hs|Hb].
  - assert (Hq : is_value (f64_sub v lo) (rnd64 (y - a))).
    { eapply result_value; [exact R1|]. fold rnd64. now rewrite Rabs_pos_eq. }
    pose proof (div64 _ _ _ _ (proj1 R1) Vd Hq Hd ltac:(lra)) as R2.
    assert (P2 : (0 <= rnd64 (y - a) / delta)%R). { apply Rmult_le_pos; [lra|]. left. now apply Rinv_0_lt_compat. }
    pose proof (rnd64_pos _ P2) as P3. set (s := rnd64 (rnd64 (y - a) / delta)) in *.
    destruct (Rlt_or_le s (bpow radix2 emax64)) as [Hs2|Hb2].
    + assert (Hp : has (f64_div (f64_sub v lo) (f64_sub hi lo)) s).
      { split; [exact (proj1 R2)|]. eapply result_value; [exact R2|]. fold rnd64. fold s. now rewrite Rabs_pos_eq. }
      pose proof (lt_has _ _ _ _ (has_int 1 ltac:(lia)) Hp) as Hlt. cbv zeta.
      destruct (f_lt (fl 1) _) eqn:Ef.
      * rewrite Rmin_left by (apply Rlt_le, Hlt; reflexivity). apply has_int. lia.
      * rewrite Rmin_right; [exact Hp|]. apply Rnot_lt_le. intros Hc. apply Hlt in Hc. congruence.
    + assert (Ei : f64_div (f64_sub v lo) (f64_sub hi lo) = infinity).
      { destruct R2 as [_ R2]. fold rnd64 in R2. fold s in R2. rewrite Rabs_pos_eq in R2 by lra. rewrite Rlt_bool_false in R2 by lra.
        rewrite R2. unfold infinity. f_equal. apply Rlt_bool_false. lra. }
      rewrite Ei. change (has (fl 1) (Rmin 1 s)). rewrite Rmin_left; [apply has_int; lia|].
      assert (1 < bpow radix2 emax64)%R by (change 1%R with (bpow radix2 0); apply bpow_lt; reflexivity). lra.
  - assert (Ei : f64_sub v lo = infinity).
    { destruct R1 as [_ R1]. fold rnd64 in R1. rewrite Rabs_pos_eq in R1 by lra. rewrite Rlt_bool_false in R1 by lra.
      rewrite R1. unfold infinity. f_equal. apply Rlt_bool_false. lra. }
    pose proof (inf_position _ _ Ei (conj Vd Hd)) as Ep. cbv zeta in Ep |- *. rewrite Ep.
    assert (L : (delta < bpow radix2 emax64)%R).
    { pose proof (value64_bound _ _ Vd Hd) as Hb'. rewrite Rabs_pos_eq in Hb' by lra. exact Hb'. }
    rewrite Rmin_left; [apply has_int; lia|]. rewrite <- rnd64_1. apply rnd64_le.
    apply Rmult_le_reg_r with delta; [assumption|]. unfold Rdiv. rewrite Rmult_assoc, Rinv_l by lra. lra.
Qed.

Lemma position_range v : at_least a v -> exists r, has (position lo hi v) r /\ (0 <= r <= 1)%R.
Proof.
  intros [->|(y & Hv & Hy)].
  - exists 1%R. rewrite position_inf. split; [apply has_int; lia|lra].
  - exists (Rmin 1 (rnd64 (rnd64 (y - a) / delta))). split; [exact (position_value v y Hv Hy)|]. destruct delta_has as [_ P]. split; [|apply Rmin_l].
    apply Rmin_glb; [lra|]. apply rnd64_pos. apply Rmult_le_pos; [apply rnd64_pos; lra|]. left. now apply Rinv_0_lt_compat.
Qed.

Lemma position_top v : at_least b v -> has (position lo hi v) 1.
Proof.
  intros [->|(y & Hv & Hy)].
  - rewrite position_inf. apply has_int. lia.
  - pose proof G as (_ & _ & L & _). pose proof (position_value v y Hv ltac:(lra)) as H. rewrite Rmin_left in H; [exact H|].
    destruct delta_has as [_ P]. rewrite <- rnd64_1. apply rnd64_le.
    apply Rmult_le_reg_r with delta; [assumption|]. unfold Rdiv. rewrite Rmult_assoc, Rinv_l by lra.
    rewrite Rmult_1_l, Rmult_1_r. apply rnd64_le. lra.
Qed.

Lemma position_bottom v : has v a -> has (position lo hi v) 0.
Proof.
  intros Hv. pose proof (position_value v a Hv ltac:(lra)) as H. rewrite Rminus_eq_0, rnd64_0 in H.
  unfold Rdiv in H. rewrite Rmult_0_l, rnd64_0, Rmin_right in H by lra. exact H.
Qed.

Lemma position_mono v w y z r s : has v y -> has w z -> (a <= y <= z)%R ->
  has (position lo hi v) r -> has (position lo hi w) s -> (r <= s)%R.
Proof.
  intros Hv Hw H Hr Hs. rewrite (has_fun _ _ _ Hr (position_value v y Hv ltac:(lra))), (has_fun _ _ _ Hs (position_value w z Hw ltac:(lra))).
  destruct delta_has as [_ P]. apply Rle_min_compat_l. apply rnd64_le. unfold Rdiv.
  apply Rmult_le_compat_r; [left; now apply Rinv_0_lt_compat|]. apply rnd64_le. lra.
Qed.

(** How exact it is. *)
Lemma sub_rel x y c d : has x c -> has y d -> exists e, (Rabs e <= bpow radix2 (-53))%R /\ rnd64 (d - c) = ((d - c) * (1 + e))%R.
Proof.
  intros [Vx Hx] [Vy Hy]. pose proof (format64_of x c Vx Hx) as Fx. pose proof (format64_of y d Vy Hy) as Fy.
  destruct (FLT_plus_error_N_ex radix2 (3 - emax64 - prec64) prec64 (fun n => negb (Z.even n)) d (- c) Fy (generic_format_opp _ _ _ Fx)) as (e & He & E).
  exists e. split; [|exact E]. eapply Rle_trans; [exact He|].
  assert (U : u_ro radix2 prec64 = bpow radix2 (-53)).
  { unfold u_ro. change (- prec64 + 1) with (-52). change (-53) with (-1 + -52). rewrite bpow_plus. reflexivity. }
  rewrite U. pose proof (bpow_gt_0 radix2 (-53)). apply Rmult_le_reg_r with (1 + bpow radix2 (-53))%R; [lra|].
  unfold Rdiv. rewrite Rmult_assoc, Rinv_l by lra. nra.
Qed.

Lemma position_error v y r : has v y -> (a <= y)%R -> has (position lo hi v) r ->
  (Rabs (r - Rmin 1 ((y - a) / (b - a))) <= powerRZ 2 (-50))%R.
Proof.
  intros Hv Hy Hr. rewrite <- (bpow_powerRZ radix2). pose proof G as (H1 & H2 & L & _).
  destruct (Rle_or_lt b y) as [Ht|Ht].
  - assert (T : at_least b v) by (right; exists y; auto). rewrite (has_fun _ _ _ Hr (position_top v T)).
    rewrite Rmin_left. { rewrite Rminus_eq_0, Rabs_R0. apply bpow_ge_0. }
    apply Rmult_le_reg_r with (b - a)%R; [lra|]. unfold Rdiv. rewrite Rmult_assoc, Rinv_l by lra. lra.
  - rewrite (has_fun _ _ _ Hr (position_value v y Hv Hy)).
    destruct (sub_rel lo v a y H1 Hv) as (e1 & B1 & E1). destruct (sub_rel lo hi a b H1 H2) as (e2 & B2 & E2).
    rewrite E1, E2. destruct tiny_small as [T1 _].
    replace (bpow radix2 (-50)) with (8 * bpow radix2 (-53))%R by (change (-50) with (3 + -53); rewrite bpow_plus; reflexivity).
    pose proof (rnd64_error 1 ((y - a) * (1 + e1) / ((b - a) * (1 + e2)))%R ltac:(lia)) as Er.
    replace (bpow radix2 (1 - 53)) with (2 * bpow radix2 (-53))%R in Er by (change (1 - 53) with (1 + -53); rewrite bpow_plus; reflexivity).
    change (bpow radix2 1) with 2%R in Er.
    set (u := bpow radix2 (-53)) in *. apply Rabs_le_inv in B1, B2.
    set (t := ((y - a) / (b - a))%R).
    assert (Tt : (0 <= t <= 1)%R).
    { unfold t. split; [apply Rmult_le_pos; [lra|left; apply Rinv_0_lt_compat; lra]|].
      apply Rmult_le_reg_r with (b - a)%R; [lra|]. unfold Rdiv. rewrite Rmult_assoc, Rinv_l by lra. lra. }
    assert (I : (1 - 2 * u <= / (1 + e2) <= 1 + 2 * u)%R).
    { assert (I1 : (/ (1 + e2) * (1 + e2) = 1)%R) by (apply Rinv_l; lra). set (w := (/ (1 + e2))%R) in *.
      assert (0 < w)%R by (apply Rinv_0_lt_compat; lra). split; nra. }
    assert (Q : ((y - a) * (1 + e1) / ((b - a) * (1 + e2)) = t * (1 + e1) * / (1 + e2))%R) by (unfold t; field; split; lra).
    rewrite Q in Er |- *. set (w := (/ (1 + e2))%R) in *.
    assert (M : (1 - 4 * u <= (1 + e1) * w <= 1 + 4 * u)%R) by (split; nra).
    assert (D : (Rabs (t * (1 + e1) * w - t) <= 4 * u)%R).
    { replace (t * (1 + e1) * w - t)%R with (t * ((1 + e1) * w - 1))%R by ring. rewrite Rabs_mult, (Rabs_pos_eq t) by lra.
      assert (Rabs ((1 + e1) * w - 1) <= 4 * u)%R by (apply Rabs_le; lra).
      pose proof (Rabs_pos ((1 + e1) * w - 1)). nra. }
    apply Rabs_le_inv in D. 
    specialize (Er ltac:(apply Rabs_le; lra)). apply Rabs_le_inv in Er.
    set (z := rnd64 (t * (1 + e1) * w)) in *. rewrite (Rmin_right 1 t) by lra. apply Rabs_le.
    unfold Rmin. destruct (Rle_dec 1 z); lra.
Qed.

(** 255 times the position, as the byte is computed from it. *)
Lemma scaled_position p r : has p r -> (0 <= r <= 1)%R -> has (f64_mul (fl 255) p) (rnd64 (255 * r)) /\
  (0 <= rnd64 (255 * r) <= 255)%R /\ (Rabs (rnd64 (255 * r) - 255 * r) <= u10)%R.
Proof.
  intros Hp Hr. destruct (has_mul (fl 255) p 255 r (has_int 255 ltac:(lia)) Hp) as [H1 H2].
  - rewrite Rabs_pos_eq; lra.
  - split; [exact H1|]. split; [|exact H2]. split.
    + apply rnd64_pos. lra.
    + rewrite <- (rnd64_int 255 ltac:(lia)) at 2. apply rnd64_le. lra.
Qed.
End Pos.

(** * C41 *)

Lemma graymap_eq K min max compress val : graymap K min max compress val =
  if f_lt (compress val) (compress min) then black else gray (to_u8 K (f64_mul (fl 255) (position (compress min) (compress max) (compress val)))).
Proof. reflexivity. Qed.

Lemma not_below lo v a : has lo a -> valid64 v -> at_least a v -> f_lt v lo = false.
Proof.
  intros Hl Vv [->|(y & Hv & Hy)].
  - destruct Hl as [_ Hl]. destruct lo; try (exfalso; exact Hl); reflexivity.
  - apply not_true_is_false. intros H. apply (lt_has _ _ _ _ Hv Hl) in H. lra.
Qed.
Lemma below_or lo v a : has lo a -> valid64 v -> v <> S754_nan -> f_lt v lo = true \/ at_least a v.
Proof.
  intros Hl Vv Hn. destruct v as [s|s| |s m e]; try congruence.
  - destruct (Rlt_or_le 0 a) as [H|H]; [left; apply (lt_has _ lo 0 a); [split; [exact Vv|reflexivity]|exact Hl|exact H]|].
    right. right. exists 0%R. split; [split; [exact Vv|reflexivity]|exact H].
  - destruct s; [left|right; left; reflexivity]. destruct Hl as [_ Hl]. destruct lo; try (exfalso; exact Hl); reflexivity.
  - assert (Hv : exists y, has (S754_finite s m e) y) by (eexists; split; [exact Vv|reflexivity]).
    destruct Hv as [y Hv]. destruct (Rlt_or_le y a) as [H|H]; [left; now apply (lt_has _ lo y a)|right; right; eauto].
Qed.

(** Below the minimum: black, whatever the maximum. *)
Theorem C41_below K min max compress val : f_lt (compress val) (compress min) = true ->
  graymap K min max compress val = black.
Proof. intros H. rewrite graymap_eq, H. reflexivity. Qed.

(** From the maximum upwards (and for +Inf): white. *)
Theorem C41_above K min max compress val a b : gradient_bounds (compress min) (compress max) a b ->
  valid64 (compress val) -> at_least b (compress val) -> graymap K min max compress val = gray 255.
Proof.
  intros G Vv Hv. rewrite graymap_eq.
  assert (Ha : at_least a (compress val)). { destruct Hv as [Hv|(y & Hv & Hy)]; [now left|right; exists y; destruct G as (_ & _ & ? & _); split; [assumption|lra]]. }
  rewrite (not_below _ _ a (proj1 G) Vv Ha).
  pose proof (position_top _ _ a b G _ Hv) as Hp. destruct (scaled_position _ _ Hp ltac:(lra)) as (Hs & Hb & He).
  destruct (to_u8_value K _ _ (proj2 Hs) ltac:(lra)) as [-> _]. rewrite Rmult_1_r, (rnd64_int 255) by lia. now rewrite Ztrunc_IZR.
Qed.

(** In between: opaque gray, independent of the platform, and within one step
    of 255 times the relative position. *)
Theorem C41_between min max compress val a b y : gradient_bounds (compress min) (compress max) a b ->
  has (compress val) y -> (a <= y)%R ->
  exists l, (forall K, graymap K min max compress val = gray l) /\ 0 <= l <= 255 /\
    rounded_down l (255 * Rmin 1 ((y - a) / (b - a))).
Proof.
  intros G Hv Hy. assert (Ha : at_least a (compress val)) by (right; eauto).
  destruct (position_range _ _ a b G _ Ha) as (r & Hr & Br).
  destruct (scaled_position _ _ Hr Br) as (Hs & Hb & He).
  exists (Ztrunc (rnd64 (255 * r))). split; [|split].
  - intros K. rewrite graymap_eq, (not_below _ _ a (proj1 G) (proj1 Hv) Ha).
    destruct (to_u8_value K _ _ (proj2 Hs) ltac:(lra)) as [-> _]. reflexivity.
  - exact (proj2 (to_u8_value (mk_convs (fun _ => 0) (fun _ => 0) (fun _ => false)) _ _ (proj2 Hs) ltac:(lra))).
  - unfold rounded_down. pose proof (position_error _ _ a b G _ y r Hv Hy Hr) as Ep. rewrite <- (bpow_powerRZ radix2) in Ep.
    assert (bpow radix2 (-50) < / 1000000000)%R.
    { change (bpow radix2 (-50)) with (/ IZR (2 ^ 50))%R. apply Rinv_lt_contravar; lra. }
    pose proof u10_small. apply Rabs_le_inv in Ep, He. rewrite Ztrunc_floor by lra.
    pose proof (Zfloor_lb (rnd64 (255 * r))). pose proof (Zfloor_ub (rnd64 (255 * r))). split; lra.
Qed.

(** Larger values are never darker. *)
Theorem C41_monotone K min max compress v w a b y z : gradient_bounds (compress min) (compress max) a b ->
  has (compress v) y -> has (compress w) z -> (y <= z)%R ->
  exists l m, graymap K min max compress v = gray l /\ graymap K min max compress w = gray m /\ l <= m.
Proof.
  intros G Hv Hw H. destruct (Rlt_or_le y a) as [Hy|Hy].
  - exists 0. rewrite (C41_below K min max compress v) by (apply (lt_has _ _ y a); [assumption|apply G|assumption]).
    destruct (Rlt_or_le z a) as [Hz|Hz].
    + exists 0. rewrite (C41_below K min max compress w) by (apply (lt_has _ _ z a); [assumption|apply G|assumption]). repeat split; lia.
    + destruct (C41_between min max compress w a b z G Hw Hz) as (m & Hm & Bm & _). exists m. rewrite Hm. repeat split; lia.
  - assert (Ha : forall u x, has (compress u) x -> (a <= x)%R -> at_least a (compress u)) by (intros u x ? ?; right; eauto).
    destruct (position_range _ _ a b G _ (Ha v y Hv Hy)) as (r & Hr & Br).
    destruct (position_range _ _ a b G _ (Ha w z Hw ltac:(lra))) as (s & Hs & Bs).
    pose proof (position_mono _ _ a b G _ _ y z r s Hv Hw ltac:(lra) Hr Hs) as Hm.
    destruct (scaled_position _ _ Hr Br) as (Hr' & Hbr & _). destruct (scaled_position _ _ Hs Bs) as (Hs' & Hbs & _).
    exists (Ztrunc (rnd64 (255 * r))), (Ztrunc (rnd64 (255 * s))). rewrite !graymap_eq.
    rewrite (not_below _ _ a (proj1 G) (proj1 Hv) (Ha v y Hv Hy)), (not_below _ _ a (proj1 G) (proj1 Hw) (Ha w z Hw ltac:(lra))).
    destruct (to_u8_value K _ _ (proj2 Hr') ltac:(lra)) as [-> _]. destruct (to_u8_value K _ _ (proj2 Hs') ltac:(lra)) as [-> _].
    split; [reflexivity|]. split; [reflexivity|]. apply Ztrunc_le. apply rnd64_le. lra.
Qed.

(** Always opaque and gray; only NaN depends on the platform, namely on its
    conversion of NaN to a byte. *)
Theorem C41_opaque K min max compress val : exists l, graymap K min max compress val = gray l.
Proof. rewrite graymap_eq. destruct (f_lt _ _); [exists 0; reflexivity|eauto]. Qed.

Theorem C41_portable K K' min max compress val a b : gradient_bounds (compress min) (compress max) a b ->
  valid64 (compress val) -> compress val <> S754_nan ->
  graymap K min max compress val = graymap K' min max compress val.
Proof.
  intros G Vv Hn. destruct (below_or _ _ a (proj1 G) Vv Hn) as [H|Ha].
  - now rewrite !C41_below.
  - rewrite !graymap_eq, (not_below _ _ a (proj1 G) Vv Ha).
    destruct (position_range _ _ a b G _ Ha) as (r & Hr & Br). destruct (scaled_position _ _ Hr Br) as (Hs & Hb & _).
    destruct (to_u8_value K _ _ (proj2 Hs) ltac:(lra)) as [-> _]. destruct (to_u8_value K' _ _ (proj2 Hs) ltac:(lra)) as [-> _]. reflexivity.
Qed.

Theorem C41_nan K min max compress val : compress val = S754_nan ->
  graymap K min max compress val = gray (oor_u8 K S754_nan mod 256).
Proof. intros H. rewrite graymap_eq, H. destruct (compress min); reflexivity. Qed.

Example C41_case : gradient_bounds (Id (fl 0)) (Id (fl 15)) 0 15.
Proof.
  split; [apply has_int; lia|]. split; [apply has_int; lia|]. split; [lra|]. 
  rewrite <- (bpow_powerRZ radix2). assert (bpow radix2 4 < bpow radix2 1023)%R by (apply bpow_lt; lia).
  change (bpow radix2 4) with 16%R in *. lra.
Qed.
