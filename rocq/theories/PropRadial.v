(** C43: Radialmap. *)
From Coq Require Import Reals Lia Lra Psatz.
From Flocq Require Import Core Relative BinarySingleNaN.
From Verif Require Import GoBase GoFloat Catalog Composite Projection Radolan Vis
  SpecReal SpecVis BaseFacts FloatFacts PropFloat PropProjFloat VisFacts PropGray PropHeat.
Local Open Scope Z_scope.

(** The colour of a leading level and a background level: cyan tones for
    approaching (negative), red tones for departing air. *)
Definition toned (negative : bool) (lead back : Z) : rgba :=
  if negative then mk_rgba back lead lead 255 else mk_rgba lead back back 255.
(** The larger magnitude of the two bounds. *)
Definition magnitude (min max : f64) : f64 := f_max (f_abs min) (f_abs max).

Definition share (s b : f64) : f64 := let p := f64_div s b in if f_lt (fl 1) p then fl 1 else p.

Lemma radialmap_eq K min max compress val : radialmap K min max compress val =
  if negb (f_eq val val) then black
  else let lev := to_u8 K (f64_mul (fl 255) (share (compress (f_abs val)) (compress (magnitude min max)))) in
    if f_le (f_abs val) (fl 1) then toned (f_lt val (S754_zero false)) 255 204
    else toned (f_lt val (S754_zero false)) lev 0.
Proof. unfold radialmap, share, magnitude, toned. cbv zeta. destruct (negb _); [reflexivity|]. destruct (f_le _ _); reflexivity. Qed.

Theorem C43_nan K min max compress : radialmap K min max compress S754_nan = black.
Proof. reflexivity. Qed.
Theorem C43_opaque K min max compress val : r_a (radialmap K min max compress val) = 255.
Proof. rewrite radialmap_eq. cbv zeta. unfold toned. destruct (negb _); [reflexivity|]. destruct (f_le _ _); destruct (f_lt val _); reflexivity. Qed.

(** Opposite velocities get opposite tones of the same levels. *)
Lemma cmp_refl x : valid64 x -> x <> S754_nan -> f_eq x x = true.
Proof.
  intros V H. destruct x as [s|s| |s m e]; try congruence; try (destruct s; reflexivity).
  assert (Hv : has (S754_finite s m e) ((if s then -1 else 1) * IZR (Zpos m) * powerRZ 2 e)%R) by (split; [exact V|reflexivity]).
  destruct Hv as [_ Hv]. apply (eqb_values prec64 emax64 _ _ _ _ V V Hv Hv). reflexivity.
Qed.

Definition exchanged (c c' : rgba) : Prop :=
  r_r c' = r_g c /\ r_g c' = r_r c /\ r_b c' = r_r c /\ r_b c = r_g c /\ r_a c' = r_a c.

Theorem C43_mirror K min max compress val : valid64 val -> val <> S754_nan -> (forall s, val <> S754_zero s) ->
  exchanged (radialmap K min max compress val) (radialmap K min max compress (SFopp val)).
Proof.
  intros V Hn Hz. rewrite !radialmap_eq.
  assert (V' : valid64 (SFopp val)) by (destruct val; try exact V; reflexivity).
  assert (N' : SFopp val <> S754_nan) by (destruct val; cbn; congruence).
  rewrite !cmp_refl by assumption. cbn [negb]. cbv zeta.
  assert (E : f_abs (SFopp val) = f_abs val) by (destruct val; reflexivity). rewrite E.
  assert (S : f_lt (SFopp val) (S754_zero false) = negb (f_lt val (S754_zero false))).
  { destruct val as [s|s| |s m e]; try congruence; destruct s; reflexivity. }
  rewrite S. unfold exchanged, toned. destruct (f_le _ _); destruct (f_lt val _); cbn; auto 6.
Qed.

(** Air moving at most 1 m/s in either direction: a fixed pale tone. *)
Theorem C43_slow min max compress val y : has val y -> (Rabs y <= 1)%R -> forall K,
  (y < 0 -> radialmap K min max compress val = mk_rgba 204 255 255 255)%R /\
  (0 <= y -> radialmap K min max compress val = mk_rgba 255 204 204 255)%R.
Proof.
  intros H Hy K. rewrite radialmap_eq. rewrite cmp_refl by (destruct H as [V H]; try exact V; destruct val; try congruence; exfalso; exact H).
  cbn [negb]. cbv zeta.
  replace (f_le (f_abs val) (fl 1)) with true.
  2:{ symmetry. apply (le_has _ _ (Rabs y) 1); [now apply has_abs|apply has_int; lia|exact Hy]. }
  assert (Z0 : has (S754_zero false) 0) by (split; reflexivity).
  pose proof (lt_has _ _ _ _ H Z0) as Hl. unfold toned. split; intros Hs.
  - apply Hl in Hs. rewrite Hs. reflexivity.
  - destruct (f_lt val _); [|reflexivity]. exfalso. assert (y < 0)%R by (apply Hl; reflexivity). lra.
Qed.

(** The relative level. *)
Lemma share_value s b x y : has s x -> has b y -> (0 <= x)%R -> (0 < y)%R -> has (share s b) (Rmin 1 (rnd64 (x / y))).
Proof.
  intros [Vs Hs] [Vb Hb] Hx Hy. unfold share.
  pose proof (div64 _ _ _ _ Vs Vb Hs Hb ltac:(lra)) as R2.
  assert (P2 : (0 <= x / y)%R). { apply Rmult_le_pos; [lra|]. left. now apply Rinv_0_lt_compat. }
  pose proof (rnd64_pos _ P2) as P3. set (q := rnd64 (x / y)) in *.
  destruct (Rlt_or_le q (bpow radix2 emax64)) as [Hs2|Hb2].
  - assert (Hp : has (f64_div s b) q).
    { split; [exact (proj1 R2)|]. eapply result_value; [exact R2|]. fold rnd64. fold q. now rewrite Rabs_pos_eq. }
    pose proof (lt_has _ _ _ _ (has_int 1 ltac:(lia)) Hp) as Hlt. cbv zeta.
    destruct (f_lt (fl 1) _) eqn:Ef.
    + rewrite Rmin_left by (apply Rlt_le, Hlt; reflexivity). apply has_int. lia.
    + rewrite Rmin_right; [exact Hp|]. apply Rnot_lt_le. intros Hc. apply Hlt in Hc. congruence.
  - assert (Ei : f64_div s b = infinity).
    { destruct R2 as [_ R2]. fold rnd64 in R2. fold q in R2. rewrite Rabs_pos_eq in R2 by lra. rewrite Rlt_bool_false in R2 by lra.
      rewrite R2. unfold infinity. f_equal. apply Rlt_bool_false. lra. }
    rewrite Ei. change (has (fl 1) (Rmin 1 q)). rewrite Rmin_left; [apply has_int; lia|].
    assert (1 < bpow radix2 emax64)%R by (change 1%R with (bpow radix2 0); apply bpow_lt; reflexivity). lra.
Qed.

Lemma share_range x y : (0 <= x -> 0 < y -> 0 <= Rmin 1 (rnd64 (x / y)) <= 1)%R.
Proof.
  intros Hx Hy. split; [|apply Rmin_l]. apply Rmin_glb; [lra|]. apply rnd64_pos. apply Rmult_le_pos; [lra|]. left. now apply Rinv_0_lt_compat.
Qed.

Lemma share_error x y : (0 <= x -> 0 < y -> Rabs (Rmin 1 (rnd64 (x / y)) - Rmin 1 (x / y)) <= bpow radix2 (-52))%R.
Proof.
  intros Hx Hy. destruct (Rle_or_lt (x / y) 2) as [H|H].
  - assert (0 <= x / y)%R by (apply Rmult_le_pos; [lra|left; now apply Rinv_0_lt_compat]).
    pose proof (rnd64_error 1 (x / y) ltac:(lia)) as E. change (bpow radix2 1) with 2%R in E. change (1 - 53) with (-52) in E.
    specialize (E ltac:(rewrite Rabs_pos_eq; lra)). apply Rabs_le_inv in E. apply Rabs_le. unfold Rmin.
    destruct (Rle_dec 1 (rnd64 (x / y))), (Rle_dec 1 (x / y)); pose proof (bpow_gt_0 radix2 (-52)); lra.
  - assert (1 <= rnd64 (x / y))%R. { rewrite <- rnd64_1. apply rnd64_le. lra. }
    rewrite !Rmin_left by lra. rewrite Rminus_eq_0, Rabs_R0. apply bpow_ge_0.
Qed.

Lemma fast_eq K min max compress val y : has val y -> (1 < Rabs y)%R -> radialmap K min max compress val =
  toned (f_lt val (S754_zero false)) (to_u8 K (f64_mul (fl 255) (share (compress (f_abs val)) (compress (magnitude min max))))) 0.
Proof.
  intros H Hy. rewrite radialmap_eq. rewrite cmp_refl by (destruct H as [V H]; try exact V; destruct val; try congruence; exfalso; exact H).
  cbn [negb]. cbv zeta.
  destruct (f_le (f_abs val) (fl 1)) eqn:E; [|reflexivity]. exfalso.
  apply (le_has _ _ (Rabs y) 1) in E; [lra|now apply has_abs|apply has_int; lia].
Qed.

(** Faster air: the leading level, [t] close to the ratio of the compressed
    speed to the compressed bound. *)
Lemma fast_level min max compress val y s b t : has val y -> (1 < Rabs y)%R ->
  has (compress (f_abs val)) s -> (0 <= s)%R -> has (compress (magnitude min max)) b -> (0 < b)%R ->
  (Rabs (Rmin 1 (s / b) - t) <= / 10 ^ 10)%R ->
  exists l, 0 <= l <= 255 /\ rounded_down l (255 * t) /\ ((b <= s)%R -> l = 255) /\ forall K,
  (y < 0 -> radialmap K min max compress val = mk_rgba 0 l l 255)%R /\
  (0 < y -> radialmap K min max compress val = mk_rgba l 0 0 255)%R.
Proof.
  intros H Hy Hs Ps Hb Pb Ht. pose proof (share_value _ _ _ _ Hs Hb Ps Pb) as Hp. pose proof (share_range s b Ps Pb) as Br.
  pose proof (share_error s b Ps Pb) as Er.
  destruct (scaled_position _ _ Hp Br) as (Hc & Bc & Ec).
  set (r := Rmin 1 (rnd64 (s / b))) in *. exists (Ztrunc (rnd64 (255 * r))). split; [|split; [|split]].
  - exact (proj2 (to_u8_value (mk_convs (fun _ => 0) (fun _ => 0) (fun _ => false)) _ _ (proj2 Hc) ltac:(lra))).
  - unfold rounded_down. assert (bpow radix2 (-52) < / 1000000000)%R.
    { change (bpow radix2 (-52)) with (/ IZR (2 ^ 52))%R. apply Rinv_lt_contravar; lra. }
    pose proof u10_small. apply Rabs_le_inv in Er, Ec, Ht. rewrite Ztrunc_floor by lra.
    pose proof (Zfloor_lb (rnd64 (255 * r))). pose proof (Zfloor_ub (rnd64 (255 * r))). split; lra.
  - intros Hle. assert (E1 : r = 1%R).
    { unfold r. apply Rmin_left. rewrite <- rnd64_1. apply rnd64_le. apply Rmult_le_reg_r with b; [exact Pb|].
      unfold Rdiv. rewrite Rmult_assoc, Rinv_l by lra. lra. }
    rewrite E1, Rmult_1_r, (rnd64_int 255) by lia. apply Ztrunc_IZR.
  - intros K. rewrite (fast_eq K min max compress val y H Hy).
    destruct (to_u8_value K _ _ (proj2 Hc) ltac:(lra)) as [-> _].
    assert (Z0 : has (S754_zero false) 0) by (split; reflexivity).
    pose proof (lt_has _ _ _ _ H Z0) as Hl. unfold toned. split; intros Hsg.
    + apply Hl in Hsg. rewrite Hsg. reflexivity.
    + destruct (f_lt val _); [|reflexivity]. exfalso. assert (y < 0)%R by (apply Hl; reflexivity). lra.
Qed.

(** It is 255 times the ratio of the compressed speed to the compressed bound,
    rounded down; on every platform. *)
Theorem C43_fast min max compress val y s b : has val y -> (1 < Rabs y)%R ->
  has (compress (f_abs val)) s -> (0 <= s)%R -> has (compress (magnitude min max)) b -> (0 < b)%R ->
  exists l, 0 <= l <= 255 /\ rounded_down l (255 * Rmin 1 (s / b)) /\ ((b <= s)%R -> l = 255) /\ forall K,
  (y < 0 -> radialmap K min max compress val = mk_rgba 0 l l 255)%R /\
  (0 < y -> radialmap K min max compress val = mk_rgba l 0 0 255)%R.
Proof.
  intros. apply (fast_level min max compress val y s b); try assumption. rewrite Rminus_eq_0, Rabs_R0. lra.
Qed.

(** A speed that compresses to a larger number is never shown darker. *)
Theorem C43_monotone K min max compress v w y z s t b : has v y -> has w z -> (1 < y)%R -> (1 < z)%R ->
  has (compress (f_abs v)) s -> has (compress (f_abs w)) t -> (0 <= s <= t)%R -> has (compress (magnitude min max)) b -> (0 < b)%R ->
  r_r (radialmap K min max compress v) <= r_r (radialmap K min max compress w).
Proof.
  intros Hv Hw By Bz Hs Ht Bs Hb Pb.
  pose proof (share_value _ _ _ _ Hs Hb ltac:(lra) Pb) as P1. pose proof (share_range s b ltac:(lra) Pb) as R1.
  pose proof (share_value _ _ _ _ Ht Hb ltac:(lra) Pb) as P2. pose proof (share_range t b ltac:(lra) Pb) as R2.
  destruct (scaled_position _ _ P1 R1) as (C1 & D1 & _). destruct (scaled_position _ _ P2 R2) as (C2 & D2 & _).
  rewrite (fast_eq K min max compress v y Hv) by (rewrite Rabs_pos_eq; lra).
  rewrite (fast_eq K min max compress w z Hw) by (rewrite Rabs_pos_eq; lra).
  destruct (to_u8_value K _ _ (proj2 C1) ltac:(lra)) as [-> _]. destruct (to_u8_value K _ _ (proj2 C2) ltac:(lra)) as [-> _].
  assert (Z0 : has (S754_zero false) 0) by (split; reflexivity).
  assert (N : forall x q, has x q -> (1 < q)%R -> f_lt x (S754_zero false) = false).
  { intros x q Hx Hq. apply not_true_is_false. intros Hl. apply (lt_has _ _ _ _ Hx Z0) in Hl. lra. }
  rewrite (N v y Hv By), (N w z Hw Bz). cbn. apply Ztrunc_le. apply rnd64_le.
  apply Rmult_le_compat_l; [lra|]. apply Rle_min_compat_l. apply rnd64_le. unfold Rdiv.
  apply Rmult_le_compat_r; [left; now apply Rinv_0_lt_compat|lra].
Qed.

(** The case of the tool: bounds -31.5 and 31.5 (identity in place of the logarithm). *)
Example C43_case : has (Id (magnitude (flit (-315) 1) (flit 315 1))) (63 / 2) /\ has (Id (f_abs (fl (-20)))) 20 /\ has (fl (-20)) (-20).
Proof.
  split; [|split].
  - split; [reflexivity|].
    change (is_value (Id (magnitude (flit (-315) 1) (flit 315 1)))) with (is_value (S754_finite false 8866461766385664 (-48))).
    cbn [is_value]. rewrite <- (bpow_powerRZ radix2). change (bpow radix2 (-48)) with (/ IZR (2 ^ 48))%R. lra.
  - apply (has_int 20). lia.
  - apply has_int. lia.
Qed.
