(** C63: the sample gradients on every value a composite can hold. *)
From Coq Require Import Reals Lra Lia Psatz.
From Flocq Require Import Core BinarySingleNaN.
From Verif Require Import GoBase GoFloat Catalog Composite Projection Radolan Vis SpecReal SpecProj SpecVis SpecZR SpecSamples
  BaseFacts FloatFacts PropFloat PropProjFloat VisFacts AccFacts PropAccuracy PropGray PropHeat PropRadial PropZRFloat.
Local Open Scope R_scope.

Lemma heat_near K min max compress val a b y t : gradient_bounds (compress min) (compress max) a b ->
  has (compress val) y -> a <= y -> 0 <= t <= 1 -> Rabs (Rmin 1 ((y - a) / (b - a)) - t) <= bpow radix2 (-44) ->
  heat_color_at t (heatmap K min max compress val).
Proof.
  intros G Hv Hy Bt Ht. assert (Ha : at_least a (compress val)) by (right; eauto).
  destruct (position_range _ _ a b G _ Ha) as (r & Hr & Br).
  pose proof (position_error _ _ a b G _ y r Hv Hy Hr) as Ep. rewrite <- (bpow_powerRZ radix2) in Ep.
  assert (Eu : Rabs (r - t) <= u10).
  { assert (bpow radix2 (-50) <= bpow radix2 (-44)) by (apply bpow_le; lia).
    assert (u10 = 2 * bpow radix2 (-44)) by (unfold u10; change (-43)%Z with (1 + -44)%Z; rewrite bpow_plus; reflexivity).
    replace (r - t) with ((r - Rmin 1 ((y - a) / (b - a))) + (Rmin 1 ((y - a) / (b - a)) - t)) by ring.
    eapply Rle_trans; [apply Rabs_triang|]. lra. }
  destruct (heat_core (k_fused K) _ r t Hr Br Bt Eu) as (cr & cg & cb & H1 & _ & H2). exists cr, cg, cb. split; [|exact H2].
  rewrite heatmap_eq, (not_below _ _ a (proj1 G) (proj1 Hv) Ha). now apply H1.
Qed.

Lemma heat_infinity K min max compress val a b : gradient_bounds (compress min) (compress max) a b ->
  compress val = infinity -> heat_color_at 1 (heatmap K min max compress val).
Proof.
  intros G Hv. rewrite heatmap_eq, Hv. 
  rewrite (not_below _ infinity a (proj1 G) eq_refl (or_introl eq_refl)), (position_inf _ _ a b G).
  destruct (heat_core (k_fused K) (fl 1) 1 1) as (cr & cg & cb & H1 & _ & H2); [apply has_int; lia|lra|lra|rewrite Rminus_eq_0, Rabs_R0; unfold u10; apply bpow_ge_0|].
  exists cr, cg, cb. split; [now apply H1|exact H2].
Qed.

Lemma below_all (min max : f64) (compress : f64 -> f64) (val : f64) a b : gradient_bounds (compress min) (compress max) a b ->
  compress val = S754_infinity true -> f_lt (compress val) (compress min) = true.
Proof. intros G ->. destruct (proj1 G) as [_ Ha]. destruct (compress min); try (exfalso; exact Ha); reflexivity. Qed.

(** The gradients without compression. *)
Lemma heat_id K min max a b d : gradient_bounds (Id min) (Id max) a b -> valid32 d ->
  heat_between K a b d (heatmap K min max Id (f64_of_f32 d)).
Proof.
  intros G V.
  assert (F : forall x, is_value d x -> (x < a -> heatmap K min max Id (f64_of_f32 d) = black) /\
    (a <= x -> heat_color_at (Rmin 1 ((x - a) / (b - a))) (heatmap K min max Id (f64_of_f32 d)))).
  { intros x X. destruct (widen_value _ _ V X) as [Vw Xw]. split; intros Hx.
    - apply C42_below. apply (lt_has _ _ x a); [split; assumption|exact (proj1 G)|exact Hx].
    - apply (heat_near K _ _ _ _ a b x); [exact G|split; assumption|exact Hx| |rewrite Rminus_eq_0, Rabs_R0; apply bpow_ge_0].
      split; [|apply Rmin_l]. destruct G as (_ & _ & L & _). apply Rmin_glb; [lra|]. apply Rmult_le_pos; [lra|left; apply Rinv_0_lt_compat; lra]. }
  destruct d as [s|s| |s m e]; cbn [heat_between].
  - exact F.
  - destruct s; [apply C42_below; now apply (below_all _ _ _ _ a b G)|now apply (heat_infinity K _ _ _ _ a b G)].
  - now apply C42_nan.
  - exact F.
Qed.

Lemma gray_id K min max a b d : gradient_bounds (Id min) (Id max) a b -> valid32 d ->
  gray_between K a b d (graymap K min max Id (f64_of_f32 d)).
Proof.
  intros G V.
  assert (F : forall x, is_value d x -> (x < a -> graymap K min max Id (f64_of_f32 d) = black) /\
    (a <= x -> exists l, graymap K min max Id (f64_of_f32 d) = gray l /\ rounded_down l (255 * Rmin 1 ((x - a) / (b - a))))).
  { intros x X. destruct (widen_value _ _ V X) as [Vw Xw]. split; intros Hx.
    - apply C41_below. apply (lt_has _ _ x a); [split; assumption|exact (proj1 G)|exact Hx].
    - destruct (C41_between min max Id _ a b x G (conj Vw Xw) Hx) as (l & Hl & _ & Rl). exists l. split; [apply Hl|exact Rl]. }
  destruct d as [s|s| |s m e]; cbn [gray_between].
  - exact F.
  - destruct s; [apply C41_below; now apply (below_all _ _ _ _ a b G)|apply (C41_above K _ _ _ _ a b G); [reflexivity|now left]].
  - now apply C41_nan.
  - exact F.
Qed.

(** The logarithms of float32 values. *)
Lemma ln2_range : 0 < ln 2 <= 0.7.
Proof.
  split; [rewrite <- ln_1; apply ln_increasing; lra|].
  assert (H : 2 <= exp 0.7).
  { pose proof (exp_ineq1_le 0.0175) as H0. replace (exp 0.7) with (exp 0.0175 ^ 40).
    - apply Rle_trans with (1.0175 ^ 40); [lra|]. apply pow_incr. lra.
    - assert (P : forall n x, exp x ^ n = exp (INR n * x)).
      { intros n x. induction n as [|n IH]; [now rewrite Rmult_0_l, exp_0|]. rewrite S_INR, <- tech_pow_Rmult, IH, <- exp_plus. f_equal. ring. }
      rewrite P. f_equal. rewrite INR_IZR_INZ. cbn [Z.of_nat Pos.of_succ_nat Pos.succ]. lra. }
  rewrite <- (ln_exp 0.7). destruct H as [H|H]; [left; apply ln_increasing; lra|right; now f_equal].
Qed.
Lemma ln32 d x : valid32 d -> is_value d x -> x <> 0 -> Rabs (ln (Rabs x)) <= 105.
Proof.
  intros V X N. pose proof (valid_bound prec32 emax32 _ _ V X) as B. pose proof (valid_format prec32 emax32 _ _ V X) as F.
  assert (L : bpow radix2 (-149) <= Rabs x).
  { apply FLT_format_generic in F; [|reflexivity]. destruct F as [f E1 E2 E3]. rewrite E1. unfold F2R. rewrite Rabs_mult, (Rabs_pos_eq (bpow _ _)) by apply bpow_ge_0. rewrite <- abs_IZR. rewrite <- (Rmult_1_l (bpow radix2 (-149))). apply Rmult_le_compat; [lra|apply bpow_ge_0| |apply bpow_le; exact E3].
    apply IZR_le. destruct (Z.eq_dec (Fnum f) 0) as [E0|E0]; [|lia]. exfalso. apply N. rewrite E1. unfold F2R. rewrite E0. ring. }
  pose proof ln2_range as L2. pose proof (bpow_gt_0 radix2 (-149)) as P.
  assert (Lb : forall k, ln (bpow radix2 k) = IZR k * ln 2).
  { intros k. rewrite bpow_powerRZ. change (IZR radix2) with 2. rewrite powerRZ_Rpower by lra. unfold Rpower. apply ln_exp. }
  assert (A1 : ln (Rabs x) <= ln (bpow radix2 128)) by (left; apply ln_increasing; [lra|exact B]).
  assert (A2 : ln (bpow radix2 (-149)) <= ln (Rabs x)).
  { destruct L as [L|L]; [left; now apply ln_increasing|right; now f_equal]. }
  rewrite Lb in A1, A2. apply Rabs_le. lra.
Qed.

(** Float32 values near 0.1 and 1. *)
Lemma tenth_gap d x : valid32 d -> is_value d x -> (x < 0.1 -> x <= 0.0999999941) /\ (0.1 <= x -> 0.1000000014 <= x).
Proof.
  intros V X. pose proof (valid_format prec32 emax32 _ _ V X) as F.
  destruct (Rlt_or_le x (/ 16)) as [H1|H1]; [lra|]. destruct (Rlt_or_le x (/ 8)) as [H2|H2]; [|lra].
  assert (Hm : cexp radix2 (FLT_exp (3 - emax32 - prec32) prec32) x = (-27)%Z).
  { unfold cexp. rewrite (mag_unique radix2 x (-3)); [reflexivity|]. rewrite Rabs_pos_eq by lra.
    change (bpow radix2 (-3 - 1)) with (/ 16). change (bpow radix2 (-3)) with (/ 8). lra. }
  rewrite F in H1, H2 |- *. unfold F2R in *. cbn [Fnum Fexp] in *. rewrite Hm in *. 
  set (m := Ztrunc _) in *. change (bpow radix2 (-27)) with (/ 134217728) in *.
  destruct (Z_le_gt_dec m 13421772) as [L|L].
  - assert (IZR m <= 13421772) by (apply IZR_le; exact L). lra.
  - assert (13421773 <= IZR m) by (apply IZR_le; lia). lra.
Qed.

Lemma one_gap d x : valid32 d -> is_value d x -> 1 < Rabs x -> 1.0000001 <= Rabs x.
Proof.
  intros V X H. pose proof (generic_format_abs _ _ _ (valid_format prec32 emax32 _ _ V X)) as F.
  assert (F1 : format32 1) by (replace 1 with (IZR 2 / 2) by lra; apply half_format; lia).
  pose proof (succ_le_lt radix2 _ 1 (Rabs x) F1 F H) as S. rewrite succ_eq_pos in S by lra.
  change 1 with (bpow radix2 0) in S at 2. rewrite ulp_bpow in S. change (bpow radix2 _) with (/ 8388608) in S. lra.
Qed.

Definition tenth : R := 3602879701896397 / 36028797018963968.
Lemma has_tenth : has (flit 1 1) tenth.
Proof.
  split; [reflexivity|]. change (is_value (flit 1 1)) with (is_value (S754_finite false 7205759403792794 (-56))).
  cbn [is_value]. rewrite <- (bpow_powerRZ radix2). change (bpow radix2 (-56)) with (/ 72057594037927936). unfold tenth. lra.
Qed.
Lemma ln_tenth : Rabs (ln tenth - ln 0.1) <= / 10 ^ 16 /\ -2.4 <= ln 0.1 <= -2.
Proof.
  split.
  - eapply Rle_trans; [apply (ln_lip 0.1); unfold tenth; lra|]. rewrite Rabs_pos_eq; unfold tenth; lra.
  - replace 0.1 with (/ 10) by lra. rewrite ln_Rinv by lra. pose proof ln10_range. lra.
Qed.
Lemma ln_tops n : In n [100; 200; 400]%Z -> 4 <= ln (IZR n) <= 7.
Proof.
  pose proof ln10_range. assert (E2 : ln 2 <= 1) by (pose proof (ln_le 2); lra). assert (P2 : 0 < ln 2) by (rewrite <- ln_1; apply ln_increasing; lra).
  intros [<-|[<-|[<-|[]]]].
  - replace 100 with (10 * 10) by lra. rewrite ln_mult by lra. lra.
  - replace 200 with (2 * (10 * 10)) by lra. rewrite !ln_mult by lra. lra.
  - replace 400 with (2 * (2 * (10 * 10))) by lra. rewrite !ln_mult by lra. lra.
Qed.
Lemma eps_small : 0 < powerRZ 2 (-48) < 0.0000000000000036.
Proof. rewrite <- (bpow_powerRZ radix2). change (bpow radix2 (-48)) with (/ 281474976710656). lra. Qed.

Section Logarithm.
Variable log : f64 -> f64.
Hypothesis HL : natural_log (powerRZ 2 (-48)) log.

Lemma log_has x a : has x a -> 0 < a -> Rabs (ln a) <= 500 -> exists r, has (log x) r /\ Rabs (r - ln a) <= powerRZ 2 (-48) * (1 + Rabs (ln a)).
Proof. intros [V X] P B. destruct (proj1 HL x a V X P B) as (r & H1 & H2 & H3). exists r. split; [split; assumption|exact H3]. Qed.

Lemma log_bounds n : In n [100; 200; 400]%Z -> exists a b, gradient_bounds (log (flit 1 1)) (log (fl n)) a b /\
  Rabs (a - ln 0.1) <= 2 / 10 ^ 14 /\ Rabs (b - ln (IZR n)) <= 4 / 10 ^ 14.
Proof.
  intros Hn. pose proof (ln_tops n Hn) as Bn. destruct ln_tenth as [T1 T2]. pose proof eps_small as E. apply Rabs_le_inv in T1.
  assert (Hi : has (fl n) (IZR n)) by (apply has_int; destruct Hn as [<-|[<-|[<-|[]]]]; lia).
  assert (Pn : 0 < IZR n) by (destruct Hn as [<-|[<-|[<-|[]]]]; lra).
  destruct (log_has _ _ has_tenth) as (a & Ha & Da); [unfold tenth; lra|apply Rabs_le; lra|].
  destruct (log_has _ _ Hi Pn) as (b & Hb & Db); [apply Rabs_le; lra|].
  assert (A1 : Rabs (ln tenth) <= 3) by (apply Rabs_le; lra). assert (A2 : Rabs (ln (IZR n)) <= 7) by (apply Rabs_le; lra).
  assert (Da' : Rabs (a - ln tenth) <= 1.5 / 10 ^ 14) by nra. assert (Db' : Rabs (b - ln (IZR n)) <= 4 / 10 ^ 14) by nra.
  apply Rabs_le_inv in Da', Db'. exists a, b. split; [split; [exact Ha|split; [exact Hb|split; [lra|]]]|split; apply Rabs_le; lra].
  rewrite <- (bpow_powerRZ radix2). assert (bpow radix2 4 < bpow radix2 1023) by (apply bpow_lt; lia).
  change (bpow radix2 4) with 16 in *. lra.
Qed.

Lemma ratio_near y a b Y A B d : Rabs (y - Y) <= d -> Rabs (a - A) <= d -> Rabs (b - B) <= d -> 0 <= d <= 0.001 ->
  6 <= B - A -> A <= Y -> a <= y -> 
  Rabs (Rmin 1 ((y - a) / (b - a)) - Rmin 1 ((Y - A) / (B - A))) <= d.
Proof.
  intros Dy Da Db Hd HB HY Hy. apply Rabs_le_inv in Dy, Da, Db.
  destruct (Rle_or_lt (B + 2 * d) Y) as [H|H].
  - assert (1 <= (y - a) / (b - a)). { apply Rmult_le_reg_r with (b - a); [lra|]. unfold Rdiv. rewrite Rmult_assoc, Rinv_l by lra. lra. }
    assert (1 <= (Y - A) / (B - A)). { apply Rmult_le_reg_r with (B - A); [lra|]. unfold Rdiv. rewrite Rmult_assoc, Rinv_l by lra. lra. }
    rewrite !Rmin_left, Rminus_eq_0, Rabs_R0 by lra. lra.
  - set (t := (Y - A) / (B - A)). set (s := (y - a) / (b - a)).
    assert (Es : s * (b - a) = y - a) by (unfold s, Rdiv; rewrite Rmult_assoc, Rinv_l; lra).
    assert (Et : t * (B - A) = Y - A) by (unfold t, Rdiv; rewrite Rmult_assoc, Rinv_l; lra).
    assert (Bt : 0 <= t <= 1.1).
    { split; [apply Rmult_le_pos; [lra|left; apply Rinv_0_lt_compat; lra]|]. nra. }
    assert (Est : (s - t) * (b - a) = (y - Y) - (a - A) - t * ((b - B) - (a - A))) by (rewrite Rmult_minus_distr_r, Es; replace (t * (b - a)) with (t * (B - A) + t * ((b - B) - (a - A))) by ring; rewrite Et; ring).
    assert (Q : -2.2 * d <= t * ((b - B) - (a - A)) <= 2.2 * d) by (split; nra).
    assert (R : - d <= s - t <= d) by (split; nra).
    apply Rabs_le. unfold Rmin. destruct (Rle_dec 1 s), (Rle_dec 1 t); lra.
Qed.

(** Precipitation. *)
Lemma heat_log K n d : In n [100; 200; 400]%Z -> valid32 d ->
  heat_log_between K 0.1 (IZR n) d (heatmap K (flit 1 1) (fl n) log (f64_of_f32 d)).
Proof.
  intros Hn V. destruct HL as (_ & Lz & Lpi & Lni & Ln & Lnan).
  destruct (log_bounds n Hn) as (a & b & Gb & Da & Db). 
  assert (F : forall x, is_value d x -> (x < 0 -> heatmap K (flit 1 1) (fl n) log (f64_of_f32 d) = nan_color K) /\
    (0 <= x < 0.1 -> heatmap K (flit 1 1) (fl n) log (f64_of_f32 d) = black) /\
    (0.1 <= x -> heat_color_at (Rmin 1 ((ln x - ln 0.1) / (ln (IZR n) - ln 0.1))) (heatmap K (flit 1 1) (fl n) log (f64_of_f32 d)))).
  { intros x X. pose proof (ln32 d x V X) as Lx.
  destruct (widen_value _ _ V X) as [Vw Xw]. destruct (tenth_gap _ _ V X) as [G1 G2]. 
  set (f := f64_of_f32 d) in *. 
  pose proof (ln_tops n Hn) as Bn. destruct ln_tenth as [_ T2]. pose proof eps_small as E.
  apply Rabs_le_inv in Da, Db.
  assert (Hlog : 0 < x -> exists y, has (log f) y /\ Rabs (y - ln x) <= 4 / 10 ^ 13 /\ (ln x <= 9 -> -3 <= ln x -> Rabs (y - ln x) <= 4 / 10 ^ 14)).
  { intros Px. specialize (Lx ltac:(lra)). rewrite (Rabs_pos_eq x) in Lx by lra.
    destruct (log_has f x (conj Vw Xw) Px) as (y & Hy & Dy); [lra|]. exists y. split; [exact Hy|].
    split; [nra|]. intros L1 L2. assert (Rabs (ln x) <= 9) by (apply Rabs_le; lra). nra. }
  split; [|split].
  - intros Hx. apply C42_nan. exact (Ln f x Xw Hx).
  - intros [H0 H1]. specialize (G1 H1). apply C42_below. destruct H0 as [H0|H0].
    + destruct (Hlog H0) as (y & Hy & Dy & _). apply Rabs_le_inv in Dy. apply (lt_has _ _ y a Hy (proj1 Gb)).
      assert (ln x <= ln 0.1 - 5 / 10 ^ 8); [|lra].
      assert (D : ln x - ln 0.1 <= x / 0.1 - 1).
      { unfold Rminus at 1. rewrite <- ln_Rinv, <- ln_mult by lra. apply ln_le. lra. }
      lra.
    + subst x. destruct f as [s|s| |s m e]; try (exfalso; exact Xw).
      * rewrite Lz. destruct (proj1 Gb) as [_ Ha]. destruct (log (flit 1 1)); try (exfalso; exact Ha); reflexivity.
      * exfalso. cbn [is_value] in Xw. rewrite <- (bpow_powerRZ radix2) in Xw.
        assert (0 < IZR (Zpos m) * bpow radix2 e) by (apply Rmult_lt_0_compat; [apply IZR_lt; lia|apply bpow_gt_0]). destruct s; lra.
  - intros H0. specialize (G2 H0). destruct (Hlog ltac:(lra)) as (y & Hy & Dy & Dy').
    assert (Lb : ln 0.1 + / 10 ^ 8 <= ln x).
    { pose proof (ln_ge (x * / 0.1) ltac:(lra)) as Hge. rewrite ln_mult, ln_Rinv in Hge by lra.
      assert (/ (x * / 0.1) <= 1 - / 10 ^ 8).
      { apply Rmult_le_reg_r with (x * / 0.1); [lra|]. rewrite Rinv_l by lra. lra. }
      lra. }
    pose proof Dy as Dy0. apply Rabs_le_inv in Dy0.
    assert (S : 4 / 10 ^ 14 <= bpow radix2 (-44)) by (change (bpow radix2 (-44)) with (/ 17592186044416); lra).
    destruct (Rle_or_lt (ln x) 9) as [H9|H9].
    + specialize (Dy' H9 ltac:(lra)).
      apply (heat_near K _ _ _ _ a b y); [exact Gb|exact Hy|lra| |].
      * split; [|apply Rmin_l]. apply Rmin_glb; [lra|]. apply Rmult_le_pos; [lra|left; apply Rinv_0_lt_compat; lra].
      * eapply Rle_trans; [apply (ratio_near y a b (ln x) (ln 0.1) (ln (IZR n)) (4 / 10 ^ 14)); try lra; apply Rabs_le; lra|exact S].
    + assert (E1 : 1 <= (ln x - ln 0.1) / (ln (IZR n) - ln 0.1)). { apply Rmult_le_reg_r with (ln (IZR n) - ln 0.1); [lra|]. unfold Rdiv. rewrite Rmult_assoc, Rinv_l by lra. lra. }
      assert (E2 : 1 <= (y - a) / (b - a)). { apply Rmult_le_reg_r with (b - a); [lra|]. unfold Rdiv. rewrite Rmult_assoc, Rinv_l by lra. lra. }
      rewrite (Rmin_left 1 ((ln x - _) / _)) by lra.
      apply (heat_near K _ _ _ _ a b y); [exact Gb|exact Hy|lra|lra|]. rewrite Rmin_left, Rminus_eq_0, Rabs_R0 by lra. apply bpow_ge_0.
  }
  destruct d as [s|s| |s m e]; cbn [heat_log_between].
  - exact F.
  - destruct s; [apply C42_nan; exact Lni|apply (heat_infinity K _ _ _ _ a b Gb); exact Lpi].
  - apply C42_nan. exact Lnan.
  - exact F.
Qed.

(** Radial velocities. *)
Lemma radial_log K d : valid32 d ->
  radial_log_between 31.5 d (radialmap K (flit (-315) 1) (flit 315 1) log (f64_of_f32 d)).
Proof.
  intros V. pose proof eps_small as E. pose proof ln10_range as L10.
  assert (Bm : 3 <= ln 31.5 <= 7).
  { assert (P1 : ln 1.5 <= 1) by (pose proof (ln_le 1.5); lra). assert (P3 : 1 <= ln 3.15).
    { rewrite <- (ln_exp 1). pose proof exp_le_3. destruct (Rle_lt_or_eq_dec (exp 1) 3.15); [lra| |].
      - left. apply ln_increasing; [apply exp_pos|assumption].
      - lra. }
    replace 31.5 with (10 * 3.15) by lra. rewrite ln_mult by lra. pose proof (ln_le 3.15). lra. }
  assert (Hm : has (magnitude (flit (-315) 1) (flit 315 1)) 31.5) by (replace 31.5 with (63 / 2) by lra; exact (proj1 C43_case)).
  destruct (log_has _ _ Hm) as (b & Hb & Db); [lra|apply Rabs_le; lra|].
  assert (Db' : Rabs (b - ln 31.5) <= 4 / 10 ^ 14). { rewrite (Rabs_pos_eq (ln 31.5)) in Db by lra. nra. }
  assert (F : forall x, is_value d x -> 
      (Rabs x <= 1 -> x < 0 -> radialmap K (flit (-315) 1) (flit 315 1) log (f64_of_f32 d) = mk_rgba 204 255 255 255) /\
      (Rabs x <= 1 -> 0 <= x -> radialmap K (flit (-315) 1) (flit 315 1) log (f64_of_f32 d) = mk_rgba 255 204 204 255) /\
      (1 < Rabs x -> exists l, rounded_down l (255 * Rmin 1 (ln (Rabs x) / ln 31.5)) /\
         (x < 0 -> radialmap K (flit (-315) 1) (flit 315 1) log (f64_of_f32 d) = mk_rgba 0 l l 255) /\
         (0 < x -> radialmap K (flit (-315) 1) (flit 315 1) log (f64_of_f32 d) = mk_rgba l 0 0 255))).
  { intros x X. pose proof (ln32 d x V X) as Lx. destruct (widen_value _ _ V X) as [Vw Xw]. set (f := f64_of_f32 d) in *.
    assert (Hf : has f x) by (split; assumption).
    split; [intros H; exact (proj1 (C43_slow _ _ log f x Hf H K))|]. split; [intros H; exact (proj2 (C43_slow _ _ log f x Hf H K))|].
    intros H1. pose proof (one_gap _ _ V X H1) as G. 
    assert (Nx : x <> 0) by (intros ->; rewrite Rabs_R0 in H1; lra). specialize (Lx Nx).
  destruct (log_has _ _ (has_abs f x Hf)) as (s & Hs & Ds); [lra|lra|].
  assert (Lg : 9 / 10 ^ 8 <= ln (Rabs x)).
  { pose proof (ln_ge (Rabs x) ltac:(lra)) as Hge. assert (/ Rabs x <= 1 - 9 / 10 ^ 8); [|lra].
    apply Rmult_le_reg_r with (Rabs x); [lra|]. rewrite Rinv_l by lra. lra. }
  assert (Ds' : Rabs (s - ln (Rabs x)) <= 4 / 10 ^ 13) by nra.
  apply Rabs_le_inv in Db', Ds'.
  assert (T : Rabs (Rmin 1 (s / b) - Rmin 1 (ln (Rabs x) / ln 31.5)) <= / 10 ^ 10).
  { set (t := ln (Rabs x) / ln 31.5). set (q := s / b).
    assert (Eq : q * b = s) by (unfold q, Rdiv; rewrite Rmult_assoc, Rinv_l; lra).
    assert (Et : t * ln 31.5 = ln (Rabs x)) by (unfold t, Rdiv; rewrite Rmult_assoc, Rinv_l; lra).
    assert (Bt : 0 <= t <= 40). { split; [apply Rmult_le_pos; [lra|left; apply Rinv_0_lt_compat; lra]|]. apply Rabs_le_inv in Lx. nra. }
    assert (Eqt : (q - t) * b = (s - ln (Rabs x)) - t * (b - ln 31.5)) by (rewrite Rmult_minus_distr_r, Eq, <- Et; ring).
    assert (Q : - (2 / 10 ^ 12) <= t * (b - ln 31.5) <= 2 / 10 ^ 12) by (split; nra).
    assert (R : - / 10 ^ 10 <= q - t <= / 10 ^ 10) by (split; nra).
    apply Rabs_le. unfold Rmin. destruct (Rle_dec 1 q), (Rle_dec 1 t); lra. }
  destruct (fast_level _ _ log f x s b _ Hf H1 Hs ltac:(lra) Hb ltac:(lra) T) as (l & _ & Rl & _ & Hl).
  exists l. split; [exact Rl|]. exact (Hl K).
  }
  destruct d as [s|s| |s m e]; cbn [radial_log_between].
  - exact F.
  - destruct HL as (_ & _ & Lpi & _). rewrite radialmap_eq. change (f_abs (f64_of_f32 (S754_infinity s))) with infinity.
    replace (log infinity) with infinity by (symmetry; exact Lpi).
    assert (Sh : share infinity (log (magnitude (flit (-315) 1) (flit 315 1))) = fl 1).
    { destruct Hb as [_ Xb]. destruct (log _) as [t|t| |t m e]; try (exfalso; exact Xb); [exfalso; cbn [is_value] in Xb; apply Rabs_le_inv in Db'; lra|destruct t; [exfalso|reflexivity]].
      cbn [is_value] in Xb. rewrite <- (bpow_powerRZ radix2) in Xb. apply Rabs_le_inv in Db'.
      assert (0 < IZR (Zpos m) * bpow radix2 e) by (apply Rmult_lt_0_compat; [apply IZR_lt; lia|apply bpow_gt_0]). lra. }
    rewrite Sh. destruct s; vm_compute; reflexivity.
  - reflexivity.
  - exact F.
Qed.
End Logarithm.

(** * The theorems *)
Lemma bounds_id lo hi a b : has lo a -> has hi b -> -5000 <= a -> a < b -> b <= 5000 -> gradient_bounds (Id lo) (Id hi) a b.
Proof.
  intros H1 H2 B1 B2 B3. split; [exact H1|]. split; [exact H2|]. split; [exact B2|].
  rewrite <- (bpow_powerRZ radix2). assert (bpow radix2 14 < bpow radix2 1023) by (apply bpow_lt; lia).
  change (bpow radix2 14) with 16384 in *. lra.
Qed.

Theorem C63_reflectivity_short K d : valid32 d -> heat_between K 5 75 d (HeatmapReflectivityShort K (f64_of_f32 d)).
Proof. intros V. apply heat_id; [|exact V]. apply bounds_id; try lra; apply has_int; lia. Qed.

(** The default gradient starts at 1 dBZ ... *)
Theorem C63_reflectivity K d : valid32 d -> heat_between K 1 75 d (HeatmapReflectivity K (f64_of_f32 d)).
Proof. intros V. apply heat_id; [|exact V]. apply bounds_id; try lra; apply has_int; lia. Qed.

(** ... and not at 5 dBZ as its comment says. *)
Theorem C63_reflectivity_documented_is_false K : exists d, valid32 d /\ ~ heat_between K 5 75 d (HeatmapReflectivity K (f64_of_f32 d)).
Proof.
  exists (f32_of_int 3). destruct (of_int_value32 3 ltac:(lia)) as [V X]. split; [exact V|]. intros H.
  assert (B : HeatmapReflectivity K (f64_of_f32 (f32_of_int 3)) = black).
  { change (f32_of_int 3) with (S754_finite false 12582912 (-22)) in *. apply (H 3 X). lra. }
  change (f32_of_int 3) with (S754_finite false 12582912 (-22)) in *.
  destruct (proj2 (C63_reflectivity K _ V 3 X) ltac:(lra)) as (cr & cg & cb & E & _ & _ & Hb). rewrite B in E. injection E as _ _ E. subst cb.
  replace (Rmin 1 ((3 - 1) / (75 - 1))) with (/ 37) in Hb by (rewrite Rmin_right; lra).
  rewrite heat_blue in Hb by lra. destruct Hb as [Hb _]. revert Hb. unfold light, half_chroma, light, tri, turn. cases; lra.
Qed.

Theorem C63_reflectivity_wide K d : valid32 d -> heat_between K (-32.5) 75 d (HeatmapReflectivityWide K (f64_of_f32 d)).
Proof.
  intros V. apply heat_id; [|exact V]. apply bounds_id; try lra; [|apply has_int; lia]. split; [reflexivity|].
  change (is_value (flit (-325) 1)) with (is_value (S754_finite true 4573968371548160 (-47))).
  cbn [is_value]. rewrite <- (bpow_powerRZ radix2). change (bpow radix2 (-47)) with (/ 140737488355328). lra.
Qed.

Theorem C63_accumulated_hour K log d : natural_log (powerRZ 2 (-48)) log -> valid32 d ->
  heat_log_between K 0.1 100 d (HeatmapAccumulatedHour K log (f64_of_f32 d)).
Proof. intros HL V. apply (heat_log log HL K 100 d); [cbn; tauto|exact V]. Qed.
Theorem C63_accumulated_day K log d : natural_log (powerRZ 2 (-48)) log -> valid32 d ->
  heat_log_between K 0.1 200 d (HeatmapAccumulatedDay K log (f64_of_f32 d)).
Proof. intros HL V. apply (heat_log log HL K 200 d); [cbn; tauto|exact V]. Qed.

Theorem C63_radial_velocity K log d : natural_log (powerRZ 2 (-48)) log -> valid32 d ->
  radial_log_between 31.5 d (HeatmapRadialVelocity K log (f64_of_f32 d)).
Proof. intros HL V. apply (radial_log log HL K d V). Qed.

Theorem C63_gray_linear K d : valid32 d -> gray_between K 0 409.5 d (GraymapLinear K (f64_of_f32 d)).
Proof.
  intros V. apply gray_id; [|exact V]. apply bounds_id; try lra; [apply has_int; lia|]. split; [reflexivity|].
  change (is_value (flit 4095 1)) with (is_value (S754_finite false 7204000185188352 (-44))).
  cbn [is_value]. rewrite <- (bpow_powerRZ radix2). change (bpow radix2 (-44)) with (/ 17592186044416). lra.
Qed.
Theorem C63_gray_linear_wide K d : valid32 d -> gray_between K 0 4095 d (GraymapLinearWide K (f64_of_f32 d)).
Proof. intros V. apply gray_id; [|exact V]. apply bounds_id; try lra; apply has_int; lia. Qed.
Print Assumptions C63_reflectivity.
Print Assumptions C63_reflectivity_documented_is_false.
Print Assumptions C63_accumulated_day.
Print Assumptions C63_radial_velocity.
Print Assumptions C63_gray_linear.

(** * The hypotheses are met *)
(** A correctly rounded logarithm. *)
Definition correct_ln (x : f64) : f64 :=
  match x with
  | S754_zero _ => S754_infinity true
  | S754_infinity s => if s then NaN64 else x
  | S754_nan => S754_nan
  | S754_finite s _ _ => if s then S754_nan else round64 (ln (SF2R radix2 x))
  end.
Lemma correct_ln_accurate : natural_log (powerRZ 2 (-48)) correct_ln.
Proof.
  split; [|split; [reflexivity|split; [reflexivity|split; [reflexivity|split; [|reflexivity]]]]].
  - intros x a V X P B. pose proof X as Xr. apply is_value_iff in X. destruct X as [_ X]. 
    destruct x as [s|s| |s m e]; try (exfalso; exact Xr); [exfalso; cbn in Xr; lra|].
    destruct s.
    { exfalso. cbn [is_value] in Xr. rewrite <- (bpow_powerRZ radix2) in Xr.
      assert (0 < IZR (Zpos m) * bpow radix2 e) by (apply Rmult_lt_0_compat; [apply IZR_lt; lia|apply bpow_gt_0]). lra. }
    cbn [correct_ln]. rewrite <- X. set (r := ln a) in *.
    pose proof (normalize_result prec64 emax64 _ _ (ZnearestE (scaled_mantissa radix2 (FLT_exp (3 - emax64 - prec64) prec64) r))
      (cexp radix2 (FLT_exp (3 - emax64 - prec64) prec64) r) false) as Hr.
    change (F2R _) with (rnd64 r) in Hr. exists (rnd64 r).
    split; [apply Hr|]. split; [eapply result_exact; [exact Hr|apply generic_format_round; exact _|apply no_overflow; lra]|].
    eapply Rle_trans; [apply rnd_err|].
    assert (E : powerRZ 2 (-48) = 16 * u).
    { unfold u. rewrite bpow_powerRZ. change (IZR radix2) with 2. change (-48)%Z with (4 + -52)%Z. rewrite powerRZ_add by lra. replace (powerRZ 2 4) with 16 by (simpl; lra). reflexivity. }
    rewrite E. pose proof u_small. pose proof (Rabs_pos r). unfold tiny. nra.
  - intros x a X P. destruct x as [s|s| |s m e]; try (exfalso; exact X); [exfalso; cbn in X; lra|].
    destruct s; [reflexivity|]. exfalso. cbn [is_value] in X. rewrite <- (bpow_powerRZ radix2) in X.
    assert (0 < IZR (Zpos m) * bpow radix2 e) by (apply Rmult_lt_0_compat; [apply IZR_lt; lia|apply bpow_gt_0]). lra.
Qed.

Example C63_case : natural_log (powerRZ 2 (-48)) correct_ln /\ valid32 (f32_lit 123 (-1)) /\ valid32 (S754_infinity true) /\
  exists x, is_value (f32_lit 123 (-1)) x /\ 12.29 < x < 12.31.
Proof.
  split; [exact correct_ln_accurate|]. split; [reflexivity|]. split; [reflexivity|].
  exists (12897485 / 1048576). split; [|lra].
  change (f32_lit 123 (-1)) with (S754_finite false 12897485 (-20)). cbn [is_value]. rewrite <- (bpow_powerRZ radix2).
  change (bpow radix2 (-20)) with (/ 1048576). lra.
Qed.
