(** Numerical bounds on the map plane at the documented corner points.
    (The lemmas after the helpers are generated: rational bounds, checked by lra.) *)
From Coq Require Import Reals Lra Lia Psatz QArith Qreals.
From Flocq Require Import Core.
From Coquelicot Require Import Coquelicot.
From Verif Require Import GoBase GoFloat Composite Projection SpecReal SpecProj ExactReal PropReal AccFacts.
Local Open Scope R_scope.

(** Taylor polynomials below and above sine and cosine. *)
Definition slo (q : R) : R := q - q ^ 3 / 6 + q ^ 5 / 120 - q ^ 7 / 5040 + q ^ 9 / 362880 - q ^ 11 / 39916800.
Definition shi (q : R) : R := slo q + q ^ 13 / 6227020800.
Definition clo (q : R) : R := 1 - q ^ 2 / 2 + q ^ 4 / 24 - q ^ 6 / 720 + q ^ 8 / 40320 - q ^ 10 / 3628800.
Definition chi (q : R) : R := clo q + q ^ 12 / 479001600.

Lemma fact_0 : INR (fact 0) = 1.
Proof. reflexivity. Qed.
Lemma fact_1 : INR (fact 1) = 1.
Proof. rewrite fact_simpl, mult_INR, fact_0, INR_IZR_INZ. cbn [Z.of_nat Pos.of_succ_nat Pos.succ]. lra. Qed.
Lemma fact_2 : INR (fact 2) = 2.
Proof. rewrite fact_simpl, mult_INR, fact_1, INR_IZR_INZ. cbn [Z.of_nat Pos.of_succ_nat Pos.succ]. lra. Qed.
Lemma fact_3 : INR (fact 3) = 6.
Proof. rewrite fact_simpl, mult_INR, fact_2, INR_IZR_INZ. cbn [Z.of_nat Pos.of_succ_nat Pos.succ]. lra. Qed.
Lemma fact_4 : INR (fact 4) = 24.
Proof. rewrite fact_simpl, mult_INR, fact_3, INR_IZR_INZ. cbn [Z.of_nat Pos.of_succ_nat Pos.succ]. lra. Qed.
Lemma fact_5 : INR (fact 5) = 120.
Proof. rewrite fact_simpl, mult_INR, fact_4, INR_IZR_INZ. cbn [Z.of_nat Pos.of_succ_nat Pos.succ]. lra. Qed.
Lemma fact_6 : INR (fact 6) = 720.
Proof. rewrite fact_simpl, mult_INR, fact_5, INR_IZR_INZ. cbn [Z.of_nat Pos.of_succ_nat Pos.succ]. lra. Qed.
Lemma fact_7 : INR (fact 7) = 5040.
Proof. rewrite fact_simpl, mult_INR, fact_6, INR_IZR_INZ. cbn [Z.of_nat Pos.of_succ_nat Pos.succ]. lra. Qed.
Lemma fact_8 : INR (fact 8) = 40320.
Proof. rewrite fact_simpl, mult_INR, fact_7, INR_IZR_INZ. cbn [Z.of_nat Pos.of_succ_nat Pos.succ]. lra. Qed.
Lemma fact_9 : INR (fact 9) = 362880.
Proof. rewrite fact_simpl, mult_INR, fact_8, INR_IZR_INZ. cbn [Z.of_nat Pos.of_succ_nat Pos.succ]. lra. Qed.
Lemma fact_10 : INR (fact 10) = 3628800.
Proof. rewrite fact_simpl, mult_INR, fact_9, INR_IZR_INZ. cbn [Z.of_nat Pos.of_succ_nat Pos.succ]. lra. Qed.
Lemma fact_11 : INR (fact 11) = 39916800.
Proof. rewrite fact_simpl, mult_INR, fact_10, INR_IZR_INZ. cbn [Z.of_nat Pos.of_succ_nat Pos.succ]. lra. Qed.
Lemma fact_12 : INR (fact 12) = 479001600.
Proof. rewrite fact_simpl, mult_INR, fact_11, INR_IZR_INZ. cbn [Z.of_nat Pos.of_succ_nat Pos.succ]. lra. Qed.
Lemma fact_13 : INR (fact 13) = 6227020800.
Proof. rewrite fact_simpl, mult_INR, fact_12, INR_IZR_INZ. cbn [Z.of_nat Pos.of_succ_nat Pos.succ]. lra. Qed.

Ltac series H := cbn [Nat.mul Nat.add sum_f_R0 Nat.sub] in H; rewrite ?fact_0, ?fact_1, ?fact_2, ?fact_3, ?fact_4, ?fact_5, ?fact_6, ?fact_7, ?fact_8, ?fact_9, ?fact_10, ?fact_11, ?fact_12, ?fact_13 in H; cbn [pow] in H.
Lemma sin_taylor q : 0 <= q <= 1 -> slo q <= sin q <= shi q.
Proof.
  intros H. pose proof PI2_3_2. destruct (sin_bound q 2) as [H1 H2]; [lra|lra|].
  unfold sin_approx, sin_term in H1, H2. series H1. series H2.
  unfold shi, slo. split; [eapply Rle_trans; [|exact H1]|eapply Rle_trans; [exact H2|]]; right; cbn [pow]; field.
Qed.
Lemma cos_taylor q : 0 <= q <= 1 -> clo q <= cos q <= chi q.
Proof.
  intros H. pose proof PI2_3_2. destruct (cos_bound q 2) as [H1 H2]; [lra|lra|].
  unfold cos_approx, cos_term in H1, H2. series H1. series H2.
  unfold chi, clo. split; [eapply Rle_trans; [|exact H1]|eapply Rle_trans; [exact H2|]]; right; cbn [pow]; field.
Qed.

Lemma sin_in l h x : 0 <= l -> l <= x <= h -> h <= 1 -> slo l <= sin x <= shi h.
Proof.
  intros H1 H2 H3. pose proof PI2_3_2. pose proof (sin_taylor l ltac:(lra)) as [A _]. pose proof (sin_taylor h ltac:(lra)) as [_ B].
  split; [eapply Rle_trans; [exact A|]|eapply Rle_trans; [|exact B]]; apply sin_incr_1; lra.
Qed.
Lemma cos_in l h x : 0 <= l -> l <= x <= h -> h <= 1 -> clo h <= cos x <= chi l.
Proof.
  intros H1 H2 H3. pose proof PI2_3_2. pose proof (cos_taylor h ltac:(lra)) as [A _]. pose proof (cos_taylor l ltac:(lra)) as [_ B].
  split; [eapply Rle_trans; [exact A|]|eapply Rle_trans; [|exact B]]; apply cos_decr_1; lra.
Qed.
Lemma quot_in a b al ah bl bh : 0 <= al -> al <= a <= ah -> 0 < bl -> bl <= b <= bh -> al / bh <= a / b <= ah / bl.
Proof.
  intros. unfold Rdiv. assert (0 < / bh) by (apply Rinv_0_lt_compat; lra). assert (0 < / b) by (apply Rinv_0_lt_compat; lra).
  split; (apply Rmult_le_compat; [lra|lra|lra|apply Rinv_le_contravar; lra]).
Qed.
Lemma prod_in a b al ah bl bh : 0 <= al -> al <= a <= ah -> 0 <= bl -> bl <= b <= bh -> al * bl <= a * b <= ah * bh.
Proof. intros. split; apply Rmult_le_compat; lra. Qed.

Definition tlo (q : R) : R := slo q / chi q.
Definition thi (q : R) : R := shi q / clo q.
Lemma tan_in l h x : 0 <= slo l -> 0 < clo h -> 0 <= l -> l <= x <= h -> h <= 1 -> slo l / chi l <= tan x <= shi h / clo h.
Proof.
  intros H1 H2 H3 H4 H5. apply quot_in; [assumption|now apply sin_in|assumption|now apply cos_in].
Qed.

Lemma root3 : 1.7320508075688 <= sqrt 3 <= 1.7320508075689.
Proof. split; (apply Rsqr_incr_0_var; [|try apply sqrt_pos; lra]; unfold Rsqr; rewrite sqrt_sqrt by lra; lra). Qed.
Definition klo : R := 6370.04 * (1 + 1.7320508075688 / 2).
Definition khi : R := 6370.04 * (1 + 1.7320508075689 / 2).
Lemma k_in : klo <= 6370.04 * (1 + sin (radians 60)) <= khi.
Proof.
  replace (radians 60) with (PI / 3) by (unfold radians; field). rewrite sin_PI3. pose proof root3. unfold klo, khi. lra.
Qed.

Lemma neg_sin e : sin (radians (e - 10)) = - sin (radians (10 - e)).
Proof. rewrite <- sin_neg. f_equal. unfold radians. ring. Qed.
Lemma neg_cos e : cos (radians (e - 10)) = cos (radians (10 - e)).
Proof. rewrite <- cos_neg. f_equal. unfold radians. ring. Qed.

Section Point.
Variables (n e al ah bl bh xl xh yl yh : R).
Hypothesis (A0 : 0 <= al) (A1 : al <= PI / 4 - radians n / 2 <= ah) (A2 : ah <= 1) (A3 : 0 <= slo al) (A4 : 0 < clo ah).
Hypothesis (B0 : 0 <= bl) (B2 : bh <= 1) (B3 : 0 <= slo bl) (B4 : 0 < clo bh).

Lemma polar_in (rl rh r s : R) : 0 <= rl -> rl <= r <= rh -> bl <= s <= bh ->
  rl * slo bl <= r * sin s <= rh * shi bh /\ rl * clo bh <= r * cos s <= rh * chi bl.
Proof.
  intros H1 H2 H3. split; (apply prod_in; [assumption|assumption|lra|]); [now apply sin_in|now apply cos_in].
Qed.

Lemma tan_range : 0 <= slo al / chi al /\ slo al / chi al <= tan (PI / 4 - radians n / 2) <= shi ah / clo ah.
Proof.
  pose proof (tan_in _ _ _ A3 A4 A0 A1 A2) as T. split; [|exact T]. pose proof PI2_3_2.
  assert (0 < chi al). { pose proof (cos_taylor al ltac:(lra)) as [_ C]. assert (0 < cos al) by (apply cos_gt_0; lra). lra. }
  apply Rmult_le_pos; [assumption|left; now apply Rinv_0_lt_compat].
Qed.
Lemma sph_in s : bl <= s <= bh ->
  klo * (slo al / chi al) * slo bl <= sphere_radius n * sin s <= khi * (shi ah / clo ah) * shi bh /\
  klo * (slo al / chi al) * clo bh <= sphere_radius n * cos s <= khi * (shi ah / clo ah) * chi bl.
Proof.
  intros H. destruct tan_range as [T0 T]. assert (0 <= klo) by (unfold klo; lra).
  apply polar_in; [apply Rmult_le_pos; assumption| |assumption].
  unfold sphere_radius. apply prod_in; [assumption|apply k_in|assumption|assumption].
Qed.
Lemma wgs_in pl ph s : 0 < pl -> pl <= Rpower (flat n) (ecc / 2) <= ph -> bl <= s <= bh ->
  11862.667042661695 * ((slo al / chi al) / ph) * slo bl <= ellipsoid_radius n * sin s <= 11862.667042661695 * ((shi ah / clo ah) / pl) * shi bh /\
  11862.667042661695 * ((slo al / chi al) / ph) * clo bh <= ellipsoid_radius n * cos s <= 11862.667042661695 * ((shi ah / clo ah) / pl) * chi bl.
Proof.
  intros Hp Hq H. destruct tan_range as [T0 T].
  assert (Q0 : 0 <= slo al / chi al / ph) by (apply Rmult_le_pos; [assumption|left; apply Rinv_0_lt_compat; lra]).
  apply polar_in; [apply Rmult_le_pos; [lra|assumption]| |assumption].
  rewrite ellipsoid_eq. unfold colat. apply prod_in; [lra|lra|assumption|]. now apply quot_in.
Qed.

Lemma sph_west : bl <= radians (10 - e) <= bh ->
  - xh <= klo * (slo al / chi al) * slo bl -> khi * (shi ah / clo ah) * shi bh <= - xl ->
  yl <= klo * (slo al / chi al) * clo bh -> khi * (shi ah / clo ah) * chi bl <= yh ->
  xl <= fst (plane 0 n e) <= xh /\ yl <= snd (plane 0 n e) <= yh.
Proof.
  intros H H1 H2 H3 H4. destruct (sph_in _ H) as [X Y]. unfold plane, pole_distance. cbn [fst snd Z.leb Z.compare].
  rewrite neg_sin, neg_cos. lra.
Qed.
Lemma sph_east : bl <= radians (e - 10) <= bh ->
  xl <= klo * (slo al / chi al) * slo bl -> khi * (shi ah / clo ah) * shi bh <= xh ->
  yl <= klo * (slo al / chi al) * clo bh -> khi * (shi ah / clo ah) * chi bl <= yh ->
  xl <= fst (plane 0 n e) <= xh /\ yl <= snd (plane 0 n e) <= yh.
Proof.
  intros H H1 H2 H3 H4. destruct (sph_in _ H) as [X Y]. unfold plane, pole_distance. cbn [fst snd Z.leb Z.compare]. lra.
Qed.
Lemma wgs_west pl ph : pl <= Rpower (flat n) (ecc / 2) <= ph -> 0 < pl -> bl <= radians (10 - e) <= bh ->
  - xh <= 11862.667042661695 * ((slo al / chi al) / ph) * slo bl -> 11862.667042661695 * ((shi ah / clo ah) / pl) * shi bh <= - xl ->
  yl <= 11862.667042661695 * ((slo al / chi al) / ph) * clo bh -> 11862.667042661695 * ((shi ah / clo ah) / pl) * chi bl <= yh ->
  xl <= fst (plane 5 n e) <= xh /\ yl <= snd (plane 5 n e) <= yh.
Proof.
  intros Hq Hp H H1 H2 H3 H4. destruct (wgs_in pl ph _ Hp Hq H) as [X Y]. unfold plane, pole_distance. cbn [fst snd Z.leb Z.compare Pos.compare Pos.compare_cont].
  rewrite neg_sin, neg_cos. lra.
Qed.
Lemma wgs_east pl ph : pl <= Rpower (flat n) (ecc / 2) <= ph -> 0 < pl -> bl <= radians (e - 10) <= bh ->
  xl <= 11862.667042661695 * ((slo al / chi al) / ph) * slo bl -> 11862.667042661695 * ((shi ah / clo ah) / pl) * shi bh <= xh ->
  yl <= 11862.667042661695 * ((slo al / chi al) / ph) * clo bh -> 11862.667042661695 * ((shi ah / clo ah) / pl) * chi bl <= yh ->
  xl <= fst (plane 5 n e) <= xh /\ yl <= snd (plane 5 n e) <= yh.
Proof.
  intros Hq Hp H H1 H2 H3 H4. destruct (wgs_in pl ph _ Hp Hq H) as [X Y]. unfold plane, pole_distance. cbn [fst snd Z.leb Z.compare Pos.compare Pos.compare_cont]. lra.
Qed.
End Point.

(** Logarithm and exponential. *)
Lemma nondecreasing (f df : R -> R) a b : a <= b -> (forall x, a <= x <= b -> is_derive f x (df x)) -> (forall x, a <= x <= b -> 0 <= df x) -> f a <= f b.
Proof.
  intros Hab Hd Hp. destruct (MVT_gen f a b df) as (c & Hc & E).
  - intros x Hx. rewrite Rmin_left, Rmax_right in Hx by assumption. apply Hd. lra.
  - intros x Hx. rewrite Rmin_left, Rmax_right in Hx by assumption. apply continuity_pt_filterlim. apply (ex_derive_continuous f x). exists (df x). now apply Hd.
  - rewrite Rmin_left, Rmax_right in Hc by assumption. specialize (Hp c Hc). nra.
Qed.

Lemma log_lower z : 0 <= z <= / 2 -> 2 * z + 2 * z ^ 3 / 3 <= ln (1 + z) - ln (1 - z).
Proof.
  intros H. pose proof (nondecreasing (fun t => ln (1 + t) - ln (1 - t) - (2 * t + 2 * t ^ 3 / 3)) (fun t => / (1 + t) + / (1 - t) - (2 + 2 * t ^ 2)) 0 z) as M.
  cbv beta in M. rewrite Rplus_0_r, Rminus_0_r, ln_1 in M. 
  assert (0 - 0 - (2 * 0 + 2 * 0 ^ 3 / 3) <= ln (1 + z) - ln (1 - z) - (2 * z + 2 * z ^ 3 / 3)).
  { apply M; [lra| |].
    - intros t Ht. auto_derive; [lra|]. field. lra.
    - intros t Ht. replace (/ (1 + t) + / (1 - t) - (2 + 2 * t ^ 2)) with (2 * t ^ 4 / (1 - t ^ 2)) by (field; repeat split; nra).
      apply Rmult_le_pos; [nra|left; apply Rinv_0_lt_compat; nra]. }
  lra.
Qed.
Lemma log_upper z : 0 <= z <= / 2 -> ln (1 + z) - ln (1 - z) <= 2 * z + 2 * z ^ 3 / 3 + z ^ 5.
Proof.
  intros H. pose proof (nondecreasing (fun t => (2 * t + 2 * t ^ 3 / 3 + t ^ 5) - (ln (1 + t) - ln (1 - t))) (fun t => (2 + 2 * t ^ 2 + 5 * t ^ 4) - (/ (1 + t) + / (1 - t))) 0 z) as M.
  cbv beta in M. rewrite Rplus_0_r, Rminus_0_r, ln_1 in M. 
  assert (2 * 0 + 2 * 0 ^ 3 / 3 + 0 ^ 5 - (0 - 0) <= 2 * z + 2 * z ^ 3 / 3 + z ^ 5 - (ln (1 + z) - ln (1 - z))).
  { apply M; [lra| |].
    - intros t Ht. auto_derive; [lra|]. field. lra.
    - intros t Ht. replace (2 + 2 * t ^ 2 + 5 * t ^ 4 - (/ (1 + t) + / (1 - t))) with (t ^ 4 * (3 - 5 * t ^ 2) / (1 - t ^ 2)) by (field; repeat split; nra).
      apply Rmult_le_pos; [apply Rmult_le_pos; nra|left; apply Rinv_0_lt_compat; nra]. }
  lra.
Qed.
Lemma exp_upper p : p <= 0 -> exp p <= 1 + p + p ^ 2 / 2.
Proof.
  intros H. pose proof (nondecreasing (fun t => exp t - (1 + t + t ^ 2 / 2)) (fun t => exp t - (1 + t)) p 0) as M. cbv beta in M.
  rewrite exp_0 in M. assert (exp p - (1 + p + p ^ 2 / 2) <= 1 - (1 + 0 + 0 ^ 2 / 2)).
  { apply M; [assumption| |].
    - intros t Ht. auto_derive; [trivial|]. field.
    - intros t Ht. pose proof (exp_ineq1_le t). lra. }
  lra.
Qed.
Lemma exp_lower p : p <= 0 -> 1 + p + p ^ 2 / 2 + p ^ 3 / 6 <= exp p.
Proof.
  intros H. pose proof (nondecreasing (fun t => (1 + t + t ^ 2 / 2 + t ^ 3 / 6) - exp t) (fun t => (1 + t + t ^ 2 / 2) - exp t) p 0) as M. cbv beta in M.
  rewrite exp_0 in M. assert (1 + p + p ^ 2 / 2 + p ^ 3 / 6 - exp p <= 1 + 0 + 0 ^ 2 / 2 + 0 ^ 3 / 6 - 1).
  { apply M; [assumption| |].
    - intros t Ht. auto_derive; [trivial|]. field.
    - intros t Ht. pose proof (exp_upper t ltac:(lra)). lra. }
  lra.
Qed.

Definition hlo (z : R) : R := 2 * z + 2 * z ^ 3 / 3.
Definition hhi (z : R) : R := 2 * z + 2 * z ^ 3 / 3 + z ^ 5.
Lemma hlo_mono a b : 0 <= a <= b -> hlo a <= hlo b.
Proof. intros H. unfold hlo. assert (a ^ 3 <= b ^ 3) by (apply pow_incr; lra). lra. Qed.
Lemma hhi_mono a b : 0 <= a <= b -> hhi a <= hhi b.
Proof. intros H. unfold hhi. assert (a ^ 3 <= b ^ 3) by (apply pow_incr; lra). assert (a ^ 5 <= b ^ 5) by (apply pow_incr; lra). lra. Qed.

Lemma power_in n gl gh lo hi :
  gl <= radians n <= gh -> 0 <= gl /\ gh <= 1 -> 
  0 <= slo gl -> ecc * shi gh <= 1 / 2 ->
  (let p := - (ecc / 2) * hhi (ecc * shi gh) in lo <= 1 + p + p ^ 2 / 2 + p ^ 3 / 6) ->
  (let p := - (ecc / 2) * hlo (ecc * slo gl) in 1 + p + p ^ 2 / 2 <= hi) ->
  lo <= Rpower (flat n) (ecc / 2) <= hi.
Proof.
  intros H [G1 G2] S0 S1 L1 L2. cbv zeta in L1, L2. pose proof (sin_in gl gh _ G1 H G2) as S. pose proof ecc_range as E.
  set (z := ecc * sin (radians n)). assert (Z : ecc * slo gl <= z <= ecc * shi gh) by (unfold z; split; apply Rmult_le_compat_l; lra).
  assert (Z0 : 0 <= ecc * slo gl) by (apply Rmult_le_pos; lra).
  assert (Ef : Rpower (flat n) (ecc / 2) = exp (- (ecc / 2) * (ln (1 + z) - ln (1 - z)))).
  { unfold Rpower, flat. fold z. f_equal. unfold Rdiv at 2. rewrite ln_mult, ln_Rinv; [ring|lra|lra|apply Rinv_0_lt_compat; lra]. }
  rewrite Ef. set (h := ln (1 + z) - ln (1 - z)).
  pose proof (log_lower z ltac:(lra)) as A1. pose proof (log_upper z ltac:(lra)) as A2. fold h in A1, A2. fold (hlo z) in A1. fold (hhi z) in A2.
  pose proof (hlo_mono _ _ (conj Z0 (proj1 Z))) as M1. assert (Z1 : 0 <= z <= ecc * shi gh) by lra. pose proof (hhi_mono _ _ Z1) as M2.
  assert (Hl : 0 <= hlo (ecc * slo gl)). { unfold hlo. assert (0 <= (ecc * slo gl) ^ 3) by (apply pow_le; assumption). lra. }
  assert (Ei : forall a b, a <= b -> exp a <= exp b).
  { intros a b [Hab| ->]; [left; now apply exp_increasing|lra]. }
  split.
  - eapply Rle_trans; [exact L1|]. eapply Rle_trans; [apply exp_lower; nra|]. apply Ei. nra.
  - eapply Rle_trans; [|exact L2]. eapply Rle_trans; [|apply exp_upper; nra]. apply Ei. nra.
Qed.

Ltac range := pose proof (Raux.Rabs_le_inv _ _ pi_bounds); unfold radians; lra.
(** Closed rational expressions are evaluated in integer intervals: the pair
    (l, h) stands for the reals between l/2^80 and h/2^80. *)
Inductive qexpr := QLit (z : Z) | QRat (q : Q) | QAdd (a b : qexpr) | QSub (a b : qexpr) | QMul (a b : qexpr) | QDiv (a b : qexpr) | QOpp (a : qexpr) | QPow (a : qexpr) (k : nat).
Fixpoint qR (e : qexpr) : R :=
  match e with
  | QLit z => IZR z | QRat q => Q2R q | QAdd a b => qR a + qR b | QSub a b => qR a - qR b | QMul a b => qR a * qR b
  | QDiv a b => qR a / qR b | QOpp a => - qR a | QPow a k => qR a ^ k
  end.
Definition iscale : Z := 1208925819614629174706176.
Definition ival : Type := Z * Z.
Definition holds (i : ival) (r : R) : Prop := IZR (fst i) <= r * IZR iscale <= IZR (snd i).
Definition imul (a b : ival) : ival :=
  let '(al, ah) := a in let '(bl, bh) := b in
  if ((0 <=? al) && (0 <=? bl))%Z%bool then (Z.shiftr (al * bl) 80, Z.shiftr (ah * bh) 80 + 1)%Z
  else (Z.shiftr (Z.min (Z.min (al * bl) (al * bh)) (Z.min (ah * bl) (ah * bh))) 80,
        Z.shiftr (Z.max (Z.max (al * bl) (al * bh)) (Z.max (ah * bl) (ah * bh))) 80 + 1)%Z.
Definition idiv (a b : ival) : option ival :=
  let '(al, ah) := a in let '(bl, bh) := b in
  if (0 <? bl)%Z then
    Some ((al * iscale) / (if (0 <=? al)%Z then bh else bl), (ah * iscale) / (if (0 <=? ah)%Z then bl else bh) + 1)%Z
  else None.
Fixpoint ipow (a : ival) (k : nat) : ival := match k with O => (iscale, iscale) | S k => imul a (ipow a k) end.
Fixpoint iQ (e : qexpr) : option ival :=
  match e with
  | QLit z => Some (z * iscale, z * iscale)%Z
  | QRat q => let l := (Qnum q * iscale / Zpos (Qden q))%Z in Some (l, l + 1)%Z
  | QAdd a b => match iQ a, iQ b with Some (al, ah), Some (bl, bh) => Some (al + bl, ah + bh)%Z | _, _ => None end
  | QSub a b => match iQ a, iQ b with Some (al, ah), Some (bl, bh) => Some (al - bh, ah - bl)%Z | _, _ => None end
  | QMul a b => match iQ a, iQ b with Some a, Some b => Some (imul a b) | _, _ => None end
  | QDiv a b => match iQ a, iQ b with Some a, Some b => idiv a b | _, _ => None end
  | QOpp a => match iQ a with Some (l, h) => Some (- h, - l)%Z | None => None end
  | QPow a k => match iQ a with Some a => Some (ipow a k) | None => None end
  end.

Lemma iscale_pos : 0 < IZR iscale.
Proof. apply IZR_lt. reflexivity. Qed.
Lemma div_floor (x y : Z) : (0 < y)%Z -> IZR (x / y) <= IZR x / IZR y <= IZR (x / y + 1).
Proof.
  intros H. assert (P : 0 < IZR y) by now apply IZR_lt. pose proof (Z.div_mod x y ltac:(lia)) as E. pose proof (Z.mod_pos_bound x y H) as B.
  assert (Er : IZR x = IZR y * IZR (x / y) + IZR (x mod y)) by (rewrite <- mult_IZR, <- plus_IZR; now f_equal).
  assert (B1 : 0 <= IZR (x mod y)) by (apply IZR_le; lia). assert (B2 : IZR (x mod y) <= IZR y) by (apply IZR_le; lia).
  rewrite plus_IZR. split; (apply Rmult_le_reg_r with (IZR y); [assumption|]); unfold Rdiv; rewrite Rmult_assoc, Rinv_l by lra; nra.
Qed.
Lemma shift_floor x r : IZR x <= r -> IZR (Z.shiftr x 80) <= r / IZR iscale.
Proof.
  intros H. rewrite Z.shiftr_div_pow2 by lia. change (2 ^ 80)%Z with iscale. pose proof (div_floor x iscale ltac:(reflexivity)) as [L _].
  eapply Rle_trans; [exact L|]. apply Rmult_le_compat_r; [left; apply Rinv_0_lt_compat, iscale_pos|assumption].
Qed.
Lemma shift_ceil x r : r <= IZR x -> r / IZR iscale <= IZR (Z.shiftr x 80 + 1).
Proof.
  intros H. rewrite Z.shiftr_div_pow2 by lia. change (2 ^ 80)%Z with iscale. pose proof (div_floor x iscale ltac:(reflexivity)) as [_ L].
  eapply Rle_trans; [|exact L]. apply Rmult_le_compat_r; [left; apply Rinv_0_lt_compat, iscale_pos|assumption].
Qed.
Lemma four_products al ah bl bh x y : al <= x <= ah -> bl <= y <= bh ->
  (al * bl <= x * y \/ al * bh <= x * y \/ ah * bl <= x * y \/ ah * bh <= x * y) /\
  (x * y <= al * bl \/ x * y <= al * bh \/ x * y <= ah * bl \/ x * y <= ah * bh).
Proof.
  intros [A1 A2] [B1 B2]. destruct (Rle_or_lt 0 y) as [Y|Y]; destruct (Rle_or_lt 0 al) as [C|C]; destruct (Rle_or_lt 0 ah) as [D|D]; split.
  all: try (left; nra). all: try (right; left; nra). all: try (right; right; left; nra). all: try (right; right; right; nra).
Qed.
Lemma imul_holds a b x y : holds a x -> holds b y -> holds (imul a b) (x * y).
Proof.
  destruct a as [al ah], b as [bl bh]. unfold holds, imul. cbn [fst snd]. intros A B. pose proof iscale_pos as P.
  set (x' := x * IZR iscale) in *. set (y' := y * IZR iscale) in *.
  replace (x * y * IZR iscale) with (x' * y' / IZR iscale) by (unfold x', y'; field; lra).
  destruct (Z.leb_spec 0 al), (Z.leb_spec 0 bl); cbn [andb fst snd].
  { assert (0 <= IZR al) by now apply IZR_le. assert (0 <= IZR bl) by now apply IZR_le.
    split; [apply shift_floor|apply shift_ceil]; rewrite mult_IZR; apply Rmult_le_compat; lra. }
  all: pose proof (four_products _ _ _ _ _ _ A B) as [F G]; rewrite <- !mult_IZR in F, G.
  all: split; [apply shift_floor|apply shift_ceil].
  1,3,5: destruct F as [F|[F|[F|F]]]; (eapply Rle_trans; [|exact F]); apply IZR_le; lia.
  all: destruct G as [G|[G|[G|G]]]; (eapply Rle_trans; [exact G|]); apply IZR_le; lia.
Qed.
Lemma idiv_holds a b c x y : holds a x -> holds b y -> idiv a b = Some c -> holds c (x / y).
Proof.
  destruct a as [al ah], b as [bl bh]. unfold holds, idiv. cbn [fst snd]. intros A B. pose proof iscale_pos as P.
  destruct (Z.ltb_spec 0 bl); [|discriminate]. intros E. apply (f_equal (fun o => match o with Some q => q | None => (0, 0)%Z end)) in E. cbv beta iota in E. subst c. cbn [fst snd].
  assert (Pb : 0 < IZR bl) by now apply IZR_lt. assert (Py : 0 < y) by nra. 
  set (y' := y * IZR iscale) in *. assert (Ex : x / y * IZR iscale = x * IZR iscale * IZR iscale / y') by (unfold y'; field; lra). rewrite Ex. clear Ex.
  set (x' := x * IZR iscale) in *. assert (Pb' : 0 < IZR bh) by lra. assert (0 < bh)%Z by now apply lt_IZR.
  assert (I1 : / IZR bh <= / y') by (apply Rinv_le_contravar; lra). assert (I2 : / y' <= / IZR bl) by (apply Rinv_le_contravar; lra).
  assert (I0 : 0 < / IZR bh) by now apply Rinv_0_lt_compat.
  unfold Rdiv. split.
  - apply Rle_trans with (IZR (al * iscale) / IZR (if (0 <=? al)%Z then bh else bl)).
    { apply div_floor. now destruct (0 <=? al)%Z. }
    rewrite mult_IZR. unfold Rdiv. rewrite (Rmult_comm (IZR al)), (Rmult_comm x'), !Rmult_assoc. apply Rmult_le_compat_l; [lra|].
    destruct (Z.leb_spec 0 al) as [N|N].
    + assert (0 <= IZR al) by now apply IZR_le. apply Rmult_le_compat; lra.
    + assert (IZR al <= 0) by (apply IZR_le; lia). apply Rle_trans with (IZR al * / y'); [nra|]. apply Rmult_le_compat_r; lra.
  - eapply Rle_trans; [|apply div_floor; now destruct (0 <=? ah)%Z].
    rewrite mult_IZR. unfold Rdiv. rewrite (Rmult_comm (IZR ah)), (Rmult_comm x'), !Rmult_assoc. apply Rmult_le_compat_l; [lra|].
    destruct (Z.leb_spec 0 ah) as [N|N].
    + assert (0 <= IZR ah) by now apply IZR_le. apply Rle_trans with (IZR ah * / y'); [apply Rmult_le_compat_r; lra|]. nra.
    + assert (IZR ah <= 0) by (apply IZR_le; lia). apply Rle_trans with (IZR ah * / y'); [apply Rmult_le_compat_r; lra|]. nra.
Qed.
Lemma ipow_holds a x k : holds a x -> holds (ipow a k) (x ^ k).
Proof.
  intros H. induction k as [|k IH]; cbn [ipow pow]; [|now apply imul_holds]. unfold holds. cbn [fst snd]. rewrite Rmult_1_l. lra.
Qed.
Lemma i_correct e : forall i, iQ e = Some i -> holds i (qR e).
Proof.
  induction e as [z|r|a IHa b IHb|a IHa b IHb|a IHa b IHb|a IHa b IHb|a IHa|a IHa k]; cbn [iQ qR]; intros i H.
  - apply (f_equal (fun o => match o with Some q => q | None => (0, 0)%Z end)) in H. cbv beta iota in H. subst i. unfold holds. cbn [fst snd]. rewrite mult_IZR. lra.
  - apply (f_equal (fun o => match o with Some q => q | None => (0, 0)%Z end)) in H. cbv beta iota zeta in H. subst i. unfold holds. cbn [fst snd].
    replace (Q2R r * IZR iscale) with (IZR (Qnum r * iscale) / IZR (Zpos (Qden r))) by (rewrite mult_IZR; unfold Q2R, Rdiv; ring).
    now apply div_floor.
  - destruct (iQ a) as [[al ah]|]; [|discriminate]. destruct (iQ b) as [[bl bh]|]; [|discriminate]. specialize (IHa _ eq_refl). specialize (IHb _ eq_refl).
    apply (f_equal (fun o => match o with Some q => q | None => (0, 0)%Z end)) in H. cbv beta iota in H. subst i. unfold holds in *. cbn [fst snd] in *. rewrite !plus_IZR. lra.
  - destruct (iQ a) as [[al ah]|]; [|discriminate]. destruct (iQ b) as [[bl bh]|]; [|discriminate]. specialize (IHa _ eq_refl). specialize (IHb _ eq_refl).
    apply (f_equal (fun o => match o with Some q => q | None => (0, 0)%Z end)) in H. cbv beta iota in H. subst i. unfold holds in *. cbn [fst snd] in *. rewrite !minus_IZR. lra.
  - destruct (iQ a) as [x|]; [|discriminate]. destruct (iQ b) as [y|]; [|discriminate].
    apply (f_equal (fun o => match o with Some q => q | None => (0, 0)%Z end)) in H. cbv beta iota in H. subst i. apply imul_holds; auto.
  - destruct (iQ a) as [x|]; [|discriminate]. destruct (iQ b) as [y|]; [|discriminate]. now apply (idiv_holds x y); auto.
  - destruct (iQ a) as [[al ah]|]; [|discriminate]. specialize (IHa _ eq_refl).
    apply (f_equal (fun o => match o with Some q => q | None => (0, 0)%Z end)) in H. cbv beta iota in H. subst i. unfold holds in *. cbn [fst snd] in *. rewrite !opp_IZR. lra.
  - destruct (iQ a) as [x|]; [|discriminate]. 
    apply (f_equal (fun o => match o with Some q => q | None => (0, 0)%Z end)) in H. cbv beta iota in H. subst i. apply ipow_holds; auto.
Qed.
Definition qle (a b : qexpr) : bool := match iQ a, iQ b with Some (_, h), Some (l, _) => (h <=? l)%Z | _, _ => false end.
Definition qlt (a b : qexpr) : bool := match iQ a, iQ b with Some (_, h), Some (l, _) => (h <? l)%Z | _, _ => false end.
Lemma qle_correct a b : qle a b = true -> qR a <= qR b.
Proof.
  unfold qle. destruct (iQ a) as [[al ah]|] eqn:A; [|discriminate]. destruct (iQ b) as [[bl bh]|] eqn:B; [|discriminate]. intros H.
  apply i_correct in A. apply i_correct in B. unfold holds in A, B. cbn [fst snd] in A, B. apply Z.leb_le, IZR_le in H.
  apply Rmult_le_reg_r with (IZR iscale); [apply iscale_pos|lra].
Qed.
Lemma qlt_correct a b : qlt a b = true -> qR a < qR b.
Proof.
  unfold qlt. destruct (iQ a) as [[al ah]|] eqn:A; [|discriminate]. destruct (iQ b) as [[bl bh]|] eqn:B; [|discriminate]. intros H.
  apply i_correct in A. apply i_correct in B. unfold holds in A, B. cbn [fst snd] in A, B. apply Z.ltb_lt, IZR_lt in H.
  apply Rmult_lt_reg_r with (IZR iscale); [apply iscale_pos|lra].
Qed.
Ltac reify_q e :=
  lazymatch e with
  | IZR ?z => constr:(QLit z)
  | Q2R ?q => constr:(QRat q)
  | ?a + ?b => let x := reify_q a in let y := reify_q b in constr:(QAdd x y)
  | ?a - ?b => let x := reify_q a in let y := reify_q b in constr:(QSub x y)
  | ?a * ?b => let x := reify_q a in let y := reify_q b in constr:(QMul x y)
  | ?a / ?b => let x := reify_q a in let y := reify_q b in constr:(QDiv x y)
  | / ?b => let y := reify_q b in constr:(QDiv (QLit 1) y)
  | - ?b => let y := reify_q b in constr:(QOpp y)
  | ?a ^ ?k => let x := reify_q a in constr:(QPow x k)
  end.
Ltac rational :=
  lazymatch goal with
  | |- ?a <= ?b => let x := reify_q a in let y := reify_q b in apply (qle_correct x y); vm_compute; reflexivity
  | |- ?a < ?b => let x := reify_q a in let y := reify_q b in apply (qlt_correct x y); vm_compute; reflexivity
  end.
Ltac num_eval := cbv zeta; unfold klo, khi, hlo, hhi, shi, chi, slo, clo, ecc; rational.

Lemma ref : -73.462167 <= fst (plane 0 51 9) <= -73.462166 /\ 4208.644724 <= snd (plane 0 51 9) <= 4208.644725.
Proof. apply (sph_west 51 9 0.3403392041387 0.3403392041390 0.0174532925198 0.0174532925201); first [num_eval|range]. Qed.
Lemma national_nw : -523.460999 <= fst (plane 0 54.5877 2.0715) <= -523.460998 /\ 3758.646101 <= snd (plane 0 54.5877 2.0715) <= 3758.646102.
Proof. apply (sph_west 54.5877 2.0715 0.3090306153518 0.3090306153521 0.1383784297442 0.1383784297445); first [num_eval|range]. Qed.
Lemma national_se : 376.535738 <= fst (plane 0 47.0705 14.6209) <= 376.535739 /\ 4658.640785 <= snd (plane 0 47.0705 14.6209) <= 4658.640786.
Proof. apply (sph_east 47.0705 14.6209 0.3746305606173 0.3746305606176 0.0806499194053 0.0806499194056); first [num_eval|range]. Qed.
Lemma picture_nw : -533.465056 <= fst (plane 0 54.66218275 1.900684377) <= -533.465055 /\ 3748.641835 <= snd (plane 0 54.66218275 1.900684377) <= 3748.641836.
Proof. apply (sph_west 54.66218275 1.900684377 0.3083806307401 0.3083806307404 0.1413597247794 0.1413597247797); first [num_eval|range]. Qed.
Lemma picture_se : 386.540721 <= fst (plane 0 46.98044293 14.73300934) <= 386.540722 /\ 4668.647613 <= snd (plane 0 46.98044293 14.73300934) <= 4668.647614.
Proof. apply (sph_east 46.98044293 14.73300934 0.3754164568104 0.3754164568107 0.0826065965105 0.0826065965108); first [num_eval|range]. Qed.
Lemma extended_nw : -443.463966 <= fst (plane 0 55.5482 3.0889) <= -443.463965 /\ 3658.645668 <= snd (plane 0 55.5482 3.0889) <= 3658.645669.
Proof. apply (sph_west 55.5482 3.0889 0.3006486716191 0.3006486716194 0.1206214499344 0.1206214499347); first [num_eval|range]. Qed.
Lemma extended_se : 456.536908 <= fst (plane 0 46.1827 15.4801) <= 456.536909 /\ 4758.640352 <= snd (plane 0 46.1827 15.4801) <= 4758.640353.
Proof. apply (sph_east 46.1827 15.4801 0.3823780771669 0.3823780771672 0.0956457883384 0.0956457883387); first [num_eval|range]. Qed.
Lemma de1200_nw : -543.462167 <= fst (plane 0 55.86584289 1.435612143) <= -543.462166 /\ 3608.644724 <= snd (plane 0 55.86584289 1.435612143) <= 3608.644725.
Proof. apply (sph_west 55.86584289 1.435612143 0.2978767144811 0.2978767144814 0.1494767665223 0.1494767665226); first [num_eval|range]. Qed.
Lemma de1200_se : 556.537833 <= fst (plane 0 45.68358331 16.60186543) <= 556.537834 /\ 4808.644724 <= snd (plane 0 45.68358331 16.60186543) <= 4808.644725.
Proof. apply (sph_east 45.68358331 16.60186543 0.3867336919630 0.3867336919633 0.1152242885269 0.1152242885272); first [num_eval|range]. Qed.
Lemma wgs84_nw_power : 0.99446597493 <= Rpower (flat 55.86208711) (ecc / 2) <= 0.99446606137.
Proof. apply (power_in 55.86208711 0.9749773471052 0.9749773471055); [range|range|num_eval|num_eval|num_eval|num_eval]. Qed.
Lemma wgs84_nw : -543.696855 <= fst (plane 5 55.86208711 1.463301510) <= -543.696806 /\ 3622.088673 <= snd (plane 5 55.86208711 1.463301510) <= 3622.088989.
Proof. apply (wgs_west 55.86208711 1.463301510) with (al := 0.2979094898446) (ah := 0.2979094898449) (bl := 0.1489934959004) (bh := 0.1489934959007) (pl := 0.99446597493) (ph := 0.99446606137); first [exact wgs84_nw_power|num_eval|range]. Qed.
Lemma wgs84_se_power : 0.99521611660 <= Rpower (flat 45.68460578) (ecc / 2) <= 0.99521616299.
Proof. apply (power_in 45.68460578 0.7973467883365 0.7973467883368); [range|range|num_eval|num_eval|num_eval|num_eval]. Qed.
Lemma wgs84_se : 556.303148 <= fst (plane 5 45.68460578 16.58086935) <= 556.303175 /\ 4822.088718 <= snd (plane 5 45.68460578 16.58086935) <= 4822.088944.
Proof. apply (wgs_east 45.68460578 16.58086935) with (al := 0.3867247692290) (ah := 0.3867247692293) (bl := 0.1148578378009) (bh := 0.1148578378012) (pl := 0.99521611660) (ph := 0.99521616299); first [exact wgs84_se_power|num_eval|range]. Qed.
Lemma european_nw : -673.461240 <= fst (plane 0 56.5423 (-0.8654)) <= -673.461239 /\ 3508.644167 <= snd (plane 0 56.5423 (-0.8654)) <= 3508.644168.
Proof. apply (sph_west 56.5423 (-0.8654) 0.2919735125721 0.2919735125724 0.1896370045460 0.1896370045463); first [num_eval|range]. Qed.
Lemma european_se : 726.540556 <= fst (plane 0 43.8736 18.2536) <= 726.540557 /\ 5008.646880 <= snd (plane 0 43.8736 18.2536) <= 5008.646881.
Proof. apply (sph_east 43.8736 18.2536 0.4025287760458 0.4025287760461 0.1440524951425 0.1440524951428); first [num_eval|range]. Qed.
