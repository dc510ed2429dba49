(** Further documented points of the grids on the map plane, by interval
    arithmetic (GridNumbers.v), and a sharper enclosure of the ellipsoid's power. *)
From Coq Require Import Reals Lra Psatz.
From Coquelicot Require Import Coquelicot.
From Verif Require Import ExactReal AccFacts PropReal PropAccuracy GridNumbers.
Local Open Scope R_scope.

Definition hlo9 (z : R) : R := 2 * z + 2 * z ^ 3 / 3 + 2 * z ^ 5 / 5 + 2 * z ^ 7 / 7 + 2 * z ^ 9 / 9.
Definition hhi11 (z : R) : R := hlo9 z + z ^ 11.
Lemma log_lower9 z : 0 <= z <= / 2 -> hlo9 z <= ln (1 + z) - ln (1 - z).
Proof.
  intros H. pose proof (nondecreasing (fun t => ln (1 + t) - ln (1 - t) - hlo9 t) (fun t => / (1 + t) + / (1 - t) - (2 + 2 * t ^ 2 + 2 * t ^ 4 + 2 * t ^ 6 + 2 * t ^ 8)) 0 z) as M.
  cbv beta in M. rewrite Rplus_0_r, Rminus_0_r, ln_1 in M. 
  assert (0 - 0 - hlo9 0 <= ln (1 + z) - ln (1 - z) - hlo9 z).
  { apply M; [lra| |].
    - intros t Ht. unfold hlo9. auto_derive; [lra|]. field. lra.
    - intros t Ht. replace (/ (1 + t) + / (1 - t) - (2 + 2 * t ^ 2 + 2 * t ^ 4 + 2 * t ^ 6 + 2 * t ^ 8)) with (2 * t ^ 10 / (1 - t ^ 2)) by (field; repeat split; nra).
      apply Rmult_le_pos; [assert (0 <= t ^ 10) by (apply pow_le; lra); lra|left; apply Rinv_0_lt_compat; nra]. }
  assert (hlo9 0 = 0) by (unfold hlo9; field). lra.
Qed.
Lemma log_upper11 z : 0 <= z <= / 2 -> ln (1 + z) - ln (1 - z) <= hhi11 z.
Proof.
  intros H. pose proof (nondecreasing (fun t => hhi11 t - (ln (1 + t) - ln (1 - t))) (fun t => (2 + 2 * t ^ 2 + 2 * t ^ 4 + 2 * t ^ 6 + 2 * t ^ 8 + 11 * t ^ 10) - (/ (1 + t) + / (1 - t))) 0 z) as M.
  cbv beta in M. rewrite Rplus_0_r, Rminus_0_r, ln_1 in M. 
  assert (hhi11 0 - (0 - 0) <= hhi11 z - (ln (1 + z) - ln (1 - z))).
  { apply M; [lra| |].
    - intros t Ht. unfold hhi11, hlo9. auto_derive; [lra|]. field. lra.
    - intros t Ht. replace (2 + 2 * t ^ 2 + 2 * t ^ 4 + 2 * t ^ 6 + 2 * t ^ 8 + 11 * t ^ 10 - (/ (1 + t) + / (1 - t))) with (t ^ 10 * (9 - 11 * t ^ 2) / (1 - t ^ 2)) by (field; repeat split; nra).
      assert (0 <= t ^ 10) by (apply pow_le; lra). apply Rmult_le_pos; [apply Rmult_le_pos; nra|left; apply Rinv_0_lt_compat; nra]. }
  assert (hhi11 0 = 0) by (unfold hhi11, hlo9; field). lra.
Qed.
Lemma exp_upper4 p : p <= 0 -> exp p <= 1 + p + p ^ 2 / 2 + p ^ 3 / 6 + p ^ 4 / 24.
Proof.
  intros H. pose proof (nondecreasing (fun t => exp t - (1 + t + t ^ 2 / 2 + t ^ 3 / 6 + t ^ 4 / 24)) (fun t => exp t - (1 + t + t ^ 2 / 2 + t ^ 3 / 6)) p 0) as M. cbv beta in M.
  rewrite exp_0 in M. assert (exp p - (1 + p + p ^ 2 / 2 + p ^ 3 / 6 + p ^ 4 / 24) <= 1 - (1 + 0 + 0 ^ 2 / 2 + 0 ^ 3 / 6 + 0 ^ 4 / 24)).
  { apply M; [assumption| |].
    - intros t Ht. auto_derive; [trivial|]. field.
    - intros t Ht. pose proof (exp_lower t ltac:(lra)). lra. }
  lra.
Qed.
Lemma exp_lower5 p : p <= 0 -> 1 + p + p ^ 2 / 2 + p ^ 3 / 6 + p ^ 4 / 24 + p ^ 5 / 120 <= exp p.
Proof.
  intros H. pose proof (nondecreasing (fun t => (1 + t + t ^ 2 / 2 + t ^ 3 / 6 + t ^ 4 / 24 + t ^ 5 / 120) - exp t) (fun t => (1 + t + t ^ 2 / 2 + t ^ 3 / 6 + t ^ 4 / 24) - exp t) p 0) as M. cbv beta in M.
  rewrite exp_0 in M. assert (1 + p + p ^ 2 / 2 + p ^ 3 / 6 + p ^ 4 / 24 + p ^ 5 / 120 - exp p <= 1 + 0 + 0 ^ 2 / 2 + 0 ^ 3 / 6 + 0 ^ 4 / 24 + 0 ^ 5 / 120 - 1).
  { apply M; [assumption| |].
    - intros t Ht. auto_derive; [trivial|]. field.
    - intros t Ht. pose proof (exp_upper4 t ltac:(lra)). lra. }
  lra.
Qed.
Lemma hlo9_mono a b : 0 <= a <= b -> hlo9 a <= hlo9 b.
Proof.
  intros H. unfold hlo9. assert (a ^ 3 <= b ^ 3) by (apply pow_incr; lra). assert (a ^ 5 <= b ^ 5) by (apply pow_incr; lra).
  assert (a ^ 7 <= b ^ 7) by (apply pow_incr; lra). assert (a ^ 9 <= b ^ 9) by (apply pow_incr; lra). lra.
Qed.
Lemma hhi11_mono a b : 0 <= a <= b -> hhi11 a <= hhi11 b.
Proof. intros H. unfold hhi11. pose proof (hlo9_mono a b H). assert (a ^ 11 <= b ^ 11) by (apply pow_incr; lra). lra. Qed.

Lemma power_sharp n gl gh lo hi :
  gl <= radians n <= gh -> 0 <= gl /\ gh <= 1 -> 
  0 <= slo gl -> ecc * shi gh <= 1 / 2 ->
  (let p := - (ecc / 2) * hhi11 (ecc * shi gh) in lo <= 1 + p + p ^ 2 / 2 + p ^ 3 / 6 + p ^ 4 / 24 + p ^ 5 / 120) ->
  (let p := - (ecc / 2) * hlo9 (ecc * slo gl) in 1 + p + p ^ 2 / 2 + p ^ 3 / 6 + p ^ 4 / 24 <= hi) ->
  lo <= Rpower (flat n) (ecc / 2) <= hi.
Proof.
  intros H [G1 G2] S0 S1 L1 L2. cbv zeta in L1, L2. pose proof (sin_in gl gh _ G1 H G2) as S. pose proof ecc_range as E.
  set (z := ecc * sin (radians n)). assert (Z : ecc * slo gl <= z <= ecc * shi gh) by (unfold z; split; apply Rmult_le_compat_l; lra).
  assert (Z0 : 0 <= ecc * slo gl) by (apply Rmult_le_pos; lra).
  assert (Ef : Rpower (flat n) (ecc / 2) = exp (- (ecc / 2) * (ln (1 + z) - ln (1 - z)))).
  { unfold Rpower, flat. fold z. f_equal. unfold Rdiv at 2. rewrite ln_mult, ln_Rinv; [ring|lra|lra|apply Rinv_0_lt_compat; lra]. }
  rewrite Ef. set (h := ln (1 + z) - ln (1 - z)).
  pose proof (log_lower9 z ltac:(lra)) as A1. pose proof (log_upper11 z ltac:(lra)) as A2. fold h in A1, A2.
  pose proof (hlo9_mono _ _ (conj Z0 (proj1 Z))) as M1. assert (Z1 : 0 <= z <= ecc * shi gh) by lra. pose proof (hhi11_mono _ _ Z1) as M2.
  assert (Hl : 0 <= hlo9 (ecc * slo gl)). { apply Rle_trans with (hlo9 0); [right; unfold hlo9; field|apply hlo9_mono; lra]. }
  assert (Ei : forall a b, a <= b -> exp a <= exp b).
  { intros a b [Hab| ->]; [left; now apply exp_increasing|lra]. }
  split.
  - eapply Rle_trans; [exact L1|]. eapply Rle_trans; [apply exp_lower5; nra|]. apply Ei. nra.
  - eapply Rle_trans; [|exact L2]. eapply Rle_trans; [|apply exp_upper4; nra]. apply Ei. nra.
Qed.
Ltac sharp_eval := cbv zeta; unfold hhi11, hlo9; num_eval.

Lemma national_ne : 376.5412708 <= fst (plane 0 54.7405 15.7208) <= 376.5412721 /\ 3758.6498507 <= snd (plane 0 54.7405 15.7208) <= 3758.6498520.
Proof. apply (sph_east 54.7405 15.7208 0.30769718380346 0.30769718380348 0.09984679584809 0.09984679584810); first [num_eval|range]. Qed.
Lemma national_sw : -523.4643407 <= fst (plane 0 46.9526 3.5889) <= -523.4643394 /\ 4658.6421166 <= snd (plane 0 46.9526 3.5889) <= 4658.6421179.
Proof. apply (sph_west 46.9526 3.5889 0.37565943221150 0.37565943221151 0.11189480367460 0.11189480367461); first [num_eval|range]. Qed.
Lemma picture_ne : 386.5407212 <= fst (plane 0 54.81884457 15.88724008) <= 386.5407225 /\ 3748.6418350 <= snd (plane 0 54.81884457 15.88724008) <= 3748.6418363.
Proof. apply (sph_east 54.81884457 15.88724008 0.30701349845468 0.30701349845470 0.10275172325137 0.10275172325138); first [num_eval|range]. Qed.
Lemma picture_sw : -533.4650561 <= fst (plane 0 46.86029310 3.481345126) <= -533.4650548 /\ 4668.6476122 <= snd (plane 0 46.86029310 3.481345126) <= 4668.6476135.
Proof. apply (sph_west 46.86029310 3.481345126 0.37646496187515 0.37646496187516 0.11377199035247 0.11377199035248); first [num_eval|range]. Qed.
Lemma extended_ne : 456.5379404 <= fst (plane 0 55.5342 17.1128) <= 456.5379417 /\ 3658.6415020 <= snd (plane 0 55.5342 17.1128) <= 3658.6415033.
Proof. apply (sph_east 55.5342 17.1128 0.30077084466692 0.30077084466694 0.12414177903585 0.12414177903586); first [num_eval|range]. Qed.
Lemma extended_sw : -443.4647669 <= fst (plane 0 46.1929 4.6759) <= -443.4647656 /\ 4758.6418930 <= snd (plane 0 46.1929 4.6759) <= 4758.6418943.
Proof. apply (sph_west 46.1929 4.6759 0.38228906537520 0.38228906537521 0.09292307470542 0.09292307470544); first [num_eval|range]. Qed.
Lemma de1200_ne : 556.5378322 <= fst (plane 0 55.84848692 18.76728172) <= 556.5378335 /\ 3608.6447233 <= snd (plane 0 55.84848692 18.76728172) <= 3608.6447246.
Proof. apply (sph_east 55.84848692 18.76728172 0.29802817389195 0.29802817389196 0.15301793246391 0.15301793246392); first [num_eval|range]. Qed.
Lemma de1200_sw : -543.4621676 <= fst (plane 0 45.69587048 3.551921296) <= -543.4621663 /\ 4808.6447237 <= snd (plane 0 45.69587048 3.551921296) <= 4808.6447250.
Proof. apply (sph_west 45.69587048 3.551921296 0.38662646617700 0.38662646617701 0.11254020381252 0.11254020381253); first [num_eval|range]. Qed.
Lemma european_ne : 726.5169704 <= fst (plane 0 56.4505 21.6986) <= 726.5169717 /\ 3508.6494944 <= snd (plane 0 56.4505 21.6986) <= 3508.6494957.
Proof. apply (sph_east 56.4505 21.6986 0.29277461869891 0.29277461869892 0.20417908787380 0.20417908787381); first [num_eval|range]. Qed.
Lemma european_sw : -673.4656663 <= fst (plane 0 43.9336 2.3419) <= -673.4656650 /\ 5008.6425358 <= snd (plane 0 43.9336 2.3419) <= 5008.6425371.
Proof. apply (sph_west 43.9336 2.3419 0.40200517727035 0.40200517727036 0.13365905944697 0.13365905944698); first [num_eval|range]. Qed.
Lemma munich : 122.59597199 <= fst (plane 0 48.173146 11.546604) <= 122.59597212 /\ 4540.61004367 <= snd (plane 0 48.173146 11.546604) <= 4540.61004380.
Proof. apply (sph_east 48.173146 11.546604 0.36500815902547 0.36500815902549 0.02699333202451 0.02699333202452); first [num_eval|range]. Qed.
Lemma bremerhaven : -97.29905226 <= fst (plane 0 53.534366 8.576135) <= -97.29905213 /\ 3914.47037676 <= snd (plane 0 53.534366 8.576135) <= 3914.47037689.
Proof. apply (sph_west 53.534366 8.576135 0.31822268856359 0.31822268856360 0.02485113235390 0.02485113235392); first [num_eval|range]. Qed.
Lemma wgs84_nw_sharp_power : 0.9944660096599 <= Rpower (flat 55.86208711) (ecc / 2) <= 0.9944660096660.
Proof. apply (power_sharp 55.86208711 0.97497734710537 0.97497734710540); [range|range|num_eval|num_eval|sharp_eval|sharp_eval]. Qed.
Lemma wgs84_nw_sharp : -543.696835245 <= fst (plane 5 55.86208711 1.463301510) <= -543.696835164 /\ 3622.088861691 <= snd (plane 5 55.86208711 1.463301510) <= 3622.088861772.
Proof. apply (wgs_west 55.86208711 1.463301510) with (al := 0.29790948984475) (ah := 0.29790948984476) (bl := 0.14899349590052) (bh := 0.14899349590053) (pl := 0.9944660096599) (ph := 0.9944660096660); first [exact wgs84_nw_sharp_power|num_eval|range]. Qed.
Lemma wgs84_ne_power : 0.9944671004739 <= Rpower (flat 55.84543856) (ecc / 2) <= 0.9944671004800.
Proof. apply (power_sharp 55.84543856 0.97468677509219 0.97468677509222); [range|range|num_eval|num_eval|sharp_eval|sharp_eval]. Qed.
Lemma wgs84_ne : 556.303164503 <= fst (plane 5 55.84543856 18.73161645) <= 556.303164584 /\ 3622.088862302 <= snd (plane 5 55.84543856 18.73161645) <= 3622.088862383.
Proof. apply (wgs_east 55.84543856 18.73161645) with (al := 0.29805477585134) (ah := 0.29805477585135) (bl := 0.15239545607379) (bh := 0.15239545607380) (pl := 0.9944671004739) (ph := 0.9944671004800); first [exact wgs84_ne_power|num_eval|range]. Qed.
Lemma wgs84_se_sharp_power : 0.9952161333977 <= Rpower (flat 45.68460578) (ecc / 2) <= 0.9952161334038.
Proof. apply (power_sharp 45.68460578 0.79734678833662 0.79734678833665); [range|range|num_eval|num_eval|sharp_eval|sharp_eval]. Qed.
Lemma wgs84_se_sharp : 556.303164879 <= fst (plane 5 45.68460578 16.58086935) <= 556.303164960 /\ 4822.088862041 <= snd (plane 5 45.68460578 16.58086935) <= 4822.088862122.
Proof. apply (wgs_east 45.68460578 16.58086935) with (al := 0.38672476922913) (ah := 0.38672476922914) (bl := 0.11485783780107) (bh := 0.11485783780109) (pl := 0.9952161333977) (ph := 0.9952161334038); first [exact wgs84_se_sharp_power|num_eval|range]. Qed.
Lemma wgs84_sw_power : 0.9952151700427 <= Rpower (flat 45.69642538) (ecc / 2) <= 0.9952151700488.
Proof. apply (power_sharp 45.69642538 0.79755307927289 0.79755307927292); [range|range|num_eval|num_eval|sharp_eval|sharp_eval]. Qed.
Lemma wgs84_sw : -543.696835224 <= fst (plane 5 45.69642538 3.566994635) <= -543.696835143 /\ 4822.088861577 <= snd (plane 5 45.69642538 3.566994635) <= 4822.088861658.
Proof. apply (wgs_west 45.69642538 3.566994635) with (al := 0.38662162376099) (ah := 0.38662162376100) (bl := 0.11227712441770) (bh := 0.11227712441772) (pl := 0.9952151700427) (ph := 0.9952151700488); first [exact wgs84_sw_power|num_eval|range]. Qed.
