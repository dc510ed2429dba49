(** C56: the documented grids are 1-km grids at their documented place. *)
From Coq Require Import Reals Lra Lia Psatz.
From Flocq Require Import Core Relative BinarySingleNaN.
From Verif Require Import GoBase GoFloat Catalog Composite Header Data Projection Radolan SpecReal SpecProj ExactReal SpecAccuracy SpecKm BaseFacts
  CompositeFacts Spec ApiFacts FloatFacts PropFloat PropGrid PropReal PropProjFloat AccFacts PropAccuracy GridNumbers PropLookup.
Local Open Scope R_scope.

(** The corners are within 5 m of their documented place. *)
Lemma corners_located format size w origin : located size w origin -> (5 <=? format)%Z = w -> exists nw se nwR seR,
  float_corners size w nw se /\ documented_corners size w nwR seR /\
  (let N := plane format (fst nwR) (snd nwR) in let S := plane format (fst seR) (snd seR) in
   Rabs (fst N - fst origin) <= 0.0045 /\ Rabs (snd N - snd origin) <= 0.0045 /\
   Rabs (fst S - (fst origin + IZR (fst size))) <= 0.0045 /\ Rabs (snd S - (snd origin + IZR (snd size))) <= 0.0045).
Proof.
  intros H Hf. assert (E : forall n e, plane format n e = plane (if w then 5 else 0) n e).
  { intros n e. unfold plane, pole_distance. rewrite Hf. now destruct w. }
  destruct ref as [RX RY].
  destruct H; cbv iota in E; do 4 eexists; (split; [constructor|]; split; [constructor|]);
    cbv zeta; rewrite !E; unfold from_reference; cbn [fst snd].
  - destruct national_nw, national_se. repeat split; apply Rabs_le; lra.
  - destruct picture_nw, picture_se. repeat split; apply Rabs_le; lra.
  - destruct extended_nw, extended_se. repeat split; apply Rabs_le; lra.
  - destruct de1200_nw, de1200_se. repeat split; apply Rabs_le; lra.
  - destruct wgs84_nw, wgs84_se. repeat split; apply Rabs_le; lra.
  - destruct european_nw, european_se. repeat split; apply Rabs_le; lra.
Qed.

Lemma located_size size w origin : located size w origin -> 900 <= IZR (fst size) <= 1500 /\ 900 <= IZR (snd size) <= 1500.
Proof. intros H. destruct H; cbn [fst snd]; lra. Qed.

(** A point [k] km from the origin on an axis whose ends are misplaced by at most 4.5 m. *)
Lemma axis_km (N S P o g x d k : R) : 900 <= g <= 1500 -> 1 <= d ->
  Rabs (N - o) <= 0.0045 -> Rabs (S - (o + g)) <= 0.0045 -> k = P - o -> 0 <= k <= g ->
  Rabs (x - d * ((P - N) / (S - N))) <= d / 10 ^ 9 -> Rabs (x * (g / d) - k) <= 0.005.
Proof.
  intros Hg Hd HN HS -> Hk Hx. apply Rabs_le_inv in HN, HS, Hx.
  set (q := (P - N) / (S - N)) in *.
  assert (Eq : q * (S - N) = P - N) by (unfold q; field; lra).
  assert (X : Rabs (x * (g / d) - g * q) <= 0.000002).
  { replace (x * (g / d) - g * q) with ((x - d * q) * (g / d)) by (field; lra).
    rewrite Rabs_mult, (Rabs_pos_eq (g / d)) by (apply Rmult_le_pos; [lra|left; apply Rinv_0_lt_compat; lra]).
    apply Rle_trans with (d / 10 ^ 9 * (g / d)).
    - apply Rmult_le_compat_r; [apply Rmult_le_pos; [lra|left; apply Rinv_0_lt_compat; lra]|]. apply Rabs_le. lra.
    - replace (d / 10 ^ 9 * (g / d)) with (g / 10 ^ 9) by (field; lra). lra. }
  apply Rabs_le_inv in X.
  set (a := N - o) in *. set (b := S - (o + g)) in *. set (k := P - o) in *.
  assert (E : (g * q - k) * (g + b - a) = - ((g - k) * a + k * b)).
  { replace (g + b - a) with (S - N) by (unfold a, b; ring). rewrite Rmult_minus_distr_r, Rmult_assoc, Eq. unfold a, b, k. ring. }
  assert (L : Rabs (g * q - k) * (g + b - a) <= 0.0045 * g).
  { rewrite <- (Rabs_pos_eq (g + b - a)) by lra. rewrite <- Rabs_mult, E, Rabs_Ropp. apply Rabs_le. split; nra. }
  assert (Q : Rabs (g * q - k) <= 0.00451).
  { apply Rmult_le_reg_r with (g + b - a); [lra|]. eapply Rle_trans; [exact L|]. nra. }
  apply Rabs_le_inv in Q. apply Rabs_le. lra.
Qed.

(** Pixel coordinates count (rescaled) kilometres from the documented corner. *)
Theorem C56_kilometres M (c : composite (num (arith64 M))) size origin north east n e :
  accurate_library (powerRZ 2 (-48)) M -> @calibrated (arith64 M) c ->
  resampled (c_dx c) (c_dy c) (fst size) (snd size) -> located size (5 <=? c_format c)%Z origin ->
  within (powerRZ 2 (-47)) north n -> within (powerRZ 2 (-46)) east e -> 0 <= n <= 90 -> -180 <= e <= 190 ->
  let p := project (arith64 M) c north east in
  let kx := fst (plane (c_format c) n e) - fst origin in let ky := snd (plane (c_format c) n e) - snd origin in
  exists x y, is_value (fst p) x /\ is_value (snd p) y /\
    (0 <= kx <= IZR (fst size) -> Rabs (x * (IZR (fst size) / IZR (c_dx c)) - kx) <= 0.005) /\
    (0 <= ky <= IZR (snd size) -> Rabs (y * (IZR (snd size) / IZR (c_dy c)) - ky) <= 0.005).
Proof.
  intros HM Hc Hr Hl Wn We Rn Re. cbv zeta. destruct (corners_located (c_format c) _ _ _ Hl eq_refl) as (nw & se & nwR & seR & Cf & Cd & N1 & N2 & S1 & S2).
  assert (Hg : on_float_grid M c size nw se) by (split; [exact Hc|]; split; [exact Hr|exact Cf]).
  destruct (accuracy_bounded M c size nw se nwR seR north east n e HM Hg Cd Wn We Rn Re) as (x & y & X1 & Y1 & X2 & Y2 & _).
  destruct (located_size _ _ _ Hl) as [Gx Gy]. destruct (resampled_pos _ _ _ _ _ _ Cd Hr) as [Px Py].
  assert (Ix : 1 <= IZR (c_dx c)) by (apply IZR_le; lia). assert (Iy : 1 <= IZR (c_dy c)) by (apply IZR_le; lia).
  exists x, y. split; [exact X1|]. split; [exact Y1|]. unfold exact_fraction in X2, Y2. cbv zeta in X2, Y2. cbn [fst snd] in X2, Y2.
  split; intros K; [exact (axis_km _ _ _ _ _ _ _ _ Gx Ix N1 S1 eq_refl K X2)|exact (axis_km _ _ _ _ _ _ _ _ Gy Iy N2 S2 eq_refl K Y2)].
Qed.

(** The resolution: Rx * Dx is the documented extent, up to 10 m. *)
Theorem C56_resolution M (c : composite (num (arith64 M))) size origin :
  accurate_library (powerRZ 2 (-48)) M -> @calibrated (arith64 M) c ->
  resampled (c_dx c) (c_dy c) (fst size) (snd size) -> located size (5 <=? c_format c)%Z origin ->
  exists rx ry, is_value (c_rx c) rx /\ is_value (c_ry c) ry /\
  Rabs (rx * IZR (c_dx c) - IZR (fst size)) <= 0.01 /\ Rabs (ry * IZR (c_dy c) - IZR (snd size)) <= 0.01.
Proof.
  intros HM Hc Hr Hl. destruct (corners_located (c_format c) _ _ _ Hl eq_refl) as (nw & se & nwR & seR & Cf & Cd & N1 & N2 & S1 & S2).
  assert (Hg : on_float_grid M c size nw se) by (split; [exact Hc|]; split; [exact Hr|exact Cf]).
  destruct (of_int_value64 51 ltac:(lia)) as [V1 W1], (of_int_value64 9 ltac:(lia)) as [V2 W2].
  destruct (accuracy_bounded M c size nw se nwR seR (f64_of_int 51) (f64_of_int 9) 51 9 HM Hg Cd) as (_ & _ & _ & _ & _ & _ & _ & _ & rx & ry & X & Y & E1 & E2 & _); try lra.
  - split; [assumption|]. eexists. split; [eassumption|]. rewrite Rminus_eq_0, Rabs_R0. apply powerRZ_le. lra.
  - split; [assumption|]. eexists. split; [eassumption|]. rewrite Rminus_eq_0, Rabs_R0. apply powerRZ_le. lra.
  - exists rx, ry. split; [exact X|]. split; [exact Y|]. cbv zeta in E1, E2. apply Rabs_le_inv in N1, N2, S1, S2, E1, E2. split; apply Rabs_le; lra.
Qed.

(** Distances: pixel distances times the resolution are the kilometres on the map
    plane, up to 4 micrometres. *)
Theorem C56_distance M (c : composite (num (arith64 M))) size origin n1 e1 n2 e2 north1 east1 north2 east2 :
  accurate_library (powerRZ 2 (-48)) M -> @calibrated (arith64 M) c ->
  resampled (c_dx c) (c_dy c) (fst size) (snd size) -> located size (5 <=? c_format c)%Z origin ->
  within (powerRZ 2 (-47)) north1 n1 -> within (powerRZ 2 (-46)) east1 e1 -> 0 <= n1 <= 90 -> -180 <= e1 <= 190 ->
  within (powerRZ 2 (-47)) north2 n2 -> within (powerRZ 2 (-46)) east2 e2 -> 0 <= n2 <= 90 -> -180 <= e2 <= 190 ->
  let p := project (arith64 M) c north1 east1 in let q := project (arith64 M) c north2 east2 in
  let P := plane (c_format c) n1 e1 in let Q := plane (c_format c) n2 e2 in
  exists x1 y1 x2 y2 rx ry, is_value (fst p) x1 /\ is_value (snd p) y1 /\ is_value (fst q) x2 /\ is_value (snd q) y2 /\
    is_value (c_rx c) rx /\ is_value (c_ry c) ry /\
    Rabs ((x1 - x2) * rx - (fst P - fst Q)) <= 4 / 10 ^ 9 /\ Rabs ((y1 - y2) * ry - (snd P - snd Q)) <= 4 / 10 ^ 9.
Proof.
  intros HM Hc Hr Hl A1 A2 A3 A4 B1 B2 B3 B4. cbv zeta.
  destruct (corners_located (c_format c) _ _ _ Hl eq_refl) as (nw & se & nwR & seR & Cf & Cd & _).
  assert (Hg : on_float_grid M c size nw se) by (split; [exact Hc|]; split; [exact Hr|exact Cf]).
  destruct (accuracy_bounded M c size nw se nwR seR _ _ _ _ HM Hg Cd A1 A2 A3 A4) as (x & y & X1 & Y1 & _ & _ & _ & _ & rx & ry & X & Y & _ & _ & E1 & E2).
  destruct (accuracy_bounded M c size nw se nwR seR _ _ _ _ HM Hg Cd B1 B2 B3 B4) as (x' & y' & X1' & Y1' & _ & _ & _ & _ & rx' & ry' & X' & Y' & _ & _ & E1' & E2').
  assert (rx' = rx) as -> by exact (is_value_fun _ _ _ X' X). assert (ry' = ry) as -> by exact (is_value_fun _ _ _ Y' Y).
  cbv zeta in *. apply Rabs_le_inv in E1, E2, E1', E2'.
  exists x, y, x', y', rx, ry. repeat (split; [assumption|]). split; apply Rabs_le; lra.
Qed.

(** * Concrete cases: the reference point on the national grid at 2 km, and the WGS84 grid. *)
Example C56_case : let c := new_dummy (arith64 correct) [] 3 450 450 in
  accurate_library (powerRZ 2 (-48)) correct /\ @calibrated (arith64 correct) c /\
  resampled (c_dx c) (c_dy c) 900 900 /\ located (900, 900)%Z (5 <=? c_format c)%Z (from_reference 450 450) /\
  within (powerRZ 2 (-47)) (f64_of_int 51) 51 /\ within (powerRZ 2 (-46)) (f64_of_int 9) 9 /\
  0 <= fst (plane (c_format c) 51 9) - fst (from_reference 450 450) <= 900 /\
  0 <= snd (plane (c_format c) 51 9) - snd (from_reference 450 450) <= 900.
Proof.
  cbv zeta. destruct (dummy_fields (arith64 correct) [] 3 450 450) as (-> & -> & ->).
  split; [apply correct_accurate|]. split. { right. exists [], 3%Z, 450%Z, 450%Z. auto. }
  split; [exists 1%Z, 0%Z; lia|]. split; [constructor|].
  destruct (of_int_value64 51 ltac:(lia)), (of_int_value64 9 ltac:(lia)).
  split; [split; [assumption|]; eexists; split; [eassumption|]; rewrite Rminus_eq_0, Rabs_R0; apply powerRZ_le; lra|].
  split; [split; [assumption|]; eexists; split; [eassumption|]; rewrite Rminus_eq_0, Rabs_R0; apply powerRZ_le; lra|].
  unfold from_reference, plane, pole_distance. cbn [fst snd Z.leb Z.compare Pos.compare Pos.compare_cont]. lra.
Qed.
Example C56_case_2 : let c := new_dummy (arith64 correct) [] 5 1100 1200 in
  @calibrated (arith64 correct) c /\ resampled (c_dx c) (c_dy c) 1100 1200 /\
  exists origin, located (1100, 1200)%Z (5 <=? c_format c)%Z origin.
Proof.
  cbv zeta. destruct (dummy_fields (arith64 correct) [] 5 1100 1200) as (-> & -> & ->).
  split. { right. exists [], 5%Z, 1100%Z, 1200%Z. auto. } split; [exists 0%Z, 0%Z; lia|]. eexists. constructor.
Qed.
Print Assumptions C56_kilometres.
Print Assumptions C56_resolution.
Print Assumptions C56_distance.
