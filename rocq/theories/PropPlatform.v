(** C70: results do not depend on the platform. *)
From Coq Require Import Reals Lra Lia Psatz.
From Flocq Require Import Core BinarySingleNaN.
From Verif Require Import GoBase GoFloat Catalog Composite Header Data Projection Radolan Vis SpecReal SpecProj SpecVis SpecZR ExactReal SpecAccuracy
  SpecRain SpecSamples SpecPlatform BaseFacts ParseFacts CompositeFacts Spec ApiFacts FloatFacts PropFloat PropGrid PropReal PropProjFloat VisFacts AccFacts
  PropAccuracy SpecWriter SpecValue PropLookup PropRain PropValue SpecHeader SpecData HeaderFacts PropHeader PropGray PropHeat PropRadial PropZRFloat PropSamples.
Local Open Scope Z_scope.

Lemma same_refl c : same_but_scale c c.
Proof. unfold same_but_scale. auto 30. Qed.

Definition accepted (format : Z) (g : grid) : bool :=
  match g with unknownGrid => false | DE1200Grid => true | _ => negb (5 <=? format) end.
Lemma calibrate_has A (c : composite (num A)) : c_has_projection (calibrate_projection A c) =
  if accepted (c_format c) (detect_grid (c_dx c) (c_dy c)) then true else c_has_projection c.
Proof.
  unfold calibrate_projection. cbv zeta. set (c0 := set_offy _ _).
  assert (E1 : c_dx c0 = c_dx c) by reflexivity. assert (E2 : c_dy c0 = c_dy c) by reflexivity.
  assert (E3 : c_format c0 = c_format c) by reflexivity. assert (E4 : c_has_projection c0 = c_has_projection c) by reflexivity.
  clearbody c0. rewrite <- E1, <- E2, <- E3, <- E4. clear E1 E2 E3 E4. unfold accepted, corner_points.
  destruct (detect_grid _ _); destruct (5 <=? c_format c0); cbn [negb]; try reflexivity;
    destruct (project A _ _ _) as [ox oy]; destruct (project A _ _ _) as [rx ry]; reflexivity.
Qed.
Lemma calibrate_wgs A (c : composite (num A)) : c_wgs84 (calibrate_projection A c) =
  if match detect_grid (c_dx c) (c_dy c) with DE1200Grid => 5 <=? c_format c | _ => false end then true else c_wgs84 c.
Proof.
  unfold calibrate_projection. cbv zeta. set (c0 := set_offy _ _).
  assert (E1 : c_dx c0 = c_dx c) by reflexivity. assert (E2 : c_dy c0 = c_dy c) by reflexivity.
  assert (E3 : c_format c0 = c_format c) by reflexivity. assert (E4 : c_wgs84 c0 = c_wgs84 c) by reflexivity.
  clearbody c0. rewrite <- E1, <- E2, <- E3, <- E4. clear E1 E2 E3 E4. unfold corner_points.
  destruct (detect_grid _ _); destruct (5 <=? c_format c0); cbn [negb]; try reflexivity;
    destruct (project A _ _ _) as [ox oy]; destruct (project A _ _ _) as [rx ry]; reflexivity.
Qed.

Lemma calibrate_same M M' (c : composite f64) : same_but_scale (calibrate_projection (arith64 M) c) (calibrate_projection (arith64 M') c).
Proof.
  pose proof (calibrate_frame (arith64 M) c) as H. pose proof (calibrate_frame (arith64 M') c) as H'.
  unfold data_frame in H, H'. cbn [num arith64] in H, H'.
  assert (P : c_has_projection (calibrate_projection (arith64 M) c) = c_has_projection (calibrate_projection (arith64 M') c) /\
              c_wgs84 (calibrate_projection (arith64 M) c) = c_wgs84 (calibrate_projection (arith64 M') c)).
  { rewrite !calibrate_has, !calibrate_wgs. auto. }
  revert H H' P. generalize (calibrate_projection (arith64 M) c), (calibrate_projection (arith64 M') c).
  cbn [num arith64]. intros d d' H H' P.
  unfold same_but_scale. repeat match goal with H : _ /\ _ |- _ => destruct H end.
  repeat match goal with |- _ /\ _ => split end; congruence.
Qed.

(** C70: NewComposite of the same bytes has the same outcome on any two
    platforms -- math libraries of any quality, any fused operations: the same
    error or none, and the same composite but for Rx, Ry and the offset. *)
Theorem C70_read M M' E input : same_outcome (new_composite (arith64 M) E input) (new_composite (arith64 M') E input).
Proof.
  unfold new_composite. change (num (arith64 M)) with f64. change (num (arith64 M')) with f64.
  change (n_ofZ (arith64 M')) with (n_ofZ (arith64 M)). change (n_zero (arith64 M')) with (n_zero (arith64 M)).
  destruct (parse_header _ E _ input) as [[ch rest]|e c|]; cbn [same_outcome]; [|split; [reflexivity|apply same_refl]|exact I].
  destruct (parse_data ch rest) as [[cd tail]|e c|]; cbn [same_outcome]; [|split; [reflexivity|apply same_refl]|exact I].
  destruct (arrange_data cd) as [ca|]; cbn [same_outcome]; [|exact I]. cbv zeta.
  pose proof (calibrate_same M M' ca) as S. pose proof S as (_ & _ & _ & _ & Hu & _).
  rewrite Hu. destruct (unit_eqb _ _); cbn [same_outcome]; auto.
Qed.

Lemma read_entries_same M M' E clean : forall entries cs cs', same_composites cs cs' ->
  match read_entries (arith64 M) E entries clean cs, read_entries (arith64 M') E entries clean cs' with
  | ArchiveOk a, ArchiveOk b => same_composites a b
  | ArchiveErr e, ArchiveErr e' => e = e'
  | ArchivePanic, ArchivePanic => True
  | _, _ => False
  end.
Proof.
  induction entries as [|x t IH]; intros cs cs' H; cbn [read_entries]; [destruct clean; auto|].
  pose proof (C70_read M M' E x) as S.
  destruct (new_composite (arith64 M) E x), (new_composite (arith64 M') E x); cbn [same_outcome] in S; try (exfalso; assumption); auto; try tauto.
  apply IH. apply Forall2_app; auto.
Qed.

Lemma same_nth a b i : same_composites a b ->
  match nth_error a i, nth_error b i with Some c, Some d => same_but_scale c d | None, None => True | _, _ => False end.
Proof. intros H. revert i. induction H; intros [|i]; cbn; auto; apply IHForall2. Qed.

Lemma same_length a b : same_composites a b -> length a = length b.
Proof. induction 1; cbn; congruence. Qed.

(** The same for NewComposites, with the same composites in the same order. *)
Theorem C70_archive M M' E sort a : by_comparison sort ->
  match new_composites (arith64 M) E sort a, new_composites (arith64 M') E sort a with
  | ArchiveOk cs, ArchiveOk cs' => same_composites cs cs'
  | ArchiveErr e, ArchiveErr e' => e = e'
  | ArchivePanic, ArchivePanic => True
  | _, _ => False
  end.
Proof.
  intros [order Ho]. unfold new_composites.
  pose proof (read_entries_same M M' E (ar_clean_end a) (ar_entries a) (@nil (composite (num (arith64 M)))) (@nil (composite (num (arith64 M')))) (Forall2_nil _)) as H.
  destruct (read_entries (arith64 M) E _ _ []) as [cs|e|], (read_entries (arith64 M') E _ _ []) as [cs'|e'|]; try (exfalso; assumption); auto.
  cbn [num arith64] in *. rewrite !Ho. rewrite <- (same_length _ _ H).
  match goal with |- same_composites (flat_map _ (order ?f ?n)) (flat_map _ (order ?g ?n)) => assert (E1 : f = g) end.
  { apply FunctionalExtensionality.functional_extensionality. intros i. apply FunctionalExtensionality.functional_extensionality. intros j.
    pose proof (same_nth _ _ i H) as Hi. pose proof (same_nth _ _ j H) as Hj.
    destruct (nth_error cs i), (nth_error cs' i); try (exfalso; assumption); [|reflexivity].
    destruct (nth_error cs j), (nth_error cs' j); try (exfalso; assumption); [|reflexivity].
    unfold before. cbn [num arith64] in *. destruct Hi as (_ & _ & -> & _), Hj as (_ & _ & -> & _). reflexivity. }
  rewrite E1. induction (order _ _) as [|i l IH]; cbn [flat_map]; [constructor|].
  apply Forall2_app; [|exact IH]. pose proof (same_nth _ _ i H) as Hi.
  destruct (nth_error cs i), (nth_error cs' i); try (exfalso; assumption); auto.
Qed.


Local Open Scope R_scope.

Lemma rounded_near l l' x : rounded_down l x -> rounded_down l' x -> (Z.abs (l - l') <= 1)%Z.
Proof.
  intros [A B] [A' B']. assert (IZR (l - l') < 2) by (rewrite minus_IZR; lra). assert (-2 < IZR (l - l')) by (rewrite minus_IZR; lra).
  apply lt_IZR in H, H0. lia.
Qed.
Lemma near_refl c : near_color c c.
Proof. unfold near_color. rewrite !Z.sub_diag. cbn. auto with zarith. Qed.
Lemma heat_color_near t c c' : heat_color_at t c -> heat_color_at t c' -> near_color c c'.
Proof.
  intros (r & g & b & -> & R & G & B) (r' & g' & b' & -> & R' & G' & B'). unfold near_color. cbn [r_r r_g r_b r_a].
  eauto 10 using rounded_near.
Qed.
Lemma gray_near l l' x : rounded_down l x -> rounded_down l' x -> near_color (gray l) (gray l').
Proof. intros R R'. unfold near_color, gray. cbn [r_r r_g r_b r_a]. pose proof (rounded_near _ _ _ R R'). auto. Qed.

Lemma finite_or d : d <> S754_nan -> (exists s, d = S754_infinity s) \/ exists x, is_value d x.
Proof. destruct d as [s|s| |s m e]; intros H; [right; eexists; reflexivity|left; eauto|congruence|right; eexists; reflexivity]. Qed.
Lemma value_shape d x : is_value d x -> d <> S754_nan /\ forall s, d <> S754_infinity s.
Proof. destruct d; cbn; split; try congruence; contradiction. Qed.

Lemma heat_between_near K K' lo hi d c c' : d <> S754_nan -> heat_between K lo hi d c -> heat_between K' lo hi d c' -> near_color c c'.
Proof.
  intros Hn H H'. destruct (finite_or d Hn) as [[[|] ->]|[x Hx]].
  - cbn in H, H'. subst. apply near_refl.
  - cbn in H, H'. eauto using heat_color_near.
  - assert (A : (x < lo -> c = black) /\ (lo <= x -> heat_color_at (Rmin 1 ((x - lo) / (hi - lo))) c)).
    { destruct d; try contradiction; auto. }
    assert (A' : (x < lo -> c' = black) /\ (lo <= x -> heat_color_at (Rmin 1 ((x - lo) / (hi - lo))) c')).
    { destruct d; try contradiction; auto. }
    destruct A as [A B], A' as [A' B']. destruct (Rlt_or_le x lo) as [L|L].
    + rewrite A, A' by assumption. apply near_refl.
    + eauto using heat_color_near.
Qed.

Lemma heat_log_near K K' lo hi d c c' : d <> S754_nan -> d <> S754_infinity true -> (forall x, is_value d x -> 0 <= x) ->
  heat_log_between K lo hi d c -> heat_log_between K' lo hi d c' -> near_color c c'.
Proof.
  intros Hn Hi Hp H H'. destruct (finite_or d Hn) as [[[|] ->]|[x Hx]].
  - congruence.
  - cbn in H, H'. eauto using heat_color_near.
  - assert (A : (0 <= x < lo -> c = black) /\ (lo <= x -> heat_color_at (Rmin 1 ((ln x - ln lo) / (ln hi - ln lo))) c)).
    { destruct d; try contradiction; specialize (H _ Hx); tauto. }
    assert (A' : (0 <= x < lo -> c' = black) /\ (lo <= x -> heat_color_at (Rmin 1 ((ln x - ln lo) / (ln hi - ln lo))) c')).
    { destruct d; try contradiction; specialize (H' _ Hx); tauto. }
    destruct A as [A B], A' as [A' B']. specialize (Hp _ Hx). destruct (Rlt_or_le x lo) as [L|L].
    + rewrite A, A' by lra. apply near_refl.
    + eauto using heat_color_near.
Qed.

Lemma gray_between_near K K' lo hi d c c' : d <> S754_nan -> gray_between K lo hi d c -> gray_between K' lo hi d c' -> near_color c c'.
Proof.
  intros Hn H H'. destruct (finite_or d Hn) as [[s ->]|[x Hx]].
  - cbn in H, H'. subst. apply near_refl.
  - assert (A : (x < lo -> c = black) /\ (lo <= x -> exists l, c = gray l /\ rounded_down l (255 * Rmin 1 ((x - lo) / (hi - lo))))).
    { destruct d; try contradiction; auto. }
    assert (A' : (x < lo -> c' = black) /\ (lo <= x -> exists l, c' = gray l /\ rounded_down l (255 * Rmin 1 ((x - lo) / (hi - lo))))).
    { destruct d; try contradiction; auto. }
    destruct A as [A B], A' as [A' B']. destruct (Rlt_or_le x lo) as [L|L].
    + rewrite A, A' by assumption. apply near_refl.
    + destruct (B L) as (l & -> & R), (B' L) as (l' & -> & R'). eauto using gray_near.
Qed.

Lemma radial_between_near hi d c c' : radial_log_between hi d c -> radial_log_between hi d c' -> near_color c c'.
Proof.
  intros H H'. assert (Hd : d = S754_nan \/ d <> S754_nan) by (destruct d; auto; right; congruence). destruct Hd as [->|Hn].
  { cbn in H, H'. subst. apply near_refl. }
  destruct (finite_or d Hn) as [[s ->]|[x Hx]].
  - cbn in H, H'. subst. apply near_refl.
  - assert (A : forall k, radial_log_between hi d k ->
      (Rabs x <= 1 -> x < 0 -> k = mk_rgba 204 255 255 255) /\
      (Rabs x <= 1 -> 0 <= x -> k = mk_rgba 255 204 204 255) /\
      (1 < Rabs x -> exists l, rounded_down l (255 * Rmin 1 (ln (Rabs x) / ln hi)) /\
         (x < 0 -> k = mk_rgba 0 l l 255) /\ (0 < x -> k = mk_rgba l 0 0 255))).
    { intros k Hk. destruct d; try contradiction; auto. }
    destruct (A _ H) as (A1 & A2 & A3). destruct (A _ H') as (B1 & B2 & B3). clear A.
    destruct (Rle_or_lt (Rabs x) 1) as [L|L].
    + destruct (Rlt_or_le x 0) as [N|N]; [rewrite A1, B1 by assumption|rewrite A2, B2 by assumption]; apply near_refl.
    + destruct (A3 L) as (l & R & N & P), (B3 L) as (l' & R' & N' & P'). pose proof (rounded_near _ _ _ R R').
      destruct (Rlt_or_le x 0) as [Hx0|Hx0].
      * rewrite N, N' by assumption. unfold near_color. cbn [r_r r_g r_b r_a]. rewrite !Z.sub_diag. cbn. auto with zarith.
      * assert (0 < x) by (destruct Hx0; [assumption|subst x; rewrite Rabs_R0 in L; lra]).
        rewrite P, P' by assumption. unfold near_color. cbn [r_r r_g r_b r_a]. rewrite !Z.sub_diag. cbn. auto with zarith.
Qed.

(** C70: every sample gradient gives colours that differ by at most one step
    per channel between any two platforms, for every value that is not NaN (for
    the logarithmic heat maps also not negative). *)
Theorem C70_colors K K' log log' d : natural_log (powerRZ 2 (-48)) log -> natural_log (powerRZ 2 (-48)) log' ->
  valid32 d -> d <> S754_nan -> let v := f64_of_f32 d in
  near_color (HeatmapReflectivityShort K v) (HeatmapReflectivityShort K' v) /\
  near_color (HeatmapReflectivity K v) (HeatmapReflectivity K' v) /\
  near_color (HeatmapReflectivityWide K v) (HeatmapReflectivityWide K' v) /\
  near_color (HeatmapRadialVelocity K log v) (HeatmapRadialVelocity K' log' v) /\
  near_color (GraymapLinear K v) (GraymapLinear K' v) /\
  near_color (GraymapLinearWide K v) (GraymapLinearWide K' v) /\
  (d <> S754_infinity true -> (forall x, is_value d x -> 0 <= x) ->
   near_color (HeatmapAccumulatedHour K log v) (HeatmapAccumulatedHour K' log' v) /\
   near_color (HeatmapAccumulatedDay K log v) (HeatmapAccumulatedDay K' log' v)).
Proof.
  intros L L' V Hn. cbv zeta.
  split; [eapply heat_between_near; [exact Hn|apply C63_reflectivity_short; exact V|apply C63_reflectivity_short; exact V]|].
  split; [eapply heat_between_near; [exact Hn|apply C63_reflectivity; exact V|apply C63_reflectivity; exact V]|].
  split; [eapply heat_between_near; [exact Hn|apply C63_reflectivity_wide; exact V|apply C63_reflectivity_wide; exact V]|].
  split; [eapply radial_between_near; [apply C63_radial_velocity; assumption|apply C63_radial_velocity; assumption]|].
  split; [eapply gray_between_near; [exact Hn|apply C63_gray_linear; exact V|apply C63_gray_linear; exact V]|].
  split; [eapply gray_between_near; [exact Hn|apply C63_gray_linear_wide; exact V|apply C63_gray_linear_wide; exact V]|].
  intros Hi Hp. split.
  - eapply heat_log_near; [exact Hn|exact Hi|exact Hp|apply C63_accumulated_hour; [exact L|exact V]|apply C63_accumulated_hour; [exact L'|exact V]].
  - eapply heat_log_near; [exact Hn|exact Hi|exact Hp|apply C63_accumulated_day; [exact L|exact V]|apply C63_accumulated_day; [exact L'|exact V]].
Qed.

Lemma parsed_size A E input c : parsed A E input c -> (0 < c_dx c <= 2 ^ 46)%Z /\ (0 < c_dy c <= 2 ^ 46)%Z.
Proof.
  intros H. pose proof (parsed_shape A E input c H) as (S & _).
  apply parsed_fields in H as (text & rest & tail & ch & p & dz & d0 & _ & _ & _ & Ha & Hd & Hp & _ & _ &
    _ & _ & _ & _ & _ & _ & _ & _ & _ & _ & F11 & F12 & _).
  destruct Ha as (_ & _ & A1 & A2). destruct Hp as (_ & _ & P1 & _). unfold max_alloc in *. rewrite F11, F12 in *.
  destruct Hd as [[D1 D2]|(D1 & D2 & D3 & _)]; lia.
Qed.

Lemma same_at M M' (c c' : composite f64) i j : same_but_scale c c' -> at_ (arith64 M) c i j = at_ (arith64 M') c' i j.
Proof.
  intros (_ & _ & _ & _ & _ & _ & _ & _ & Hd & _ & Hx & Hy & Hz & _). unfold at_, at_z. cbn [num arith64].
  rewrite Hd, Hx, Hy, Hz. reflexivity.
Qed.

(** C70: two platforms with accurate math libraries read the same file; then
    positions are projected alike to within 2*10^-9 of the width (height) of the
    grid, and the extent of the grid agrees to a few micrometres, ... *)
Theorem C70_project M M' E input c c' size nw se p g :
  accurate_library (powerRZ 2 (-48)) M -> accurate_library (powerRZ 2 (-48)) M' ->
  new_composite (arith64 M) E input = Value c -> new_composite (arith64 M') E input = Value c' ->
  resampled (c_dx c) (c_dy c) (fst size) (snd size) -> documented_corners size (5 <=? c_format c)%Z nw se -> stands_for p g ->
  let a := project (arith64 M) c (fst p) (snd p) in let b := project (arith64 M') c' (fst p) (snd p) in
  exists x y x' y' rx ry rx' ry', is_value (fst a) x /\ is_value (snd a) y /\ is_value (fst b) x' /\ is_value (snd b) y' /\
    Rabs (x - x') <= 2 * IZR (c_dx c) / 10 ^ 9 /\ Rabs (y - y') <= 2 * IZR (c_dy c) / 10 ^ 9 /\
    is_value (c_rx c) rx /\ is_value (c_ry c) ry /\ is_value (c_rx c') rx' /\ is_value (c_ry c') ry' /\
    Rabs (rx - rx') * IZR (c_dx c) <= 4 / 10 ^ 9 /\ Rabs (ry - ry') * IZR (c_dy c) <= 4 / 10 ^ 9.
Proof.
  intros HM HM' Hc Hc' Hr Hcor (G1 & G2 & G3 & G4). cbv zeta.
  pose proof (C70_read M M' E input) as S. rewrite Hc, Hc' in S. cbn [same_outcome] in S.
  destruct (float_of_documented _ _ _ _ Hcor) as (nw' & se' & Hfc).
  assert (Hg : on_float_grid M c size nw' se').
  { split; [left; exists E, input; left; exact Hc|]. split; assumption. }
  destruct S as (_ & _ & _ & _ & _ & _ & _ & _ & _ & _ & Sx & Sy & _ & Sf & _). cbn [num arith64] in *.
  assert (Hg' : on_float_grid M' c' size nw' se').
  { split; [left; exists E, input; left; exact Hc'|]. cbn [num arith64]. rewrite <- Sx, <- Sy, <- Sf. split; assumption. }
  destruct (accuracy_bounded M c size nw' se' nw se (fst p) (snd p) (fst g) (snd g)) as (x & y & X & Y & Dx & Dy & _ & _ & rx & ry & RX & RY & B1 & B2 & _); try assumption.
  destruct (accuracy_bounded M' c' size nw' se' nw se (fst p) (snd p) (fst g) (snd g)) as (x' & y' & X' & Y' & Dx' & Dy' & _ & _ & rx' & ry' & RX' & RY' & B1' & B2' & _); try assumption.
  { cbn [num arith64]. rewrite <- Sf. assumption. }
  cbn [num arith64] in *. rewrite <- Sx, <- Sy, <- Sf in *.
  destruct (parsed_size (arith64 M) E input c (or_introl Hc)) as [P1 P2]. cbn [num arith64] in *.
  assert (0 < IZR (c_dx c)) by (apply IZR_lt; lia). assert (0 < IZR (c_dy c)) by (apply IZR_lt; lia).
  exists x, y, x', y', rx, ry, rx', ry'. repeat (split; [assumption|]).
  split; [|split; [|split; [|split; [|split; [|split; [|split]]]]]]; try assumption.
  - apply Rabs_le_inv in Dx, Dx'. apply Rabs_le. lra.
  - apply Rabs_le_inv in Dy, Dy'. apply Rabs_le. lra.
  - rewrite <- (Rabs_pos_eq (IZR (c_dx c))) by lra. rewrite <- Rabs_mult. apply Rabs_le_inv in B1, B1'. apply Rabs_le. lra.
  - rewrite <- (Rabs_pos_eq (IZR (c_dy c))) by lra. rewrite <- Rabs_mult. apply Rabs_le_inv in B2, B2'. apply Rabs_le. lra.
Qed.

(** ... and the value at every position that is not on the border of a pixel
    (by 10^-9 of the width or height) is the same, bit by bit. *)
Theorem C70_lookup M M' K K' E input c c' size nw se p g :
  accurate_library (powerRZ 2 (-48)) M -> accurate_library (powerRZ 2 (-48)) M' ->
  new_composite (arith64 M) E input = Value c -> new_composite (arith64 M') E input = Value c' ->
  resampled (c_dx c) (c_dy c) (fst size) (snd size) -> documented_corners size (5 <=? c_format c)%Z nw se -> stands_for p g ->
  let q := exact_fraction (c_format c) nw se (fst g) (snd g) in
  let X := IZR (c_dx c) * fst q in let Y := IZR (c_dy c) * snd q in
  (exists i j, pixel_index (c_dx c) X i /\ pixel_index (c_dy c) Y j) \/ off_axis (c_dx c) X \/ off_axis (c_dy c) Y ->
  value_at M K c (fst p) (snd p) = value_at M' K' c' (fst p) (snd p).
Proof.
  intros HM HM' Hc Hc' Hr Hcor (G1 & G2 & G3 & G4). cbv zeta. intros Hp.
  pose proof (C70_read M M' E input) as S. rewrite Hc, Hc' in S. cbn [same_outcome] in S.
  destruct (float_of_documented _ _ _ _ Hcor) as (nw' & se' & Hfc).
  assert (Hg : on_float_grid M c size nw' se').
  { split; [left; exists E, input; left; exact Hc|]. split; assumption. }
  pose proof S as (_ & _ & _ & _ & _ & _ & _ & _ & _ & _ & Sx & Sy & _ & Sf & _). cbn [num arith64] in *.
  assert (Hg' : on_float_grid M' c' size nw' se').
  { split; [left; exists E, input; left; exact Hc'|]. cbn [num arith64]. rewrite <- Sx, <- Sy, <- Sf. split; assumption. }
  destruct (parsed_size (arith64 M) E input c (or_introl Hc)) as [P1 P2]. cbn [num arith64] in *.
  assert (Hcor' : documented_corners size (5 <=? c_format c')%Z nw se) by (now rewrite <- Sf).
  destruct Hp as [(i & j & Hi & Hj)|Ho].
  - rewrite (C55_pixel M K c size nw' se' nw se (fst p) (snd p) (fst g) (snd g) i j); try assumption; cbn [num arith64]; try lia.
    rewrite (C55_pixel M' K' c' size nw' se' nw se (fst p) (snd p) (fst g) (snd g) i j); try assumption; cbn [num arith64]; rewrite <- ?Sx, <- ?Sy, <- ?Sf; try lia; try assumption.
    now apply same_at.
  - rewrite (C55_outside M K c size nw' se' nw se (fst p) (snd p) (fst g) (snd g)); try assumption; cbn [num arith64]; try lia.
    rewrite (C55_outside M' K' c' size nw' se' nw se (fst p) (snd p) (fst g) (snd g)); try assumption; cbn [num arith64]; rewrite <- ?Sx, <- ?Sy, <- ?Sf; try lia; try assumption.
    reflexivity.
Qed.

Print Assumptions C70_read.
Print Assumptions C70_archive.
Print Assumptions C70_colors.
Print Assumptions C70_project.
Print Assumptions C70_lookup.

(** * Concrete cases: a platform that fuses nothing and one that fuses everything *)
Definition fusing : mathlib := mk_mathlib (m_sin correct) (m_cos correct) (m_tan correct) (m_pow correct) (fun _ => true).
Lemma fusing_accurate : accurate_library (powerRZ 2 (-48)) fusing.
Proof. exact correct_accurate. Qed.

Example C70_case E : exists c c',
  let input := header_text rw_header ++ Byte.x03 :: encode_grid encode_cell rw_cells in
  new_composite (arith64 correct) E input = Value c /\ new_composite (arith64 fusing) E input = Value c' /\
  resampled (c_dx c) (c_dy c) 900 900 /\ documented_corners (900, 900)%Z (5 <=? c_format c)%Z (54.5877, 2.0715) (47.0705, 14.6209) /\
  stands_for (deg 545877 4, deg 20715 4) (54.5877, 2.0715) /\
  let q := exact_fraction (c_format c) (54.5877, 2.0715) (47.0705, 14.6209) 54.5877 2.0715 in
  pixel_index (c_dx c) (IZR (c_dx c) * fst q) 0 /\ pixel_index (c_dy c) (IZR (c_dy c) * snd q) 0.
Proof.
  destruct (C61_case (mk_convs (fun _ => 0%Z) (fun _ => 0%Z) (fun _ => false)) E) as (c & Hc & _).
  pose proof (C70_read correct fusing E (header_text rw_header ++ Byte.x03 :: encode_grid encode_cell rw_cells)) as S. rewrite Hc in S.
  destruct (new_composite (arith64 fusing) E (header_text rw_header ++ Byte.x03 :: encode_grid encode_cell rw_cells)) as [c'| |] eqn:Hc'; cbn [same_outcome] in S; try contradiction.
  exists c, c'. cbv zeta. split; [exact Hc|]. split; [exact Hc'|].
  destruct (C21_header_round_trip (arith64 correct) E rw_header _ c rw_writable (or_introl Hc)) as [W _].
  assert (D : c_dx c = 900%Z /\ c_dy c = 900%Z) by (unfold written, written_size in W; cbn in W; tauto).
  assert (F : c_format c = 3%Z) by (unfold written in W; cbn in W; tauto).
  destruct D as [-> ->]. rewrite F. split; [exists 0%Z, 0%Z; lia|]. split; [constructor|].
  destruct C55_case_pixel as (W1 & W2 & _). split; [unfold stands_for; cbn [fst snd]; split; [exact W1|]; split; [exact W2|lra]|].
  unfold exact_fraction. cbn [fst snd]. rewrite !Rminus_eq_0. unfold Rdiv. rewrite !Rmult_0_l. split; apply corner_pixel; lia.
Qed.

(** Insertion sort looks at its input by comparisons only. *)
Lemma insertion_by_comparison {X} : by_comparison (@insertion_sort X).
Proof.
  exists (fun less n => insertion_sort less (seq 0 n)). intros less l.
  set (get := fun i => match nth_error l i with Some x => [x] | None => [] end).
  set (cmp := fun i j => match nth_error l i, nth_error l j with Some x, Some y => less x y | _, _ => false end).
  assert (I : forall i x js, nth_error l i = Some x -> (forall j, In j js -> exists y, nth_error l j = Some y) ->
     insert less x (flat_map get js) = flat_map get (insert cmp i js)).
  { intros i x js Hi. induction js as [|j js IH]; intros Hj; cbn [insert flat_map].
    - unfold get. rewrite Hi. reflexivity.
    - destruct (Hj j (or_introl eq_refl)) as [y Hy]. unfold get at 1. rewrite Hy. cbn [app insert].
      assert (Ec : cmp j i = less y x) by (unfold cmp; now rewrite Hi, Hy). rewrite Ec. destruct (less y x).
      + cbn [flat_map]. unfold get at 2. rewrite Hy. cbn [app]. f_equal. apply IH. intros k Hk. apply Hj. now right.
      + cbn [flat_map]. unfold get at 2 3. rewrite Hi, Hy. reflexivity. }
  assert (M : forall k p, (p + k = length l)%nat -> insertion_sort less (skipn p l) = flat_map get (insertion_sort cmp (seq p k)) /\
     forall j, In j (insertion_sort cmp (seq p k)) -> exists y, nth_error l j = Some y).
  { induction k as [|k IH]; intros p Hp.
    - rewrite skipn_all2 by lia. cbn. split; [reflexivity|intros j []].
    - destruct (IH (S p) ltac:(lia)) as [IH1 IH2].
      destruct (nth_error l p) as [x|] eqn:Hx; [|apply nth_error_None in Hx; lia].
      assert (Es : skipn p l = x :: skipn (S p) l).
      { clear - Hx. revert l Hx. induction p as [|p IH]; intros [|a l] Hx; cbn in Hx; try discriminate; [now injection Hx as ->|]. exact (IH l Hx). }
      rewrite Es. cbn [seq insertion_sort fold_right]. fold (insertion_sort less (skipn (S p) l)). fold (insertion_sort cmp (seq (S p) k)).
      rewrite IH1. split; [now apply I|]. intros j Hj.
      apply (Permutation.Permutation_in _ (insert_perm cmp p _)) in Hj. destruct Hj as [<-|Hj]; [eauto|auto]. }
  exact (proj1 (M (length l) 0%nat eq_refl)).
Qed.

Example C70_case_colors : natural_log (powerRZ 2 (-48)) correct_ln /\ valid32 (f32_lit 123 (-1)) /\ f32_lit 123 (-1) <> S754_nan.
Proof. destruct C63_case as (L & V & _). split; [exact L|]. split; [exact V|]. vm_compute. discriminate. Qed.
