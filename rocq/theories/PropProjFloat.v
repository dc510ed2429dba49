(** C34 in float64 arithmetic: the corners of the grid, for every math library. *)
From Coq Require Import Reals Lia Lra Psatz.
From Flocq Require Import Core Relative BinarySingleNaN.
From Verif Require Import GoBase GoFloat Catalog Composite Header Data Projection Radolan
  CompositeFacts Spec SpecReal SpecProj BaseFacts FloatFacts PropFloat PropGrid ExactReal PropReal.
From Verif Require Export FmaFacts.
Local Open Scope Z_scope.

(** A math library: any functions on float64 values (however inaccurate). *)
Definition float_library (M : mathlib) : Prop :=
  (forall x, valid64 x -> valid64 (m_sin M x)) /\ (forall x, valid64 x -> valid64 (m_cos M x)) /\
  (forall x, valid64 x -> valid64 (m_tan M x)) /\ (forall x y, valid64 x -> valid64 y -> valid64 (m_pow M x y)).

(** The documented corners as float64 constants. *)
Definition deg (m k : Z) : f64 := f64_lit m (- k).
Inductive float_corners : Z * Z -> bool -> f64 * f64 -> f64 * f64 -> Prop :=
| fc_national : float_corners (900, 900) false (deg 545877 4, deg 20715 4) (deg 470705 4, deg 146209 4)
| fc_picture : float_corners (920, 920) false (deg 5466218275 8, deg 1900684377 9) (deg 4698044293 8, deg 1473300934 8)
| fc_extended : float_corners (900, 1100) false (deg 555482 4, deg 30889 4) (deg 461827 4, deg 154801 4)
| fc_DE1200 : float_corners (1100, 1200) false (deg 5586584289 8, deg 1435612143 9) (deg 4568358331 8, deg 1660186543 8)
| fc_DE1200_WGS84 : float_corners (1100, 1200) true (deg 5586208711 8, deg 1463301510 9) (deg 4568460578 8, deg 1658086935 8)
| fc_european : float_corners (1400, 1500) false (deg 565423 4, deg (-8654) 4) (deg 438736 4, deg 182536 4).

Definition on_float_grid M (c : composite (num (arith64 M))) (size : Z * Z) (nw se : f64 * f64) : Prop :=
  @calibrated (arith64 M) c /\ resampled (c_dx c) (c_dy c) (fst size) (snd size) /\
  float_corners size (5 <=? c_format c) nw se.

Lemma finite_div x y : finite (f64_div x y) -> finite x.
Proof.
  intros [r Hr]. destruct x as [s|s| |s m e]; [eexists; reflexivity| | |eexists; reflexivity]; exfalso; revert Hr;
  unfold f64_div, SFdiv; destruct y; cbn; auto.
Qed.
Lemma finite_sub x y : finite (f64_sub x y) -> finite x /\ finite y.
Proof.
  intros [r Hr]. split.
  - destruct x as [s|s| |s m e]; [eexists; reflexivity| | |eexists; reflexivity]; exfalso; revert Hr;
    unfold f64_sub, SFsub; destruct y as [t|t| |t n f]; cbn; auto. destruct (Bool.eqb s (negb t)); cbn; auto.
  - destruct y as [s|s| |s m e]; [eexists; reflexivity| | |eexists; reflexivity]; exfalso; revert Hr;
    unfold f64_sub, SFsub; destruct x as [t|t| |t n f]; cbn; auto. destruct (Bool.eqb t (negb s)); cbn; auto.
Qed.

Lemma value64_bound x r : valid64 x -> is_value x r -> (Rabs r < bpow radix2 emax64)%R.
Proof. apply (valid_bound prec64 emax64). Qed.
Lemma format64_of x r : valid64 x -> is_value x r -> format64 r.
Proof. apply (valid_format prec64 emax64). Qed.

Lemma one_value : is_value (f64_of_int 1) 1 /\ valid64 (f64_of_int 1).
Proof. destruct (of_int_value64 1 ltac:(lia)). auto. Qed.

(** Subtracting 0 and dividing by 1 change no value. *)
Lemma sub_zero x r : valid64 x -> is_value x r -> is_value (f64_sub x (S754_zero false)) r.
Proof.
  intros Hv Hx. pose proof (sub64 x (S754_zero false) r 0 Hv eq_refl Hx eq_refl) as H. rewrite Rminus_0_r in H.
  eapply result_exact; [exact H|apply (format64_of x r Hv Hx)|apply (value64_bound x r Hv Hx)].
Qed.
Lemma div_one x r : valid64 x -> is_value x r -> is_value (f64_div x (f64_of_int 1)) r.
Proof.
  intros Hv Hx. destruct one_value as [O1 O2]. pose proof (div64 x (f64_of_int 1) r 1 Hv O2 Hx O1 ltac:(lra)) as H.
  unfold Rdiv in H. rewrite Rinv_1, Rmult_1_r in H.
  eapply result_exact; [exact H|apply (format64_of x r Hv Hx)|apply (value64_bound x r Hv Hx)].
Qed.
Lemma format64_0 : format64 0.
Proof. apply generic_format_0. Qed.
Lemma sub_self x y r : valid64 x -> valid64 y -> is_value x r -> is_value y r -> is_value (f64_sub x y) 0.
Proof.
  intros Vx Vy Hx Hy. pose proof (sub64 x y r r Vx Vy Hx Hy) as H. rewrite Rminus_eq_0 in H.
  eapply result_exact; [exact H|apply format64_0|]. rewrite Rabs_R0. apply bpow_gt_0.
Qed.
Lemma zero_div x y r : valid64 x -> valid64 y -> is_value x 0 -> is_value y r -> r <> 0%R -> is_value (f64_div x y) 0.
Proof.
  intros Vx Vy Hx Hy Hr. pose proof (div64 x y 0 r Vx Vy Hx Hy Hr) as H. unfold Rdiv in H. rewrite Rmult_0_l in H.
  eapply result_exact; [exact H|apply format64_0|]. rewrite Rabs_R0. apply bpow_gt_0.
Qed.

Ltac fvalid := repeat match goal with
  | H : valid64 ?x |- valid64 ?x => exact H
  | |- valid64 (f64_mul ?a ?b) => refine (valid_mul a b _ _)
  | |- valid64 (f64_add ?a ?b) => refine (valid_add a b _ _)
  | |- valid64 (f64_sub ?a ?b) => refine (valid_sub a b _ _)
  | |- valid64 (f64_div ?a ?b) => refine (valid_div a b _ _)
  | |- valid64 (mul_sub ?k ?a ?b ?c) => refine (valid_mul_sub k a b c _ _ _)
  | |- valid64 (sub_mul ?k ?a ?b ?c) => refine (valid_sub_mul k a b c _ _ _)
  | |- valid64 (add_mul ?k ?a ?b ?c) => refine (valid_add_mul k a b c _ _ _)
  | H : forall x, valid64 x -> valid64 (?f x) |- valid64 (?f ?a) => refine (H a _)
  | H : forall x y, valid64 x -> valid64 y -> valid64 (?f x y) |- valid64 (?f ?a ?b) => refine (H a b _ _)
  end.

(** * The plane as computed in float64 *)
Section Lib.
Variable M : mathlib.
Hypothesis HM : float_library M.
Notation A := (arith64 M).

(** On the sphere: the distance from the axis, and the sine and the cosine of
    the difference of longitudes. *)
Definition sphere_dist (north : f64) : f64 :=
  let one := n_ofZ A 1 in
  let phi0 := rad A (n_ofZ A 60) in
  let phi := rad A north in
  let m := f64_div (f64_add one (m_sin M phi0)) (f64_add one (m_sin M phi)) in
  f64_mul (f64_mul (earth_radius A) m) (m_cos M phi).
Definition sphere_sin (east : f64) : f64 := m_sin M (mul_sub (m_fused M AtSphereLonX) east (n_deg A) (rad A (n_ofZ A 10))).
Definition sphere_cos (east : f64) : f64 := m_cos M (mul_sub (m_fused M AtSphereLonY) east (n_deg A) (rad A (n_ofZ A 10))).
Definition raw_wgs (north east : f64) : f64 * f64 :=
  let half := n_lit A 5 1 in let one := n_ofZ A 1 in
  let lat := f64_mul north (n_deg A) in
  let sinLat := m_sin M lat in
  let s := f64_div (f64_mul (p_k_0 A) (m_tan M (f64_mul half (sub_mul (m_fused M AtColat) (n_half_pi A) north (n_deg A)))))
           (m_pow M (f64_div (sub_mul (m_fused M AtEccMinus) one (p_ecc A) sinLat) (add_mul (m_fused M AtEccPlus) one (p_ecc A) sinLat)) (f64_mul half (p_ecc A))) in
  (f64_div (add_mul (m_fused M AtFalseX) (p_x_0 A) s (m_sin M (mul_sub (m_fused M AtLonX) east (n_deg A) (p_lon_0 A)))) (p_scale A),
   f64_div (sub_mul (m_fused M AtFalseY) (p_y_0 A) s (m_cos M (mul_sub (m_fused M AtLonY) east (n_deg A) (p_lon_0 A)))) (n_neg A (p_scale A))).
(** The coordinates minus the offset [o], in km. *)
Definition raw_x (w : bool) (north east o : num A) : num A :=
  if w then f64_sub (fst (raw_wgs north east)) o else mul_sub (m_fused M AtSphereX) (sphere_dist north) (sphere_sin east) o.
Definition raw_y (w : bool) (north east o : num A) : num A :=
  if w then f64_sub (snd (raw_wgs north east)) o else mul_sub (m_fused M AtSphereY) (sphere_dist north) (sphere_cos east) o.

Lemma project_raw (c : composite (num A)) north east : c_has_projection c = true ->
  project A c north east =
  (f64_div (raw_x (c_wgs84 c) north east (c_offx c)) (c_rx c),
   f64_div (raw_y (c_wgs84 c) north east (c_offy c)) (c_ry c)).
Proof. intros H. unfold project. rewrite H. cbn [negb]. destruct (c_wgs84 c); reflexivity. Qed.

Lemma valid_parts n e : valid64 n -> valid64 e ->
  valid64 (sphere_dist n) /\ valid64 (sphere_sin e) /\ valid64 (sphere_cos e) /\
  valid64 (fst (raw_wgs n e)) /\ valid64 (snd (raw_wgs n e)).
Proof.
  intros Hn He. destruct HM as (M1 & M2 & M3 & M4).
  assert (V1 : valid64 (n_ofZ A 1)) by apply valid_of_int.
  assert (Vd : valid64 (n_deg A)) by (vm_compute; reflexivity).
  assert (Vh : valid64 (n_half_pi A)) by (vm_compute; reflexivity).
  assert (V5 : valid64 (n_lit A 5 1)) by (vm_compute; reflexivity).
  assert (Vk : valid64 (p_k_0 A)) by (vm_compute; reflexivity).
  assert (Vc : valid64 (p_ecc A)) by (vm_compute; reflexivity).
  assert (Vx : valid64 (p_x_0 A)) by (vm_compute; reflexivity).
  assert (Vy : valid64 (p_y_0 A)) by (vm_compute; reflexivity).
  assert (Vs : valid64 (p_scale A)) by (vm_compute; reflexivity).
  assert (Vs' : valid64 (n_neg A (p_scale A))) by (vm_compute; reflexivity).
  assert (Vl : valid64 (p_lon_0 A)) by (vm_compute; reflexivity).
  assert (Vr : valid64 (earth_radius A)) by (vm_compute; reflexivity).
  assert (Vq : valid64 (rad A (n_ofZ A 10))) by (vm_compute; reflexivity).
  assert (Vp : valid64 (rad A (n_ofZ A 60))) by (vm_compute; reflexivity).
  assert (Vrad : forall x, valid64 x -> valid64 (rad A x)) by (intros x Hx; now apply valid_mul).
  unfold raw_wgs, sphere_dist, sphere_sin, sphere_cos.
  revert V1 Vd Vh V5 Vk Vc Vx Vy Vs Vs' Vl Vr Vq Vp Vrad.
  generalize (p_k_0 A) (p_ecc A) (p_x_0 A) (p_y_0 A) (n_neg A (p_scale A)) (p_scale A) (p_lon_0 A) (earth_radius A)
    (rad A (n_ofZ A 10)) (rad A (n_ofZ A 60)) (n_ofZ A 1) (n_deg A) (n_half_pi A) (n_lit A 5 1) (rad A).
  cbn [num arith64].
  intros. cbn [fst snd]. repeat split; fvalid.
Qed.
Lemma valid_raw w n e o o' : valid64 n -> valid64 e -> valid64 o -> valid64 o' -> valid64 (raw_x w n e o) /\ valid64 (raw_y w n e o').
Proof.
  intros Hn He Ho Ho'. destruct (valid_parts n e Hn He) as (P1 & P2 & P3 & P4 & P5).
  unfold raw_x, raw_y. destruct w; cbn [num arith64]; split; fvalid.
Qed.

Lemma valid_lit m k : valid64 (f64_lit m k).
Proof.
  unfold f64_lit, of_decimal. destruct (Z.abs m) as [|p|p]; [reflexivity| |reflexivity].
  destruct (0 <=? k); exact (proj1 (ratio_result prec64 emax64 _ _ _ _ _)).
Qed.

Lemma float_corner_points size b nw se : float_corners size b nw se -> exists g,
  size_of g = Some size /\ (b = true -> g = DE1200Grid) /\
  (forall format, (5 <=? format)%Z = b -> corner_points A format g = Some (nw, se)) /\
  valid64 (fst nw) /\ valid64 (snd nw) /\ valid64 (fst se) /\ valid64 (snd se).
Proof.
  intros H. assert (V : valid64 (fst nw) /\ valid64 (snd nw) /\ valid64 (fst se) /\ valid64 (snd se)).
  { destruct H; cbn [fst snd]; repeat split; apply valid_lit. }
  destruct H.
  - exists nationalGrid. split; [reflexivity|]. split; [discriminate|]. split; [reflexivity|exact V].
  - exists nationalPictureGrid. split; [reflexivity|]. split; [discriminate|]. split; [reflexivity|exact V].
  - exists extendedNationalGrid. split; [reflexivity|]. split; [discriminate|]. split; [reflexivity|exact V].
  - exists DE1200Grid. split; [reflexivity|]. split; [discriminate|]. split; [|exact V]. intros f Hf. cbn [corner_points]. rewrite Hf. reflexivity.
  - exists DE1200Grid. split; [reflexivity|]. split; [reflexivity|]. split; [|exact V]. intros f Hf. cbn [corner_points]. rewrite Hf. reflexivity.
  - exists middleEuropeanGrid. split; [reflexivity|]. split; [discriminate|]. split; [reflexivity|exact V].
Qed.

(** The calibrated fields. *)
Lemma fixed_raw p q r s (c : composite (num A)) w : c_wgs84 c = w ->
  let d := fixed A p q r s c in
  let one := f64_of_int 1 in let ox := f64_div (raw_x w p q (S754_zero false)) one in
  let oy := f64_div (raw_y w p q (S754_zero false)) one in
  c_has_projection d = true /\ c_wgs84 d = w /\ c_offx d = ox /\ c_offy d = oy /\
  c_rx d = f64_div (f64_div (raw_x w r s ox) one) (f64_of_int (c_dx c)) /\
  c_ry d = f64_div (f64_div (raw_y w r s oy) one) (f64_of_int (c_dy c)).
Proof.
  intros Hw. cbv zeta. rewrite project_fixed. cbv zeta.
  set (c1 := set_offy (set_offx (set_ry (set_rx (set_has_projection c true) (n_ofZ A 1)) (n_ofZ A 1)) (n_zero A)) (n_zero A)).
  assert (W1 : c_wgs84 c1 = w) by exact Hw. assert (H1 : c_has_projection c1 = true) by reflexivity.
  assert (O1 : project A c1 p q = (f64_div (raw_x w p q (S754_zero false)) (f64_of_int 1), f64_div (raw_y w p q (S754_zero false)) (f64_of_int 1))).
  { rewrite project_raw by assumption. rewrite W1. reflexivity. }
  rewrite O1. cbn [fst snd].
  set (ox := f64_div (raw_x w p q (S754_zero false)) (f64_of_int 1)).
  set (oy := f64_div (raw_y w p q (S754_zero false)) (f64_of_int 1)).
  set (c2 := set_offy (set_offx c1 ox) oy).
  assert (O2 : project A c2 r s = (f64_div (raw_x w r s ox) (f64_of_int 1), f64_div (raw_y w r s oy) (f64_of_int 1))).
  { rewrite project_raw by reflexivity. change (c_wgs84 c2) with (c_wgs84 c1). rewrite W1. reflexivity. }
  rewrite O2. cbn [fst snd].
  split; [reflexivity|]. split; [exact W1|]. split; [reflexivity|]. split; [reflexivity|]. split; reflexivity.
Qed.

(** * The corners *)
Lemma valid_fixed_plane p q : valid64 p -> valid64 q -> forall w,
  valid64 (f64_div (raw_x w p q (S754_zero false)) (f64_of_int 1)) /\
  valid64 (f64_div (raw_y w p q (S754_zero false)) (f64_of_int 1)).
Proof.
  intros Hp Hq w. destruct (valid_raw w p q (S754_zero false) (S754_zero false) Hp Hq eq_refl eq_refl) as [V1 V2].
  split; (refine (valid_div _ _ _ _); [assumption|apply valid_of_int]).
Qed.

(** [c] on a documented grid: the fields of its calibration. *)
Lemma float_grid (c : composite (num A)) size nw se : on_float_grid M c size nw se ->
  exists w ch, w = (5 <=? c_format c) /\ c = fixed A (fst nw) (snd nw) (fst se) (snd se) ch /\ c_wgs84 ch = w /\
  c_dx ch = c_dx c /\ c_dy ch = c_dy c /\ in_int (c_dx c) = true /\
  valid64 (fst nw) /\ valid64 (snd nw) /\ valid64 (fst se) /\ valid64 (snd se).
Proof.
  intros (Hc & Hr & Hd).
  destruct (calibrated_stage A c Hc) as (ch & Ec & H1 & H2 & H3).
  pose proof (calibrate_frame A ch) as F. unfold data_frame in F. rewrite <- Ec in F.
  assert (c_format c = c_format ch /\ c_dx c = c_dx ch /\ c_dy c = c_dy ch) as (Ff & Fx & Fy) by tauto. clear F.
  rewrite Ff, Fx, Fy in *. destruct size as [gx gy]. cbn [fst snd] in Hr.
  destruct (float_corner_points _ _ _ _ Hd) as (g & G1 & G2 & G3 & V1 & V2 & V3 & V4). specialize (G3 (c_format ch) eq_refl).
  apply (detect_iff _ _ g) in Hr; [|assumption|assumption].
  rewrite calibrate_eq in Ec. cbv zeta in Ec. rewrite Hr, G3 in Ec. destruct nw as [p q], se as [r s]. cbn [fst snd] in *.
  destruct (5 <=? c_format ch)%Z.
  - rewrite (G2 eq_refl) in Ec. exists true, (set_wgs84 (unset A ch) true). auto 12.
  - exists false, (unset A ch). cbn. auto 12.
Qed.

Lemma div_one_back x r : valid64 x -> is_value (f64_div x (f64_of_int 1)) r -> is_value x r.
Proof.
  intros Hv H. destruct (finite_div x (f64_of_int 1)) as [r' Hr']; [now exists r|].
  pose proof (div_one x r' Hv Hr') as H'. now rewrite (is_value_fun _ _ _ H H').
Qed.
Lemma sub_zero_back x r : valid64 x -> is_value (f64_sub x (S754_zero false)) r -> is_value x r.
Proof.
  intros Hv H. destruct (finite_sub x (S754_zero false)) as [[r' Hr'] _]; [now exists r|].
  pose proof (sub_zero x r' Hv Hr') as H'. now rewrite (is_value_fun _ _ _ H H').
Qed.

(** One axis: raw coordinates [a] of the north-west corner and [b] of the
    south-east corner, dimension [n]. *)
Lemma axis_nw a b n rho : valid64 a -> valid64 b -> valid64 n ->
  let o := f64_div (f64_sub a (S754_zero false)) (f64_of_int 1) in
  let r := f64_div (f64_div (f64_sub b o) (f64_of_int 1)) n in
  is_value r rho -> rho <> 0%R -> is_value (f64_div (f64_sub a o) r) 0.
Proof.
  intros Va Vb Vn o r Hr Hn.
  assert (Vo : valid64 o) by (unfold o; fvalid; [reflexivity|apply valid_of_int]).
  assert (Vr : valid64 r) by (unfold r; fvalid; apply valid_of_int).
  destruct (finite_div (f64_div (f64_sub b o) (f64_of_int 1)) n) as [r1 H1]; [now exists rho|].
  destruct (finite_div (f64_sub b o) (f64_of_int 1)) as [r2 H2]; [now exists r1|].
  destruct (finite_sub b o) as [_ [ro Ho]]; [now exists r2|].
  assert (Ha : is_value a ro).
  { apply sub_zero_back; [assumption|]. apply div_one_back; [|exact Ho]. fvalid. reflexivity. }
  apply (zero_div _ _ rho); [fvalid|assumption|apply (sub_self a o ro); assumption|assumption|assumption].
Qed.

(** Where nothing is fused the offset is subtracted from a float64. *)
Lemma raw_x_plain w n e : valid64 n -> valid64 e -> w = true \/ m_fused M AtSphereX = false ->
  exists X, valid64 X /\ forall o, raw_x w n e o = f64_sub X o.
Proof.
  intros Hn He H. destruct (valid_parts n e Hn He) as (P1 & P2 & P3 & P4 & P5). destruct w.
  - eexists. split; [exact P4|]. reflexivity.
  - destruct H as [H|H]; [discriminate|]. exists (f64_mul (sphere_dist n) (sphere_sin e)). split; [now apply valid_mul|].
    intros o. unfold raw_x, mul_sub. now rewrite H.
Qed.
Lemma raw_y_plain w n e : valid64 n -> valid64 e -> w = true \/ m_fused M AtSphereY = false ->
  exists X, valid64 X /\ forall o, raw_y w n e o = f64_sub X o.
Proof.
  intros Hn He H. destruct (valid_parts n e Hn He) as (P1 & P2 & P3 & P4 & P5). destruct w.
  - eexists. split; [exact P5|]. reflexivity.
  - destruct H as [H|H]; [discriminate|]. exists (f64_mul (sphere_dist n) (sphere_cos e)). split; [now apply valid_mul|].
    intros o. unfold raw_y, mul_sub. now rewrite H.
Qed.
End Lib.

(** (Where the compiler fuses the last multiplication with the subtraction of
    the offset, the result is not exactly 0 but the rounding error of the offset:
    [C34_float_nw_fused] in PropAccuracy.v.) *)
Theorem C34_float_nw M (c : composite (num (arith64 M))) size nw se rx ry :
  float_library M -> on_float_grid M c size nw se ->
  (5 <= c_format c \/ m_fused M AtSphereX = false /\ m_fused M AtSphereY = false) ->
  is_value (c_rx c) rx -> rx <> 0%R -> is_value (c_ry c) ry -> ry <> 0%R ->
  let p := project (arith64 M) c (fst nw) (snd nw) in is_value (fst p) 0 /\ is_value (snd p) 0.
Proof.
  intros HM Hg Hf Hx Nx Hy Ny. cbv zeta.
  destruct (float_grid M c size nw se Hg) as (w & ch & Ew & Ec & Hw & E1 & E2 & Hi & V1 & V2 & V3 & V4).
  assert (Fx : w = true \/ m_fused M AtSphereX = false) by (destruct Hf as [Hf|[Hf _]]; [left; subst w; now apply Z.leb_le|now right]).
  assert (Fy : w = true \/ m_fused M AtSphereY = false) by (destruct Hf as [Hf|[_ Hf]]; [left; subst w; now apply Z.leb_le|now right]).
  pose proof (fixed_raw M (fst nw) (snd nw) (fst se) (snd se) ch w Hw) as F. cbv zeta in F.
  rewrite <- Ec in F. destruct F as (F1 & F2 & F3 & F4 & F5 & F6).
  destruct (raw_x_plain M HM w _ _ V1 V2 Fx) as (Xa & A1 & QA). destruct (raw_x_plain M HM w _ _ V3 V4 Fx) as (Xb & B1 & QB).
  destruct (raw_y_plain M HM w _ _ V1 V2 Fy) as (Ya & A2 & RA). destruct (raw_y_plain M HM w _ _ V3 V4 Fy) as (Yb & B2 & RB).
  rewrite QA, QB in F5. rewrite QA in F3. rewrite RA, RB in F6. rewrite RA in F4.
  rewrite project_raw by assumption. rewrite F2, F3, F4, QA, RA. cbn [fst snd].
  rewrite F5 in *. rewrite F6 in *.
  split; [apply (axis_nw Xa Xb _ rx)|apply (axis_nw Ya Yb _ ry)]; try assumption; apply valid_of_int.
Qed.

(** Integers of the form g * 2^k are floats. *)
Lemma grid_int n g a b : 0 < g < 2 ^ 53 -> 0 <= a -> 0 <= b -> 0 < n < 2 ^ 1000 -> n * 2 ^ a = g * 2 ^ b ->
  is_value (f64_of_int n) (IZR n).
Proof.
  intros Hg Ha Hb Hn E. pose proof (normalize_result prec64 emax64 _ _ n 0 false) as Hr. rewrite F2R_int in Hr.
  eapply result_exact; [exact Hr| |].
  - apply generic_format_FLT. exists (Float radix2 g (b - a)); cbn [Fnum Fexp].
    + unfold F2R. cbn [Fnum Fexp]. unfold Zminus. rewrite bpow_plus, bpow_opp.
      assert (Ea : bpow radix2 a = IZR (2 ^ a)) by (rewrite <- IZR_Zpower by lia; reflexivity).
      assert (Eb : bpow radix2 b = IZR (2 ^ b)) by (rewrite <- IZR_Zpower by lia; reflexivity).
      pose proof (bpow_gt_0 radix2 a). rewrite Ea in *. rewrite Eb in *.
      apply Rmult_eq_reg_r with (IZR (2 ^ a)); [|lra]. rewrite <- mult_IZR, E, mult_IZR. field. lra.
    + change (Z.abs g < 2 ^ 53). lia.
    + unfold emax64, prec64. destruct (Z_le_gt_dec (3 - 1024 - 53) (b - a)) as [|Hlt]; [assumption|exfalso].
      assert (2 ^ 53 * 2 ^ b <= 2 ^ a). { rewrite <- Z.pow_add_r by lia. apply Z.pow_le_mono_r; lia. }
      assert (0 < 2 ^ a) by (apply Z.pow_pos_nonneg; lia). assert (0 < 2 ^ b) by (apply Z.pow_pos_nonneg; lia). nia.
  - rewrite <- abs_IZR. change (bpow radix2 emax64) with (IZR (2 ^ 1024)). apply IZR_lt.
    rewrite Z.abs_eq by lia. apply Z.lt_trans with (2 ^ 1000); [lia|reflexivity].
Qed.

Lemma finite_result z r v : result64 z r -> is_value z v -> v = rnd64 r.
Proof.
  intros [Hv H] Hz. fold rnd64 in H. apply is_value_iff in Hz. destruct Hz as [F ->].
  destruct (Rlt_bool _ _); [apply H|]. subst z. discriminate.
Qed.

Lemma rel64 r : (bpow radix2 (-1022) <= Rabs r)%R -> exists e, (Rabs e <= bpow radix2 (-53))%R /\ rnd64 r = (r * (1 + e))%R.
Proof.
  intros H. destruct (relative_error_N_FLT_ex radix2 (3 - emax64 - prec64) prec64 ltac:(reflexivity) (fun n => negb (Z.even n)) r H) as (e & He & E).
  exists e. split; [|exact E]. eapply Rle_trans; [exact He|]. change (-prec64 + 1) with (-52).
  change (-53) with (-1 + -52). rewrite bpow_plus. change (bpow radix2 (-1)) with (/ 2)%R. lra.
Qed.

Lemma tiny_small : (0 < bpow radix2 (-53) < / 1000000)%R /\ bpow radix2 (-51) = (4 * bpow radix2 (-53))%R.
Proof.
  assert (E : bpow radix2 (-53) = (/ IZR (2 ^ 53))%R) by reflexivity. split; [split|].
  - apply bpow_gt_0.
  - rewrite E. apply Rinv_lt_contravar; [lra|]. lra.
  - change (-51) with (2 + -53). rewrite bpow_plus. reflexivity.
Qed.

Lemma axis_se D n (d k rho : R) : valid64 D -> valid64 n -> is_value D d -> is_value n k -> (1 <= k < bpow radix2 1000)%R ->
  let r := f64_div (f64_div D (f64_of_int 1)) n in
  is_value r rho -> (bpow radix2 (-1000) <= Rabs rho)%R ->
  exists x, is_value (f64_div D r) x /\ (Rabs (x - k) <= k * bpow radix2 (-51))%R.
Proof.
  intros VD Vn HD Hn Hk r Hr Hb.
  assert (VD1 : valid64 (f64_div D (f64_of_int 1))) by (fvalid; apply valid_of_int).
  assert (Vr : valid64 r) by (unfold r; fvalid).
  pose proof (div_one D d VD HD) as HD1.
  pose proof (div64 _ n d k VD1 Vn HD1 Hn ltac:(lra)) as R1. fold r in R1.
  pose proof (finite_result _ _ _ R1 Hr) as E1.
  destruct tiny_small as [T1 T2]. set (t := bpow radix2 (-53)) in *.
  assert (L1 : (bpow radix2 (-1022) <= Rabs (d / k))%R).
  { destruct (Rle_or_lt (bpow radix2 (-1022)) (Rabs (d / k))) as [|Hlt]; [assumption|exfalso].
    assert (Rabs rho <= bpow radix2 (-1022))%R.
    { rewrite E1. apply abs_round_le_generic; [exact _|exact _| |lra].
      apply generic_format_bpow. unfold FLT_exp, emax64, prec64. lia. }
    assert (bpow radix2 (-1022) < bpow radix2 (-1000))%R by (apply bpow_lt; lia). lra. }
  destruct (rel64 _ L1) as (e1 & B1 & G1). rewrite G1 in E1.
  assert (Hd : d <> 0%R).
  { intros ->. unfold Rdiv in L1. rewrite Rmult_0_l, Rabs_R0 in L1. pose proof (bpow_gt_0 radix2 (-1022)). lra. }
  apply Rabs_le_inv in B1. fold t in B1.
  assert (Hrho : rho <> 0%R).
  { rewrite E1. apply Rmult_integral_contrapositive. split; [|apply Rgt_not_eq; lra]. unfold Rdiv. apply Rmult_integral_contrapositive.
    split; [assumption|]. apply Rinv_neq_0_compat. lra. }
  pose proof (div64 D r d rho VD Vr HD Hr Hrho) as R2.
  assert (Q : (d / rho = k * / (1 + e1))%R) by (rewrite E1; field; lra).
  rewrite Q in R2.
  assert (I : (1 - 2 * t <= / (1 + e1) <= 1 + 2 * t)%R).
  { assert (H1 : (/ (1 + e1) * (1 + e1) = 1)%R) by (apply Rinv_l; lra). set (u := (/ (1 + e1))%R) in *.
    assert (0 < u)%R by (apply Rinv_0_lt_compat; lra). split; nra. }
  set (u := (/ (1 + e1))%R) in *.
  assert (L2 : (bpow radix2 (-1022) <= Rabs (k * u))%R).
  { assert (bpow radix2 (-1022) <= bpow radix2 (-1))%R by (apply bpow_le; lia). change (bpow radix2 (-1)) with (/ 2)%R in *.
    rewrite Rabs_pos_eq; nra. }
  destruct (rel64 _ L2) as (e2 & B2 & G2). apply Rabs_le_inv in B2. fold t in B2.
  assert (Bx : (Rabs (k * u * (1 + e2) - k) <= k * bpow radix2 (-51))%R).
  { rewrite T2. replace (k * u * (1 + e2) - k)%R with (k * (u * (1 + e2) - 1))%R by ring.
    rewrite Rabs_mult, (Rabs_pos_eq k) by lra. apply Rmult_le_compat_l; [lra|]. apply Rabs_le. split; nra. }
  exists (rnd64 (k * u)). split.
  - eapply result_value; [exact R2|]. fold rnd64. rewrite G2.
    apply Rabs_le_inv in Bx. rewrite T2 in Bx.
    assert (Rabs (k * u * (1 + e2)) <= 2 * bpow radix2 1000)%R.
    { apply Rabs_le. split; nra. }
    assert (2 * bpow radix2 1000 < bpow radix2 1024)%R.
    { change 2%R with (bpow radix2 1). rewrite <- bpow_plus. apply bpow_lt. lia. }
    unfold emax64. lra.
  - rewrite G2. exact Bx.
Qed.

Lemma resampled_float size b nw se dx dy : float_corners size b nw se -> in_int dx = true ->
  resampled dx dy (fst size) (snd size) ->
  is_value (f64_of_int dx) (IZR dx) /\ is_value (f64_of_int dy) (IZR dy) /\
  (1 <= IZR dx < bpow radix2 1000)%R /\ (1 <= IZR dy < bpow radix2 1000)%R.
Proof.
  intros Hf Hi (a & e & Ha & He & H1 & H2).
  assert (Hs : 900 <= fst size <= 1500 /\ 900 <= snd size <= 1500) by (destruct Hf; cbn; lia).
  assert (0 < 2 ^ a) by (apply Z.pow_pos_nonneg; lia). assert (0 < 2 ^ e) by (apply Z.pow_pos_nonneg; lia).
  assert (Bx : 0 < dx < 2 ^ 64). { unfold in_int in Hi. apply andb_prop in Hi. destruct Hi as [I1 I2]. split; [nia|]. unfold int_max in *. lia. }
  assert (By : 0 < dy < 2 ^ 66) by (split; nia).
  assert (P : 2 ^ 66 < 2 ^ 1000) by reflexivity. assert (P' : 2 ^ 64 < 2 ^ 66) by reflexivity.
  change (bpow radix2 1000) with (IZR (2 ^ 1000)).
  split; [apply (grid_int dx (fst size) a e); lia|]. split; [apply (grid_int dy (snd size) a e); lia|].
  split; split; try (apply IZR_le; lia); apply IZR_lt; lia.
Qed.

Theorem C34_float_se M (c : composite (num (arith64 M))) size nw se rx ry :
  float_library M -> on_float_grid M c size nw se ->
  is_value (c_rx c) rx -> (powerRZ 2 (-1000) <= Rabs rx)%R -> is_value (c_ry c) ry -> (powerRZ 2 (-1000) <= Rabs ry)%R ->
  let p := project (arith64 M) c (fst se) (snd se) in
  exists x y, is_value (fst p) x /\ is_value (snd p) y /\
    (Rabs (x - IZR (c_dx c)) <= IZR (c_dx c) * powerRZ 2 (-51))%R /\
    (Rabs (y - IZR (c_dy c)) <= IZR (c_dy c) * powerRZ 2 (-51))%R.
Proof.
  intros HM Hg Hx Nx Hy Ny. cbv zeta. rewrite <- !(bpow_powerRZ radix2) in *.
  pose proof (float_grid M c size nw se Hg) as (w & ch & _ & Ec & Hw & E1 & E2 & Hi & V1 & V2 & V3 & V4).
  destruct Hg as (_ & Hr & Hd). destruct (resampled_float _ _ _ _ _ _ Hd Hi Hr) as (I1 & I2 & I3 & I4).
  pose proof (fixed_raw M (fst nw) (snd nw) (fst se) (snd se) ch w Hw) as F. cbv zeta in F.
  rewrite <- Ec in F. destruct F as (F1 & F2 & F3 & F4 & F5 & F6).
  destruct (valid_fixed_plane M HM _ _ V1 V2 w) as [A1 A2]. destruct (valid_raw M HM w _ _ _ _ V3 V4 A1 A2) as [B1 B2].
  rewrite project_raw by assumption. rewrite F2, F3, F4. cbn [fst snd].
  rewrite E1 in F5. rewrite E2 in F6. rewrite F5 in *. rewrite F6 in *.
  assert (FD : forall D k rho, is_value (f64_div (f64_div D (f64_of_int 1)) k) rho -> exists d, is_value D d).
  { intros D k rho H. apply (finite_div D (f64_of_int 1)). apply (finite_div _ k). now exists rho. }
  destruct (FD _ _ _ Hx) as [dx Dx]. destruct (FD _ _ _ Hy) as [dy Dy].
  destruct (axis_se _ _ dx _ rx B1 (valid_of_int _) Dx I1 I3 Hx Nx) as (x & X1 & X2).
  destruct (axis_se _ _ dy _ ry B2 (valid_of_int _) Dy I2 I4 Hy Ny) as (y & Y1 & Y2).
  exists x, y. auto.
Qed.

(** The hypotheses are met: with a (crude) math library, on the spherical and
    on the ellipsoidal grid. *)
Definition crude : mathlib := {| m_sin := fun x => x; m_cos := fun _ => f64_of_int 1; m_tan := fun x => x; m_pow := fun _ _ => f64_of_int 1; m_fused := fun _ => false |}.
Lemma crude_library : float_library crude.
Proof. repeat split; cbn; auto using valid_of_int. Qed.

Lemma dummy_float_grid M product format dx dy size nw se : in_int dx = true -> in_int dy = true ->
  resampled dx dy (fst size) (snd size) -> float_corners size (5 <=? format)%Z nw se ->
  on_float_grid M (new_dummy (arith64 M) product format dx dy) size nw se.
Proof.
  intros Hx Hy Hr Hd. unfold on_float_grid. destruct (dummy_fields (arith64 M) product format dx dy) as (-> & -> & ->).
  split; [right; exists product, format, dx, dy; auto|]. auto.
Qed.

Lemma plain_value m e : 0 <= e + 1000 -> exists r, is_value (S754_finite false m e) r /\ (powerRZ 2 (-1000) <= Rabs r)%R /\ r <> 0%R.
Proof.
  intros He. eexists. split; [reflexivity|]. rewrite <- !(bpow_powerRZ radix2).
  pose proof (bpow_gt_0 radix2 e) as H0. assert (1 <= IZR (Zpos m))%R by (apply IZR_le; lia).
  assert (bpow radix2 (-1000) <= bpow radix2 e)%R by (apply bpow_le; lia).
  split; [rewrite Rabs_pos_eq; nra|nra].
Qed.

Lemma crude_resolution format dx dy m e m' e' :
  c_rx (new_dummy (arith64 crude) [] format dx dy) = S754_finite false m e ->
  c_ry (new_dummy (arith64 crude) [] format dx dy) = S754_finite false m' e' -> 0 <= e + 1000 -> 0 <= e' + 1000 ->
  let c := new_dummy (arith64 crude) [] format dx dy in
  exists rx ry, is_value (c_rx c) rx /\ (powerRZ 2 (-1000) <= Rabs rx)%R /\ rx <> 0%R /\
    is_value (c_ry c) ry /\ (powerRZ 2 (-1000) <= Rabs ry)%R /\ ry <> 0%R.
Proof.
  intros E1 E2 H1 H2 c. fold c in E1, E2. rewrite E1, E2. destruct (plain_value m e H1) as (rx & X1 & X2 & X3). destruct (plain_value m' e' H2) as (ry & Y1 & Y2 & Y3).
  exists rx, ry. auto 10.
Qed.

Example C34_float_case_sphere : let c := new_dummy (arith64 crude) [] 3 900 900 in
  on_float_grid crude c (900, 900) (deg 545877 4, deg 20715 4) (deg 470705 4, deg 146209 4) /\
  exists rx ry, is_value (c_rx c) rx /\ (powerRZ 2 (-1000) <= Rabs rx)%R /\ rx <> 0%R /\
    is_value (c_ry c) ry /\ (powerRZ 2 (-1000) <= Rabs ry)%R /\ ry <> 0%R.
Proof.
  split.
  - apply dummy_float_grid; [reflexivity|reflexivity| |constructor]. exists 0, 0. cbn [fst snd]. lia.
  - apply (crude_resolution 3 900 900 7513534116260832 (-52) 4813951882558032 (-53)); [vm_compute; reflexivity|vm_compute; reflexivity|lia|lia].
Qed.
Example C34_float_case_ellipsoid : let c := new_dummy (arith64 crude) [] 5 2200 2400 in
  on_float_grid crude c (1100, 1200) (deg 5586208711 8, deg 1463301510 9) (deg 4568460578 8, deg 1658086935 8) /\
  exists rx ry, is_value (c_rx c) rx /\ (powerRZ 2 (-1000) <= Rabs rx)%R /\ rx <> 0%R /\
    is_value (c_ry c) ry /\ (powerRZ 2 (-1000) <= Rabs ry)%R /\ ry <> 0%R.
Proof.
  split.
  - apply dummy_float_grid; [reflexivity|reflexivity| |constructor]. exists 0, 1. cbn [fst snd]. lia.
  - apply (crude_resolution 5 2200 2400 8626141665992415 (-54) 7908216519480748 (-54)); [vm_compute; reflexivity|vm_compute; reflexivity|lia|lia].
Qed.
