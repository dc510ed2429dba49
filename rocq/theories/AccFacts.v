(** Forward error analysis of float64 programs. *)
From Coq Require Import Reals Lra Lia Psatz Machin Ratan.
From Flocq Require Import Core Relative BinarySingleNaN.
From Verif Require Import GoBase GoFloat Composite Projection SpecReal SpecProj ExactReal SpecAccuracy BaseFacts
  FloatFacts PropFloat PropReal PropProjFloat.
Local Open Scope R_scope.

(** Unit of all errors. *)
Definition u : R := bpow radix2 (-52).
Lemma u_small : 0 < u < / 10 ^ 15.
Proof.
  split; [apply bpow_gt_0|]. unfold u. change (bpow radix2 (-52)) with (/ IZR (2 ^ 52)). 
  apply Rinv_lt_contravar; [|change (2 ^ 52)%Z with 4503599627370496%Z; lra].
  change (2 ^ 52)%Z with 4503599627370496%Z. lra.
Qed.
Definition U : R := / 10 ^ 15.
Definition tiny : R := / 10 ^ 9.

Lemma rnd_err r : Rabs (rnd64 r - r) <= (Rabs r / 2 + tiny) * u.
Proof.
  destruct (error_N_FLT radix2 (3 - emax64 - prec64) prec64 ltac:(reflexivity) (fun n => negb (Z.even n)) r) as (e & h & He & Hh & _ & E).
  unfold rnd64. rewrite E. replace (r * (1 + e) + h - r) with (r * e + h) by ring.
  eapply Rle_trans; [apply Rabs_triang|]. rewrite Rabs_mult, Rmult_plus_distr_r. apply Rplus_le_compat.
  - replace (Rabs r / 2 * u) with (Rabs r * (u / 2)) by field. apply Rmult_le_compat_l; [apply Rabs_pos|].
    eapply Rle_trans; [exact He|]. unfold u. change (-prec64 + 1)%Z with (-52)%Z. lra.
  - eapply Rle_trans; [exact Hh|]. 
    apply Rle_trans with (bpow radix2 (-82)).
    { rewrite <- (Rmult_1_l (bpow radix2 (-82))). apply Rmult_le_compat; [lra|apply bpow_ge_0|lra|].
      apply bpow_le. unfold emax64, prec64. lia. }
    unfold u, tiny. change (-82)%Z with (-30 + -52)%Z. rewrite bpow_plus. apply Rmult_le_compat_r; [apply bpow_ge_0|].
    change (bpow radix2 (-30)) with (/ IZR (2 ^ 30)). apply Rinv_le_contravar; [lra|]. change (2 ^ 30)%Z with 1073741824%Z. lra.
Qed.

(** [x] is a float64 value within [e] units of [r], which is at most [B]. *)
Definition approx (x : f64) (r B e : R) : Prop :=
  valid64 x /\ 0 <= e /\ Rabs r <= B /\ exists v, is_value x v /\ Rabs (v - r) <= e * u.

Lemma approx_weak x r B e B' e' : approx x r B e -> B <= B' -> e <= e' -> approx x r B' e'.
Proof.
  intros (H1 & H2 & H3 & v & H4 & H5) HB He. split; [assumption|]. split; [lra|]. split; [lra|].
  exists v. split; [assumption|]. pose proof u_small. nra.
Qed.

Lemma approx_bound x r B e : approx x r B e -> 0 <= B /\ 0 <= e.
Proof. intros (_ & H & H1 & _). pose proof (Rabs_pos r). split; lra. Qed.

Lemma approx_of_value x v B : valid64 x -> is_value x v -> Rabs v <= B -> approx x v B 0.
Proof. intros Hv Hx HB. split; [assumption|]. split; [lra|]. split; [assumption|]. exists v. split; [assumption|]. rewrite Rminus_eq_0, Rabs_R0. lra. Qed.

Lemma no_overflow r : Rabs r <= 10 ^ 15 -> Rabs (rnd64 r) < bpow radix2 emax64.
Proof.
  intros H. pose proof (rnd_err r) as He. pose proof u_small as Hu. pose proof (Rabs_pos r).
  assert (Rabs (rnd64 r) <= Rabs (rnd64 r - r) + Rabs r).
  { replace (rnd64 r) with (rnd64 r - r + r) at 1 by ring. apply Rabs_triang. }
  assert ((Rabs r / 2 + tiny) * u <= 10).
  { apply Rle_trans with ((10 ^ 15 / 2 + tiny) * U); [|unfold tiny, U; lra]. 
    apply Rmult_le_compat; [unfold tiny; lra|lra|lra|unfold U; lra]. }
  apply Rlt_trans with (bpow radix2 60); [|apply bpow_lt; unfold emax64; lia].
  change (bpow radix2 60) with (IZR (2 ^ 60)). change (2 ^ 60)%Z with 1152921504606846976%Z. lra.
Qed.

Lemma result_approx z s r B Q e : result64 z s -> Rabs r <= B -> 0 <= e -> Rabs (s - r) <= e * u ->
  B + e * U <= Q -> Q <= 10 ^ 15 -> approx z r B (e + Q / 2 + tiny).
Proof.
  intros Hz HB He Hs HQ Hm. pose proof u_small as Hu. pose proof (Rabs_pos r).
  assert (Hss : Rabs s <= Q).
  { apply Rle_trans with (B + e * U); [|assumption]. replace s with (r + (s - r)) by ring.
    eapply Rle_trans; [apply Rabs_triang|]. apply Rplus_le_compat; [assumption|]. eapply Rle_trans; [exact Hs|].
    apply Rmult_le_compat_l; [assumption|]. unfold U. lra. }
  assert (Hv : is_value z (rnd64 s)) by (apply (result_value _ _ _ _ Hz); apply no_overflow; lra).
  split; [apply Hz|]. pose proof (Rabs_pos s). split; [unfold tiny; lra|]. split; [assumption|].
  exists (rnd64 s). split; [assumption|].
  replace (rnd64 s - r) with ((rnd64 s - s) + (s - r)) by ring.
  eapply Rle_trans; [apply Rabs_triang|]. pose proof (rnd_err s) as Hr. 
  apply Rle_trans with ((Q / 2 + tiny) * u + e * u); [|right; ring].
  apply Rplus_le_compat; [|assumption]. eapply Rle_trans; [exact Hr|]. apply Rmult_le_compat_r; lra.
Qed.

Lemma approx_add x y a b A e B f C : approx x a A e -> approx y b B f -> Rabs (a + b) <= C ->
  C + (e + f) * U <= 10 ^ 15 ->
  approx (f64_add x y) (a + b) C (e + f + (C + (e + f) * U) / 2 + tiny).
Proof.
  intros (Vx & He & HA & v & Xv & Dv) (Vy & Hf & HB & w & Xw & Dw) HC Hm.
  apply (result_approx _ (v + w)); [now apply add64|assumption|lra| |lra|assumption].
  replace (v + w - (a + b)) with ((v - a) + (w - b)) by ring. eapply Rle_trans; [apply Rabs_triang|]. lra.
Qed.
Lemma approx_sub x y a b A e B f C : approx x a A e -> approx y b B f -> Rabs (a - b) <= C ->
  C + (e + f) * U <= 10 ^ 15 ->
  approx (f64_sub x y) (a - b) C (e + f + (C + (e + f) * U) / 2 + tiny).
Proof.
  intros (Vx & He & HA & v & Xv & Dv) (Vy & Hf & HB & w & Xw & Dw) HC Hm.
  apply (result_approx _ (v - w)); [now apply sub64|assumption|lra| |lra|assumption].
  replace (v - w - (a - b)) with ((v - a) + - (w - b)) by ring. eapply Rle_trans; [apply Rabs_triang|]. rewrite Rabs_Ropp. lra.
Qed.
Lemma approx_mul x y a b A e B f : approx x a A e -> approx y b B f ->
  A * B + (e * (B + f * U) + A * f) * U <= 10 ^ 15 ->
  approx (f64_mul x y) (a * b) (A * B)
    (e * (B + f * U) + A * f + (A * B + (e * (B + f * U) + A * f) * U) / 2 + tiny).
Proof.
  intros (Vx & He & HA & v & Xv & Dv) (Vy & Hf & HB & w & Xw & Dw) Hm. pose proof u_small as Hu.
  pose proof (Rabs_pos a) as Pa. pose proof (Rabs_pos b) as Pb. unfold U in *.
  assert (HU : 0 <= / 10 ^ 15) by lra. assert (0 <= f * / 10 ^ 15) by (apply Rmult_le_pos; lra).
  assert (Hw : Rabs w <= B + f * / 10 ^ 15).
  { replace w with (b + (w - b)) by ring. eapply Rle_trans; [apply Rabs_triang|]. 
    assert (f * u <= f * / 10 ^ 15) by (apply Rmult_le_compat_l; lra). lra. }
  apply (result_approx _ (v * w)); [now apply mul64| | | |unfold U; lra|assumption].
  - rewrite Rabs_mult. apply Rmult_le_compat; lra.
  - apply Rplus_le_le_0_compat; apply Rmult_le_pos; lra.
  - replace (v * w - a * b) with ((v - a) * w + a * (w - b)) by ring. eapply Rle_trans; [apply Rabs_triang|].
    rewrite !Rabs_mult, Rmult_plus_distr_r. apply Rplus_le_compat.
    + replace (e * (B + f * / 10 ^ 15) * u) with (e * u * (B + f * / 10 ^ 15)) by ring.
      apply Rmult_le_compat; [apply Rabs_pos|apply Rabs_pos|lra|assumption].
    + rewrite Rmult_assoc. apply Rmult_le_compat; [apply Rabs_pos|apply Rabs_pos|lra|lra].
Qed.
Lemma approx_div x y a b A e B f L Q : approx x a A e -> approx y b B f -> 0 < L -> L + f * U <= Rabs b -> Rabs (a / b) <= Q ->
  Q + ((e + Q * f) / L) * U <= 10 ^ 15 ->
  approx (f64_div x y) (a / b) Q ((e + Q * f) / L + (Q + ((e + Q * f) / L) * U) / 2 + tiny).
Proof.
  intros (Vx & He & HA & v & Xv & Dv) (Vy & Hf & HB & w & Xw & Dw) HL Hb HQ Hm. pose proof u_small as Hu.
  assert (HU : 0 < U) by (unfold U; lra). assert (Hfu : f * u <= f * U) by (apply Rmult_le_compat_l; unfold U; lra).
  assert (0 <= f * U) by (apply Rmult_le_pos; lra).
  assert (Hw : L <= Rabs w).
  { assert (Rabs b <= Rabs w + Rabs (w - b)).
    { replace b with (w - (w - b)) at 1 by ring. eapply Rle_trans; [apply Rabs_triang|]. rewrite Rabs_Ropp. lra. }
    lra. }
  assert (Nw : w <> 0) by (intros ->; rewrite Rabs_R0 in Hw; lra).
  assert (Nb : b <> 0) by (intros ->; rewrite Rabs_R0 in Hb; lra).
  assert (PQ : 0 <= Q) by (pose proof (Rabs_pos (a / b)); lra).
  assert (PQf : 0 <= Q * f) by (apply Rmult_le_pos; lra).
  assert (PE : 0 <= (e + Q * f) / L) by (apply Rmult_le_pos; [lra|left; now apply Rinv_0_lt_compat]).
  apply (result_approx _ (v / w)); [now apply div64|assumption|assumption| |lra|assumption].
  replace (v / w - a / b) with (((v - a) - a / b * (w - b)) / w) by (field; auto).
  unfold Rdiv at 1. rewrite Rabs_mult, Rabs_inv. replace ((e + Q * f) / L * u) with ((e * u + Q * (f * u)) * / L) by (field; lra).
  apply Rmult_le_compat; [apply Rabs_pos|left; apply Rinv_0_lt_compat; lra| |apply Rinv_le_contravar; assumption].
  eapply Rle_trans; [apply Rabs_triang|]. rewrite Rabs_Ropp, Rabs_mult. apply Rplus_le_compat; [assumption|].
  apply Rmult_le_compat; [apply Rabs_pos|apply Rabs_pos|assumption|assumption].
Qed.

(** The same with the multiplication fused or not. *)
Definition mul_err (A e B f : R) : R := e * (B + f * U) + A * f + (A * B + (e * (B + f * U) + A * f) * U) / 2 + tiny.
Lemma product_approx k x y a b A e B f : approx x a A e -> approx y b B f ->
  A * B + (e * (B + f * U) + A * f) * U <= 10 ^ 15 ->
  exists v w, is_value x v /\ is_value y w /\ Rabs (rnd64 (v * w)) < bpow radix2 emax64 /\
    Rabs (product k v w - a * b) <= mul_err A e B f * u /\ 0 <= mul_err A e B f.
Proof.
  intros (Vx & He & HA & v & Xv & Dv) (Vy & Hf & HB & w & Xw & Dw) Hm. pose proof u_small as Hu.
  pose proof (Rabs_pos a) as Pa. pose proof (Rabs_pos b) as Pb. unfold mul_err. unfold U in *.
  assert (HU : 0 <= / 10 ^ 15) by lra. assert (0 <= f * / 10 ^ 15) by (apply Rmult_le_pos; lra).
  assert (Hw : Rabs w <= B + f * / 10 ^ 15).
  { replace w with (b + (w - b)) by ring. eapply Rle_trans; [apply Rabs_triang|].
    assert (f * u <= f * / 10 ^ 15) by (apply Rmult_le_compat_l; lra). lra. }
  set (E := e * (B + f * / 10 ^ 15) + A * f) in *.
  assert (PE : 0 <= E) by (apply Rplus_le_le_0_compat; apply Rmult_le_pos; lra).
  assert (PAB : Rabs (a * b) <= A * B) by (rewrite Rabs_mult; apply Rmult_le_compat; lra).
  assert (PQ : 0 <= A * B) by (pose proof (Rabs_pos (a * b)); lra).
  assert (D : Rabs (v * w - a * b) <= E * u).
  { replace (v * w - a * b) with ((v - a) * w + a * (w - b)) by ring. eapply Rle_trans; [apply Rabs_triang|].
    unfold E. rewrite !Rabs_mult, Rmult_plus_distr_r. apply Rplus_le_compat.
    + replace (e * (B + f * / 10 ^ 15) * u) with (e * u * (B + f * / 10 ^ 15)) by ring.
      apply Rmult_le_compat; [apply Rabs_pos|apply Rabs_pos|lra|assumption].
    + rewrite Rmult_assoc. apply Rmult_le_compat; [apply Rabs_pos|apply Rabs_pos|lra|lra]. }
  assert (Q : Rabs (v * w) <= A * B + E * / 10 ^ 15).
  { replace (v * w) with (a * b + (v * w - a * b)) by ring. eapply Rle_trans; [apply Rabs_triang|].
    assert (E * u <= E * / 10 ^ 15) by (apply Rmult_le_compat_l; lra). lra. }
  assert (PEU : 0 <= E * / 10 ^ 15) by (apply Rmult_le_pos; lra).
  exists v, w. split; [assumption|]. split; [assumption|]. split; [apply no_overflow; lra|].
  split; [|unfold tiny; lra]. pose proof (rnd_err (v * w)) as R. unfold product.
  assert (R' : (Rabs (v * w) / 2 + tiny) * u <= ((A * B + E * / 10 ^ 15) / 2 + tiny) * u) by (apply Rmult_le_compat_r; lra).
  assert (0 <= ((A * B + E * / 10 ^ 15) / 2 + tiny) * u) by (apply Rmult_le_pos; [unfold tiny; lra|lra]).
  replace ((E + (A * B + E * / 10 ^ 15) / 2 + tiny) * u) with (E * u + ((A * B + E * / 10 ^ 15) / 2 + tiny) * u) by ring.
  destruct k; [lra|].
  replace (rnd64 (v * w) - a * b) with ((rnd64 (v * w) - v * w) + (v * w - a * b)) by ring.
  eapply Rle_trans; [apply Rabs_triang|]. lra.
Qed.

Section Fused.
Variables (k : bool) (x y z : f64) (a b c A e B f C g E D : R).
Hypotheses (Hx : approx x a A e) (Hy : approx y b B f) (Hz : approx z c C g).
Hypothesis (HE : mul_err A e B f <= E).
Hypothesis (Hm : A * B + (e * (B + f * U) + A * f) * U <= 10 ^ 15).
Hypothesis (Hd : D + (E + g) * U <= 10 ^ 15).

Lemma approx_fused q s r : (forall v w, is_value x v -> is_value y w -> forall h, is_value z h ->
    Rabs (rnd64 (v * w)) < bpow radix2 emax64 -> 
    result64 q (s * product k v w + r * h)) -> 
  Rabs s <= 1 -> Rabs r <= 1 -> Rabs (s * (a * b) + r * c) <= D ->
  approx q (s * (a * b) + r * c) D (E + g + (D + (E + g) * U) / 2 + tiny).
Proof.
  intros Hq Hs Hr HD. destruct (product_approx k _ _ _ _ _ _ _ _ Hx Hy Hm) as (v & w & Xv & Xw & B1 & B2 & B3).
  pose proof Hz as (Vz & Hg & HC & h & Xh & Dh). pose proof u_small.
  apply (result_approx _ (s * product k v w + r * h)); [now apply Hq|assumption|lra| |lra|assumption].
  replace (s * product k v w + r * h - (s * (a * b) + r * c)) with (s * (product k v w - a * b) + r * (h - c)) by ring.
  eapply Rle_trans; [apply Rabs_triang|]. rewrite !Rabs_mult, Rmult_plus_distr_r.
  assert (mul_err A e B f * u <= E * u) by (apply Rmult_le_compat_r; lra).
  pose proof (Rabs_pos (product k v w - a * b)). pose proof (Rabs_pos (h - c)).
  assert (Rabs s * Rabs (product k v w - a * b) <= 1 * Rabs (product k v w - a * b)) by (apply Rmult_le_compat_r; lra).
  assert (Rabs r * Rabs (h - c) <= 1 * Rabs (h - c)) by (apply Rmult_le_compat_r; lra). lra.
Qed.

Lemma approx_mul_sub : Rabs (a * b - c) <= D -> approx (mul_sub k x y z) (a * b - c) D (E + g + (D + (E + g) * U) / 2 + tiny).
Proof.
  intros HD. replace (a * b - c) with (1 * (a * b) + -1 * c) in * by ring. apply approx_fused; [|rewrite Rabs_R1; lra|rewrite Rabs_left; lra|assumption].
  intros v w Xv Xw h Xh Hb. replace (1 * product k v w + -1 * h) with (product k v w - h) by ring. 
  apply mul_sub64; try assumption; [apply Hx|apply Hy|apply Hz].
Qed.
Lemma approx_sub_mul : Rabs (c - a * b) <= D -> approx (sub_mul k z x y) (c - a * b) D (E + g + (D + (E + g) * U) / 2 + tiny).
Proof.
  intros HD. replace (c - a * b) with (-1 * (a * b) + 1 * c) in * by ring. apply approx_fused; [|rewrite Rabs_left; lra|rewrite Rabs_R1; lra|assumption].
  intros v w Xv Xw h Xh Hb. replace (-1 * product k v w + 1 * h) with (h - product k v w) by ring. 
  apply sub_mul64; try assumption; [apply Hx|apply Hy|apply Hz].
Qed.
Lemma approx_add_mul : Rabs (c + a * b) <= D -> approx (add_mul k z x y) (c + a * b) D (E + g + (D + (E + g) * U) / 2 + tiny).
Proof.
  intros HD. replace (c + a * b) with (1 * (a * b) + 1 * c) in * by ring. apply approx_fused; [|rewrite Rabs_R1; lra|rewrite Rabs_R1; lra|assumption].
  intros v w Xv Xw h Xh Hb. replace (1 * product k v w + 1 * h) with (h + product k v w) by ring. 
  apply add_mul64; try assumption; [apply Hx|apply Hy|apply Hz].
Qed.
End Fused.

(** Constants. *)
Lemma approx_ratio s n d B : (IZR (Zpos n) / IZR (Zpos d) <= B)%R -> B <= 10 ^ 15 ->
  approx (of_ratio prec64 emax64 s n d) ((if s then -1 else 1) * (IZR (Zpos n) / IZR (Zpos d))) B (B / 2 + tiny).
Proof.
  intros HB Hm. assert (P : 0 < IZR (Zpos n) / IZR (Zpos d)) by (apply Rdiv_lt_0_compat; apply IZR_lt; lia).
  eapply approx_weak; [apply (result_approx _ _ _ B B 0 (ratio_result prec64 emax64 _ _ s n d))| |]; try lra.
  - destruct s; [rewrite Rabs_left by lra|rewrite Rabs_pos_eq by lra]; lra.
  - rewrite Rminus_eq_0, Rabs_R0. lra.
Qed.

Lemma approx_lit m k B : (Z.abs m <> 0)%Z -> (0 <= k)%Z -> Rabs (IZR m / IZR (10 ^ k)) <= B -> B <= 10 ^ 15 ->
  approx (f64_lit m (- k)) (IZR m / IZR (10 ^ k)) B (B / 2 + tiny).
Proof.
  intros Hm Hk HB HM. unfold f64_lit, of_decimal.
  assert (Ht : (0 < 10 ^ k)%Z) by (apply Z.pow_pos_nonneg; lia).
  destruct (Z.abs m) as [|p|p] eqn:Ep; [lia| |lia].
  assert (Em : IZR m = (if (m <? 0)%Z then -1 else 1) * IZR (Zpos p)).
  { destruct (Z.ltb_spec m 0); [replace m with (- Zpos p)%Z by lia; rewrite opp_IZR; lra|replace m with (Zpos p) by lia; lra]. }
  assert (E : IZR m / IZR (10 ^ k) = (if (m <? 0)%Z then -1 else 1) * (IZR (Zpos p) / IZR (Zpos (Z.to_pos (10 ^ k))))).
  { rewrite Z2Pos.id by assumption. rewrite Em. unfold Rdiv. ring. }
  assert (HB' : IZR (Zpos p) / IZR (Zpos (Z.to_pos (10 ^ k))) <= B).
  { eapply Rle_trans; [|exact HB]. rewrite E, Rabs_mult. 
    assert (0 < IZR (Zpos p) / IZR (Zpos (Z.to_pos (10 ^ k)))) by (apply Rdiv_lt_0_compat; apply IZR_lt; lia).
    rewrite (Rabs_pos_eq (_ / _)) by lra. destruct (m <? 0)%Z; [rewrite (Rabs_left (-1)) by lra|rewrite Rabs_R1]; lra. }
  rewrite E. destruct (Z.leb_spec 0 (- k)).
  - assert (k = 0)%Z by lia. subst k. cbn. replace (p * 1)%positive with p by lia. now apply approx_ratio.
  - rewrite Z.opp_involutive. now apply approx_ratio.
Qed.

Lemma pi_bounds : Rabs (PI - 3.14159265358979323846) <= / 10 ^ 18.
Proof.
  destruct (PI_2_3_7_ineq 9) as [H1 H2]. change (S (2 * 9)) with 19%nat in H1. change (2 * 9)%nat with 18%nat in H2.
  unfold tg_alt, PI_2_3_7_tg, Ratan_seq in H1, H2. cbn [sum_f_R0 Nat.mul Nat.add pow] in H1, H2.
  simpl INR in H1, H2. apply Rabs_le. split; lra.
Qed.

Lemma u_lower : / 10 ^ 16 <= u.
Proof.
  unfold u. change (bpow radix2 (-52)) with (/ IZR (2 ^ 52)). apply Rinv_le_contravar; change (2 ^ 52)%Z with 4503599627370496%Z; lra.
Qed.

(** A multiple of pi computed from the constant math.Pi. *)
Lemma approx_pi d B : 4 / IZR (Zpos d) <= B -> B <= 10 ^ 15 ->
  approx (of_ratio prec64 emax64 false pi_num (d * pi_den)) (PI / IZR (Zpos d)) B (B + tiny).
Proof.
  intros HB HM. pose proof pi_bounds as Hp. apply Rabs_le_inv in Hp. 
  assert (Pd : 1 <= IZR (Zpos d)) by (apply IZR_le; lia).
  assert (Ei : 0 < / IZR (Zpos d) <= 1).
  { split; [apply Rinv_0_lt_compat; lra|]. rewrite <- Rinv_1. apply Rinv_le_contravar; lra. }
  set (q := IZR (Zpos pi_num) / IZR (Zpos pi_den)).
  assert (Hq : Rabs (q - 3.14159265358979323846) <= / 10 ^ 18).
  { unfold q, pi_num, pi_den. apply Rabs_le. split; lra. }
  apply Rabs_le_inv in Hq.
  assert (E : IZR (Zpos pi_num) / IZR (Zpos (d * pi_den)) = q * / IZR (Zpos d)).
  { unfold q. rewrite Pos2Z.inj_mul, mult_IZR. field. split; [lra|]. apply IZR_neq. discriminate. }
  unfold Rdiv in HB. pose proof (Rmult_le_compat_r (/ IZR (Zpos d)) PI 4 ltac:(lra) ltac:(lra)) as L1.
  pose proof (Rmult_le_compat_r (/ IZR (Zpos d)) q 4 ltac:(lra) ltac:(lra)) as L2.
  pose proof (approx_ratio false pi_num (d * pi_den) B) as H. rewrite E, Rmult_1_l in H.
  destruct (H ltac:(lra) HM) as (Hv & _ & _ & v & Xv & Dv).
  split; [assumption|]. assert (PB : 0 <= B).
  { apply Rle_trans with (4 * / IZR (Zpos d)); [|assumption]. lra. }
  split; [unfold tiny; lra|]. split.
  { unfold Rdiv. rewrite Rabs_pos_eq; [lra|]. apply Rmult_le_pos; lra. }
  exists v. split; [assumption|]. replace (v - PI / IZR (Zpos d)) with ((v - q * / IZR (Zpos d)) + (q - PI) * / IZR (Zpos d)) by (unfold Rdiv; ring).
  eapply Rle_trans; [apply Rabs_triang|]. rewrite Rabs_mult, (Rabs_pos_eq (/ _)) by lra.
  assert (Rabs (q - PI) <= 2 * / 10 ^ 18) by (apply Rabs_le; lra).
  assert (Rabs (q - PI) * / IZR (Zpos d) <= 2 * / 10 ^ 18 * / IZR (Zpos d)) by (apply Rmult_le_compat_r; lra).
  assert (2 * / 10 ^ 18 * / IZR (Zpos d) <= B / 2 * u).
  { apply Rle_trans with (B / 2 * / 10 ^ 16); [|apply Rmult_le_compat_l; [lra|apply u_lower]]. lra. }
  replace ((B + tiny) * u) with ((B / 2 + tiny) * u + B / 2 * u) by field. lra.
Qed.

Lemma approx_int n B : (0 < Z.abs n <= 2 ^ 53)%Z -> Rabs (IZR n) <= B -> approx (f64_of_int n) (IZR n) B 0.
Proof. intros Hn HB. destruct (of_int_value64 n ltac:(lia)). now apply approx_of_value. Qed.

(** * Smoothness of the mathematical functions *)
Lemma sin_small x : Rabs (sin x) <= Rabs x.
Proof.
  destruct (Rle_or_lt 0 x) as [H|H].
  - rewrite (Rabs_pos_eq x H). destruct (Rle_or_lt x 1) as [H1|H1].
    + pose proof PI2_3_2. destruct (Req_dec x 0) as [->|Hx]; [rewrite sin_0, Rabs_R0; lra|].
      pose proof (sin_lt_x x ltac:(lra)). pose proof (sin_ge_0 x H ltac:(lra)). rewrite Rabs_pos_eq; lra.
    + pose proof (SIN_bound x). apply Rabs_le. lra.
  - rewrite (Rabs_left x H). rewrite <- (Ropp_involutive x) at 1. rewrite sin_neg, Rabs_Ropp.
    destruct (Rle_or_lt (- x) 1) as [H1|H1].
    + pose proof PI2_3_2. pose proof (sin_lt_x (- x) ltac:(lra)). pose proof (sin_ge_0 (- x) ltac:(lra) ltac:(lra)). rewrite Rabs_pos_eq; lra.
    + pose proof (SIN_bound (- x)). apply Rabs_le. lra.
Qed.
Lemma sin_lip a b : Rabs (sin a - sin b) <= Rabs (a - b).
Proof.
  rewrite form4. rewrite !Rabs_mult, (Rabs_pos_eq 2) by lra.
  pose proof (sin_small ((a - b) / 2)) as H. replace (Rabs ((a - b) / 2)) with (Rabs (a - b) / 2) in H.
  2:{ unfold Rdiv. rewrite Rabs_mult, (Rabs_pos_eq (/ 2)) by lra. reflexivity. }
  pose proof (COS_bound ((a + b) / 2)) as [C1 C2]. assert (Rabs (cos ((a + b) / 2)) <= 1) by (apply Rabs_le; lra).
  pose proof (Rabs_pos (cos ((a + b) / 2))). pose proof (Rabs_pos (sin ((a - b) / 2))). nra.
Qed.
Lemma cos_lip a b : Rabs (cos a - cos b) <= Rabs (a - b).
Proof.
  rewrite !cos_sin. replace (a - b) with ((PI / 2 + a) - (PI / 2 + b)) by ring. apply sin_lip.
Qed.

Lemma cos_quarter a : 0 <= a <= PI / 4 -> 0.707 <= cos a.
Proof.
  intros H. pose proof PI_RGT_0. apply Rle_trans with (cos (PI / 4)); [|apply cos_decr_1; lra].
  rewrite cos_PI4. assert (sqrt 2 <= 1.4143).
  { apply Rsqr_incr_0_var; [|lra]. unfold Rsqr. rewrite sqrt_sqrt by lra. lra. }
  assert (0 < sqrt 2) by (apply sqrt_lt_R0; lra).
  unfold Rdiv. rewrite Rmult_1_l. apply Rle_trans with (/ 1.4143); [lra|]. apply Rinv_le_contravar; assumption.
Qed.
Lemma tan_lip a v : 0 <= a <= PI / 4 -> Rabs (v - a) <= 0.0001 -> Rabs (tan v - tan a) <= 2.1 * Rabs (v - a).
Proof.
  intros H Hv. pose proof (cos_quarter a H) as Ca. pose proof (cos_lip v a) as L. pose proof (Rabs_le_inv _ _ (Rle_trans _ _ _ L Hv)) as Cv.
  rewrite tan_diff by lra. unfold Rdiv. rewrite Rabs_mult. pose proof (sin_small (v - a)) as Hs.
  assert (P : 0.49 <= cos v * cos a) by nra. 
  rewrite (Rabs_pos_eq (/ _)) by (left; apply Rinv_0_lt_compat; lra).
  rewrite Rmult_comm. apply Rmult_le_compat; [left; apply Rinv_0_lt_compat; lra|apply Rabs_pos| |assumption].
  apply Rle_trans with (/ 0.49); [apply Rinv_le_contravar; lra|lra].
Qed.

Lemma ln_le x : 0 < x -> ln x <= x - 1.
Proof. intros H. pose proof (exp_ineq1_le (ln x)) as E. rewrite exp_ln in E by assumption. lra. Qed.
Lemma ln_ge x : 0 < x -> 1 - / x <= ln x.
Proof. intros H. pose proof (ln_le (/ x) ltac:(now apply Rinv_0_lt_compat)) as E. rewrite ln_Rinv in E by assumption. lra. Qed.
Lemma ln_lip L a v : 0 < L -> L <= a -> L <= v -> Rabs (ln v - ln a) <= Rabs (v - a) / L.
Proof.
  intros HL. assert (S : forall a v, L <= a -> a <= v -> Rabs (ln v - ln a) <= Rabs (v - a) / L).
  { clear a v. intros a v Ha Hv. rewrite !Rabs_pos_eq; [|lra|].
    2:{ destruct (Req_dec a v) as [->|]; [lra|]. assert (ln a < ln v) by (apply ln_increasing; lra). lra. }
    unfold Rminus at 1. rewrite <- ln_Rinv, <- ln_mult; [|lra|apply Rinv_0_lt_compat; lra|lra].
    eapply Rle_trans; [apply ln_le; apply Rmult_lt_0_compat; [lra|apply Rinv_0_lt_compat; lra]|].
    replace (v * / a - 1) with ((v - a) * / a) by (field; lra). apply Rmult_le_compat_l; [lra|]. apply Rinv_le_contravar; assumption. }
  intros Ha Hv. destruct (Rle_or_lt a v); [now apply S|]. rewrite Rabs_minus_sym, (Rabs_minus_sym v). apply S; lra.
Qed.
Lemma exp_lip K p q : exp p <= K -> exp q <= K -> Rabs (exp p - exp q) <= K * Rabs (p - q).
Proof.
  assert (S : forall p q, exp p <= K -> q <= p -> Rabs (exp p - exp q) <= K * Rabs (p - q)).
  { clear p q. intros p q Hp Hq. rewrite !Rabs_pos_eq; [|lra|].
    2:{ destruct (Req_dec p q) as [->|]; [lra|]. assert (exp q < exp p) by (apply exp_increasing; lra). lra. }
    replace (exp q) with (exp p * exp (- (p - q))) by (rewrite <- exp_plus; f_equal; ring).
    pose proof (exp_ineq1_le (- (p - q))). pose proof (exp_pos p). nra. }
  intros Hp Hq. destruct (Rle_or_lt q p); [now apply S|]. rewrite Rabs_minus_sym, (Rabs_minus_sym p). apply S; lra.
Qed.

Lemma pow_lip a b v w d h : 0.8 <= a <= 1 -> 0 <= b <= 0.1 -> Rabs (v - a) <= d -> Rabs (w - b) <= h -> d <= 0.0001 -> h <= 0.0001 ->
  Rabs (Rpower v w - Rpower a b) <= 0.4 * h + 0.2 * d.
Proof.
  intros Ha Hb Hv Hw Hd Hh. pose proof (Rabs_le_inv _ _ Hv) as Iv. pose proof (Rabs_le_inv _ _ Hw) as Iw.
  pose proof (Rabs_pos (v - a)) as Pv. pose proof (Rabs_pos (w - b)) as Pw.
  assert (L1 : -0.26 <= ln v <= 0.001).
  { pose proof (ln_le v ltac:(lra)). pose proof (ln_ge v ltac:(lra)). 
    assert (/ v <= / 0.799) by (apply Rinv_le_contravar; lra). lra. }
  assert (L2 : -0.26 <= ln a <= 0).
  { pose proof (ln_le a ltac:(lra)). pose proof (ln_ge a ltac:(lra)). 
    assert (/ a <= / 0.8) by (apply Rinv_le_contravar; lra). lra. }
  pose proof (ln_lip 0.79 a v ltac:(lra) ltac:(lra) ltac:(lra)) as Hl.
  assert (EK : forall p, p <= 0.1 -> exp p <= 1.2).
  { intros p Hp. pose proof (exp_ineq1_le (- p)) as E. rewrite exp_Ropp in E. pose proof (exp_pos p) as P.
    apply Rmult_le_reg_r with (/ exp p); [now apply Rinv_0_lt_compat|]. rewrite Rinv_r by lra. nra. }
  unfold Rpower. eapply Rle_trans; [apply (exp_lip 1.2); apply EK; nra|].
  assert (Rabs (w * ln v - b * ln a) <= 0.26 * h + 0.1 * (d / 0.79)).
  { replace (w * ln v - b * ln a) with ((w - b) * ln v + b * (ln v - ln a)) by ring.
    eapply Rle_trans; [apply Rabs_triang|]. rewrite !Rabs_mult, (Rabs_pos_eq b) by lra. apply Rplus_le_compat.
    - rewrite (Rmult_comm 0.26). apply Rmult_le_compat; [assumption|apply Rabs_pos|assumption|]. apply Rabs_le. lra.
    - apply Rmult_le_compat; [lra|apply Rabs_pos|lra|]. eapply Rle_trans; [exact Hl|]. unfold Rdiv. apply Rmult_le_compat_r; lra. }
  lra.
Qed.

(** * Calls of an accurate math library *)
Section Lib.
Variable M : mathlib.
Hypothesis HM : accurate_library (16 * u) M.

Lemma approx_call (g : R -> R) (y : f64) a v e k : 0 <= e -> 0 <= k -> within (16 * u) y (g v) ->
  Rabs (g v - g a) <= k * Rabs (v - a) -> Rabs (v - a) <= e * u -> Rabs (g a) <= 1 -> approx y (g a) 1 (k * e + 16).
Proof.
  intros He Hk (Vy & r & Xr & Dr) Hg Hv Hb. pose proof u_small. split; [assumption|].
  assert (0 <= k * e) by (apply Rmult_le_pos; lra). split; [lra|].
  split; [assumption|]. exists r. split; [assumption|].
  replace (r - g a) with ((r - g v) + (g v - g a)) by ring. eapply Rle_trans; [apply Rabs_triang|].
  assert (k * Rabs (v - a) <= k * (e * u)) by (apply Rmult_le_compat_l; assumption). lra.
Qed.

Lemma value_range a v e A B : Rabs a <= A -> 0 <= e -> Rabs (v - a) <= e * u -> A + e * U <= B -> Rabs v <= B.
Proof.
  intros Ha He Hv HB. replace v with (a + (v - a)) by ring. eapply Rle_trans; [apply Rabs_triang|].
  pose proof u_small. assert (e * u <= e * U) by (apply Rmult_le_compat_l; unfold U; lra). lra.
Qed.

Lemma approx_sin x a A e : approx x a A e -> A + e * U <= 4 -> approx (m_sin M x) (sin a) 1 (e + 16).
Proof.
  intros (Vx & He & HA & v & Xv & Dv) H4. destruct HM as (H & _ & _ & _).
  eapply approx_weak; [apply (approx_call sin _ a v e 1); try lra|lra|lra].
  - apply H; [assumption|assumption|]. now apply (value_range a v e A).
  - rewrite Rmult_1_l. apply sin_lip.
  - apply Rabs_le. pose proof (SIN_bound a). lra.
Qed.
Lemma approx_cos x a A e : approx x a A e -> A + e * U <= 4 -> approx (m_cos M x) (cos a) 1 (e + 16).
Proof.
  intros (Vx & He & HA & v & Xv & Dv) H4. destruct HM as (_ & H & _ & _).
  eapply approx_weak; [apply (approx_call cos _ a v e 1); try lra|lra|lra].
  - apply H; [assumption|assumption|]. now apply (value_range a v e A).
  - rewrite Rmult_1_l. apply cos_lip.
  - apply Rabs_le. pose proof (COS_bound a). lra.
Qed.
Lemma small_err e v a : 0 <= e -> e <= 10 ^ 6 -> Rabs (v - a) <= e * u -> Rabs (v - a) <= 0.0001.
Proof.
  intros H1 H2 H. eapply Rle_trans; [exact H|]. pose proof u_small. apply Rle_trans with (10 ^ 6 * / 10 ^ 15); [|lra].
  apply Rmult_le_compat; lra.
Qed.
Lemma approx_tan x a A e : approx x a A e -> 0 <= a <= PI / 4 -> e <= 10 ^ 6 -> approx (m_tan M x) (tan a) 1 (2.1 * e + 16).
Proof.
  intros (Vx & He & HA & v & Xv & Dv) Ha Hm. destruct HM as (_ & _ & H & _).
  pose proof (small_err e v a He Hm Dv) as Sv. pose proof (Rabs_le_inv _ _ Sv) as Sv'. pose proof (Rabs_le_inv _ _ pi_bounds).
  apply (approx_call tan _ a v e 2.1); try lra.
  - apply H; [assumption|assumption|]. apply Rabs_le. lra.
  - now apply tan_lip.
  - assert (H1 : cos a <> 0) by (pose proof (cos_quarter a Ha); lra).
    assert (0 <= tan a).
    { destruct (Req_dec a 0) as [->|Hn]; [rewrite tan_0; lra|]. left. apply tan_gt_0; lra. }
    rewrite Rabs_pos_eq by assumption. rewrite <- tan_PI4. destruct (Req_dec a (PI / 4)) as [->|Hn]; [lra|]. left. apply tan_increasing; lra.
Qed.
Lemma approx_pow x y a b A B e f : approx x a A e -> approx y b B f -> 0.8 <= a <= 1 -> 0 <= b <= 0.1 -> e <= 10 ^ 6 -> f <= 10 ^ 6 ->
  approx (m_pow M x y) (Rpower a b) 1 (0.4 * f + 0.2 * e + 16).
Proof.
  intros (Vx & He & HA & v & Xv & Dv) (Vy & Hf & HB & w & Xw & Dw) Ha Hb Me Mf. destruct HM as (_ & _ & _ & H).
  pose proof (small_err e v a He Me Dv) as Sv. pose proof (Rabs_le_inv _ _ Sv) as Sv'.
  pose proof (small_err f w b Hf Mf Dw) as Sw. pose proof (Rabs_le_inv _ _ Sw) as Sw'.
  destruct (H x y v w Vx Vy Xv Xw ltac:(lra) ltac:(apply Rabs_le; lra)) as (V & r & Xr & Dr).
  split; [assumption|]. split; [lra|]. split.
  - unfold Rpower. rewrite Rabs_pos_eq by (left; apply exp_pos). rewrite <- exp_0. pose proof (ln_le a ltac:(lra)).
    destruct (Req_dec (b * ln a) 0) as [->|Hn]; [lra|]. left. apply exp_increasing. nra.
  - exists r. split; [assumption|]. replace (r - Rpower a b) with ((r - Rpower v w) + (Rpower v w - Rpower a b)) by ring.
    eapply Rle_trans; [apply Rabs_triang|].
    pose proof (pow_lip a b v w (e * u) (f * u) Ha Hb Dv Dw) as P.
    assert (Mx : 10 ^ 6 * u <= 0.0001) by (pose proof u_small; lra). pose proof u_small.
    assert (e * u <= 10 ^ 6 * u) by (apply Rmult_le_compat_r; lra). assert (f * u <= 10 ^ 6 * u) by (apply Rmult_le_compat_r; lra).
    specialize (P ltac:(lra) ltac:(lra)). lra.
Qed.
End Lib.
