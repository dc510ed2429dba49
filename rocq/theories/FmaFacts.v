(** Fused multiply-add: correctness of [f64_fma] and of the operations that may
    be fused. *)
From Coq Require Import Reals Lia Lra Psatz.
From Flocq Require Import Core Relative BinarySingleNaN.
From Verif Require Import GoBase GoFloat SpecReal BaseFacts FloatFacts PropFloat.
Local Open Scope Z_scope.

(** * Validity of float64 results *)
Lemma valid_mul x y : valid64 x -> valid64 y -> valid64 (f64_mul x y).
Proof.
  intros Hx Hy. destruct (lift prec64 emax64 x Hx) as [a ->]. destruct (lift prec64 emax64 y Hy) as [b ->].
  unfold valid64, f64_mul. rewrite (mul_equiv prec64 emax64 _ _). apply valid_binary_B2SF.
Qed.
Lemma valid_add x y : valid64 x -> valid64 y -> valid64 (f64_add x y).
Proof.
  intros Hx Hy. destruct (lift prec64 emax64 x Hx) as [a ->]. destruct (lift prec64 emax64 y Hy) as [b ->].
  unfold valid64, f64_add. rewrite (add_equiv prec64 emax64 _ _). apply valid_binary_B2SF.
Qed.
Lemma valid_sub x y : valid64 x -> valid64 y -> valid64 (f64_sub x y).
Proof.
  intros Hx Hy. destruct (lift prec64 emax64 x Hx) as [a ->]. destruct (lift prec64 emax64 y Hy) as [b ->].
  unfold valid64, f64_sub. rewrite (sub_equiv prec64 emax64 _ _). apply valid_binary_B2SF.
Qed.
Lemma valid_div x y : valid64 x -> valid64 y -> valid64 (f64_div x y).
Proof.
  intros Hx Hy. destruct (lift prec64 emax64 x Hx) as [a ->]. destruct (lift prec64 emax64 y Hy) as [b ->].
  unfold valid64, f64_div. rewrite (div_equiv prec64 emax64 _ _). apply valid_binary_B2SF.
Qed.
Lemma valid_of_int n : valid64 (f64_of_int n).
Proof. pose proof (normalize_result prec64 emax64 _ _ n 0 false) as H. exact (proj1 H). Qed.
Lemma valid_opp x : valid64 x -> valid64 (SFopp x).
Proof. destruct x; exact (fun H => H). Qed.
Lemma opp_value x a : is_value x a -> is_value (SFopp x) (- a).
Proof.
  destruct x as [s|s| |s m e]; cbn; auto.
  - intros ->. lra.
  - intros ->. destruct s; cbn; lra.
Qed.

Lemma valid_fma x y z : valid64 x -> valid64 y -> valid64 z -> valid64 (f64_fma x y z).
Proof.
  intros Hx Hy Hz. assert (H : valid64 (f64_add (f64_mul x y) z)) by (apply valid_add; [now apply valid_mul|assumption]).
  unfold f64_fma. destruct x as [s1|s1| |s1 m1 e1]; try exact H. destruct y as [s2|s2| |s2 m2 e2]; try exact H.
  destruct z as [s3|s3| |s3 m3 e3]; try exact Hz; [now apply valid_mul|].
  exact (proj1 (normalize_result prec64 emax64 _ _ _ _ false)).
Qed.

(** One rounding of x*y + z. *)
Lemma fma64 x y z a b c : valid64 x -> valid64 y -> valid64 z -> is_value x a -> is_value y b -> is_value z c ->
  result64 (f64_fma x y z) (a * b + c).
Proof.
  intros Vx Vy Vz Hx Hy Hz.
  assert (Zr : a = 0%R \/ b = 0%R -> result64 (f64_add (f64_mul x y) z) (a * b + c)).
  { intros H. assert (E : (a * b = 0)%R) by (destruct H as [-> | ->]; ring). apply add64; [now apply valid_mul|assumption| |assumption].
    pose proof (mul64 x y a b Vx Vy Hx Hy) as R. rewrite E in *. eapply result_exact; [exact R|apply generic_format_0|].
    rewrite Rabs_R0. apply bpow_gt_0. }
  unfold f64_fma. destruct x as [s1|s1| |s1 m1 e1]; try (destruct Hx; fail); [apply Zr; now left|].
  destruct y as [s2|s2| |s2 m2 e2]; try (destruct Hy; fail); [apply Zr; now right|].
  destruct z as [s3|s3| |s3 m3 e3]; try (destruct Hz; fail).
  - cbn in Hz. subst c. rewrite Rplus_0_r. now apply mul64.
  - cbn in Hx, Hy, Hz. set (e := Z.min (e1 + e2) e3).
    set (M := (cond_Zopp (xorb s1 s2) (Zpos (m1 * m2)) * 2 ^ (e1 + e2 - e) + cond_Zopp s3 (Zpos m3) * 2 ^ (e3 - e))).
    pose proof (normalize_result prec64 emax64 _ _ M e false) as R.
    replace (a * b + c)%R with (F2R (Float radix2 M e)); [exact R|].
    unfold F2R. cbn [Fnum Fexp]. unfold M. rewrite plus_IZR, !mult_IZR.
    assert (P : forall k, e <= k -> (IZR (2 ^ (k - e)) * bpow radix2 e = powerRZ 2 k)%R).
    { intros k Hk. rewrite (IZR_Zpower radix2) by lia. rewrite <- bpow_plus, bpow_powerRZ. f_equal. lia. }
    assert (S : forall s p, IZR (cond_Zopp s (Zpos p)) = ((if s then -1 else 1) * IZR (Zpos p))%R).
    { intros s p. destruct s; cbn [cond_Zopp]; [rewrite Ropp_Ropp_IZR|]; lra. }
    rewrite Rmult_plus_distr_r, (Rmult_assoc (IZR (cond_Zopp (xorb s1 s2) _))), P by lia.
    rewrite (Rmult_assoc (IZR (cond_Zopp s3 _))), P by lia.
    rewrite !S, Pos2Z.inj_mul, mult_IZR. subst a b c. rewrite powerRZ_add by lra. destruct s1, s2, s3; cbn [xorb]; ring.
Qed.

(** * Operations that may be fused *)
Lemma valid_mul_sub k x y z : valid64 x -> valid64 y -> valid64 z -> valid64 (mul_sub k x y z).
Proof. intros. unfold mul_sub. destruct k; [apply valid_fma; auto using valid_opp|]. apply valid_sub; [now apply valid_mul|assumption]. Qed.
Lemma valid_sub_mul k x y z : valid64 x -> valid64 y -> valid64 z -> valid64 (sub_mul k x y z).
Proof. intros. unfold sub_mul. destruct k; [apply valid_fma; auto using valid_opp|]. apply valid_sub; [assumption|now apply valid_mul]. Qed.
Lemma valid_add_mul k x y z : valid64 x -> valid64 y -> valid64 z -> valid64 (add_mul k x y z).
Proof. intros. unfold add_mul. destruct k; [now apply valid_fma|]. apply valid_add; [assumption|now apply valid_mul]. Qed.
Lemma valid_mul_add k x y z : valid64 x -> valid64 y -> valid64 z -> valid64 (mul_add k x y z).
Proof. intros. unfold mul_add. destruct k; [now apply valid_fma|]. apply valid_add; [now apply valid_mul|assumption]. Qed.

(** The product that enters the sum: exact if fused, else rounded. *)
Definition product (k : bool) (a b : R) : R := if k then (a * b)%R else rnd64 (a * b).

Section Values.
Variables (k : bool) (x y z : f64) (a b c : R).
Hypotheses (Vx : valid64 x) (Vy : valid64 y) (Vz : valid64 z) (Hx : is_value x a) (Hy : is_value y b) (Hz : is_value z c).
Hypothesis (B : (Rabs (rnd64 (a * b)) < bpow radix2 emax64)%R).

Lemma mul_value : is_value (f64_mul x y) (rnd64 (a * b)).
Proof. exact (result_value _ _ _ _ (mul64 x y a b Vx Vy Hx Hy) B). Qed.
Lemma mul_sub64 : result64 (mul_sub k x y z) (product k a b - c).
Proof.
  unfold mul_sub, product. destruct k.
  - replace (a * b - c)%R with (a * b + - c)%R by ring. apply fma64; auto using valid_opp, opp_value.
  - apply sub64; auto using valid_mul, mul_value.
Qed.
Lemma sub_mul64 : result64 (sub_mul k z x y) (c - product k a b).
Proof.
  unfold sub_mul, product. destruct k.
  - replace (c - a * b)%R with (- a * b + c)%R by ring. apply fma64; auto using valid_opp, opp_value.
  - apply sub64; auto using valid_mul, mul_value.
Qed.
Lemma add_mul64 : result64 (add_mul k z x y) (c + product k a b).
Proof.
  unfold add_mul, product. destruct k.
  - rewrite Rplus_comm. now apply fma64.
  - apply add64; auto using valid_mul, mul_value.
Qed.
Lemma mul_add64 : result64 (mul_add k x y z) (product k a b + c).
Proof.
  unfold mul_add, product. destruct k.
  - now apply fma64.
  - apply add64; auto using valid_mul, mul_value.
Qed.
End Values.
