(** Numeric properties of the decoders: C11 (never NaN), C12, C13, C14, C39. *)
From Coq Require Import Reals Lia Lra Psatz.
From Flocq Require Import Core Relative BinarySingleNaN.
From Verif Require Import GoBase GoFloat Catalog Composite Data Spec SpecReal BaseFacts RecordFacts CalendarFacts PropFile FloatFacts.
Local Open Scope Z_scope.

#[global] Instance prec32_pos : Prec_gt_0 prec32. Proof. reflexivity. Qed.
#[global] Instance prec32_max : Prec_lt_emax prec32 emax32. Proof. reflexivity. Qed.
#[global] Instance prec64_pos : Prec_gt_0 prec64. Proof. reflexivity. Qed.
#[global] Instance prec64_max : Prec_lt_emax prec64 emax64. Proof. reflexivity. Qed.

Definition rnd32 : R -> R := round radix2 (FLT_exp (3 - emax32 - prec32) prec32) ZnearestE.
Definition result32 := result prec32 emax32.
Definition rnd64 : R -> R := round radix2 (FLT_exp (3 - emax64 - prec64) prec64) ZnearestE.
Definition result64 := result prec64 emax64.
Definition format32 : R -> Prop := generic_format radix2 (FLT_exp (3 - emax32 - prec32) prec32).
Definition format64 : R -> Prop := generic_format radix2 (FLT_exp (3 - emax64 - prec64) prec64).


(** The operations, specialised. *)
Section Ops.
Local Notation "'OK' L" := (L _ _ _ _) (at level 10, only parsing).
Lemma mul32 x y a b : valid32 x -> valid32 y -> is_value x a -> is_value y b -> result32 (f32_mul x y) (a * b).
Proof. exact (OK mul_result x y a b). Qed.
Lemma add32 x y a b : valid32 x -> valid32 y -> is_value x a -> is_value y b -> result32 (f32_add x y) (a + b).
Proof. exact (OK add_result x y a b). Qed.
Lemma sub32 x y a b : valid32 x -> valid32 y -> is_value x a -> is_value y b -> result32 (f32_sub x y) (a - b).
Proof. exact (OK sub_result x y a b). Qed.
Lemma div32 x y a b : valid32 x -> valid32 y -> is_value x a -> is_value y b -> b <> 0%R -> result32 (f32_div x y) (a / b).
Proof. exact (OK div_result x y a b). Qed.
Lemma mul64 x y a b : valid64 x -> valid64 y -> is_value x a -> is_value y b -> result64 (f64_mul x y) (a * b).
Proof. exact (OK mul_result x y a b). Qed.
Lemma add64 x y a b : valid64 x -> valid64 y -> is_value x a -> is_value y b -> result64 (f64_add x y) (a + b).
Proof. exact (OK add_result x y a b). Qed.
Lemma sub64 x y a b : valid64 x -> valid64 y -> is_value x a -> is_value y b -> result64 (f64_sub x y) (a - b).
Proof. exact (OK sub_result x y a b). Qed.
Lemma div64 x y a b : valid64 x -> valid64 y -> is_value x a -> is_value y b -> b <> 0%R -> result64 (f64_div x y) (a / b).
Proof. exact (OK div_result x y a b). Qed.
End Ops.

(** * C39 *)
Theorem C39_isnan f : IsNaN f = true <-> (~ finite f /\ forall s, f <> S754_infinity s).
Proof.
  assert (H : IsNaN f = true <-> f = S754_nan).
  { unfold IsNaN, f_eq, SFeqb. destruct f as [s|s| |s m e]; cbn; try (split; discriminate).
    - destruct s; split; discriminate.
    - split; reflexivity.
    - rewrite Z.compare_refl. destruct s; rewrite Pos.compare_cont_refl; split; discriminate. }
  rewrite H. split.
  - intros ->. split; [intros [r []]|discriminate].
  - intros [H1 H2]. destruct f as [s|s| |s m e]; [|now destruct (H2 s)|reflexivity|]; exfalso; apply H1; eexists; reflexivity.
Qed.

(** * Integers *)
Lemma F2R_int n : F2R (Float radix2 n 0) = IZR n.
Proof. unfold F2R. cbn. now rewrite Rmult_1_r. Qed.

Lemma of_int_value32 n : Z.abs n <= 2 ^ 24 -> valid32 (f32_of_int n) /\ is_value (f32_of_int n) (IZR n).
Proof.
  intros H. pose proof (normalize_result prec32 emax32 _ _ n 0 false) as Hr. rewrite F2R_int in Hr.
  split; [exact (proj1 Hr)|]. eapply result_exact; [exact Hr| |].
  - apply int_format; [exact _|unfold emax32, prec32, emax64, prec64; lia|exact H].
  - rewrite <- abs_IZR. change (bpow radix2 emax32) with (IZR (2 ^ 128)). apply IZR_lt. lia.
Qed.
Lemma of_int_value64 n : Z.abs n <= 2 ^ 53 -> valid64 (f64_of_int n) /\ is_value (f64_of_int n) (IZR n).
Proof.
  intros H. pose proof (normalize_result prec64 emax64 _ _ n 0 false) as Hr. rewrite F2R_int in Hr.
  split; [exact (proj1 Hr)|]. eapply result_exact; [exact Hr| |].
  - apply int_format; [exact _|unfold emax32, prec32, emax64, prec64; lia|exact H].
  - rewrite <- abs_IZR. change (bpow radix2 emax64) with (IZR (2 ^ 1024)). apply IZR_lt. lia.
Qed.

(** * The scaling factor *)
Definition factor (p : Z) : f32 := f32_of_f64 (pow10 p).

(** Sign and validity, by computation over the finitely many exponents. *)
Definition factor_ok (p : Z) : bool :=
  let f := factor p in
  valid_binary prec32 emax32 f &&
  match f with
  | S754_zero _ => p <? -45
  | S754_finite false _ _ => (-46 <? p) && (p <? 39)
  | S754_infinity false => 38 <? p
  | _ => false
  end.
Lemma factor_ok_all p : factor_ok p = true.
Proof.
  destruct (Z_lt_dec p (-323)) as [H1|H1]; [|destruct (Z_lt_dec 308 p) as [H2|H2]].
  - unfold factor_ok, factor, pow10.
    destruct (Z.leb_spec 0 p); [lia|]. destruct (Z.leb_spec (-323) p); [lia|]. destruct (Z.ltb_spec 0 p); [lia|]. cbn.
    apply Z.ltb_lt. lia.
  - unfold factor_ok, factor, pow10.
    destruct (Z.leb_spec 0 p); [|lia]. destruct (Z.leb_spec p 308); [lia|]. destruct (Z.leb_spec (-323) p); [|lia].
    destruct (Z.leb_spec p 0); [lia|]. destruct (Z.ltb_spec 0 p); [|lia]. cbn. apply Z.ltb_lt. lia.
  - revert p H1 H2. assert (H : forall p, -323 <= p <= 308 -> factor_ok p = true); [|intros; apply H; lia].
    apply (range_check (-323) 308). vm_compute. reflexivity.
Qed.

Lemma factor_value p : p <= 38 -> exists q, valid32 (factor p) /\ is_value (factor p) q /\ (0 <= q)%R.
Proof.
  intros H. pose proof (factor_ok_all p) as Ho. unfold factor_ok in Ho. cbv zeta in Ho. apply andb_prop in Ho as [Hv Ho].
  destruct (factor p) as [s|s| |s m e].
  - exists 0%R. split; [assumption|]. split; [reflexivity|lra].
  - destruct s; [discriminate|]. apply Z.ltb_lt in Ho. lia.
  - discriminate.
  - destruct s; [discriminate|]. eexists. split; [assumption|]. split; [reflexivity|].
    pose proof (powerRZ_le 2 e ltac:(lra)). assert (0 < IZR (Z.pos m))%R by (apply IZR_lt; lia). nra.
Qed.

(** The scaling factor is finite exactly up to precision 38. *)
Theorem C14_finite_factor p : finite (f32_of_f64 (pow10 p)) <-> p <= 38.
Proof.
  split.
  - intros [r Hr]. pose proof (factor_ok_all p) as Ho. unfold factor_ok in Ho. cbv zeta in Ho. apply andb_prop in Ho as [Hv Ho].
    fold (factor p) in Hr. destruct (factor p) as [s|s| |s m e]; try destruct Hr.
    + apply Z.ltb_lt in Ho. lia.
    + destruct s; [discriminate|]. apply andb_prop in Ho as [_ Ho]. apply Z.ltb_lt in Ho. lia.
  - intros H. destruct (factor_value p H) as (q & _ & Hq & _). exists q. exact Hq.
Qed.

Definition raw (p v : Z) : f32 := f32_mul (f32_of_int v) (factor p).

Lemma raw_result p v : p <= 38 -> Z.abs v <= 2 ^ 24 ->
  exists q, is_value (factor p) q /\ (0 <= q)%R /\ result32 (raw p v) (IZR v * q).
Proof.
  intros Hp Hv. destruct (factor_value p Hp) as (q & H1 & H2 & H3). destruct (of_int_value32 v Hv) as [V1 V2].
  exists q. split; [assumption|]. split; [assumption|]. now apply mul32.
Qed.

(** * dBZ *)
Definition dbz (z : f32) : f32 := f32_sub (f32_div z (f32_of_int 2)) (f32_lit 325 (-1)).

Lemma scaled_value_eq p u v : scaled_value p u v = match u with Unit_dBZ => dbz (raw p v) | _ => raw p v end.
Proof. destruct u; reflexivity. Qed.

Lemma half_value : is_value (f32_lit 325 (-1)) 32.5.
Proof. change (f32_lit 325 (-1)) with (S754_finite false 8519680 (-18)). unfold is_value, powerRZ.
  change (Pos.to_nat 18) with 18%nat. simpl pow. lra. Qed.

Lemma half_bound a : (Rabs a < bpow radix2 emax32)%R -> (Rabs (rnd32 (a / 2)) < bpow radix2 emax32)%R.
Proof.
  intros H. 
  assert (Hb : (Rabs (a / 2) <= bpow radix2 (emax32 - 1))%R).
  { replace (bpow radix2 emax32) with (2 * bpow radix2 (emax32 - 1))%R in H.
    - unfold Rdiv. rewrite Rabs_mult, (Rabs_pos_eq (/ 2)) by lra. lra.
    - replace emax32 with (emax32 - 1 + 1) at 2 by lia. rewrite bpow_plus_1. reflexivity. }
  apply Rle_lt_trans with (bpow radix2 (emax32 - 1)); [|apply bpow_lt; lia].
  apply abs_round_le_generic; [apply FLT_exp_valid; exact _|apply valid_rnd_N| |assumption].
  apply generic_format_bpow. unfold FLT_exp, emax32, prec32. lia.
Qed.

Lemma half_result z a : valid32 z -> is_value z a -> result32 (f32_div z (f32_of_int 2)) (a / 2).
Proof.
  intros Hv Hz. destruct (of_int_value32 2 ltac:(lia)) as [V2 H2]. apply div32; [assumption|assumption|assumption|exact H2|lra].
Qed.

Lemma dbz_value z a : valid32 z -> is_value z a -> result32 (dbz z) (rnd32 (a / 2) - 32.5).
Proof.
  intros Hv Hz. pose proof (half_result z a Hv Hz) as Hr. unfold dbz. apply sub32.
  - exact (result_valid _ _ _ _ Hr).
  - vm_compute. reflexivity.
  - apply (result_value _ _ _ _ Hr). apply half_bound. exact (valid_bound _ _ _ _ Hv Hz).
  - apply half_value.
Qed.

Lemma dbz_inf s : dbz (S754_infinity s) = S754_infinity s.
Proof. destruct s; reflexivity. Qed.

(** A result is finite or an infinity. *)
Lemma result_cases z r : result32 z r -> (valid32 z /\ is_value z (rnd32 r)) \/ exists s, z = S754_infinity s.
Proof.
  intros [Hv H]. destruct (Rlt_bool _ _); [left|right; eauto]. split; [assumption|]. apply is_value_iff. intuition.
Qed.
Lemma result_not_nan z r : result32 z r -> z <> S754_nan.
Proof. intros H. destruct (result_cases z r H) as [[_ Hv]|[s ->]]; [|discriminate]. intros ->. destruct Hv. Qed.

Lemma scaled_not_nan p u v : p <= 38 -> Z.abs v <= 2 ^ 24 -> scaled_value p u v <> S754_nan.
Proof.
  intros Hp Hv. rewrite scaled_value_eq. destruct (raw_result p v Hp Hv) as (q & _ & _ & Hr).
  assert (Hn : raw p v <> S754_nan) by (eapply result_not_nan; eassumption).
  assert (Hd : dbz (raw p v) <> S754_nan).
  { destruct (result_cases _ _ Hr) as [[H1 H2]|[s ->]]; [|rewrite dbz_inf; discriminate].
    eapply result_not_nan. apply dbz_value; eassumption. }
  destruct u; assumption.
Qed.

(** * C11, C09: with a finite scaling factor only no-data is NaN. *)
Theorem C11_never_nan p u b : finite (f32_of_f64 (pow10 p)) -> IsNaN (rvp6_single_byte p u b) = true <-> bz b = 250.
Proof.
  rewrite C14_finite_factor. intros Hp. rewrite rvp6_single_byte_eq. unfold one_byte_value.
  assert (HN : forall f, IsNaN f = true <-> f = S754_nan).
  { intros f. rewrite C39_isnan. split.
    - intros [H1 H2]. destruct f as [s|s| |s m e]; [|now destruct (H2 s)|reflexivity|]; exfalso; apply H1; eexists; reflexivity.
    - intros ->. split; [intros [r []]|discriminate]. }
  rewrite HN. destruct (Z.eqb_spec (bz b) 250) as [->|Hn]; [split; reflexivity|].
  split; [|contradiction]. intros H. exfalso. revert H. apply scaled_not_nan; [assumption|]. pose proof (bz_range b). lia.
Qed.

Theorem C09_never_nan p u lo hi : finite (f32_of_f64 (pow10 p)) ->
  IsNaN (rvp6_little_endian p u lo hi) = true <-> Z.testbit (bz hi) 5 = true.
Proof.
  rewrite C14_finite_factor. intros Hp. rewrite rvp6_little_endian_eq. unfold two_byte_value.
  destruct (Z.testbit (bz hi) 5); [split; reflexivity|].
  split; [|discriminate]. intros H. exfalso. apply C39_isnan in H as [H1 H2].
  assert (Hs : scaled_value p u ((if Z.testbit (bz hi) 6 then -1 else 1) * (bz hi mod 16 * 256 + bz lo)) <> S754_nan).
  { apply scaled_not_nan; [assumption|]. pose proof (bz_range lo). pose proof (Z.mod_pos_bound (bz hi) 16 ltac:(lia)).
    destruct (Z.testbit (bz hi) 6); lia. }
  destruct (scaled_value _ _ _) as [s|s| |s m e]; [apply H1; eexists; reflexivity|now apply (H2 s)|now apply Hs|apply H1; eexists; reflexivity].
Qed.

(** * C14: order *)
Lemma inf_le (z : spec_float) : z <> S754_nan -> f_le z (S754_infinity false) = true /\ f_le (S754_infinity true) z = true /\
  (f_le (S754_infinity false) z = true -> z = S754_infinity false) /\
  (f_le z (S754_infinity true) = true -> z = S754_infinity true).
Proof. intros H. destruct z as [[]|[]| |[] m e]; repeat split; try reflexivity; try discriminate; congruence. Qed.

Theorem C14_monotone p u v w : finite (f32_of_f64 (pow10 p)) -> - 2 ^ 24 <= v -> v <= w -> w <= 2 ^ 24 ->
  f_le (scaled_value p u v) (scaled_value p u w) = true.
Proof.
  rewrite C14_finite_factor. intros Hp H1 Hle H2. rewrite !scaled_value_eq.
  destruct (raw_result p v Hp ltac:(lia)) as (q & Q1 & Q2 & Rv). destruct (raw_result p w Hp ltac:(lia)) as (q' & Q1' & _ & Rw).
  rewrite (is_value_fun _ _ _ Q1' Q1) in Rw. clear q' Q1'.
  assert (Hvw : (IZR v * q <= IZR w * q)%R) by (apply Rmult_le_compat_r; [assumption|apply IZR_le; lia]).
  assert (Hraw : f_le (raw p v) (raw p w) = true) by exact (result_mono _ _ _ _ _ _ _ Rv Rw Hvw).
  assert (Hd : f_le (dbz (raw p v)) (dbz (raw p w)) = true).
  { destruct (result_cases _ _ Rv) as [[A1 A2]|[s Hs]]; destruct (result_cases _ _ Rw) as [[B1 B2]|[t Ht]].
    - pose proof (dbz_value _ _ A1 A2) as D1. pose proof (dbz_value _ _ B1 B2) as D2.
      refine (result_mono _ _ _ _ _ _ _ D1 D2 _). apply Rplus_le_compat_r. unfold rnd32. apply rnd_le; [exact _|].
      assert (rnd32 (IZR v * q) <= rnd32 (IZR w * q))%R by (unfold rnd32; apply rnd_le; [exact _|assumption]). unfold rnd32 in *. lra.
    - rewrite Ht in *. rewrite dbz_inf. pose proof (dbz_value _ _ A1 A2) as D1. apply result_not_nan in D1.
      destruct t; [|now apply inf_le]. apply result_not_nan in Rv. apply inf_le in Rv as (_ & _ & _ & Rv). rewrite (Rv Hraw) in A2. destruct A2.
    - rewrite Hs in *. rewrite dbz_inf. pose proof (dbz_value _ _ B1 B2) as D1. apply result_not_nan in D1.
      destruct s; [now apply inf_le|]. apply result_not_nan in Rw. apply inf_le in Rw as (_ & _ & Rw & _). rewrite (Rw Hraw) in B2. destruct B2.
    - rewrite Hs, Ht in *. now rewrite !dbz_inf. }
  destruct u; assumption.
Qed.

(** * C12: exactness for dBZ *)
Lemma factor_0 : is_value (factor 0) 1 /\ valid32 (factor 0).
Proof.
  change (factor 0) with (S754_finite false 8388608 (-23)). split; [|reflexivity].
  unfold is_value, powerRZ. change (Pos.to_nat 23) with 23%nat. simpl pow. lra.
Qed.

(** Half integers below 2^23 are floats. *)
Lemma half_format n : Z.abs n <= 2 ^ 24 -> format32 (IZR n / 2).
Proof.
  intros H. destruct (Z.eq_dec (Z.abs n) (2 ^ 24)) as [Heq|Hne].
  - assert (Hn : n = 2 * (n / 2)).
    { assert (Hm : n mod 2 = 0) by (assert (n = 2 ^ 24 \/ n = - 2 ^ 24) as [->| ->] by lia; reflexivity).
      pose proof (Z.div_mod n 2 ltac:(lia)). lia. }
    rewrite Hn, mult_IZR. replace (2 * IZR (n / 2) / 2)%R with (IZR (n / 2)) by field.
    apply int_format; [exact _|unfold emax32, prec32; lia|]. unfold prec32. lia.
  - unfold format32. apply generic_format_FLT. exists (Float radix2 n (-1)); cbn [Fnum Fexp].
    + unfold F2R. cbn. lra.
    + change (Z.abs n < 2 ^ 24). lia.
    + unfold emax32, prec32. lia.
Qed.
Lemma small_bound r : (Rabs r <= IZR (2 ^ 25))%R -> (Rabs r < bpow radix2 emax32)%R.
Proof.
  intros H. eapply Rle_lt_trans; [exact H|]. change (bpow radix2 emax32) with (IZR (2 ^ 128)). apply IZR_lt. lia.
Qed.
Lemma abs_le_int r n : (- IZR n <= r <= IZR n)%R -> (Rabs r <= IZR n)%R.
Proof. intros H. apply Rabs_le. lra. Qed.

Theorem C12_dbz_exact v : Z.abs v <= 2 ^ 23 -> is_value (scaled_value 0 Unit_dBZ v) (IZR v / 2 - 32.5).
Proof.
  intros Hv. rewrite scaled_value_eq.
  assert (Hb : (- IZR (2 ^ 23) <= IZR v <= IZR (2 ^ 23))%R) by (rewrite <- opp_IZR; split; apply IZR_le; lia).
  assert (Hraw : valid32 (raw 0 v) /\ is_value (raw 0 v) (IZR v)).
  { destruct (of_int_value32 v ltac:(lia)) as [V1 V2]. destruct factor_0 as [F1 F2].
    pose proof (mul32 _ _ _ _ V1 F2 V2 F1) as Hr. rewrite Rmult_1_r in Hr. split; [exact (proj1 Hr)|].
    apply (result_exact _ _ _ _ Hr); [apply int_format; [exact _|unfold emax32, prec32; lia|unfold prec32; lia]|].
    apply small_bound, abs_le_int. change (IZR (2 ^ 23)) with 8388608%R in Hb. change (IZR (2 ^ 25)) with 33554432%R. lra. }
  destruct Hraw as [V H]. pose proof (dbz_value _ _ V H) as Hd.
  assert (E1 : rnd32 (IZR v / 2) = (IZR v / 2)%R).
  { apply round_generic; [apply valid_rnd_N|]. apply half_format. lia. }
  rewrite E1 in Hd. apply (result_exact _ _ _ _ Hd).
  - replace (IZR v / 2 - 32.5)%R with (IZR (v - 65) / 2)%R by (rewrite minus_IZR; lra). apply half_format. lia.
  - apply small_bound, abs_le_int. change (IZR (2 ^ 23)) with 8388608%R in Hb. change (IZR (2 ^ 25)) with 33554432%R. lra.
Qed.

(** Back with the inverse relation. *)
Theorem C12_dbz_inverse v : Z.abs v <= 2 ^ 23 -> is_value (toRVP6 (scaled_value 0 Unit_dBZ v)) (IZR v).
Proof.
  intros Hv. pose proof (C12_dbz_exact v Hv) as He.
  assert (Hb : (- IZR (2 ^ 23) <= IZR v <= IZR (2 ^ 23))%R) by (rewrite <- opp_IZR; split; apply IZR_le; lia).
  change (IZR (2 ^ 23)) with 8388608%R in Hb.
  assert (V : valid32 (scaled_value 0 Unit_dBZ v)).
  { rewrite scaled_value_eq. destruct (raw_result 0 v ltac:(lia) ltac:(lia)) as (q & _ & _ & Hr).
    destruct (result_cases _ _ Hr) as [[A1 A2]|[s ->]]; [exact (proj1 (dbz_value _ _ A1 A2))|rewrite dbz_inf; reflexivity]. }
  unfold toRVP6. change f32_32_5 with (f32_lit 325 (-1)). change f32_two with (f32_of_int 2).
  assert (Hs : result32 (f32_add (scaled_value 0 Unit_dBZ v) (f32_lit 325 (-1))) (IZR v / 2)).
  { replace (IZR v / 2)%R with (IZR v / 2 - 32.5 + 32.5)%R by lra. apply add32; [assumption|vm_compute; reflexivity|assumption|apply half_value]. }
  assert (Hs' : is_value (f32_add (scaled_value 0 Unit_dBZ v) (f32_lit 325 (-1))) (IZR v / 2)).
  { apply (result_exact _ _ _ _ Hs); [apply half_format; lia|]. apply small_bound, abs_le_int. change (IZR (2 ^ 25)) with 33554432%R. lra. }
  destruct (of_int_value32 2 ltac:(lia)) as [V2 H2].
  pose proof (mul32 _ _ _ _ (proj1 Hs) V2 Hs' H2) as Hm. replace (IZR v / 2 * 2)%R with (IZR v) in Hm by lra.
  apply (result_exact _ _ _ _ Hm); [apply int_format; [exact _|unfold emax32, prec32; lia|unfold prec32; lia]|].
  apply small_bound, abs_le_int. change (IZR (2 ^ 25)) with 33554432%R. lra.
Qed.

(** * C13: accuracy *)
Definition pos_part (z : Z) : Z := Z.max z 0.
Definition factor_close (p : Z) : bool :=
  match factor p with
  | S754_finite false m e =>
      let fn := Zpos m * 2 ^ pos_part e in let fd := 2 ^ pos_part (- e) in
      let tn := 10 ^ pos_part p in let td := 10 ^ pos_part (- p) in
      Z.abs (fn * td - tn * fd) * 2 ^ 23 <=? tn * fd
  | _ => false
  end.
Lemma factor_close_all p : -37 <= p <= 38 -> factor_close p = true.
Proof. apply (range_check (-37) 38). vm_compute. reflexivity. Qed.

Lemma powerRZ_parts (b : Z) e : (0 < b) -> powerRZ (IZR b) e = (IZR (b ^ pos_part e) / IZR (b ^ pos_part (- e)))%R.
Proof.
  intros Hb. unfold pos_part. destruct (Z_le_dec 0 e) as [H|H].
  - replace (Z.max e 0) with e by lia. replace (Z.max (- e) 0) with 0 by lia. rewrite Z.pow_0_r.
    unfold Rdiv. rewrite Rinv_1, Rmult_1_r. rewrite <- (Z2Nat.id e) by assumption. rewrite <- pow_powerRZ, pow_IZR. reflexivity.
  - replace (Z.max e 0) with 0 by lia. replace (Z.max (- e) 0) with (- e) by lia. rewrite Z.pow_0_r.
    unfold Rdiv. rewrite Rmult_1_l. replace e with (- (- e)) at 1 by lia. rewrite powerRZ_neg'.
    f_equal. rewrite <- (Z2Nat.id (- e)) by lia. rewrite <- pow_powerRZ, pow_IZR. reflexivity.
Qed.

Lemma factor_accurate p q : -37 <= p <= 38 -> is_value (factor p) q -> (Rabs (q - ten_to p) <= ten_to p / 2 ^ 23)%R.
Proof.
  intros Hp Hq. pose proof (factor_close_all p Hp) as Hc. unfold factor_close in Hc.
  destruct (factor p) as [s|s| |[] m e]; try discriminate. unfold is_value in Hq. apply Z.leb_le in Hc.
  unfold ten_to. rewrite (powerRZ_parts 10 p) by lia. rewrite (powerRZ_parts 2 e) in Hq by lia.
  assert (P1 : 0 < 2 ^ pos_part (- e)) by (apply Z.pow_pos_nonneg; unfold pos_part; lia).
  assert (P2 : 0 < 10 ^ pos_part (- p)) by (apply Z.pow_pos_nonneg; unfold pos_part; lia).
  set (fd := 2 ^ pos_part (- e)) in *. set (td := 10 ^ pos_part (- p)) in *. set (tn := 10 ^ pos_part p) in *.
  set (en := 2 ^ pos_part e) in *.
  apply IZR_le in Hc. rewrite !mult_IZR, abs_IZR, minus_IZR, !mult_IZR in Hc. change (IZR (2 ^ 23)) with 8388608%R in Hc.
  apply IZR_lt in P1. apply IZR_lt in P2. simpl in P1, P2.
  replace q with (IZR (Z.pos m) * IZR en / IZR fd)%R by (subst q; field; lra).
  replace (IZR (Z.pos m) * IZR en / IZR fd - IZR tn / IZR td)%R
    with ((IZR (Z.pos m) * IZR en * IZR td - IZR tn * IZR fd) * / (IZR fd * IZR td))%R by (field; lra).
  assert (Hinv : (0 < / (IZR fd * IZR td))%R) by (apply Rinv_0_lt_compat; apply Rmult_lt_0_compat; lra).
  rewrite Rabs_mult, (Rabs_pos_eq (/ _)) by lra.
  replace (IZR tn / IZR td / 2 ^ 23)%R with (IZR tn * IZR fd / 8388608 * / (IZR fd * IZR td))%R by (simpl pow; field; lra).
  apply Rmult_le_compat_r; [lra|]. lra.
Qed.

(** Powers of ten are ordered like their exponents. *)
Definition radix10 : radix := Build_radix 10 eq_refl.
Theorem C13_accuracy p u v : -37 <= p <= 38 -> Z.abs v <= 2 ^ 24 -> u <> Unit_dBZ ->
  (Rabs (IZR v * ten_to p) <= 34 * ten_to 37)%R ->
  exists r, is_value (scaled_value p u v) r /\
    (Rabs (r - IZR v * ten_to p) <= Rabs (IZR v * ten_to p) / 2 ^ 22)%R.
Proof.
  intros Hp Hv Hu Hb. rewrite scaled_value_eq. replace (match u with Unit_dBZ => dbz (raw p v) | _ => raw p v end) with (raw p v) by (destruct u; congruence).
  destruct (raw_result p v ltac:(lia) Hv) as (q & Q1 & Q2 & Hr).
  pose proof (factor_accurate p q Hp Q1) as Hq.
  assert (T37 : ten_to 37 = IZR (10 ^ 37)).
  { unfold ten_to. rewrite (powerRZ_parts 10 37) by lia. change (pos_part 37) with 37. change (pos_part (- 37)) with 0. rewrite Z.pow_0_r. field. }
  assert (Tp : (/ IZR (10 ^ 37) <= ten_to p)%R).
  { unfold ten_to. replace (/ IZR (10 ^ 37))%R with (powerRZ 10 (-37)).
    2:{ rewrite (powerRZ_parts 10 (-37)) by lia. change (pos_part (-37)) with 0. change (pos_part (- -37)) with 37. rewrite Z.pow_0_r. unfold Rdiv. lra. }
    change 10%R with (IZR radix10). rewrite <- !bpow_powerRZ. apply bpow_le. lia. }
  set (t := ten_to p) in *. set (x := (IZR v * t)%R) in *.
  assert (Hinv : (0 < / IZR (10 ^ 37))%R) by (apply Rinv_0_lt_compat; apply IZR_lt; reflexivity).
  simpl pow in Hq.
  assert (Hq' : (t - t / 8388608 <= q <= t + t / 8388608)%R) by (apply Rabs_le_inv in Hq; lra).
  (* the exact product *)
  assert (Hprod : (Rabs (IZR v * q - x) <= Rabs x / 8388608)%R).
  { unfold x. replace (IZR v * q - IZR v * t)%R with (IZR v * (q - t))%R by ring. rewrite !Rabs_mult.
    replace (Rabs (IZR v) * Rabs t / 8388608)%R with (Rabs (IZR v) * (Rabs t / 8388608))%R by lra.
    apply Rmult_le_compat_l; [apply Rabs_pos|]. rewrite (Rabs_pos_eq t) by lra. lra. }
  assert (Hrel : (Rabs (rnd32 (IZR v * q) - IZR v * q) <= / 16777216 * Rabs (IZR v * q))%R).
  { destruct (Z.eq_dec v 0) as [->|Hv0].
    - rewrite Rmult_0_l. unfold rnd32. rewrite (rnd_0 prec32 emax32). rewrite Rminus_0_r, Rabs_R0. lra.
    - replace (/ 16777216)%R with (/ 2 * bpow radix2 (- prec32 + 1))%R.
      2:{ change (- prec32 + 1) with (-23). rewrite bpow_powerRZ. unfold powerRZ. change (Pos.to_nat 23) with 23%nat. change (IZR radix2) with 2%R. simpl pow. lra. }
      apply relative_error_N_FLT; [reflexivity|].
      apply Rle_trans with (/ IZR (10 ^ 37) * (1 - / 8388608))%R.
      + change (3 - emax32 - prec32 + prec32 - 1) with (-126). replace (bpow radix2 (-126)) with (/ IZR (2 ^ 126))%R by reflexivity.
        apply Rmult_le_reg_l with (IZR (2 ^ 126)); [apply IZR_lt; reflexivity|]. rewrite Rinv_r by (apply IZR_neq; discriminate).
        apply Rmult_le_reg_l with (IZR (10 ^ 37)); [apply IZR_lt; reflexivity|].
        replace (IZR (10 ^ 37) * (IZR (2 ^ 126) * (/ IZR (10 ^ 37) * (1 - / 8388608))))%R with (IZR (2 ^ 126) * (1 - / 8388608))%R by (field; apply IZR_neq; discriminate).
        rewrite Rmult_1_r.
        change (IZR (10 ^ 37)) with 10000000000000000000000000000000000000%R. change (IZR (2 ^ 126)) with 85070591730234615865843651857942052864%R. lra.
      + rewrite Rabs_mult. rewrite (Rabs_pos_eq q) by assumption.
        assert (1 <= Rabs (IZR v))%R by (rewrite <- abs_IZR; apply (IZR_le 1); lia). nra. }
  assert (Habs : (Rabs (IZR v * q) <= Rabs x * (1 + / 8388608))%R).
  { replace (IZR v * q)%R with (x + (IZR v * q - x))%R by ring. eapply Rle_trans; [apply Rabs_triang|]. lra. }
  assert (Hfin : (Rabs (rnd32 (IZR v * q)) <= Rabs x * (1 + / 8388608) * (1 + / 16777216))%R).
  { replace (rnd32 (IZR v * q)) with (IZR v * q + (rnd32 (IZR v * q) - IZR v * q))%R by ring. eapply Rle_trans; [apply Rabs_triang|]. nra. }
  exists (rnd32 (IZR v * q)). split.
  - apply (result_value _ _ _ _ Hr). change (Rabs (rnd32 (IZR v * q)) < bpow radix2 emax32)%R.
    eapply Rle_lt_trans; [exact Hfin|]. change (bpow radix2 emax32) with (IZR (2 ^ 128)).
    rewrite T37 in Hb. change (IZR (10 ^ 37)) with 10000000000000000000000000000000000000%R in Hb.
    change (IZR (2 ^ 128)) with 340282366920938463463374607431768211456%R. lra.
  - replace (rnd32 (IZR v * q) - x)%R with ((rnd32 (IZR v * q) - IZR v * q) + (IZR v * q - x))%R by ring.
    eapply Rle_trans; [apply Rabs_triang|]. simpl pow. pose proof (Rabs_pos x). lra.
Qed.

Lemma rnd32_err r : (Rabs (rnd32 r - r) <= Rabs r * / 2 ^ 24 + / 10 ^ 12)%R.
Proof.
  destruct (error_N_FLT radix2 (3 - emax32 - prec32) prec32 ltac:(reflexivity) (fun n => negb (Z.even n)) r) as (e & h & He & Hh & _ & E).
  unfold rnd32. rewrite E. replace (r * (1 + e) + h - r)%R with (r * e + h)%R by ring.
  eapply Rle_trans; [apply Rabs_triang|]. rewrite Rabs_mult. apply Rplus_le_compat.
  - apply Rmult_le_compat_l; [apply Rabs_pos|]. eapply Rle_trans; [exact He|]. change (-prec32 + 1)%Z with (-23)%Z.
    change (bpow radix2 (-23)) with (/ IZR (2 ^ 23))%R. change (2 ^ 23)%Z with 8388608%Z. lra.
  - eapply Rle_trans; [exact Hh|]. apply Rle_trans with (1 * bpow radix2 (-40))%R.
    + apply Rmult_le_compat; [lra|apply bpow_ge_0|lra|]. apply bpow_le. unfold emax32, prec32. lia.
    + change (bpow radix2 (-40)) with (/ IZR (2 ^ 40))%R. change (2 ^ 40)%Z with 1099511627776%Z. lra.
Qed.


(** The same for radar reflectivities: half the scaled value, minus 32.5. *)
Theorem C13_dbz p v : -37 <= p <= 38 -> Z.abs v <= 2 ^ 24 ->
  (Rabs (IZR v * ten_to p) <= 34 * ten_to 37)%R ->
  exists r, is_value (scaled_value p Unit_dBZ v) r /\
    (Rabs (r - (IZR v * ten_to p / 2 - 32.5)) <= (Rabs (IZR v * ten_to p / 2) + 32.5) / 2 ^ 21)%R.
Proof.
  intros Hp Hv Hb. destruct (C13_accuracy p Unit_mm v Hp Hv ltac:(discriminate) Hb) as (a & Xa & Da).
  rewrite scaled_value_eq in Xa |- *. cbn iota in Xa |- *. destruct (raw_result p v ltac:(lia) Hv) as (q & _ & _ & Hr).
  pose proof (dbz_value _ _ (proj1 Hr) Xa) as Hd.
  assert (T37 : ten_to 37 = IZR (10 ^ 37)).
  { unfold ten_to. rewrite (powerRZ_parts 10 37) by lia. change (pos_part 37) with 37. change (pos_part (- 37)) with 0. rewrite Z.pow_0_r. field. }
  rewrite T37 in Hb. change (IZR (10 ^ 37)) with 10000000000000000000000000000000000000%R in Hb.
  set (x := (IZR v * ten_to p)%R) in *. clearbody x. set (t := rnd32 (a / 2)) in *.
  pose proof (rnd32_err (a / 2)) as E1. fold t in E1. pose proof (rnd32_err (t - 32.5)) as E2.
  assert (Hx : (Rabs (x / 2) = Rabs x / 2)%R) by (unfold Rdiv; now rewrite Rabs_mult, (Rabs_pos_eq (/ 2)) by lra).
  assert (Ha : (Rabs (a / 2 - x / 2) <= Rabs (x / 2) / 2 ^ 22)%R).
  { replace (a / 2 - x / 2)%R with ((a - x) * / 2)%R by field. rewrite Rabs_mult, (Rabs_pos_eq (/ 2)), Hx by lra. lra. }
  assert (A1 : (Rabs (a / 2) <= Rabs (x / 2) * (1 + / 2 ^ 22))%R).
  { replace (a / 2)%R with ((a / 2 - x / 2) + x / 2)%R by ring. eapply Rle_trans; [apply Rabs_triang|]. lra. }
  pose proof (Rabs_pos (x / 2)) as Px.
  assert (A2 : (Rabs (t - a / 2) <= Rabs (x / 2) / 2 ^ 23 + / 10 ^ 12)%R) by lra.
  assert (A3 : (Rabs (t - x / 2) <= Rabs (x / 2) / 2 ^ 22 + Rabs (x / 2) / 2 ^ 23 + / 10 ^ 12)%R).
  { replace (t - x / 2)%R with ((t - a / 2) + (a / 2 - x / 2))%R by ring. eapply Rle_trans; [apply Rabs_triang|]. lra. }
  assert (A4 : (Rabs (t - 32.5) <= Rabs (x / 2) * 1.01 + 33)%R).
  { replace (t - 32.5)%R with ((t - x / 2) + (x / 2 + - 32.5))%R by lra. eapply Rle_trans; [apply Rabs_triang|].
    pose proof (Rabs_triang (x / 2) (- 32.5)) as T. rewrite (Rabs_left (- 32.5)) in T by lra. lra. }
  exists (rnd32 (t - 32.5)). split.
  - apply (result_value _ _ _ _ Hd). change (Rabs (rnd32 (t - 32.5)) < bpow radix2 emax32)%R.
    replace (rnd32 (t - 32.5)) with ((rnd32 (t - 32.5) - (t - 32.5)) + (t - 32.5))%R by ring.
    eapply Rle_lt_trans; [apply Rabs_triang|]. change (bpow radix2 emax32) with (IZR (2 ^ 128)).
    change (IZR (2 ^ 128)) with 340282366920938463463374607431768211456%R. lra.
  - replace (rnd32 (t - 32.5) - (x / 2 - 32.5))%R with ((rnd32 (t - 32.5) - (t - 32.5)) + (t - x / 2))%R by ring.
    eapply Rle_trans; [apply Rabs_triang|]. lra.
Qed.

(** Concrete cases: RW stores tenths of millimetres. *)
Example C12_case : exists v, - 4095 <= v <= 4095 /\ is_value (scaled_value 0 Unit_dBZ v) (-28).
Proof. exists 9. split; [lia|]. replace (-28)%R with (IZR 9 / 2 - 32.5)%R by lra. apply C12_dbz_exact. lia. Qed.
Example C13_case : (Rabs (IZR 2490 * ten_to (-1)) <= 34 * ten_to 37)%R.
Proof.
  assert (E1 : ten_to (-1) = (1 / 10)%R).
  { unfold ten_to. rewrite (powerRZ_parts 10 (-1)) by lia. reflexivity. }
  assert (E2 : ten_to 37 = 10000000000000000000000000000000000000%R).
  { unfold ten_to. rewrite (powerRZ_parts 10 37) by lia. replace (10 ^ pos_part (- (37))) with 1 by reflexivity.
    replace (10 ^ pos_part 37) with 10000000000000000000000000000000000000 by reflexivity. unfold Rdiv. rewrite Rinv_1, Rmult_1_r. reflexivity. }
  rewrite E1, E2. rewrite Rabs_pos_eq; lra.
Qed.
Example C14_case : finite (f32_of_f64 (pow10 (-2))).
Proof. apply C14_finite_factor. lia. Qed.
(** With an infinite factor zero becomes NaN: the condition is needed. *)
Example C11_sharp : IsNaN (rvp6_single_byte 39 Unit_mm Byte.x00) = true.
Proof. vm_compute. reflexivity. Qed.

(** * C12-C14 for the records themselves *)
Theorem C12_one_byte b : bz b <> 250 -> is_value (rvp6_single_byte 0 Unit_dBZ b) (IZR (bz b) / 2 - 32.5).
Proof.
  intros Hb. destruct (C11_one_byte_record 0 Unit_dBZ b) as [_ H]. rewrite (H Hb). apply C12_dbz_exact. pose proof (bz_range b). lia.
Qed.
Theorem C12_two_bytes lo hi : Z.testbit (bz hi) 5 = false ->
  is_value (rvp6_little_endian 0 Unit_dBZ lo hi)
    (IZR ((if Z.testbit (bz hi) 6 then -1 else 1) * ((bz hi mod 16) * 256 + bz lo)) / 2 - 32.5).
Proof.
  intros Hb. destruct (C09_two_byte_record 0 Unit_dBZ lo hi) as [_ H]. rewrite (H Hb). apply C12_dbz_exact.
  pose proof (bz_range lo). pose proof (Z.mod_pos_bound (bz hi) 16). destruct (Z.testbit (bz hi) 6); lia.
Qed.
Theorem C14_bytes p u a b : finite (f32_of_f64 (pow10 p)) -> bz a <> 250 -> bz b <> 250 -> bz a <= bz b ->
  f_le (rvp6_single_byte p u a) (rvp6_single_byte p u b) = true.
Proof.
  intros Hf Ha Hb Hle. destruct (C11_one_byte_record p u a) as [_ H1]. destruct (C11_one_byte_record p u b) as [_ H2].
  rewrite (H1 Ha), (H2 Hb). pose proof (bz_range a). pose proof (bz_range b). apply C14_monotone; [assumption|lia|lia|lia].
Qed.
Print Assumptions C13_dbz.

(** * C13, C14 for the records themselves *)

(** The number stored in a two-byte record. *)
Definition stored (lo hi : byte) : Z := (if Z.testbit (bz hi) 6 then -1 else 1) * ((bz hi mod 16) * 256 + bz lo).

Lemma stored_bound lo hi : Z.abs (stored lo hi) <= 4095.
Proof. unfold stored. pose proof (bz_range lo). pose proof (Z.mod_pos_bound (bz hi) 16 ltac:(lia)). destruct (Z.testbit (bz hi) 6); lia. Qed.

Lemma ten_to_le p q : p <= q -> (ten_to p <= ten_to q)%R.
Proof.
  intros H. unfold ten_to. replace q with (p + (q - p)) by lia. rewrite powerRZ_add by lra.
  assert (0 < powerRZ 10 p)%R by (apply powerRZ_lt; lra).
  assert (1 <= powerRZ 10 (q - p))%R.
  { replace (q - p) with (Z.of_nat (Z.to_nat (q - p))) by lia. rewrite <- pow_powerRZ. apply pow_R1_Rle. lra. }
  nra.
Qed.

Lemma stored_range p v : p <= 34 -> Z.abs v <= 4095 -> (Rabs (IZR v * ten_to p) <= 34 * ten_to 37)%R.
Proof.
  intros Hp Hv. assert (P : (0 < ten_to p)%R) by (apply powerRZ_lt; lra). rewrite Rabs_mult, (Rabs_pos_eq (ten_to p)) by lra.
  rewrite Rabs_Zabs. apply IZR_le in Hv. pose proof (ten_to_le p 34 Hp).
  assert (E : (ten_to 37 = ten_to 34 * 1000)%R).
  { unfold ten_to. replace 37 with (34 + 3) by lia. rewrite powerRZ_add by lra. f_equal. change (powerRZ 10 3) with (10 ^ 3)%R. lra. }
  rewrite E. nra.
Qed.

(** For every precision from -37 to 34 (which includes all that fit the "E-01"
    notation of real files) the decoded value is that close to the decimal. *)
Theorem C13_records p u lo hi b : -37 <= p <= 34 ->
  let near f x := exists r, is_value f r /\
    match u with
    | Unit_dBZ => (Rabs (r - (x / 2 - 32.5)) <= (Rabs (x / 2) + 32.5) / 2 ^ 21)%R
    | _ => (Rabs (r - x) <= Rabs x / 2 ^ 22)%R
    end in
  (Z.testbit (bz hi) 5 = false ->
     near (rvp6_little_endian p u lo hi) (IZR ((if Z.testbit (bz hi) 6 then -1 else 1) * ((bz hi mod 16) * 256 + bz lo)) * ten_to p)%R) /\
  (bz b <> 250 -> near (rvp6_single_byte p u b) (IZR (bz b) * ten_to p)%R).
Proof.
  intros Hp near.
  assert (H : forall v, Z.abs v <= 4095 -> near (scaled_value p u v) (IZR v * ten_to p)%R).
  { intros v Hv. pose proof (stored_range p v ltac:(lia) Hv) as Hr. unfold near.
    assert (D : {u = Unit_dBZ} + {u <> Unit_dBZ}) by decide equality. destruct D as [->|Hu].
    - apply (C13_dbz p v); [lia|lia|assumption].
    - destruct (C13_accuracy p u v ltac:(lia) ltac:(lia) Hu Hr) as (r & R1 & R2). exists r. split; [assumption|].
      destruct u; try exact R2. congruence. }
  split.
  - intros Hb. destruct (C09_two_byte_record p u lo hi) as [_ E]. rewrite (E Hb). apply H. apply stored_bound.
  - intros Hb. destruct (C11_one_byte_record p u b) as [_ E]. rewrite (E Hb). apply H. pose proof (bz_range b). lia.
Qed.

Theorem C14_two_bytes p u lo hi lo' hi' : finite (f32_of_f64 (pow10 p)) ->
  Z.testbit (bz hi) 5 = false -> Z.testbit (bz hi') 5 = false ->
  (if Z.testbit (bz hi) 6 then -1 else 1) * ((bz hi mod 16) * 256 + bz lo) <=
  (if Z.testbit (bz hi') 6 then -1 else 1) * ((bz hi' mod 16) * 256 + bz lo') ->
  f_le (rvp6_little_endian p u lo hi) (rvp6_little_endian p u lo' hi') = true.
Proof.
  intros Hf Ha Hb Hle. destruct (C09_two_byte_record p u lo hi) as [_ H1]. destruct (C09_two_byte_record p u lo' hi') as [_ H2].
  rewrite (H1 Ha), (H2 Hb). pose proof (stored_bound lo hi) as B1. pose proof (stored_bound lo' hi') as B2. unfold stored in B1, B2.
  apply C14_monotone; [assumption|lia|assumption|lia].
Qed.
Print Assumptions C13_records.
Print Assumptions C14_two_bytes.

Example C13_records_case : -37 <= -1 <= 34 /\ Z.testbit (bz Byte.x49) 5 = false /\
  (if Z.testbit (bz Byte.x49) 6 then -1 else 1) * ((bz Byte.x49 mod 16) * 256 + bz Byte.xba) = -2490.
Proof. repeat split; try lia. Qed.
