(** C38: the Z-R relationship in exact arithmetic. *)
From Coq Require Import Reals Lra.
From Verif Require Import GoBase GoFloat Projection Conversion ExactReal SpecZR.
Local Open Scope R_scope.

(** The functions of the package over the reals. *)
Definition newZR (a b : R) := new_zr arithR log10 a b.
Definition rate_of (r : zr arithR) (dbz : R) : R := precipitation_rate arithR R (fun x => x) r dbz.
Definition dbz_of (r : zr arithR) (rate : R) : R := reflectivity arithR log10 R (fun x => x) r rate.

Lemma ln10_pos : 0 < ln 10.
Proof. rewrite <- ln_1. apply ln_increasing; lra. Qed.

Lemma rate_exp a b dbz : 0 < a -> b <> 0 ->
  rate_of (newZR a b) dbz = exp ((dbz / 10 * ln 10 - ln a) / b).
Proof.
  intros Ha Hb. unfold rate_of, newZR, precipitation_rate, new_zr. cbn [z_c2 z_c3 n_mul n_pow arithR n_ofZ n_div].
  unfold Rpower. rewrite ln_exp, <- exp_plus. f_equal. change (IZR (-1)) with (-1). field. assumption.
Qed.

Lemma rate_pos a b dbz : 0 < a -> b <> 0 -> 0 < rate_of (newZR a b) dbz.
Proof. intros Ha Hb. rewrite rate_exp by assumption. apply exp_pos. Qed.

Lemma dbz_ln a b rate : dbz_of (newZR a b) rate = 10 * (ln a + b * ln rate) / ln 10.
Proof.
  unfold dbz_of, newZR, reflectivity, new_zr. cbn [z_c1 z_c4 n_mul n_add n_add_mul arithR n_ofZ num]. unfold log10. pose proof ln10_pos. field. lra.
Qed.

(** The rate R estimated for a reflectivity factor satisfies Z = a * R^b, with
    Z = 10^(dBZ/10). *)
Theorem C38_relation a b dbz : 0 < a -> b <> 0 ->
  0 < rate_of (newZR a b) dbz /\
  a * Rpower (rate_of (newZR a b) dbz) b = Rpower 10 (dbz / 10).
Proof.
  intros Ha Hb. split; [now apply rate_pos|]. rewrite rate_exp by assumption. unfold Rpower. rewrite ln_exp.
  rewrite <- (exp_ln a) at 1 by assumption. rewrite <- exp_plus. f_equal. field. assumption.
Qed.

(** PrecipitationRate and Reflectivity are inverse to each other. *)
Theorem C38_inverse a b : 0 < a -> b <> 0 ->
  (forall dbz, dbz_of (newZR a b) (rate_of (newZR a b) dbz) = dbz) /\
  (forall rate, 0 < rate -> rate_of (newZR a b) (dbz_of (newZR a b) rate) = rate).
Proof.
  intros Ha Hb. pose proof ln10_pos. split; [intros dbz|intros rate Hr].
  - rewrite dbz_ln, rate_exp, ln_exp by assumption. field. lra.
  - rewrite rate_exp, dbz_ln by assumption. 
    replace ((10 * (ln a + b * ln rate) / ln 10 / 10 * ln 10 - ln a) / b) with (ln rate) by (field; lra). now apply exp_ln.
Qed.

(** Both are strictly increasing. *)
Theorem C38_increasing a b : 0 < a -> 0 < b ->
  (forall d e, d < e -> rate_of (newZR a b) d < rate_of (newZR a b) e) /\
  (forall r s, 0 < r -> r < s -> dbz_of (newZR a b) r < dbz_of (newZR a b) s).
Proof.
  intros Ha Hb. pose proof ln10_pos. split; [intros d e H1|intros r s Hr H1].
  - rewrite !rate_exp by lra. apply exp_increasing. apply Rmult_lt_compat_r; [now apply Rinv_0_lt_compat|]. nra.
  - rewrite !dbz_ln. apply Rmult_lt_compat_r; [now apply Rinv_0_lt_compat|]. assert (ln r < ln s) by (apply ln_increasing; lra). nra.
Qed.

(** The four named relations of the package are the ones they are documented
    to be: the rate estimated with Aniol80 satisfies Z = 256 * R^1.42, and so
    on, and Reflectivity with the same relation gives back the dBZ value. *)
Definition named : list (zr arithR * R * R) :=
  (Aniol80 arithR log10, 256, 1.42) :: (Doelling98 arithR log10, 316, 1.5) ::
  (JossWaldvogel70 arithR log10, 300, 1.5) :: (MarshallPalmer55 arithR log10, 200, 1.6) :: nil.

Theorem C38_common :
  List.Forall (fun '(r, a, b) => forall dbz,
    0 < rate_of r dbz /\
    a * Rpower (rate_of r dbz) b = Rpower 10 (dbz / 10) /\
    dbz_of r (rate_of r dbz) = dbz) named.
Proof.
  assert (K : forall a b a' b', a' = a -> b' = b -> 0 < a -> b <> 0 -> forall dbz,
     0 < rate_of (newZR a' b') dbz /\
     a * Rpower (rate_of (newZR a' b') dbz) b = Rpower 10 (dbz / 10) /\
     dbz_of (newZR a' b') (rate_of (newZR a' b') dbz) = dbz).
  { intros a b a' b' -> -> Ha Hb dbz. destruct (C38_relation a b dbz Ha Hb) as [H1 H2].
    destruct (C38_inverse a b Ha Hb) as [H3 _]. auto. }
  unfold named, Aniol80, Doelling98, JossWaldvogel70, MarshallPalmer55.
  fold (newZR (n_ofZ arithR 256) (n_lit arithR 142 2)) (newZR (n_ofZ arithR 316) (n_lit arithR 150 2))
       (newZR (n_ofZ arithR 300) (n_lit arithR 150 2)) (newZR (n_ofZ arithR 200) (n_lit arithR 160 2)).
  repeat (apply List.Forall_cons; [apply K; cbn; try lra|]).
  apply List.Forall_nil.
Qed.

(** The relation used in Germany: 256 * R^1.42. *)
Example C38_case : Aniol80 arithR log10 = newZR 256 1.42 /\ 0 < 256 /\ 1.42 <> 0.
Proof. split; [reflexivity|]. split; lra. Qed.
