(** The calendar behind time.Time.String, and decimal output. *)
From Coq Require Import Lia Reals Lra.
From Flocq Require Import Core BinarySingleNaN.
From Verif Require Import GoBase GoTime GoFloat Catalog Spec SpecHeader SpecWriter SpecPrint SpecReal BaseFacts CalendarFacts FloatFacts PropFloat GoPrint.
From Coq Require String. Import String.StringSyntax.
Local Open Scope Z_scope.

(** * Years *)
Lemma year_step y : absolute_zero_year <= y -> days_since_epoch (y + 1) = days_since_epoch y + year_length y.
Proof.
  intros H. unfold days_since_epoch, year_length, leap_year. change absolute_zero_year with (-292277022399) in *.
  destruct (Z.eqb_spec (y mod 4) 0); destruct (Z.eqb_spec (y mod 100) 0); destruct (Z.eqb_spec (y mod 400) 0); cbn [andb orb negb]; Z.div_mod_to_equations; lia.
Qed.

Lemma year_length_pos y : 365 <= year_length y <= 366.
Proof. unfold year_length. destruct (leap_year y); lia. Qed.

Lemma abs_year_days d : 0 <= d ->
  let '(y, k) := abs_year d in absolute_zero_year <= y /\ days_since_epoch y + k = d /\ 0 <= k < year_length y.
Proof.
  intros H. unfold abs_year. cbv zeta. change absolute_zero_year with (-292277022399).
  set (n1 := d / 146097). set (d1 := d - 146097 * n1).
  assert (B1 : 0 <= d1 < 146097) by (subst n1 d1; Z.div_mod_to_equations; lia). assert (N1 : 0 <= n1) by (apply Z.div_pos; lia).
  set (n2 := d1 / 36524 - d1 / 36524 / 4). set (d2 := d1 - 36524 * n2).
  assert (B2 : 0 <= n2 <= 3 /\ 0 <= d2 /\ (n2 < 3 -> d2 < 36524) /\ d2 <= 36524) by (subst n2 d2; Z.div_mod_to_equations; lia).
  set (n3 := d2 / 1461). set (d3 := d2 - 1461 * n3).
  assert (B3 : 0 <= n3 <= 24 /\ 0 <= d3 < 1461) by (subst n3 d3; Z.div_mod_to_equations; lia).
  assert (B3' : n3 = 24 -> n2 < 3 -> d3 < 1460) by (subst d3; lia).
  set (n4 := d3 / 365 - d3 / 365 / 4). set (d4 := d3 - 365 * n4).
  assert (B4 : 0 <= n4 <= 3 /\ 0 <= d4 <= 365 /\ (n4 < 3 -> d4 < 365)) by (subst n4 d4; Z.div_mod_to_equations; lia).
  assert (E : d = 146097 * n1 + 36524 * n2 + 1461 * n3 + 365 * n4 + d4) by (subst d1 d2 d3 d4; lia).
  assert (B5 : n4 = 3 -> d4 = 365 -> ~ (n3 = 24 /\ n2 < 3)) by (intros; subst d4; lia).
  destruct B2 as [B2 _]. destruct B3 as [B3 _]. clearbody d4 n4. clear B3'. clearbody d3. clear d3. clearbody n3 d2. clear d2. clearbody n2. clear B1. clearbody d1. clear d1. clearbody n1.
  set (Y := 400 * n1 + 100 * n2 + 4 * n3 + n4).
  assert (Q : days_since_epoch (Y + -292277022399) = 146097 * n1 + 36524 * n2 + 1461 * n3 + 365 * n4).
  { unfold days_since_epoch. change absolute_zero_year with (-292277022399). replace (Y + -292277022399 - -292277022399) with Y by lia.
    cbv zeta. assert (Y / 400 = n1) as -> by (subst Y; Z.div_mod_to_equations; lia).
    assert ((Y - 400 * n1) / 100 = n2) as -> by (subst Y; Z.div_mod_to_equations; lia).
    assert ((Y - 400 * n1 - 100 * n2) / 4 = n3) as -> by (subst Y; Z.div_mod_to_equations; lia). subst Y. lia. }
  rewrite Q. split; [subst Y; lia|]. split; [lia|]. split; [lia|].
  pose proof (year_length_pos (Y + -292277022399)) as P. destruct (Z.eq_dec d4 365) as [E4|E4]; [|lia].
  assert (E3 : n4 = 3) by lia. specialize (B5 E3 E4).
  unfold year_length. replace (leap_year (Y + -292277022399)) with true; [lia|]. symmetry. unfold leap_year.
  assert (M4 : (Y + -292277022399) mod 4 = 0) by (subst Y n4; Z.div_mod_to_equations; lia). rewrite M4. cbn [Z.eqb].
  destruct (Z.eqb_spec ((Y + -292277022399) mod 100) 0) as [M1|M1]; [|reflexivity]. cbn [negb andb orb].
  apply Z.eqb_eq. assert (n3 = 24) by (subst Y n4; Z.div_mod_to_equations; lia). assert (n2 = 3) by lia. subst Y n2 n3 n4. Z.div_mod_to_equations. lia.
Qed.

Lemma years_apart y k : absolute_zero_year <= y -> 1 <= k -> days_since_epoch y + year_length y <= days_since_epoch (y + k).
Proof.
  intros H. revert k. apply (Zlt_lower_bound_ind _ 1). intros k IH Hk. destruct (Z.eq_dec k 1) as [->|Hn]; [rewrite year_step by assumption; lia|].
  specialize (IH (k - 1) ltac:(lia)). replace (y + k) with (y + (k - 1) + 1) by lia. rewrite year_step by lia. pose proof (year_length_pos (y + (k - 1))). lia.
Qed.
Lemma year_unique y y' k k' : absolute_zero_year <= y -> absolute_zero_year <= y' -> 0 <= k < year_length y -> 0 <= k' < year_length y' ->
  days_since_epoch y + k = days_since_epoch y' + k' -> y = y' /\ k = k'.
Proof.
  intros Hy Hy' Hk Hk' E. destruct (Z_lt_le_dec y y') as [L|L].
  { pose proof (years_apart y (y' - y) Hy ltac:(lia)) as P. replace (y + (y' - y)) with y' in P by lia. lia. }
  destruct (Z_lt_le_dec y' y) as [L'|L'].
  { pose proof (years_apart y' (y - y') Hy' ltac:(lia)) as P. replace (y' + (y - y')) with y in P by lia. lia. }
  assert (y = y') by lia. subst y'. lia.
Qed.

(** The specification counts the same days. *)
Lemma sum_step f a b : a <= b -> sum_from f a (b + 1) = sum_from f a b + f b.
Proof.
  intros H. unfold sum_from. replace (Z.to_nat (b + 1 - a)) with (Z.to_nat (b - a) + 1)%nat by lia.
  rewrite seq_app, map_app, fold_right_app. cbn [seq map fold_right]. replace (a + Z.of_nat (0 + Z.to_nat (b - a))) with b by lia.
  rewrite Z.add_0_r. generalize (map (fun k => f (a + Z.of_nat k)) (seq 0 (Z.to_nat (b - a)))). intros l.
  induction l as [|x l IH]; cbn [fold_right]; lia.
Qed.
Lemma years_sum y : 1900 <= y -> sum_from year_length 1900 y = days_since_epoch y - days_since_epoch 1900.
Proof.
  revert y. apply (Zlt_lower_bound_ind _ 1900). intros y IH Hy. destruct (Z.eq_dec y 1900) as [->|Hn]; [reflexivity|].
  replace y with ((y - 1) + 1) by lia. rewrite sum_step, IH, year_step by (try lia; change absolute_zero_year with (-292277022399); lia). lia.
Qed.

(** * Months *)
Definition month_sum (y m : Z) : Z := sum_from (month_length y) 1 m.
Lemma month_length_leap y y' m : leap_year y = leap_year y' -> month_length y m = month_length y' m.
Proof. intros H. unfold month_length. now rewrite H. Qed.
Lemma sum_ext f g a b : (forall k, f k = g k) -> sum_from f a b = sum_from g a b.
Proof. intros H. unfold sum_from. f_equal. apply map_ext. intros k. apply H. Qed.
Definition sample (leap : bool) : Z := if leap then 2000 else 2001.
Lemma sample_leap b : leap_year (sample b) = b.
Proof. now destruct b. Qed.

Lemma month_day_ok leap k : 0 <= k < year_length (sample leap) ->
  let '(m, d) := month_day leap k in 1 <= m <= 12 /\ 1 <= d <= month_length (sample leap) m /\ month_sum (sample leap) m + (d - 1) = k.
Proof.
  intros H.
  assert (C : (let '(m, d) := month_day leap k in (1 <=? m) && (m <=? 12) && (1 <=? d) && (d <=? month_length (sample leap) m) && (month_sum (sample leap) m + (d - 1) =? k))%bool = true).
  { destruct leap.
    - apply (range_check 0 365 (fun k => let '(m, d) := month_day true k in (1 <=? m) && (m <=? 12) && (1 <=? d) && (d <=? month_length (sample true) m) && (month_sum (sample true) m + (d - 1) =? k))%bool); [vm_compute; reflexivity|].
      change (year_length (sample true)) with 366 in H. lia.
    - apply (range_check 0 364 (fun k => let '(m, d) := month_day false k in (1 <=? m) && (m <=? 12) && (1 <=? d) && (d <=? month_length (sample false) m) && (month_sum (sample false) m + (d - 1) =? k))%bool); [vm_compute; reflexivity|].
      change (year_length (sample false)) with 365 in H. lia. }
  destruct (month_day leap k) as [m d]. rewrite !andb_true_iff, !Z.leb_le, Z.eqb_eq in C. lia.
Qed.
Lemma day_of_year y m d : 1 <= m <= 12 -> 1 <= d <= month_length y m -> 
  0 <= month_sum y m + (d - 1) < year_length y /\ month_day (leap_year y) (month_sum y m + (d - 1)) = (m, d).
Proof.
  intros Hm Hd. set (b := leap_year y).
  assert (E : forall j, month_length y j = month_length (sample b) j) by (intros j; apply month_length_leap; now rewrite sample_leap).
  unfold month_sum. rewrite (sum_ext _ _ _ _ E). rewrite E in Hd. fold (month_sum (sample b) m).
  replace (year_length y) with (year_length (sample b)) by (unfold year_length; rewrite sample_leap; reflexivity).
  clearbody b. clear y E.
  assert (C : forall m, 1 <= m <= 12 -> forall d, 1 <= d <= 31 -> 
     (negb (d <=? month_length (sample b) m) || (0 <=? month_sum (sample b) m + (d - 1)) && (month_sum (sample b) m + (d - 1) <? year_length (sample b)) &&
     let '(m', d') := month_day b (month_sum (sample b) m + (d - 1)) in (m' =? m) && (d' =? d))%bool = true).
  { intros m1 Hm1. apply range_check. revert m1 Hm1. apply range_check. destruct b; vm_compute; reflexivity. }
  assert (L : month_length (sample b) m <= 31) by (unfold month_length; destruct (m =? 2), (leap_year (sample b)), ((m =? 4) || (m =? 6) || (m =? 9) || (m =? 11))%bool; lia).
  specialize (C m Hm d ltac:(lia)). destruct (Z.leb_spec d (month_length (sample b) m)); [|lia]. cbn [negb orb] in C.
  destruct (month_day b (month_sum (sample b) m + (d - 1))) as [m' d']. rewrite !andb_true_iff, Z.leb_le, Z.ltb_lt, !Z.eqb_eq in C. destruct C as [C [-> ->]]. auto.
Qed.

(** * Dates *)
Definition day_1900 : Z := days_since_epoch 1900.
Lemma abs_date_of y m d : 1900 <= y -> 1 <= m <= 12 -> 1 <= d <= month_length y m ->
  abs_date (days_since_1900 y m d + day_1900) = (y, m, d).
Proof.
  intros Hy Hm Hd. destruct (day_of_year y m d Hm Hd) as [B E].
  unfold days_since_1900. fold (month_sum y m). rewrite years_sum by assumption.
  set (D := _ + day_1900). assert (ED : D = days_since_epoch y + (month_sum y m + (d - 1))) by (unfold D, day_1900; lia).
  assert (Zy : absolute_zero_year <= y) by (change absolute_zero_year with (-292277022399); lia).
  assert (P0 : 0 <= days_since_epoch y). { pose proof (years_sum y Hy) as Q. assert (0 <= days_since_epoch 1900) by (vm_compute; discriminate).
    assert (S0 : 0 <= sum_from year_length 1900 y). { unfold sum_from. clear. generalize (seq 0 (Z.to_nat (y - 1900))). intros l. induction l as [|x l IH]; cbn [map fold_right]; [lia|].
      pose proof (year_length_pos (1900 + Z.of_nat x)). lia. } lia. }
  assert (D0 : 0 <= D) by lia. pose proof (abs_year_days D D0) as A. unfold abs_date. destruct (abs_year D) as [y' k'].
  destruct A as (A1 & A2 & A3). destruct (year_unique y' y k' (month_sum y m + (d - 1)) A1 Zy A3 B ltac:(lia)) as [-> ->].
  rewrite leap_eq, E. reflexivity.
Qed.
Lemma date_exists D : day_1900 <= D -> exists y m d, 1900 <= y /\ 1 <= m <= 12 /\ 1 <= d <= month_length y m /\
  D = days_since_1900 y m d + day_1900.
Proof.
  intros H. assert (P : 0 <= day_1900) by (vm_compute; discriminate). pose proof (abs_year_days D ltac:(lia)) as A. destruct (abs_year D) as [y k]. destruct A as (A1 & A2 & A3).
  assert (Hy : 1900 <= y).
  { destruct (Z_lt_le_dec y 1900) as [L|L]; [|exact L]. pose proof (years_apart y (1900 - y) A1 ltac:(lia)) as Q.
    replace (y + (1900 - y)) with 1900 in Q by lia. fold day_1900 in Q. lia. }
  set (b := leap_year y). assert (Ey : year_length y = year_length (sample b)) by (unfold year_length; rewrite sample_leap; reflexivity).
  rewrite Ey in A3. pose proof (month_day_ok b k A3) as Mk. destruct (month_day b k) as [m d]. destruct Mk as (M1 & M2 & M3).
  assert (E : forall j, month_length y j = month_length (sample b) j) by (intros j; apply month_length_leap; now rewrite sample_leap).
  exists y, m, d. split; [exact Hy|]. split; [exact M1|]. split; [rewrite E; exact M2|].
  unfold days_since_1900. rewrite years_sum by assumption. rewrite (sum_ext _ _ _ _ E). fold (month_sum (sample b) m). unfold day_1900. lia.
Qed.

(** * Decimal numbers *)
Lemma four_digits n : 0 <= n <= 2499 -> itoa n = digits n /\ (1000 <= n -> append_int n 4 = digits n) /\ (n <= 99 -> append_int n 2 = two n).
Proof.
  intros H.
  assert (C : (str_eqb (itoa n) (digits n) && ((n <? 1000) || str_eqb (append_int n 4) (digits n)) && ((99 <? n) || str_eqb (append_int n 2) (two n)))%bool = true).
  { revert n H. apply range_check. vm_compute. reflexivity. }
  rewrite !andb_true_iff, !orb_true_iff, !Z.ltb_lt in C. destruct C as [[C1 C2] C3].
  split; [now apply str_eqb_eq|]. split; intros B; [destruct C2 as [C2|C2]|destruct C3 as [C3|C3]]; try lia; now apply str_eqb_eq.
Qed.

Lemma format_nano_0 : format_nano 0 = [].
Proof. reflexivity. Qed.

Lemma time_shown y m d h mi : 1900 <= y <= 2499 -> calendar_minute y m d h mi ->
  time_string (epoch_minute y m d h mi * (60 * 10 ^ 9)) = shown_minute y m d h mi.
Proof.
  intros Hy (Hm & Hd & Hh & Hmi). unfold time_string.
  change second with 1000000000. replace (epoch_minute y m d h mi * (60 * 10 ^ 9)) with (epoch_minute y m d h mi * 60 * 1000000000) by lia.
  rewrite Z.div_mul, Z_mod_mult by lia. rewrite format_nano_0.
  assert (E : epoch_minute y m d h mi * 60 - absolute_to_unix = (days_since_1900 y m d + day_1900) * 86400 + (h * 3600 + mi * 60)).
  { unfold epoch_minute. assert (K : (day_1900 + days_since_1900 1970 1 1) * 86400 = - absolute_to_unix) by (vm_compute; reflexivity). lia. }
  rewrite E. rewrite Z.div_add_l by lia. rewrite (Z.div_small (h * 3600 + mi * 60)), Z.add_0_r by lia.
  rewrite abs_date_of by (try assumption; lia).
  rewrite (Z.add_comm (_ * 86400)), Z_mod_plus_full, Z.mod_small by lia.
  replace ((h * 3600 + mi * 60) / 3600) with h by (Z.div_mod_to_equations; lia).
  replace ((h * 3600 + mi * 60) mod 3600) with (mi * 60) by (Z.div_mod_to_equations; lia). rewrite Z.div_mul by lia.
  replace ((h * 3600 + mi * 60) mod 60) with 0 by (Z.div_mod_to_equations; lia).
  assert (Md : d <= 31). { unfold month_length in Hd. destruct (m =? 2), (leap_year y), ((m =? 4) || (m =? 6) || (m =? 9) || (m =? 11))%bool; lia. }
  rewrite (proj1 (proj2 (four_digits y ltac:(lia)))) by lia.
  rewrite (proj2 (proj2 (four_digits m ltac:(lia)))), (proj2 (proj2 (four_digits d ltac:(lia)))), (proj2 (proj2 (four_digits h ltac:(lia)))), (proj2 (proj2 (four_digits mi ltac:(lia)))) by lia.
  reflexivity.
Qed.

Lemma minute_exists y m d h mi k : 1900 <= y -> calendar_minute y m d h mi -> 0 <= k -> exists y' m' d' h' mi', minutes_later k y m d h mi y' m' d' h' mi'.
Proof.
  intros Hy (Hm & Hd & Hh & Hmi) Hk. set (T := (days_since_1900 y m d * 24 + h) * 60 + mi + k).
  destruct (date_exists (T / 1440 + day_1900)) as (y' & m' & d' & Y & M & D & E).
  { assert (0 <= days_since_1900 y m d). { destruct (day_of_year y m d Hm Hd) as [B _]. unfold days_since_1900. fold (month_sum y m).
      assert (S0 : 0 <= sum_from year_length 1900 y). { unfold sum_from. clear. generalize (seq 0 (Z.to_nat (y - 1900))). intros l. induction l as [|x l IH]; cbn [map fold_right]; [lia|].
        pose proof (year_length_pos (1900 + Z.of_nat x)). lia. } lia. }
    assert (0 <= T / 1440) by (apply Z.div_pos; lia). lia. }
  exists y', m', d', (T mod 1440 / 60), (T mod 60).
  assert (E' : days_since_1900 y' m' d' = T / 1440) by lia.
  split; [|split].
  - split; [exact M|]. split; [exact D|]. Z.div_mod_to_equations. lia.
  - destruct (Z_lt_le_dec y' y) as [L|L]; [exfalso|exact L].
    assert (Q : days_since_1900 y' m' d' < days_since_1900 y m d).
    { unfold days_since_1900. fold (month_sum y' m') (month_sum y m). rewrite !years_sum by lia.
      destruct (day_of_year y m d Hm Hd) as [B _]. destruct (day_of_year y' m' d' M D) as [B' _].
      pose proof (years_apart y' (y - y') ltac:(change absolute_zero_year with (-292277022399); lia) ltac:(lia)) as P.
      replace (y' + (y - y')) with y in P by lia. lia. }
    rewrite E' in Q. unfold T in Q. Z.div_mod_to_equations. lia.
  - unfold epoch_minute. rewrite E'. subst T. Z.div_mod_to_equations. lia.
Qed.

Lemma minute_unique y m d h mi y' m' d' h' mi' : 1900 <= y -> 1900 <= y' -> calendar_minute y m d h mi -> calendar_minute y' m' d' h' mi' ->
  epoch_minute y m d h mi = epoch_minute y' m' d' h' mi' -> y = y' /\ m = m' /\ d = d' /\ h = h' /\ mi = mi'.
Proof.
  intros Hy Hy' (Hm & Hd & Hh & Hmi) (Hm' & Hd' & Hh' & Hmi') E. unfold epoch_minute in E.
  assert (D : days_since_1900 y m d = days_since_1900 y' m' d') by lia. assert (h = h' /\ mi = mi') as [-> ->] by lia.
  pose proof (abs_date_of y m d Hy Hm Hd) as A. rewrite D, (abs_date_of y' m' d' Hy' Hm' Hd') in A. injection A as -> -> ->. auto.
Qed.

(** At most 293 years later. *)
Lemma minute_year y m d h mi k y' m' d' h' mi' : 1900 <= y <= 2068 -> calendar_minute y m d h mi -> 
  minutes_later k y m d h mi y' m' d' h' mi' -> k <= 153722867 -> y' <= 2499.
Proof.
  intros Hy (Hm & Hd & Hh & Hmi) ((Hm' & Hd' & Hh' & Hmi') & Hyy & E) Hk.
  destruct (Z_lt_le_dec 2499 y') as [L|L]; [exfalso|exact L].
  unfold epoch_minute, days_since_1900 in E. fold (month_sum y m) (month_sum y' m') in E. rewrite (years_sum y), (years_sum y') in E by lia.
  destruct (day_of_year y m d Hm Hd) as [B _]. destruct (day_of_year y' m' d' Hm' Hd') as [B' _].
  pose proof (years_apart 2499 (y' - 2499) ltac:(change absolute_zero_year with (-292277022399); lia) ltac:(lia)) as P.
  replace (2499 + (y' - 2499)) with y' in P by lia. pose proof (year_length_pos 2499). pose proof (year_length_pos y).
  assert (P2 : days_since_epoch y <= days_since_epoch 2069).
  { pose proof (years_apart y (2069 - y) ltac:(change absolute_zero_year with (-292277022399); lia) ltac:(lia)) as P2.
    replace (y + (2069 - y)) with 2069 in P2 by lia. lia. }
  assert (G2 : days_since_epoch 2499 - days_since_epoch 2069 >= 150000) by (vm_compute; discriminate).
  lia.
Qed.

(** * One decimal *)
Lemma round_even_near n d q : 0 < d -> 2 * Z.abs (n - q * d) < d -> round_even n d = q.
Proof.
  intros Hd H. unfold round_even. pose proof (Z_div_mod_eq_full n d). pose proof (Z.mod_pos_bound n d Hd).
  set (a := n / d) in *. set (r := n mod d) in *. clearbody a r. 
  assert (Cases : a = q \/ a = q - 1) by nia.
  destruct (Z.ltb_spec (2 * r) d), (Z.ltb_spec d (2 * r)); destruct Cases; nia.
Qed.

Local Open Scope R_scope.
Lemma IZR_pow2 e : (0 <= e)%Z -> IZR (2 ^ e) = powerRZ 2 e.
Proof. intros H. rewrite <- (Z2Nat.id e) by assumption. rewrite <- pow_powerRZ, <- pow_IZR. reflexivity. Qed.
Lemma fmt_extent x v g : is_value x v -> (900 <= g <= 1500)%Z -> Rabs (v - IZR g) <= 0.011 ->
  fmt_f1 x = digits g ++ bs ".0".
Proof.
  intros Hx Hg Hv. apply Rabs_le_inv in Hv. assert (G : 900 <= IZR g <= 1500) by (split; apply IZR_le; lia).
  destruct x as [s|s| |s m e]; cbn [is_value] in Hx; try contradiction; [exfalso; lra|].
  assert (Pm : 0 < IZR (Zpos m)) by (apply IZR_lt; lia). assert (Pe : 0 < powerRZ 2 e) by (apply powerRZ_lt; lra).
  destruct s; [exfalso; nra|]. rewrite Rmult_1_l in Hx.
  assert (T : tenths_of (Zpos m) e = (10 * g)%Z).
  { unfold tenths_of. destruct (Z.leb_spec 0 e) as [He|He].
    - assert (Ev : v = IZR (Zpos m * 2 ^ e)). { rewrite Hx, mult_IZR. f_equal. symmetry. now apply IZR_pow2. }
      rewrite Ev in Hv. assert (Hz : (Zpos m * 2 ^ e = g)%Z).
      { assert (-1 < Zpos m * 2 ^ e - g < 1)%Z; [|lia]. split; apply lt_IZR; rewrite minus_IZR; lra. } nia.
    - assert (Pd : (0 < 2 ^ (- e))%Z) by (apply Z.pow_pos_nonneg; lia). assert (PdR : 0 < IZR (2 ^ (- e))) by (apply IZR_lt; exact Pd).
      assert (Em : IZR (Zpos m) = v * IZR (2 ^ (- e))).
      { rewrite IZR_pow2, Hx by lia. rewrite Rmult_assoc, <- powerRZ_add by lra. replace (e + - e)%Z with 0%Z by lia. cbn [powerRZ]. lra. }
      apply round_even_near; [exact Pd|]. apply lt_IZR. rewrite mult_IZR, abs_IZR, minus_IZR, !mult_IZR, Em.
      replace (10 * (v * IZR (2 ^ (- e))) - 10 * IZR g * IZR (2 ^ (- e))) with (10 * (v - IZR g) * IZR (2 ^ (- e))) by ring.
      rewrite !Rabs_mult, (Rabs_pos_eq 10), (Rabs_pos_eq (IZR (2 ^ (- e)))) by lra.
      assert (Rabs (v - IZR g) <= 0.011) by (apply Rabs_le; lra). pose proof (Rabs_pos (v - IZR g)). nra. }
  unfold fmt_f1. rewrite T. replace (10 * g)%Z with (g * 10)%Z by ring. rewrite Z.div_mul, Z_mod_mult by lia.
  rewrite (proj1 (four_digits g ltac:(lia))). reflexivity.
Qed.
