(** time.Parse on the capture time and the calendar. *)
From Coq Require Import Lia.
From Verif Require Import GoBase GoUtf8 GoTime GoScan GoFloat Catalog Header Spec SpecHeader BaseFacts.

Lemma two_digits_app s1 v1 rest : two_digits s1 v1 -> getnum (s1 ++ rest) true = Some (v1, rest) /\ getnum (s1 ++ rest) false = Some (v1, rest).
Proof.
  intros (a & b & -> & Ha & Hb & ->). cbn [app getnum].
  assert (Hx : is_digit a = true) by (unfold is_digit; apply andb_true_iff; rewrite !Z.leb_le; lia).
  assert (Hy : is_digit b = true) by (unfold is_digit; apply andb_true_iff; rewrite !Z.leb_le; lia).
  rewrite Hx, Hy. auto.
Qed.

Lemma app_inj_length {A} (a b c d : list A) : a ++ b = c ++ d -> length a = length c -> a = c /\ b = d.
Proof.
  revert c. induction a as [|x a IH]; intros [|y c] H Hl; try discriminate; [auto|].
  injection H as -> H. injection Hl as Hl. destruct (IH _ H Hl) as [-> ->]. auto.
Qed.

Lemma getnum_fixed s v r : getnum s true = Some (v, r) -> exists s1, s = s1 ++ r /\ two_digits s1 v.
Proof.
  destruct s as [|a [|b t]]; cbn [getnum]; [discriminate|destruct (is_digit a); discriminate|].
  destruct (is_digit a) eqn:Ha; cbn [negb]; [|discriminate]. destruct (is_digit b) eqn:Hb; [|discriminate].
  intros [= <- <-]. exists [a; b]. split; [reflexivity|]. exists a, b. unfold is_digit in *.
  apply andb_true_iff in Ha, Hb. rewrite !Z.leb_le in *. split; [reflexivity|]. unfold digit. repeat split; lia.
Qed.

Lemma getnum_loose s v r : getnum s false = Some (v, r) -> getnum s true = Some (v, r) \/ getnum r true = None.
Proof.
  destruct s as [|a [|b t]]; cbn [getnum]; [discriminate| |].
  - destruct (is_digit a); cbn [negb]; [|discriminate]. intros [= <- <-]. now right.
  - destruct (is_digit a); cbn [negb]; [|discriminate]. destruct (is_digit b) eqn:Hb; [tauto|].
    intros [= <- <-]. right. cbn. now rewrite Hb.
Qed.

Lemma two_digits_range s v : two_digits s v -> 0 <= v <= 99.
Proof. intros (a & b & -> & Ha & Hb & ->). lia. Qed.

(** The calendar functions agree on the years a header can name. *)
Lemma leap_eq y : is_leap y = leap_year y.
Proof.
  unfold is_leap, leap_year.
  pose proof (Z.div_mod y 4 ltac:(lia)). pose proof (Z.div_mod y 100 ltac:(lia)). pose proof (Z.div_mod y 400 ltac:(lia)).
  pose proof (Z.mod_pos_bound y 4 ltac:(lia)). pose proof (Z.mod_pos_bound y 100 ltac:(lia)). pose proof (Z.mod_pos_bound y 400 ltac:(lia)).
  destruct (Z.eqb_spec (y mod 4) 0); destruct (Z.eqb_spec (y mod 100) 0); destruct (Z.eqb_spec (y mod 400) 0);
  cbn; try reflexivity; exfalso; lia.
Qed.

Lemma between_cases a b (P : Z -> Prop) : (forall k, (k < Z.to_nat (b - a + 1))%nat -> P (a + Z.of_nat k)) ->
  forall x, a <= x <= b -> P x.
Proof. intros H x Hx. replace x with (a + Z.of_nat (Z.to_nat (x - a))) by lia. apply H. lia. Qed.

Lemma range_check a b (f : Z -> bool) :
  forallb (fun k => f (a + Z.of_nat k)) (seq 0 (Z.to_nat (b - a + 1))) = true -> forall x, a <= x <= b -> f x = true.
Proof.
  intros H. apply between_cases. intros k Hk. rewrite forallb_forall in H. apply H. apply in_seq. lia.
Qed.

Lemma days_in_eq y m : 1 <= m <= 12 -> days_in m y = month_length y m.
Proof.
  intros Hm. unfold days_in, month_length. rewrite leap_eq.
  assert (H : m = 1 \/ m = 2 \/ m = 3 \/ m = 4 \/ m = 5 \/ m = 6 \/ m = 7 \/ m = 8 \/ m = 9 \/ m = 10 \/ m = 11 \/ m = 12) by lia.
  destruct (leap_year y); repeat destruct H as [-> | H]; try subst m; reflexivity.
Qed.

Definition date_ok (y m : Z) : bool :=
  go_date y m 1 0 0 =? epoch_minute y m 1 0 0 * 60.

Lemma dates_checked y m : 1969 <= y <= 2068 -> 1 <= m <= 12 -> date_ok y m = true.
Proof.
  intros Hy Hm. revert m Hm.
  assert (H : forall x, 1969 <= x <= 2068 -> (forallb (fun k => date_ok x (1 + Z.of_nat k)) (seq 0 (Z.to_nat (12 - 1 + 1)))) = true).
  { apply range_check. vm_compute. reflexivity. }
  intros m Hm. apply (range_check 1 12 (date_ok y)); auto.
Qed.

Lemma go_date_eq y m d h mi : 1969 <= y <= 2068 -> 1 <= m <= 12 ->
  go_date y m d h mi = epoch_minute y m d h mi * 60.
Proof.
  intros Hy Hm. pose proof (dates_checked y m Hy Hm) as H. unfold date_ok in H. apply Z.eqb_eq in H.
  unfold go_date, epoch_minute, days_since_1900 in *.
  destruct (is_leap y && (3 <=? m)); lia.
Qed.

Lemma atoi_year s y : len s = 2 -> atoi s = Some y <->
  two_digits s y \/ (exists a b, s = [a; b] /\ 48 <= bz b <= 57 /\ ((bz a = 43 /\ y = bz b - 48) \/ (bz a = 45 /\ y = - (bz b - 48)))).
Proof.
  intros Hl. destruct s as [|a [|b [|? ?]]]; try discriminate Hl; [|unfold len in Hl; cbn [length] in Hl; lia].
  unfold atoi. destruct (Z.eqb_spec (bz a) 45) as [Ea|Ea]; destruct (Z.eqb_spec (bz a) 43) as [Eb|Eb]; cbn [orb all_digits].
  - lia.
  - destruct (is_digit b) eqn:Hb; cbn [andb]; unfold is_digit in Hb.
    + apply andb_true_iff in Hb. rewrite !Z.leb_le in Hb. cbn. unfold digit. split.
      * intros [= <-]. right. exists a, b. repeat split; lia.
      * intros [(a' & b' & [= <- <-] & H)|(a' & b' & [= <- <-] & H1 & H2)]; [lia|]. f_equal. lia.
    + apply andb_false_iff in Hb. rewrite !Z.leb_gt in Hb. split; [discriminate|].
      intros [(a' & b' & [= <- <-] & H)|(a' & b' & [= <- <-] & H1 & H2)]; lia.
  - destruct (is_digit b) eqn:Hb; cbn [andb]; unfold is_digit in Hb.
    + apply andb_true_iff in Hb. rewrite !Z.leb_le in Hb. cbn. unfold digit. split.
      * intros [= <-]. right. exists a, b. repeat split; try lia.
      * intros [(a' & b' & [= <- <-] & H)|(a' & b' & [= <- <-] & H1 & H2)]; [lia|]. f_equal. lia.
    + apply andb_false_iff in Hb. rewrite !Z.leb_gt in Hb. split; [discriminate|].
      intros [(a' & b' & [= <- <-] & H)|(a' & b' & [= <- <-] & H1 & H2)]; lia.
  - destruct (is_digit a) eqn:Ha; cbn [andb]; unfold is_digit in Ha.
    + apply andb_true_iff in Ha. rewrite !Z.leb_le in Ha.
      destruct (is_digit b) eqn:Hb; cbn [andb]; unfold is_digit in Hb.
      * apply andb_true_iff in Hb. rewrite !Z.leb_le in Hb. cbn. unfold digit. split.
        -- intros [= <-]. left. exists a, b. repeat split; lia.
        -- intros [(a' & b' & [= <- <-] & H)|(a' & b' & [= <- <-] & H1 & H2)]; f_equal; lia.
      * apply andb_false_iff in Hb. rewrite !Z.leb_gt in Hb. split; [discriminate|].
        intros [(a' & b' & [= <- <-] & H)|(a' & b' & [= <- <-] & H1 & H2)]; lia.
    + apply andb_false_iff in Ha. rewrite !Z.leb_gt in Ha. split; [discriminate|].
      intros [(a' & b' & [= <- <-] & H)|(a' & b' & [= <- <-] & H1 & H2)]; lia.
Qed.

Lemma year_text_range s y : year_text s y -> 1969 <= y <= 2068.
Proof.
  intros [(v & Hv & ->)|(a & b & -> & Hb & H)].
  - apply two_digits_range in Hv. destruct (Z.ltb_spec v 69); lia.
  - lia.
Qed.

Lemma year_text_atoi s y : len s = 2 -> year_text s y <->
  exists v, atoi s = Some v /\ y = if 69 <=? v then v + 1900 else v + 2000.
Proof.
  intros Hl. split.
  - intros [(v & Hv & ->)|(a & b & -> & Hb & H)].
    + exists v. split; [apply atoi_year; auto|]. destruct (Z.ltb_spec v 69); destruct (Z.leb_spec 69 v); lia.
    + destruct H as [[Ha ->]|[Ha ->]].
      * exists (bz b - 48). split; [apply atoi_year; [assumption|]; right; exists a, b; repeat split; try lia|].
        destruct (Z.leb_spec 69 (bz b - 48)); lia.
      * exists (- (bz b - 48)). split; [apply atoi_year; [assumption|]; right; exists a, b; repeat split; try lia|].
        destruct (Z.leb_spec 69 (- (bz b - 48))); lia.
  - intros (v & Ha & ->). apply atoi_year in Ha; [|assumption]. destruct Ha as [Hv|(a & b & -> & Hb & H)].
    + left. exists v. split; [assumption|]. destruct (Z.ltb_spec v 69); destruct (Z.leb_spec 69 v); lia.
    + right. exists a, b. split; [reflexivity|]. split; [assumption|].
      destruct (Z.leb_spec 69 v); lia.
Qed.

Lemma two_digits_len s v : two_digits s v -> length s = 2%nat.
Proof. now intros (a & b & -> & _). Qed.

Theorem time_parse_text d1 d2 t : len d1 = 6 -> len d2 = 4 -> time_parse (d1 ++ d2) = Some t <-> time_text d1 d2 t.
Proof.
  intros Hl1 Hl2. split.
  - unfold time_parse.
    destruct (getnum (d1 ++ d2) true) as [[day v1]|] eqn:G1; [|discriminate].
    destruct (getnum v1 false) as [[hour v2]|] eqn:G2; [|discriminate].
    destruct (Z.leb_spec 24 hour); [discriminate|].
    destruct (getnum v2 true) as [[min v3]|] eqn:G3; [|discriminate].
    destruct (Z.leb_spec 60 min); [discriminate|].
    destruct (getnum v3 true) as [[month v4]|] eqn:G4; [|discriminate].
    destruct ((month <=? 0) || (12 <? month)) eqn:Em; [discriminate|]. apply orb_false_iff in Em. rewrite Z.leb_gt, Z.ltb_ge in Em.
    destruct (Z.ltb_spec (len v4) 2) as [|Hl]; [discriminate|].
    destruct (atoi (firstn 2 v4)) as [yv|] eqn:Ey; [|discriminate].
    destruct (skipn 2 v4) as [|? ?] eqn:Esk; [|discriminate].
    set (year := if 69 <=? yv then yv + 1900 else yv + 2000).
    destruct ((day <? 1) || _) eqn:Ed; [discriminate|]. apply orb_false_iff in Ed. rewrite !Z.ltb_ge in Ed.
    intros [= <-].
    destruct (getnum_loose _ _ _ G2) as [G2'|G2']; [|congruence].
    destruct (getnum_fixed _ _ _ G1) as (s1 & E1 & T1). destruct (getnum_fixed _ _ _ G2') as (s2 & -> & T2).
    destruct (getnum_fixed _ _ _ G3) as (s3 & -> & T3). destruct (getnum_fixed _ _ _ G4) as (s4 & -> & T4).
    assert (Hv4 : firstn 2 v4 = v4). { rewrite <- (firstn_skipn 2 v4) at 2. now rewrite Esk, app_nil_r. }
    rewrite Hv4 in Ey.
    assert (Hlen4 : len v4 = 2). { unfold len in *. rewrite <- Hv4, firstn_length. lia. }
    assert (Hyt : year_text v4 year). { apply year_text_atoi; [assumption|]. exists yv. split; [assumption|reflexivity]. }
    assert (E1' : d1 ++ d2 = (s1 ++ s2 ++ s3) ++ (s4 ++ v4)) by (rewrite E1, !app_assoc; reflexivity).
    pose proof (two_digits_len _ _ T1). pose proof (two_digits_len _ _ T2). pose proof (two_digits_len _ _ T3). pose proof (two_digits_len _ _ T4).
    apply app_inj_length in E1'; [|rewrite !app_length; unfold len in *; lia].
    destruct E1' as [-> ->].
    exists s1, s2, s3, s4, v4, year, month, day, hour, min.
    split; [reflexivity|]. split; [reflexivity|]. do 5 (split; [assumption|]).
    apply two_digits_range in T2, T3.
    split. { unfold calendar_minute. rewrite <- (days_in_eq year month) by lia. lia. }
    rewrite go_date_eq; [reflexivity|now apply (year_text_range v4)|lia].
  - intros (sd & sh & smi & sm & sy & y & m & d & h & mi & -> & -> & T1 & T2 & T3 & T4 & Hy & (Cm & Cd & Ch & Cmi) & ->).
    unfold time_parse. rewrite <- !app_assoc.
    rewrite (proj1 (two_digits_app _ _ _ T1)), (proj2 (two_digits_app _ _ _ T2)).
    destruct (Z.leb_spec 24 h); [lia|].
    rewrite (proj1 (two_digits_app _ _ _ T3)). destruct (Z.leb_spec 60 mi); [lia|].
    rewrite (proj1 (two_digits_app _ _ _ T4)).
    assert (Em : (m <=? 0) || (12 <? m) = false) by (apply orb_false_iff; rewrite Z.leb_gt, Z.ltb_ge; lia).
    rewrite Em.
    assert (Hls : len sy = 2). { pose proof (two_digits_len _ _ T4). unfold len in *. rewrite app_length in Hl2. lia. }
    destruct (Z.ltb_spec (len sy) 2); [lia|].
    rewrite firstn_all2, skipn_all2 by (unfold len in *; lia).
    pose proof (year_text_range _ _ Hy) as Hr.
    apply year_text_atoi in Hy; [|assumption]. destruct Hy as (v & -> & Hyv). rewrite <- Hyv.
    rewrite days_in_eq by assumption.
    assert (Ed : (d <? 1) || (month_length y m <? d) = false) by (apply orb_false_iff; rewrite !Z.ltb_ge; lia).
    rewrite Ed, go_date_eq by (try assumption; lia). reflexivity.
Qed.
