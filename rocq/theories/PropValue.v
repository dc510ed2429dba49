(** C61: looking up stored values of any product, from the bytes of a file. *)
From Coq Require Import Reals Lra Lia Psatz.
From Flocq Require Import Core BinarySingleNaN.
From Coq Require String. Import String.StringSyntax.
From Verif Require Import GoBase GoFloat Catalog Composite Header Data Projection Conversion Radolan Vis Spec SpecHeader SpecWriter SpecReal SpecProj ExactReal
  SpecAccuracy SpecZR SpecRain SpecValue BaseFacts RecordFacts CompositeFacts ApiFacts FloatFacts PropFloat PropHeader PropReal PropProjFloat VisFacts AccFacts PropAccuracy
  PropZRFloat PropLookup PropRain.
Local Open Scope R_scope.

Lemma cell_shows p u o : (-37 <= p <= 34)%Z -> u <> Unit_dBZ ->
  match o with Some v => (Z.abs v <= 4095)%Z | None => True end -> shows p o (cell_value p u o).
Proof.
  intros Hp Hu Ho. destruct o as [v|]; cbn [cell_value shows]; [|reflexivity].
  apply C13_accuracy; [lia|lia|assumption|]. unfold ten_to. rewrite Rabs_mult.
  assert (T : 0 < powerRZ 10 p <= powerRZ 10 34).
  { split; [apply powerRZ_lt; lra|]. change 10 with (IZR radix10). rewrite <- !bpow_powerRZ. apply bpow_le. lia. }
  rewrite (Rabs_pos_eq (powerRZ 10 p)) by lra.
  assert (V : Rabs (IZR v) <= 4095) by (rewrite <- abs_IZR; apply IZR_le; lia). pose proof (Rabs_pos (IZR v)).
  assert (powerRZ 10 37 = powerRZ 10 34 * 1000) by (simpl; lra).
  assert (Rabs (IZR v) * powerRZ 10 p <= 4095 * powerRZ 10 34) by (apply Rmult_le_compat; lra). lra.
Qed.

Lemma lit_tenths n : (-999 <= n <= 9999)%Z -> exists x, is_value (f32_lit n (-1)) x /\ Rabs (x - IZR n / 10) <= Rabs (IZR n / 10) / 2 ^ 23.
Proof.
  intros Hn. assert (B : -999 <= IZR n <= 9999) by (split; apply IZR_le; lia).
  destruct (Z.eq_dec n 0) as [->|N0].
  { exists 0. split; [reflexivity|]. unfold Rdiv. rewrite Rmult_0_l, Rminus_eq_0, Rabs_R0. lra. }
  unfold f32_lit, of_decimal. destruct (Z.abs n) as [|p|p] eqn:Ep; [lia| |lia]. cbn [Z.leb Z.compare].
  pose proof (ratio_result prec32 emax32 _ _ (n <? 0)%Z p (Z.to_pos (10 ^ (- -1)))) as Hr.
  change (IZR (Zpos (Z.to_pos (10 ^ (- -1))))) with 10 in Hr.
  assert (E : (if (n <? 0)%Z then -1 else 1) * (IZR (Zpos p) / 10) = IZR n / 10).
  { destruct (Z.ltb_spec n 0); [replace n with (- Zpos p)%Z by lia; rewrite opp_IZR|replace n with (Zpos p) by lia]; lra. }
  rewrite E in Hr. pose proof (rnd32_err (IZR n / 10)) as D. 
  assert (A : 0.1 <= Rabs (IZR n / 10) <= 1000).
  { unfold Rdiv. rewrite Rabs_mult, (Rabs_pos_eq (/ 10)), <- abs_IZR, Ep by lra.
    assert (1 <= IZR (Zpos p) <= 9999) by (split; apply IZR_le; lia). lra. }
  exists (rnd32 (IZR n / 10)). split.
  - apply (result_value _ _ _ _ Hr). apply small_bound. change (IZR (2 ^ 25)) with 33554432.
    change (round radix2 (FLT_exp (3 - emax32 - prec32) prec32) ZnearestE (IZR n / 10)) with (rnd32 (IZR n / 10)).
    replace (rnd32 (IZR n / 10)) with ((rnd32 (IZR n / 10) - IZR n / 10) + IZR n / 10) by ring.
    eapply Rle_trans; [apply Rabs_triang|]. lra.
  - eapply Rle_trans; [exact D|]. lra.
Qed.

Lemma level_shows ls k : List.Forall (fun n => (-999 <= n <= 9999)%Z) ls ->
  shows_level ls k (level_value (map (fun n => f32_lit n (-1)) ls) k).
Proof.
  intros H. unfold shows_level, level_value. destruct (k =? 0)%Z; [reflexivity|]. rewrite nth_error_map.
  destruct (nth_error ls (Z.to_nat (k - 1))) as [n|] eqn:En; cbn [option_map]; [|reflexivity].
  apply lit_tenths. rewrite Forall_forall in H. apply H. eapply nth_error_In. exact En.
Qed.

(** * The theorems *)
Section Values.
Variables (M : mathlib) (K : convs) (E : goenv) (h : header_data) (rows cols : Z) (size : Z * Z) (nw se : R * R).
Hypothesis HM : accurate_library (powerRZ 2 (-48)) M.
Hypothesis W : writable h.
Hypothesis Hsize : h_size h = Size_GP rows cols \/ h_size h = Size_BG rows cols.
Hypothesis Hres : resampled cols rows (fst size) (snd size).
Let format : Z := match h_version h with Some n => n | None => 0%Z end.
Let precision : Z := match h_precision h with Some n => n | None => 0%Z end.
Hypothesis Hcor : documented_corners size (5 <=? format)%Z nw se.
Hypothesis B1 : (cols * 4 <= 2 ^ 48)%Z.
Hypothesis B2 : (rows * 24 <= 2 ^ 48)%Z.
Hypothesis Hknown : written_unit h <> Unit_unknown.

Lemma written_sizes : written_size h cols rows cols rows.
Proof. unfold written_size; destruct Hsize as [-> | ->]; auto. Qed.

(** One-byte values of a product in mm, m/s, km, ... *)
Theorem C61_one_byte cells tail : written_unit h <> Unit_dBZ -> (-37 <= precision <= 34)%Z -> h_levels h = None ->
  h_total h = (len (header_text h) + 1 + cols * rows)%Z ->
  grid_of (fun o => match o with Some v => (0 <= v <= 255 /\ v <> 250)%Z | None => True end) cols rows cells ->
  exists c, new_composite (arith64 M) E (header_text h ++ Byte.x03 :: encode_grid encode_byte_cell cells ++ tail) = Value c /\
  forall p g, stands_for p g ->
    let q := exact_fraction format nw se (fst g) (snd g) in
    let X := IZR cols * fst q in let Y := IZR rows * snd q in
    (forall i j r o, pixel_index cols X i -> pixel_index rows Y j -> nth_is cells j r -> nth_is r i o ->
       exists d, value_at M K c (fst p) (snd p) = Some d /\ shows precision o d) /\
    (off_axis cols X \/ off_axis rows Y -> exists d, value_at M K c (fst p) (snd p) = Some d /\ IsNaN d = true).
Proof.
  intros Hu Hp Hlv Ht Hg.
  destruct (C21_one_byte_file (arith64 M) E h cols rows cols rows cells tail W written_sizes B1 B2 Hlv Ht Hg) as (c & Hc & Hw & Hpl).
  destruct (C21_header_round_trip (arith64 M) E h _ c W Hc) as [_ Hcu]. exists c.
  destruct (lookup_cells M K E h rows cols size nw se HM Hsize Hres Hcor B1 B2 _ _ c cells Hc Hw ltac:(congruence) Hpl) as [Hv Hl].
  split; [exact Hv|]. intros p g Hpg q X Y. destruct (Hl p g Hpg) as [L1 L2]. split.
  - intros i j r o Hi Hj Hr Ho. eexists. split; [exact (L1 i j r o Hi Hj Hr Ho)|]. apply cell_shows; [assumption|assumption|].
    destruct Hg as (_ & _ & Hg). specialize (Hg r o). destruct Hr as [_ Hr], Ho as [_ Ho].
    specialize (Hg (nth_error_In _ _ Hr) (nth_error_In _ _ Ho)). destruct o; [lia|exact I].
  - intros Ho. exists NaN32. split; [now apply L2|reflexivity].
Qed.

(** Two-byte values, as in the RW product (hourly sums in tenths of a millimetre). *)
Theorem C61_two_byte cells tail : written_unit h <> Unit_dBZ -> (-37 <= precision <= 34)%Z -> h_levels h = None ->
  h_total h = (len (header_text h) + 1 + 2 * (cols * rows))%Z ->
  grid_of (fun o => match o with Some v => (- 4095 <= v <= 4095)%Z | None => True end) cols rows cells ->
  exists c, new_composite (arith64 M) E (header_text h ++ Byte.x03 :: encode_grid encode_cell cells ++ tail) = Value c /\
  forall p g, stands_for p g ->
    let q := exact_fraction format nw se (fst g) (snd g) in
    let X := IZR cols * fst q in let Y := IZR rows * snd q in
    (forall i j r o, pixel_index cols X i -> pixel_index rows Y j -> nth_is cells j r -> nth_is r i o ->
       exists d, value_at M K c (fst p) (snd p) = Some d /\ shows precision o d) /\
    (off_axis cols X \/ off_axis rows Y -> exists d, value_at M K c (fst p) (snd p) = Some d /\ IsNaN d = true).
Proof.
  intros Hu Hp Hlv Ht Hg.
  destruct (C21_two_byte_file (arith64 M) E h cols rows cols rows cells tail W written_sizes B1 B2 Hlv Ht Hg) as (c & Hc & Hw & Hpl).
  destruct (C21_header_round_trip (arith64 M) E h _ c W Hc) as [_ Hcu]. exists c.
  destruct (lookup_cells M K E h rows cols size nw se HM Hsize Hres Hcor B1 B2 _ _ c cells Hc Hw ltac:(congruence) Hpl) as [Hv Hl].
  split; [exact Hv|]. intros p g Hpg q X Y. destruct (Hl p g Hpg) as [L1 L2]. split.
  - intros i j r o Hi Hj Hr Ho. eexists. split; [exact (L1 i j r o Hi Hj Hr Ho)|]. apply cell_shows; [assumption|assumption|].
    destruct Hg as (_ & _ & Hg). specialize (Hg r o). destruct Hr as [_ Hr], Ho as [_ Ho].
    specialize (Hg (nth_error_In _ _ Hr) (nth_error_In _ _ Ho)). destruct o; [lia|exact I].
  - intros Ho. exists NaN32. split; [now apply L2|reflexivity].
Qed.

(** Runlength encoded levels, as in the PG product, with any line numbers but
    the newline character. *)
Theorem C61_runlength ls lines tail : h_levels h = Some ls ->
  grid_of (fun v => 0 <= v < 16)%Z cols rows (map snd lines) -> ~ In Byte.x0a (map fst lines) ->
  exists c, new_composite (arith64 M) E (header_text h ++ Byte.x03 :: encode_lines lines ++ tail) = Value c /\
  forall p g, stands_for p g ->
    let q := exact_fraction format nw se (fst g) (snd g) in
    let X := IZR cols * fst q in let Y := IZR rows * snd q in
    (forall i j r k, pixel_index cols X i -> pixel_index rows Y j -> nth_is (map snd lines) j r -> nth_is r i k ->
       exists d, value_at M K c (fst p) (snd p) = Some d /\ shows_level ls k d) /\
    (off_axis cols X \/ off_axis rows Y -> exists d, value_at M K c (fst p) (snd p) = Some d /\ IsNaN d = true).
Proof.
  intros Hlv Hg Hnl.
  destruct (C21_runlength_file (arith64 M) E h cols rows cols rows ls lines tail W written_sizes B1 B2 Hlv Hg Hnl) as (c & Hc & Hw & Hpl).
  destruct (C21_header_round_trip (arith64 M) E h _ c W Hc) as [_ Hcu]. exists c.
  destruct (lookup_cells M K E h rows cols size nw se HM Hsize Hres Hcor B1 B2 _ _ c (map snd lines) Hc Hw ltac:(congruence) Hpl) as [Hv Hl].
  split; [exact Hv|]. intros p g Hpg q X Y. destruct (Hl p g Hpg) as [L1 L2]. split.
  - intros i j r k Hi Hj Hr Ho. eexists. split; [exact (L1 i j r k Hi Hj Hr Ho)|]. apply level_shows. now apply (w_levels _ W).
  - intros Ho. exists NaN32. split; [now apply L2|reflexivity].
Qed.
End Values.
Print Assumptions C61_one_byte.
Print Assumptions C61_two_byte.
Print Assumptions C61_runlength.

(** * Concrete cases: an RW file and a PG file *)
Definition rw_header : header_data :=
  (mk_header (bs "RW") 2016 7 28 21 50 1620056 (Some 3) None (Some (-1)) (Some 60) (Size_GP 900 900) None [])%Z.
Definition rw_cells : list (list (option Z)) := repeat (repeat (Some 123%Z) 900) 900.
Lemma rw_length : len (header_text rw_header) = 55%Z.
Proof. vm_compute. reflexivity. Qed.
Lemma rw_writable : writable rw_header.
Proof.
  constructor.
  - exists Byte.x52, Byte.x57. split; [reflexivity|]. unfold capital.
    split; [split; discriminate|left; split; [split; discriminate|vm_compute; intuition discriminate]].
  - cbn. lia.
  - unfold calendar_minute. cbn. lia.
  - cbn. unfold int_max. lia.
  - intros n [= <-]. unfold int_max. lia.
  - discriminate.
  - intros n [= <-]. lia.
  - intros n [= <-]. lia.
  - cbn. unfold int_max. lia.
  - intros n [=].
  - rewrite rw_length. unfold int_max. lia.
  - cbn. split; [constructor|]. intros k v [].
  - cbn. auto.
Qed.

Definition pg_header : header_data :=
  (mk_header (bs "PG") 2016 7 28 21 5 20000 (Some 3) (Some [10; 190; 280; 370; 460; 550]) None None (Size_BG 460 460) None [])%Z.
Definition pg_lines : list (byte * list Z) := repeat (Byte.x01, repeat 2%Z 460) 460.
Lemma pg_writable : writable pg_header.
Proof.
  constructor.
  - exists Byte.x50, Byte.x47. split; [reflexivity|]. unfold capital.
    split; [split; discriminate|left; split; [split; discriminate|vm_compute; intuition discriminate]].
  - cbn. lia.
  - unfold calendar_minute. cbn. lia.
  - cbn. unfold int_max. lia.
  - intros n [= <-]. unfold int_max. lia.
  - intros ls [= <-]. split; [cbn; lia|]. repeat constructor; lia.
  - discriminate.
  - discriminate.
  - cbn. lia.
  - intros n [=].
  - vm_compute. reflexivity.
  - cbn. split; [constructor|]. intros k v [].
  - cbn. auto.
Qed.

Lemma corner_pixel k : (0 < k <= 1000)%Z -> pixel_index k (IZR k * 0) 0.
Proof. intros Hk. right. split; [reflexivity|]. rewrite Rmult_0_r. assert (IZR k <= 1000) by (apply IZR_le; lia). lra. Qed.

Lemma map_repeat_ {X Y} (f : X -> Y) x n : map f (repeat x n) = repeat (f x) n.
Proof. induction n; cbn [repeat map]; congruence. Qed.

(** 12.3 mm in the corner of the RW file, 19.0 dBZ in the corner of the PG file. *)
Example C61_case (K : convs) (E : goenv) : exists c,
  new_composite (arith64 correct) E (header_text rw_header ++ Byte.x03 :: encode_grid encode_cell rw_cells) = Value c /\
  exists d x, value_at correct K c (deg 545877 4) (deg 20715 4) = Some d /\ is_value d x /\ Rabs (x - 12.3) <= 0.00001.
Proof.
  destruct (C61_two_byte correct K E rw_header 900 900 (900, 900)%Z (54.5877, 2.0715) (47.0705, 14.6209)
    correct_accurate rw_writable (or_introl eq_refl) ltac:(exists 0%Z, 0%Z; cbn [fst snd]; lia) (corners_national) ltac:(lia) ltac:(lia)
    ltac:(discriminate) rw_cells [] ltac:(discriminate) ltac:(cbn; lia) eq_refl) as (c & Hc & Hf).
  - rewrite rw_length. reflexivity.
  - unfold rw_cells. split; [unfold len; now rewrite repeat_length|]. split.
    + intros r Hr. apply repeat_spec in Hr. subst. unfold len. now rewrite repeat_length.
    + intros r x Hr Hx. apply repeat_spec in Hr. subst. apply repeat_spec in Hx. subst. lia.
  - rewrite app_nil_r in Hc. exists c. split; [exact Hc|].
    destruct C55_case_pixel as (W1 & W2 & _ & _ & _).
    destruct (Hf (deg 545877 4, deg 20715 4) (54.5877, 2.0715)) as [Hp _].
    { split; [exact W1|]. split; [exact W2|]. cbn [fst snd]. lra. }
    destruct (Hp 0 0 (repeat (Some 123) 900) (Some 123))%Z as (d & Hd & x & Hx & Dx).
    + cbn [fst snd rw_header h_version]. unfold exact_fraction. cbn [fst snd]. rewrite Rminus_eq_0. unfold Rdiv. rewrite Rmult_0_l. apply corner_pixel. lia.
    + cbn [fst snd rw_header h_version]. unfold exact_fraction. cbn [fst snd]. rewrite Rminus_eq_0. unfold Rdiv. rewrite Rmult_0_l. apply corner_pixel. lia.
    + split; [lia|reflexivity].
    + split; [lia|reflexivity].
    + exists d, x. split; [exact Hd|]. split; [exact Hx|].
      change (h_precision rw_header) with (Some (-1)%Z) in Dx. cbv iota in Dx.
      assert (T : powerRZ 10 (-1) = / 10) by (simpl; lra). rewrite T, (Rabs_pos_eq (123 * / 10)) in Dx by lra.
      replace (x - 12.3) with (x - 123 * / 10) by lra. lra.
Qed.

Example C61_case_runlength (K : convs) (E : goenv) : exists c,
  new_composite (arith64 correct) E (header_text pg_header ++ Byte.x03 :: encode_lines pg_lines) = Value c /\
  exists d x, value_at correct K c (deg 5466218275 8) (deg 1900684377 9) = Some d /\ is_value d x /\ Rabs (x - 19) <= 0.00001.
Proof.
  destruct (C61_runlength correct K E pg_header 460 460 (920, 920)%Z (54.66218275, 1.900684377) (46.98044293, 14.73300934)
    correct_accurate pg_writable (or_intror eq_refl) ltac:(exists 1%Z, 0%Z; cbn [fst snd]; lia) (corners_picture) ltac:(lia) ltac:(lia)
    ltac:(discriminate) [10; 190; 280; 370; 460; 550]%Z pg_lines [] eq_refl) as (c & Hc & Hf).
  - unfold pg_lines. rewrite map_repeat_. split; [unfold len; now rewrite repeat_length|]. split.
    + intros r Hr. apply repeat_spec in Hr. subst. unfold len. cbn [snd]. now rewrite repeat_length.
    + intros r x Hr Hx. apply repeat_spec in Hr. subst. apply repeat_spec in Hx. subst. lia.
  - unfold pg_lines. rewrite map_repeat_. intros H. apply repeat_spec in H. discriminate.
  - rewrite app_nil_r in Hc. exists c. split; [exact Hc|].
    destruct (Hf (deg 5466218275 8, deg 1900684377 9) (54.66218275, 1.900684377)) as [Hp _].
    { unfold stands_for. cbn [fst snd]. split; [apply (lit_within 5466218275 8 55 47); try lia; try lra; try reflexivity; [apply Rabs_le; lra|simpl; lra]|].
      split; [apply (lit_within 1900684377 9 55 46); try lia; try lra; try reflexivity; [apply Rabs_le; lra|simpl; lra]|]. cbn [fst snd]. lra. }
    destruct (Hp 0 0 (repeat 2 460) 2)%Z as (d & Hd & x & Hx & Dx).
    + cbn [fst snd pg_header h_version]. unfold exact_fraction. cbn [fst snd]. rewrite Rminus_eq_0. unfold Rdiv. rewrite Rmult_0_l. apply corner_pixel. lia.
    + cbn [fst snd pg_header h_version]. unfold exact_fraction. cbn [fst snd]. rewrite Rminus_eq_0. unfold Rdiv. rewrite Rmult_0_l. apply corner_pixel. lia.
    + split; [lia|reflexivity].
    + split; [lia|reflexivity].
    + exists d, x. split; [exact Hd|]. split; [exact Hx|]. rewrite (Rabs_pos_eq (190 / 10)) in Dx by lra.
      replace (x - 19) with (x - 190 / 10) by lra. lra.
Qed.
