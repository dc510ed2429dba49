(** C59: the documented rainfall lookup, from the bytes of a file to the rate. *)
From Coq Require Import Reals Lra Lia Psatz.
From Flocq Require Import Core BinarySingleNaN.
From Coq Require String. Import String.StringSyntax.
From Verif Require Import GoBase GoFloat Catalog Composite Header Data Projection Conversion Radolan Vis Spec SpecHeader SpecWriter SpecReal SpecProj ExactReal
  SpecAccuracy SpecZR SpecRain BaseFacts RecordFacts CompositeFacts ApiFacts FloatFacts PropFloat PropHeader PropReal PropProjFloat VisFacts AccFacts PropAccuracy
  PropZRFloat PropLookup.
Local Open Scope R_scope.

Lemma float_of_documented size b nwR seR : documented_corners size b nwR seR -> exists nw se, float_corners size b nw se.
Proof. intros []; do 2 eexists; constructor. Qed.

Lemma dbz_valid v : (Z.abs v <= 2 ^ 23)%Z -> valid32 (scaled_value 0 Unit_dBZ v).
Proof.
  intros Hv. rewrite scaled_value_eq. destruct (raw_result 0 v ltac:(lia) ltac:(lia)) as (q & _ & _ & Hr).
  destruct (result_cases _ _ Hr) as [[H1 H2]|[s ->]]; [|rewrite dbz_inf; reflexivity]. exact (proj1 (dbz_value _ _ H1 H2)).
Qed.

Lemma nan_is_nan : IsNaN NaN32 = true. Proof. reflexivity. Qed.

(** No data gives no rate. *)
Lemma rate_nan M lg x y a b : accurate_pow (powerRZ 2 (-48)) (m_pow M) -> nan_power M ->
  relative (powerRZ 2 (-52)) x a -> relative (powerRZ 2 (-52)) y b -> 1 <= a <= 1000 -> 1 <= b <= 2 ->
  rate_of M (new_zr (arith64 M) lg x y) NaN32 = NaN64.
Proof.
  rewrite unit16, unit1. intros HP HN Hx Hy Ha Hb.
  destruct (c3_approx M lg HP x y b Hy Hb) as (V & _ & _ & v & Xv & Pv & Dv).
  unfold rate_of, precipitation_rate. change (n_pow (arith64 M)) with (m_pow M). change (n_mul (arith64 M)) with f64_mul.
  change (f64_of_f32 NaN32) with NaN64. rewrite (HN _ v Xv).
  - destruct (z_c2 _ _) as [s|s| |s m e]; reflexivity.
  - intros ->. rewrite ln_1 in Dv. unfold Rpower in Dv. rewrite ln_exp in Dv. apply Rabs_le_inv in Dv.
    pose proof ln10_range. pose proof u_upper. assert (0.1 <= 1 / (10 * b) * ln 10).
    { replace (1 / (10 * b)) with (/ 10 * / b) by (field; lra). pose proof (inv_b b Hb). nra. }
    lra.
Qed.

Section Named.
Variables (M : mathlib) (lg : f64 -> f64).
Lemma named_cases (P : zr (arith64 M) -> R -> R -> Prop) :
  (forall x y a b, relative (powerRZ 2 (-52)) x a -> relative (powerRZ 2 (-52)) y b -> 1 <= a <= 1000 -> 1 <= b <= 2 ->
    P (new_zr (arith64 M) lg x y) a b) -> List.Forall (fun '(r, a, b) => P r a b) (float_named M lg).
Proof.
  rewrite unit1. intros H. unfold float_named, Aniol80, Doelling98, JossWaldvogel70, MarshallPalmer55.
  assert (I : forall n, (0 < n <= 1000)%Z -> relative u (f64_of_int n) (IZR n)).
  { intros n Hn. destruct (of_int_value64 n ltac:(lia)) as [V X]. now apply relative_value. }
  repeat apply List.Forall_cons; [| | | |apply List.Forall_nil];
    (apply H; [apply I; lia|apply relative_lit; [cbn; lra|lra]|lra|lra]).
Qed.
End Named.

(** A cell of the file is what At finds. *)
Lemma at_plain A E input (c : composite (num A)) x y r d : parsed A E input c -> c_px c = c_dx c -> c_py c = c_dy c ->
  nth_is (c_plain c) y r -> nth_is r x d -> at_ A c x y = Some d.
Proof.
  intros H Ex Ey Hy Hx.
  destruct (parsed_shape A E input c H) as (_ & [L1 L2] & _ & _). pose proof (parsed_layers A E input c H) as HL.
  assert (Hdy : (0 <= y < c_dy c)%Z).
  { destruct Hy as [Hy0 Hy]. assert (Z.to_nat y < length (c_plain c))%nat by (apply nth_error_Some; congruence). unfold len in L1. lia. }
  assert (Hr : len r = c_dx c) by (rewrite <- Ex; apply L2; destruct Hy as [_ Hy]; eapply nth_error_In; eassumption).
  assert (Hdx : (0 <= x < c_dx c)%Z).
  { destruct Hx as [Hx0 Hx]. assert (Z.to_nat x < length r)%nat by (apply nth_error_Some; congruence). unfold len in Hr. lia. }
  rewrite Ey, Z.rem_same, Z.eqb_refl in HL by lia. destruct HL as [Hdz HL].
  assert (c_dz c = 1)%Z by nia. destruct (HL 0%Z y ltac:(lia) Hdy) as (l & r' & R1 & R2 & R3).
  rewrite Z.mul_0_l, Z.add_0_l in R3. apply nth_is_index in R3, Hy. rewrite Hy in R3. injection R3 as <-.
  unfold at_. apply at_z_cell; [unfold inside; lia|]. exists l. split; [assumption|]. exists r. split; assumption.
Qed.

Lemma nth_map {X Y} (f : X -> Y) l i x : nth_is l i x -> nth_is (map f l) i (f x).
Proof. intros [H1 H2]. split; [assumption|]. now rewrite nth_error_map, H2. Qed.

(** The value and rates of one cell. *)
Lemma cell_found M K lg (c : composite (num (arith64 M))) north east o :
  accurate_pow (powerRZ 2 (-48)) (m_pow M) ->
  match o with Some v => (Z.abs v <= 4095)%Z | None => True end ->
  value_at M K c north east = Some (cell_value 0 Unit_dBZ o) -> finds M K lg c north east o.
Proof.
  intros HP Ho Hv. exists (cell_value 0 Unit_dBZ o). split; [exact Hv|]. destruct o as [v|]; cbn [cell_value].
  - split; [apply C12_dbz_exact; lia|]. intros Hb. apply named_cases. intros x y a b Hx Hy Ha Hb'.
    apply C58_rate; try assumption; [apply dbz_valid; lia|apply C12_dbz_exact; lia].
  - split; [reflexivity|]. intros HN. apply (named_cases M lg (fun r _ _ => IsNaN (rate_of M r NaN32) = true)).
    intros x y a b Hx Hy Ha Hb. rewrite (rate_nan M lg x y a b); auto.
Qed.

(** * The theorem *)
Section EndToEnd.
Variables (M : mathlib) (K : convs) (E : goenv) (h : header_data) (rows cols : Z) (size : Z * Z) (nw se : R * R).
Hypothesis HM : accurate_library (powerRZ 2 (-48)) M.
Hypothesis W : writable h.
Hypothesis Hsize : h_size h = Size_GP rows cols \/ h_size h = Size_BG rows cols.
Hypothesis Hres : resampled cols rows (fst size) (snd size).
Let format : Z := match h_version h with Some n => n | None => 0%Z end.
Hypothesis Hcor : documented_corners size (5 <=? format)%Z nw se.
Hypothesis B1 : (cols * 4 <= 2 ^ 48)%Z.
Hypothesis B2 : (rows * 24 <= 2 ^ 48)%Z.

(** Whatever the encoding: the lookup finds the cell of the grid. *)
Lemma lookup_cells {X} (f : X -> f32) input (c : composite (num (arith64 M))) (cells : list (list X)) :
  parsed (arith64 M) E input c -> written h c -> c_unit c <> Unit_unknown ->
  c_plain c = map (map f) cells ->
  new_composite (arith64 M) E input = Value c /\
  forall p g, stands_for p g ->
    let q := exact_fraction format nw se (fst g) (snd g) in
    let X := IZR cols * fst q in let Y := IZR rows * snd q in
    (forall i j r o, pixel_index cols X i -> pixel_index rows Y j -> nth_is cells j r -> nth_is r i o ->
       value_at M K c (fst p) (snd p) = Some (f o)) /\
    (off_axis cols X \/ off_axis rows Y -> value_at M K c (fst p) (snd p) = Some NaN32).
Proof.
  intros Hp Hw Hu Hpl.
  assert (Hd : c_px c = cols /\ c_py c = rows /\ c_dx c = cols /\ c_dy c = rows).
  { destruct Hw as (_ & _ & _ & _ & Hw & _). unfold written_size in Hw. destruct Hsize as [Hs|Hs]; rewrite Hs in Hw; tauto. }
  destruct Hd as (D1 & D2 & D3 & D4). assert (Hf : c_format c = format) by (unfold written in Hw; tauto).
  split.
  { destruct Hp as [Hp|Hp]; [assumption|]. exfalso.
    pose proof (new_composite_inv (arith64 M) E input) as Hs. rewrite Hp in Hs. cbn beta iota in Hs.
    destruct Hs as [[Hs _]|(_ & Hs & _)]; [now apply Hs|now apply Hu]. }
  intros p g Hg q XX Y. destruct Hg as (G1 & G2 & G3 & G4).
  destruct (float_of_documented _ _ _ _ Hcor) as (nw' & se' & Hfc).
  assert (Hgrid : on_float_grid M c size nw' se').
  { split; [left; exists E, input; exact Hp|]. rewrite D3, D4, Hf. split; assumption. }
  assert (Hcor' : documented_corners size (5 <=? c_format c)%Z nw se) by (now rewrite Hf).
  split.
  - intros i j r o Hi Hj Hr Ho.
    rewrite (C55_pixel M K c size nw' se' nw se (fst p) (snd p) (fst g) (snd g) i j); try assumption.
    + eapply (at_plain (arith64 M) E input c); [exact Hp|congruence|congruence| |].
      * rewrite Hpl. apply nth_map. exact Hr.
      * apply nth_map. exact Ho.
    + rewrite D3. lia.
    + rewrite D4. lia.
    + rewrite D3, Hf. exact Hi.
    + rewrite D4, Hf. exact Hj.
  - intros Hoff.
    apply (C55_outside M K c size nw' se' nw se (fst p) (snd p) (fst g) (snd g)); try assumption.
    + rewrite D3. lia.
    + rewrite D4. lia.
    + rewrite D3, D4, Hf. exact Hoff.
Qed.

Variable lg : f64 -> f64.
Hypothesis HP : accurate_pow (powerRZ 2 (-48)) (m_pow M).
Hypothesis Hunit : written_unit h = Unit_dBZ.
Hypothesis Hprec : match h_precision h with Some n => n = 0%Z | None => True end.
Hypothesis Hlv : h_levels h = None.

Lemma lookup_file input (c : composite (num (arith64 M))) cells :
  parsed (arith64 M) E input c -> written h c -> c_unit c = Unit_dBZ ->
  c_plain c = map (map (cell_value 0 Unit_dBZ)) cells ->
  (forall r o, In r cells -> In o r -> match o with Some v => (Z.abs v <= 4095)%Z | None => True end) ->
  new_composite (arith64 M) E input = Value c /\
  forall p g, stands_for p g ->
    let q := exact_fraction format nw se (fst g) (snd g) in
    let X := IZR cols * fst q in let Y := IZR rows * snd q in
    (forall i j r o, pixel_index cols X i -> pixel_index rows Y j -> nth_is cells j r -> nth_is r i o ->
       finds M K lg c (fst p) (snd p) o) /\
    (off_axis cols X \/ off_axis rows Y -> finds M K lg c (fst p) (snd p) None).
Proof.
  intros Hp Hw Hu Hpl Hin. destruct (lookup_cells _ input c cells Hp Hw ltac:(congruence) Hpl) as [Hv Hl].
  split; [exact Hv|]. intros p g Hg. destruct (Hl p g Hg) as [L1 L2]. split.
  - intros i j r o Hi Hj Hr Ho. apply cell_found; [assumption| |now apply (L1 i j r o)].
    apply (Hin r); [destruct Hr as [_ Hr]; eapply nth_error_In|destruct Ho as [_ Ho]; eapply nth_error_In]; eassumption.
  - intros Hoff. apply cell_found; [assumption|exact I|]. now apply L2.
Qed.

(** A file with one-byte values (as the RX product): whatever the grid. *)
Theorem C59_one_byte cells tail :
  h_total h = (len (header_text h) + 1 + cols * rows)%Z ->
  grid_of (fun o => match o with Some v => (0 <= v <= 255 /\ v <> 250)%Z | None => True end) cols rows cells ->
  exists c, new_composite (arith64 M) E (header_text h ++ Byte.x03 :: encode_grid encode_byte_cell cells ++ tail) = Value c /\
  forall p g, stands_for p g ->
    let q := exact_fraction format nw se (fst g) (snd g) in
    let X := IZR cols * fst q in let Y := IZR rows * snd q in
    (forall i j r o, pixel_index cols X i -> pixel_index rows Y j -> nth_is cells j r -> nth_is r i o ->
       finds M K lg c (fst p) (snd p) o) /\
    (off_axis cols X \/ off_axis rows Y -> finds M K lg c (fst p) (snd p) None).
Proof.
  intros Ht Hg.
  assert (Hws : written_size h cols rows cols rows) by (unfold written_size; destruct Hsize as [-> | ->]; auto).
  destruct (C21_one_byte_file (arith64 M) E h cols rows cols rows cells tail W Hws B1 B2 Hlv Ht Hg) as (c & Hp & Hw & Hpl).
  exists c. rewrite Hunit in Hpl. assert (Hpr : match h_precision h with Some n => n | None => 0%Z end = 0%Z) by (destruct (h_precision h); auto).
  rewrite Hpr in Hpl. apply lookup_file; [exact Hp|exact Hw| |exact Hpl|].
  - destruct (C21_header_round_trip (arith64 M) E h _ c W Hp) as [_ ->]. exact Hunit.
  - intros r o H1 H2. destruct Hg as (_ & _ & Hg). specialize (Hg r o H1 H2). destruct o; [lia|exact I].
Qed.

(** A file with two-byte values. *)
Theorem C59_two_byte cells tail :
  h_total h = (len (header_text h) + 1 + 2 * (cols * rows))%Z ->
  grid_of (fun o => match o with Some v => (- 4095 <= v <= 4095)%Z | None => True end) cols rows cells ->
  exists c, new_composite (arith64 M) E (header_text h ++ Byte.x03 :: encode_grid encode_cell cells ++ tail) = Value c /\
  forall p g, stands_for p g ->
    let q := exact_fraction format nw se (fst g) (snd g) in
    let X := IZR cols * fst q in let Y := IZR rows * snd q in
    (forall i j r o, pixel_index cols X i -> pixel_index rows Y j -> nth_is cells j r -> nth_is r i o ->
       finds M K lg c (fst p) (snd p) o) /\
    (off_axis cols X \/ off_axis rows Y -> finds M K lg c (fst p) (snd p) None).
Proof.
  intros Ht Hg.
  assert (Hws : written_size h cols rows cols rows) by (unfold written_size; destruct Hsize as [-> | ->]; auto).
  destruct (C21_two_byte_file (arith64 M) E h cols rows cols rows cells tail W Hws B1 B2 Hlv Ht Hg) as (c & Hp & Hw & Hpl).
  exists c. rewrite Hunit in Hpl. assert (Hpr : match h_precision h with Some n => n | None => 0%Z end = 0%Z) by (destruct (h_precision h); auto).
  rewrite Hpr in Hpl. apply lookup_file; [exact Hp|exact Hw| |exact Hpl|].
  - destruct (C21_header_round_trip (arith64 M) E h _ c W Hp) as [_ ->]. exact Hunit.
  - intros r o H1 H2. destruct Hg as (_ & _ & Hg). specialize (Hg r o H1 H2). destruct o; [lia|exact I].
Qed.
End EndToEnd.
Print Assumptions C59_one_byte.
Print Assumptions C59_two_byte.

(** * A concrete case: an RX file of the national grid *)
Definition rx_header : header_data :=
  (mk_header (bs "RX") 2016 7 28 21 5 810056 (Some 3) None (Some 0) (Some 5) (Size_GP 900 900) None [])%Z.
Definition rx_cells : list (list (option Z)) := repeat (repeat (Some 100%Z) 900) 900.
(** A correctly rounding library that propagates NaN exponents. *)
Definition correct_nan : mathlib :=
  mk_mathlib (m_sin correct) (m_cos correct) (m_tan correct)
    (fun x y => match y with S754_nan => NaN64 | _ => m_pow correct x y end) (m_fused correct).
Lemma correct_nan_accurate : accurate_library (powerRZ 2 (-48)) correct_nan /\
  accurate_pow (powerRZ 2 (-48)) (m_pow correct_nan) /\ nan_power correct_nan.
Proof.
  split; [|split].
  - destruct correct_accurate as (H1 & H2 & H3 & H4). split; [exact H1|]. split; [exact H2|]. split; [exact H3|].
    intros x y a b Vx Vy Hx Hy. destruct y; try (destruct Hy; fail); exact (H4 x _ a b Vx Vy Hx Hy).
  - pose proof correct_pow as H4. intros x y a b Vx Vy Hx Hy. destruct y; try (destruct Hy; fail); exact (H4 x _ a b Vx Vy Hx Hy).
  - intros x r _ _. reflexivity.
Qed.
Lemma rx_length : len (header_text rx_header) = 55%Z.
Proof. vm_compute. reflexivity. Qed.
Lemma rx_writable : writable rx_header.
Proof.
  constructor.
  - exists Byte.x52, Byte.x58. split; [reflexivity|]. unfold capital.
    split; [split; discriminate|left; split; [split; discriminate|vm_compute; intuition discriminate]].
  - cbn. lia.
  - unfold calendar_minute. cbn. lia.
  - cbn. unfold int_max. lia.
  - intros n [= <-]. unfold int_max. lia.
  - discriminate.
  - intros n [= <-]. lia.
  - intros n [= <-]. lia.
  - cbn. unfold int_max. lia.
  - intros n [=].
  - rewrite rx_length. unfold int_max. lia.
  - cbn. split; [constructor|]. intros k v [].
  - cbn. auto.
Qed.
Example C59_case (K : convs) (E : goenv) : exists c,
  new_composite (arith64 correct_nan) E (header_text rx_header ++ Byte.x03 :: encode_grid encode_byte_cell rx_cells) = Value c /\
  finds correct_nan K correct_log10 c (deg 545877 4) (deg 20715 4) (Some 100%Z).
Proof.
  destruct correct_nan_accurate as (H1 & H2 & H3).
  destruct (C59_one_byte correct_nan K E rx_header 900 900 (900, 900)%Z (54.5877, 2.0715) (47.0705, 14.6209)
    H1 rx_writable (or_introl eq_refl) ltac:(exists 0%Z, 0%Z; cbn [fst snd]; lia) (corners_national) ltac:(lia) ltac:(lia)
    correct_log10 H2 eq_refl eq_refl eq_refl rx_cells []) as (c & Hc & Hf).
  - rewrite rx_length. reflexivity.
  - unfold rx_cells. split; [unfold len; now rewrite repeat_length|]. split.
    + intros r Hr. apply repeat_spec in Hr. subst. unfold len. now rewrite repeat_length.
    + intros r x Hr Hx. apply repeat_spec in Hr. subst. apply repeat_spec in Hx. subst. lia.
  - rewrite app_nil_r in Hc. exists c. split; [exact Hc|].
    destruct C55_case_pixel as (W1 & W2 & _ & _ & _).
    destruct (Hf (deg 545877 4, deg 20715 4) (54.5877, 2.0715)) as [Hp _].
    { split; [exact W1|]. split; [exact W2|]. cbn [fst snd]. lra. }
    assert (Z0 : forall k : Z, (0 < k <= 1000)%Z -> pixel_index k (IZR k * 0) 0).
    { intros k Hk. right. split; [reflexivity|]. rewrite Rmult_0_r. assert (IZR k <= 1000) by (apply IZR_le; lia). lra. }
    apply (Hp 0 0 (repeat (Some 100) 900) (Some 100))%Z.
    + cbn [fst snd rx_header h_version]. unfold exact_fraction. cbn [fst snd]. rewrite Rminus_eq_0. unfold Rdiv. rewrite Rmult_0_l. apply Z0. lia.
    + cbn [fst snd rx_header h_version]. unfold exact_fraction. cbn [fst snd]. rewrite Rminus_eq_0. unfold Rdiv. rewrite Rmult_0_l. apply Z0. lia.
    + split; [lia|reflexivity].
    + split; [lia|reflexivity].
Qed.
Print Assumptions C59_case.
