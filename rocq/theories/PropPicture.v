(** C62: from the bytes of a file to the colours of the picture. *)
From Coq Require Import Reals Lra Lia Psatz.
From Flocq Require Import Core BinarySingleNaN.
From Coq Require String. Import String.StringSyntax.
From Verif Require Import GoBase GoFloat Catalog Composite Header Data Projection Radolan Vis Png Spec SpecHeader SpecWriter SpecReal SpecProj SpecVis
  SpecAccuracy SpecZR SpecRain SpecValue SpecSamples SpecPicture BaseFacts RecordFacts CompositeFacts ApiFacts FloatFacts PropFloat PropGrid PropHeader PropReal PropProjFloat VisFacts
  AccFacts PropAccuracy PropGray PropHeat PropRadial PropZRFloat PropTool PropRain PropValue PropSamples PropFile.
Local Open Scope R_scope.

(** * The colour functions on stored values *)
Definition in_range (levels : option (list Z)) (o : option Z) : Prop :=
  match o with Some v => match levels with Some _ => (-999 <= v <= 9999)%Z | None => (Z.abs v <= 4095)%Z end | None => True end.
Definition stored_float (levels : option (list Z)) (p : Z) (u : unit_t) (o : option Z) : f32 :=
  match o with Some v => match levels with Some _ => f32_lit v (-1) | None => scaled_value p u v end | None => NaN32 end.
Definition scale_of (levels : option (list Z)) (p : Z) : Z := match levels with Some _ => (-1)%Z | None => p end.

Lemma lit_valid n : valid32 (f32_lit n (-1)).
Proof.
  unfold f32_lit, of_decimal. destruct (Z.abs n) as [|p|p]; [reflexivity| |reflexivity]. cbn [Z.leb Z.compare].
  pose proof (ratio_result prec32 emax32 _ _ (n <? 0)%Z p (Z.to_pos (10 ^ (- -1)))) as Hr. exact (result_valid _ _ _ _ Hr).
Qed.
Lemma lit_measured n : (-999 <= n <= 9999)%Z -> exists x, valid32 (f32_lit n (-1)) /\ is_value (f32_lit n (-1)) x /\ measured (-1) n x.
Proof.
  intros Hn. destruct (lit_tenths n Hn) as (x & X & D). exists x. split; [apply lit_valid|]. split; [exact X|]. unfold measured.
  replace (IZR n * powerRZ 10 (-1)) with (IZR n / 10) by (change (powerRZ 10 (-1)) with (/ (10 * 1)); lra). eapply Rle_trans; [exact D|].
  pose proof (Rabs_pos (IZR n / 10)). apply Rmult_le_compat_l; lra.
Qed.
Lemma stored_value lv p u v : (-37 <= scale_of lv p <= 34)%Z -> u <> Unit_dBZ -> in_range lv (Some v) ->
  exists x, valid32 (stored_float lv p u (Some v)) /\ is_value (stored_float lv p u (Some v)) x /\ measured (scale_of lv p) v x.
Proof.
  intros Hp Hu Hv. destruct lv as [ls|]; cbn [in_range stored_float scale_of] in *; [exact (lit_measured v Hv)|].
  destruct (cell_shows p u (Some v) Hp Hu Hv) as (x & Hx & Dx). exists x. split; [|split; [exact Hx|exact Dx]].
  - rewrite scaled_value_eq. destruct (raw_result p v ltac:(lia) ltac:(lia)) as (q & _ & _ & Hr). 
    destruct u; try congruence; exact (result_valid _ _ _ _ Hr).
Qed.

(** Reflectivity. *)
Lemma reflectivity_shown K o : in_range None o ->
  reflectivity_color K o (HeatmapReflectivity K (f64_of_f32 (stored_float None 0 Unit_dBZ o))).
Proof.
  intros Ho. destruct o as [v|]; cbn [reflectivity_color stored_float in_range] in *; [|exact (C63_reflectivity K NaN32 eq_refl)].
  pose proof (C12_dbz_exact v ltac:(lia)) as X. pose proof (C63_reflectivity K _ (dbz_valid v ltac:(lia))) as H.
  cbv zeta. set (d := scaled_value 0 Unit_dBZ v) in *. clearbody d.
  replace ((IZR v / 2 - 32.5 - 1) / 74) with ((IZR v / 2 - 32.5 - 1) / (75 - 1)) by lra.
  destruct d as [s|s| |s m e]; try (exfalso; exact X); exact (H _ X).
Qed.
Lemma level_reflectivity_shown K ls p o : in_range (Some ls) o ->
  level_reflectivity_color K o (HeatmapReflectivity K (f64_of_f32 (stored_float (Some ls) p Unit_dBZ o))).
Proof.
  intros Ho. destruct o as [v|]; cbn [level_reflectivity_color stored_float in_range] in *; [|exact (C63_reflectivity K NaN32 eq_refl)].
  destruct (lit_measured v Ho) as (x & V & X & Mx). exists x. split; [exact Mx|]. pose proof (C63_reflectivity K _ V) as H.
  set (d := f32_lit v (-1)) in *. clearbody d. replace ((x - 1) / 74) with ((x - 1) / (75 - 1)) by lra.
  destruct d as [s|s| |s m e]; try (exfalso; exact X); exact (H _ X).
Qed.

(** Echo tops. *)
Lemma echo_top_shown K lv p o : (-37 <= scale_of lv p <= 34)%Z -> in_range lv o ->
  echo_top_color K (scale_of lv p) o (graymap K (fl 0) (fl 15) Id (f64_of_f32 (stored_float lv p Unit_km o))).
Proof.
  intros Hp Ho. destruct o as [v|]; [|now apply C41_nan].
  destruct (stored_value lv p Unit_km v Hp ltac:(discriminate) Ho) as (x & V & X & Mx). exists x. split; [exact Mx|].
  pose proof (gray_id K (fl 0) (fl 15) 0 15 _ C41_case V) as H. set (d := stored_float lv p Unit_km (Some v)) in *. clearbody d.
  replace (x / 15) with ((x - 0) / (15 - 0)) by lra.
  destruct d as [s|s| |s m e]; try (exfalso; exact X); exact (H _ X).
Qed.

Section Logarithm.
Variable log : f64 -> f64.
Hypothesis HL : natural_log (powerRZ 2 (-48)) log.

(** Precipitation. *)
Lemma precipitation_shown K lv p n o : In n [100; 200; 400]%Z -> (-37 <= scale_of lv p <= 34)%Z -> in_range lv o ->
  precipitation_color K (scale_of lv p) (IZR n) o (heatmap K (flit 1 1) (fl n) log (f64_of_f32 (stored_float lv p Unit_mm o))).
Proof.
  intros Hn Hp Ho. destruct o as [v|]; [|exact (heat_log log HL K n NaN32 Hn eq_refl)].
  destruct (stored_value lv p Unit_mm v Hp ltac:(discriminate) Ho) as (x & V & X & Mx). exists x. split; [exact Mx|].
  pose proof (heat_log log HL K n _ Hn V) as H. set (d := stored_float lv p Unit_mm (Some v)) in *. clearbody d.
  destruct d as [s|s| |s m e]; try (exfalso; exact X); exact (H _ X).
Qed.

(** Radial velocities. *)
Lemma velocity_shown K lv p o : (-37 <= scale_of lv p <= 34)%Z -> in_range lv o ->
  velocity_color (scale_of lv p) o (radialmap K (flit (-315) 1) (flit 315 1) log (f64_of_f32 (stored_float lv p Unit_mps o))).
Proof.
  intros Hp Ho. destruct o as [v|]; [|exact (radial_log log HL K NaN32 eq_refl)].
  destruct (stored_value lv p Unit_mps v Hp ltac:(discriminate) Ho) as (x & V & X & Mx). exists x. split; [exact Mx|].
  pose proof (radial_log log HL K _ V) as H. set (d := stored_float lv p Unit_mps (Some v)) in *. clearbody d.
  destruct d as [s|s| |s m e]; try (exfalso; exact X); exact (H _ X).
Qed.
End Logarithm.

(** The picture shows the first layer. *)
Lemma at_shown A E input (c : composite (num A)) x y r d : parsed A E input c -> (0 <= y < c_dy c)%Z -> (0 <= x < c_dx c)%Z ->
  nth_is (c_plain c) (shown_row (c_py c) (c_dy c) y) r -> nth_is r x d -> at_ A c x y = Some d.
Proof.
  intros H Hy Hx Hr Hd. destruct (C05_layers A E input c H) as [L1 L2].
  assert (HL : (0 < c_dz c)%Z /\ exists l, nth_is (c_dataz c) 0 l /\ nth_is l y r).
  { unfold shown_row in Hr. destruct (Z.eqb_spec (c_py c mod c_dy c) 0) as [Hm|Hm].
    - destruct (L1 Hm) as [Hz HL]. assert (P : (0 < c_dz c)%Z) by (destruct (parsed_shape A E input c H) as ((_ & _ & _ & _ & Hdz) & _); exact Hdz).
      split; [exact P|]. destruct (HL 0%Z y ltac:(lia) Hy) as (l & r' & R1 & R2 & R3). exists l. split; [exact R1|].
      rewrite Z.mul_0_l, Z.add_0_l in R3. destruct R3 as [_ R3], Hr as [_ Hr]. rewrite Hr in R3. injection R3 as <-. exact R2.
    - destruct (L2 Hm) as (Hz & _ & HL). split; [lia|]. destruct (HL y Hy) as (l & r' & R1 & R2 & R3). exists l. split; [exact R1|].
      destruct R3 as [_ R3], Hr as [_ Hr]. rewrite Hr in R3. injection R3 as <-. exact R2. }
  destruct HL as (Hz & l & R1 & R2). unfold at_. apply at_z_cell; [unfold inside; lia|]. exists l. split; [exact R1|]. exists r. split; assumption.
Qed.

Section Picture.
Variables (M : mathlib) (log : f64 -> f64) (K : convs) (E : goenv) (border : list (f64 * f64)).
Variables (w : world) (inp out bytes : list byte) (h : header_data) (px py cols rows : Z) (cells : list (list (option Z))).
Let format : Z := match h_version h with Some n => n | None => 0%Z end.
(** Levels are written in tenths. *)
Let precision : Z := match h_levels h with Some _ => (-1)%Z | None => match h_precision h with Some n => n | None => 0%Z end end.
Let minute : Z := (60 * 10 ^ 9)%Z.
Let interval : Z := ((match h_interval h with Some n => n | None => 0 end) * minute *
                 (if existsb (str_eqb (h_label h)) [bs "W1"; bs "W2"; bs "W3"; bs "W4"] then 10 else 1))%Z.
Let forecast : Z := ((epoch_minute (h_year h) (h_month h) (h_day h) (h_hour h) (h_minute h) +
                 match h_offset h with Some n => n | None => 0 end) * minute)%Z.

(** The run succeeds; it prints the product, its unit and the forecast time,
    and the extent if the size is that of a documented grid; and the picture has
    a pixel for each cell (of the first layer), coloured by [color] but where
    border or mesh are drawn. *)
Definition draws (color : option Z -> rgba -> Prop) : Prop :=
  exists c i name extent, new_composite (arith64 M) E bytes = Value c /\
    unit_string (unit_code (written_unit h)) = Some name /\
    convert M log K E border w inp out = EvOpen inp :: EvInfo (h_label h) (Some name) forecast :: extent ++ [EvCreate out; EvWritePng i] /\
    (projectable format cols rows -> exists width height, extent = [EvGrid width height]) /\
    (~ projectable format cols rows -> extent = []) /\
    (i_x0 i = 0 /\ i_y0 i = 0 /\ i_x1 i = cols /\ i_y1 i = rows)%Z /\
    forall x y r o, (0 <= x < cols)%Z -> (0 <= y < rows)%Z -> nth_is cells (shown_row py rows y) r -> nth_is r x o ->
      ~ projectable format cols rows \/ (~ drawn_at M K c (mesh_points K) x y /\ ~ drawn_at M K c border x y) ->
      color o (i_pix i x y).

Hypothesis W : writable h.
Hypothesis Hsize : written_size h px py cols rows.
Hypothesis Hbytes : file_of h px py cells bytes.
Hypothesis Hpic : (cols * rows * 4 <= 2 ^ 48)%Z.
Hypothesis Hcol : (px * 4 <= 2 ^ 48)%Z.
Hypothesis Hrow : (py * 24 <= 2 ^ 48)%Z.
Hypothesis Hin : w_input w inp = Some bytes.
Hypothesis Hcr : w_create w = true.
Hypothesis Hen : w_encode w = true.
Hypothesis Hknown : written_unit h <> Unit_unknown.

Let own : Z := match h_precision h with Some n => n | None => 0%Z end.
Lemma file_parsed : exists c, parsed (arith64 M) E bytes c /\ written h c /\ c_unit c = written_unit h /\
  c_plain c = map (map (stored_float (h_levels h) own (written_unit h))) cells.
Proof.
  destruct Hbytes as [cs tail Hlv Ht Hg|cs tail Hlv Ht Hg|ls lines tail Hlv Hg Hn].
  - destruct (C21_one_byte_file (arith64 M) E h px py cols rows cs tail W Hsize Hcol Hrow Hlv Ht Hg) as (c & Hc & Hw & Hpl).
    exists c. destruct (C21_header_round_trip (arith64 M) E h _ c W Hc) as [_ Hu]. rewrite Hlv. auto.
  - destruct (C21_two_byte_file (arith64 M) E h px py cols rows cs tail W Hsize Hcol Hrow Hlv Ht Hg) as (c & Hc & Hw & Hpl).
    exists c. destruct (C21_header_round_trip (arith64 M) E h _ c W Hc) as [_ Hu]. rewrite Hlv. auto.
  - destruct (C21_runlength_file (arith64 M) E h px py cols rows ls lines tail W Hsize Hcol Hrow Hlv Hg Hn) as (c & Hc & Hw & Hpl).
    exists c. destruct (C21_header_round_trip (arith64 M) E h _ c W Hc) as [_ Hu]. rewrite Hlv.
    split; [exact Hc|]. split; [exact Hw|]. split; [exact Hu|]. rewrite Hpl, (map_map (map (level_number ls))). apply map_ext. intros r. rewrite map_map.
    apply map_ext. intros k. unfold level_value, level_number. destruct (k =? 0)%Z; [reflexivity|]. rewrite nth_error_map.
    destruct (nth_error ls (Z.to_nat (k - 1))); reflexivity.
Qed.

Lemma stored_range r o : In r cells -> In o r -> in_range (h_levels h) o.
Proof.
  destruct Hbytes as [cs tail Hlv Ht Hg|cs tail Hlv Ht Hg|ls lines tail Hlv Hg Hn]; rewrite Hlv; intros H1 H2.
  - destruct Hg as (_ & _ & Hg); specialize (Hg r o H1 H2); (destruct o; cbn; [lia|exact I]).
  - destruct Hg as (_ & _ & Hg); specialize (Hg r o H1 H2); (destruct o; cbn; [lia|exact I]).
  - apply in_map_iff in H1 as (r' & <- & _). apply in_map_iff in H2 as (k & <- & _). unfold level_number. destruct (k =? 0)%Z; [exact I|].
    destruct (nth_error ls (Z.to_nat (k - 1))) as [n|] eqn:En; [|exact I]. cbn. destruct (w_levels h W ls Hlv) as [_ Hf].
    rewrite List.Forall_forall in Hf. apply Hf. eapply nth_error_In. exact En.
Qed.

(** Any colour that fits the chosen colour function. *)
Lemma run_draws (color : option Z -> rgba -> Prop) :
  (forall f r o, chosen log K (written_unit h) interval f -> In r cells -> In o r -> color o (f (f64_of_f32 (stored_float (h_levels h) own (written_unit h) o)))) ->
  draws color.
Proof.
  intros Hcolor. destruct file_parsed as (c & Hp & Hw & Hu & Hpl).
  assert (Hv : new_composite (arith64 M) E bytes = Value c).
  { destruct Hp as [Hp|Hp]; [assumption|]. exfalso.
    pose proof (new_composite_inv (arith64 M) E bytes) as Hs. rewrite Hp in Hs. cbn beta iota in Hs.
    destruct Hs as [[Hs _]|(_ & Hs & _)]; [now apply Hs|]. apply Hknown. cbn [num arith64] in *. congruence. }
  assert (Hd : c_px c = px /\ c_py c = py /\ c_dx c = cols /\ c_dy c = rows).
  { destruct Hw as (_ & _ & _ & _ & Hw & _). unfold written_size in Hw, Hsize. destruct (h_size h); try tauto; [lia|lia|].
    destruct Hw as (v & Hv1 & Hw), Hsize as (v' & Hv2 & Hs). rewrite Hv1 in Hv2. injection Hv2 as <-. lia. }
  destruct Hd as (D1 & D2 & D3 & D4). assert (Hf : c_format c = format) by (unfold written in Hw; tauto).
  assert (Hi : c_interval c = interval) by (unfold written in Hw; tauto).
  assert (Hfc : c_forecast c = forecast).
  { destruct Hw as (_ & H1 & H2 & _). rewrite H2, H1. unfold forecast, minute, ns_per_minute. lia. }
  assert (Hl : c_product c = h_label h) by (unfold written in Hw; tauto).
  destruct (C44_run M log K E border w inp out c) as (i & name & (Hb & Hpix) & Hname & Hrun).
  { exists bytes. auto. } { cbn [num arith64] in *. rewrite D3, D4. exact Hpic. }
  cbn [num arith64] in *.
  pose proof (C33_parsed (arith64 M) E bytes c Hp) as Hproj. cbn [num arith64] in *. rewrite D3, D4, Hf in Hproj.
  rewrite Hu in Hname. rewrite Hcr, Hen, Hl, Hfc in Hrun. rewrite D3, D4 in Hb.
  eexists c, i, name, _. split; [exact Hv|]. split; [exact Hname|]. split; [exact Hrun|].
  split; [intros Hpr; apply Hproj in Hpr; rewrite Hpr; eauto|].
  split; [intros Hpr; destruct (c_has_projection c); [exfalso; tauto|reflexivity]|].
  split; [exact Hb|]. intros x y r o Hx Hy Hr Ho Hcov.
  assert (Hat : at_ (arith64 M) c x y = Some (stored_float (h_levels h) own (written_unit h) o)).
  { apply (at_shown (arith64 M) E bytes c x y (map (stored_float (h_levels h) own (written_unit h)) r)); cbn [num arith64]; [exact Hp|lia|lia| |].
    - rewrite Hpl, D2, D4. apply nth_map. exact Hr.
    - apply nth_map. exact Ho. }
  destruct (Hpix x y) as (_ & _ & Hp3); [lia|lia|].
  destruct Hp3 as (f & v & Hch & Hat' & ->).
  { destruct Hcov as [Hc|Hc]; [left|right; exact Hc]. destruct (c_has_projection c); [exfalso; tauto|reflexivity]. }
  rewrite Hat in Hat'. injection Hat' as <-. rewrite Hu, Hi in Hch.
  apply (Hcolor f r o Hch); [destruct Hr as [_ Hr]; eapply nth_error_In|destruct Ho as [_ Ho]; eapply nth_error_In]; eassumption.
Qed.

(** Reflectivity: one-byte or two-byte values of precision 0 in half dBZ from -32.5. *)
Theorem C62_reflectivity : written_unit h = Unit_dBZ -> h_levels h = None -> precision = 0%Z -> draws (reflectivity_color K).
Proof.
  intros Hu Hlv Hp. apply run_draws. intros f r o Hf Hr Ho. pose proof (stored_range r o Hr Ho) as Ho'. unfold precision in Hp. unfold own.
  rewrite Hu, Hlv in *. rewrite Hp. inversion Hf; subst. apply reflectivity_shown. exact Ho'.
Qed.

(** Reflectivity levels in dBZ. *)
Theorem C62_level_reflectivity : written_unit h = Unit_dBZ -> h_levels h <> None -> draws (level_reflectivity_color K).
Proof.
  intros Hu Hlv. apply run_draws. intros f r o Hf Hr Ho. pose proof (stored_range r o Hr Ho) as Ho'. 
  destruct (h_levels h) as [ls|]; [|congruence]. rewrite Hu in *. inversion Hf; subst. apply level_reflectivity_shown. exact Ho'.
Qed.

(** Precipitation, over the interval the product is accumulated. *)
Theorem C62_precipitation top : natural_log (powerRZ 2 (-48)) log -> written_unit h = Unit_mm -> (-37 <= precision <= 34)%Z ->
  top_of interval top -> draws (precipitation_color K precision top).
Proof.
  intros HL Hu Hp Ht. apply run_draws. intros f r o Hf Hr Ho. rewrite Hu in *. pose proof (stored_range r o Hr Ho) as Ho'.
  inversion Hf; subst; inversion Ht; subst; try (exfalso; lia);
    (apply (precipitation_shown log HL K (h_levels h) own _ o); [cbn; tauto|assumption|assumption]).
Qed.

(** Echo tops. *)
Theorem C62_echo_top : written_unit h = Unit_km -> (-37 <= precision <= 34)%Z -> draws (echo_top_color K precision).
Proof.
  intros Hu Hp. apply run_draws. intros f r o Hf Hr Ho. rewrite Hu in *. inversion Hf; subst.
  apply (echo_top_shown K (h_levels h) own o); [assumption|]. exact (stored_range r o Hr Ho).
Qed.

(** Radial velocities. *)
Theorem C62_velocity : natural_log (powerRZ 2 (-48)) log -> written_unit h = Unit_mps -> (-37 <= precision <= 34)%Z ->
  draws (velocity_color precision).
Proof.
  intros HL Hu Hp. apply run_draws. intros f r o Hf Hr Ho. rewrite Hu in *. inversion Hf; subst.
  apply (velocity_shown log HL K (h_levels h) own o); [assumption|]. exact (stored_range r o Hr Ho).
Qed.
End Picture.
Print Assumptions C62_reflectivity.
Print Assumptions C62_level_reflectivity.
Print Assumptions C62_precipitation.
Print Assumptions C62_echo_top.
Print Assumptions C62_velocity.

(** * Concrete cases: small files of reflectivity (RX) and hourly precipitation (RW) *)
Definition small_rx : header_data :=
  (mk_header (bs "RX") 2016 7 28 21 5 62 (Some 3) None (Some 0) (Some 5) (Size_GP 2 3) None [])%Z.
Definition small_rx_cells : list (list (option Z)) := [[None; Some 0; Some 66]; [Some 67; Some 100; Some 255]]%Z.
Definition small_rw : header_data :=
  (mk_header (bs "RW") 2016 7 28 21 50 68 (Some 3) None (Some (-1)) (Some 60) (Size_GP 2 3) None [])%Z.
Definition small_rw_cells : list (list (option Z)) := [[None; Some 0; Some 1]; [Some 123; Some 4095; Some (-7)]]%Z.

Ltac small_writable :=
  constructor; [| |unfold calendar_minute|unfold int_max| |discriminate| | |unfold int_max| | | |cbn; auto];
  cbn; try lia; try (intros n [= <-]; unfold int_max; lia); try (intros n [=]); try (vm_compute; reflexivity);
  try (split; [constructor|]; intros k v []).
Lemma small_rx_writable : writable small_rx.
Proof.
  small_writable. exists Byte.x52, Byte.x58. split; [reflexivity|]. unfold capital.
  split; [split; discriminate|left; split; [split; discriminate|vm_compute; intuition discriminate]].
Qed.
Lemma small_rw_writable : writable small_rw.
Proof.
  small_writable. exists Byte.x52, Byte.x57. split; [reflexivity|]. unfold capital.
  split; [split; discriminate|left; split; [split; discriminate|vm_compute; intuition discriminate]].
Qed.

(** The six pixels of the small RX file: gray, black (-32.5 dBZ), black (0.5 dBZ),
    the foot of the gradient (1 dBZ), 17.5 dBZ and its top (95 dBZ). *)
Example C62_case (M : mathlib) (log : f64 -> f64) (K : convs) (E : goenv) border (name out : list byte) :
  let bytes := header_text small_rx ++ Byte.x03 :: encode_grid encode_byte_cell small_rx_cells in
  let w := mk_world (fun n => if str_eqb n name then Some bytes else None) true true in
  draws M log K E border w name out bytes small_rx 2 3 2 small_rx_cells (reflectivity_color K).
Proof.
  cbv zeta. apply (C62_reflectivity M log K E border _ name out _ small_rx 3 2 3 2 small_rx_cells); try reflexivity; try lia; try discriminate.
  - exact small_rx_writable.
  - cbn. auto.
  - rewrite <- (app_nil_r (encode_grid _ _)). apply one_byte_cells; [reflexivity|reflexivity|]. 
    split; [reflexivity|]. split; [intros r [<-|[<-|[]]]; reflexivity|].
    intros r x [<-|[<-|[]]] Hx; cbn in Hx; decompose [or] Hx; subst; try exact I; try lia; try tauto.
  - cbn [w_input]. rewrite str_eqb_refl. apply eq_refl.
Qed.

Example C62_case_log (M : mathlib) (K : convs) (E : goenv) border (name out : list byte) :
  let bytes := header_text small_rw ++ Byte.x03 :: encode_grid encode_cell small_rw_cells in
  let w := mk_world (fun n => if str_eqb n name then Some bytes else None) true true in
  draws M correct_ln K E border w name out bytes small_rw 2 3 2 small_rw_cells (precipitation_color K (-1) 100).
Proof.
  cbv zeta. apply (C62_precipitation M correct_ln K E border _ name out _ small_rw 3 2 3 2 small_rw_cells); try reflexivity; try (cbn; lia); try discriminate.
  - exact small_rw_writable.
  - rewrite <- (app_nil_r (encode_grid _ _)). apply two_byte_cells; [reflexivity|reflexivity|]. 
    split; [reflexivity|]. split; [intros r [<-|[<-|[]]]; reflexivity|].
    intros r x [<-|[<-|[]]] Hx; cbn in Hx; decompose [or] Hx; subst; try exact I; try lia; try tauto.
  - cbn [w_input]. rewrite str_eqb_refl. apply eq_refl.
  - exact correct_ln_accurate.
  - apply top_hour. cbn. lia.
Qed.

(** A local picture (PF, 200 * 224 cells of which the bottom 200 rows are
    shown) of levels in dBZ: the rows get brighter from top to bottom. *)
Definition local_pf : header_data :=
  (mk_header (bs "PF") 2016 7 28 21 5 20000 None (Some [10; 190; 280; 370; 460; 550]) None None Size_local None [])%Z.
Definition local_lines : list (byte * list Z) :=
  map (fun n => (Byte.x01, (repeat 0 100 ++ repeat (Z.of_nat n / 30) 100)%Z)) (seq 0 224).
Definition local_cells : list (list (option Z)) := map (map (level_number [10; 190; 280; 370; 460; 550]%Z)) (map snd local_lines).
Lemma local_pf_writable : writable local_pf.
Proof.
  constructor; [| |unfold calendar_minute|unfold int_max| | | | | | | | |cbn; auto]; cbn; try (intros n [=]); try discriminate.
  - exists Byte.x50, Byte.x46. split; [reflexivity|]. unfold capital.
    split; [split; discriminate|left; split; [split; discriminate|vm_compute; intuition discriminate]].
  - lia.
  - lia.
  - lia.
  - split; [subst; vm_compute; discriminate|]. subst. repeat (constructor; [lia|]). constructor.
  - vm_compute. reflexivity.
  - split; [constructor|]. intros k v [].
Qed.
Lemma local_file : file_of local_pf 200 224 local_cells (header_text local_pf ++ Byte.x03 :: encode_lines local_lines).
Proof.
  rewrite <- (app_nil_r (encode_lines _)). apply level_cells; [reflexivity| |].
  - split; [reflexivity|]. split.
    + intros r Hr. apply in_map_iff in Hr as (l & <- & Hl). apply in_map_iff in Hl as (n & <- & _). cbn [snd].
      unfold len. rewrite app_length, !repeat_length. reflexivity.
    + intros r x Hr Hx. apply in_map_iff in Hr as (l & <- & Hl). apply in_map_iff in Hl as (n & <- & Hn). cbn [snd] in Hx.
      apply in_seq in Hn. apply in_app_or in Hx as [Hx|Hx]; apply repeat_spec in Hx; subst x; [lia|].
      split; [apply Z.div_pos; lia|]. apply Z.div_lt_upper_bound; lia.
  - intros H. apply in_map_iff in H as (l & Hl & H). apply in_map_iff in H as (n & <- & _). discriminate Hl.
Qed.
Example C62_case_local (M : mathlib) (log : f64 -> f64) (K : convs) (E : goenv) border (name out : list byte) :
  let bytes := header_text local_pf ++ Byte.x03 :: encode_lines local_lines in
  let w := mk_world (fun n => if str_eqb n name then Some bytes else None) true true in
  draws M log K E border w name out bytes local_pf 224 200 200 local_cells (level_reflectivity_color K).
Proof.
  cbv zeta. set (bytes := _ ++ Byte.x03 :: _).
  apply (C62_level_reflectivity M log K E border _ name out bytes local_pf 200 224 200 200 local_cells); try reflexivity; try lia; try discriminate.
  - exact local_pf_writable.
  - eexists. split; [vm_compute; reflexivity|]. cbn. auto.
  - exact local_file.
  - cbn [w_input]. now rewrite str_eqb_refl.
Qed.
