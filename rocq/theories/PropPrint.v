(** C65: what radolan2png prints. *)
From Coq Require Import Reals Lra Lia Psatz.
From Flocq Require Import Core BinarySingleNaN.
From Coq Require String. Import String.StringSyntax.
From Verif Require Import GoBase GoFloat Catalog Composite Header Data Projection Radolan Vis Png Spec SpecHeader SpecWriter SpecReal SpecProj SpecKm SpecVis
  SpecAccuracy SpecValue SpecSamples SpecPicture SpecPrint BaseFacts CompositeFacts ApiFacts FloatFacts PropFloat PropHeader PropReal PropProjFloat PropAccuracy PropKm PropGrid PropTool PropOverlay PropPicture
  GoPrint PrintFacts.

(** The later minute is unique: without offset it is the minute itself. *)
Theorem C65_minute_unique k y m d h mi y1 m1 d1 h1 mi1 y2 m2 d2 h2 mi2 : (1900 <= y)%Z ->
  minutes_later k y m d h mi y1 m1 d1 h1 mi1 -> minutes_later k y m d h mi y2 m2 d2 h2 mi2 ->
  y1 = y2 /\ m1 = m2 /\ d1 = d2 /\ h1 = h2 /\ mi1 = mi2.
Proof.
  intros Hy (C1 & Y1 & E1) (C2 & Y2 & E2). apply minute_unique; try assumption; try lia.
Qed.

Lemma unit_named_string u name : unit_string (unit_code u) = Some name -> u <> Unit_unknown -> unit_named u name.
Proof. intros H Hu. destruct u; try congruence; vm_compute in H; injection H as <-; constructor. Qed.

Section Output.
Variables (M : mathlib) (log : f64 -> f64) (K : convs) (E : goenv) (border : list (f64 * f64)).
Variables (w : world) (program inp out bytes : list byte) (h : header_data) (px py cols rows : Z) (cells : list (list (option Z))).
Let format : Z := match h_version h with Some n => n | None => 0%Z end.
Let offset : Z := match h_offset h with Some n => n | None => 0%Z end.

Hypothesis HM : accurate_library (powerRZ 2 (-48)) M.
Hypothesis W : writable h.
Hypothesis Hsize : written_size h px py cols rows.
Hypothesis Hbytes : file_of h px py cells bytes.
Hypothesis Hpic : (cols * rows * 4 <= 2 ^ 48)%Z.
Hypothesis Hcol : (px * 4 <= 2 ^ 48)%Z.
Hypothesis Hrow : (py * 24 <= 2 ^ 48)%Z.
Hypothesis Hin : w_input w inp = Some bytes.
Hypothesis Hcr : w_create w = true.
Hypothesis Hen : w_encode w = true.
Hypothesis Hknown : written_unit h <> Unit_unknown.

Theorem C65_output : exists uname y m d hh mi,
  unit_named (written_unit h) uname /\
  minutes_later offset (h_year h) (h_month h) (h_day h) (h_hour h) (h_minute h) y m d hh mi /\
  let info := info_line (h_label h) uname (shown_minute y m d hh mi) in
  (~ projectable format cols rows -> tool_stdout M log K E border w [program; inp; out] = info) /\
  (forall gx gy, In (gx, gy) (if (5 <=? format)%Z then [(1100, 1200)]%Z else documented_sizes) -> resampled cols rows gx gy ->
     tool_stdout M log K E border w [program; inp; out] = info ++ extent_line gx gy).
Proof.
  destruct (run_draws M log K E border w inp out bytes h px py cols rows cells W Hsize Hbytes Hpic Hcol Hrow Hin Hcr Hen Hknown (fun _ _ => True))
    as (c & i & name & extent & Hv & Hn & Hrun & Hp & Hnp & _); [auto|].
  fold format in Hp, Hnp. set (t := ((_ + _) * _)%Z) in Hrun.
  assert (Hs : tool_stdout M log K E border w [program; inp; out] = printed (EvInfo (h_label h) (Some name) t) ++ stdout extent).
  { unfold tool_stdout, main, stdout. rewrite Hrun. cbn [map concat]. rewrite map_app, concat_app. cbn [map concat]. cbn [printed]. rewrite !app_nil_r. reflexivity. }
  pose proof (w_year h W) as Wy. pose proof (w_minute h W) as Wm.
  assert (Ho : (0 <= offset <= 153722867)%Z). { unfold offset. pose proof (w_offset h W) as Wo. destruct (h_offset h) as [n|]; [apply Wo; reflexivity|lia]. }
  destruct (minute_exists (h_year h) (h_month h) (h_day h) (h_hour h) (h_minute h) offset ltac:(lia) Wm ltac:(lia)) as (y & m & d & hh & mi & L).
  exists name, y, m, d, hh, mi. split; [now apply unit_named_string|]. split; [exact L|]. cbv zeta.
  assert (Hi : printed (EvInfo (h_label h) (Some name) t) = info_line (h_label h) name (shown_minute y m d hh mi)).
  { cbn [printed]. unfold info_line. do 4 f_equal. f_equal. unfold t. fold offset. pose proof L as (Cm & Ly & Em). rewrite <- Em.
    apply time_shown; [|exact Cm]. split; [lia|]. eapply minute_year; [|exact Wm|exact L|]; lia. }
  rewrite Hi in Hs. split.
  - intros Hpr. rewrite Hs, (Hnp Hpr). apply app_nil_r.
  - intros gx gy Hg Hr. assert (Hpr : projectable format cols rows).
    { unfold projectable. destruct (5 <=? format)%Z; [destruct Hg as [Hg|[]]; injection Hg as <- <-; exact Hr|exists gx, gy; auto]. }
    destruct (Hp Hpr) as (width & height & ->). rewrite Hs. f_equal.
    assert (Hloc : exists origin, located (gx, gy) (5 <=? format)%Z origin).
    { destruct (5 <=? format)%Z.
      - destruct Hg as [Hg|[]]; injection Hg as <- <-. eexists; constructor.
      - cbn in Hg. decompose [or] Hg; try contradiction; match goal with H : (_, _) = (_, _) |- _ => injection H as <- <- end; eexists; constructor. }
    destruct Hloc as [origin Hloc].
    assert (Hd : c_dx c = cols /\ c_dy c = rows /\ c_format c = format).
    { destruct (file_parsed M E w inp bytes h px py cols rows cells) as (c' & Hpar & Hw & _); try assumption.
      assert (c' = c). { destruct Hpar as [Hpar|Hpar]; cbn [num arith64] in *; congruence. } subst c'.
      destruct Hw as (_ & _ & _ & _ & Hw & _ & Hf & _). cbn [num arith64] in *. split; [|split; [|exact Hf]]; 
        unfold written_size in Hw, Hsize; destruct (h_size h); try lia;
        destruct Hw as (v & Hv1 & Hw), Hsize as (v' & Hv2 & Hs'); rewrite Hv1 in Hv2; injection Hv2 as <-; lia. }
    destruct Hd as (D1 & D2 & D3).
    destruct (C57_extent M log K E border w inp out width height c (gx, gy) origin HM) as (x & y0 & X & Y & Dx & Dy).
    { exists bytes. auto. }
    { rewrite Hrun. right. right. apply in_or_app. left. left. reflexivity. }
    { cbn [num arith64 fst snd] in *. rewrite D1, D2. exact Hr. }
    { cbn [num arith64] in *. rewrite D3. exact Hloc. }
    destruct (located_size _ _ _ Hloc) as [Gx Gy]. cbn [fst snd] in *.
    unfold stdout. cbn [map concat printed]. rewrite app_nil_r. unfold extent_line.
    rewrite (fmt_extent _ _ gx X), (fmt_extent _ _ gy Y); try assumption; try (split; apply le_IZR; lra).
    rewrite <- !app_assoc. reflexivity.
Qed.
End Output.

(** Fewer than two arguments: the help text, and nothing is read or written. *)
Theorem C65_usage M log K E border w (program : list byte) args : (length args < 2)%nat ->
  tool_stdout M log K E border w (program :: args) = help_text program /\
  main M log K E border w (program :: args) = [EvUsage].
Proof. intros H. destruct args as [|a [|b args]]; cbn in H; try lia; split; reflexivity. Qed.

(** A file that cannot be opened or read: nothing is printed on the standard output. *)
Theorem C65_failed M log K E border w (program inp out : list byte) :
  (w_input w inp = None \/ exists bytes, w_input w inp = Some bytes /\ forall c, new_composite (arith64 M) E bytes <> Value c) ->
  tool_stdout M log K E border w [program; inp; out] = [].
Proof.
  intros H. cbn [tool_stdout main]. unfold convert. destruct H as [->|(bytes & -> & H)]; [reflexivity|].
  destruct (new_composite (arith64 M) E bytes) as [c|v s|]; [exfalso; now apply (H c)|reflexivity|reflexivity].
Qed.
Print Assumptions C65_minute_unique.
Print Assumptions C65_output.
Print Assumptions C65_usage.
Print Assumptions C65_failed.

(** The small RX file. *)
Example C65_case (M : mathlib) (log : f64 -> f64) (K : convs) (E : goenv) border (program name out : list byte) :
  accurate_library (powerRZ 2 (-48)) M ->
  let bytes := header_text small_rx ++ Byte.x03 :: encode_grid encode_byte_cell small_rx_cells in
  let w := mk_world (fun n => if str_eqb n name then Some bytes else None) true true in
  tool_stdout M log K E border w [program; name; out] = bs "RX-Image (dBZ) showing 2016-07-28 21:05:00 +0000 UTC" ++ end_of_line.
Proof.
  intros HM bytes w. subst bytes w.
  destruct (C65_output M log K E border (mk_world (fun n => if str_eqb n name then Some (header_text small_rx ++ Byte.x03 :: encode_grid encode_byte_cell small_rx_cells) else None) true true) program name out
    (header_text small_rx ++ Byte.x03 :: encode_grid encode_byte_cell small_rx_cells) small_rx 3 2 3 2 small_rx_cells) as (u & y & m & d & hh & mi & Hu & L & Hn & _); try reflexivity; try lia; try discriminate.
  - exact HM.
  - exact small_rx_writable.
  - cbn. auto.
  - rewrite <- (app_nil_r (encode_grid _ _)). apply one_byte_cells; [reflexivity|reflexivity|]. 
    split; [reflexivity|]. split; [intros r [<-|[<-|[]]]; reflexivity|].
    intros r x [<-|[<-|[]]] Hx; cbn in Hx; decompose [or] Hx; subst; try exact I; try lia; try tauto.
  - cbn [w_input]. rewrite str_eqb_refl. apply eq_refl.
  - assert (L0 : minutes_later 0 2016 7 28 21 5 2016 7 28 21 5) by (unfold minutes_later, calendar_minute; cbn; lia).
    destruct (C65_minute_unique 0 2016 7 28 21 5 _ _ _ _ _ _ _ _ _ _ ltac:(lia) L L0) as (-> & -> & -> & -> & ->).
    inversion Hu; subst. rewrite Hn; [reflexivity|]. intros (gx & gy & Hg & a & b & Ha & Hb & Ex & Ey).
    assert (P : (0 < 2 ^ a /\ 0 < 2 ^ b)%Z) by (split; apply Z.pow_pos_nonneg; lia).
    cbn in Hg. decompose [or] Hg; try contradiction; match goal with H : (_, _) = (_, _) |- _ => injection H as <- <- end; nia.
Qed.

(** A whole hour's forecast in the national grid, across the end of the year. *)
Definition national_rq : header_data :=
  (mk_header (bs "RQ") 2016 12 31 23 50 1620062 (Some 3) None (Some (-1)) (Some 60) (Size_GP 900 900) (Some 15) [])%Z.
Definition national_cells : list (list (option Z)) := repeat (repeat (Some 12%Z) 900) 900.
Lemma national_rq_writable : writable national_rq.
Proof.
  small_writable. exists Byte.x52, Byte.x51. split; [reflexivity|]. unfold capital.
  split; [split; discriminate|left; split; [split; discriminate|vm_compute; intuition discriminate]].
Qed.
Example C65_case_grid (M : mathlib) (log : f64 -> f64) (K : convs) (E : goenv) border (program name out bytes : list byte) :
  accurate_library (powerRZ 2 (-48)) M ->
  bytes = header_text national_rq ++ Byte.x03 :: encode_grid encode_cell national_cells ->
  let w := mk_world (fun n => if str_eqb n name then Some bytes else None) true true in
  tool_stdout M log K E border w [program; name; out] =
    bs "RQ-Image (mm) showing 2017-01-01 00:05:00 +0000 UTC" ++ end_of_line ++ bs "detected grid: 900.0 km * 900.0 km" ++ end_of_line.
Proof.
  intros HM Hb w. subst w.
  destruct (C65_output M log K E border (mk_world (fun n => if str_eqb n name then Some bytes else None) true true) program name out
    bytes national_rq 900 900 900 900 national_cells) as (u & y & m & d & hh & mi & Hu & L & _ & Hg); try reflexivity; try lia; try discriminate.
  - exact HM.
  - exact national_rq_writable.
  - cbn. auto.
  - rewrite <- (app_nil_r (encode_grid _ _)) in Hb. rewrite Hb. apply two_byte_cells; [reflexivity|reflexivity|]. unfold national_cells.
    split; [unfold len; now rewrite repeat_length|]. split; [intros r Hr; apply repeat_spec in Hr; subst r; unfold len; now rewrite repeat_length|].
    intros r x Hr Hx. apply repeat_spec in Hr. subst r. apply repeat_spec in Hx. subst x. lia.
  - cbn [w_input]. rewrite str_eqb_refl. apply eq_refl.
  - assert (L0 : minutes_later 15 2016 12 31 23 50 2017 1 1 0 5). { split; [unfold calendar_minute; cbn; lia|]. split; [lia|vm_compute; reflexivity]. }
    destruct (C65_minute_unique 15 2016 12 31 23 50 _ _ _ _ _ _ _ _ _ _ ltac:(lia) L L0) as (-> & -> & -> & -> & ->).
    inversion Hu; subst u. rewrite (Hg 900 900)%Z; [reflexivity|cbn; auto|exists 0%Z, 0%Z; lia].
Qed.

(** A local picture of levels in dBZ. *)
Example C65_case_local (M : mathlib) (log : f64 -> f64) (K : convs) (E : goenv) border (program name out : list byte) :
  accurate_library (powerRZ 2 (-48)) M ->
  let bytes := header_text local_pf ++ Byte.x03 :: encode_lines local_lines in
  let w := mk_world (fun n => if str_eqb n name then Some bytes else None) true true in
  tool_stdout M log K E border w [program; name; out] = bs "PF-Image (dBZ) showing 2016-07-28 21:05:00 +0000 UTC" ++ end_of_line.
Proof.
  intros HM bytes w. subst bytes w. set (bytes := _ ++ Byte.x03 :: _).
  destruct (C65_output M log K E border (mk_world (fun n => if str_eqb n name then Some bytes else None) true true) program name out
    bytes local_pf 200 224 200 200 local_cells) as (u & y & m & d & hh & mi & Hu & L & Hn & _); try reflexivity; try lia; try discriminate.
  - exact HM.
  - exact local_pf_writable.
  - eexists. split; [vm_compute; reflexivity|]. cbn. auto.
  - exact local_file.
  - cbn [w_input]. rewrite str_eqb_refl. apply eq_refl.
  - assert (L0 : minutes_later 0 2016 7 28 21 5 2016 7 28 21 5) by (unfold minutes_later, calendar_minute; cbn; lia).
    destruct (C65_minute_unique 0 2016 7 28 21 5 _ _ _ _ _ _ _ _ _ _ ltac:(lia) L L0) as (-> & -> & -> & -> & ->).
    inversion Hu; subst. rewrite Hn; [reflexivity|]. exact (proj2 (proj2 (proj2 C32_case))).
Qed.
