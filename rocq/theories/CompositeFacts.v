(** arrangeData and NewComposite as a whole. *)
From Verif Require Import GoBase GoUtf8 GoScan GoTime GoFloat Catalog Composite Header Data Projection Radolan
  BaseFacts HeaderSafe HeaderFacts DataFacts ParseFacts.

Lemma split_layers_spec plain dy : 0 < dy -> forall n i, 0 <= i -> dy * (i + Z.of_nat n) <= len plain ->
  exists ls, split_layers plain dy n i = Some ls /\ length ls = n /\
    forall k l, nth_error ls k = Some l ->
      len l = dy /\ forall y, 0 <= y < dy -> index l y = index plain (dy * (i + Z.of_nat k) + y).
Proof.
  intros Hdy. induction n as [|n IH]; intros i Hi Hl; cbn [split_layers].
  - exists []. repeat split; auto; destruct k; discriminate.
  - rewrite slice_some by nia.
    destruct (IH (i + 1)) as (ls & -> & Hll & Hk); [lia|nia|].
    eexists; split; [reflexivity|]. split; [cbn; lia|].
    intros [|k] l Hn; cbn in Hn.
    + injection Hn as <-. split.
      * unfold len in *. rewrite firstn_length, skipn_length. nia.
      * intros y Hy. rewrite !index_nth by nia.
        rewrite nth_error_firstn_lt by nia. rewrite nth_error_skipn_add. f_equal. nia.
    + destruct (Hk k l Hn) as [H1 H2]. split; [assumption|]. intros y Hy. rewrite H2 by assumption.
      f_equal. lia.
Qed.

Section Composite.
Context {T : Type}.
Implicit Types c : composite T.

Lemma arrange_data_spec c : dims_ok c -> dims_pos c -> plain_ok c ->
  exists dz d0, arrange_data c = Some (set_data (set_dz (set_dataz c dz) (len dz)) d0) /\
    index dz 0 = Some d0 /\ 1 <= len dz /\ 0 < c_dy c /\
    (if Z.rem (c_py c) (c_dy c) =? 0 then len dz * c_dy c = c_py c else len dz = 1 /\ c_dy c <= c_py c) /\
    forall z l, index dz z = Some l -> len l = c_dy c /\
      forall y, 0 <= y < c_dy c -> index l y = index (c_plain c)
        (if Z.rem (c_py c) (c_dy c) =? 0 then z * c_dy c + y else c_py c - c_dy c + y).
Proof.
  intros Hd (Hpx & Hpy & Hdx & Ha1 & Ha2) [Hl Hw]. unfold arrange_data.
  assert (Hdy : 0 < c_dy c /\ c_dy c <= c_py c) by (clear - Hd Hpx Hpy Hdx; unfold dims_ok in Hd; lia).
  destruct Hdy as (Hdy & Hdpy).
  replace (c_dy c =? 0) with false by lia.
  destruct (Z.rem (c_py c) (c_dy c) =? 0) eqn:Hrem.
  - apply Z.eqb_eq in Hrem. rewrite Z.rem_mod_nonneg in Hrem by lia.
    rewrite Z.quot_div_nonneg by lia.
    assert (Hq : c_dy c * (c_py c / c_dy c) = c_py c) by (rewrite (Z.div_mod (c_py c) (c_dy c)) at 2; lia).
    set (q := c_py c / c_dy c) in *. clearbody q.
    assert (Hq1 : 1 <= q) by nia.
    rewrite make_some by nia. rewrite repeat_length.
    destruct (split_layers_spec (c_plain c) (c_dy c) Hdy (Z.to_nat q) 0) as (ls & -> & Hll & Hk); [lia|nia|].
    destruct (index_some ls 0) as [d0 Hd0]; [unfold len; lia|]. rewrite Hd0.
    exists ls, d0. repeat split; auto; try (unfold len; clear Ha1 Ha2; lia).
    + apply index_inv in H as [Hz Hn]. destruct (Hk _ _ Hn). assumption.
    + intros y Hy. apply index_inv in H as [Hz Hn]. destruct (Hk _ _ Hn) as [H1 H2]. rewrite H2 by assumption.
      f_equal. lia.
  - rewrite slice_some by lia. set (l := firstn _ _).
    exists [l], l. repeat split; auto; try (unfold len; cbn; lia).
    + apply index_inv in H as [Hz Hn]. cbn in Hz. replace (Z.to_nat z) with 0%nat in Hn by (unfold len in Hz; cbn in Hz; lia).
      cbn in Hn. injection Hn as <-. subst l. unfold len in *. rewrite firstn_length, skipn_length. lia.
    + intros y Hy. apply index_inv in H as [Hz Hn]. replace (Z.to_nat z) with 0%nat in Hn by (unfold len in Hz; cbn in Hz; lia).
      cbn in Hn. injection Hn as <-. subst l. rewrite !index_nth by lia.
      rewrite nth_error_firstn_lt by lia. rewrite nth_error_skipn_add. f_equal. lia.
Qed.
End Composite.

(** Projection calibration touches only the projection fields. *)
Section Calibrate.
Variable A : arith.
Notation T := (num A).

Definition data_frame (c c' : composite T) : Prop :=
  c_product c' = c_product c /\ c_capture c' = c_capture c /\ c_forecast c' = c_forecast c /\
  c_interval c' = c_interval c /\ c_unit c' = c_unit c /\ c_plain c' = c_plain c /\ c_px c' = c_px c /\
  c_py c' = c_py c /\ c_dataz c' = c_dataz c /\ c_data c' = c_data c /\ c_dx c' = c_dx c /\ c_dy c' = c_dy c /\
  c_dz c' = c_dz c /\ c_format c' = c_format c /\ c_data_length c' = c_data_length c /\
  c_precision c' = c_precision c /\ c_level c' = c_level c.

Lemma frame_refl (c : composite T) : data_frame c c.
Proof. unfold data_frame. auto 20. Qed.
Lemma frame_rx (c c' : composite T) a : data_frame c c' -> data_frame c (set_rx c' a).
Proof. exact (fun H => H). Qed.
Lemma frame_ry (c c' : composite T) a : data_frame c c' -> data_frame c (set_ry c' a).
Proof. exact (fun H => H). Qed.
Lemma frame_offx (c c' : composite T) a : data_frame c c' -> data_frame c (set_offx c' a).
Proof. exact (fun H => H). Qed.
Lemma frame_offy (c c' : composite T) a : data_frame c c' -> data_frame c (set_offy c' a).
Proof. exact (fun H => H). Qed.
Lemma frame_has (c c' : composite T) a : data_frame c c' -> data_frame c (set_has_projection c' a).
Proof. exact (fun H => H). Qed.
Lemma frame_wgs (c c' : composite T) a : data_frame c c' -> data_frame c (set_wgs84 c' a).
Proof. exact (fun H => H). Qed.

Lemma calibrate_frame (c : composite T) : data_frame c (calibrate_projection A c).
Proof.
  unfold calibrate_projection. cbv zeta.
  destruct (corner_points A _ _) as [[[a b] [d e]]|].
  2:{ auto 10 using frame_refl, frame_rx, frame_ry, frame_offx, frame_offy. }
  destruct (_ <=? _).
  - destruct (detect_grid _ _); try solve [auto 10 using frame_refl, frame_rx, frame_ry, frame_offx, frame_offy];
      destruct (project A _ a b) as [ox oy]; destruct (project A _ d e) as [rx ry];
      auto 20 using frame_refl, frame_rx, frame_ry, frame_offx, frame_offy, frame_has, frame_wgs.
  - destruct (project A _ a b) as [ox oy]; destruct (project A _ d e) as [rx ry];
      auto 20 using frame_refl, frame_rx, frame_ry, frame_offx, frame_offy, frame_has, frame_wgs.
Qed.
End Calibrate.

Section New.
Variable A : arith.
Variable E : goenv.
Notation T := (num A).

Lemma new_composite_inv input :
  match new_composite A E input with
  | Panic => exists text rest ch, input = text ++ Byte.x03 :: rest /\ ~ In Byte.x03 text /\
       parse_header_text (n_ofZ A) E (zero_composite (n_zero A)) (text ++ [Byte.x03]) = Value ch /\
       c_px ch <> 0 /\ c_py ch <> 0 /\ ~ alloc_ok ch
  | Failure e c =>
       (e <> ErrUnknownUnit /\ c_dz c = 0) \/
       (e = ErrUnknownUnit /\ c_unit c = Unit_unknown /\
        exists text rest tail ch p dz d0, input = text ++ Byte.x03 :: rest /\ ~ In Byte.x03 text /\
        parse_header_text (n_ofZ A) E (zero_composite (n_zero A)) (text ++ [Byte.x03]) = Value ch /\
        parse_data ch rest = Value (set_plain ch p, tail) /\ alloc_ok ch /\ plain_ok (set_plain ch p) /\
        arrange_data (set_plain ch p) = Some (set_data (set_dz (set_dataz (set_plain ch p) dz) (len dz)) d0) /\
        c = calibrate_projection A (set_data (set_dz (set_dataz (set_plain ch p) dz) (len dz)) d0))
  | Value c => c_unit c <> Unit_unknown /\
        exists text rest tail ch p dz d0, input = text ++ Byte.x03 :: rest /\ ~ In Byte.x03 text /\
        parse_header_text (n_ofZ A) E (zero_composite (n_zero A)) (text ++ [Byte.x03]) = Value ch /\
        parse_data ch rest = Value (set_plain ch p, tail) /\ alloc_ok ch /\ plain_ok (set_plain ch p) /\
        arrange_data (set_plain ch p) = Some (set_data (set_dz (set_dataz (set_plain ch p) dz) (len dz)) d0) /\
        c = calibrate_projection A (set_data (set_dz (set_dataz (set_plain ch p) dz) (len dz)) d0)
  end.
Proof.
  unfold new_composite.
  pose proof (parse_header_safe (n_ofZ A) E (zero_composite (n_zero A)) input) as Hsafe.
  destruct (parse_header _ E _ input) as [[ch rest]|e c|] eqn:Hh; [| |exfalso; apply Hsafe; reflexivity].
  2:{ left. unfold parse_header in Hh. destruct (read_until Byte.x03 input) as [[h r]|].
      - destruct (parse_header_text _ E _ h) as [c1|e1 c1|] eqn:Ht; cbn in Hh; try discriminate.
        injection Hh as <- <-. split; [eapply parse_header_text_errors; eauto|].
        pose proof (parse_header_text_framed (n_ofZ A) E (zero_composite (n_zero A)) h) as Hf.
        rewrite Ht in Hf. cbn in Hf. destruct Hf as (_ & _ & _ & Hf & _). exact Hf.
      - injection Hh as <- <-. split; [discriminate|reflexivity]. }
  apply parse_header_inv in Hh as (h & Hr & Ht).
  apply read_until_inv in Hr as (text & -> & -> & Hin).
  pose proof (parse_header_text_dims _ _ _ _ _ Ht) as [Hd Hdi].
  pose proof (parse_header_text_framed (n_ofZ A) E (zero_composite (n_zero A)) (text ++ [Byte.x03])) as Hf.
  rewrite Ht in Hf. destruct Hf as (_ & _ & _ & Hdz & _).
  pose proof (parse_data_shape ch rest Hd) as Hs.
  destruct (parse_data ch rest) as [[cd tail]|e c|] eqn:Hpd.
  - destruct Hs as (Ha & p & -> & Hl & Hw).
    assert (Hpl : plain_ok (set_plain ch p)) by (split; assumption).
    pose proof (dims_pos_of ch Hd Ha) as Hp.
    destruct (arrange_data_spec (set_plain ch p) Hd Hp Hpl) as (dz & d0 & Harr & _).
    rewrite Harr.
    set (ca := set_data (set_dz (set_dataz (set_plain ch p) dz) (len dz)) d0) in *.
    assert (Hex : exists text0 rest0 tail0 ch0 p0 dz0 d1, text ++ Byte.x03 :: rest = text0 ++ Byte.x03 :: rest0 /\ ~ In Byte.x03 text0 /\
        parse_header_text (n_ofZ A) E (zero_composite (n_zero A)) (text0 ++ [Byte.x03]) = Value ch0 /\
        parse_data ch0 rest0 = Value (set_plain ch0 p0, tail0) /\ alloc_ok ch0 /\ plain_ok (set_plain ch0 p0) /\
        arrange_data (set_plain ch0 p0) = Some (set_data (set_dz (set_dataz (set_plain ch0 p0) dz0) (len dz0)) d1) /\
        calibrate_projection A ca = calibrate_projection A (set_data (set_dz (set_dataz (set_plain ch0 p0) dz0) (len dz0)) d1)).
    { exists text, rest, tail, ch, p, dz, d0. repeat (split; [first [assumption|reflexivity]|]). reflexivity. }
    destruct (unit_eqb (c_unit (calibrate_projection A ca)) Unit_unknown) eqn:Hu.
    + right. split; [reflexivity|]. split; [|assumption].
      destruct (c_unit (calibrate_projection A ca)); cbn in Hu; try discriminate; reflexivity.
    + split; [|assumption]. intros Heq. rewrite Heq in Hu. discriminate.
  - destruct Hs as (He & p & ->). left. split; [assumption|]. exact Hdz.
  - exists text, rest, ch. tauto.
Qed.
End New.
