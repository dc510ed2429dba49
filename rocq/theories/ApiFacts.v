(** Lemmas in the vocabulary of Spec.v. *)
From Verif Require Import GoBase GoUtf8 GoScan GoTime GoFloat Catalog Composite Header Data Projection Radolan Spec
  BaseFacts HeaderSafe HeaderFacts DataFacts ParseFacts CompositeFacts.

Lemma nth_is_index {X} (l : list X) i v : nth_is l i v <-> index l i = Some v.
Proof.
  unfold nth_is. split.
  - intros [H1 H2]. rewrite index_nth; assumption.
  - intros H. apply index_inv in H as [H1 H2]. split; [lia|assumption].
Qed.

Lemma wide_all w (rows : list (list f32)) : 0 <= w -> wide (Z.to_nat w) rows <-> all_of_width rows w.
Proof. intros Hw. unfold wide, all_of_width. rewrite Forall_forall. unfold len. split; intros H r Hr; specialize (H r Hr); lia. Qed.

Section Api.
Variable A : arith.
Variable E : goenv.
Notation T := (num A).

(** Everything the later lemmas need about a completed run. *)
Lemma parsed_inv input c : parsed A E input c ->
  exists text rest tail ch p dz d0, file_layout input text rest /\
    parse_header_text (n_ofZ A) E (zero_composite (n_zero A)) (text ++ [Byte.x03]) = Value ch /\
    parse_data ch rest = Value (set_plain ch p, tail) /\ alloc_ok ch /\ dims_ok ch /\ dims_pos ch /\ plain_ok (set_plain ch p) /\
    arrange_data (set_plain ch p) = Some (set_data (set_dz (set_dataz (set_plain ch p) dz) (len dz)) d0) /\
    c = calibrate_projection A (set_data (set_dz (set_dataz (set_plain ch p) dz) (len dz)) d0).
Proof.
  intros H. pose proof (new_composite_inv A E input) as Hi.
  assert (Hex : exists text rest tail ch p dz d0, input = text ++ Byte.x03 :: rest /\ ~ In Byte.x03 text /\
        parse_header_text (n_ofZ A) E (zero_composite (n_zero A)) (text ++ [Byte.x03]) = Value ch /\
        parse_data ch rest = Value (set_plain ch p, tail) /\ alloc_ok ch /\ plain_ok (set_plain ch p) /\
        arrange_data (set_plain ch p) = Some (set_data (set_dz (set_dataz (set_plain ch p) dz) (len dz)) d0) /\
        c = calibrate_projection A (set_data (set_dz (set_dataz (set_plain ch p) dz) (len dz)) d0)).
  { destruct H as [H|H]; rewrite H in Hi; [exact (proj2 Hi)|].
    destruct Hi as [[Hne _]|(_ & _ & Hx)]; [congruence|exact Hx]. }
  destruct Hex as (text & rest & tail & ch & p & dz & d0 & H1 & H2 & H3 & H4 & H5 & H6 & H7 & H8).
  pose proof (parse_header_text_dims _ _ _ _ _ H3) as [Hd _].
  exists text, rest, tail, ch, p, dz, d0.
  pose proof (dims_pos_of ch Hd H5). unfold file_layout. repeat (split; [auto|]). assumption.
Qed.

(** Fields of the final composite in terms of the header stage. *)
Lemma parsed_fields input c : parsed A E input c ->
  exists text rest tail ch p dz d0, file_layout input text rest /\
    parse_header_text (n_ofZ A) E (zero_composite (n_zero A)) (text ++ [Byte.x03]) = Value ch /\
    parse_data ch rest = Value (set_plain ch p, tail) /\ alloc_ok ch /\ dims_ok ch /\ dims_pos ch /\ plain_ok (set_plain ch p) /\
    arrange_data (set_plain ch p) = Some (set_data (set_dz (set_dataz (set_plain ch p) dz) (len dz)) d0) /\
    c_product c = c_product ch /\ c_capture c = c_capture ch /\ c_forecast c = c_forecast ch /\
    c_interval c = c_interval ch /\ c_unit c = c_unit ch /\ c_plain c = p /\ c_px c = c_px ch /\
    c_py c = c_py ch /\ c_dataz c = dz /\ c_data c = d0 /\ c_dx c = c_dx ch /\ c_dy c = c_dy ch /\
    c_dz c = len dz /\ c_format c = c_format ch /\ c_data_length c = c_data_length ch /\
    c_precision c = c_precision ch /\ c_level c = c_level ch.
Proof.
  intros H. apply parsed_inv in H as (text & rest & tail & ch & p & dz & d0 & H1 & H2 & H3 & H4 & H5 & H6 & H7 & H8 & ->).
  exists text, rest, tail, ch, p, dz, d0. repeat (split; [assumption|]).
  exact (calibrate_frame A (set_data (set_dz (set_dataz (set_plain ch p) dz) (len dz)) d0)).
Qed.

(** C03 *)
Lemma parsed_shape input c : parsed A E input c ->
  (0 < c_px c /\ 0 < c_py c /\ 0 < c_dx c /\ 0 < c_dy c /\ 0 < c_dz c) /\
  (len (c_plain c) = c_py c /\ all_of_width (c_plain c) (c_px c)) /\
  (len (c_dataz c) = c_dz c /\ forall l, In l (c_dataz c) -> len l = c_dy c /\ all_of_width l (c_dx c)) /\
  nth_is (c_dataz c) 0 (c_data c).
Proof.
  intros H. apply parsed_fields in H as (text & rest & tail & ch & p & dz & d0 & H1 & H2 & H3 & H4 & H5 & H6 & H7 & H8 &
    F1 & F2 & F3 & F4 & F5 & F6 & F7 & F8 & F9 & F10 & F11 & F12 & F13 & F14 & F15 & F16 & F17).
  destruct (arrange_data_spec (set_plain ch p) H5 H6 H7) as (dz' & d0' & Ha & Hi & Hl & Hdy & Hn & Hr).
  rewrite H8 in Ha. assert (dz' = dz /\ d0' = d0) as [-> ->] by (injection Ha; auto). clear Ha.
  destruct H6 as (Q1 & Q2 & Q3 & Q4 & Q5). destruct H7 as [P1 P2]. cbn in *.
  rewrite F6, F7, F8, F9, F10, F11, F12, F13.
  repeat split; try lia.
  - now apply wide_all; [lia|].
  - destruct (In_nth_error _ _ H) as [k Hk]. destruct (Hr (Z.of_nat k) l) as [Hll _].
    { rewrite index_nth by lia. now rewrite Nat2Z.id. }
    assumption.
  - intros r Hin. rewrite Q3. destruct (In_nth_error _ _ H) as [k Hk]. destruct (Hr (Z.of_nat k) l) as [Hll Hrow].
    { rewrite index_nth by lia. now rewrite Nat2Z.id. }
    destruct (In_nth_error _ _ Hin) as [j Hj].
    assert (Hjl : 0 <= Z.of_nat j < c_dy ch).
    { assert (j < length l)%nat by (apply nth_error_Some; congruence). unfold len in Hll. lia. }
    specialize (Hrow (Z.of_nat j) Hjl). rewrite (index_nth l) in Hrow by lia. rewrite Nat2Z.id, Hj in Hrow.
    symmetry in Hrow. apply index_inv in Hrow as [_ Hrow].
    pose proof (wide_nth _ _ _ _ P2 Hrow). unfold len. lia.
  - apply nth_is_index. assumption.
Qed.

(** C05 *)
Lemma parsed_layers input c : parsed A E input c ->
  if Z.rem (c_py c) (c_dy c) =? 0
  then c_dz c * c_dy c = c_py c /\
       forall z y, 0 <= z < c_dz c -> 0 <= y < c_dy c ->
         exists l r, nth_is (c_dataz c) z l /\ nth_is l y r /\ nth_is (c_plain c) (z * c_dy c + y) r
  else c_dz c = 1 /\ c_dy c < c_py c /\
       forall y, 0 <= y < c_dy c ->
         exists l r, nth_is (c_dataz c) 0 l /\ nth_is l y r /\ nth_is (c_plain c) (c_py c - c_dy c + y) r.
Proof.
  intros H. apply parsed_fields in H as (text & rest & tail & ch & p & dz & d0 & H1 & H2 & H3 & H4 & H5 & H6 & H7 & H8 &
    F1 & F2 & F3 & F4 & F5 & F6 & F7 & F8 & F9 & F10 & F11 & F12 & F13 & F14 & F15 & F16 & F17).
  destruct (arrange_data_spec (set_plain ch p) H5 H6 H7) as (dz' & d0' & Ha & Hi & Hl & Hdy & Hn & Hr).
  rewrite H8 in Ha. assert (dz' = dz /\ d0' = d0) as [-> ->] by (injection Ha; auto). clear Ha.
  destruct H6 as (Q1 & Q2 & Q3 & Q4 & Q5). destruct H7 as [P1 P2]. cbn in *.
  rewrite F6, F8, F9, F12, F13.
  assert (Hget : forall z y, 0 <= z < len dz -> 0 <= y < c_dy ch ->
     exists l r, nth_is dz z l /\ nth_is l y r /\
       nth_is p (if Z.rem (c_py ch) (c_dy ch) =? 0 then z * c_dy ch + y else c_py ch - c_dy ch + y) r).
  { intros z y Hz Hy. destruct (index_some dz z Hz) as [l Hzl]. destruct (Hr z l Hzl) as [Hll Hrow].
    destruct (index_some l y) as [r Hyr]; [lia|].
    exists l, r. rewrite !nth_is_index. repeat split; auto. rewrite <- Hrow by assumption. assumption. }
  destruct (Z.rem (c_py ch) (c_dy ch) =? 0) eqn:Hrem.
  - split; [assumption|]. exact Hget.
  - destruct Hn as [Hn1 Hn2]. repeat split; auto.
    + destruct (Z.eq_dec (c_dy ch) (c_py ch)) as [He|He]; [|lia].
      rewrite He, Z.rem_same in Hrem by lia. discriminate.
    + intros y Hy. apply Hget; lia.
Qed.

(** C04 *)
Lemma new_dummy_dz product format dx dy : c_dz (new_dummy A product format dx dy) = 0.
Proof. unfold new_dummy. destruct (calibrate_frame A (set_dy (set_dx (set_format (set_product (zero_composite (n_zero A)) product) format) dx) dy)) as
  (_ & _ & _ & _ & _ & _ & _ & _ & _ & _ & _ & _ & H & _). exact H. Qed.

Lemma at_z_outside (c : composite T) x y z : ~ inside x y z (c_dx c) (c_dy c) (c_dz c) -> at_z A c x y z = Some NaN32.
Proof.
  unfold inside, at_z. intros H.
  replace ((x <? 0) || (y <? 0) || (z <? 0) || (c_dx c <=? x) || (c_dy c <=? y) || (c_dz c <=? z)) with true by lia.
  reflexivity.
Qed.

Lemma at_z_cell (c : composite T) x y z v : inside x y z (c_dx c) (c_dy c) (c_dz c) ->
  cell3 (c_dataz c) z y x v -> at_z A c x y z = Some v.
Proof.
  unfold inside, at_z. intros H (l & Hl & r & Hr & Hv).
  replace ((x <? 0) || (y <? 0) || (z <? 0) || (c_dx c <=? x) || (c_dy c <=? y) || (c_dz c <=? z)) with false by lia.
  apply nth_is_index in Hl, Hr, Hv. now rewrite Hl, Hr.
Qed.

Lemma parsed_cell input c x y z : parsed A E input c -> inside x y z (c_dx c) (c_dy c) (c_dz c) ->
  exists v, cell3 (c_dataz c) z y x v.
Proof.
  intros H Hin. destruct (parsed_shape input c H) as (_ & _ & [Hdz Hl] & _). destruct Hin as (Hx & Hy & Hz).
  destruct (index_some (c_dataz c) z) as [l Hzl]; [lia|].
  pose proof (index_inv _ _ _ Hzl) as [_ Hzn]. destruct (Hl l (nth_error_In _ _ Hzn)) as [Hll Hw].
  destruct (index_some l y) as [r Hyr]; [lia|].
  pose proof (index_inv _ _ _ Hyr) as [_ Hyn]. pose proof (Hw r (nth_error_In _ _ Hyn)).
  destruct (index_some r x) as [v Hv]; [lia|].
  exists v, l. rewrite nth_is_index. split; [assumption|]. exists r. now rewrite !nth_is_index.
Qed.

Lemma returned_cases input c : returned A E input c -> parsed A E input c \/ c_dz c = 0.
Proof.
  intros [H|[e H]]; [left; left; assumption|].
  pose proof (new_composite_inv A E input) as Hi. rewrite H in Hi.
  destruct Hi as [[_ Hz]|[-> _]]; [right; assumption|left; right; assumption].
Qed.

Lemma at_z_spec c x y z : obtainable A E c ->
  (~ inside x y z (c_dx c) (c_dy c) (c_dz c) -> at_z A c x y z = Some NaN32) /\
  (inside x y z (c_dx c) (c_dy c) (c_dz c) ->
     exists v, cell3 (c_dataz c) z y x v /\ at_z A c x y z = Some v).
Proof.
  intros Ho. split; [apply at_z_outside|]. intros Hin.
  assert (Hp : (exists input, parsed A E input c) \/ c_dz c = 0).
  { destruct Ho as [[input Hr]|(p & f & dx & dy & ->)].
    - destruct (returned_cases input c Hr); eauto.
    - right. apply new_dummy_dz. }
  destruct Hp as [[input Hp]|Hz].
  - destruct (parsed_cell input c x y z Hp Hin) as [v Hv]. exists v. split; [assumption|]. now apply at_z_cell.
  - destruct Hin as (_ & _ & Hz'). lia.
Qed.

(** A NewDummy or failed composite has no data at all. *)
Lemma at_data c x y input : parsed A E input c -> 0 <= x < c_dx c -> 0 <= y < c_dy c ->
  exists v, cell2 (c_data c) y x v /\ at_ A c x y = Some v.
Proof.
  intros H Hx Hy. destruct (parsed_shape input c H) as ((_ & _ & _ & _ & Hdz) & _ & _ & H0).
  assert (Hin : inside x y 0 (c_dx c) (c_dy c) (c_dz c)) by (unfold inside; lia).
  destruct (parsed_cell input c x y 0 H Hin) as [v Hv]. exists v. split; [|apply at_z_cell; assumption].
  destruct Hv as (l & Hl & Hc). apply nth_is_index in Hl, H0. rewrite H0 in Hl. injection Hl as <-. assumption.
Qed.
End Api.
