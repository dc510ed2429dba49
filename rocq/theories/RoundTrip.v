(** C47: whole-file round trips. *)
From Coq Require Import Lia.
From Verif Require Import GoBase GoUtf8 GoScan GoFloat Catalog Composite Header Data Projection Radolan
  Spec SpecHeader BaseFacts HeaderSafe HeaderFacts DataFacts ParseFacts CompositeFacts ScanFacts HeaderMeaning
  ApiFacts RecordFacts FileFacts RunFacts FileComplete PropFile.
From Coq Require String. Import String.StringSyntax.
#[local] Arguments bs : simpl never.
#[local] Arguments lookup : simpl never.

Lemma list_ext {X} (a b : list X) : length a = length b ->
  (forall k, (k < length a)%nat -> nth_error a k = nth_error b k) -> a = b.
Proof.
  revert b. induction a as [|x a IH]; intros [|y b] Hl H; try discriminate; [reflexivity|].
  pose proof (H 0%nat ltac:(cbn; lia)) as [= ->]. f_equal. apply IH; [now injection Hl|].
  intros k Hk. exact (H (S k) ltac:(cbn; lia)).
Qed.

Lemma rows_ext {X} (a b : list (list X)) (w : nat) :
  length a = length b -> Forall (fun r => length r = w) a -> Forall (fun r => length r = w) b ->
  (forall y x r s, nth_error a y = Some r -> nth_error b y = Some s -> (x < w)%nat -> nth_error r x = nth_error s x) -> a = b.
Proof.
  revert b. induction a as [|r a IH]; intros [|s b] Hl Ha Hb H; try discriminate; [reflexivity|].
  inversion Ha; inversion Hb; subst. f_equal.
  - apply list_ext; [congruence|]. intros x Hx. exact (H 0%nat x r s eq_refl eq_refl Hx).
  - apply IH; auto. intros y x r' s' H1 H2 Hx. exact (H (S y) x r' s' H1 H2 Hx).
Qed.

Lemma nth_error_rev {X} (l : list X) k : (k < length l)%nat -> nth_error (rev l) k = nth_error l (length l - 1 - k).
Proof.
  intros H. destruct (nth_error l (length l - 1 - k)) as [x|] eqn:E.
  - rewrite (nth_error_nth' (rev l) x) by (rewrite rev_length; lia).
    rewrite rev_nth by lia. f_equal. apply nth_error_nth. replace (length l - S k)%nat with (length l - 1 - k)%nat by lia. assumption.
  - apply nth_error_None in E. lia.
Qed.

Lemma encode_grid_length {X} (enc : X -> list byte) b w (rows : list (list X)) :
  (forall r x, In r rows -> In x r -> length (enc x) = b) -> Forall (fun r => length r = w) rows ->
  length (encode_grid enc rows) = (length rows * (w * b))%nat.
Proof.
  intros He Hw. unfold encode_grid. rewrite (concat_block_length _ (w * b)).
  - now rewrite map_length, rev_length.
  - apply Forall_forall. intros l Hl. apply in_map_iff in Hl as (r & <- & Hr). apply in_rev in Hr.
    rewrite (concat_block_length _ b), map_length.
    + rewrite Forall_forall in Hw. now rewrite (Hw r Hr).
    + apply Forall_forall. intros l Hl. apply in_map_iff in Hl as (x & <- & Hx). eauto.
Qed.

(** The bytes of the cell (y, x). *)
Lemma encode_grid_byte {X} (enc : X -> list byte) b w (rows : list (list X)) tail y x r o j :
  (forall r x, In r rows -> In x r -> length (enc x) = b) -> Forall (fun r => length r = w) rows ->
  nth_error rows y = Some r -> nth_error r x = Some o -> (j < b)%nat ->
  nth_error (encode_grid enc rows ++ tail) (((length rows - 1 - y) * w + x) * b + j) = nth_error (enc o) j.
Proof.
  intros He Hw Hr Hx Hj.
  assert (Hy : (y < length rows)%nat) by (apply nth_error_Some; congruence).
  assert (Hwr : length r = w) by (rewrite Forall_forall in Hw; apply Hw; eapply nth_error_In; eauto).
  assert (Hxw : (x < w)%nat) by (rewrite <- Hwr; apply nth_error_Some; congruence).
  assert (Hin : In r rows) by (eapply nth_error_In; eauto).
  assert (Hblock : Forall (fun l => length l = (w * b)%nat) (map (fun r => concat (map enc r)) (rev rows))).
  { apply Forall_forall. intros l Hl. apply in_map_iff in Hl as (r' & <- & Hr'). apply in_rev in Hr'.
    rewrite (concat_block_length _ b), map_length.
    + rewrite Forall_forall in Hw. now rewrite (Hw r' Hr').
    + apply Forall_forall. intros l Hl. apply in_map_iff in Hl as (x' & <- & Hx'). eauto. }
  assert (Hcell : Forall (fun l => length l = b) (map enc r)).
  { apply Forall_forall. intros l Hl. apply in_map_iff in Hl as (x' & <- & Hx'). eauto. }
  assert (Hlt : (x * b + j < w * b)%nat) by nia.
  replace (((length rows - 1 - y) * w + x) * b + j)%nat with ((length rows - 1 - y) * (w * b) + (x * b + j))%nat by lia.
  rewrite nth_error_app1.
  2:{ rewrite (encode_grid_length enc b w) by assumption. nia. }
  unfold encode_grid.
  rewrite (concat_nth_block _ (w * b) Hblock (length rows - 1 - y) (concat (map enc r))); [| |assumption].
  2:{ rewrite nth_error_map, nth_error_rev by lia. replace (length rows - 1 - (length rows - 1 - y))%nat with y by lia. now rewrite Hr. }
  rewrite (concat_nth_block _ b Hcell x (enc o)); [reflexivity| |assumption].
  rewrite nth_error_map, Hx. reflexivity.
Qed.

Section Files.
Variable A : arith.
Variable E : goenv.
Notation parse_text text := (parse_header_text (n_ofZ A) E (zero_composite (n_zero A)) (text ++ [Byte.x03])).

Lemma two_byte_plain input text data c x y :
  parsed A E input c -> file_layout input text data ->
  field E text (bs "LV") = None -> announced_payload E text (2 * (c_px c * c_py c)) ->
  0 <= x < c_px c -> 0 <= y < c_py c ->
  let k := (c_py c - 1 - y) * c_px c + x in
  exists lo hi, nth_is data (2 * k) lo /\ nth_is data (2 * k + 1) hi /\
    cell2 (c_plain c) y x (two_byte_value (c_precision c) (c_unit c) lo hi).
Proof.
  intros H Hfl Hlv Hpay Hx Hy k.
  apply (parsed_fields A E) in H as (text' & rest & tail & ch & p & dz & d0 & H1 & H2 & H3 & H4 & H5 & H6 & H7 & H8 &
    F1 & F2 & F3 & F4 & F5 & F6 & F7 & F8 & F9 & F10 & F11 & F12 & F13 & F14 & F15 & F16 & F17).
  destruct (file_layout_unique _ _ _ _ _ Hfl H1) as [<- <-].
  rewrite (parse_data_alloc ch data H4), (two_byte_enc A E text ch H2 Hlv) in H3 by (now rewrite <- F7, <- F8).
  cbn [parse_encoding] in H3.
  pose proof (parse_little_endian_spec (set_plain ch (blank ch)) data H6 (blank_ok ch H4)) as Hs.
  rewrite H3 in Hs. destruct Hs as (p' & Hp' & _ & _ & _ & _ & Hcells).
  assert (p' = p) as -> by (apply (f_equal c_plain) in Hp'; cbn in Hp'; auto).
  cbn [c_px c_py c_precision c_unit set_plain] in Hcells.
  destruct (Hcells y x) as (a & b & Ha & Hb & Hc); [lia|lia|].
  exists a, b. unfold k. rewrite !nth_is_index, F7, F8. split; [assumption|]. split; [assumption|].
  rewrite <- rvp6_little_endian_eq, F16, F5, F6. unfold cell in Hc.
  destruct (index p y) as [r|] eqn:Er; [|discriminate]. exists r. split; now apply nth_is_index.
Qed.

Lemma one_byte_plain input text data c x y :
  parsed A E input c -> file_layout input text data ->
  field E text (bs "LV") = None -> announced_payload E text (c_px c * c_py c) ->
  0 <= x < c_px c -> 0 <= y < c_py c ->
  exists b, nth_is data ((c_py c - 1 - y) * c_px c + x) b /\
    cell2 (c_plain c) y x (one_byte_value (c_precision c) (c_unit c) b).
Proof.
  intros H Hfl Hlv Hpay Hx Hy.
  apply (parsed_fields A E) in H as (text' & rest & tail & ch & p & dz & d0 & H1 & H2 & H3 & H4 & H5 & H6 & H7 & H8 &
    F1 & F2 & F3 & F4 & F5 & F6 & F7 & F8 & F9 & F10 & F11 & F12 & F13 & F14 & F15 & F16 & F17).
  destruct (file_layout_unique _ _ _ _ _ Hfl H1) as [<- <-].
  rewrite (parse_data_alloc ch data H4), (one_byte_enc A E text ch H2 Hlv H4) in H3 by (now rewrite <- F7, <- F8).
  cbn [parse_encoding] in H3.
  pose proof (parse_single_byte_spec (set_plain ch (blank ch)) data H6 (blank_ok ch H4)) as Hs.
  rewrite H3 in Hs. destruct Hs as (p' & Hp' & _ & _ & _ & _ & Hcells).
  assert (p' = p) as -> by (apply (f_equal c_plain) in Hp'; cbn in Hp'; auto).
  cbn [c_px c_py c_precision c_unit set_plain] in Hcells.
  destruct (Hcells y x) as (a & Ha & Hc); [lia|lia|].
  exists a. rewrite !nth_is_index, F7, F8. split; [assumption|].
  rewrite <- rvp6_single_byte_eq, F16, F5, F6. unfold cell in Hc.
  destruct (index p y) as [r|] eqn:Er; [|discriminate]. exists r. split; now apply nth_is_index.
Qed.

Lemma parsed_header input text data c (c0 : composite (num A)) : parsed A E input c -> file_layout input text data ->
  header_meaning E text c0 -> same_header c c0.
Proof.
  intros H Hfl Hm.
  apply (parsed_fields A E) in H as (text' & rest & tail & ch & p & dz & d0 & H1 & H2 & H3 & H4 & H5 & H6 & H7 & H8 &
    F1 & F2 & F3 & F4 & F5 & F6 & F7 & F8 & F9 & F10 & F11 & F12 & F13 & F14 & F15 & F16 & F17).
  destruct (file_layout_unique _ _ _ _ _ Hfl H1) as [<- <-].
  pose proof (header_meaning_fun (n_ofZ A) E text ch c0 (header_meaning_sound _ _ _ _ _ H2) Hm) as Hs.
  unfold same_header in *. rewrite F1, F2, F3, F4, F5, F7, F8, F11, F12, F14, F15, F16, F17. exact Hs.
Qed.

Lemma grid_widths {X} (P : X -> Prop) w h rows : 0 <= w -> grid_of P w h rows ->
  Forall (fun r => length r = Z.to_nat w) rows /\ length rows = Z.to_nat h.
Proof.
  intros Hw (H1 & H2 & _). split.
  - apply Forall_forall. intros r Hr. specialize (H2 r Hr). unfold len in H2. lia.
  - unfold len in H1. lia.
Qed.

(** Reassembling the plain data from its cells. *)
Lemma plain_from_cells (plain : list (list f32)) (P : option Z -> Prop) (f : option Z -> f32) w h rows : 0 <= w -> 0 <= h ->
  len plain = h -> all_of_width plain w -> grid_of P w h rows ->
  (forall y x r o, 0 <= y < h -> 0 <= x < w -> nth_error rows (Z.to_nat y) = Some r -> nth_error r (Z.to_nat x) = Some o -> P o ->
     cell2 plain y x (f o)) ->
  plain = map (map f) rows.
Proof.
  intros Hw Hh Hp1 Hp2 Hg Hc.
  destruct (grid_widths _ _ _ _ Hw Hg) as [Hg1 Hg2]. destruct Hg as (_ & _ & HP).
  apply (rows_ext _ _ (Z.to_nat w)).
  - rewrite map_length. unfold len in Hp1. lia.
  - apply Forall_forall. intros r Hr. specialize (Hp2 r Hr). unfold len in Hp2. lia.
  - apply Forall_forall. intros r Hr. apply in_map_iff in Hr as (r' & <- & Hr'). rewrite map_length.
    rewrite Forall_forall in Hg1. auto.
  - intros y x r s Hr Hs Hx. rewrite nth_error_map in Hs.
    destruct (nth_error rows y) as [gr|] eqn:Egr; [|discriminate]. injection Hs as <-.
    assert (Hgl : length gr = Z.to_nat w) by (rewrite Forall_forall in Hg1; apply Hg1; eapply nth_error_In; eauto).
    destruct (nth_error gr x) as [o|] eqn:Eo; [|apply nth_error_None in Eo; lia].
    assert (Hyh : (y < length rows)%nat) by (apply nth_error_Some; congruence).
    destruct (Hc (Z.of_nat y) (Z.of_nat x) gr o) as (r' & [_ H1] & [_ H2]).
    + lia.
    + lia.
    + now rewrite Nat2Z.id.
    + now rewrite Nat2Z.id.
    + apply (HP gr); eapply nth_error_In; eauto.
    + rewrite Nat2Z.id in *. rewrite Hr in H1. injection H1 as ->. rewrite H2, nth_error_map, Eo. reflexivity.
Qed.

Theorem C47_two_byte_file text (c0 : composite (num A)) rows tail :
  ~ In Byte.x03 text -> header_meaning E text c0 -> possible_dims c0 ->
  field E text (bs "LV") = None -> announced_payload E text (2 * (c_px c0 * c_py c0)) ->
  grid_of (fun o => match o with Some v => - 4095 <= v <= 4095 | None => True end) (c_px c0) (c_py c0) rows ->
  exists c, parsed A E (text ++ Byte.x03 :: encode_grid encode_cell rows ++ tail) c /\ same_header c c0 /\
    c_plain c = map (map (cell_value (c_precision c0) (c_unit c0))) rows.
Proof.
  intros Hn Hm Hpos Hlv Hpay Hg. set (data := encode_grid encode_cell rows ++ tail).
  assert (Hlay : file_layout (text ++ Byte.x03 :: data) text data) by (split; [reflexivity|assumption]).
  pose proof Hpos as (Hpx & Hpy & _).
  destruct (grid_widths _ _ _ _ (Z.lt_le_incl _ _ Hpx) Hg) as [Hg1 Hg2].
  assert (Henc : forall r x, In r rows -> In x r -> length (encode_cell x) = 2%nat) by (intros r [v|] _ _; reflexivity).
  assert (Hlen : 2 * (c_px c0 * c_py c0) <= len data).
  { unfold data, len. rewrite app_length, (encode_grid_length encode_cell 2 (Z.to_nat (c_px c0))) by assumption. nia. }
  pose proof (C19_two_byte_truncated A E text data c0 Hlay Hm Hpos Hlv Hpay) as Hex.
  apply Z.leb_le in Hlen. rewrite Hlen in Hex. destruct Hex as [c Hp]. exists c. split; [assumption|].
  pose proof (parsed_header _ _ _ _ _ Hp Hlay Hm) as Hsame. split; [assumption|].
  pose proof Hsame as (_ & _ & _ & _ & Eu & Ex & Ey & _ & _ & _ & _ & Ep & _).
  destruct (parsed_shape A E _ c Hp) as (_ & [Hs1 Hs2] & _).
  rewrite <- Ex, <- Ey in *. rewrite <- Eu, <- Ep.
  eapply plain_from_cells; [| |eassumption|eassumption|exact Hg|]; [lia|lia|].
  intros y x r o Hy Hx Hr Ho HP.
  destruct (two_byte_plain _ _ _ c x y Hp Hlay Hlv Hpay Hx Hy) as (lo & hi & [_ H1] & [_ H2] & H3).
  replace (cell_value (c_precision c) (c_unit c) o) with (two_byte_value (c_precision c) (c_unit c) lo hi); [assumption|].
  pose proof (encode_grid_byte encode_cell 2 _ rows tail _ _ _ _ 0 Henc Hg1 Hr Ho ltac:(lia)) as B1.
  pose proof (encode_grid_byte encode_cell 2 _ rows tail _ _ _ _ 1 Henc Hg1 Hr Ho ltac:(lia)) as B2.
  fold data in B1, B2. rewrite Hg2 in B1, B2.
  replace (((Z.to_nat (c_py c) - 1 - Z.to_nat y) * Z.to_nat (c_px c) + Z.to_nat x) * 2 + 0)%nat with (Z.to_nat (2 * ((c_py c - 1 - y) * c_px c + x))) in B1 by nia.
  replace (((Z.to_nat (c_py c) - 1 - Z.to_nat y) * Z.to_nat (c_px c) + Z.to_nat x) * 2 + 1)%nat with (Z.to_nat (2 * ((c_py c - 1 - y) * c_px c + x) + 1)) in B2 by nia.
  rewrite H1 in B1. rewrite H2 in B2. destruct o as [v|]; cbn [encode_cell cell_value] in *.
  - destruct (encode_two_bytes_value (c_precision c) (c_unit c) v false false HP) as (lo' & hi' & He & Hv).
    rewrite He in B1, B2. cbn in B1, B2. injection B1 as ->. injection B2 as ->. exact Hv.
  - cbn [nth_error] in B1, B2. injection B1 as ->. injection B2 as ->. unfold two_byte_value.
    rewrite to_byte_bz by lia. reflexivity.
Qed.

Theorem C47_one_byte_file text (c0 : composite (num A)) rows tail :
  ~ In Byte.x03 text -> header_meaning E text c0 -> possible_dims c0 ->
  field E text (bs "LV") = None -> announced_payload E text (c_px c0 * c_py c0) ->
  grid_of (fun o => match o with Some v => 0 <= v <= 255 /\ v <> 250 | None => True end) (c_px c0) (c_py c0) rows ->
  exists c, parsed A E (text ++ Byte.x03 :: encode_grid encode_byte_cell rows ++ tail) c /\ same_header c c0 /\
    c_plain c = map (map (cell_value (c_precision c0) (c_unit c0))) rows.
Proof.
  intros Hn Hm Hpos Hlv Hpay Hg. set (data := encode_grid encode_byte_cell rows ++ tail).
  assert (Hlay : file_layout (text ++ Byte.x03 :: data) text data) by (split; [reflexivity|assumption]).
  pose proof Hpos as (Hpx & Hpy & _).
  destruct (grid_widths _ _ _ _ (Z.lt_le_incl _ _ Hpx) Hg) as [Hg1 Hg2].
  assert (Henc : forall r x, In r rows -> In x r -> length (encode_byte_cell x) = 1%nat) by (intros r [v|] _ _; reflexivity).
  assert (Hlen : c_px c0 * c_py c0 <= len data).
  { unfold data, len. rewrite app_length, (encode_grid_length encode_byte_cell 1 (Z.to_nat (c_px c0))) by assumption. nia. }
  pose proof (C19_one_byte_truncated A E text data c0 Hlay Hm Hpos Hlv Hpay) as Hex.
  apply Z.leb_le in Hlen. rewrite Hlen in Hex. destruct Hex as [c Hp]. exists c. split; [assumption|].
  pose proof (parsed_header _ _ _ _ _ Hp Hlay Hm) as Hsame. split; [assumption|].
  pose proof Hsame as (_ & _ & _ & _ & Eu & Ex & Ey & _ & _ & _ & _ & Ep & _).
  destruct (parsed_shape A E _ c Hp) as (_ & [Hs1 Hs2] & _).
  rewrite <- Ex, <- Ey in *. rewrite <- Eu, <- Ep.
  eapply plain_from_cells; [| |eassumption|eassumption|exact Hg|]; [lia|lia|].
  intros y x r o Hy Hx Hr Ho HP.
  destruct (one_byte_plain _ _ _ c x y Hp Hlay Hlv Hpay Hx Hy) as (b & [_ H1] & H3).
  replace (cell_value (c_precision c) (c_unit c) o) with (one_byte_value (c_precision c) (c_unit c) b); [assumption|].
  pose proof (encode_grid_byte encode_byte_cell 1 _ rows tail _ _ _ _ 0 Henc Hg1 Hr Ho ltac:(lia)) as B1.
  fold data in B1. rewrite Hg2 in B1.
  replace (((Z.to_nat (c_py c) - 1 - Z.to_nat y) * Z.to_nat (c_px c) + Z.to_nat x) * 1 + 0)%nat with (Z.to_nat ((c_py c - 1 - y) * c_px c + x)) in B1 by nia.
  rewrite H1 in B1. destruct o as [v|]; cbn [encode_byte_cell cell_value] in *;
  cbn [nth_error] in B1; injection B1 as ->; unfold one_byte_value; rewrite to_byte_bz by lia.
  - destruct HP as [_ HP]. apply Z.eqb_neq in HP. now rewrite HP.
  - reflexivity.
Qed.

(** Runlength. *)
Lemma split_lines_fun lines : forall data lines' tail tail', length lines = length lines' ->
  split_lines data lines tail -> split_lines data lines' tail' -> lines = lines' /\ tail = tail'.
Proof.
  induction lines as [|l lines IH]; intros data [|l' lines'] tail tail' Hl H1 H2; try discriminate.
  - destruct H1 as [H1 _], H2 as [H2 _]. cbn in H1, H2. split; congruence.
  - apply reads_lines in H1, H2. inversion H1 as [|? ? u1 ? ? R1 Q1]. inversion H2 as [|? ? u2 ? ? R2 Q2]. subst.
    rewrite R1 in R2. injection R2 as -> ->.
    destruct (IH u2 lines' tail tail') as [-> ->]; auto; now apply reads_lines.
Qed.

Lemma encode_runs_high : forall cells v cnt, 0 <= v < 16 -> Forall (fun x => 0 <= x < 16) cells -> (1 <= cnt <= 15)%nat ->
  Forall (fun b => 16 <= bz b) (encode_runs v cnt cells).
Proof.
  induction cells as [|x cells IH]; intros v cnt Hv HF Hc; cbn [encode_runs].
  - constructor; [|constructor]. rewrite to_byte_bz by lia. lia.
  - inversion HF; subst. destruct ((x =? v) && (cnt <? 15)%nat) eqn:Ec.
    + apply andb_true_iff in Ec as [_ Ec]. apply Nat.ltb_lt in Ec. apply IH; auto; lia.
    + constructor; [rewrite to_byte_bz by lia; lia|]. apply IH; auto; lia.
Qed.

Lemma encode_line_newline number cells : number <> Byte.x0a -> Forall (fun x => 0 <= x < 16) cells ->
  ~ In Byte.x0a (encode_line number cells).
Proof.
  intros Hn HF. unfold encode_line. destruct (leading cells) as [n rest] eqn:El.
  apply leading_spec in El as [-> Hz].
  assert (Hr : Forall (fun x => 0 <= x < 16) rest) by (apply Forall_app in HF; tauto).
  intros [H|H]; [congruence|].
  assert (Hall : Forall (fun b => 16 <= bz b) (encode_offset n ++ match rest with [] => [] | v :: t => encode_runs v 1 t end)).
  { apply Forall_app. split.
    - unfold encode_offset. apply Forall_app. split.
      + apply Forall_forall. intros b Hb. apply repeat_spec in Hb. subst. rewrite to_byte_bz by lia. lia.
      + pose proof (Nat.mod_upper_bound n 239 ltac:(lia)). constructor; [|constructor]. rewrite to_byte_bz by lia. lia.
    - destruct rest as [|v t]; [constructor|]. inversion Hr; subst. apply encode_runs_high; auto; lia. }
  rewrite Forall_forall in Hall. specialize (Hall _ H). vm_compute in Hall. congruence.
Qed.

Theorem C47_runlength_file text (c0 : composite (num A)) lv levels rows tail :
  ~ In Byte.x03 text -> header_meaning E text c0 -> possible_dims c0 ->
  field E text (bs "LV") = Some lv -> level_table E lv levels ->
  grid_of (fun v => 0 <= v < 16) (c_px c0) (c_py c0) (map snd rows) -> ~ In Byte.x0a (map fst rows) ->
  exists c, parsed A E (text ++ Byte.x03 :: encode_lines rows ++ tail) c /\ same_header c c0 /\
    c_plain c = map (map (level_value levels)) (map snd rows).
Proof.
  intros Hn Hm Hpos Hlv Ht Hg Hnum. set (data := encode_lines rows ++ tail).
  assert (Hlay : file_layout (text ++ Byte.x03 :: data) text data) by (split; [reflexivity|assumption]).
  pose proof Hpos as (Hpx & Hpy & _).
  destruct (grid_widths _ _ _ _ (Z.lt_le_incl _ _ Hpx) Hg) as [Hg1 Hg2]. destruct Hg as (_ & _ & HP).
  set (lines := map (fun nr => encode_line (fst nr) (snd nr)) rows).
  assert (Hsl : split_lines data lines tail).
  { split.
    - unfold data, lines, encode_lines. now rewrite map_map.
    - unfold lines. apply Forall_forall. intros l Hl. apply in_map_iff in Hl as ([k r] & <- & Hin). apply encode_line_newline.
      + cbn. intros ->. apply Hnum. apply in_map_iff. exists (Byte.x0a, r). auto.
      + cbn. apply Forall_forall. intros v Hv. apply (HP r v); [|assumption]. apply in_map_iff. exists (k, r). auto. }
  assert (Hmean : forall k r, In (k, r) rows -> line_meaning levels (Z.to_nat (c_px c0)) (encode_line k r) = Some (map (level_value levels) r)).
  { intros k r Hin. rewrite Forall_forall in Hg1.
    assert (Hin' : In r (map snd rows)) by (apply in_map_iff; exists (k, r); auto).
    rewrite <- (Hg1 r Hin'). apply encode_line_meaning. apply Forall_forall. intros v Hv. eauto. }
  destruct (header_enters A E text c0 Hm) as (ch & Hh & Hsame).
  pose proof (possible_same A _ _ Hsame Hpos) as Ha. pose proof Hsame as (_ & _ & _ & _ & _ & Ex & Ey & _).
  assert (Hlen : len lines = c_py c0) by (unfold len, lines; rewrite map_length in *; lia).
  destruct (runlength_complete A E text data ch lv levels lines tail) as [c Hp]; auto; [lia| |].
  { rewrite Ex. unfold lines. apply Forall_forall. intros l Hl. apply in_map_iff in Hl as ([k r] & <- & Hin). cbn.
    rewrite (Hmean k r Hin). discriminate. }
  exists c. split; [assumption|]. pose proof (parsed_header _ _ _ _ _ Hp Hlay Hm) as Hs. split; [assumption|].
  pose proof Hs as (_ & _ & _ & _ & _ & Ex' & Ey' & _).
  destruct (runlength_parsed A E _ text data lv levels c Hp Hlay Hlv Ht) as (lines' & tail' & Hsl' & Hlen' & HF).
  assert (Heq : length lines = length lines') by (unfold len in *; lia).
  destruct (split_lines_fun lines data lines' tail tail' Heq Hsl Hsl') as [<- <-].
  rewrite Ex' in HF. unfold lines in HF. clear - HF Hmean. revert HF. generalize (c_plain c) as plain.
  assert (Hmean' := Hmean). clear Hmean.
  induction rows as [|[k r] rows IH]; intros plain HF; cbn [map] in *; inversion HF as [|? row ? plain' HL HT]; subst; [reflexivity|].
  f_equal.
  - cbn [fst snd] in HL. rewrite (Hmean' k r) in HL by now left. now injection HL.
  - apply IH; [intros; apply Hmean'; now right|assumption].
Qed.
End Files.
Print Assumptions C47_two_byte_file.
Print Assumptions C47_one_byte_file.
Print Assumptions C47_runlength_file.

Example C47_two_byte_case E : exists rows (c0 : composite unit), header_meaning E two_byte_text c0 /\
  grid_of (fun o => match o with Some v => - 4095 <= v <= 4095 | None => True end) (c_px c0) (c_py c0) rows /\
  In (Some (-7)) (concat rows) /\ In None (concat rows).
Proof.
  exists [[Some 1; None; Some (-7)]; [Some 4095; Some 0; Some 3]].
  eexists. split; [apply (meaning_of_text tt); vm_compute; reflexivity|]. split; [|cbn; auto 8].
  split; [reflexivity|]. split.
  - intros r Hr. cbn in Hr. destruct Hr as [<-|[<-|[]]]; reflexivity.
  - intros r x Hr Hx. cbn in Hr. destruct Hr as [<-|[<-|[]]]; cbn in Hx; repeat destruct Hx as [<-|Hx]; try destruct Hx; lia.
Qed.

(** * C48 (refuted): a line whose number is 10 (the newline byte) *)
(** Without the restriction on line numbers the round trip fails: the number
    byte ends the line, and the row is silently read as no-data. *)
Theorem C48_line_number_ten_loses_data A E :
  exists rows c, grid_of (fun v => 0 <= v < 16) 4 2 (map snd rows) /\
    new_composite A E (file run_text (encode_lines rows)) = Value c /\
    c_plain c = [[NaN32; NaN32; NaN32; NaN32]; [NaN32; NaN32; NaN32; NaN32]] /\
    Forall (Forall (fun v => v = 1)) (map snd rows).
Proof.
  exists [(Byte.x0a, [1; 1; 1; 1]); (Byte.x02, [1; 1; 1; 1])]. eexists.
  split.
  { split; [reflexivity|]. split.
    - intros r Hr. cbn in Hr. destruct Hr as [<-|[<-|[]]]; reflexivity.
    - intros r x Hr Hx. cbn in Hr. destruct Hr as [<-|[<-|[]]]; cbn in Hx; repeat destruct Hx as [<-|Hx]; try destruct Hx; lia. }
  split; [vm_compute; reflexivity|]. split; [vm_compute; reflexivity|]. repeat constructor.
Qed.
Print Assumptions C48_line_number_ten_loses_data.
