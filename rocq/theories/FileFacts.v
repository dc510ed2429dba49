(** Which bytes of the input a pixel comes from; truncation and extension. *)
From Verif Require Import GoBase GoUtf8 GoScan GoTime GoFloat Catalog Composite Header Data Projection Radolan Spec
  BaseFacts FieldFacts HeaderSafe HeaderFacts DataFacts ParseFacts CompositeFacts ApiFacts RecordFacts.
From Coq Require String. Import String.StringSyntax.

Lemma int_wrap_eq_iff a b : int_wrap a = int_wrap b <-> exists k, a - b = k * 2 ^ 64.
Proof.
  unfold int_wrap. split.
  - intros H. assert (H1 : (a + 2 ^ 63) mod 2 ^ 64 = (b + 2 ^ 63) mod 2 ^ 64) by lia.
    exists ((a + 2 ^ 63) / 2 ^ 64 - (b + 2 ^ 63) / 2 ^ 64).
    rewrite (Z.div_mod (a + 2 ^ 63) (2 ^ 64)) in * by lia. 
    pose proof (Z.div_mod (a + 2 ^ 63) (2 ^ 64)). pose proof (Z.div_mod (b + 2 ^ 63) (2 ^ 64)). lia.
  - intros [k H]. replace a with (b + k * 2 ^ 64) by lia.
    replace (b + k * 2 ^ 64 + 2 ^ 63) with (b + 2 ^ 63 + k * 2 ^ 64) by lia.
    now rewrite Z.mod_add by lia.
Qed.

Lemma int_wrap_congr a : exists k, int_wrap a = a + k * 2 ^ 64.
Proof.
  exists (- ((a + 2 ^ 63) / 2 ^ 64)). unfold int_wrap.
  pose proof (Z.div_mod (a + 2 ^ 63) (2 ^ 64)). lia.
Qed.

Lemma int_wrap_mul2 a : int_wrap (int_wrap a * 2) = int_wrap (a * 2).
Proof.
  apply int_wrap_eq_iff. destruct (int_wrap_congr a) as [k ->]. exists (2 * k). lia.
Qed.

(** Framing of a reader: what it consumes, and that less is not enough. *)
Definition framing (read : list byte -> option (list byte * list byte)) : Prop :=
  forall s l s1, read s = Some (l, s1) ->
  exists chunk, s = chunk ++ s1 /\ (forall t, read (chunk ++ t) = Some (l, t)) /\
    forall k, (k < length chunk)%nat -> read (firstn k chunk) = None.

Lemma read_full_framing n : 0 <= n -> framing (read_full n).
Proof.
  intros Hn s l s1 H. apply read_full_inv in H as (H1 & -> & H2); [|assumption].
  exists l. repeat split; auto.
  - intros t. rewrite <- H2. apply read_full_app.
  - intros k Hk. unfold read_full. replace (n <=? len (firstn k l)) with false; [reflexivity|].
    symmetry. apply Z.leb_gt. unfold len in *. rewrite firstn_length. lia.
Qed.

Lemma firstn_in {A} k (l : list A) x : In x (firstn k l) -> In x l.
Proof. intros H. rewrite <- (firstn_skipn k l). apply in_or_app. auto. Qed.

Lemma firstn_snoc_prefix {A} k (p : list A) x : (k < length (p ++ [x]))%nat -> firstn k (p ++ [x]) = firstn k p.
Proof.
  rewrite app_length. cbn. intros H. rewrite firstn_app.
  replace (k - length p)%nat with 0%nat by lia. cbn. apply app_nil_r.
Qed.

Lemma read_line_framing : framing read_line_runlength.
Proof.
  intros s l s1 H. apply read_line_inv in H as [-> Hl].
  exists (l ++ [Byte.x0a]). repeat split.
  - now rewrite <- app_assoc.
  - intros t. rewrite <- app_assoc. apply read_line_inv. auto.
  - intros k Hk. rewrite firstn_snoc_prefix by assumption.
    unfold read_line_runlength. replace (read_until Byte.x0a (firstn k l)) with (@None (list byte * list byte)); [reflexivity|].
    symmetry. apply read_until_none. intros Hin. apply Hl. eapply firstn_in; eauto.
Qed.

Section Loop.
Context {T : Type}.
Variable read : list byte -> option (list byte * list byte).
Variable eread : error.
Variable decode : list f32 -> list byte -> row_result.
Variable row : Z -> Z.
Hypothesis Hframe : framing read.

Lemma row_loop_prefix : forall n i (c : composite T) s c' s',
  row_loop read eread decode row n i c s = Value (c', s') ->
  exists used, s = used ++ s' /\
    (forall t, row_loop read eread decode row n i c (used ++ t) = Value (c', t)) /\
    (forall k, (k < length used)%nat -> exists c'', row_loop read eread decode row n i c (firstn k used) = Failure eread c'').
Proof using Hframe.
  induction n as [|n IH]; intros i c s c' s'; cbn [row_loop]; intros H.
  - injection H as <- <-. exists []. repeat split; auto. cbn; intros; lia.
  - destruct (read s) as [[line s1]|] eqn:Hr; [|discriminate].
    destruct (Hframe _ _ _ Hr) as (chunk & -> & Hext & Hpre).
    destruct (index (c_plain c) (row i)) as [dst|]; [|discriminate].
    destruct (decode dst line) as [d|e d|] eqn:Hdec; try discriminate.
    2:{ destruct (assign _ _ _); discriminate. }
    destruct (assign (c_plain c) (row i) d) as [p|] eqn:Has; [|discriminate].
    destruct (IH _ _ _ _ _ H) as (used & -> & Hext' & Hpre').
    exists (chunk ++ used). repeat split.
    + now rewrite app_assoc.
    + intros t. rewrite <- app_assoc, Hext, Hdec, Has. apply Hext'.
    + intros k Hk. rewrite app_length in Hk. rewrite firstn_app.
      destruct (Nat.lt_ge_cases k (length chunk)) as [Hlt|Hge].
      * replace (k - length chunk)%nat with 0%nat by lia. cbn. rewrite app_nil_r, Hpre by assumption. eauto.
      * rewrite firstn_all2 by assumption. rewrite Hext, Hdec, Has. apply Hpre'. lia.
Qed.
End Loop.

Definition read_error (e : error) : Prop :=
  e = EReadRunlength \/ e = EReadLittleEndian \/ e = EReadSingleByte.

Section File.
Variable A : arith.
Variable E : goenv.
Notation T := (num A).

Lemma parse_data_prefix (ch : composite T) rest c' tail : dims_ok ch -> parse_data ch rest = Value (c', tail) ->
  exists used, rest = used ++ tail /\ (forall t, parse_data ch (used ++ t) = Value (c', t)) /\
    (forall k, (k < length used)%nat -> exists e c'', parse_data ch (firstn k used) = Failure e c'' /\ read_error e).
Proof.
  intros Hd H. pose proof (parse_data_shape ch rest Hd) as Hs. rewrite H in Hs. destruct Hs as [Ha _].
  rewrite (parse_data_alloc ch rest Ha) in H.
  pose proof (dims_pos_of ch Hd Ha) as Hp.
  assert (Hgoal : exists used, rest = used ++ tail /\
     (forall t, parse_encoding (identify_encoding ch) (set_plain ch (blank ch)) (used ++ t) = Value (c', t)) /\
     (forall k, (k < length used)%nat -> exists e c'',
        parse_encoding (identify_encoding ch) (set_plain ch (blank ch)) (firstn k used) = Failure e c'' /\ read_error e)).
  { unfold read_error. set (c1 := set_plain ch (blank ch)) in *. assert (Hp1 : dims_pos c1) by exact Hp.
    destruct (identify_encoding ch); cbn [parse_encoding] in *.
    - unfold parse_runlength in *. apply row_loop_prefix in H as (used & H1 & H2 & H3); [|apply read_line_framing].
      exists used. repeat split; auto. intros k Hk. destruct (H3 k Hk) as [c'' Hc]. eauto.
    - rewrite parse_little_endian_loop in H by assumption.
      apply row_loop_prefix in H as (used & H1 & H2 & H3); [|apply read_full_framing; destruct Hp1; lia].
      exists used. repeat split; auto.
      + intros t. rewrite parse_little_endian_loop by assumption. apply H2.
      + intros k Hk. destruct (H3 k Hk) as [c'' Hc]. rewrite parse_little_endian_loop by assumption. eauto 6.
    - rewrite parse_single_byte_loop in H by assumption.
      apply row_loop_prefix in H as (used & H1 & H2 & H3); [|apply read_full_framing; destruct Hp1; lia].
      exists used. repeat split; auto.
      + intros t. rewrite parse_single_byte_loop by assumption. apply H2.
      + intros k Hk. destruct (H3 k Hk) as [c'' Hc]. rewrite parse_single_byte_loop by assumption. eauto 6.
    - discriminate. }
  destruct Hgoal as (used & H1 & H2 & H3). exists used. repeat split; auto.
  - intros t. rewrite parse_data_alloc by assumption. apply H2.
  - intros k Hk. rewrite parse_data_alloc by assumption. auto.
Qed.

Lemma new_composite_header text rest ch : ~ In Byte.x03 text ->
  parse_header_text (n_ofZ A) E (zero_composite (n_zero A)) (text ++ [Byte.x03]) = Value ch ->
  new_composite A E (text ++ Byte.x03 :: rest) =
  match parse_data ch rest with
      | Panic => Panic
      | Failure e c => Failure e c
      | Value (c, _) =>
          match arrange_data c with
          | None => Panic
          | Some c =>
              let c := calibrate_projection A c in
              if unit_eqb (c_unit c) Unit_unknown then Failure ErrUnknownUnit c else Value c
          end
      end.
Proof.
  intros Hin Ht. unfold new_composite, parse_header.
  rewrite read_until_app by assumption. rewrite Ht. reflexivity.
Qed.

Lemma file_layout_unique input t1 d1 t2 d2 :
  file_layout input t1 d1 -> file_layout input t2 d2 -> t1 = t2 /\ d1 = d2.
Proof.
  intros [-> H1] [H H2]. pose proof (read_until_app Byte.x03 t1 d1 H1) as R1.
  rewrite H in R1. rewrite (read_until_app Byte.x03 t2 d2 H2) in R1. injection R1 as R1 R2.
  apply app_inj_tail in R1 as [-> _]. auto.
Qed.

(** C19 *)
Lemma consumed_prefix input c : parsed A E input c ->
  exists used rest, input = used ++ rest /\
    (forall t, new_composite A E (used ++ t) = new_composite A E input) /\
    (forall k, (k < length used)%nat -> exists e c', new_composite A E (firstn k used) = Failure e c' /\
        (e = EHeaderShort \/ read_error e)).
Proof.
  intros H. apply parsed_inv in H as (text & rest & tail & ch & p & dz & d0 & [-> Hin] & H2 & H3 & H4 & H5 & H6 & H7 & H8 & _).
  destruct (parse_data_prefix ch rest _ tail H5 H3) as (used & -> & Hext & Hpre).
  exists (text ++ Byte.x03 :: used), tail. split; [|split].
  - now rewrite <- app_assoc.
  - intros t. rewrite <- app_assoc, <- app_comm_cons.
    rewrite !(new_composite_header text _ ch) by assumption. now rewrite !Hext.
  - intros k Hk. rewrite app_length in Hk. cbn [length] in Hk.
    destruct (Nat.le_gt_cases k (length text)) as [Hle|Hgt].
    + exists EHeaderShort, (zero_composite (n_zero A)). split; [|auto].
      unfold new_composite, parse_header.
      replace (read_until Byte.x03 (firstn k (text ++ Byte.x03 :: used))) with (@None (list byte * list byte)); [reflexivity|].
      symmetry. apply read_until_none. rewrite firstn_app.
      replace (k - length text)%nat with 0%nat by lia. cbn. rewrite app_nil_r.
      intros Hx. apply Hin. eapply firstn_in; eauto.
    + rewrite firstn_app. rewrite firstn_all2 by lia.
      destruct (k - length text)%nat as [|j] eqn:Hj; [lia|]. cbn [firstn].
      rewrite (new_composite_header text _ ch) by assumption.
      destruct (Hpre j) as (e & c'' & -> & He); [lia|]. eauto.
Qed.

(** C06, C07: pixels of the fixed-width encodings. *)
Lemma fields_of_header text ch :
  parse_header_text (n_ofZ A) E (zero_composite (n_zero A)) (text ++ [Byte.x03]) = Value ch ->
  exists m, split_header E text = Some m /\ header_says E (text ++ [Byte.x03]) m (zero_composite (n_zero A)) ch.
Proof.
  intros H. destruct (parse_header_text_says _ _ _ _ _ H) as [m Hm]. exists m. split; [|assumption].
  destruct Hm as [_ Hs _ _ _ _ _ _ _ _ _ _]. now rewrite removelast_last in Hs.
Qed.

(** The length announced in the header, minus the header itself. *)
Definition payload (text : list byte) (n : Z) : Prop :=
  exists v, sscanf_d (match field E text (bs "BY") with Some s => s | None => [] end) = Some v /\ n = v - (len text + 1).

Lemma payload_data_length text ch n :
  parse_header_text (n_ofZ A) E (zero_composite (n_zero A)) (text ++ [Byte.x03]) = Value ch ->
  payload text n -> c_data_length ch = int_wrap n /\ n < 2 ^ 63 /\
    (- 2 ^ 63 <= n -> c_data_length ch = n).
Proof.
  intros H (v & Hv & ->). destruct (fields_of_header _ _ H) as (m & Hm & Hs).
  destruct Hs as [_ _ _ _ (by_ & Hby & Hdl) _ _ _ _ _ _ _].
  rewrite (field_lookup _ _ _ _ Hm) in Hv. unfold section_get in Hby. rewrite Hv in Hby.
  injection Hby as <-. rewrite len_app in Hdl. change (len [Byte.x03]) with 1 in Hdl.
  pose proof (sscanf_d_bound _ _ Hv) as [_ Hi]. apply in_int_iff in Hi.
  pose proof (len_nonneg text). repeat split; [assumption|lia|].
  intros. rewrite Hdl, int_wrap_id; lia.
Qed.

Lemma payload_exists text ch :
  parse_header_text (n_ofZ A) E (zero_composite (n_zero A)) (text ++ [Byte.x03]) = Value ch ->
  exists n, payload text n.
Proof.
  intros H. destruct (fields_of_header _ _ H) as (m & Hm & Hs).
  destruct Hs as [_ _ _ _ (by_ & Hby & Hdl) _ _ _ _ _ _ _].
  exists (by_ - (len text + 1)), by_. rewrite (field_lookup _ _ _ _ Hm). auto.
Qed.

Lemma level_none text ch :
  parse_header_text (n_ofZ A) E (zero_composite (n_zero A)) (text ++ [Byte.x03]) = Value ch ->
  field E text (bs "LV") = None <-> c_level ch = None.
Proof.
  intros H. destruct (fields_of_header _ _ H) as (m & Hm & Hs).
  destruct Hs as [_ _ _ _ _ _ _ _ _ _ Hl _]. rewrite (field_lookup _ _ _ _ Hm).
  destruct (lookup m (bs "LV")) as [lv|].
  - destruct Hl as (cs & cnt & fs & _ & _ & _ & _ & _ & ->). split; discriminate.
  - cbn in Hl. split; auto.
Qed.

(** Row of the plain data shown at (z, y), counted from the end. *)
Lemma row_index input c z y : parsed A E input c -> 0 <= z < c_dz c -> 0 <= y < c_dy c ->
  exists l r Y, nth_is (c_dataz c) z l /\ nth_is l y r /\ nth_is (c_plain c) Y r /\ 0 <= Y < c_py c /\
    c_py c - 1 - Y = (c_dz c - z) * c_dy c - 1 - y.
Proof.
  intros H Hz Hy. destruct (parsed_shape A E input c H) as (_ & [Hpl _] & _ & _). pose proof (parsed_layers A E input c H) as Hl.
  destruct (Z.rem (c_py c) (c_dy c) =? 0).
  - destruct Hl as [Hn Hl]. destruct (Hl z y Hz Hy) as (l & r & H1 & H2 & H3).
    exists l, r, (z * c_dy c + y). do 3 (split; [assumption|]). split; nia.
  - destruct Hl as (Hn & Hlt & Hl). destruct (Hl y Hy) as (l & r & H1 & H2 & H3).
    assert (z = 0) by lia. subst z.
    exists l, r, (c_py c - c_dy c + y). do 3 (split; [assumption|]). split; nia.
Qed.

Lemma two_byte_pixels input text data c x y z :
  parsed A E input c -> file_layout input text data ->
  field E text (bs "LV") = None -> payload text (2 * (c_px c * c_py c)) ->
  inside x y z (c_dx c) (c_dy c) (c_dz c) ->
  let k := ((c_dz c - z) * c_dy c - 1 - y) * c_dx c + x in
  exists lo hi, nth_is data (2 * k) lo /\ nth_is data (2 * k + 1) hi /\
    at_z A c x y z = Some (two_byte_value (c_precision c) (c_unit c) lo hi).
Proof.
  intros H Hfl Hlv Hpay Hin k. pose proof Hin as (Hx & Hy & Hz).
  destruct (row_index input c z y H Hz Hy) as (l & r & Y & Hl & Hr & HY & HYr & Hk).
  apply (parsed_fields A E) in H as (text' & rest & tail & ch & p & dz & d0 & H1 & H2 & H3 & H4 & H5 & H6 & H7 & H8 &
    F1 & F2 & F3 & F4 & F5 & F6 & F7 & F8 & F9 & F10 & F11 & F12 & F13 & F14 & F15 & F16 & F17).
  destruct (file_layout_unique _ _ _ _ _ Hfl H1) as [<- <-].
  apply (level_none _ _ H2) in Hlv.
  destruct (payload_data_length _ _ _ H2 Hpay) as (Hdl & _ & _).
  rewrite (parse_data_alloc ch data H4) in H3.
  assert (Henc : identify_encoding ch = littleEndian).
  { unfold identify_encoding. rewrite Hlv, Hdl, int_wrap_mul2, F7, F8.
    replace (2 * (c_px ch * c_py ch)) with (c_px ch * c_py ch * 2) by lia. now rewrite Z.eqb_refl. }
  rewrite Henc in H3. cbn [parse_encoding] in H3.
  pose proof (parse_little_endian_spec (set_plain ch (blank ch)) data H6 (blank_ok ch H4)) as Hs.
  rewrite H3 in Hs. destruct Hs as (p' & Hp' & _ & _ & _ & _ & Hcells).
  assert (p' = p) as -> by (apply (f_equal c_plain) in Hp'; cbn in Hp'; auto).
  cbn [c_px c_py c_precision c_unit set_plain] in Hcells.
  destruct (Hcells Y x) as (a & b & Ha & Hb & Hc); [lia|destruct H6 as (? & ? & ? & _); lia|].
  assert (Hkk : k = (c_py ch - 1 - Y) * c_px ch + x).
  { unfold k. destruct H6 as (_ & _ & Q & _). rewrite <- Hk, F8, F11, Q. reflexivity. }
  exists a, b. rewrite !nth_is_index, Hkk. repeat split; auto.
  rewrite <- rvp6_little_endian_eq, F16, F5. apply at_z_cell; [assumption|].
  exists l. split; [assumption|]. exists r. split; [assumption|].
  apply nth_is_index. apply nth_is_index in HY. unfold cell in Hc. rewrite F6 in HY. now rewrite HY in Hc.
Qed.

Lemma one_byte_pixels input text data c x y z :
  parsed A E input c -> file_layout input text data ->
  field E text (bs "LV") = None -> payload text (c_px c * c_py c) ->
  inside x y z (c_dx c) (c_dy c) (c_dz c) ->
  let k := ((c_dz c - z) * c_dy c - 1 - y) * c_dx c + x in
  exists b, nth_is data k b /\ at_z A c x y z = Some (one_byte_value (c_precision c) (c_unit c) b).
Proof.
  intros H Hfl Hlv Hpay Hin k. pose proof Hin as (Hx & Hy & Hz).
  destruct (row_index input c z y H Hz Hy) as (l & r & Y & Hl & Hr & HY & HYr & Hk).
  apply (parsed_fields A E) in H as (text' & rest & tail & ch & p & dz & d0 & H1 & H2 & H3 & H4 & H5 & H6 & H7 & H8 &
    F1 & F2 & F3 & F4 & F5 & F6 & F7 & F8 & F9 & F10 & F11 & F12 & F13 & F14 & F15 & F16 & F17).
  destruct (file_layout_unique _ _ _ _ _ Hfl H1) as [<- <-].
  apply (level_none _ _ H2) in Hlv.
  rewrite F7, F8 in Hpay.
  destruct (payload_data_length _ _ _ H2 Hpay) as (_ & Hmax & Hdl).
  assert (Hpos : 0 < c_px ch * c_py ch) by (destruct H6 as (? & ? & _); nia).
  specialize (Hdl ltac:(lia)).
  rewrite (parse_data_alloc ch data H4) in H3.
  assert (Henc : identify_encoding ch = singleByte).
  { unfold identify_encoding. rewrite Hlv, Hdl, (int_wrap_id (c_px ch * c_py ch)) by lia.
    rewrite Z.eqb_refl.
    destruct (c_px ch * c_py ch =? int_wrap (c_px ch * c_py ch * 2)) eqn:He; [|reflexivity].
    apply Z.eqb_eq in He. destruct (int_wrap_congr (c_px ch * c_py ch * 2)) as [q Hq]. lia. }
  rewrite Henc in H3. cbn [parse_encoding] in H3.
  pose proof (parse_single_byte_spec (set_plain ch (blank ch)) data H6 (blank_ok ch H4)) as Hs.
  rewrite H3 in Hs. destruct Hs as (p' & Hp' & _ & _ & _ & _ & Hcells).
  assert (p' = p) as -> by (apply (f_equal c_plain) in Hp'; cbn in Hp'; auto).
  cbn [c_px c_py c_precision c_unit set_plain] in Hcells.
  destruct (Hcells Y x) as (a & Ha & Hc); [lia|destruct H6 as (? & ? & ? & _); lia|].
  assert (Hkk : k = (c_py ch - 1 - Y) * c_px ch + x).
  { unfold k. destruct H6 as (_ & _ & Q & _). rewrite <- Hk, F8, F11, Q. reflexivity. }
  exists a. rewrite !nth_is_index, Hkk. repeat split; auto.
  rewrite <- rvp6_single_byte_eq, F16, F5. apply at_z_cell; [assumption|].
  exists l. split; [assumption|]. exists r. split; [assumption|].
  apply nth_is_index. apply nth_is_index in HY. unfold cell in Hc. rewrite F6 in HY. now rewrite HY in Hc.
Qed.
End File.
