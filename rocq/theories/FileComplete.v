(** What NewComposite returns for a file whose header has a meaning. *)
From Coq Require Import Lia.
From Verif Require Import GoBase GoUtf8 GoScan GoFloat Catalog Composite Header Data Projection Radolan
  Spec SpecHeader BaseFacts HeaderSafe HeaderFacts DataFacts ParseFacts CompositeFacts ScanFacts HeaderMeaning
  ApiFacts RecordFacts FileFacts RunFacts.
From Coq Require String. Import String.StringSyntax.
#[local] Arguments bs : simpl never.
#[local] Arguments lookup : simpl never.

Lemma possible_alloc {T} (c : composite T) : possible_dims c <-> alloc_ok c.
Proof. reflexivity. Qed.

Section Complete.
Variable A : arith.
Variable E : goenv.
Notation T := (num A).
Notation parse_text text := (parse_header_text (n_ofZ A) E (zero_composite (n_zero A)) (text ++ [Byte.x03])).

Lemma payload_iff text n : payload E text n <-> announced_payload E text n.
Proof. unfold payload, announced_payload. split; intros (v & Hv & ->); exists v; (split; [|reflexivity]); now apply sscanf_d_number. Qed.

Lemma possible_same (a b : composite T) : same_header a b -> possible_dims b -> possible_dims a.
Proof. unfold same_header, possible_dims. intros (_ & _ & _ & _ & _ & -> & -> & _). auto. Qed.

Lemma header_enters text ch0 : header_meaning E text ch0 ->
  exists ch, parse_text text = Value ch /\ same_header ch ch0.
Proof. apply header_meaning_complete. Qed.

Lemma parse_data_parsed text data ch c' tail : ~ In Byte.x03 text -> parse_text text = Value ch ->
  parse_data ch data = Value (c', tail) -> exists c, parsed A E (text ++ Byte.x03 :: data) c.
Proof.
  intros Hn Hh Hd. pose proof (new_composite_header A E text data ch Hn Hh) as Hnew. rewrite Hd in Hnew.
  pose proof (parse_header_text_dims _ _ _ _ _ Hh) as [Hdo _].
  pose proof (parse_data_shape ch data Hdo) as Hs. rewrite Hd in Hs. destruct Hs as (Ha & p & -> & Hp1 & Hp2).
  destruct (arrange_data_spec (set_plain ch p)) as (dz & d0 & Har & _).
  - exact Hdo.
  - exact (dims_pos_of ch Hdo Ha).
  - split; assumption.
  - rewrite Har in Hnew. unfold parsed. cbv zeta in Hnew.
    destruct (unit_eqb _ _); rewrite Hnew; eauto.
Qed.

(** Fixed-width encodings. *)
Lemma two_byte_enc text ch : parse_text text = Value ch -> field E text (bs "LV") = None ->
  announced_payload E text (2 * (c_px ch * c_py ch)) -> identify_encoding ch = littleEndian.
Proof.
  intros H2 Hlv Hpay. apply (level_none A E _ _ H2) in Hlv. apply payload_iff in Hpay.
  destruct (payload_data_length A E _ _ _ H2 Hpay) as (Hdl & _ & _).
  unfold identify_encoding. rewrite Hlv, Hdl, int_wrap_mul2.
  replace (2 * (c_px ch * c_py ch)) with (c_px ch * c_py ch * 2) by lia. now rewrite Z.eqb_refl.
Qed.

Lemma one_byte_enc text ch : parse_text text = Value ch -> field E text (bs "LV") = None -> alloc_ok ch ->
  announced_payload E text (c_px ch * c_py ch) -> identify_encoding ch = singleByte.
Proof.
  intros H2 Hlv Ha Hpay. apply (level_none A E _ _ H2) in Hlv. apply payload_iff in Hpay.
  destruct (payload_data_length A E _ _ _ H2 Hpay) as (_ & Hmax & Hdl).
  assert (Hpos : 0 < c_px ch * c_py ch) by (destruct Ha as (? & ? & _); nia).
  specialize (Hdl ltac:(lia)).
  unfold identify_encoding. rewrite Hlv, Hdl, (int_wrap_id (c_px ch * c_py ch)) by lia.
  rewrite Z.eqb_refl.
  destruct (c_px ch * c_py ch =? int_wrap (c_px ch * c_py ch * 2)) eqn:He; [|reflexivity].
  apply Z.eqb_eq in He. destruct (int_wrap_congr (c_px ch * c_py ch * 2)) as [q Hq]. lia.
Qed.

Lemma other_enc text ch n : parse_text text = Value ch -> field E text (bs "LV") = None -> alloc_ok ch ->
  2 * (c_px ch * c_py ch) < 2 ^ 63 -> - 2 ^ 63 <= n ->
  announced_payload E text n -> n <> 2 * (c_px ch * c_py ch) -> n <> c_px ch * c_py ch ->
  identify_encoding ch = unknown.
Proof.
  intros H2 Hlv Ha Hmax Hmin Hpay N2 N1. apply (level_none A E _ _ H2) in Hlv. apply payload_iff in Hpay.
  destruct (payload_data_length A E _ _ _ H2 Hpay) as (_ & _ & Hdl). specialize (Hdl Hmin).
  assert (Hpos : 0 < c_px ch * c_py ch) by (destruct Ha as (? & ? & _); nia).
  unfold identify_encoding. rewrite Hlv, Hdl, int_wrap_mul2, !int_wrap_id by lia.
  destruct (Z.eqb_spec n (c_px ch * c_py ch * 2)); [lia|].
  destruct (Z.eqb_spec n (c_px ch * c_py ch)); [lia|reflexivity].
Qed.

Lemma two_byte_result text data ch : ~ In Byte.x03 text -> parse_text text = Value ch -> alloc_ok ch ->
  field E text (bs "LV") = None -> announced_payload E text (2 * (c_px ch * c_py ch)) ->
  if 2 * (c_px ch * c_py ch) <=? len data
  then exists c, parsed A E (text ++ Byte.x03 :: data) c
  else exists c, new_composite A E (text ++ Byte.x03 :: data) = Failure EReadLittleEndian c.
Proof.
  intros Hn Hh Ha Hlv Hpay.
  pose proof (parse_header_text_dims _ _ _ _ _ Hh) as [Hdo _].
  pose proof (dims_pos_of ch Hdo Ha) as Hpos.
  pose proof (parse_data_alloc ch data Ha) as Hd. rewrite (two_byte_enc text ch Hh Hlv Hpay) in Hd. cbn [parse_encoding] in Hd.
  pose proof (parse_little_endian_spec (set_plain ch (blank ch)) data Hpos (blank_ok ch Ha)) as Hs.
  rewrite <- Hd in Hs. cbn [c_px c_py set_plain] in Hs.
  destruct (parse_data ch data) as [[c' tail]|e c'|] eqn:Epd.
  - destruct Hs as (p & _ & _ & _ & Hle & _). apply Z.leb_le in Hle. rewrite Hle.
    eapply parse_data_parsed; eauto.
  - destruct Hs as (Hlt & -> & _). apply Z.leb_gt in Hlt. rewrite Hlt. exists c'.
    rewrite (new_composite_header A E text data ch Hn Hh), Epd. reflexivity.
  - destruct Hs.
Qed.

Lemma one_byte_result text data ch : ~ In Byte.x03 text -> parse_text text = Value ch -> alloc_ok ch ->
  field E text (bs "LV") = None -> announced_payload E text (c_px ch * c_py ch) ->
  if c_px ch * c_py ch <=? len data
  then exists c, parsed A E (text ++ Byte.x03 :: data) c
  else exists c, new_composite A E (text ++ Byte.x03 :: data) = Failure EReadSingleByte c.
Proof.
  intros Hn Hh Ha Hlv Hpay.
  pose proof (parse_header_text_dims _ _ _ _ _ Hh) as [Hdo _].
  pose proof (dims_pos_of ch Hdo Ha) as Hpos.
  pose proof (parse_data_alloc ch data Ha) as Hd. rewrite (one_byte_enc text ch Hh Hlv Ha Hpay) in Hd. cbn [parse_encoding] in Hd.
  pose proof (parse_single_byte_spec (set_plain ch (blank ch)) data Hpos (blank_ok ch Ha)) as Hs.
  rewrite <- Hd in Hs. cbn [c_px c_py set_plain] in Hs.
  destruct (parse_data ch data) as [[c' tail]|e c'|] eqn:Epd.
  - destruct Hs as (p & _ & _ & _ & Hle & _). apply Z.leb_le in Hle. rewrite Hle.
    eapply parse_data_parsed; eauto.
  - destruct Hs as (Hlt & -> & _). apply Z.leb_gt in Hlt. rewrite Hlt. exists c'.
    rewrite (new_composite_header A E text data ch Hn Hh), Epd. reflexivity.
  - destruct Hs.
Qed.

Lemma other_result text data ch n : ~ In Byte.x03 text -> parse_text text = Value ch -> alloc_ok ch ->
  field E text (bs "LV") = None -> 2 * (c_px ch * c_py ch) < 2 ^ 63 -> - 2 ^ 63 <= n ->
  announced_payload E text n -> n <> 2 * (c_px ch * c_py ch) -> n <> c_px ch * c_py ch ->
  exists c, new_composite A E (text ++ Byte.x03 :: data) = Failure EUnknownEncoding c.
Proof.
  intros Hn Hh Ha Hlv Hmax Hmin Hpay N2 N1.
  rewrite (new_composite_header A E text data ch Hn Hh), (parse_data_alloc ch data Ha).
  rewrite (other_enc text ch n); auto. cbn [parse_encoding]. eauto.
Qed.

(** Runlength. *)
Lemma reads_lines lines : forall data tail, reads read_line_runlength data lines tail <-> split_lines data lines tail.
Proof.
  induction lines as [|l lines IH]; intros data tail; split.
  - intros H. inversion H; subst. split; [reflexivity|constructor].
  - intros [-> _]. constructor.
  - intros H. inversion H as [|s line s1 ls s2 H1 H2]; subst. apply read_line_inv in H1 as [-> Hn].
    apply IH in H2 as [-> HF]. split; [|constructor; assumption]. cbn [map concat]. now rewrite <- !app_assoc.
  - intros [-> HF]. inversion HF; subst. cbn [map concat]. econstructor.
    + apply read_line_inv. split; [|assumption]. now rewrite <- !app_assoc.
    + apply IH. split; [reflexivity|assumption].
Qed.

Lemma level_some text ch lv : parse_text text = Value ch -> field E text (bs "LV") = Some lv ->
  exists levels, level_table E lv levels /\ c_level ch = Some levels.
Proof.
  intros H Hf. pose proof (header_meaning_sound _ _ _ _ _ H) as [_ _ _ _ _ _ _ _ _ Hl _]. now rewrite Hf in Hl.
Qed.

Lemma runlength_parsed input text data lv levels c :
  parsed A E input c -> file_layout input text data ->
  field E text (bs "LV") = Some lv -> level_table E lv levels ->
  exists lines tail, split_lines data lines tail /\ len lines = c_py c /\
    Forall2 (fun line row => line_meaning levels (Z.to_nat (c_px c)) line = Some row) lines (c_plain c).
Proof.
  intros H Hfl Hlv Htab.
  apply (parsed_fields A E) in H as (text' & rest & tail & ch & p & dz & d0 & H1 & H2 & H3 & H4 & H5 & H6 & H7 & H8 &
    F1 & F2 & F3 & F4 & F5 & F6 & F7 & F8 & F9 & F10 & F11 & F12 & F13 & F14 & F15 & F16 & F17).
  destruct (file_layout_unique _ _ _ _ _ Hfl H1) as [<- <-].
  destruct (level_some _ _ _ H2 Hlv) as (levels' & Htab' & Hl).
  rewrite (level_table_fun E lv _ _ Htab' Htab) in Hl. clear levels' Htab'.
  rewrite (parse_data_alloc ch data H4) in H3.
  assert (Henc : identify_encoding ch = runlength) by (unfold identify_encoding; now rewrite Hl).
  rewrite Henc in H3. cbn [parse_encoding] in H3.
  pose proof (parse_runlength_spec (set_plain ch (blank ch)) data (blank_ok ch H4)) as Hs.
  rewrite H3 in Hs. destruct Hs as (p' & lines & Hp' & Hlp & _ & Hll & Hr & Hdec).
  assert (p' = p) as -> by (apply (f_equal c_plain) in Hp'; cbn in Hp'; auto).
  cbn [c_px c_py set_plain] in *. unfold level_of in Hdec. cbn [c_level set_plain] in Hdec. rewrite Hl in Hdec.
  exists lines, tail. split; [now apply reads_lines|]. rewrite F6, F7, F8. split; [assumption|].
  assert (Hlen : length lines = length p) by (unfold len in *; lia).
  clear - Hdec Hlen. revert p Hlen Hdec. induction lines as [|l lines IH]; intros [|r p] Hlen Hdec; try discriminate; [constructor|].
  constructor.
  - destruct (Hdec 0%nat l eq_refl) as (r' & [= <-] & Hd).
    pose proof (decode_runlength_spec levels (repeat NaN32 (Z.to_nat (c_px ch))) l) as Hm. rewrite repeat_length in Hm.
    destruct (line_meaning levels (Z.to_nat (c_px ch)) l) as [m|].
    + congruence.
    + destruct Hm as (e & d & Hm & _). congruence.
  - apply IH; [now injection Hlen|]. intros k line Hk. exact (Hdec (S k) line Hk).
Qed.

Lemma line_meaning_length levels w line r : line_meaning levels w line = Some r -> length r = w.
Proof.
  unfold line_meaning. destruct line as [|b body]; [intros [= <-]; apply repeat_length|].
  destruct (split_offsets body) as [offs runs]. destruct (existsb _ offs); [discriminate|].
  destruct (map (level_value levels) (expand_runs runs)) as [|v vs] eqn:Ev; [intros [= <-]; apply repeat_length|].
  rewrite <- Ev. destruct (Nat.leb_spec (Z.to_nat (total_offset offs) + length (map (level_value levels) (expand_runs runs))) w) as [Hle|]; [|discriminate].
  intros [= <-]. rewrite !app_length, !repeat_length. lia.
Qed.

Lemma runlength_complete text data ch lv levels lines tail :
  ~ In Byte.x03 text -> parse_text text = Value ch -> alloc_ok ch ->
  field E text (bs "LV") = Some lv -> level_table E lv levels ->
  split_lines data lines tail -> len lines = c_py ch ->
  Forall (fun line => line_meaning levels (Z.to_nat (c_px ch)) line <> None) lines ->
  exists c, parsed A E (text ++ Byte.x03 :: data) c.
Proof.
  intros Hn Hh Ha Hlv Htab Hsl Hlen HF.
  destruct (level_some _ _ _ Hh Hlv) as (levels' & Htab' & Hl).
  rewrite (level_table_fun E lv _ _ Htab' Htab) in Hl. clear levels' Htab'.
  assert (Henc : identify_encoding ch = runlength) by (unfold identify_encoding; now rewrite Hl).
  pose proof (parse_data_alloc ch data Ha) as Hd. rewrite Henc in Hd. cbn [parse_encoding] in Hd.
  unfold parse_runlength in Hd.
  assert (Hblank : length (c_plain (set_plain ch (blank ch))) = length lines).
  { cbn [c_plain set_plain]. unfold blank. rewrite repeat_length. unfold len in Hlen. lia. }
  destruct (row_loop_complete read_line_runlength EReadRunlength (decode_runlength (level_of (set_plain ch (blank ch)))) (fun i => i) (Z.to_nat (c_px ch))
    lines 0 (set_plain ch (blank ch)) data tail) as [c' Hc'].
  - now apply reads_lines.
  - intros dst line Hin Hw. rewrite Forall_forall in HF. specialize (HF _ Hin).
    unfold level_of. cbn [c_level set_plain]. rewrite Hl.
    pose proof (decode_runlength_spec levels dst line) as Hm. rewrite Hw in Hm.
    destruct (line_meaning levels (Z.to_nat (c_px ch)) line) as [m|] eqn:El; [|congruence].
    exists m. split; [assumption|]. now apply line_meaning_length in El.
  - exact (proj2 (blank_ok ch Ha)).
  - intros k Hk. unfold len in *. lia.
  - rewrite Hblank, Hc' in Hd. eapply parse_data_parsed; eauto.
Qed.
End Complete.
