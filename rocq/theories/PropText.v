(** C72: the message of an error tells what is wrong. *)
From Verif Require Import GoBase GoFloat Catalog Composite Header Data Projection Radolan Spec SpecHeader SpecData ErrorText SpecText
  BaseFacts FieldFacts DefectFacts HeaderSafe PropHeader PropFile FileComplete PropData.
From Coq Require Import Lia.
From Coq Require String. Import String.StringSyntax.

(** * No message begins like two kinds. *)
Fixpoint prefixb (p q : list byte) : bool :=
  match p, q with
  | [], _ => true
  | x :: p', y :: q' => byte_eqb x y && prefixb p' q'
  | _ :: _, [] => false
  end.
Lemma prefix_refl p d : prefixb p (p ++ d) = true.
Proof. induction p as [|x p IH]; [reflexivity|]. cbn. rewrite IH, andb_true_r. unfold byte_eqb. apply Byte.byte_dec_lb. reflexivity. Qed.
Lemma two_prefixes : forall p q d d', p ++ d = q ++ d' -> prefixb p q = true \/ prefixb q p = true.
Proof.
  induction p as [|x p IH]; intros q d d' H; [now left|]. destruct q as [|y q]; [now right|].
  cbn in H. injection H as <- H. destruct (IH q d d' H) as [K|K]; [left|right]; cbn; rewrite K, andb_true_r; unfold byte_eqb; apply Byte.byte_dec_lb; reflexivity.
Qed.
Definition all_errors : list error :=
  [EHeaderShort; EDataLength; ECaptureTime; EForecastTime; EInterval; EDimGP; EDimBG; ENoDimension; EPrecision; ELevelShort; ELevelCount;
   ELevelFormat; ELevelValue; EFormat; ENoHeader; EUnknownEncoding; EReadRunlength; EOffsetValue; EDestination; EReadLittleEndian;
   ESizeLittleEndian; EReadSingleByte; ESizeSingleByte; ErrUnknownUnit; EArchive].
Lemma all_errors_in e : In e all_errors.
Proof. destruct e; cbn; tauto. Qed.
Definition error_eqb (a b : error) : bool :=
  match a, b with
  | EHeaderShort, EHeaderShort | EDataLength, EDataLength | ECaptureTime, ECaptureTime | EForecastTime, EForecastTime
  | EInterval, EInterval | EDimGP, EDimGP | EDimBG, EDimBG | ENoDimension, ENoDimension | EPrecision, EPrecision
  | ELevelShort, ELevelShort | ELevelCount, ELevelCount | ELevelFormat, ELevelFormat | ELevelValue, ELevelValue
  | EFormat, EFormat | ENoHeader, ENoHeader | EUnknownEncoding, EUnknownEncoding | EReadRunlength, EReadRunlength
  | EOffsetValue, EOffsetValue | EDestination, EDestination | EReadLittleEndian, EReadLittleEndian
  | ESizeLittleEndian, ESizeLittleEndian | EReadSingleByte, EReadSingleByte | ESizeSingleByte, ESizeSingleByte
  | ErrUnknownUnit, ErrUnknownUnit | EArchive, EArchive => true
  | _, _ => false
  end.
Lemma error_eqb_eq a b : error_eqb a b = true -> a = b.
Proof. destruct a, b; (reflexivity || discriminate). Qed.
Lemma starts_apart e e' : prefixb (message_start e) (message_start e') = true -> e = e'.
Proof.
  assert (H : forallb (fun a => forallb (fun b => implb (prefixb (message_start a) (message_start b)) (error_eqb a b)) all_errors) all_errors = true)
    by (vm_compute; reflexivity).
  rewrite forallb_forall in H. specialize (H e (all_errors_in e)). rewrite forallb_forall in H. specialize (H e' (all_errors_in e')).
  intros K. rewrite K in H. now apply error_eqb_eq.
Qed.

(** A text begins like the message of at most one kind of error. *)
Theorem C72_distinct t e e' : begins_with t (message_start e) -> begins_with t (message_start e') -> e = e'.
Proof.
  intros [d ->] [d' H]. destruct (two_prefixes _ _ _ _ H) as [K|K]; [|symmetry]; now apply starts_apart.
Qed.

(** * The messages of NewComposite *)
Definition with_detail (e : error) : bool :=
  match e with
  | EHeaderShort | ENoDimension | ELevelShort | ENoHeader | EUnknownEncoding | EOffsetValue | EDestination | ESizeLittleEndian
  | ESizeSingleByte | ErrUnknownUnit | EArchive => false
  | _ => true
  end.
Lemma message_form e d : e <> EArchive -> error_message e d = Some (message_start e ++ if with_detail e then d else []).
Proof. intros H. destruct e; try reflexivity. congruence. Qed.

Section Text.
Variable A : arith.
Variable E : goenv.
Variable parse_error : error -> list byte -> list byte.
Notation message := (composite_error A E parse_error).

Lemma message_of input e c : new_composite A E input = Failure e c ->
  message input = Some (message_start e ++ if with_detail e then detail A E parse_error e input else []).
Proof.
  intros H. unfold composite_error. rewrite H. apply message_form. intros ->. now apply (proj2 (proj2 (C50_never A E input c))).
Qed.

(** There is a message exactly if there is an error, and its beginning tells
    the kind of the error. *)
Theorem C72_kind input e : (exists c, new_composite A E input = Failure e c) <->
  exists t, message input = Some t /\ begins_with t (message_start e).
Proof.
  split.
  - intros [c H]. rewrite (message_of input e c H). eexists. split; [reflexivity|]. eexists. reflexivity.
  - intros (t & Ht & Hb). destruct (new_composite A E input) as [c|e1 c|] eqn:H; try (unfold composite_error in Ht; rewrite H in Ht; discriminate).
    rewrite (message_of input e1 c H) in Ht. injection Ht as <-. exists c. f_equal. symmetry. apply (C72_distinct _ e e1 Hb). eexists. reflexivity.
Qed.
Theorem C72_message input : (exists t, message input = Some t) <-> exists e c, new_composite A E input = Failure e c.
Proof.
  split.
  - intros [t Ht]. unfold composite_error in Ht. destruct (new_composite A E input) as [c|e c|]; try discriminate. eauto.
  - intros (e & c & H). rewrite (message_of input e c H). eauto.
Qed.

(** A message about a header defect appears exactly if that is the first defect
    of the header; one about a data defect exactly if the data has it; the one
    about the unit exactly for complete files of an unlisted product. *)
Theorem C72_header input text data e : file_layout input text data -> In e (map fst (header_defects E text)) ->
  (exists t, message input = Some t /\ begins_with t (message_start e)) <-> first_defect (header_defects E text) e.
Proof. intros Hf He. rewrite <- C72_kind. now apply C49_header_error with (data := data). Qed.
Theorem C72_data input text data (c : composite (num A)) e : file_layout input text data -> header_meaning E text c -> e <> ErrUnknownUnit ->
  (exists t, message input = Some t /\ begins_with t (message_start e)) <-> data_defect E text data (c_px c) (c_py c) e.
Proof. intros Hf Hm He. rewrite <- C72_kind. now apply C50_data_error. Qed.
Theorem C72_unit input : message input = Some (bs "radolan.NewComposite: data unit not defined in catalog. data values can be incorrect") <->
  exists c text data, parsed A E input c /\ file_layout input text data /\ lookup unit_catalog (firstn 2 text) = None.
Proof.
  rewrite <- C28_error_iff. split.
  - intros H. apply C72_kind. eexists. split; [exact H|]. exists []. reflexivity.
  - intros [c H]. rewrite (message_of _ _ _ H). reflexivity.
Qed.
(** These messages have no further text. *)
Theorem C72_fixed input e : In e [EHeaderShort; ENoDimension; ELevelShort; ENoHeader; EUnknownEncoding; EOffsetValue; EDestination; ErrUnknownUnit] ->
  (exists c, new_composite A E input = Failure e c) <-> message input = Some (message_start e).
Proof.
  intros He. split.
  - intros [c H]. rewrite (message_of _ _ _ H). cbn in He. intuition (subst; reflexivity).
  - intros H. apply C72_kind. eexists. split; [exact H|]. exists []. now rewrite app_nil_r.
Qed.
(** No delimiter: too short. *)
Theorem C72_no_delimiter input : ~ In Byte.x03 input -> message input = Some (bs "radolan.parseHeader: header corrupted: too short").
Proof. intros H. destruct (C49_no_delimiter A E input H) as [c Hc]. rewrite (message_of _ _ _ Hc). reflexivity. Qed.
End Text.

(** * The text of a read error *)
Lemma rest_full w : (0 < w)%Z -> forall n s, len s < Z.of_nat n * w ->
  len (unread_rest (read_full w) n s) = len s mod w.
Proof.
  intros Hw. induction n as [|n IH]; intros s Hs; [unfold len in *; lia|]. cbn [unread_rest]. unfold read_full.
  destruct (Z.leb_spec w (len s)) as [Hle|Hlt].
  - assert (Hk : len (skipn (Z.to_nat w) s) = len s - w) by (unfold len in *; rewrite skipn_length; lia).
    rewrite IH, Hk by lia. rewrite <- (Z_mod_plus_full (len s - w) 1 w). f_equal. lia.
  - symmetry. apply Z.mod_small. unfold len in *. lia.
Qed.
Lemma full_error_len s : full_error s = if len s =? 0 then bs "EOF" else bs "unexpected EOF".
Proof. destruct s; reflexivity. Qed.

Section Cut.
Variable A : arith.
Variable E : goenv.
Variable parse_error : error -> list byte -> list byte.
Notation message := (composite_error A E parse_error).

Lemma parse_header_file text data ch : ~ In Byte.x03 text ->
  parse_header_text (n_ofZ A) E (zero_composite (n_zero A)) (text ++ [Byte.x03]) = Value ch ->
  parse_header (n_ofZ A) E (zero_composite (n_zero A)) (text ++ Byte.x03 :: data) = Value (ch, data).
Proof. intros Hn Hh. unfold parse_header. rewrite read_until_app by assumption. now rewrite Hh. Qed.

(** The data is too short: the message tells whether it ends between two lines
    or within one. *)
Theorem C72_cut_two_byte input text data (c : composite (num A)) : file_layout input text data -> header_meaning E text c ->
  data_defect E text data (c_px c) (c_py c) EReadLittleEndian ->
  message input = Some (if len data mod (2 * c_px c) =? 0 then bs "radolan.readLineLittleEndian: EOF"
                        else bs "radolan.readLineLittleEndian: unexpected EOF").
Proof.
  intros Hf Hm Hd. destruct (proj2 (C50_data_error A E input text data c _ Hf Hm (fun H : EReadLittleEndian = ErrUnknownUnit => ltac:(discriminate H))) Hd) as [c' Hc'].
  rewrite (message_of A E parse_error _ _ _ Hc'). f_equal. destruct Hf as [-> Hn].
  destruct (header_enters A E text c Hm) as (ch & Hh & Hsame). destruct Hsame as (_ & _ & _ & _ & _ & Ex & Ey & _).
  inversion Hd as [| |n Hp Hlv Hpay Hw Hlen| | | |]; subst. rewrite <- Ex, <- Ey in *.
  pose proof (parse_header_text_dims _ _ _ _ _ Hh) as [Hdo _]. destruct Hp as (P1 & P2 & P3 & P4).
  cbn [with_detail detail]. rewrite (parse_header_file text data ch Hn Hh).
  assert (Hx : c_dx ch = c_px ch) by (destruct Hdo as [[? ?]|(? & ? & ?)]; congruence).
  rewrite Hx, int_wrap_id by lia. rewrite full_error_len, rest_full by nia. replace (c_px ch * 2) with (2 * c_px ch) by lia.
  now destruct (len data mod (2 * c_px ch) =? 0).
Qed.
Theorem C72_cut_one_byte input text data (c : composite (num A)) : file_layout input text data -> header_meaning E text c ->
  data_defect E text data (c_px c) (c_py c) EReadSingleByte ->
  message input = Some (if len data mod c_px c =? 0 then bs "radolan.readLineSingleByte: EOF"
                        else bs "radolan.readLineSingleByte: unexpected EOF").
Proof.
  intros Hf Hm Hd. destruct (proj2 (C50_data_error A E input text data c _ Hf Hm (fun H : EReadSingleByte = ErrUnknownUnit => ltac:(discriminate H))) Hd) as [c' Hc'].
  rewrite (message_of A E parse_error _ _ _ Hc'). f_equal. destruct Hf as [-> Hn].
  destruct (header_enters A E text c Hm) as (ch & Hh & Hsame). destruct Hsame as (_ & _ & _ & _ & _ & Ex & Ey & _).
  inversion Hd as [| | |n Hp Hlv Hpay Hw Hw' Hlen| | |]; subst. rewrite <- Ex, <- Ey in *.
  pose proof (parse_header_text_dims _ _ _ _ _ Hh) as [Hdo _]. destruct Hp as (P1 & P2 & P3 & P4).
  cbn [with_detail detail]. rewrite (parse_header_file text data ch Hn Hh).
  assert (Hx : c_dx ch = c_px ch) by (destruct Hdo as [[? ?]|(? & ? & ?)]; congruence).
  rewrite Hx. rewrite full_error_len, rest_full by nia. 
  now destruct (len data mod c_px ch =? 0).
Qed.
Theorem C72_cut_runlength input text data (c : composite (num A)) : file_layout input text data -> header_meaning E text c ->
  data_defect E text data (c_px c) (c_py c) EReadRunlength -> message input = Some (bs "radolan.readLineRunlength: EOF").
Proof.
  intros Hf Hm Hd. destruct (proj2 (C50_data_error A E input text data c _ Hf Hm (fun H : EReadRunlength = ErrUnknownUnit => ltac:(discriminate H))) Hd) as [c' Hc'].
  rewrite (message_of A E parse_error _ _ _ Hc'). f_equal. destruct Hf as [-> Hn].
  destruct (header_enters A E text c Hm) as (ch & Hh & Hsame). 
  cbn [with_detail detail]. rewrite (parse_header_file text data ch Hn Hh). reflexivity.
Qed.
(** The message about the level format quotes the level field. *)
Theorem C72_level_format input text data : file_layout input text data -> first_defect (header_defects E text) ELevelFormat ->
  exists lv, field E text (bs "LV") = Some lv /\ message input = Some (bs "radolan.parseHeader: invalid level format: " ++ lv).
Proof.
  intros Hf Hd. destruct (proj2 (C49_header_error A E input text data ELevelFormat Hf ltac:(cbn; tauto)) Hd) as [c Hc].
  rewrite (message_of A E parse_error _ _ _ Hc). destruct Hf as [-> Hn].
  apply first_defect_in in Hd as (d & Hin & HD). cbn in Hin.
  repeat (destruct Hin as [Hin|Hin]; [try discriminate|]); try contradiction. injection Hin as <-.
  destruct HD as (lv & n & Hlv & _). exists lv. split; [exact Hlv|]. f_equal. cbn [with_detail detail].
  rewrite read_until_app, removelast_last by assumption. destruct (split_header E text) as [m|] eqn:Em.
  - rewrite (field_lookup E text m _ Em) in Hlv. unfold section_get.
    assert (K : lookup m (bs "LV") = Some lv) by exact Hlv. rewrite K. reflexivity.
  - destruct (split_header_total E text) as [m Hm]. congruence.
Qed.
End Cut.

(** *** Cases: a two-byte file of 3 columns and 2 rows cut after the first line,
    and within it; a wrong forecast offset. *)
Example C72_case_cut A E pe k : In k [0; 4; 6; 10]%nat ->
  composite_error A E pe (file two_byte_text (firstn k two_byte_data)) =
    Some (if (len (firstn k two_byte_data) mod 6 =? 0) then bs "radolan.readLineLittleEndian: EOF" else bs "radolan.readLineLittleEndian: unexpected EOF").
Proof.
  intros Hk. assert (Hm : exists c : composite (num A), header_meaning E two_byte_text c /\ c_px c = 3 /\ c_py c = 2).
  { eexists. split; [eapply (meaning_of_text (n_zero A)); vm_compute; reflexivity|]. split; reflexivity. }
  destruct Hm as (c & Hm & Hx & Hy). set (data := firstn k two_byte_data).
  assert (Hf : file_layout (file two_byte_text data) two_byte_text data) by (split; [reflexivity|vm_compute; intuition discriminate]).
  change 6 with (2 * 3). rewrite <- Hx. apply (C72_cut_two_byte A E pe _ _ _ c Hf Hm).
  apply (C50_data_error A E _ _ _ _ _ Hf Hm); [discriminate|]. unfold data. clear - Hk.
  cbn in Hk. destruct Hk as [<-|[<-|[<-|[<-|[]]]]]; eexists; vm_compute; reflexivity.
Qed.
Example C72_case_header A E pe data : exists t,
  composite_error A E pe (bs "RW282105100000716BY    60VV abINT xyz" ++ Byte.x03 :: data) = Some t /\
  begins_with t (bs "radolan.parseHeader: could not parse forecast time: ").
Proof.
  apply (C72_header A E pe _ (bs "RW282105100000716BY    60VV abINT xyz") data EForecastTime).
  - split; [reflexivity|vm_compute; intuition discriminate].
  - cbn. tauto.
  - apply C49_case.
Qed.
Example C72_case_unit A E pe : exists input, composite_error A E pe input =
  Some (bs "radolan.NewComposite: data unit not defined in catalog. data values can be incorrect").
Proof.
  eexists. unfold composite_error. destruct (C28_unknown_case A E) as (c & H & _). rewrite H. reflexivity.
Qed.
Print Assumptions C72_distinct.
Print Assumptions C72_kind.
Print Assumptions C72_message.
Print Assumptions C72_header.
Print Assumptions C72_data.
Print Assumptions C72_unit.
Print Assumptions C72_fixed.
Print Assumptions C72_no_delimiter.
Print Assumptions C72_cut_two_byte.
Print Assumptions C72_cut_one_byte.
Print Assumptions C72_cut_runlength.
Print Assumptions C72_level_format.
