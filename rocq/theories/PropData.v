(** C16 (kinds), C50: which data error is reported. *)
From Coq Require Import Lia.
From Verif Require Import GoBase GoUtf8 GoScan GoFloat Catalog Composite Header Data Projection Radolan
  Spec SpecHeader SpecData BaseFacts HeaderSafe HeaderFacts DataFacts ParseFacts CompositeFacts ScanFacts HeaderMeaning
  ApiFacts RecordFacts FileFacts RunFacts FileComplete DefectFacts PropFile PropHeader.
From Coq Require String. Import String.StringSyntax.
#[local] Arguments bs : simpl never.
#[local] Arguments lookup : simpl never.

(** The kind of error of an invalid line. *)
Theorem C16_error_kind level dst line e d : decode_runlength level dst line = RowErr e d ->
  line_meaning level (length dst) line = None /\
  ((bad_offset line /\ e = EOffsetValue) \/ (~ bad_offset line /\ e = EDestination)).
Proof.
  intros H. pose proof (decode_runlength_spec level dst line) as Hs.
  destruct (line_meaning level (length dst) line); [congruence|]. split; [reflexivity|]. clear Hs.
  revert H. unfold decode_runlength, bad_offset. destruct line as [|b body]; [discriminate|].
  cbn [runlength_loop].
  pose proof (offsets_spec level body (repeat NaN32 (length dst)) 0 ltac:(lia)) as Ho.
  destruct (split_offsets body) as [offs runs]. cbn [fst].
  destruct (existsb _ offs) eqn:He.
  - rewrite Ho. intros [= <- _]. left. split; [|reflexivity]. apply existsb_exists in He as (x & H1 & H2). exists x. split; [assumption|lia].
  - destruct Ho as [H0 Ho]. rewrite Ho. intros H. right. split.
    + intros (x & H1 & H2). assert (existsb (fun b => bz b <? 16) offs = true) by (apply existsb_exists; exists x; split; [assumption|lia]). congruence.
    + pose proof (runs_spec level runs (repeat NaN32 (length dst)) (0 + total_offset offs) ltac:(lia)) as Hr. cbv zeta in Hr.
      destruct runs as [|r0 runs]; [discriminate|].
      destruct (map (level_value level) (expand_runs (r0 :: runs))); [congruence|].
      destruct (_ <=? _)%nat; [congruence|]. destruct Hr as [d' Hr]. congruence.
Qed.

(** The row loop of the runlength encoding fails exactly at the first bad line,
    or at the end of the data. *)
Lemma row_loop_fails {T} level w : forall n i (c : composite T) s e,
  wide w (c_plain c) -> 0 <= i -> i + Z.of_nat n <= len (c_plain c) ->
  (exists c', row_loop read_line_runlength EReadRunlength (decode_runlength level) (fun i => i) n i c s = Failure e c') <->
  exists lines tail, split_lines s lines tail /\ (length lines < n)%nat /\
    Forall (fun l => line_meaning level w l <> None) lines /\
    ((e = EReadRunlength /\ ~ In Byte.x0a tail) \/
     (exists line rest, tail = line ++ Byte.x0a :: rest /\ ~ In Byte.x0a line /\ line_meaning level w line = None /\
        ((bad_offset line /\ e = EOffsetValue) \/ (~ bad_offset line /\ e = EDestination)))).
Proof.
  induction n as [|n IH]; intros i c s e Hw Hi Hn; cbn [row_loop].
  { split; [intros [c' H]; discriminate|]. intros (lines & tail & _ & H & _). lia. }
  destruct (index_some (c_plain c) i ltac:(lia)) as [dst Hdst]. rewrite Hdst.
  apply index_inv in Hdst as [_ Hdst]. assert (Hlen : length dst = w) by (eapply wide_nth; eauto).
  destruct (read_line_runlength s) as [[line s1]|] eqn:Hr.
  - apply read_line_inv in Hr as [-> Hnl].
    pose proof (decode_runlength_spec level dst line) as Hs. rewrite Hlen in Hs.
    destruct (line_meaning level w line) as [r|] eqn:Hm.
    + rewrite Hs, assign_some by lia. pose proof (line_meaning_length _ _ _ _ Hm) as Hrl.
      rewrite IH.
      2:{ cbn. apply wide_replace; assumption. } 2: lia.
      2:{ cbn [c_plain set_plain]. unfold len. rewrite replace_nth_length. unfold len in Hn. lia. }
      split.
      * intros (lines & tail & [-> HF] & Hl & Hv & Hend). exists (line :: lines), tail.
        split; [split; [cbn [map concat]; now rewrite <- !app_assoc|now constructor]|].
        split; [cbn; lia|]. split; [constructor; congruence|]. exact Hend.
      * intros (lines & tail & [Heq HF] & Hl & Hv & Hend). destruct lines as [|l0 lines].
        { exfalso. cbn in Heq. subst tail. destruct Hend as [[_ Hend]|(l1 & rest & Hend & H1 & H2 & _)].
          - apply Hend. apply in_app_iff. right. now left.
          - pose proof (read_line_inv (line ++ Byte.x0a :: s1) line s1) as [_ R1].
            pose proof (read_line_inv (line ++ Byte.x0a :: s1) l1 rest) as [_ R2].
            rewrite R1 in R2 by auto. specialize (R2 (conj Hend H1)). congruence. }
        cbn [map concat] in Heq. rewrite <- !app_assoc in Heq. cbn [app] in Heq. inversion HF; subst. inversion Hv; subst.
        pose proof (read_line_inv (line ++ Byte.x0a :: s1) line s1) as [_ R1]. specialize (R1 (conj eq_refl Hnl)).
        pose proof (read_line_inv (line ++ Byte.x0a :: s1) l0 (concat (map (fun l => l ++ [Byte.x0a]) lines) ++ tail)) as [_ R2].
        rewrite R1 in R2. specialize (R2 (conj Heq H1)). injection R2 as <- ->.
        exists lines, tail. split; [split; auto|]. split; [cbn in Hl; lia|]. auto.
    + destruct Hs as (e1 & d & Hd & _). rewrite Hd, assign_some by lia.
      pose proof (C16_error_kind _ _ _ _ _ Hd) as [_ Hk]. split.
      * intros [c' [= <- _]]. exists [], (line ++ Byte.x0a :: s1). split; [split; [reflexivity|constructor]|].
        split; [cbn; lia|]. split; [constructor|]. right. exists line, s1. auto.
      * intros (lines & tail & [Heq HF] & Hl & Hv & Hend).
        assert (e1 = e) as ->; [|eauto].
        pose proof (read_line_inv (line ++ Byte.x0a :: s1) line s1) as [_ R1]. specialize (R1 (conj eq_refl Hnl)).
        destruct lines as [|l0 lines].
        -- cbn in Heq. subst tail. destruct Hend as [[_ Hend]|(l1 & rest & Hend & H1 & H2 & H3)].
           { exfalso. apply Hend. apply in_app_iff. right. now left. }
           pose proof (read_line_inv (line ++ Byte.x0a :: s1) l1 rest) as [_ R2]. rewrite R1 in R2. specialize (R2 (conj Hend H1)).
           injection R2 as <- <-. destruct Hk as [[? ->]|[? ->]], H3 as [[? ->]|[? ->]]; tauto.
        -- exfalso. cbn [map concat] in Heq. rewrite <- !app_assoc in Heq. cbn [app] in Heq. inversion HF; subst. inversion Hv; subst.
           pose proof (read_line_inv (line ++ Byte.x0a :: s1) l0 (concat (map (fun l => l ++ [Byte.x0a]) lines) ++ tail)) as [_ R2].
           rewrite R1 in R2. specialize (R2 (conj Heq H1)). injection R2 as <- ->. congruence.
  - assert (Hno : ~ In Byte.x0a s).
    { unfold read_line_runlength in Hr. destruct (read_until Byte.x0a s) as [[? ?]|] eqn:Hu; [discriminate|]. now apply read_until_none in Hu. }
    split.
    + intros [c' [= <- _]]. exists [], s. split; [split; [reflexivity|constructor]|]. split; [cbn; lia|]. split; [constructor|]. now left.
    + intros (lines & tail & [Heq HF] & Hl & Hv & Hend).
      assert (e = EReadRunlength) as ->; [|eauto].
      destruct lines as [|l0 lines].
      * cbn in Heq. subst tail. destruct Hend as [[-> _]|(l1 & rest & -> & _)]; [reflexivity|].
        exfalso. apply Hno. apply in_app_iff. right. now left.
      * exfalso. subst s. apply Hno. cbn [map concat]. rewrite <- !app_assoc. apply in_app_iff. right. now left.
Qed.

Section Data.
Variable A : arith.
Variable E : goenv.
Notation T := (num A).
Notation parse_text text := (parse_header_text (n_ofZ A) E (zero_composite (n_zero A)) (text ++ [Byte.x03])).

Lemma possible_size_alloc (c : composite T) : possible_size (c_px c) (c_py c) <-> alloc_ok c.
Proof. reflexivity. Qed.

Lemma encoding_cases text (ch : composite T) : parse_text text = Value ch -> field E text (bs "LV") = None ->
  exists n, announced_payload E text n /\ (forall n', announced_payload E text n' -> int_wrap n' = int_wrap n) /\
  identify_encoding ch =
    if int_wrap n =? int_wrap (2 * (c_px ch * c_py ch)) then littleEndian
    else if int_wrap n =? int_wrap (c_px ch * c_py ch) then singleByte else unknown.
Proof.
  intros H2 Hlv. apply (level_none A E _ _ H2) in Hlv. destruct (payload_exists A E _ _ H2) as [n Hn]. exists n.
  destruct (payload_data_length A E _ _ _ H2 Hn) as (Hdl & _).
  split; [now apply payload_iff|]. split.
  - intros n' Hn'. apply payload_iff in Hn'. destruct (payload_data_length A E _ _ _ H2 Hn') as (Hdl' & _). congruence.
  - unfold identify_encoding. rewrite Hlv, Hdl, int_wrap_mul2. now rewrite (Z.mul_comm (c_px ch * c_py ch) 2).
Qed.

Lemma data_fails text data (ch : composite T) e : parse_text text = Value ch ->
  (exists c', parse_data ch data = Failure e c') <-> data_defect E text data (c_px ch) (c_py ch) e.
Proof.
  intros Hh. pose proof (parse_header_text_dims _ _ _ _ _ Hh) as [Hdo _].
  rewrite parse_data_eq. destruct ((c_px ch =? 0) || (c_py ch =? 0)) eqn:H0.
  { apply orb_true_iff in H0. rewrite !Z.eqb_eq in H0. split.
    - intros [c' [= <- _]]. now constructor.
    - intros H. assert (~ possible_size (c_px ch) (c_py ch)) by (unfold possible_size; lia).
      inversion H; subst; try contradiction. eauto. }
  apply orb_false_iff in H0 as [Hx Hy]. apply Z.eqb_neq in Hx, Hy.
  destruct (_ && _ && _ && _) eqn:Ha.
  2:{ split; [intros [c' Hc]; discriminate|]. intros H.
      assert (~ possible_size (c_px ch) (c_py ch)) by (rewrite possible_size_alloc, alloc_ok_test; congruence).
      inversion H; subst; try contradiction. lia. }
  apply alloc_ok_test in Ha. pose proof (dims_pos_of ch Hdo Ha) as Hpos. cbv zeta.
  assert (Hps : possible_size (c_px ch) (c_py ch)) by exact Ha.
  change (identify_encoding (set_plain ch (blank ch))) with (identify_encoding ch).
  destruct (field E text (bs "LV")) as [lv|] eqn:Hlv.
  - destruct (level_some A E _ _ _ Hh Hlv) as (levels & Htab & Hl).
    assert (Henc : identify_encoding ch = runlength) by (unfold identify_encoding; now rewrite Hl).
    rewrite Henc. cbn [parse_encoding]. unfold parse_runlength.
    pose proof (blank_ok ch Ha) as [Hb1 Hb2]. cbn [c_px c_py set_plain] in Hb1, Hb2.
    assert (Hll : level_of (set_plain ch (blank ch)) = levels) by (unfold level_of; cbn [c_level set_plain]; now rewrite Hl).
    rewrite Hll.
    rewrite (row_loop_fails levels (Z.to_nat (c_px ch)) (length (c_plain (set_plain ch (blank ch)))) 0 (set_plain ch (blank ch)) data e Hb2 ltac:(lia) ltac:(unfold len; lia)).
    assert (Hlen : Z.of_nat (length (c_plain (set_plain ch (blank ch)))) = c_py ch) by exact Hb1.
    split.
    + intros (lines & tail & Hsl & Hlt & HF & [[-> Hnl]|(line & rest & -> & Hnl & Hm & Hk)]).
      * eapply defect_lines; eauto. unfold len. lia.
      * assert (Hsl' : split_lines data (lines ++ [line]) rest).
        { destruct Hsl as [-> HF']. split; [|apply Forall_app; auto]. rewrite map_app, concat_app. cbn [map concat]. rewrite app_nil_r, <- !app_assoc. reflexivity. }
        assert (len lines < c_py ch) by (unfold len; lia).
        destruct Hk as [[Hk ->]|[Hk ->]]; [eapply defect_offset; eauto|eapply defect_long; eauto].
    + assert (Hsplit : forall lines line tail, split_lines data (lines ++ [line]) tail ->
        split_lines data lines (line ++ Byte.x0a :: tail) /\ ~ In Byte.x0a line).
      { intros lines line tail [-> HF']. apply Forall_app in HF' as [HF1 HF2]. inversion HF2; subst. split; [|assumption].
        split; [|assumption]. rewrite map_app, concat_app. cbn [map concat]. rewrite app_nil_r, <- !app_assoc. reflexivity. }
      intros H. inversion H as [?|? ? Hf|? ? Hf|? ? Hf|lv' levels' lines tail ? Hf Ht Hs Hnl Hlt HF|lv' levels' lines line tail ? Hf Ht Hs Hlt HF Hm Hk|lv' levels' lines line tail ? Hf Ht Hs Hlt HF Hm Hk]; subst; try congruence; try lia.
      all: assert (lv' = lv) as -> by congruence; rewrite (level_table_fun E lv _ _ Ht Htab) in *.
      * exists lines, tail. split; [assumption|]. split; [unfold len in Hlt; lia|]. split; [assumption|]. now left.
      * destruct (Hsplit _ _ _ Hs) as [Hs1 Hs2]. exists lines, (line ++ Byte.x0a :: tail). split; [assumption|]. split; [unfold len in Hlt; lia|].
        split; [assumption|]. right. exists line, tail. auto 8.
      * destruct (Hsplit _ _ _ Hs) as [Hs1 Hs2]. exists lines, (line ++ Byte.x0a :: tail). split; [assumption|]. split; [unfold len in Hlt; lia|].
        split; [assumption|]. right. exists line, tail. auto 8.
  - destruct (encoding_cases text ch Hh Hlv) as (n & Hpay & Hun & Henc). rewrite Henc.
    destruct (Z.eqb_spec (int_wrap n) (int_wrap (2 * (c_px ch * c_py ch)))) as [H2|H2].
    + cbn [parse_encoding].
      pose proof (parse_little_endian_spec (set_plain ch (blank ch)) data Hpos (blank_ok ch Ha)) as Hs. cbn [c_px c_py set_plain] in Hs.
      destruct (parse_little_endian (set_plain ch (blank ch)) data) as [[c' tail]|e' c'|].
      * destruct Hs as (p & _ & _ & _ & Hle & _). split; [intros [c1 Hc]; discriminate|].
        intros H. inversion H as [?|n' ? ? Hp N1 N2|n' ? ? Hp N1 N2|n' ? ? Hp N1 N2 N3| | | ]; subst; try congruence; try lia;
          rewrite (Hun _ Hp) in *; congruence.
      * destruct Hs as (Hlt & -> & _). split.
        -- intros [c1 [= <- _]]. eapply defect_two_bytes; eauto.
        -- intros H. inversion H as [?|n' ? ? Hp N1 N2|n' ? ? Hp N1 N2|n' ? ? Hp N1 N2 N3| | | ]; subst; try congruence; try lia;
          rewrite (Hun _ Hp) in *; try congruence. eauto.
      * destruct Hs.
    + destruct (Z.eqb_spec (int_wrap n) (int_wrap (c_px ch * c_py ch))) as [H1|H1]; cbn [parse_encoding].
      * pose proof (parse_single_byte_spec (set_plain ch (blank ch)) data Hpos (blank_ok ch Ha)) as Hs. cbn [c_px c_py set_plain] in Hs.
        destruct (parse_single_byte (set_plain ch (blank ch)) data) as [[c' tail]|e' c'|].
        -- destruct Hs as (p & _ & _ & _ & Hle & _). split; [intros [c1 Hc]; discriminate|].
          intros H. inversion H as [?|n' ? ? Hp N1 N2|n' ? ? Hp N1 N2|n' ? ? Hp N1 N2 N3| | | ]; subst; try congruence; try lia;
            rewrite (Hun _ Hp) in *; congruence.
        -- destruct Hs as (Hlt & -> & _). split.
          ++ intros [c1 [= <- _]]. eapply defect_one_byte; eauto.
          ++ intros H. inversion H as [?|n' ? ? Hp N1 N2|n' ? ? Hp N1 N2|n' ? ? Hp N1 N2 N3| | | ]; subst; try congruence; try lia;
            rewrite (Hun _ Hp) in *; try congruence. eauto.
        -- destruct Hs.
      * split.
        -- intros [c1 [= <- _]]. eapply defect_encoding; eauto.
        -- intros H. inversion H as [?|n' ? ? Hp N1 N2|n' ? ? Hp N1 N2|n' ? ? Hp N1 N2 N3| | | ]; subst; try congruence; try lia;
            rewrite (Hun _ Hp) in *; try congruence. eauto.
Qed.
End Data.

(** An error about the data is reported exactly if the data section has that
    defect. *)
Theorem C50_data_error A E input text data (c : composite (num A)) e :
  file_layout input text data -> header_meaning E text c -> e <> ErrUnknownUnit ->
  (exists c', new_composite A E input = Failure e c') <-> data_defect E text data (c_px c) (c_py c) e.
Proof.
  intros [-> Hn] Hm He. destruct (header_enters A E text c Hm) as (ch & Hh & Hsame).
  destruct Hsame as (_ & _ & _ & _ & _ & Ex & Ey & _). rewrite <- Ex, <- Ey, <- (data_fails A E text data ch e Hh).
  rewrite (new_composite_header A E text data ch Hn Hh).
  destruct (parse_data ch data) as [[c1 t1]|e1 c1|].
  - split; [|intros [c' Hc]; discriminate]. intros [c' Hc]. destruct (arrange_data c1); [|discriminate].
    cbv zeta in Hc. destruct (unit_eqb _ _); congruence.
  - split; intros [c' [= <- _]]; eauto.
  - split; intros [c' Hc]; discriminate.
Qed.

(** A file has at most one data defect, and with one it is not accepted. *)
Theorem C50_one_defect A E input text data (c : composite (num A)) e :
  file_layout input text data -> header_meaning E text c -> data_defect E text data (c_px c) (c_py c) e ->
  (forall e', data_defect E text data (c_px c) (c_py c) e' -> e' = e) /\ forall c', ~ parsed A E input c'.
Proof.
  intros Hf Hm Hd.
  assert (Hu : e <> ErrUnknownUnit) by (intros ->; inversion Hd).
  destruct (proj2 (C50_data_error A E input text data c e Hf Hm Hu) Hd) as [c1 H1]. split.
  - intros e' Hd'. assert (Hu' : e' <> ErrUnknownUnit) by (intros ->; inversion Hd').
    destruct (proj2 (C50_data_error A E input text data c e' Hf Hm Hu') Hd') as [c2 H2]. congruence.
  - intros c' [Hp|Hp]; congruence.
Qed.

(** Everything else NewComposite can do: the checks of the decoders for the
    size of a line never fire, and no error comes from elsewhere. *)
Theorem C50_all_errors A E input e c' : new_composite A E input = Failure e c' ->
  e = EHeaderShort \/ e = ErrUnknownUnit \/
  exists text data, file_layout input text data /\
    (first_defect (header_defects E text) e \/
     exists c : composite (num A), header_meaning E text c /\ data_defect E text data (c_px c) (c_py c) e).
Proof.
  intros H. destruct (in_dec Byte.byte_eq_dec Byte.x03 input) as [Hin|Hnin].
  2:{ left. destruct (C49_no_delimiter A E input Hnin) as [c Hc]. congruence. }
  assert (Hl : exists text data, file_layout input text data).
  { destruct (read_until Byte.x03 input) as [[l r]|] eqn:Hr.
    - apply read_until_inv in Hr as (p & -> & -> & Hp). exists p, r. now split.
    - apply read_until_none in Hr. contradiction. }
  destruct Hl as (text & data & Hf). right.
  assert (Hu : e = ErrUnknownUnit \/ e <> ErrUnknownUnit) by (destruct e; (left; reflexivity) || (right; discriminate)).
  destruct Hu as [Hu|Hu]; [auto|]. right. exists text, data. split; [assumption|].
  assert (Hd : In e (map fst (header_defects E text)) \/ ~ In e (map fst (header_defects E text))).
  { cbn. destruct e; (left; tauto) || (right; intuition discriminate). }
  destruct Hd as [Hd|Hd].
  - left. apply (C49_header_error A E input text data e Hf Hd). eauto.
  - right. destruct (C49_otherwise_sound A E input text data Hf) as [c0 Hm].
    { intros e1 c1 He1 Hc. rewrite H in Hc. congruence. }
    exists c0. split; [assumption|]. apply (C50_data_error A E input text data c0 e Hf Hm Hu). eauto.
Qed.

Theorem C50_never A E input c' : new_composite A E input <> Failure ESizeLittleEndian c' /\
  new_composite A E input <> Failure ESizeSingleByte c' /\ new_composite A E input <> Failure EArchive c'.
Proof.
  assert (H : forall e, In e [ESizeLittleEndian; ESizeSingleByte; EArchive] -> new_composite A E input <> Failure e c').
  { intros e He H. apply C50_all_errors in H as [->|[->|(text & data & Hf & [Hd|(c & Hm & Hd)])]].
    - cbn in He. intuition discriminate.
    - cbn in He. intuition discriminate.
    - apply first_defect_in in Hd as (d & Hin & _). apply (in_map fst) in Hin. cbn in Hin, He. intuition (subst; discriminate).
    - inversion Hd; subst; cbn in He; intuition discriminate. }
  cbn in H. auto 10.
Qed.
Print Assumptions C16_error_kind.
Print Assumptions C50_data_error.
Print Assumptions C50_one_defect.
Print Assumptions C50_all_errors.
Print Assumptions C50_never.

(** A runlength file whose second line has an offset byte of 15. *)
Example C50_case A E : exists input text data (c : composite (num A)), file_layout input text data /\ header_meaning E text c /\
  data_defect E text data (c_px c) (c_py c) EOffsetValue.
Proof.
  pose (data := [Byte.x01; Byte.x11; Byte.x21; Byte.x13; Byte.x0a; Byte.x02; Byte.x0f; Byte.x1f; Byte.x12; Byte.x0a]).
  assert (Hm : exists c : composite (num A), header_meaning E run_text c).
  { eexists. eapply (meaning_of_text (n_zero A)). vm_compute. reflexivity. }
  destruct Hm as [c Hm]. exists (file run_text data), run_text, data, c.
  assert (Hf : file_layout (file run_text data) run_text data) by (split; [reflexivity|vm_compute; intuition discriminate]).
  split; [assumption|]. split; [assumption|]. apply (C50_data_error A E _ _ _ _ _ Hf Hm); [discriminate|].
  eexists. vm_compute. reflexivity.
Qed.
