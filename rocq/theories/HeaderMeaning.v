(** A header is accepted exactly when it has a meaning, and then the composite
    carries that meaning. *)
From Coq Require Import Lia.
From Verif Require Import GoBase GoUtf8 GoScan GoTime GoFloat Catalog Composite Header Spec SpecHeader
  BaseFacts FieldFacts HeaderSafe HeaderFacts ScanFacts CalendarFacts.
From Coq Require String. Import String.StringSyntax.
#[local] Arguments bs : simpl never.
#[local] Arguments lookup : simpl never.

Lemma slice_text {A} (l : list A) a b : 0 <= a <= b -> b <= len l ->
  slice l a b = Some (firstn (Z.to_nat (b - a)) (skipn (Z.to_nat a) l)).
Proof.
  intros Ha Hb. unfold slice.
  replace (_ && _) with true; [reflexivity|]. symmetry. rewrite !andb_true_iff, !Z.leb_le. lia.
Qed.

Lemma firstn_app_le {A} n (a b : list A) : (n <= length a)%nat -> firstn n (a ++ b) = firstn n a.
Proof. intros H. rewrite firstn_app. replace (n - length a)%nat with 0%nat by lia. now rewrite firstn_O, app_nil_r. Qed.
Lemma skipn_app_le {A} n (a b : list A) : (n <= length a)%nat -> skipn n (a ++ b) = skipn n a ++ b.
Proof. intros H. rewrite skipn_app. now replace (n - length a)%nat with 0%nat by lia. Qed.

Lemma is_W_exists p : is_W p = existsb (str_eqb p) [bs "W1"; bs "W2"; bs "W3"; bs "W4"].
Proof. unfold is_W. cbn [existsb]. now rewrite orb_false_r, !orb_assoc. Qed.

Lemma int_wrap_mul a k : int_wrap (int_wrap a * k) = int_wrap (a * k).
Proof.
  unfold int_wrap. f_equal.
  rewrite <- (Zplus_mod_idemp_l (((a + 2 ^ 63) mod 2 ^ 64 - 2 ^ 63) * k)).
  rewrite <- Zmult_mod_idemp_l.
  rewrite Zminus_mod_idemp_l.
  replace (a + 2 ^ 63 - 2 ^ 63) with a by lia.
  now rewrite Zmult_mod_idemp_l, Zplus_mod_idemp_l.
Qed.

Lemma interval_eq p n :
  (if is_W p then int_wrap (minutes_dur n * 10) else minutes_dur n) =
  if existsb (str_eqb p) [bs "W1"; bs "W2"; bs "W3"; bs "W4"]
  then int_wrap (n * ns_per_minute * 10) else int_wrap (n * ns_per_minute).
Proof.
  rewrite <- is_W_exists. unfold minutes_dur, minute, second. fold ns_per_minute.
  destruct (is_W p); [apply int_wrap_mul|reflexivity].
Qed.

(** Level tables. *)
Lemma firstn_skipn_slice {A} n k (l : list A) : firstn n (skipn k l) ++ skipn (k + n) l = skipn k l.
Proof. rewrite <- skipn_skipn'. apply firstn_skipn. Qed.

Lemma parse_levels_words E lv : forall cnt n fs, 0 <= n -> len lv = n + 5 * Z.of_nat cnt + 2 ->
  parse_levels E lv cnt n = Some (fs, true) <->
  exists words, length words = cnt /\ skipn (Z.to_nat (n + 2)) lv = concat words /\
    Forall (fun w => length w = 5%nat) words /\
    Forall2 (fun w f => sscanf_f (exotic_float E) w = Some f) words fs.
Proof.
  induction cnt as [|cnt IH]; intros n fs Hn Hl; cbn [parse_levels].
  - split.
    + intros [= <-]. exists []. repeat split; auto.
      apply skipn_all2. unfold len in Hl. lia.
    + intros (words & Hlen & _ & _ & HF). destruct words; [|discriminate]. inversion HF. reflexivity.
  - rewrite slice_text by lia. replace (n + 7 - (n + 2)) with 5 by lia. change (Z.to_nat 5) with 5%nat.
    set (w := firstn 5 (skipn (Z.to_nat (n + 2)) lv)).
    assert (Hw : length w = 5%nat). { unfold w. rewrite firstn_length, skipn_length. unfold len in Hl. lia. }
    assert (Hcut : w ++ skipn (Z.to_nat (n + 5 + 2)) lv = skipn (Z.to_nat (n + 2)) lv).
    { unfold w. replace (Z.to_nat (n + 5 + 2)) with (Z.to_nat (n + 2) + 5)%nat by lia. apply firstn_skipn_slice. }
    split.
    + destruct (sscanf_f (exotic_float E) w) as [f|] eqn:Ef; [|discriminate].
      destruct (parse_levels E lv cnt (n + 5)) as [[fs' ok]|] eqn:Ep; [|discriminate].
      intros [= <- ->]. apply IH in Ep; [|lia|lia]. destruct Ep as (words & <- & Hc & HF & HF2).
      exists (w :: words). split; [reflexivity|]. split; [cbn [concat]; now rewrite <- Hc, Hcut|].
      split; constructor; assumption.
    + intros ([|w' words] & Hlen & Hc & HF & HF2); [discriminate|].
      inversion HF; subst. inversion HF2; subst. cbn [concat] in Hc. rewrite <- Hcut in Hc.
      apply app_inj_length in Hc; [|congruence]. destruct Hc as [<- Hc].
      match goal with H : sscanf_f _ w = _ |- _ => rewrite H end.
      injection Hlen as Hlen.
      assert (Hr : parse_levels E lv cnt (n + 5) = Some (l', true)) by (apply IH; [lia|lia|]; eauto 6).
      now rewrite Hr.
Qed.

Lemma concat_five {A} (words : list (list A)) : Forall (fun w => length w = 5%nat) words -> len (concat words) = 5 * len words.
Proof.
  induction 1 as [|w ws Hw _ IH]; [reflexivity|]. unfold len in *. cbn [concat length]. rewrite app_length. lia.
Qed.

Lemma level_table_parse E lv fs : level_table E lv fs <->
  exists cs cnt, slice lv 0 2 = Some cs /\ sscanf_d cs = Some cnt /\ 0 <= cnt <= 99 /\ len lv = cnt * 5 + 2 /\
    parse_levels E lv (Z.to_nat cnt) 0 = Some (fs, true).
Proof.
  split.
  - intros (words & Hnum & Hl & Hc & HF & HF2). exists (firstn 2 lv), (len words).
    assert (Hs : slice lv 0 2 = Some (firstn 2 lv)) by (rewrite slice_text by (unfold len; lia); reflexivity).
    apply sscanf_d_number in Hnum. split; [assumption|]. split; [assumption|].
    pose proof (level_count_bound _ _ _ Hs Hnum) as Hb.
    assert (Hlen : len lv = len words * 5 + 2).
    { rewrite <- (firstn_skipn 2 lv). unfold len. rewrite app_length. fold (len (skipn 2 lv)).
      pose proof (concat_five _ HF). rewrite <- Hc in H. unfold len in *. rewrite firstn_length. lia. }
    split; [unfold len in *; lia|]. split; [assumption|].
    apply parse_levels_words; [lia|unfold len in *; lia|].
    exists words. split; [unfold len; lia|]. auto.
  - intros (cs & cnt & Hs & Hd & Hb & Hl & Hp).
    apply parse_levels_words in Hp; [|lia|lia]. destruct Hp as (words & Hlen & Hc & HF & HF2).
    assert (Hs' : slice lv 0 2 = Some (firstn 2 lv)) by (rewrite slice_text by lia; reflexivity).
    rewrite Hs' in Hs. injection Hs as <-.
    exists words. split. { replace (len words) with cnt by (unfold len; lia). now apply sscanf_d_number. }
    split; [unfold len in *; lia|]. auto.
Qed.

Section Meaning.
Context {T : Type}.
Variable ofZ : Z -> T.
Variable zero : T.
Variable E : goenv.

Lemma header_lengths (text : list byte) : len (text ++ [Byte.x03]) = len text + 1.
Proof. unfold len. rewrite app_length. cbn [length]. lia. Qed.


Lemma dims_announced text m px py dx dy : split_header E text = Some m ->
  dims_of m (firstn 2 text) px py dx dy <-> announced E text px py dx dy.
Proof.
  intros Hm. split; intros H; destruct H; rewrite <- ?(field_lookup _ _ _ _ Hm) in *; rewrite ?(field_lookup _ _ _ _ Hm) in *.
  - eapply announced_gp; rewrite ?(field_lookup _ _ _ _ Hm); eauto. now apply sscanf_times.
  - eapply announced_bg; rewrite ?(field_lookup _ _ _ _ Hm); eauto. now apply sscanf_pair.
  - eapply announced_local; rewrite ?(field_lookup _ _ _ _ Hm); eauto.
  - eapply dims_gp; eauto. now apply sscanf_times.
  - eapply dims_bg; eauto. now apply sscanf_pair.
  - eapply dims_catalog; eauto.
Qed.

Lemma header_slices (text : list byte) : 21 <= len text ->
  slice (text ++ [Byte.x03]) 0 2 = Some (firstn 2 text) /\
  slice (text ++ [Byte.x03]) 2 8 = Some (firstn 6 (skipn 2 text)) /\
  slice (text ++ [Byte.x03]) 13 17 = Some (firstn 4 (skipn 13 text)) /\
  slice (text ++ [Byte.x03]) 0 (len (text ++ [Byte.x03]) - 1) = Some text.
Proof.
  intros H. pose proof (header_lengths text). rewrite !slice_text by lia.
  change (Z.to_nat (2 - 0)) with 2%nat. change (Z.to_nat (8 - 2)) with 6%nat. change (Z.to_nat (17 - 13)) with 4%nat.
  change (Z.to_nat 2) with 2%nat. change (Z.to_nat 13) with 13%nat. change (Z.to_nat 0) with 0%nat.
  unfold len in *.
  rewrite !skipn_O, !(skipn_app_le _ text) by lia.
  rewrite (firstn_app_le 2), (firstn_app_le 6), (firstn_app_le 4) by (rewrite ?skipn_length; lia).
  repeat split. f_equal. replace (Z.to_nat _) with (length text) by lia. rewrite firstn_app_le by lia. apply firstn_all.
Qed.

Theorem header_meaning_sound text c :
  parse_header_text ofZ E (zero_composite zero) (text ++ [Byte.x03]) = Value c -> header_meaning E text c.
Proof.
  intros H. destruct (parse_header_text_says _ _ _ _ _ H) as [m Hs]. destruct Hs.
  rewrite removelast_last in hs_split. rewrite header_lengths in hs_len.
  assert (Hlen : 21 <= len text) by lia.
  destruct (header_slices text Hlen) as (S1 & S2 & S3 & S4).
  assert (Hp : firstn 2 (text ++ [Byte.x03]) = firstn 2 text) by (apply firstn_app_le; unfold len in Hlen; lia).
  rewrite Hp in *.
  constructor; rewrite ?(field_lookup _ _ _ _ hs_split).
  - assumption.
  - assumption.
  - exact hs_unit.
  - destruct hs_by as (v & Hv & ->). exists v. rewrite header_lengths. split; [|reflexivity].
    apply sscanf_d_number. exact Hv.
  - destruct hs_capture as (d1 & d2 & H1 & H2 & H3). rewrite S2 in H1. rewrite S3 in H2.
    injection H1 as <-. injection H2 as <-. apply time_parse_text; [| |assumption];
    unfold len in *; rewrite firstn_length, skipn_length; lia.
  - destruct (lookup m (bs "VV")); [|assumption]. destruct hs_forecast as (n & Hn & ->). exists n.
    split; [now apply sscanf_d_number|reflexivity].
  - destruct (lookup m (bs "INT")); [|assumption]. destruct hs_interval as (n & Hn & ->). exists n.
    split; [now apply sscanf_d_number|]. rewrite hs_product. apply interval_eq.
  - rewrite hs_product in hs_dims. now apply (dims_announced text m).
  - destruct (lookup m (bs "E")); [|assumption]. now apply sscanf_d_number.
  - destruct (lookup m (bs "LV")) as [lv|]; [|assumption].
    destruct hs_level as (cs & cnt & fs & H1 & H2 & H3 & H4 & H5 & H6). exists fs. split; [|assumption].
    apply level_table_parse. eauto 10.
  - destruct (lookup m (bs "VS")); [|assumption]. now apply sscanf_d_number.
Qed.

(** Two composites agree on everything a header determines. *)
Definition same_header (a b : composite T) : Prop :=
  c_product a = c_product b /\ c_capture a = c_capture b /\ c_forecast a = c_forecast b /\
  c_interval a = c_interval b /\ c_unit a = c_unit b /\ c_px a = c_px b /\ c_py a = c_py b /\
  c_dx a = c_dx b /\ c_dy a = c_dy b /\ c_format a = c_format b /\ c_data_length a = c_data_length b /\
  c_precision a = c_precision b /\ c_level a = c_level b.

Lemma level_table_fun lv a b : level_table E lv a -> level_table E lv b -> a = b.
Proof.
  rewrite !level_table_parse. intros (cs & cnt & H1 & H2 & H3 & H4 & H5) (cs' & cnt' & H1' & H2' & _ & _ & H5').
  rewrite H1 in H1'. injection H1' as <-. rewrite H2 in H2'. injection H2' as <-. congruence.
Qed.

Lemma announced_fun text a b c d a' b' c' d' :
  announced E text a b c d -> announced E text a' b' c' d' -> a = a' /\ b = b' /\ c = c' /\ d = d'.
Proof.
  intros H1 H2. destruct H1; destruct H2; try congruence; subst.
  - match goal with H1 : field _ _ _ = Some ?x, H2 : field _ _ _ = Some ?y |- _ => rewrite H1 in H2; injection H2 as <- end.
    match goal with H1 : times_text _ _ _, H2 : times_text _ _ _ |- _ => apply sscanf_times in H1, H2; rewrite H1 in H2; injection H2 as -> -> end. auto.
  - match goal with H1 : field _ _ (bs "BG") = Some ?x, H2 : field _ _ (bs "BG") = Some ?y |- _ => rewrite H1 in H2; injection H2 as <- end.
    match goal with H1 : pair_text _ _ _, H2 : pair_text _ _ _ |- _ => apply sscanf_pair in H1, H2; rewrite H1 in H2; injection H2 as -> -> end. auto.
  - match goal with H1 : lookup _ _ = Some ?x, H2 : lookup _ _ = Some ?y |- _ => rewrite H1 in H2; injection H2 as <- end. auto.
Qed.

Lemma time_text_fun d1 d2 a b : len d1 = 6 -> len d2 = 4 -> time_text d1 d2 a -> time_text d1 d2 b -> a = b.
Proof. intros H1 H2. rewrite <- !time_parse_text by assumption. congruence. Qed.

Lemma header_meaning_fun text a b : header_meaning E text a -> header_meaning E text b -> same_header a b.
Proof.
  intros Ha Hb. destruct Ha as [l1 p1 u1 t1 c1 f1 i1 d1 pr1 lv1 fo1]. destruct Hb as [l2 p2 u2 t2 c2 f2 i2 d2 pr2 lv2 fo2].
  assert (Hc : c_capture a = c_capture b).
  { eapply time_text_fun; [| |exact c1|exact c2]; unfold len in *; rewrite firstn_length, skipn_length; lia. }
  unfold same_header. destruct (announced_fun _ _ _ _ _ _ _ _ _ d1 d2) as (Hd1 & Hd2 & Hd3 & Hd4).
  split; [congruence|]. split; [assumption|]. split.
  { revert f1 f2. destruct (field E text (bs "VV")); intros f1 f2; [|congruence]. destruct f1 as (n & Hn & ->). destruct f2 as (n' & Hn' & ->).
    pose proof (number_text_fun _ _ _ Hn Hn'). congruence. }
  split.
  { revert i1 i2. destruct (field E text (bs "INT")); intros i1 i2; [|congruence]. destruct i1 as (n & Hn & ->). destruct i2 as (n' & Hn' & ->).
    pose proof (number_text_fun _ _ _ Hn Hn'). now subst n'. }
  split; [congruence|]. do 4 (split; [assumption|]). split.
  { revert fo1 fo2. destruct (field E text (bs "VS")); intros fo1 fo2; [|congruence]. eapply number_text_fun; eassumption. }
  split.
  { destruct t1 as (n & Hn & ->). destruct t2 as (n' & Hn' & ->). pose proof (number_text_fun _ _ _ Hn Hn'). congruence. }
  split.
  { revert pr1 pr2. destruct (field E text (bs "E")); intros pr1 pr2; [|congruence]. eapply number_text_fun; eassumption. }
  revert lv1 lv2. destruct (field E text (bs "LV")); intros lv1 lv2; [|congruence]. destruct lv1 as (x & Hx & ->). destruct lv2 as (y & Hy & ->).
  f_equal. eapply level_table_fun; eassumption.
Qed.

Theorem header_meaning_complete text c0 : header_meaning E text c0 ->
  exists c, parse_header_text ofZ E (zero_composite zero) (text ++ [Byte.x03]) = Value c /\ same_header c c0.
Proof.
  intros Hm.
  assert (Hacc : exists c, parse_header_text ofZ E (zero_composite zero) (text ++ [Byte.x03]) = Value c).
  { destruct Hm as [l p u t cap f i d pr lv fo].
    unfold parse_header_text. rewrite header_lengths.
    destruct (Z.ltb_spec (len text + 1) 22); [lia|]. rewrite <- header_lengths.
    destruct (header_slices text l) as (S1 & S2 & S3 & S4). rewrite S4.
    destruct (split_header_total E text) as [m Hsp]. rewrite Hsp.
    rewrite ?(field_lookup _ _ _ _ Hsp) in *.
    unfold parse_identity. rewrite S1. unfold section_get.
    destruct t as (n & Hn & _). apply sscanf_d_number in Hn. rewrite Hn, S2, S3.
    rewrite <- time_parse_text in cap by (unfold len in *; rewrite firstn_length, skipn_length; lia).
    rewrite cap. cbn [bind].
    unfold parse_forecast at 1.
    assert (Hf : exists x, match lookup m (bs "VV") with
                 | None => x = None | Some vv => sscanf_d vv = x /\ x <> None end).
    { revert f. destruct (lookup m (bs "VV")); intros f; [|eauto]. destruct f as (k & Hk & _). apply sscanf_d_number in Hk. eexists; split; [reflexivity|]. congruence. }
    match goal with |- exists c, bind (match lookup m _ with _ => _ end) ?k = _ => 
      assert (Hgen : forall c1, c_product c1 = firstn 2 text -> exists c, k c1 = Value c) end.
    2:{ revert Hf. destruct (lookup m (bs "VV")); intros Hf.
        - destruct Hf as (x & Hx & Hnx). rewrite Hx. destruct x as [k|]; [|congruence]. cbn [bind]. apply Hgen. reflexivity.
        - cbn [bind]. apply Hgen. reflexivity. }
    intros c1 Hp1. unfold parse_interval at 1.
    match goal with |- exists c, bind (match lookup m _ with _ => _ end) ?k = _ => 
      assert (Hgen : forall c1, c_product c1 = firstn 2 text -> exists c, k c1 = Value c) end.
    2:{ revert i. destruct (lookup m (bs "INT")); intros i.
        - destruct i as (k & Hk & _). apply sscanf_d_number in Hk. rewrite Hk. cbn [bind]. apply Hgen. assumption.
        - cbn [bind]. apply Hgen. assumption. }
    clear c1 Hp1. intros c1 Hp1.
    assert (Hdim : exists c2, parse_dimensions ofZ m c1 = Value c2).
    { unfold parse_dimensions. apply (dims_announced text m) in d; [|assumption]. destruct d as [dim G1 G2 | dim G0 G1 G2 | v G0 G1 G2].
      - rewrite G1, G2. eauto.
      - rewrite G0, G1, G2. eauto.
      - rewrite G0, G1, Hp1, G2. eauto. }
    destruct Hdim as (c2 & Hc2). rewrite Hc2. cbn [bind].
    assert (Hpr : exists c3, parse_precision m c2 = Value c3).
    { unfold parse_precision. revert pr. destruct (lookup m (bs "E")); intros pr; [|eauto]. apply sscanf_d_number in pr. rewrite pr. eauto. }
    destruct Hpr as (c3 & Hc3). rewrite Hc3. cbn [bind].
    assert (Hlv : exists c4, parse_level E m c3 = Value c4).
    { unfold parse_level. revert lv. destruct (lookup m (bs "LV")) as [s|]; intros lv; [|eauto].
      destruct lv as (fs & Hfs & _). apply level_table_parse in Hfs. destruct Hfs as (cs & cnt & H1 & H2 & H3 & H4 & H5).
      destruct (Z.ltb_spec (len s) 2); [lia|]. rewrite H1, H2.
      rewrite (int_wrap_id (cnt * 5 + 2)) by lia.
      rewrite H4, Z.eqb_refl. cbn [negb].
      unfold make. replace (_ && _) with true by (symmetry; unfold max_alloc; rewrite andb_true_iff, !Z.leb_le; lia).
      rewrite repeat_length, H5. eauto. }
    destruct Hlv as (c4 & Hc4). rewrite Hc4. cbn [bind].
    unfold parse_version. revert fo. destruct (lookup m (bs "VS")); intros fo; [|eauto]. apply sscanf_d_number in fo. rewrite fo. eauto. }
  destruct Hacc as [c Hc]. exists c. split; [assumption|].
  eapply header_meaning_fun; [|exact Hm]. now apply header_meaning_sound.
Qed.
End Meaning.
