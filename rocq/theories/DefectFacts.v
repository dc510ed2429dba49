(** Which error a defective header gives. *)
From Coq Require Import Lia.
From Verif Require Import GoBase GoUtf8 GoScan GoTime GoFloat Catalog Composite Header Spec SpecHeader BaseFacts FieldFacts HeaderSafe HeaderFacts
  ScanFacts CalendarFacts HeaderMeaning.
From Coq Require String. Import String.StringSyntax.
#[local] Arguments bs : simpl never.
#[local] Arguments lookup : simpl never.

Lemma first_defect_cons e d l e' : first_defect ((e, d) :: l) e' <-> (e = e' /\ d) \/ (~ d /\ first_defect l e').
Proof.
  split.
  - intros (bef & d' & after & He & Hf & Hd). destruct bef as [|x bef].
    + injection He as -> -> ->. now left.
    + injection He as <- ->. inversion Hf; subst. right. split; [assumption|]. exists bef, d', after. auto.
  - intros [[-> Hd]|[Hn (bef & d' & after & -> & Hf & Hd)]].
    + exists [], d, l. auto.
    + exists ((e, d) :: bef), d', after. split; [reflexivity|]. split; [constructor; auto|assumption].
Qed.
Lemma first_defect_nil e : ~ first_defect [] e.
Proof. intros (bef & d & after & He & _). destruct bef; discriminate. Qed.

Lemma first_defect_unique l : NoDup (map fst l) -> forall e e', first_defect l e -> first_defect l e' -> e = e'.
Proof.
  induction l as [|[e0 d] l IH]; intros Hn e e' H1 H2; [now apply first_defect_nil in H1|].
  cbn in Hn. inversion Hn; subst. rewrite first_defect_cons in H1, H2.
  destruct H1 as [[<- Hd]|[Hd H1]], H2 as [[<- Hd']|[Hd' H2]]; try tauto. eauto.
Qed.
Lemma first_defect_in l e : first_defect l e -> exists d, In (e, d) l /\ d.
Proof. intros (bef & d & after & -> & _ & Hd). exists d. split; [|assumption]. apply in_elt. Qed.

Lemma decimal_bound ds : Forall digit_rune ds -> 0 <= decimal ds < 10 ^ len ds.
Proof.
  induction 1 as [|d ds Hd _ IH]; cbn [decimal]; [cbn; lia|]. rewrite len_cons. pose proof (len_nonneg ds).
  rewrite Z.pow_add_r by lia. unfold digit_rune in Hd. nia.
Qed.
Lemma number_two_chars s n : (length s <= 2)%nat -> number_text s n -> -99 <= n <= 99.
Proof.
  intros Hl [rest [blanks sg ds He _ _ _ Hd _ -> _]].
  pose proof (runes_length s) as Hr. rewrite He, !app_length in Hr.
  pose proof (decimal_bound ds Hd) as Hb. assert (len ds <= 2) by (unfold len; lia).
  assert (10 ^ len ds <= 10 ^ 2) by (apply Z.pow_le_mono_r; lia).
  destruct (list_eq_dec _ _ _); lia.
Qed.

Section Defects.
Context {T : Type}.
Variable ofZ : Z -> T.
Variable zero : T.
Variable G : goenv.

Lemma not_number s : sscanf_d s = None <-> ~ exists n, number_text s n.
Proof.
  split.
  - intros H [n Hn]. apply sscanf_d_number in Hn. congruence.
  - intros H. destruct (sscanf_d s) as [n|] eqn:Hs; [|reflexivity]. exfalso. apply H. exists n. now apply sscanf_d_number.
Qed.
Lemma some_number s n : sscanf_d s = Some n -> ~ ~ exists n, number_text s n.
Proof. intros H Hn. apply Hn. exists n. now apply sscanf_d_number. Qed.

Ltac skip := apply first_defect_cons; right; split.
Ltac here := apply first_defect_cons; left; split; [reflexivity|].

Lemma sscanf_times_fail s vs : sscanf [Verb_d None; Lit 120; Verb_d None] (runes s) = (vs, false) -> ~ exists r c, times_text s r c.
Proof. intros H (r & c & Ht). apply sscanf_times in Ht. congruence. Qed.
Lemma sscanf_pair_fail s vs : sscanf [Verb_d (Some 3%nat); Verb_d (Some 3%nat)] (runes s) = (vs, false) -> ~ exists r c, pair_text s r c.
Proof. intros H (r & c & Ht). apply sscanf_pair in Ht. congruence. Qed.

Lemma parse_dims_ok m c c' dim : lookup m (bs "GP") = Some dim -> parse_dimensions ofZ m c = Value c' -> exists r k, times_text dim r k.
Proof.
  intros Hm H. apply parse_dimensions_says in H. destruct H as [H _].
  destruct H as [d H1 H2|d H0 H1 H2|v H0 H1 H2]; [|congruence|congruence].
  rewrite Hm in H1. injection H1 as <-. apply sscanf_times in H2. eauto.
Qed.
Lemma parse_dims_ok' m c c' dim : lookup m (bs "GP") = None -> lookup m (bs "BG") = Some dim -> parse_dimensions ofZ m c = Value c' -> exists r k, pair_text dim r k.
Proof.
  intros Hg Hm H. apply parse_dimensions_says in H. destruct H as [H _].
  destruct H as [d H1 H2|d H0 H1 H2|v H0 H1 H2]; [congruence| |congruence].
  rewrite Hm in H1. injection H1 as <-. apply sscanf_pair in H2. eauto.
Qed.

Lemma bad_number_intro text m k s : split_header G text = Some m -> lookup m k = Some s -> sscanf_d s = None -> bad_number G text k.
Proof. intros Hm Hk Hs. exists s. rewrite (field_lookup _ _ _ _ Hm). split; [assumption|]. now apply not_number. Qed.
Lemma bad_number_none text m k : split_header G text = Some m -> lookup m k = None -> ~ bad_number G text k.
Proof. intros Hm Hk (s & Hs & _). rewrite (field_lookup _ _ _ _ Hm) in Hs. congruence. Qed.
Lemma bad_number_some text m k s n : split_header G text = Some m -> lookup m k = Some s -> sscanf_d s = Some n -> ~ bad_number G text k.
Proof.
  intros Hm Hk Hn (s' & Hs & Hb). rewrite (field_lookup _ _ _ _ Hm) in Hs. replace s' with s in Hb by congruence.
  now apply (some_number s n Hn).
Qed.

Lemma level_defects text m (c : composite T) : split_header G text = Some m ->
  match parse_level G m c with
  | Panic => True
  | Value _ =>
      (~ exists s, field G text (bs "LV") = Some s /\ len s < 2) /\
      (~ exists s, field G text (bs "LV") = Some s /\ ~ exists n, number_text (firstn 2 s) n) /\
      (~ exists s n, field G text (bs "LV") = Some s /\ number_text (firstn 2 s) n /\ len s <> 5 * n + 2) /\
      (~ exists s, field G text (bs "LV") = Some s /\ ~ exists levels, level_table G s levels)
  | Failure e _ => forall rest, first_defect (
      (ELevelShort, exists s, field G text (bs "LV") = Some s /\ len s < 2) ::
      (ELevelCount, exists s, field G text (bs "LV") = Some s /\ ~ exists n, number_text (firstn 2 s) n) ::
      (ELevelFormat, exists s n, field G text (bs "LV") = Some s /\ number_text (firstn 2 s) n /\ len s <> 5 * n + 2) ::
      (ELevelValue, exists s, field G text (bs "LV") = Some s /\ ~ exists levels, level_table G s levels) :: rest) e
  end.
Proof.
  intros Hm. rewrite (field_lookup _ _ _ (bs "LV") Hm). unfold parse_level.
  destruct (lookup m (bs "LV")) as [lv|] eqn:Hlv.
  2:{ repeat split; intros H; destruct H as [s H]; [..|destruct H as (? & ? & ? & ?)|]; intuition discriminate. }
  destruct (Z.ltb_spec (len lv) 2) as [Hs|Hs].
  { intros rest. here. eauto. }
  rewrite slice_text by lia. change (Z.to_nat (2 - 0)) with 2%nat. rewrite skipn_O.
  assert (D1 : ~ exists s, Some lv = Some s /\ len s < 2) by (intros (s & [= <-] & ?); lia).
  destruct (sscanf_d (firstn 2 lv)) as [cnt|] eqn:Hc.
  2:{ intros rest. skip; [assumption|]. here. exists lv. split; [reflexivity|]. now apply not_number. }
  assert (D2 : ~ exists s, Some lv = Some s /\ ~ exists n, number_text (firstn 2 s) n).
  { intros (s & [= <-] & Hx). now apply (some_number _ _ Hc). }
  assert (Hb : -99 <= cnt <= 99).
  { apply (number_two_chars (firstn 2 lv)); [apply firstn_le_length|]. now apply sscanf_d_number. }
  rewrite int_wrap_id by lia.
  destruct (Z.eqb_spec (len lv) (cnt * 5 + 2)) as [Hl|Hl]; cbn [negb].
  2:{ intros rest. do 2 (skip; [assumption|]). here. exists lv, cnt. split; [reflexivity|].
      split; [now apply sscanf_d_number|lia]. }
  assert (D3 : ~ exists s n, Some lv = Some s /\ number_text (firstn 2 s) n /\ len s <> 5 * n + 2).
  { intros (s & n & [= <-] & Hn & Hx). apply sscanf_d_number in Hn. rewrite Hc in Hn. injection Hn as ->. lia. }
  unfold make. replace (_ && _) with true by (symmetry; unfold max_alloc; rewrite andb_true_iff, !Z.leb_le; lia).
  rewrite repeat_length.
  assert (Hiff : forall fs, level_table G lv fs <-> parse_levels G lv (Z.to_nat cnt) 0 = Some (fs, true)).
  { intros fs. rewrite level_table_parse. split.
    - intros (cs & cnt' & H1 & H2 & _ & _ & H5). rewrite slice_text in H1 by lia.
      change (Z.to_nat (2 - 0)) with 2%nat in H1. rewrite skipn_O in H1. assert (cs = firstn 2 lv) by congruence. subst cs. rewrite Hc in H2. injection H2 as <-. exact H5.
    - intros H. exists (firstn 2 lv), cnt. rewrite slice_text by lia. change (Z.to_nat (2 - 0)) with 2%nat. rewrite skipn_O.
      repeat split; auto; lia. }
  destruct (parse_levels G lv (Z.to_nat cnt) 0) as [[fs [|]]|] eqn:Hp.
  - split; [assumption|]. split; [assumption|]. split; [assumption|].
    intros (s & [= <-] & Hx). apply Hx. exists fs. now apply Hiff.
  - intros rest. do 3 (skip; [assumption|]). here. exists lv. split; [reflexivity|].
    intros [fs' Hx]. apply Hiff in Hx. congruence.
  - exact I.
Qed.

Lemma dims_defects text m c : split_header G text = Some m -> c_product c = firstn 2 text ->
  match parse_dimensions ofZ m c with
  | Panic => True
  | Value _ =>
      (~ exists s, field G text (bs "GP") = Some s /\ ~ exists rows cols, times_text s rows cols) /\
      (~ (field G text (bs "GP") = None /\ exists s, field G text (bs "BG") = Some s /\ ~ exists rows cols, pair_text s rows cols)) /\
      (~ (field G text (bs "GP") = None /\ field G text (bs "BG") = None /\ lookup dimension_catalog (firstn 2 text) = None))
  | Failure e _ => forall rest, first_defect (
      (EDimGP, exists s, field G text (bs "GP") = Some s /\ ~ exists rows cols, times_text s rows cols) ::
      (EDimBG, field G text (bs "GP") = None /\ exists s, field G text (bs "BG") = Some s /\ ~ exists rows cols, pair_text s rows cols) ::
      (ENoDimension, field G text (bs "GP") = None /\ field G text (bs "BG") = None /\ lookup dimension_catalog (firstn 2 text) = None) :: rest) e
  end.
Proof.
  intros Hm Hpr. rewrite !(field_lookup _ _ _ _ Hm).
  destruct (parse_dimensions ofZ m c) as [c'|e c'|] eqn:Hd.
  - split.
    { intros (s & Hs & Hn). apply Hn. eapply parse_dims_ok; eassumption. }
    split.
    { intros (Hg & s & Hs & Hn). apply Hn. eapply parse_dims_ok'; eassumption. }
    intros (Hg & Hb & Hc). unfold parse_dimensions in Hd. rewrite Hg, Hb, Hpr, Hc in Hd. discriminate.
  - intros rest. unfold parse_dimensions in Hd.
    destruct (lookup m (bs "GP")) as [gp|] eqn:Hg.
    { destruct (sscanf _ (runes gp)) as [vs ok] eqn:Hs. destruct ok; [discriminate|]. injection Hd as <- _.
      here. exists gp. split; [reflexivity|]. eapply sscanf_times_fail; eassumption. }
    skip; [intros (s & [=] & _)|].
    destruct (lookup m (bs "BG")) as [bg|] eqn:Hb.
    { destruct (sscanf _ (runes bg)) as [vs ok] eqn:Hs. destruct ok; [discriminate|]. injection Hd as <- _.
      here. split; [reflexivity|]. exists bg. split; [reflexivity|]. eapply sscanf_pair_fail; eassumption. }
    skip; [intros (_ & s & [=] & _)|]. rewrite Hpr in Hd.
    destruct (lookup dimension_catalog (firstn 2 text)) eqn:Hc; [discriminate|]. injection Hd as <- _. here. auto.
  - exact I.
Qed.

Lemma number_stage text m k (c c' : composite T) e (f : Z -> composite T) :
  split_header G text = Some m ->
  match lookup m k with
  | None => Value c
  | Some s => match sscanf_d s with None => Failure e c' | Some v => Value (f v) end
  end = Value c \/ True ->
  match match lookup m k with
  | None => Value c
  | Some s => match sscanf_d s with None => Failure e c' | Some v => Value (f v) end
  end with
  | Value _ => ~ bad_number G text k
  | Failure e' _ => e' = e /\ bad_number G text k
  | Panic => False
  end.
Proof.
  intros Hm _. destruct (lookup m k) as [s|] eqn:Hk; [|eapply bad_number_none; eassumption].
  destruct (sscanf_d s) eqn:Hs; [eapply bad_number_some; eassumption|].
  split; [reflexivity|]. eapply bad_number_intro; eassumption.
Qed.

Lemma header_first_defect text e c : ~ In Byte.x03 text ->
  parse_header_text ofZ G (zero_composite zero) (text ++ [Byte.x03]) = Failure e c -> first_defect (header_defects G text) e.
Proof.
  intros _ H. unfold parse_header_text in H. rewrite header_lengths in H. unfold header_defects.
  destruct (Z.ltb_spec (len text + 1) 22) as [Hl|Hl].
  { injection H as <- _. here. lia. }
  skip; [lia|]. rewrite <- (header_lengths text) in H.
  destruct (header_slices ofZ text ltac:(lia)) as (S1 & S2 & S3 & S4). rewrite S4 in H.
  destruct (split_header_total G text) as [m Hm]. rewrite Hm in H.
  unfold parse_identity in H. rewrite S1 in H. cbv zeta in H. unfold section_get in H.
  rewrite (field_lookup _ _ _ (bs "BY") Hm).
  destruct (sscanf_d (match lookup m (bs "BY") with Some v => v | None => [] end)) as [n|] eqn:Hn.
  2:{ injection H as <- _. here. now apply not_number. }
  skip; [eapply some_number; eassumption|]. rewrite S2, S3 in H.
  destruct (time_parse _) as [t|] eqn:Ht.
  2:{ injection H as <- _. here. intros [t Hx]. apply time_parse_text in Hx; [congruence|..];
      unfold len in *; rewrite firstn_length, skipn_length; lia. }
  skip. { intros Hx. apply Hx. exists t. apply time_parse_text; [..|exact Ht]; unfold len in *; rewrite firstn_length, skipn_length; lia. }
  cbn [bind] in H.
  set (c1 := set_capture _ t) in H. assert (P1 : c_product c1 = firstn 2 text) by reflexivity. clearbody c1.
  destruct (parse_forecast m c1) as [c2|e2 c2'|] eqn:H2; cbn [bind] in H.
  3:{ discriminate. }
  2:{ injection H as <- <-. unfold parse_forecast in H2.
      pose proof (number_stage text m (bs "VV") (set_forecast c1 (c_capture c1)) (set_forecast c1 (c_capture c1)) EForecastTime
        (fun min => set_forecast (set_forecast c1 (c_capture c1)) (c_capture (set_forecast c1 (c_capture c1)) + minutes_dur min)) Hm (or_intror I)) as Hst; cbv beta in Hst.
      rewrite H2 in Hst. destruct Hst as [-> Hst]. here. assumption. }
  assert (P2 : c_product c2 = firstn 2 text /\ ~ bad_number G text (bs "VV")).
  { unfold parse_forecast in H2.
    pose proof (number_stage text m (bs "VV") (set_forecast c1 (c_capture c1)) (set_forecast c1 (c_capture c1)) EForecastTime
        (fun min => set_forecast (set_forecast c1 (c_capture c1)) (c_capture (set_forecast c1 (c_capture c1)) + minutes_dur min)) Hm (or_intror I)) as Hst; cbv beta in Hst.
    rewrite H2 in Hst. split; [|assumption].
    destruct (lookup m (bs "VV")) as [vv|]; [destruct (sscanf_d vv); [|discriminate]|]; injection H2 as <-; exact P1. }
  destruct P2 as [P2 B2]. skip; [assumption|]. clear H2 P1 c1.
  destruct (parse_interval m c2) as [c3|e3 c3'|] eqn:H3; cbn [bind] in H.
  3:{ discriminate. }
  2:{ injection H as <- <-. unfold parse_interval in H3. 
      pose proof (number_stage text m (bs "INT") c2 c2 EInterval
        (fun min => set_interval c2 (if is_W (c_product c2) then int_wrap (minutes_dur min * 10) else minutes_dur min)) Hm (or_intror I)) as Hst; cbv beta in Hst.
      cbv zeta in H3. rewrite H3 in Hst. destruct Hst as [-> Hst]. here. assumption. }
  assert (P3 : c_product c3 = firstn 2 text /\ ~ bad_number G text (bs "INT")).
  { unfold parse_interval in H3. cbv zeta in H3.
    pose proof (number_stage text m (bs "INT") c2 c2 EInterval
        (fun min => set_interval c2 (if is_W (c_product c2) then int_wrap (minutes_dur min * 10) else minutes_dur min)) Hm (or_intror I)) as Hst; cbv beta in Hst.
    rewrite H3 in Hst. split; [|assumption].
    destruct (lookup m (bs "INT")) as [vv|]; [destruct (sscanf_d vv); [|discriminate]|]; injection H3 as <-; exact P2. }
  destruct P3 as [P3 B3]. skip; [assumption|]. clear H3 P2 c2.
  pose proof (dims_defects text m c3 Hm P3) as Hd.
  destruct (parse_dimensions ofZ m c3) as [c4|e4 c4'|]; cbn [bind] in H.
  3:{ discriminate. }
  2:{ injection H as <- <-. apply Hd. }
  destruct Hd as (D1 & D2 & D3). do 3 (skip; [assumption|]). clear P3 c3.
  destruct (parse_precision m c4) as [c5|e5 c5'|] eqn:H5; cbn [bind] in H.
  3:{ discriminate. }
  2:{ injection H as <- <-. unfold parse_precision in H5.
      pose proof (number_stage text m (bs "E") c4 c4 EPrecision (set_precision c4) Hm (or_intror I)) as Hst; cbv beta in Hst.
      rewrite H5 in Hst. destruct Hst as [-> Hst]. here. assumption. }
  assert (B5 : ~ bad_number G text (bs "E")).
  { unfold parse_precision in H5.
    pose proof (number_stage text m (bs "E") c4 c4 EPrecision (set_precision c4) Hm (or_intror I)) as Hst; cbv beta in Hst.
    now rewrite H5 in Hst. }
  skip; [assumption|]. clear H5 c4.
  pose proof (level_defects text m c5 Hm) as Hv.
  destruct (parse_level G m c5) as [c6|e6 c6'|]; cbn [bind] in H.
  3:{ discriminate. }
  2:{ injection H as <- <-. apply Hv. }
  destruct Hv as (V1 & V2 & V3 & V4). do 4 (skip; [assumption|]). clear c5.
  unfold parse_version in H.
  pose proof (number_stage text m (bs "VS") c6 c6 EFormat (set_format c6) Hm (or_intror I)) as Hst; cbv beta in Hst.
  rewrite H in Hst. destruct Hst as [-> Hst]. here. assumption.
Qed.

Lemma header_no_defect text (c : composite T) e d : header_meaning G text c -> In (e, d) (header_defects G text) -> ~ d.
Proof.
  intros Hm Hin. destruct Hm as [l p u t cap f i dim pr lv fo].
  assert (Hb : forall k, (exists s, field G text k = Some s) -> forall P : Z -> Prop,
     match field G text k with None => True | Some s => exists n, number_text s n end -> ~ bad_number G text k).
  { intros k _ P Hk (s & Hs & Hn). rewrite Hs in Hk. contradiction. }
  assert (Hb' : forall k, match field G text k with None => True | Some s => exists n, number_text s n end -> ~ bad_number G text k).
  { intros k Hk (s & Hs & Hn). rewrite Hs in Hk. contradiction. }
  cbn [In header_defects] in Hin.
  repeat (destruct Hin as [Hin|Hin]; [injection Hin as <- <-|]).
  - lia.
  - intros Hx. apply Hx. destruct t as (n & Hn & _). eauto.
  - intros Hx. apply Hx. eauto.
  - apply Hb'. revert f. destruct (field G text (bs "VV")); [|auto]. intros (n & Hn & _). eauto.
  - apply Hb'. revert i. destruct (field G text (bs "INT")); [|auto]. intros (n & Hn & _). eauto.
  - intros (s & Hs & Hn). apply Hn. destruct dim as [dim H1 H2|dim H0 H1 H2|v H0 H1 H2]; [|congruence|congruence].
    replace s with dim by congruence. eauto.
  - intros (Hg & s & Hs & Hn). apply Hn. destruct dim as [dim H1 H2|dim H0 H1 H2|v H0 H1 H2]; [congruence| |congruence].
    replace s with dim by congruence. eauto.
  - intros (Hg & Hbg & Hc). assert (Hc2 : lookup dimension_catalog (firstn 2 text) = None) by exact Hc. clear Hc.
    destruct dim as [dim H1 H2|dim H0 H1 H2|v H0 H1 H2]; congruence.
  - apply Hb'. revert pr. destruct (field G text (bs "E")); [|auto]. eauto.
  - intros (s & Hs & Hn). rewrite Hs in lv. destruct lv as (ls & (w & _ & Hlen & _) & _). unfold len in Hn. lia.
  - intros (s & Hs & Hn). rewrite Hs in lv. destruct lv as (ls & (w & Hw & _) & _). eauto.
  - intros (s & n & Hs & Hn & Hlen). rewrite Hs in lv. destruct lv as (ls & (w & Hw & H2 & Hsk & H5 & _) & _).
    pose proof (number_text_fun _ _ _ Hn Hw). subst n. pose proof (concat_five w H5) as Hc. rewrite <- Hsk in Hc.
    assert (Hl' : len s = 5 * len w + 2) by (unfold len in Hc |- *; rewrite skipn_length in Hc; lia). exact (Hlen Hl').
  - intros (s & Hs & Hn). rewrite Hs in lv. destruct lv as (ls & Hls & _). eauto.
  - apply Hb'. revert fo. destruct (field G text (bs "VS")); [|auto]. eauto.
  - destruct Hin.
Qed.

Lemma header_defects_nodup text : NoDup (map fst (header_defects G text)).
Proof. cbn. repeat (constructor; [cbn; intuition discriminate|]). constructor. Qed.

Theorem header_error_iff text e : ~ In Byte.x03 text ->
  (exists c, parse_header_text ofZ G (zero_composite zero) (text ++ [Byte.x03]) = Failure e c) <->
  first_defect (header_defects G text) e.
Proof.
  intros Hn. split.
  - intros [c Hc]. eapply header_first_defect; eassumption.
  - intros Hd. destruct (parse_header_text ofZ G (zero_composite zero) (text ++ [Byte.x03])) as [c|e' c|] eqn:Hp.
    + exfalso. apply first_defect_in in Hd as (d & Hin & Hd). apply header_meaning_sound in Hp.
      now apply (header_no_defect _ _ _ _ Hp Hin).
    + pose proof (header_first_defect _ _ _ Hn Hp) as Hd'.
      rewrite (first_defect_unique _ (header_defects_nodup text) _ _ Hd Hd'). eauto.
    + exfalso. revert Hp. apply parse_header_text_safe.
Qed.
End Defects.
