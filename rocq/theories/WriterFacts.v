(** Reading back what the writer of SpecWriter.v writes. *)
From Coq Require Import Lia.
From Verif Require Import GoBase GoUtf8 GoScan GoTime GoFloat Catalog Composite Header Spec SpecHeader SpecWriter BaseFacts FieldFacts HeaderSafe
  ScanFacts CalendarFacts HeaderMeaning SplitFacts DefectFacts.
From Coq Require String. Import String.StringSyntax.
#[local] Arguments bs : simpl never.
#[local] Arguments lookup : simpl never.

Lemma to_byte_bz z : 0 <= z < 256 -> bz (to_byte z) = z.
Proof.
  intros H. destruct (bz_surj z H) as [b <-]. unfold to_byte, bz. rewrite N2Z.id. now rewrite Byte.of_to_N.
Qed.
Lemma digit_bz n : 0 <= n <= 9 -> bz (digit n) = 48 + n.
Proof. intros H. unfold digit. rewrite to_byte_bz; lia. Qed.
Lemma digit_rune_bz n : 0 <= n <= 9 -> digit_rune (bz (digit n)).
Proof. intros H. rewrite digit_bz by assumption. unfold digit_rune. lia. Qed.

Lemma digits_fuel_spec fuel : forall n, 0 <= n < 10 ^ Z.of_nat fuel -> (0 < fuel)%nat ->
  let ds := map bz (digits_fuel fuel n) in decimal ds = n /\ Forall digit_rune ds /\ ds <> [].
Proof.
  assert (Happ : forall a d, decimal (a ++ [d]) = decimal a * 10 + (d - 48)).
  { intros a d. rewrite <- !dec_value_decimal. unfold dec_value. now rewrite fold_left_app. }
  induction fuel as [|fuel IH]; intros n Hn Hf; [lia|]. cbn [digits_fuel]. cbv zeta.
  pose proof (Z.mod_pos_bound n 10 ltac:(lia)) as Hm. pose proof (Z.div_mod n 10 ltac:(lia)) as Hd.
  destruct (Z.ltb_spec n 10) as [Hs|Hs].
  - cbn [app map]. rewrite digit_bz by lia. rewrite Z.mod_small by lia. cbn [decimal]. change (len (@nil Z)) with 0.
    split; [lia|]. split; [|discriminate]. constructor; [unfold digit_rune; lia|constructor].
  - destruct fuel as [|fuel]. { cbn in Hn. lia. }
    destruct (IH (n / 10)) as (H1 & H2 & H3); [|lia|].
    { split; [apply Z.div_pos; lia|]. apply Z.div_lt_upper_bound; [lia|].
      rewrite Nat2Z.inj_succ, Z.pow_succ_r in Hn by lia. lia. }
    rewrite map_app. cbn [map]. rewrite Happ, H1, digit_bz by lia.
    split; [lia|]. split; [|destruct (map bz (digits_fuel (S fuel) (n / 10))); discriminate].
    apply Forall_app. split; [assumption|]. constructor; [unfold digit_rune; lia|constructor].
Qed.
Lemma digits_spec n : 0 <= n <= int_max ->
  decimal (map bz (digits n)) = n /\ Forall digit_rune (map bz (digits n)) /\ map bz (digits n) <> [].
Proof.
  intros H. apply (digits_fuel_spec 20); [|lia]. unfold int_max in H.
  change (10 ^ Z.of_nat 20) with 100000000000000000000. lia.
Qed.
#[local] Opaque digits.

Lemma number_bytes w n : map bz (number w n) =
  repeat 32 (w - length ((if n <? 0 then [Byte.x2d] else []) ++ digits (Z.abs n))) ++
  (if n <? 0 then [45] else []) ++ map bz (digits (Z.abs n)).
Proof. unfold number, pad. rewrite !map_app, map_repeat'. destruct (n <? 0); reflexivity. Qed.

Lemma blanks_ok k : Forall blank_rune (repeat 32 k).
Proof. apply Forall_forall. intros x Hx. apply repeat_spec in Hx as ->. split; [reflexivity|lia]. Qed.

Lemma number_prefix_number w n rest : - int_max <= n <= int_max ->
  (forall d t, rest = d :: t -> ~ digit_rune d) -> number_prefix (map bz (number w n) ++ rest) n rest.
Proof.
  intros Hn Hr. rewrite number_bytes. destruct (digits_spec (Z.abs n) ltac:(lia)) as (H1 & H2 & H3).
  set (k := (w - _)%nat). clearbody k.
  eapply number_prefix_intro with (blanks := repeat 32 k) (sg := if n <? 0 then [45] else []) (ds := map bz (digits (Z.abs n))); try eassumption.
  - rewrite <- !app_assoc. reflexivity.
  - apply blanks_ok.
  - destruct (n <? 0); auto.
  - rewrite H1. destruct (Z.ltb_spec n 0); destruct (list_eq_dec _ _ _); try congruence; lia.
  - unfold int_min, int_max in *. lia.
Qed.

(** Characters of the written values. *)
Lemma plain_bz b : bz b < 65 -> plain_char b.
Proof. intros H. split; [lia|]. unfold capital. lia. Qed.
Lemma digit_plain n : 0 <= n <= 9 -> plain_char (digit n).
Proof. intros H. apply plain_bz. rewrite digit_bz; lia. Qed.
Lemma number_plain w n : - int_max <= n <= int_max -> Forall plain_char (number w n).
Proof.
  intros H. rewrite Forall_forall. intros b Hb. apply plain_bz.
  apply (in_map bz) in Hb. rewrite number_bytes, !in_app_iff in Hb.
  destruct (digits_spec (Z.abs n) ltac:(lia)) as (_ & H2 & _). rewrite Forall_forall in H2.
  destruct Hb as [Hb|[Hb|Hb]].
  - apply repeat_spec in Hb. lia.
  - destruct (n <? 0); cbn in Hb; intuition lia.
  - apply H2 in Hb. unfold digit_rune in Hb. lia.
Qed.
Lemma digits_nonempty n : 0 <= n <= int_max -> digits n <> [].
Proof. intros H He. destruct (digits_spec n H) as (_ & _ & Hx). rewrite He in Hx. now apply Hx. Qed.
Lemma number_nonempty w n : - int_max <= n <= int_max -> number w n <> [].
Proof.
  intros H He. unfold number, pad in He. apply app_eq_nil in He as [_ He]. apply app_eq_nil in He as [_ He].
  revert He. apply digits_nonempty. lia.
Qed.
Lemma plain_runes s : Forall plain_char s -> runes s = map bz s.
Proof. intros H. apply runes_ascii. eapply Forall_impl; [|exact H]. now intros ? [? _]. Qed.

Lemma number_reads w n : - int_max <= n <= int_max -> number_text (number w n) n.
Proof.
  intros H. exists []. rewrite plain_runes by now apply number_plain.
  rewrite <- (app_nil_r (map bz _)). apply number_prefix_number; [assumption|discriminate].
Qed.

Lemma two_spec n : 0 <= n <= 99 -> two_digits (two n) n.
Proof.
  intros H. exists (digit (n / 10)), (digit (n mod 10)).
  pose proof (Z.mod_pos_bound n 10 ltac:(lia)). pose proof (Z.div_mod n 10 ltac:(lia)).
  assert (0 <= n / 10 <= 9) by lia.
  rewrite !digit_bz by lia. repeat split; lia.
Qed.
Lemma two_plain n : 0 <= n <= 99 -> Forall plain_char (two n).
Proof.
  intros H. destruct (two_spec n H) as (a & b & -> & Ha & Hb & _). repeat constructor; apply plain_bz; lia.
Qed.
Lemma two_runes n : 0 <= n <= 99 -> decimal (map bz (two n)) = n /\ Forall digit_rune (map bz (two n)).
Proof.
  intros H. destruct (two_spec n H) as (a & b & -> & Ha & Hb & Hn). split; [cbn; lia|]. repeat constructor; lia.
Qed.

Lemma signed_reads n : -99 <= n <= 99 -> number_text (signed n) n.
Proof.
  intros H. exists []. destruct (two_runes (Z.abs n) ltac:(lia)) as [H1 H2].
  rewrite plain_runes. 2:{ constructor; [apply plain_bz; destruct (n <? 0); cbn; lia|apply two_plain; lia]. }
  cbn [signed map]. 
  eapply number_prefix_intro with (blanks := []) (sg := [if n <? 0 then 45 else 43]) (ds := map bz (two (Z.abs n))); try eassumption.
  - rewrite app_nil_r. destruct (n <? 0); reflexivity.
  - constructor.
  - destruct (n <? 0); auto.
  - discriminate.
  - discriminate.
  - rewrite H1. destruct (Z.ltb_spec n 0); destruct (list_eq_dec _ _ _); try congruence; lia.
  - unfold int_min, int_max. lia.
Qed.
Lemma signed_plain n : -99 <= n <= 99 -> Forall plain_char (signed n).
Proof. intros H. constructor; [apply plain_bz; destruct (n <? 0); cbn; lia|apply two_plain; lia]. Qed.

Lemma times_reads r c : 0 < r <= int_max -> 0 < c <= int_max ->
  times_text (number 4 r ++ Byte.x78 :: number 4 c) r c.
Proof.
  intros Hr Hc. exists (map bz (number 4 c)), [].
  rewrite plain_runes.
  2:{ apply Forall_app. split; [apply number_plain; lia|]. constructor; [split; [cbn; lia|unfold capital; cbn; lia]|apply number_plain; lia]. }
  rewrite map_app. split.
  - apply number_prefix_number; [lia|]. intros d t [= <- _]. unfold digit_rune. cbn. lia.
  - rewrite <- (app_nil_r (map bz _)). apply number_prefix_number; [lia|discriminate].
Qed.

Lemma three_spec n : 0 <= n <= 999 -> decimal (map bz (three n)) = n /\ Forall digit_rune (map bz (three n)) /\ Forall plain_char (three n).
Proof.
  intros H. unfold three. pose proof (Z.mod_pos_bound n 10 ltac:(lia)). pose proof (Z.div_mod n 10 ltac:(lia)).
  pose proof (Z.mod_pos_bound (n / 10) 10 ltac:(lia)). pose proof (Z.div_mod (n / 10) 10 ltac:(lia)) as Hd.
  rewrite Z.div_div in Hd by lia. change (10 * 10) with 100 in Hd.
  assert (0 <= n / 100 <= 9) by lia.
  cbn [map]. rewrite !digit_bz by lia. split; [rewrite <- dec_value_decimal; unfold dec_value; cbn [fold_left]; lia|].
  split; [repeat (apply Forall_cons; [unfold digit_rune; lia|]); constructor|].
  repeat (apply Forall_cons; [apply digit_plain; lia|]); constructor.
Qed.
Lemma pair_reads r c : 0 < r <= 999 -> 0 < c <= 999 -> pair_text (three r ++ three c) r c.
Proof.
  intros Hr Hc. destruct (three_spec r ltac:(lia)) as (R1 & R2 & R3). destruct (three_spec c ltac:(lia)) as (C1 & C2 & C3).
  exists (map bz (three c)), []. rewrite plain_runes by (rewrite Forall_app; auto). rewrite map_app.
  assert (Hp : forall n, 0 <= n <= 999 -> number_prefix (map bz (three n)) n []).
  { intros n Hn. destruct (three_spec n Hn) as (N1 & N2 & _).
    eapply number_prefix_intro with (blanks := []) (sg := []) (ds := map bz (three n)).
    - now rewrite app_nil_r.
    - constructor.
    - auto.
    - discriminate.
    - assumption.
    - discriminate.
    - destruct (list_eq_dec _ _ _); [discriminate|]. congruence.
    - unfold int_min, int_max. lia. }
  assert (Hns : forall n rest k t, 0 <= n <= 999 -> map bz (three n) ++ rest = k :: t -> is_space k = false).
  { intros n rest k t Hn He. destruct (three_spec n Hn) as (_ & N2 & _). apply digit_not_space.
    cbn [three map app] in *. injection He as <- _. now inversion N2. }
  split.
  - exists [], (map bz (three r) ++ map bz (three c)), []. split; [reflexivity|]. split; [constructor|].
    split; [intros; eapply (Hns r); [lia|eassumption]|]. cbn [firstn skipn three map app].
    split; [apply (Hp r); lia|reflexivity].
  - exists [], (map bz (three c)), []. split; [reflexivity|]. split; [constructor|].
    split; [intros k t Hk; eapply (Hns c []); [lia|rewrite app_nil_r; eassumption]|]. cbn [firstn skipn three map app].
    split; [apply (Hp c); lia|reflexivity].
Qed.

(** Levels. *)
Definition sf_eqb (a b : spec_float) : bool :=
  match a, b with
  | S754_zero s, S754_zero t => Bool.eqb s t
  | S754_infinity s, S754_infinity t => Bool.eqb s t
  | S754_nan, S754_nan => true
  | S754_finite s m e, S754_finite t n f => Bool.eqb s t && Pos.eqb m n && Z.eqb e f
  | _, _ => false
  end.
Lemma sf_eqb_eq a b : sf_eqb a b = true -> a = b.
Proof.
  destruct a as [s|s| |s m e], b as [t|t| |t n f]; cbn; try discriminate; intros H.
  - apply Bool.eqb_prop in H. congruence.
  - apply Bool.eqb_prop in H. congruence.
  - reflexivity.
  - apply andb_prop in H as [H H3]. apply andb_prop in H as [H1 H2].
    apply Bool.eqb_prop in H1. apply Pos.eqb_eq in H2. apply Z.eqb_eq in H3. congruence.
Qed.

Definition level_ok (n : Z) : bool :=
  let s := tenths n in
  (length s =? 5)%nat && forallb (fun b => bz b <? 65) s &&
  match skip_space (map bz s) with
  | Some (x :: l) =>
      forallb is_plain (float_token (x :: l)) &&
      match plain_float (float_token (x :: l)) with Some f => sf_eqb f (f32_lit n (-1)) | None => false end
  | _ => false
  end.
Lemma levels_ok n : -999 <= n <= 9999 -> level_ok n = true.
Proof. apply (range_check (-999) 9999). vm_compute. reflexivity. Qed.

Lemma level_reads n ex : -999 <= n <= 9999 ->
  length (tenths n) = 5%nat /\ Forall plain_char (tenths n) /\ sscanf_f ex (tenths n) = Some (f32_lit n (-1)).
Proof.
  intros H. pose proof (levels_ok n H) as Hl. unfold level_ok in Hl. cbv zeta in Hl.
  apply andb_prop in Hl as [Hl H3]. apply andb_prop in Hl as [H1 H2].
  apply Nat.eqb_eq in H1. rewrite forallb_forall in H2.
  assert (Hp : Forall plain_char (tenths n)).
  { apply Forall_forall. intros b Hb. apply plain_bz. apply Z.ltb_lt. now apply H2. }
  split; [assumption|]. split; [assumption|].
  unfold sscanf_f. rewrite plain_runes by assumption.
  destruct (skip_space (map bz (tenths n))) as [[|x l]|]; try discriminate.
  apply andb_prop in H3 as [H3 H4]. unfold convert_float. rewrite H3.
  destruct (plain_float _) as [f|]; [|discriminate]. now rewrite (sf_eqb_eq _ _ H4).
Qed.

Lemma number2_length n : 0 <= n <= 99 -> length (number 2 n) = 2%nat /\ Forall plain_char (number 2 n).
Proof.
  intros H. split; [|apply number_plain; unfold int_max; lia].
  assert (Hc : (fun n => (length (number 2 n) =? 2)%nat) n = true); [|now apply Nat.eqb_eq].
  revert n H. refine (range_check 0 99 _ _). vm_compute. reflexivity.
Qed.

Lemma levels_table E ls : len ls <= 99 -> Forall (fun n => -999 <= n <= 9999) ls ->
  level_table E (number 2 (len ls) ++ concat (map tenths ls)) (map (fun n => f32_lit n (-1)) ls) /\
  Forall plain_char (number 2 (len ls) ++ concat (map tenths ls)).
Proof.
  intros Hl Hf. pose proof (len_nonneg ls) as Hn0. destruct (number2_length (len ls) ltac:(lia)) as [L2 P2].
  assert (Hall : Forall (fun n => length (tenths n) = 5%nat /\ Forall plain_char (tenths n) /\ sscanf_f (exotic_float E) (tenths n) = Some (f32_lit n (-1))) ls).
  { eapply Forall_impl; [|exact Hf]. intros n Hn. now apply level_reads. }
  split.
  - exists (map tenths ls).
    assert (F2 : firstn 2 (number 2 (len ls) ++ concat (map tenths ls)) = number 2 (len ls)).
    { rewrite firstn_app_le by lia. apply firstn_all2. lia. }
    assert (S2 : skipn 2 (number 2 (len ls) ++ concat (map tenths ls)) = concat (map tenths ls)).
    { rewrite skipn_app_le by lia. rewrite skipn_all2 by lia. reflexivity. }
    rewrite F2, S2, len_map. split; [apply number_reads; unfold int_max; lia|].
    split; [rewrite app_length; lia|]. split; [reflexivity|].
    clear -Hall. split; induction Hall as [|n ls (H1 & H2 & H3) _ IH]; cbn; constructor; assumption.
  - apply Forall_app. split; [assumption|]. clear -Hall.
    induction Hall as [|n ls (H1 & H2 & H3) _ IH]; cbn; [constructor|]. apply Forall_app. auto.
Qed.

(** Looking up written fields. *)
Lemma last_value_app a b k : last_value (a ++ b) k = match last_value b k with Some v => Some v | None => last_value a k end.
Proof.
  induction a as [|[k' v] a IH]; cbn [last_value app]; [now destruct (last_value b k)|].
  rewrite IH. destruct (last_value b k); [reflexivity|]. reflexivity.
Qed.
Lemma last_value_notin l k : (forall v, ~ In (k, v) l) -> last_value l k = None.
Proof.
  induction l as [|[k' v] l IH]; intros H; [reflexivity|]. cbn [last_value]. rewrite IH.
  - destruct (list_eq_dec _ k k') as [->|]; [|reflexivity]. exfalso. apply (H v). now left.
  - intros v' Hv. apply (H v'). now right.
Qed.

Section Written.
Variable E : goenv.
Variable h : header_data.
Hypothesis W : writable h.

Let label := h_label h.
Let mid := (two (h_day h) ++ two (h_hour h) ++ two (h_minute h)) ++ bs "10000" ++ (two (h_month h) ++ two (h_year h mod 100)).

Lemma month_length_le y m : month_length y m <= 31.
Proof. unfold month_length. destruct (m =? 2); [destruct (leap_year y); lia|]. destruct (_ || _); lia. Qed.

Lemma date_ranges : 0 <= h_day h <= 99 /\ 0 <= h_hour h <= 99 /\ 0 <= h_minute h <= 99 /\ 0 <= h_month h <= 99 /\ 0 <= h_year h mod 100 <= 99.
Proof.
  destruct (w_minute _ W) as (H1 & H2 & H3 & H4). pose proof (month_length_le (h_year h) (h_month h)).
  pose proof (Z.mod_pos_bound (h_year h) 100). lia.
Qed.

Lemma mid_plain : Forall plain_char mid /\ length mid = 15%nat /\ mid <> [].
Proof.
  destruct date_ranges as (D1 & D2 & D3 & D4 & D5). split; [|split; [reflexivity|discriminate]].
  unfold mid. rewrite !Forall_app. repeat split; try (apply two_plain; assumption).
  change (bs "10000") with [Byte.x31; Byte.x30; Byte.x30; Byte.x30; Byte.x30].
  repeat (apply Forall_cons; [apply plain_bz; vm_compute; reflexivity|]). constructor.
Qed.

(** The label and the date as the first field. *)
Lemma first_field : exists k v, label ++ mid = k ++ v /\ k <> [] /\ Forall capital k /\ v <> [] /\ Forall plain_char v /\ ~ In k reserved.
Proof.
  destruct mid_plain as (M1 & M2 & M3). destruct (w_label _ W) as (a & b & Hl & Ha & [[Hb Hr]|[Hb Hr]]).
  - exists label, mid. fold label in Hl, Hr. rewrite Hl in *. repeat split; auto; try discriminate.
  - exists [a], (b :: mid). fold label in Hl. rewrite Hl. split; [reflexivity|]. split; [discriminate|].
    split; [auto|]. split; [discriminate|]. split; [constructor; [apply plain_bz; lia|assumption]|].
    cbn [In reserved]. unfold reserved. intros Hin. apply Hr.
    assert (Hone : forall k, In k reserved -> length k = 1%nat -> k = [Byte.x45]).
    { intros k Hk. unfold reserved in Hk. cbn [In] in Hk.
      repeat (destruct Hk as [<-|Hk]; [vm_compute; intros; congruence|]). destruct Hk. }
    specialize (Hone [a] Hin eq_refl). congruence.
Qed.

Lemma bs_capitals : Forall (fun k => k <> [] /\ Forall capital k) (bs "PR" :: reserved).
Proof.
  unfold reserved. 
  repeat (apply Forall_cons; [split; [discriminate|
    match goal with |- Forall capital ?k => let k' := eval vm_compute in k in change k with k' end;
    repeat (apply Forall_cons; [unfold capital; vm_compute; split; discriminate|]); constructor]|]). constructor.
Qed.

Lemma header_fields_ok : field_list (header_fields h).
Proof.
  pose proof bs_capitals as Hcap. rewrite Forall_forall in Hcap.
  assert (Hadd : forall k v, In k (bs "PR" :: reserved) -> v <> [] -> Forall plain_char v -> field_list [(k, v)]).
  { intros k v Hk Hv Hp. destruct (Hcap k Hk). constructor; [cbn; auto|constructor]. }
  assert (Hfapp : forall a b, field_list a -> field_list b -> field_list (a ++ b)) by (intros; apply Forall_app; auto).
  assert (Hnum : forall k w n, In k (bs "PR" :: reserved) -> 0 <= n <= int_max -> field_list [(k, number w n)]).
  { intros k w n Hk Hn. apply Hadd; [assumption|apply number_nonempty; lia|apply number_plain; lia]. }
  assert (Hopt : forall k w o hi, In k (bs "PR" :: reserved) -> opt_range o 0 hi -> hi <= int_max -> field_list (opt_field k (number w) o)).
  { intros k w o hi Hk Ho Hi. destruct o as [n|]; [|constructor]. apply Hnum; [assumption|]. specialize (Ho n eq_refl). lia. }
  unfold header_fields. 
  apply (Hfapp [_]); [apply Hnum; [cbn; tauto|apply (w_total _ W)]|].
  apply Hfapp; [eapply Hopt; [cbn; tauto|apply (w_version _ W)|lia]|].
  apply Hfapp.
  { destruct (h_levels h) as [ls|] eqn:Hls; [|constructor]. cbn [opt_field].
    destruct (w_levels _ W ls Hls) as [Hl Hf]. destruct (levels_table E ls Hl Hf) as [_ Hp].
    apply Hadd; [cbn; tauto| |assumption]. intros He. apply app_eq_nil in He as [He _].
    revert He. apply number_nonempty. pose proof (len_nonneg ls). unfold int_max. lia. }
  apply Hfapp.
  { destruct (h_precision h) as [p|] eqn:Hp; [|constructor]. specialize (w_precision _ W p Hp) as Hr.
    apply (Hfapp [_] [_]); apply Hadd; try (cbn; tauto); try discriminate.
    - constructor; [apply plain_bz; vm_compute; reflexivity|constructor].
    - now apply signed_plain. }
  apply Hfapp; [eapply Hopt; [cbn; tauto|apply (w_interval _ W)|unfold int_max; lia]|].
  apply Hfapp.
  { pose proof (w_size _ W) as Hs. destruct (h_size h) as [r c|r c|].
    - apply Hadd; [cbn; tauto| |].
      + intros He. apply app_eq_nil in He as [He _]. revert He. apply number_nonempty. lia.
      + apply Forall_app. split; [apply number_plain; lia|]. constructor; [split; [vm_compute; reflexivity|unfold capital; vm_compute; intros [_ Hx]; now apply Hx]|apply number_plain; lia].
    - apply Hadd; [cbn; tauto|discriminate|]. destruct (three_spec r ltac:(lia)) as (_ & _ & P1). destruct (three_spec c ltac:(lia)) as (_ & _ & P2).
      apply Forall_app. auto.
    - constructor. }
  apply Hfapp; [eapply Hopt; [cbn; tauto|apply (w_offset _ W)|unfold int_max; lia]|].
  apply (w_other _ W).
Qed.

Lemma header_text_fields : exists k v, header_text h = join_fields ((k, v) :: header_fields h) /\
  field_list ((k, v) :: header_fields h) /\ ~ In k reserved.
Proof.
  destruct first_field as (k & v & H1 & H2 & H3 & H4 & H5 & H6). exists k, v. split.
  - unfold join_fields. cbn [map concat fst snd]. fold (join_fields (header_fields h)). rewrite <- H1.
    unfold header_text, label, mid. rewrite <- !app_assoc. reflexivity.
  - split; [|assumption]. constructor; [cbn; auto|apply header_fields_ok].
Qed.

Lemma field_written k : In k reserved -> field E (header_text h) k = last_value (header_fields h) k.
Proof.
  intros Hk. destruct header_text_fields as (k0 & v0 & -> & Hf & Hn).
  destruct (field_of_fields E _ k Hf) as [->|?]; [|discriminate]. cbn [last_value].
  destruct (last_value (header_fields h) k); [reflexivity|]. destruct (list_eq_dec _ k k0) as [->|]; [contradiction|reflexivity].
Qed.

Lemma other_none k : In k reserved -> last_value (h_other h) k = None.
Proof. intros Hk. apply last_value_notin. intros v Hv. now apply (proj2 (w_other _ W) k v Hv). Qed.

Lemma last_value_one k v k' : last_value [(k, v)] k' = if str_eqb k' k then Some v else None.
Proof.
  cbn [last_value]. destruct (list_eq_dec _ k' k) as [->|Hn]; [now rewrite str_eqb_refl|].
  apply str_eqb_neq in Hn. now rewrite Hn.
Qed.
Lemma last_value_two k v k2 v2 k' : last_value [(k, v); (k2, v2)] k' = if str_eqb k' k2 then Some v2 else if str_eqb k' k then Some v else None.
Proof.
  rewrite (last_value_app [(k, v)] [(k2, v2)]), !last_value_one. now destruct (str_eqb k' k2).
Qed.
Lemma last_value_opt {X} k (f : X -> list byte) o k' : last_value (opt_field k f o) k' = if str_eqb k' k then option_map f o else None.
Proof. destruct o; cbn [opt_field option_map]; [apply last_value_one|]. now destruct (str_eqb k' k). Qed.
Definition size_value (k : list byte) : option (list byte) :=
  match h_size h with
  | Size_GP r c => if str_eqb k (bs "GP") then Some (number 4 r ++ Byte.x78 :: number 4 c) else None
  | Size_BG r c => if str_eqb k (bs "BG") then Some (three r ++ three c) else None
  | Size_local => None
  end.

Lemma last_value_fields k : In k reserved -> last_value (header_fields h) k =
  if str_eqb k (bs "VV") then option_map (number 4) (h_offset h) else
  match size_value k with Some v => Some v | None =>
  if str_eqb k (bs "INT") then option_map (number 4) (h_interval h) else
  if str_eqb k (bs "E") then option_map signed (h_precision h) else
  if str_eqb k (bs "LV") then option_map (fun ls => number 2 (len ls) ++ concat (map tenths ls)) (h_levels h) else
  if str_eqb k (bs "VS") then option_map (number 2) (h_version h) else
  if str_eqb k (bs "BY") then Some (number 7 (h_total h)) else None end.
Proof.
  intros Hk. unfold header_fields.
  match goal with |- last_value (?x :: ?l) _ = _ => change (x :: l) with ([x] ++ l) end.
  rewrite !last_value_app, (other_none k Hk), !last_value_opt, last_value_one.
  assert (Hsz : last_value match h_size h with
    | Size_GP r c => [(bs "GP", number 4 r ++ Byte.x78 :: number 4 c)]
    | Size_BG r c => [(bs "BG", three r ++ three c)]
    | Size_local => []
    end k = size_value k).
  { unfold size_value. destruct (h_size h); rewrite ?last_value_one; reflexivity. }
  rewrite Hsz.
  assert (Hpr : last_value match h_precision h with Some p => [(bs "PR", [space]); (bs "E", signed p)] | None => [] end k =
     if str_eqb k (bs "E") then option_map signed (h_precision h) else None).
  { destruct (h_precision h); [rewrite last_value_two|destruct (str_eqb k (bs "E")); reflexivity].
    destruct (str_eqb k (bs "E")); [reflexivity|]. destruct (str_eqb k (bs "PR")) eqn:Hx; [|reflexivity].
    apply str_eqb_eq in Hx as ->. exfalso. revert Hk. unfold reserved. cbn [In]. vm_compute. intuition discriminate. }
  rewrite Hpr.
  unfold size_value. unfold reserved in Hk. cbn [In] in Hk.
  repeat (destruct Hk as [<-|Hk]; [
    repeat match goal with |- context [str_eqb (bs ?a) (bs ?b)] =>
      let r := eval vm_compute in (str_eqb (bs a) (bs b)) in change (str_eqb (bs a) (bs b)) with r end;
    cbv iota beta; destruct (h_size h); cbv iota; 
    try (destruct (h_offset h)); try (destruct (h_interval h)); try (destruct (h_precision h)); try (destruct (h_levels h)); try (destruct (h_version h)); reflexivity|]).
  destruct Hk.
Qed.

Lemma field_value k : In k reserved -> field E (header_text h) k =
  if str_eqb k (bs "VV") then option_map (number 4) (h_offset h) else
  match size_value k with Some v => Some v | None =>
  if str_eqb k (bs "INT") then option_map (number 4) (h_interval h) else
  if str_eqb k (bs "E") then option_map signed (h_precision h) else
  if str_eqb k (bs "LV") then option_map (fun ls => number 2 (len ls) ++ concat (map tenths ls)) (h_levels h) else
  if str_eqb k (bs "VS") then option_map (number 2) (h_version h) else
  if str_eqb k (bs "BY") then Some (number 7 (h_total h)) else None end.
Proof. intros Hk. rewrite field_written by assumption. now apply last_value_fields. Qed.

Ltac field_at k := rewrite (field_value k) by (unfold reserved; cbn [In]; tauto);
  repeat match goal with |- context [str_eqb (bs ?a) (bs ?b)] =>
      let r := eval vm_compute in (str_eqb (bs a) (bs b)) in change (str_eqb (bs a) (bs b)) with r end;
  cbv iota beta.

Lemma size_value_other k : k = bs "BY" \/ k = bs "VS" \/ k = bs "LV" \/ k = bs "E" \/ k = bs "INT" -> size_value k = None.
Proof.
  intros Hk. unfold size_value. destruct (h_size h); [..|reflexivity];
  repeat (destruct Hk as [->|Hk]; [reflexivity|]); subst; reflexivity.
Qed.

Lemma field_BY : field E (header_text h) (bs "BY") = Some (number 7 (h_total h)).
Proof. field_at (bs "BY"). now rewrite size_value_other by auto. Qed.
Lemma field_VS : field E (header_text h) (bs "VS") = option_map (number 2) (h_version h).
Proof. field_at (bs "VS"). now rewrite size_value_other by auto. Qed.
Lemma field_LV : field E (header_text h) (bs "LV") = option_map (fun ls => number 2 (len ls) ++ concat (map tenths ls)) (h_levels h).
Proof. field_at (bs "LV"). now rewrite size_value_other by auto. Qed.
Lemma field_E : field E (header_text h) (bs "E") = option_map signed (h_precision h).
Proof. field_at (bs "E"). now rewrite size_value_other by auto. Qed.
Lemma field_INT : field E (header_text h) (bs "INT") = option_map (number 4) (h_interval h).
Proof. field_at (bs "INT"). now rewrite size_value_other by auto 6. Qed.
Lemma field_VV : field E (header_text h) (bs "VV") = option_map (number 4) (h_offset h).
Proof. field_at (bs "VV"). reflexivity. Qed.
Lemma field_GP : field E (header_text h) (bs "GP") = match h_size h with Size_GP r c => Some (number 4 r ++ Byte.x78 :: number 4 c) | _ => None end.
Proof. field_at (bs "GP"). unfold size_value. destruct (h_size h); reflexivity. Qed.
Lemma field_BG : field E (header_text h) (bs "BG") = match h_size h with Size_BG r c => Some (three r ++ three c) | _ => None end.
Proof. field_at (bs "BG"). unfold size_value. destruct (h_size h); reflexivity. Qed.

Lemma header_text_parts : firstn 2 (header_text h) = h_label h /\
  firstn 6 (skipn 2 (header_text h)) = two (h_day h) ++ two (h_hour h) ++ two (h_minute h) /\
  firstn 4 (skipn 13 (header_text h)) = two (h_month h) ++ two (h_year h mod 100) /\ 21 <= len (header_text h).
Proof.
  destruct (w_label _ W) as (a & b & Hl & _). unfold header_text. rewrite Hl. repeat split.
  pose proof (number_nonempty 7 (h_total h)) as Hne. 
  unfold header_fields. unfold join_fields. cbn [map concat fst snd].
  assert (Hlen : 4 <= len (number 7 (h_total h))).
  { unfold number, pad. unfold len. rewrite app_length, repeat_length. lia. }
  rewrite !len_app. match goal with |- context [len (concat ?l)] => pose proof (len_nonneg (concat l)) end.
  change (len [a; b]) with 2. change (len (bs "10000")) with 5. change (len (bs "BY")) with 2.
  assert (H2 : forall n, len (two n) = 2) by reflexivity. rewrite !H2. lia.
Qed.

Lemma year_written : year_text (two (h_year h mod 100)) (h_year h).
Proof.
  left. exists (h_year h mod 100). pose proof (Z.mod_pos_bound (h_year h) 100 ltac:(lia)) as Hm.
  split; [apply two_spec; lia|]. pose proof (w_year _ W) as Hy. pose proof (Z.div_mod (h_year h) 100 ltac:(lia)) as Hd.
  assert (19 <= h_year h / 100 <= 20) by lia.
  destruct (Z.ltb_spec (h_year h mod 100) 69); lia.
Qed.

Theorem written_meaning {T} (c : composite T) : written h c ->
  c_unit c = match lookup unit_catalog (h_label h) with Some u => u | None => Unit_unknown end ->
  header_meaning E (header_text h) c.
Proof.
  intros (Q1 & Q2 & Q3 & Q4 & Q5 & Q6 & Q7 & Q8 & Q9) Hu.
  destruct header_text_parts as (T1 & T2 & T3 & T4).
  constructor; rewrite ?T1, ?T2, ?T3, ?field_BY, ?field_VS, ?field_LV, ?field_E, ?field_INT, ?field_VV.
  - assumption.
  - assumption.
  - assumption.
  - exists (h_total h). pose proof (w_total _ W). split; [apply number_reads; lia|].
    pose proof (w_text _ W). rewrite Q9, int_wrap_id by (unfold int_max in *; lia). reflexivity.
  - destruct date_ranges as (D1 & D2 & D3 & D4 & D5).
    exists (two (h_day h)), (two (h_hour h)), (two (h_minute h)), (two (h_month h)), (two (h_year h mod 100)),
      (h_year h), (h_month h), (h_day h), (h_hour h), (h_minute h).
    repeat (split; [reflexivity || (apply two_spec; assumption) || apply year_written || apply (w_minute _ W)|]).
    rewrite Q2. unfold ns_per_minute. lia.
  - destruct (h_offset h) as [n|] eqn:Ho; cbn [option_map].
    + exists n. pose proof (w_offset _ W n Ho). split; [apply number_reads; unfold int_max; lia|].
      rewrite Q3, int_wrap_id by (unfold ns_per_minute; lia). reflexivity.
    + rewrite Q3. lia.
  - destruct (h_interval h) as [n|] eqn:Ho; cbn [option_map].
    + exists n. pose proof (w_interval _ W n Ho). split; [apply number_reads; unfold int_max; lia|].
      rewrite Q4. destruct (existsb _ _); rewrite int_wrap_id by (unfold ns_per_minute; lia); lia.
    + rewrite Q4. lia.
  - pose proof (w_size _ W) as Hs. unfold written_size in Q5. destruct (h_size h) as [r k|r k|] eqn:Hh.
    + destruct Q5 as (-> & -> & -> & ->). eapply announced_gp; [rewrite field_GP, Hh; reflexivity|now apply times_reads|reflexivity|reflexivity].
    + destruct Q5 as (-> & -> & -> & ->). eapply announced_bg; [now rewrite field_GP, Hh|rewrite field_BG, Hh; reflexivity|now apply pair_reads|reflexivity|reflexivity].
    + destruct Q5 as (v & Hv & -> & -> & -> & ->). eapply announced_local; [now rewrite field_GP, Hh|now rewrite field_BG, Hh|rewrite T1; exact Hv|reflexivity..].
  - destruct (h_precision h) as [n|] eqn:Ho; cbn [option_map]; rewrite Q6; [|reflexivity].
    apply signed_reads. apply (w_precision _ W n Ho).
  - destruct (h_levels h) as [ls|] eqn:Ho; cbn [option_map]; rewrite Q8; [|reflexivity]. cbn [option_map].
    eexists. split; [|reflexivity]. destruct (w_levels _ W ls Ho) as [L1 L2]. exact (proj1 (levels_table E ls L1 L2)).
  - destruct (h_version h) as [n|] eqn:Ho; cbn [option_map]; rewrite Q7; [|reflexivity].
    pose proof (w_version _ W n Ho). apply number_reads. lia.
Qed.
End Written.

(** * The delimiter does not occur in a written header. *)
Definition clean (s : list byte) : Prop := ~ In Byte.x03 s.
Lemma clean_app a b : clean (a ++ b) <-> clean a /\ clean b.
Proof. unfold clean. rewrite in_app_iff. tauto. Qed.
Lemma clean_cons b s : clean (b :: s) <-> b <> Byte.x03 /\ clean s.
Proof. unfold clean. cbn. intuition. Qed.
Lemma clean_nil : clean [].
Proof. intros []. Qed.
Lemma clean_concat ls : Forall clean ls -> clean (concat ls).
Proof. induction 1; cbn; [apply clean_nil|]. apply clean_app. auto. Qed.
Lemma digit_clean n : 0 <= n -> digit n <> Byte.x03.
Proof.
  intros H He. unfold digit in He. destruct (Z_lt_dec (48 + n) 256) as [Hl|Hl].
  - apply (f_equal bz) in He. rewrite to_byte_bz in He by lia. change (bz Byte.x03) with 3 in He. lia.
  - unfold to_byte in He. assert (Hn : Byte.of_N (Z.to_N (48 + n)) = None) by (apply Byte.of_N_None_iff; lia).
    rewrite Hn in He. discriminate.
Qed.
Lemma digits_clean n : clean (digits n).
Proof.
  Local Transparent digits. unfold digits. generalize 20%nat. intros f. revert n. induction f as [|f IH]; intros n; cbn [digits_fuel]; [apply clean_nil|].
  apply clean_app. split; [destruct (n <? 10); [apply clean_nil|apply IH]|].
  apply clean_cons. split; [apply digit_clean; pose proof (Z.mod_pos_bound n 10 ltac:(lia)); lia|apply clean_nil].
Qed.
Lemma pad_clean w s : clean s -> clean (pad w s).
Proof. intros H. apply clean_app. split; [|assumption]. intros Hi. apply repeat_spec in Hi. discriminate. Qed.
Lemma number_clean w n : clean (number w n).
Proof.
  apply pad_clean. apply clean_app. split; [|apply digits_clean].
  destruct (n <? 0); [|apply clean_nil]. apply clean_cons. split; [discriminate|apply clean_nil].
Qed.
Lemma two_clean n : 0 <= n -> clean (two n).
Proof.
  intros H. unfold two. rewrite !clean_cons. repeat split; try (apply digit_clean); try apply clean_nil.
  - apply Z.div_pos; lia.
  - apply Z.mod_pos_bound; lia.
Qed.
Lemma three_clean n : 0 <= n -> clean (three n).
Proof.
  intros H. unfold three. rewrite !clean_cons. repeat split; try (apply digit_clean); try apply clean_nil;
  [apply Z.div_pos|apply Z.mod_pos_bound|apply Z.mod_pos_bound]; lia.
Qed.
Lemma tenths_clean n : clean (tenths n).
Proof.
  apply pad_clean. apply clean_app. split; [destruct (n <? 0); [apply clean_cons; split; [discriminate|]|]; apply clean_nil|].
  apply clean_app. split; [apply digits_clean|]. rewrite !clean_cons. split; [discriminate|]. split; [|apply clean_nil].
  apply digit_clean. apply Z.mod_pos_bound. lia.
Qed.
Lemma capital_clean s : Forall capital s -> clean s.
Proof. intros H Hi. rewrite Forall_forall in H. specialize (H _ Hi). unfold capital in H. change (bz Byte.x03) with 3 in H. lia. Qed.
Lemma join_clean l : join_fields l = concat (map (fun kv => fst kv ++ snd kv) l).
Proof. reflexivity. Qed.

Lemma header_text_clean h : writable h -> ~ In Byte.x03 (header_text h).
Proof.
  intros W. change (clean (header_text h)). destruct (date_ranges h W) as (D1 & D2 & D3 & D4 & D5).
  unfold header_text. rewrite !clean_app. split.
  { destruct (w_label _ W) as (a & b & -> & Ha & Hb). rewrite !clean_cons.
    assert (bz a <> 3 /\ bz b <> 3) as [H1 H2] by (unfold capital in *; lia).
    split; [intros ->; now apply H1|]. split; [intros ->; now apply H2|apply clean_nil]. }
  split; [repeat split; apply two_clean; lia|].
  split; [vm_compute; intuition discriminate|].
  split; [split; apply two_clean; lia|].
  assert (Hone : forall k v, In k (bs "PR" :: reserved) -> clean v -> clean (join_fields [(k, v)])).
  { intros k v Hk Hv. unfold join_fields. cbn [map concat fst snd]. rewrite app_nil_r. apply clean_app. split; [|assumption].
    apply capital_clean. pose proof bs_capitals as Hc. rewrite Forall_forall in Hc. apply (Hc k Hk). }
  assert (Hj : forall a b, clean (join_fields a) -> clean (join_fields b) -> clean (join_fields (a ++ b))).
  { intros a b Ha Hb. unfold join_fields. rewrite map_app, concat_app. apply clean_app. auto. }
  assert (Hopt : forall X k (f : X -> list byte) o, In k (bs "PR" :: reserved) -> (forall x, clean (f x)) -> clean (join_fields (opt_field k f o))).
  { intros X k f o Hk Hf. destruct o; cbn [opt_field]; [|apply clean_nil]. auto. }
  unfold header_fields.
  apply (Hj [_]); [apply Hone; [cbn; tauto|apply number_clean]|].
  apply Hj; [apply Hopt; [cbn; tauto|intros; apply number_clean]|].
  apply Hj. { apply Hopt; [cbn; tauto|]. intros ls. apply clean_app. split; [apply number_clean|].
    apply clean_concat. apply Forall_forall. intros s Hs. apply in_map_iff in Hs as (n & <- & _). apply tenths_clean. }
  apply Hj. { destruct (h_precision h) as [p|]; [|apply clean_nil]. apply (Hj [_] [_]); apply Hone; try (cbn; tauto).
    - apply clean_cons. split; [discriminate|apply clean_nil].
    - apply clean_cons. split; [destruct (p <? 0); discriminate|apply two_clean; lia]. }
  apply Hj; [apply Hopt; [cbn; tauto|intros; apply number_clean]|].
  apply Hj. { pose proof (w_size _ W) as Hs. destruct (h_size h) as [r c|r c|]; [| |apply clean_nil]; apply Hone; try (cbn; tauto).
    - apply clean_app. split; [apply number_clean|]. apply clean_cons. split; [discriminate|apply number_clean].
    - apply clean_app. split; apply three_clean; lia. }
  apply Hj; [apply Hopt; [cbn; tauto|intros; apply number_clean]|].
  apply (w_delimiter _ W).
Qed.
