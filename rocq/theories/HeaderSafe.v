(** The header parser never panics, and what it leaves untouched. *)
From Verif Require Import GoBase GoUtf8 GoScan GoTime GoFloat Catalog Composite Header BaseFacts.
From Coq Require String. Import String.StringSyntax.

(** Indices delivered by [for i, c := range s] increase and stay in range. *)
Fixpoint increasing (lo hi : Z) (l : list (Z * Z)) : Prop :=
  match l with
  | [] => True
  | (j, _) :: t => lo <= j < hi /\ increasing (j + 1) hi t
  end.

Lemma increasing_weaken lo lo' hi l : lo' <= lo -> increasing lo hi l -> increasing lo' hi l.
Proof. destruct l as [|[j r] l]; cbn; intuition lia. Qed.

Lemma range_from_increasing s : forall i skip,
  increasing i (i + len s) (range_from i skip s).
Proof.
  induction s as [|b s IH]; intros i skip; cbn [range_from]; [exact I|].
  rewrite len_cons. destruct skip as [|k].
  - destruct (decode_rune b s) as [r w]. cbn [increasing]. pose proof (len_nonneg s).
    split; [lia|]. replace (i + (1 + len s)) with (i + 1 + len s) by lia. apply IH.
  - replace (i + (1 + len s)) with (i + 1 + len s) by lia.
    apply increasing_weaken with (i + 1); [lia|]. apply IH.
Qed.

Definition split_inv (n : Z) (s : split_state) : Prop :=
  0 <= sp_bk s <= sp_ek s /\ sp_ek s <= n /\ 0 <= sp_bv s <= sp_ev s /\ sp_ev s <= n.

Lemma split_store_total header s :
  split_inv (len header) s -> exists m, split_store header s = Some m.
Proof.
  intros (H1 & H2 & H3 & H4). unfold split_store.
  rewrite !slice_some by lia. eauto.
Qed.

Lemma split_loop_total E header l : forall s n,
  split_inv n s -> n <= len header -> increasing n (len header) l ->
  exists m, split_loop E header s l = Some m.
Proof.
  induction l as [|[i c] l IH]; intros s n Hs Hn Hl; cbn [split_loop].
  - apply split_store_total. unfold split_inv in *. lia.
  - destruct Hl as [Hi Hl]. unfold split_step.
    destruct (is_upper (upper_hi E) c).
    + destruct (sp_dispatch s).
      * destruct (split_store_total header s) as [m ->]; [unfold split_inv in *; lia|].
        apply IH with (i + 1); auto; unfold split_inv in *; cbn; lia.
      * apply IH with (i + 1); auto; unfold split_inv in *; cbn; lia.
    + destruct (i =? 0); [eauto|].
      destruct (sp_dispatch s); apply IH with (i + 1); auto; unfold split_inv in *; cbn; lia.
Qed.

Lemma split_header_total E header : exists m, split_header E header = Some m.
Proof.
  unfold split_header, range_string.
  apply split_loop_total with 0.
  - unfold split_inv; cbn; lia.
  - apply len_nonneg.
  - pose proof (range_from_increasing header 0 0) as H. now rewrite Z.add_0_l in H.
Qed.

(** Number of runes. *)
Lemma range_from_length s : forall i skip, (length (range_from i skip s) <= length s)%nat.
Proof.
  induction s as [|b s IH]; intros i skip; cbn; [lia|].
  destruct skip; [destruct (decode_rune b s) as [r w]; cbn; specialize (IH (i + 1) (w - 1)%nat); lia|].
  specialize (IH (i + 1) skip). lia.
Qed.
Lemma runes_length s : (length (runes s) <= length s)%nat.
Proof. unfold runes, range_string. rewrite map_length. apply range_from_length. Qed.

Lemma accept_many_split p l a b : accept_many p l = (a, b) -> l = a ++ b /\ forallb p a = true.
Proof.
  revert a b; induction l as [|r l IH]; cbn; intros a b H; [injection H as <- <-; auto|].
  destruct (p r) eqn:Hr.
  - destruct (accept_many p l) as [a' b']. injection H as <- <-.
    destruct (IH a' b' eq_refl) as [-> Hf]. cbn. rewrite Hr, Hf. auto.
  - injection H as <- <-. auto.
Qed.

Lemma accept_one_split p l a b : accept_one p l = (a, b) -> l = a ++ b /\ (length a <= 1)%nat.
Proof.
  destruct l as [|r l]; cbn; [intros H; injection H as <- <-; auto|].
  destruct (p r); intros H; injection H as <- <-; cbn; auto.
Qed.

Lemma skip_space_suffix l r : skip_space l = Some r -> exists p, l = p ++ r.
Proof.
  revert r; induction l as [|x l IH]; cbn; intros r H.
  - injection H as <-. now exists [].
  - destruct (x =? 10); [discriminate|]. destruct (is_space x).
    + destruct (IH _ H) as [p ->]. now exists (x :: p).
    + injection H as <-. now exists [].
Qed.

Lemma dec_value_acc ds : forall acc, forallb is_dec ds = true -> 0 <= acc ->
  acc * 10 ^ len ds <= fold_left (fun a d => a * 10 + (d - 48)) ds acc < (acc + 1) * 10 ^ len ds.
Proof.
  induction ds as [|d ds IH]; intros acc H Ha.
  - cbn [fold_left]. rewrite len_nil. change (10 ^ 0) with 1. lia.
  - cbn [fold_left forallb] in *. apply andb_true_iff in H as [Hd Hds].
    rewrite len_cons. rewrite Z.pow_add_r by (pose proof (len_nonneg ds); lia).
    change (10 ^ 1) with 10. unfold is_dec, between in Hd.
    specialize (IH (acc * 10 + (d - 48)) Hds ltac:(lia)). 
    assert (0 < 10 ^ len ds) by (apply Z.pow_pos_nonneg; [lia|apply len_nonneg]).
    nia.
Qed.

Lemma dec_value_bound ds : forallb is_dec ds = true -> 0 <= dec_value ds < 10 ^ len ds.
Proof. intros H. pose proof (dec_value_acc ds 0 H ltac:(lia)). unfold dec_value. lia. Qed.

Lemma scan_int_bound l v r : scan_int l = Some (v, r) -> Z.abs v < 10 ^ len l /\ in_int v = true.
Proof.
  unfold scan_int. destruct (skip_space l) as [[|x l']|] eqn:Hs; try discriminate.
  apply skip_space_suffix in Hs as [p ->].
  destruct (accept_one is_sign (x :: l')) as [sg l1] eqn:H1. 
  apply accept_one_split in H1 as [H1 Hsg]. rewrite H1.
  destruct (accept_many is_dec l1) as [ds l2] eqn:H2.
  apply accept_many_split in H2 as [-> Hds].
  destruct ds as [|d ds']; [discriminate|]. set (ds := d :: ds') in *. clearbody ds.
  unfold parse_int.
  destruct (in_int _) eqn:Hi; [|discriminate]. intros H; injection H as <- <-. split; [|exact Hi].
  pose proof (dec_value_bound ds Hds) as Hb.
  rewrite !len_app.
  assert (10 ^ len ds <= 10 ^ (len p + (len sg + (len ds + len l2)))).
  { apply Z.pow_le_mono_r; [lia|]. pose proof (len_nonneg p); pose proof (len_nonneg sg); pose proof (len_nonneg l2). lia. }
  destruct sg as [|s [|? ?]]; [lia| |lia]. destruct (s =? 45); lia.
Qed.

Lemma sscanf_d_bound s v : sscanf_d s = Some v -> Z.abs v < 10 ^ len s /\ in_int v = true.
Proof.
  unfold sscanf_d, sscanf.
  destruct (skip_space (runes s)) as [l|] eqn:Hs; [|discriminate].
  destruct (scan_int l) as [[v' w]|] eqn:Hi; [|discriminate].
  intros H; injection H as <-. apply scan_int_bound in Hi as [Hb Hi]. split; [|exact Hi].
  apply skip_space_suffix in Hs as [p Hp].
  assert (len l <= len s).
  { pose proof (runes_length s) as Hr. rewrite Hp, app_length in Hr. unfold len. lia. }
  assert (10 ^ len l <= 10 ^ len s) by (apply Z.pow_le_mono_r; lia). lia.
Qed.

Lemma sscanf_values items : forall l vs ok, sscanf items l = (vs, ok) -> Forall (fun v => in_int v = true) vs.
Proof.
  induction items as [|[w|r] items IH]; cbn [sscanf]; intros l vs ok H.
  - injection H as <- <-. constructor.
  - destruct (skip_space l) as [l1|]; [|injection H as <- <-; constructor].
    destruct (match w with None => _ | Some _ => _ end) as [win out].
    destruct (scan_int win) as [[v win']|] eqn:Hi; [|injection H as <- <-; constructor].
    destruct (sscanf items (win' ++ out)) as [vs' ok'] eqn:Hr. injection H as <- <-.
    constructor; [apply (scan_int_bound _ _ _ Hi)|]. eapply IH; eauto.
  - destruct l as [|x l]; [injection H as <- <-; constructor|].
    destruct (x =? r); [eauto|injection H as <- <-; constructor].
Qed.

Lemma sscanf_ok_length items : forall l vs, sscanf items l = (vs, true) ->
  length vs = length (filter (fun it => match it with Verb_d _ => true | _ => false end) items).
Proof.
  induction items as [|[w|r] items IH]; cbn [sscanf filter length]; intros l vs H.
  - injection H as <-. reflexivity.
  - destruct (skip_space l) as [l1|]; [|discriminate].
    destruct (match w with None => _ | Some _ => _ end) as [win out].
    destruct (scan_int win) as [[v win']|] eqn:Hi; [|discriminate].
    destruct (sscanf items (win' ++ out)) as [vs' ok'] eqn:Hr. injection H as <- ->.
    cbn. f_equal. eapply IH; eauto.
  - destruct l as [|x l]; [discriminate|]. destruct (x =? r); [eauto|discriminate].
Qed.

Lemma level_count_bound lv cs cnt :
  slice lv 0 2 = Some cs -> sscanf_d cs = Some cnt -> Z.abs cnt <= 99.
Proof.
  intros H1 H2. apply slice_len in H1. apply sscanf_d_bound in H2 as [H2 _].
  rewrite H1 in H2. change (10 ^ (2 - 0)) with 100 in H2. lia.
Qed.

Section Safe.
Context {T : Type}.
Variable ofZ : Z -> T.
Variable E : goenv.

Definition not_panic {A} (o : outcome T A) : Prop := o <> Panic.

Lemma parse_levels_total lv : forall cnt n,
  0 <= n -> n + 5 * Z.of_nat cnt + 2 <= len lv ->
  exists fs ok, parse_levels E lv cnt n = Some (fs, ok) /\ length fs = cnt.
Proof.
  induction cnt as [|cnt IH]; intros n Hn Hl; cbn [parse_levels].
  - exists [], true. auto.
  - rewrite slice_some by lia.
    destruct (sscanf_f _ _) as [f|].
    + destruct (IH (n + 5)) as (fs & ok & -> & Hfs); [lia|lia|].
      exists (f :: fs), ok. cbn. auto.
    + exists (repeat (S754_zero false) (S cnt)), false. rewrite repeat_length. auto.
Qed.

Lemma parse_level_safe m (c : composite T) : not_panic (parse_level E m c).
Proof.
  unfold not_panic, parse_level. destruct (lookup m (bs "LV")) as [lv|]; [|discriminate].
  destruct (len lv <? 2) eqn:Hl; [discriminate|].
  destruct (slice lv 0 2) as [cs|] eqn:Hs.
  2:{ rewrite slice_some in Hs by lia. discriminate. }
  destruct (sscanf_d cs) as [cnt|] eqn:Hc; [|discriminate].
  pose proof (level_count_bound _ _ _ Hs Hc) as Hb.
  rewrite int_wrap_id by lia.
  destruct (len lv =? cnt * 5 + 2) eqn:Hq; cbn [negb]; [|discriminate].
  rewrite make_some by (unfold max_alloc; lia).
  destruct (parse_levels_total lv (length (repeat (S754_zero false : f32) (Z.to_nat cnt))) 0) as (fs & ok & -> & _).
  - lia.
  - rewrite repeat_length. lia.
  - destruct ok; discriminate.
Qed.

Lemma parse_identity_safe header m (c : composite T) :
  22 <= len header -> not_panic (parse_identity header m c).
Proof.
  intros H. unfold not_panic, parse_identity.
  rewrite !slice_some by lia.
  destruct (sscanf_d _); [|discriminate].
  destruct (time_parse _); discriminate.
Qed.

Lemma parse_version_safe m (c : composite T) : not_panic (parse_version m c).
Proof. unfold not_panic, parse_version. destruct (lookup m (bs "VS")); [destruct (sscanf_d l)|]; discriminate. Qed.
Lemma parse_precision_safe m (c : composite T) : not_panic (parse_precision m c).
Proof. unfold not_panic, parse_precision. destruct (lookup m (bs "E")); [destruct (sscanf_d l)|]; discriminate. Qed.
Lemma parse_interval_safe m (c : composite T) : not_panic (parse_interval m c).
Proof. unfold not_panic, parse_interval. destruct (lookup m (bs "INT")); [destruct (sscanf_d l)|]; discriminate. Qed.
Lemma parse_forecast_safe m (c : composite T) : not_panic (parse_forecast m c).
Proof. unfold not_panic, parse_forecast. destruct (lookup m (bs "VV")); [destruct (sscanf_d l)|]; discriminate. Qed.
Lemma parse_dimensions_safe m (c : composite T) : not_panic (parse_dimensions ofZ m c).
Proof.
  unfold not_panic, parse_dimensions.
  destruct (lookup m (bs "GP")) as [dim|].
  { destruct (sscanf _ _) as [vs ok]. destruct ok; discriminate. }
  destruct (lookup m (bs "BG")) as [dim|].
  { destruct (sscanf _ _) as [vs ok]. destruct ok; discriminate. }
  destruct (lookup dimension_catalog _); discriminate.
Qed.

Lemma bind_safe {A B} (x : outcome T A) (f : A -> outcome T B) :
  not_panic x -> (forall a, x = Value a -> not_panic (f a)) -> not_panic (bind x f).
Proof. unfold not_panic; intros Hx Hf. destruct x; cbn; [apply Hf; reflexivity|discriminate|congruence]. Qed.

Lemma parse_header_text_safe (c : composite T) header : not_panic (parse_header_text ofZ E c header).
Proof.
  unfold parse_header_text. destruct (len header <? 22) eqn:Hl; [discriminate|].
  rewrite slice_some by lia.
  destruct (split_header_total E (firstn (Z.to_nat (len header - 1 - 0)) (skipn (Z.to_nat 0) header))) as [m ->].
  apply bind_safe; [apply parse_identity_safe; lia|]. intros c1 _.
  apply bind_safe; [apply parse_forecast_safe|]. intros c2 _.
  apply bind_safe; [apply parse_interval_safe|]. intros c3 _.
  apply bind_safe; [apply parse_dimensions_safe|]. intros c4 _.
  apply bind_safe; [apply parse_precision_safe|]. intros c5 _.
  apply bind_safe; [apply parse_level_safe|]. intros c6 _.
  apply parse_version_safe.
Qed.

Lemma parse_header_safe (c : composite T) input : not_panic (parse_header ofZ E c input).
Proof.
  unfold parse_header. destruct (read_until Byte.x03 input) as [[h r]|]; [|discriminate].
  apply bind_safe; [apply parse_header_text_safe|]. discriminate.
Qed.

(** Fields the header parser does not touch, on success and on failure. *)
Definition frame (c0 c : composite T) : Prop :=
  c_plain c = c_plain c0 /\ c_dataz c = c_dataz c0 /\ c_data c = c_data c0 /\ c_dz c = c_dz c0 /\
  c_has_projection c = c_has_projection c0 /\ c_wgs84 c = c_wgs84 c0 /\
  c_offx c = c_offx c0 /\ c_offy c = c_offy c0.
Definition framed (c0 : composite T) (o : outcome T (composite T)) : Prop :=
  match o with Value c => frame c0 c | Failure _ c => frame c0 c | Panic => True end.

Lemma frame_refl c : frame c c.
Proof. unfold frame; auto 10. Qed.
Lemma frame_trans a b c : frame a b -> frame b c -> frame a c.
Proof. unfold frame; intuition congruence. Qed.

Lemma bind_framed c0 x f :
  framed c0 x -> (forall c, x = Value c -> framed c (f c)) -> framed c0 (bind x f).
Proof.
  destruct x as [c|e c|]; cbn; intros H Hf; auto.
  specialize (Hf c eq_refl). unfold framed in *.
  destruct (f c); eauto using frame_trans.
Qed.

Ltac fr := unfold framed, frame; cbn; auto 12.

Lemma set_dims_frame c vs : frame c (set_dims c vs).
Proof. destruct vs as [|? [|? ?]]; fr. Qed.

Lemma parse_header_text_framed c header : framed c (parse_header_text ofZ E c header).
Proof.
  unfold parse_header_text. destruct (len header <? 22); [fr|].
  destruct (slice header _ _) as [text|]; [|fr].
  destruct (split_header E text) as [m|]; [|fr].
  apply bind_framed.
  { unfold parse_identity. destruct (slice header 0 2); [|fr]. destruct (sscanf_d _); [|fr].
    destruct (slice header 2 8); [|fr]. destruct (slice header 13 17); [|fr].
    destruct (time_parse _); fr. }
  intros c1 _. apply bind_framed.
  { unfold parse_forecast. destruct (lookup m (bs "VV")); [|fr]. destruct (sscanf_d _); fr. }
  intros c2 _. apply bind_framed.
  { unfold parse_interval. destruct (lookup m (bs "INT")); [|fr]. destruct (sscanf_d _); fr. }
  intros c3 _. apply bind_framed.
  { unfold parse_dimensions. destruct (lookup m (bs "GP")).
    { destruct (sscanf _ _) as [vs ok]. pose proof (set_dims_frame c3 vs) as Hf.
      destruct ok; cbn; auto. }
    destruct (lookup m (bs "BG")).
    { destruct (sscanf _ _) as [vs ok]. pose proof (set_dims_frame c3 vs) as Hf.
      destruct ok; cbn; auto. }
    destruct (lookup dimension_catalog _); fr. }
  intros c4 _. apply bind_framed.
  { unfold parse_precision. destruct (lookup m (bs "E")); [|fr]. destruct (sscanf_d _); fr. }
  intros c5 _. apply bind_framed.
  { unfold parse_level. destruct (lookup m (bs "LV")) as [lv|]; [|fr]. destruct (len lv <? 2); [fr|].
    destruct (slice lv 0 2); [|fr]. destruct (sscanf_d _); [|fr]. destruct (negb _); [fr|].
    destruct (make _ _ _); [|fr]. destruct (parse_levels _ _ _ _) as [[fs ok]|]; [|fr]. destruct ok; fr. }
  intros c6 _. unfold parse_version. destruct (lookup m (bs "VS")); [|fr]. destruct (sscanf_d _); fr.
Qed.

(** Dimensions after a successful header. *)
Definition dims_ok (c : composite T) : Prop :=
  (c_px c = c_dx c /\ c_py c = c_dy c) \/
  (c_px c = 200 /\ c_dx c = 200 /\ c_dy c = 200 /\ (c_py c = 224 \/ c_py c = 2400)).
Definition dims_int (c : composite T) : Prop :=
  in_int (c_px c) = true /\ in_int (c_py c) = true /\ in_int (c_dx c) = true /\ in_int (c_dy c) = true.

Lemma catalog_dims p v : lookup dimension_catalog p = Some v ->
  s_px v = 200 /\ s_dx v = 200 /\ s_dy v = 200 /\ (s_py v = 224 \/ s_py v = 2400).
Proof.
  unfold dimension_catalog. cbn [lookup].
  repeat match goal with |- context [if ?b then _ else _] => destruct b end;
  intros H; try discriminate; injection H as <-; cbn; auto.
Qed.

Lemma parse_dimensions_dims m c c' :
  parse_dimensions ofZ m c = Value c' -> dims_ok c' /\ dims_int c'.
Proof.
  unfold parse_dimensions.
  assert (Hgen : forall items l vs, 
    length (filter (fun it => match it with Verb_d _ => true | _ => false end) items) = 2%nat ->
    sscanf items l = (vs, true) ->
    let c1 := set_dims c vs in 
    let c2 := set_py (set_px c1 (c_dx c1)) (c_dy c1) in dims_ok c2 /\ dims_int c2).
  { intros items l vs Hi Hs. pose proof (sscanf_ok_length _ _ _ Hs) as Hlen.
    pose proof (sscanf_values _ _ _ _ Hs) as Hv. rewrite Hi in Hlen.
    destruct vs as [|y [|x [|? ?]]]; try discriminate. inversion Hv as [|? ? Hy Hv']; subst.
    inversion Hv' as [|? ? Hx _]; subst. cbn. unfold dims_ok, dims_int; cbn. auto. }
  destruct (lookup m (bs "GP")) as [dim|].
  { destruct (sscanf _ (runes dim)) as [vs ok] eqn:Hs. destruct ok; [|discriminate].
    intros H; injection H as <-. refine (Hgen _ _ _ _ Hs); reflexivity. }
  destruct (lookup m (bs "BG")) as [dim|].
  { destruct (sscanf _ (runes dim)) as [vs ok] eqn:Hs. destruct ok; [|discriminate].
    intros H; injection H as <-. refine (Hgen _ _ _ _ Hs); reflexivity. }
  destruct (lookup dimension_catalog (c_product c)) as [v|] eqn:Hl; [|discriminate].
  intros H; injection H as <-. apply catalog_dims in Hl as (H1 & H2 & H3 & H4).
  unfold dims_ok, dims_int; cbn. rewrite H1, H2, H3. split; [auto|].
  destruct H4 as [-> | ->]; repeat split; reflexivity.
Qed.

Definition same_dims_c (c c' : composite T) : Prop :=
  c_px c' = c_px c /\ c_py c' = c_py c /\ c_dx c' = c_dx c /\ c_dy c' = c_dy c.

Lemma parse_precision_dims m c c' : parse_precision m c = Value c' -> same_dims_c c c'.
Proof.
  unfold parse_precision. destruct (lookup m (bs "E")) as [pr|]; [destruct (sscanf_d pr)|];
  intros H; try discriminate; injection H as <-; unfold same_dims_c; cbn; auto.
Qed.
Lemma parse_level_dims m c c' : parse_level E m c = Value c' -> same_dims_c c c'.
Proof.
  unfold parse_level. destruct (lookup m (bs "LV")) as [lv|];
    [|intros H; injection H as <-; unfold same_dims_c; auto].
  destruct (len lv <? 2); [discriminate|]. destruct (slice lv 0 2); [|discriminate].
  destruct (sscanf_d _); [|discriminate]. destruct (negb _); [discriminate|].
  destruct (make _ _ _); [|discriminate]. destruct (parse_levels _ _ _ _) as [[fs ok]|]; [|discriminate].
  destruct ok; [|discriminate]. intros H; injection H as <-. unfold same_dims_c; cbn; auto.
Qed.
Lemma parse_version_dims m c c' : parse_version m c = Value c' -> same_dims_c c c'.
Proof.
  unfold parse_version. destruct (lookup m (bs "VS")) as [pr|]; [destruct (sscanf_d pr)|];
  intros H; try discriminate; injection H as <-; unfold same_dims_c; cbn; auto.
Qed.

Lemma bind_value {A B} (x : outcome T A) (f : A -> outcome T B) b :
  bind x f = Value b -> exists a, x = Value a /\ f a = Value b.
Proof. destruct x; cbn; intros H; try discriminate; eauto. Qed.

Lemma parse_header_text_dims c header c' :
  parse_header_text ofZ E c header = Value c' -> dims_ok c' /\ dims_int c'.
Proof.
  unfold parse_header_text. destruct (len header <? 22); [discriminate|].
  destruct (slice header _ _) as [text|]; [|discriminate].
  destruct (split_header E text) as [m|]; [|discriminate]. intros H.
  apply bind_value in H as (c1 & _ & H). apply bind_value in H as (c2 & _ & H).
  apply bind_value in H as (c3 & _ & H). apply bind_value in H as (c4 & Hd & H).
  apply bind_value in H as (c5 & H5 & H). apply bind_value in H as (c6 & H6 & H).
  apply parse_dimensions_dims in Hd. apply parse_precision_dims in H5.
  apply parse_level_dims in H6. apply parse_version_dims in H.
  destruct H5 as (? & ? & ? & ?), H6 as (? & ? & ? & ?), H as (? & ? & ? & ?).
  unfold dims_ok, dims_int in *. intuition congruence.
Qed.

Lemma parse_header_inv c input c' rest :
  parse_header ofZ E c input = Value (c', rest) ->
  exists header, read_until Byte.x03 input = Some (header, rest) /\ parse_header_text ofZ E c header = Value c'.
Proof.
  unfold parse_header. destruct (read_until Byte.x03 input) as [[h r]|]; [|discriminate].
  destruct (parse_header_text ofZ E c h) as [c1| |] eqn:H; try discriminate.
  cbn. intros H1; injection H1 as <- <-. eauto.
Qed.
End Safe.
