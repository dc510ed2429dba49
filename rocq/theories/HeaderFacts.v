(** What a successfully parsed header says about the composite. *)
From Verif Require Import GoBase GoUtf8 GoScan GoTime GoFloat Catalog Composite Header BaseFacts HeaderSafe.
From Coq Require String. Import String.StringSyntax.

#[local] Arguments bs : simpl never.
#[local] Arguments lookup : simpl never.
Section Facts.
Context {T : Type}.
Variable ofZ : Z -> T.
Variable E : goenv.
Implicit Types c : composite T.

(** Dimension sources. *)
Inductive dims_of (m : gomap (list byte)) (product : list byte) (px py dx dy : Z) : Prop :=
| dims_gp dim : lookup m (bs "GP") = Some dim ->
    sscanf [Verb_d None; Lit 120; Verb_d None] (runes dim) = ([dy; dx], true) ->
    px = dx -> py = dy -> dims_of m product px py dx dy
| dims_bg dim : lookup m (bs "GP") = None -> lookup m (bs "BG") = Some dim ->
    sscanf [Verb_d (Some 3%nat); Verb_d (Some 3%nat)] (runes dim) = ([dy; dx], true) ->
    px = dx -> py = dy -> dims_of m product px py dx dy
| dims_catalog v : lookup m (bs "GP") = None -> lookup m (bs "BG") = None ->
    lookup dimension_catalog product = Some v ->
    px = s_px v -> py = s_py v -> dx = s_dx v -> dy = s_dy v -> dims_of m product px py dx dy.

Record header_says (header : list byte) (m : gomap (list byte)) (c0 c : composite T) : Prop := {
  hs_len : 22 <= len header;
  hs_split : split_header E (removelast header) = Some m;
  hs_product : c_product c = firstn 2 header;
  hs_unit : c_unit c = lookup_unit (firstn 2 header);
  hs_by : exists by_, sscanf_d (section_get m "BY") = Some by_ /\ c_data_length c = int_wrap (by_ - len header);
  hs_capture : exists d1 d2, slice header 2 8 = Some d1 /\ slice header 13 17 = Some d2 /\ time_parse (d1 ++ d2) = Some (c_capture c);
  hs_forecast : match lookup m (bs "VV") with
                | None => c_forecast c = c_capture c
                | Some vv => exists min, sscanf_d vv = Some min /\ c_forecast c = c_capture c + minutes_dur min
                end;
  hs_interval : match lookup m (bs "INT") with
                | None => c_interval c = c_interval c0
                | Some v => exists min, sscanf_d v = Some min /\
                    c_interval c = if is_W (c_product c) then int_wrap (minutes_dur min * 10) else minutes_dur min
                end;
  hs_dims : dims_of m (c_product c) (c_px c) (c_py c) (c_dx c) (c_dy c);
  hs_precision : match lookup m (bs "E") with
                 | None => c_precision c = c_precision c0
                 | Some v => sscanf_d v = Some (c_precision c)
                 end;
  hs_level : match lookup m (bs "LV") with
             | None => c_level c = c_level c0
             | Some lv => exists cs cnt fs, slice lv 0 2 = Some cs /\ sscanf_d cs = Some cnt /\
                 0 <= cnt <= 99 /\ len lv = cnt * 5 + 2 /\
                 parse_levels E lv (Z.to_nat cnt) 0 = Some (fs, true) /\ c_level c = Some fs
             end;
  hs_format : match lookup m (bs "VS") with
              | None => c_format c = c_format c0
              | Some v => sscanf_d v = Some (c_format c)
              end
}.

Lemma parse_dimensions_says m c c' : parse_dimensions ofZ m c = Value c' ->
  dims_of m (c_product c) (c_px c') (c_py c') (c_dx c') (c_dy c') /\
  c_product c' = c_product c /\ c_unit c' = c_unit c /\ c_data_length c' = c_data_length c /\
  c_capture c' = c_capture c /\ c_forecast c' = c_forecast c /\ c_interval c' = c_interval c /\
  c_precision c' = c_precision c /\ c_level c' = c_level c /\ c_format c' = c_format c.
Proof.
  unfold parse_dimensions.
  destruct (lookup m (bs "GP")) as [dim|] eqn:Hgp.
  { destruct (sscanf _ (runes dim)) as [vs ok] eqn:Hs. destruct ok; [|discriminate].
    pose proof (sscanf_ok_length _ _ _ Hs) as Hl. cbn in Hl.
    destruct vs as [|y [|x [|? ?]]]; try discriminate.
    intros H; injection H as <-. cbn. repeat split; auto. econstructor 1; eauto. }
  destruct (lookup m (bs "BG")) as [dim|] eqn:Hbg.
  { destruct (sscanf _ (runes dim)) as [vs ok] eqn:Hs. destruct ok; [|discriminate].
    pose proof (sscanf_ok_length _ _ _ Hs) as Hl. cbn in Hl.
    destruct vs as [|y [|x [|? ?]]]; try discriminate.
    intros H; injection H as <-. cbn. repeat split; auto. econstructor 2; eauto. }
  destruct (lookup dimension_catalog (c_product c)) as [v|] eqn:Hl; [|discriminate].
  intros H; injection H as <-. cbn. repeat split; auto. econstructor 3; eauto.
Qed.

Lemma parse_level_says m c c' : parse_level E m c = Value c' ->
  exists l, c' = set_level c l /\
  match lookup m (bs "LV") with
  | None => l = c_level c
  | Some lv => exists cs cnt fs, slice lv 0 2 = Some cs /\ sscanf_d cs = Some cnt /\
      0 <= cnt <= 99 /\ len lv = cnt * 5 + 2 /\
      parse_levels E lv (Z.to_nat cnt) 0 = Some (fs, true) /\ l = Some fs
  end.
Proof.
  unfold parse_level. destruct (lookup m (bs "LV")) as [lv|].
  2:{ intros H; injection H as <-. exists (c_level c). split; [destruct c; reflexivity|reflexivity]. }
  destruct (len lv <? 2); [discriminate|]. destruct (slice lv 0 2) as [cs|] eqn:Hs; [|discriminate].
  destruct (sscanf_d cs) as [cnt|] eqn:Hc; [|discriminate].
  pose proof (level_count_bound lv cs cnt Hs Hc) as Hb.
  destruct (negb (len lv =? int_wrap (cnt * 5 + 2))) eqn:Hl; [discriminate|].
  apply negb_false_iff, Z.eqb_eq in Hl. rewrite int_wrap_id in Hl by lia.
  destruct (make 4 _ cnt) as [zs|] eqn:Hm; [|discriminate].
  apply make_inv in Hm as (Hm & _ & ->). rewrite repeat_length.
  destruct (parse_levels E lv (Z.to_nat cnt) 0) as [[fs ok]|] eqn:Hp; [|discriminate].
  destruct ok; [|discriminate]. intros H; injection H as <-.
  exists (Some fs). split; [reflexivity|]. exists cs, cnt, fs. repeat split; auto; lia.
Qed.

Lemma removelast_firstn' {A} (l : list A) : l <> [] -> removelast l = firstn (length l - 1) l.
Proof.
  intros H. destruct (exists_last H) as (l' & x & ->).
  rewrite removelast_last, app_length. cbn. rewrite firstn_app.
  replace (length l' + 1 - 1)%nat with (length l') by lia.
  rewrite Nat.sub_diag, firstn_all. cbn. now rewrite app_nil_r.
Qed.

Lemma parse_header_text_says c0 header c : parse_header_text ofZ E c0 header = Value c ->
  exists m, header_says header m c0 c.
Proof.
  unfold parse_header_text. destruct (len header <? 22) eqn:Hlen; [discriminate|].
  assert (Hsl : slice header 0 (len header - 1) = Some (removelast header)).
  { rewrite slice_some by lia. cbn [skipn Z.to_nat]. f_equal.
    rewrite removelast_firstn'. 2:{ intros ->. cbn in Hlen. discriminate. }
    f_equal. unfold len. lia. }
  rewrite Hsl.
  destruct (split_header E (removelast header)) as [m|] eqn:Hm; [|discriminate].
  intros H.
  apply bind_value in H as (c1 & H1 & H). apply bind_value in H as (c2 & H2 & H).
  apply bind_value in H as (c3 & H3 & H). apply bind_value in H as (c4 & H4 & H).
  apply bind_value in H as (c5 & H5 & H). apply bind_value in H as (c6 & H6 & H7).
  exists m.
  (* identity *)
  assert (Hs2 : slice header 0 2 = Some (firstn 2 header)) by (rewrite slice_some by lia; reflexivity).
  unfold parse_identity in H1. rewrite Hs2 in H1.
  destruct (sscanf_d (section_get m "BY")) as [by_|] eqn:Hby; [|discriminate].
  destruct (slice header 2 8) as [d1|] eqn:Hd1; [|discriminate].
  destruct (slice header 13 17) as [d2|] eqn:Hd2; [|discriminate].
  destruct (time_parse (d1 ++ d2)) as [t|] eqn:Ht; [|discriminate].
  injection H1 as <-.
  (* dimensions, level *)
  apply parse_dimensions_says in H4 as (Hdims & E1 & E2 & E3 & E4 & E5 & E6 & E7 & E8 & E9).
  apply parse_level_says in H6 as (lv & -> & Hlv).
  unfold parse_forecast in H2. unfold parse_interval in H3. unfold parse_precision in H5. unfold parse_version in H7.
  assert (Q2 : exists f, c2 = set_forecast (set_capture (set_data_length (set_unit (set_product c0 (firstn 2 header)) (lookup_unit (firstn 2 header))) (int_wrap (by_ - len header))) t) f /\
     match lookup m (bs "VV") with
                | None => f = t
                | Some vv => exists min, sscanf_d vv = Some min /\ f = t + minutes_dur min
                end).
  { destruct (lookup m (bs "VV")) as [vv|]; [destruct (sscanf_d vv) as [min|]|]; try discriminate;
    injection H2 as <-; eexists; split; try reflexivity. exists min; auto. }
  destruct Q2 as (f & -> & Hf).
  assert (Q3 : exists i, c3 = set_interval (set_forecast (set_capture (set_data_length (set_unit (set_product c0 (firstn 2 header)) (lookup_unit (firstn 2 header))) (int_wrap (by_ - len header))) t) f) i /\
      match lookup m (bs "INT") with
                | None => i = c_interval c0
                | Some v => exists min, sscanf_d v = Some min /\
                    i = if is_W (firstn 2 header) then int_wrap (minutes_dur min * 10) else minutes_dur min
                end).
  { destruct (lookup m (bs "INT")) as [vv|]; [destruct (sscanf_d vv) as [min|]|]; try discriminate;
    injection H3 as <-; eexists; split; try reflexivity. exists min; auto. }
  destruct Q3 as (i & -> & Hi).
  assert (Q5 : exists p, c5 = set_precision c4 p /\
      match lookup m (bs "E") with
                 | None => p = c_precision c4
                 | Some v => sscanf_d v = Some p
                 end).
  { destruct (lookup m (bs "E")) as [vv|]; [destruct (sscanf_d vv) as [p|] eqn:Hp|]; try discriminate;
    injection H5 as <-; [exists p; auto|exists (c_precision c4); split; [destruct c4; reflexivity|reflexivity]]. }
  destruct Q5 as (p & -> & Hp).
  assert (Q7 : exists v, c = set_format (set_level (set_precision c4 p) lv) v /\
      match lookup m (bs "VS") with
              | None => v = c_format c4
              | Some s => sscanf_d s = Some v
              end).
  { destruct (lookup m (bs "VS")) as [vv|]; [destruct (sscanf_d vv) as [v|] eqn:Hv|]; try discriminate;
    injection H7 as <-; [exists v; auto|exists (c_format c4); split; [destruct c4; reflexivity|reflexivity]]. }
  destruct Q7 as (v & -> & Hv).
  cbn in E1, E2, E3, E4, E5, E6, E7, E8, E9, Hdims, Hlv.
  constructor; cbn.
  - lia.
  - assumption.
  - assumption.
  - assumption.
  - exists by_. auto.
  - exists d1, d2. rewrite E4. auto.
  - rewrite E5, E4. exact Hf.
  - rewrite E6, E1. exact Hi.
  - rewrite E1. exact Hdims.
  - destruct (lookup m (bs "E")); congruence.
  - destruct (lookup m (bs "LV")); [exact Hlv|congruence].
  - destruct (lookup m (bs "VS")); congruence.
Qed.

(** The error values of the header parser. *)
Lemma parse_header_text_errors c0 header e c : parse_header_text ofZ E c0 header = Failure e c -> e <> ErrUnknownUnit.
Proof.
  unfold parse_header_text. destruct (len header <? 22); [congruence|].
  destruct (slice header _ _) as [text|]; [|discriminate].
  destruct (split_header E text) as [m|]; [|discriminate].
  assert (Hb : forall {A B} (x : outcome T A) (f : A -> outcome T B) e c, bind x f = Failure e c ->
    (x = Failure e c \/ exists a, x = Value a /\ f a = Failure e c)).
  { intros A B x f e0 c1. destruct x; cbn; intros H; try discriminate; eauto. left; congruence. }
  intros H.
  apply Hb in H as [H|(c1 & _ & H)].
  { unfold parse_identity in H. destruct (slice header 0 2); [|discriminate]. destruct (sscanf_d _); [|congruence].
    destruct (slice header 2 8); [|discriminate]. destruct (slice header 13 17); [|discriminate].
    destruct (time_parse _); congruence. }
  apply Hb in H as [H|(c2 & _ & H)].
  { unfold parse_forecast in H. destruct (lookup m (bs "VV")); [|congruence]. destruct (sscanf_d _); congruence. }
  apply Hb in H as [H|(c3 & _ & H)].
  { unfold parse_interval in H. destruct (lookup m (bs "INT")); [|congruence]. destruct (sscanf_d _); congruence. }
  apply Hb in H as [H|(c4 & _ & H)].
  { unfold parse_dimensions in H. destruct (lookup m (bs "GP")).
    { destruct (sscanf _ _) as [vs ok]. destruct ok; congruence. }
    destruct (lookup m (bs "BG")).
    { destruct (sscanf _ _) as [vs ok]. destruct ok; congruence. }
    destruct (lookup dimension_catalog _); congruence. }
  apply Hb in H as [H|(c5 & _ & H)].
  { unfold parse_precision in H. destruct (lookup m (bs "E")); [|congruence]. destruct (sscanf_d _); congruence. }
  apply Hb in H as [H|(c6 & _ & H)].
  { unfold parse_level in H. destruct (lookup m (bs "LV")) as [lv|]; [|congruence]. destruct (len lv <? 2); [congruence|].
    destruct (slice lv 0 2); [|congruence]. destruct (sscanf_d _); [|congruence]. destruct (negb _); [congruence|].
    destruct (make _ _ _); [|congruence]. destruct (parse_levels _ _ _ _) as [[fs ok]|]; [|congruence]. destruct ok; congruence. }
  unfold parse_version in H. destruct (lookup m (bs "VS")); [|congruence]. destruct (sscanf_d _); congruence.
Qed.

Lemma dims_of_ok m p px py dx dy : dims_of m p px py dx dy ->
  (px = dx /\ py = dy) \/ (px = 200 /\ dx = 200 /\ dy = 200 /\ (py = 224 \/ py = 2400)).
Proof.
  intros [dim H1 H2 -> ->|dim H1 H2 H3 -> ->|v H1 H2 H3 -> -> -> ->]; auto.
  right. apply catalog_dims in H3. tauto.
Qed.
End Facts.
