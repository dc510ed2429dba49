(** C44: the command line tool. *)
From Coq Require Import Lia.
From Verif Require Import SpecOverlay GoBase GoFloat Catalog Composite Header Data Projection Radolan Vis Png
  Spec BaseFacts CompositeFacts ApiFacts PropFile PropImage.
From Coq Require String. Import String.StringSyntax.
Local Open Scope Z_scope.

Local Opaque draw_mesh draw_borders mesh_points frange color_fn image_of new_composite fl flit.

Section Tool.
Variable M : mathlib.
Variable log : f64 -> f64.
Variable K : convs.
Variable E : goenv.
Variable border : list (f64 * f64).
Notation A := (arith64 M).
Notation main := (main M log K E border).
Notation convert := (convert M log K E border).

(** The composite is read without error. *)
Definition reads (w : world) (inp : list byte) (c : composite f64) : Prop :=
  exists bytes, w_input w inp = Some bytes /\ new_composite A E bytes = Value c.

(** One of the points is drawn on the pixel. *)
Definition drawn_at (c : composite f64) (points : list (f64 * f64)) (x y : Z) : Prop :=
  exists n e, In (n, e) points /\ to_int K (fst (project A c n e)) = x /\ to_int K (snd (project A c n e)) = y.

Inductive chosen_cm : unit_t -> Z -> colormap -> Prop :=
| cm_short i : i <= 3600 * 10 ^ 9 -> chosen_cm Unit_mm i (CM_heat_log (fl 100))
| cm_day i : 3600 * 10 ^ 9 < i < 7 * 24 * 3600 * 10 ^ 9 -> chosen_cm Unit_mm i (CM_heat_log (fl 200))
| cm_week i : 7 * 24 * 3600 * 10 ^ 9 <= i -> chosen_cm Unit_mm i (CM_heat_log (fl 400))
| cm_dbz i : chosen_cm Unit_dBZ i CM_reflectivity
| cm_km i : chosen_cm Unit_km i CM_gray_km
| cm_mps i : chosen_cm Unit_mps i CM_radial.

Lemma select_chosen u i cm : select_colormap u i = Some cm <-> chosen_cm u i cm.
Proof.
  unfold select_colormap, hour. split.
  - destruct u; cbv zeta; intros H; try discriminate.
    + destruct (3600 * 1000000000 * 24 * 7 <=? i) eqn:H7;
        [assert (cm = CM_heat_log (fl 400)) by congruence; subst cm; apply cm_week; lia|].
      destruct (i <=? 3600 * 1000000000) eqn:H1.
      * assert (cm = CM_heat_log (fl 100)) by congruence; subst cm; apply cm_short; lia.
      * assert (cm = CM_heat_log (fl 200)) by congruence; subst cm; apply cm_day; lia.
    + assert (cm = CM_reflectivity) by congruence; subst cm; apply cm_dbz.
    + assert (cm = CM_gray_km) by congruence; subst cm; apply cm_km.
    + assert (cm = CM_radial) by congruence; subst cm; apply cm_mps.
  - intros [j H|j H|j H|j|j|j]; try reflexivity.
    + replace (3600 * 1000000000 * 24 * 7 <=? j) with false by lia. replace (j <=? 3600 * 1000000000) with true by lia. reflexivity.
    + replace (3600 * 1000000000 * 24 * 7 <=? j) with false by lia. replace (j <=? 3600 * 1000000000) with false by lia. reflexivity.
    + replace (3600 * 1000000000 * 24 * 7 <=? j) with true by lia. reflexivity.
Qed.

Lemma chosen_cm_fun u i c d : chosen_cm u i c -> chosen_cm u i d -> c = d.
Proof. rewrite <- !select_chosen. congruence. Qed.

(** The colour function (of package vis) by unit and interval: precipitation on a
    logarithmic heat map from 0.1 mm to 100 mm (up to an hour), 200 mm or 400 mm
    (from a week), reflectivity on a heat map from 1 to 75 dBZ, echo tops in
    grays from 0 to 15 km, radial velocity from -31.5 to 31.5 m/s. *)
Inductive chosen : unit_t -> Z -> (f64 -> rgba) -> Prop :=
| chosen_short i : i <= 3600 * 10 ^ 9 -> chosen Unit_mm i (heatmap K (flit 1 1) (fl 100) log)
| chosen_day i : 3600 * 10 ^ 9 < i < 7 * 24 * 3600 * 10 ^ 9 -> chosen Unit_mm i (heatmap K (flit 1 1) (fl 200) log)
| chosen_week i : 7 * 24 * 3600 * 10 ^ 9 <= i -> chosen Unit_mm i (heatmap K (flit 1 1) (fl 400) log)
| chosen_dbz i : chosen Unit_dBZ i (heatmap K (fl 1) (fl 75) Id)
| chosen_km i : chosen Unit_km i (graymap K (fl 0) (fl 15) Id)
| chosen_mps i : chosen Unit_mps i (radialmap K (flit (-315) 1) (flit 315 1) log).
Local Transparent color_fn.
Lemma chosen_iff u i f : chosen u i f <-> exists cm, chosen_cm u i cm /\ f = color_fn K log cm.
Proof.
  split.
  - intros [j H|j H|j H|j|j|j]; eexists; (split; [constructor; exact H || constructor|reflexivity]).
  - intros (cm & [j H|j H|j H|j|j|j] & ->); constructor; exact H.
Qed.
Local Opaque color_fn.
Lemma chosen_fun u i f g : chosen u i f -> chosen u i g -> f = g.
Proof. rewrite !chosen_iff. intros (a & Ha & ->) (b & Hb & ->). f_equal. exact (chosen_cm_fun u i a b Ha Hb). Qed.

Lemma value_unit bytes c : new_composite A E bytes = Value c -> c_unit c <> Unit_unknown.
Proof.
  intros H. assert (Hp : parsed A E bytes c) by now left.
  destruct (parsed_inv A E bytes c Hp) as (text & data & _ & _ & _ & _ & _ & Hf & _).
  destruct (C28_unit A E bytes text data c Hp Hf) as [_ Hu]. destruct (lookup unit_catalog (firstn 2 text)).
  - destruct Hu as (-> & Hn & _). exact Hn.
  - destruct Hu as (_ & Hu). congruence.
Qed.

(** * Usage *)
Theorem C44_usage w args : (length args < 3)%nat -> main w args = [EvUsage].
Proof. destruct args as [|a [|b [|c t]]]; cbn; intros H; try reflexivity; lia. Qed.
Theorem C44_usage_only w args : In EvUsage (main w args) -> (length args < 3)%nat.
Proof.
  destruct args as [|a [|b [|c t]]]; cbn [length]; intros H; try lia. exfalso.
  cbn in H. unfold Png.convert in H. destruct H as [H|H]; [discriminate|].
  destruct (w_input w b) as [bytes|]; [|cbn in H; intuition discriminate].
  destruct (new_composite A E bytes) as [comp| |]; [|cbn in H; intuition discriminate|cbn in H; intuition discriminate].
  destruct H as [H|H]; [discriminate|]. destruct (select_colormap _ _); [|cbn in H; intuition discriminate].
  destruct (image_of _ _ _ _); [|cbn in H; intuition discriminate].
  match type of H with context [if ?b then ([EvGrid _ _], _) else _] => destruct b end;
    destruct (w_create w), (w_encode w); cbn in H; intuition discriminate.
Qed.

(** * The colour function is always defined *)
Theorem C44_color_defined w inp c : reads w inp c -> exists f, chosen (c_unit c) (c_interval c) f /\ forall g, chosen (c_unit c) (c_interval c) g -> g = f.
Proof.
  intros (bytes & _ & H). pose proof (value_unit bytes c H) as Hu.
  destruct (select_colormap (c_unit c) (c_interval c)) as [cm|] eqn:Hs.
  - exists (color_fn K log cm). apply select_chosen in Hs.
    assert (Hc : chosen (c_unit c) (c_interval c) (color_fn K log cm)) by (apply chosen_iff; eauto).
    split; [exact Hc|]. intros d Hd. now apply (chosen_fun (c_unit c) (c_interval c)).
  - exfalso. apply Hu. clear Hu. revert Hs. cbn [num arith64].
    destruct (c_unit c); intros Hs; try discriminate. reflexivity.
Qed.

(** * Overlay *)
Lemma img_set_any i x y col : same_bounds (img_set i x y col) i /\
  forall x' y', in_bounds i x' y' -> i_pix (img_set i x y col) x' y' = if (x' =? x) && (y' =? y) then col else i_pix i x' y'.
Proof.
  unfold img_set. destruct (in_image i x y) eqn:H.
  - split; [repeat split|]. reflexivity.
  - split; [repeat split|]. intros x' y' Hb. unfold in_image in H. unfold in_bounds in Hb.
    destruct ((x' =? x) && (y' =? y)) eqn:Heq; [|reflexivity]. lia.
Qed.

Lemma overlay c col points : forall i,
  let j := fold_left (fun i p => let '(x, y) := project A c (fst p) (snd p) in img_set i (to_int K x) (to_int K y) col) points i in
  same_bounds j i /\ forall x y, in_bounds i x y ->
    (drawn_at c points x y -> i_pix j x y = col) /\ (~ drawn_at c points x y -> i_pix j x y = i_pix i x y).
Proof.
  induction points as [|[n e] points IH]; intros i.
  - cbn. split; [repeat split|]. intros x y Hb. split; [|reflexivity]. intros (n & e & [] & _).
  - cbn [fold_left fst snd]. destruct (project A c n e) as [px py] eqn:Hp.
    destruct (img_set_any i (to_int K px) (to_int K py) col) as [S1 P1].
    set (i1 := img_set i (to_int K px) (to_int K py) col) in *.
    destruct (IH i1) as [S2 P2]. split. { unfold same_bounds in *. lia. }
    intros x y Hb. assert (Hb1 : in_bounds i1 x y) by (unfold in_bounds, same_bounds in *; lia).
    destruct (P2 x y Hb1) as [D1 D2]. specialize (P1 x y Hb).
    assert (Dec : drawn_at c points x y \/ ~ drawn_at c points x y).
    { assert (Hd : {drawn_at c points x y} + {~ drawn_at c points x y}).
      { destruct (Exists_dec (fun p => to_int K (fst (project A c (fst p) (snd p))) = x /\ to_int K (snd (project A c (fst p) (snd p))) = y) points) as [Hex|Hno].
        - intros p. destruct (Z.eq_dec (to_int K (fst (project A c (fst p) (snd p)))) x), (Z.eq_dec (to_int K (snd (project A c (fst p) (snd p)))) y); auto; right; tauto.
        - left. apply Exists_exists in Hex. destruct Hex as ([n' e'] & H1 & H2). exists n', e'. auto.
        - right. intros (n' & e' & H1 & H2). apply Hno. apply Exists_exists. exists (n', e'). auto. }
      destruct Hd; auto. }
    split.
    + intros (n' & e' & [Hin|Hin] & H1 & H2).
      * injection Hin as <- <-. rewrite Hp in H1, H2. cbn [fst snd] in H1, H2.
        destruct Dec as [Hd|Hd]; [auto|]. rewrite (D2 Hd), P1, H1, H2, !Z.eqb_refl. reflexivity.
      * apply D1. exists n', e'. auto.
    + intros Hn. assert (Hd : ~ drawn_at c points x y).
      { intros (n' & e' & H1 & H2). apply Hn. exists n', e'. split; [now right|assumption]. }
      rewrite (D2 Hd), P1. destruct ((x =? to_int K px) && (y =? to_int K py)) eqn:Heq; [|reflexivity].
      exfalso. apply Hn. exists n, e. rewrite Hp. cbn [fst snd]. split; [now left|lia].
Qed.

Local Transparent draw_mesh draw_borders.
Lemma overlay_borders c i : same_bounds (draw_borders M K border c i) i /\ forall x y, in_bounds i x y ->
  (drawn_at c border x y -> i_pix (draw_borders M K border c i) x y = yellow) /\
  (~ drawn_at c border x y -> i_pix (draw_borders M K border c i) x y = i_pix i x y).
Proof. unfold draw_borders. apply (overlay c border_color border i). Qed.
Lemma overlay_mesh c i : same_bounds (draw_mesh M K c i) i /\ forall x y, in_bounds i x y ->
  (drawn_at c (mesh_points K) x y -> i_pix (draw_mesh M K c i) x y = bright_green) /\
  (~ drawn_at c (mesh_points K) x y -> i_pix (draw_mesh M K c i) x y = i_pix i x y).
Proof. unfold draw_mesh. generalize (mesh_points K). intros l. apply (overlay c mesh_color l i). Qed.
Local Opaque draw_mesh draw_borders.

(** The picture the tool has to write for a composite. *)
Definition finished (c : composite f64) (i : image) : Prop :=
  (i_x0 i = 0 /\ i_y0 i = 0 /\ i_x1 i = c_dx c /\ i_y1 i = c_dy c) /\
  forall x y, 0 <= x < c_dx c -> 0 <= y < c_dy c ->
    (c_has_projection c = true -> drawn_at c (mesh_points K) x y -> i_pix i x y = bright_green) /\
    (c_has_projection c = true -> ~ drawn_at c (mesh_points K) x y -> drawn_at c border x y -> i_pix i x y = yellow) /\
    (c_has_projection c = false \/ (~ drawn_at c (mesh_points K) x y /\ ~ drawn_at c border x y) ->
       exists f v, chosen (c_unit c) (c_interval c) f /\ at_ A c x y = Some v /\ i_pix i x y = f (f64_of_f32 v)).

(** * What a run does *)
Theorem C44_no_input w inp out : w_input w inp = None -> convert w inp out = [EvOpen inp; EvFatal].
Proof. intros H. unfold Png.convert. rewrite H. reflexivity. Qed.

Theorem C44_bad_input w inp out bytes e c : w_input w inp = Some bytes -> new_composite A E bytes = Failure e c ->
  convert w inp out = [EvOpen inp; EvFatal].
Proof. intros H H'. unfold Png.convert. rewrite H, H'. reflexivity. Qed.

Theorem C44_run w inp out c : reads w inp c -> c_dx c * c_dy c * 4 <= 2 ^ 48 ->
  exists i name, finished c i /\ unit_string (unit_code (c_unit c)) = Some name /\
  convert w inp out =
    EvOpen inp :: EvInfo (c_product c) (Some name) (c_forecast c) ::
    (if c_has_projection c then [EvGrid (f64_mul (f64_of_int (c_dx c)) (c_rx c)) (f64_mul (f64_of_int (c_dy c)) (c_ry c))] else []) ++ EvCreate out ::
    (if w_create w then EvWritePng i :: (if w_encode w then [] else [EvFatal]) else [EvFatal]).
Proof.
  intros Hr Ha. destruct (C44_color_defined w inp c Hr) as (f & Hch & _). destruct Hr as (bytes & Hw & Hc).
  pose proof Hch as Hcm. apply chosen_iff in Hcm. destruct Hcm as (cm & Hcm & Ef).
  assert (Hp : parsed A E bytes c) by now left.
  assert (Ho : obtainable A E c) by (left; exists bytes; now left).
  destruct (C03_shape A E bytes c Hp) as ((_ & _ & Dx & Dy & Dz) & _).
  destruct (C40_image A E c (color_fn K log cm) 0 Ho) as (i & pixel & Hi & (Hb & Hpix) & Hpaint).
  { rewrite !Z.abs_eq by lia. exact Ha. }
  destruct (C45_unit_names A E c Ho) as (name & Hname & _).
  cbn [num arith64] in *.
  assert (Hd : forall x y, 0 <= x < c_dx c -> 0 <= y < c_dy c ->
    exists v, at_ A c x y = Some v /\ i_pix i x y = color_fn K log cm (f64_of_f32 v)).
  { intros x y Hx Hy. destruct (Hpaint x y) as [Hin _]. destruct Hin as (v & Hv & Hcol); [unfold inside; cbn [num arith64] in *; lia|].
    exists v. split; [exact Hv|]. now rewrite Hpix. }
  unfold Png.convert. rewrite Hw, Hc. cbn [num arith64] in *.
  rewrite Hname. rewrite (proj2 (select_chosen _ _ _) Hcm), Hi.
  destruct (c_has_projection c) eqn:Hproj.
  - set (j1 := draw_borders M K border c i). set (j2 := draw_mesh M K c j1).
    destruct (overlay_borders c i) as [S1 P1]. fold j1 in S1, P1.
    destruct (overlay_mesh c j1) as [S2 P2]. fold j2 in S2, P2.
    exists j2, name. split; [|split; reflexivity].
    assert (B : i_x0 i = 0 /\ i_y0 i = 0 /\ i_x1 i = c_dx c /\ i_y1 i = c_dy c) by lia.
    split. { unfold same_bounds in *. lia. }
    intros x y Hx Hy.
    assert (B1 : in_bounds i x y) by (unfold in_bounds; lia).
    assert (B2 : in_bounds j1 x y) by (unfold in_bounds, same_bounds in *; lia).
    destruct (P1 x y B1) as [X1 X2]. destruct (P2 x y B2) as [Y1 Y2].
    split; [auto|]. split. { intros _ Hn Hbd. rewrite (Y2 Hn). auto. }
    intros [Hf|[Hn1 Hn2]]; [congruence|]. destruct (Hd x y Hx Hy) as (v & Hv & Hcol).
    exists f, v. rewrite (Y2 Hn1), (X2 Hn2), Ef. rewrite Ef in Hch. auto.
  - exists i, name. split; [|split; reflexivity]. split. { lia. }
    intros x y Hx Hy. split; [congruence|]. split; [congruence|]. intros _.
    destruct (Hd x y Hx Hy) as (v & Hv & Hcol). exists f, v. rewrite Ef. rewrite Ef in Hch. auto.
Qed.

(** The output file is touched only after the input was read without error. *)
Theorem C44_create_only w args out : In (EvCreate out) (main w args) ->
  exists name inp rest c, args = name :: inp :: out :: rest /\ reads w inp c.
Proof.
  destruct args as [|a [|inp [|o t]]]; cbn; intros H; try (destruct H as [H|[]]; discriminate).
  unfold Png.convert in H. destruct H as [H|H]; [discriminate|].
  destruct (w_input w inp) as [bytes|] eqn:Hw; [|cbn in H; intuition discriminate].
  destruct (new_composite A E bytes) as [comp| |] eqn:Hc; [|cbn in H; intuition discriminate|cbn in H; intuition discriminate].
  exists a, inp, t, comp. split; [|exists bytes; auto].
  destruct H as [H|H]; [discriminate|]. destruct (select_colormap _ _); [|cbn in H; intuition discriminate].
  destruct (image_of _ _ _ _); [|cbn in H; intuition discriminate].
  match type of H with context [if ?b then ([EvGrid _ _], _) else _] => destruct b end;
    destruct (w_create w), (w_encode w); cbn in H; intuition congruence.
Qed.

(** The tool crashes only with NewComposite, or on a picture too large. *)
Theorem C44_crash w inp out : In EvPanic (convert w inp out) ->
  exists bytes, w_input w inp = Some bytes /\
    (new_composite A E bytes = Panic \/ exists c, new_composite A E bytes = Value c /\ 2 ^ 48 < c_dx c * c_dy c * 4).
Proof.
  intros H. destruct (w_input w inp) as [bytes|] eqn:Hw.
  - exists bytes. split; [reflexivity|]. destruct (new_composite A E bytes) as [c|e c|] eqn:Hc.
    + right. exists c. split; [reflexivity|]. destruct (Z_lt_le_dec (2 ^ 48) (c_dx c * c_dy c * 4)) as [Hl|Hl]; [exact Hl|exfalso].
      destruct (C44_run w inp out c) as (i & name & _ & _ & Hr); [exists bytes; auto|exact Hl|]. rewrite Hr in H.
      match type of H with context [if ?b then [EvGrid _ _] else _] => destruct b end;
        destruct (w_create w), (w_encode w); cbn in H; intuition discriminate.
    + exfalso. rewrite (C44_bad_input w inp out bytes e c Hw Hc) in H. cbn in H. intuition discriminate.
    + left. reflexivity.
  - exfalso. rewrite (C44_no_input w inp out Hw) in H. cbn in H. intuition discriminate.
Qed.
End Tool.

(** * The mesh loops end *)
Local Transparent frange fl flit mesh_points new_composite.
Lemma frange_stable n : forall v hi, (length (frange n v hi) < n)%nat -> forall m, (n <= m)%nat -> frange m v hi = frange n v hi.
Proof.
  induction n as [|n IH]; intros v hi Hl m Hm; [lia|]. destruct m as [|m]; [lia|]. cbn [frange] in *.
  destruct (f_lt v hi); [|reflexivity]. f_equal. cbn [length] in Hl. apply IH; lia.
Qed.
Theorem C44_mesh_ends m : (200 <= m)%nat ->
  frange m (fl 46) (fl 55) = frange 200 (fl 46) (fl 55) /\ frange m (fl 1) (fl 16) = frange 200 (fl 1) (fl 16) /\
  length (frange m (fl 46) (fl 55)) = 90%nat /\ length (frange m (fl 1) (fl 16)) = 151%nat.
Proof.
  intros Hm.
  assert (E1 : frange m (fl 46) (fl 55) = frange 200 (fl 46) (fl 55)) by (apply frange_stable; [vm_compute; lia|exact Hm]).
  assert (E2 : frange m (fl 1) (fl 16) = frange 200 (fl 1) (fl 16)) by (apply frange_stable; [vm_compute; lia|exact Hm]).
  rewrite E1, E2. repeat split; vm_compute; reflexivity.
Qed.

(** The number x is within 2^-40 of d tenths. *)
Definition tenths (x : f64) (d : Z) : Prop :=
  match x with
  | S754_finite false m e => -60 <= e /\ Z.abs (10 * Z.pos m * 2 ^ (e + 60) - d * 2 ^ 60) <= 2 ^ 23
  | _ => False
  end.
Definition tenthsb (x : f64) (d : Z) : bool :=
  match x with
  | S754_finite false m e => (-60 <=? e) && (Z.abs (10 * Z.pos m * 2 ^ (e + 60) - d * 2 ^ 60) <=? 2 ^ 23)
  | _ => false
  end.
Fixpoint all_tenths (l : list f64) (d : list Z) : bool :=
  match l, d with
  | [], [] => true
  | x :: l, k :: d => tenthsb x k && all_tenths l d
  | _, _ => false
  end.
Lemma all_tenths_spec l : forall d, all_tenths l d = true -> Forall2 tenths l d.
Proof.
  induction l as [|x l IH]; intros [|k d]; cbn; intros H; try discriminate; [constructor|].
  apply andb_prop in H. destruct H as [H1 H2]. constructor; [|auto]. clear - H1. unfold tenthsb in H1. unfold tenths.
  destruct x as [| | |[] m e]; try discriminate. apply andb_prop in H1. lia.
Qed.

(** The mesh: the points of the 0.1 degree raster on a parallel or a meridian.
    The parallels are the whole degrees 46 to 54.  The meridians are the
    degrees 1, 2, 3, 4, and then, as the loop variable falls behind, not 5 to 15
    but 5.1 to 15.1. *)
Theorem C44_mesh K : exists lats lons parallels meridians,
  Forall2 tenths lats (map (fun k => 460 + Z.of_nat k) (seq 0 90)) /\
  Forall2 tenths lons (map (fun k => 10 + Z.of_nat k) (seq 0 151)) /\
  Forall2 tenths parallels [460; 470; 480; 490; 500; 510; 520; 530; 540] /\
  Forall2 tenths meridians [10; 20; 30; 40; 51; 61; 71; 81; 91; 101; 111; 121; 131; 141; 151] /\
  forall n e, In (n, e) (mesh_points K) <-> In n lats /\ In e lons /\ (In n parallels \/ In e meridians).
Proof.
  exists (frange 200 (fl 46) (fl 55)), (frange 200 (fl 1) (fl 16)),
    (filter (frac_small K) (frange 200 (fl 46) (fl 55))), (filter (frac_small K) (frange 200 (fl 1) (fl 16))).
  split; [apply all_tenths_spec; vm_compute; reflexivity|].
  split; [apply all_tenths_spec; vm_compute; reflexivity|].
  split; [apply all_tenths_spec; vm_compute; reflexivity|].
  split; [apply all_tenths_spec; vm_compute; reflexivity|].
  intros n e. unfold mesh_points. generalize (frange 200 (fl 46) (fl 55)) (frange 200 (fl 1) (fl 16)). intros la lo.
  rewrite in_flat_map. split.
  - intros (e' & He & H). apply in_map_iff in H. destruct H as (n' & Heq & Hn).
    assert (n' = n) by congruence. assert (e' = e) by congruence. subst n' e'.
    apply filter_In in Hn. destruct Hn as [Hn Hf]. rewrite !filter_In. apply Bool.orb_true_iff in Hf. intuition.
  - rewrite !filter_In. intros (Hn & He & Hf). exists e. split; [exact He|]. apply in_map_iff. exists n. split; [reflexivity|].
    apply filter_In. split; [exact Hn|]. apply Bool.orb_true_iff. intuition.
Qed.

(** * Two runs: a small file without projection, and a national composite with it *)
Definition tool_world (bytes : list byte) : world := mk_world (fun _ => Some bytes) true false.
Definition pg_file := file pg_text (repeat Byte.x0a 460).
Lemma check_reads M log K E bytes dx dy p :
  match new_composite (arith64 M) E bytes with
  | Value c => (c_dx c =? dx) && (c_dy c =? dy) && Bool.eqb (c_has_projection c) p && (unit_code (c_unit c) =? 2)
  | _ => false
  end = true ->
  exists c, reads M E (tool_world bytes) (bs "in") c /\ c_dx c = dx /\ c_dy c = dy /\ c_has_projection c = p /\
    chosen log K (c_unit c) (c_interval c) (heatmap K (fl 1) (fl 75) Id).
Proof.
  destruct (new_composite (arith64 M) E bytes) as [c| |] eqn:Hc; intros H; try discriminate.
  apply andb_prop in H. destruct H as [H H4]. apply andb_prop in H. destruct H as [H H3]. apply andb_prop in H. destruct H as [H1 H2].
  exists c. split; [exists bytes; auto|]. split; [now apply Z.eqb_eq|]. split; [now apply Z.eqb_eq|].
  split; [now apply Bool.eqb_prop|]. cbn [num arith64] in *. revert H4. destruct (c_unit c); cbn [unit_code]; intros H4; try discriminate. constructor.
Qed.
Example C44_case M log K E : (exists c, reads M E (tool_world (file one_byte_text one_byte_data)) (bs "in") c /\
    c_dx c = 3 /\ c_dy c = 2 /\ c_has_projection c = false /\ chosen log K (c_unit c) (c_interval c) (heatmap K (fl 1) (fl 75) Id)) /\
  (exists c, reads M E (tool_world pg_file) (bs "in") c /\
    c_dx c = 460 /\ c_dy c = 460 /\ c_has_projection c = true /\ chosen log K (c_unit c) (c_interval c) (heatmap K (fl 1) (fl 75) Id)).
Proof. split; apply check_reads; vm_compute; reflexivity. Qed.
Print Assumptions C44_run.
Print Assumptions C44_mesh_ends.
Print Assumptions C44_mesh.
