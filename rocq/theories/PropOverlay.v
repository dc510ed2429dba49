(** C57: the borders and the mesh are drawn where they are; the printed extent. *)
From Coq Require Import Reals Lra Lia Psatz.
From Flocq Require Import Core Relative BinarySingleNaN.
From Verif Require Import SpecOverlay GoBase GoFloat Catalog Composite Header Data Projection Radolan Vis Png SpecReal SpecProj ExactReal SpecAccuracy SpecKm BaseFacts
  CompositeFacts Spec ApiFacts FloatFacts PropFloat PropGrid PropReal PropProjFloat VisFacts AccFacts PropAccuracy GridNumbers PropLookup PropKm PropTool.
Local Open Scope R_scope.

Lemma trunc_near k t x : Rabs (x - t) <= IZR k / 10 ^ 9 -> (0 <= Ztrunc x)%Z -> near_pixel k t (Ztrunc x).
Proof.
  intros H H0. apply Rabs_le_inv in H. unfold near_pixel. destruct (Rle_or_lt 0 x) as [Hx|Hx].
  - rewrite Ztrunc_floor in * by assumption. pose proof (Zfloor_lb x). pose proof (Zfloor_ub x).
    destruct (Zfloor x =? 0)%Z eqn:E; [|lra]. apply Z.eqb_eq in E. rewrite E in *. lra.
  - rewrite Ztrunc_ceil in * by lra.
    assert (E : Zceil x = 0%Z) by (apply Z.le_antisymm; [apply Zceil_glb; lra|assumption]).
    pose proof (Zceil_ub x) as U. pose proof (Zceil_lb x) as L. rewrite E in *. cbn [Z.eqb]. lra.
Qed.

Lemma rgba_eq_dec (a b : rgba) : {a = b} + {a <> b}.
Proof. decide equality; apply Z.eq_dec. Qed.

Section Overlay.
Variable M : mathlib.
Variable log : f64 -> f64.
Variable K : convs.
Variable E : goenv.
Variable border : list (f64 * f64).

(** The pixel of a drawn point. *)
Lemma drawn_pixel (c : composite f64) size nw se nwR seR p r :
  accurate_library (powerRZ 2 (-48)) M -> on_float_grid M c size nw se -> documented_corners size (5 <=? c_format c)%Z nwR seR ->
  stands_for p r -> (c_dx c <= 2 ^ 50)%Z -> (c_dy c <= 2 ^ 50)%Z ->
  let q := exact_fraction (c_format c) nwR seR (fst r) (snd r) in
  exists x y, to_int K (fst (project (arith64 M) c (fst p) (snd p))) = Ztrunc x /\
    to_int K (snd (project (arith64 M) c (fst p) (snd p))) = Ztrunc y /\
    Rabs (x - IZR (c_dx c) * fst q) <= IZR (c_dx c) / 10 ^ 9 /\ Rabs (y - IZR (c_dy c) * snd q) <= IZR (c_dy c) / 10 ^ 9.
Proof.
  intros HM Hg Hd (Wn & We & Rn & Re) Bx By q.
  destruct (accuracy_bounded M c size nw se nwR seR _ _ _ _ HM Hg Hd Wn We Rn Re) as (x & y & X1 & Y1 & X2 & Y2 & Q1 & Q2 & _).
  fold q in X2, Y2, Q1, Q2. destruct (resampled_pos _ _ _ _ _ _ Hd (proj1 (proj2 Hg))) as [Px Py]. cbn [num arith64] in *.
  exists x, y. split; [apply to_int_value; [exact X1|]|]. { apply (index_range (c_dx c) (fst q)); [lia|assumption|assumption]. }
  split; [apply to_int_value; [exact Y1|]|]. { apply (index_range (c_dy c) (snd q)); [lia|assumption|assumption]. }
  auto.
Qed.
End Overlay.

Theorem C57_overlay M log K E border w inp out i (c : composite f64) size nw se nwR seR :
  accurate_library (powerRZ 2 (-48)) M -> reads M E w inp c -> In (EvWritePng i) (convert M log K E border w inp out) ->
  on_float_grid M c size nw se -> documented_corners size (5 <=? c_format c)%Z nwR seR -> (c_dx c * c_dy c * 4 <= 2 ^ 48)%Z ->
  let X := fun r => IZR (c_dx c) * fst (exact_fraction (c_format c) nwR seR (fst r) (snd r)) in
  let Y := fun r => IZR (c_dy c) * snd (exact_fraction (c_format c) nwR seR (fst r) (snd r)) in
  forall x y, (0 <= x < c_dx c)%Z -> (0 <= y < c_dy c)%Z ->
  (forall p r, In p (mesh_points K) -> stands_for p r -> pixel_index (c_dx c) (X r) x -> pixel_index (c_dy c) (Y r) y ->
     i_pix i x y = bright_green) /\
  (forall p r, In p border -> stands_for p r -> pixel_index (c_dx c) (X r) x -> pixel_index (c_dy c) (Y r) y ->
     i_pix i x y = yellow \/ i_pix i x y = bright_green) /\
  ((forall p, In p (mesh_points K) \/ In p border -> exists r, stands_for p r /\
      ~ (near_pixel (c_dx c) (X r) x /\ near_pixel (c_dy c) (Y r) y)) ->
   exists f v, chosen log K (c_unit c) (c_interval c) f /\ at_ (arith64 M) c x y = Some v /\ i_pix i x y = f (f64_of_f32 v)).
Proof.
  intros HM Hr Hi Hg Hd Ha X Y x y Hx Hy.
  destruct (C44_run M log K E border w inp out c Hr Ha) as (i' & name & (_ & Hf) & _ & Hc). rewrite Hc in Hi.
  assert (i' = i) as ->.
  { revert Hi. clear. intros [Hi|[Hi|Hi]]; [discriminate|discriminate|]. apply in_app_or in Hi.
    destruct Hi as [Hi|[Hi|Hi]]; [destruct (c_has_projection c); [destruct Hi as [Hi|[]]; discriminate|destruct Hi]|discriminate|].
    destruct (w_create w); [|destruct Hi as [Hi|[]]; discriminate]. destruct Hi as [Hi|Hi]; [congruence|].
    destruct (w_encode w); [destruct Hi|destruct Hi as [Hi|[]]; discriminate]. }
  clear Hi Hc. destruct (resampled_pos _ _ _ _ _ _ Hd (proj1 (proj2 Hg))) as [Px Py]. cbn [num arith64] in *.
  assert (Bx : (c_dx c <= 2 ^ 50)%Z) by nia. assert (By : (c_dy c <= 2 ^ 50)%Z) by nia.
  assert (Hp : c_has_projection c = true).
  { destruct (float_grid M c size nw se Hg) as (b & ch & _ & -> & Hw & _). apply (fixed_raw M (fst nw) (snd nw) (fst se) (snd se) ch b Hw). }
  destruct (Hf x y Hx Hy) as (F1 & F2 & F3). specialize (F1 Hp). specialize (F2 Hp).
  assert (In_pixel : forall points p r, In p points -> stands_for p r -> pixel_index (c_dx c) (X r) x -> pixel_index (c_dy c) (Y r) y ->
    drawn_at M K c points x y).
  { intros points [n e] r Hin Hs Hpx Hpy. destruct (drawn_pixel M K c size nw se nwR seR _ _ HM Hg Hd Hs Bx By) as (vx & vy & X1 & Y1 & X2 & Y2).
    exists n, e. split; [exact Hin|]. cbn [fst snd] in X1, Y1. rewrite X1, Y1. split; [eapply trunc_index|eapply trunc_index]; eassumption. }
  assert (Near : forall points p r, In p points -> stands_for p r -> 
    to_int K (fst (project (arith64 M) c (fst p) (snd p))) = x -> to_int K (snd (project (arith64 M) c (fst p) (snd p))) = y ->
    near_pixel (c_dx c) (X r) x /\ near_pixel (c_dy c) (Y r) y).
  { intros points p r Hin Hs H1 H2. destruct (drawn_pixel M K c size nw se nwR seR _ _ HM Hg Hd Hs Bx By) as (vx & vy & X1 & Y1 & X2 & Y2).
    rewrite X1 in H1. rewrite Y1 in H2. subst x y. split; apply trunc_near; try assumption; lia. }
  split; [|split].
  - intros p r H1 H2 H3 H4. apply F1. eauto.
  - intros p r H1 H2 H3 H4. pose proof (In_pixel _ _ _ H1 H2 H3 H4) as D.
    destruct (rgba_eq_dec (i_pix i x y) bright_green) as [Em|Em]; [auto|left]. apply F2; [|exact D]. intros Hm. apply Em. auto.
  - intros H. apply F3. right. split; intros (n & e & Hin & H1 & H2).
    + destruct (H (n, e) (or_introl Hin)) as (r & Hs & Hn). apply Hn. now apply (Near _ (n, e) r Hin).
    + destruct (H (n, e) (or_intror Hin)) as (r & Hs & Hn). apply Hn. now apply (Near _ (n, e) r Hin).
Qed.

(** The extent printed by the tool is the documented one, up to 11 m (it is
    printed with one decimal of a km). *)
Theorem C57_extent M log K E border w inp out width height (c : composite f64) size origin :
  accurate_library (powerRZ 2 (-48)) M -> reads M E w inp c ->
  In (EvGrid width height) (convert M log K E border w inp out) ->
  resampled (c_dx c) (c_dy c) (fst size) (snd size) -> located size (5 <=? c_format c)%Z origin ->
  exists x y, is_value width x /\ is_value height y /\
    Rabs (x - IZR (fst size)) <= 0.011 /\ Rabs (y - IZR (snd size)) <= 0.011.
Proof.
  intros HM Hr Hi Hs Hl.
  assert (Hw : width = f64_mul (f64_of_int (c_dx c)) (c_rx c) /\ height = f64_mul (f64_of_int (c_dy c)) (c_ry c)).
  { destruct Hr as (bytes & H1 & H2). unfold convert in Hi. rewrite H1, H2 in Hi. destruct Hi as [Hi|[Hi|Hi]]; [discriminate|discriminate|].
    destruct (select_colormap _ _); [|destruct Hi as [Hi|[]]; discriminate].
    destruct (image_of _ _ _ _); [|destruct Hi as [Hi|[]]; discriminate].
    match type of Hi with context [if ?b then ([EvGrid _ _], _) else _] => destruct b end.
    - destruct Hi as [Hi|[Hi|Hi]]; [injection Hi as <- <-; auto|discriminate|].
      destruct (w_create w); [|destruct Hi as [Hi|[]]; discriminate]. destruct Hi as [Hi|Hi]; [discriminate|].
      destruct (w_encode w); [destruct Hi|destruct Hi as [Hi|[]]; discriminate].
    - destruct Hi as [Hi|Hi]; [discriminate|]. destruct (w_create w); [|destruct Hi as [Hi|[]]; discriminate]. destruct Hi as [Hi|Hi]; [discriminate|].
      destruct (w_encode w); [destruct Hi|destruct Hi as [Hi|[]]; discriminate]. }
  destruct Hw as [-> ->].
  assert (Hc : @calibrated (arith64 M) c). { left. destruct Hr as (bytes & _ & H2). exists E, bytes. now left. }
  destruct (C56_resolution M c size origin HM Hc Hs Hl) as (rx & ry & X & Y & Dx & Dy).
  destruct (corners_located (c_format c) _ _ _ Hl eq_refl) as (nw & se & nwR & seR & Cf & Cd & _).
  assert (Hg : on_float_grid M c size nw se) by (split; [exact Hc|]; split; [exact Hs|exact Cf]).
  assert (V : valid64 (c_rx c) /\ valid64 (c_ry c)).
  { destruct (float_grid M c size nw se Hg) as (b & ch & _ & Ec & Hb & _ & _ & _ & V1 & V2 & V3 & V4).
    pose proof (fixed_raw M (fst nw) (snd nw) (fst se) (snd se) ch b Hb) as F. cbv zeta in F. rewrite <- Ec in F.
    destruct F as (_ & _ & _ & _ & F5 & F6). cbn [num arith64] in F5, F6 |- *. rewrite F5, F6.
    assert (HM' : accurate_library (16 * u) M).
    { replace (16 * u) with (powerRZ 2 (-48)); [assumption|]. apply (units 48 16); [lia|simpl; lra]. }
    destruct (corner_values _ _ _ _ _ _ Cf Cd) as ((C1 & C2) & (C3 & C4)). destruct (corner_range _ _ _ _ Cd) as (R1 & R2 & R3 & _ & R4 & R5).
    destruct (origin_approx M HM' b _ _ _ _ C1 C2 ltac:(lra) ltac:(lra)) as [A1 A2].
    pose proof A1 as (_ & _ & b1 & _). pose proof A2 as (_ & _ & b2 & _).
    destruct (plane_approx M HM' b _ _ _ _ _ _ _ _ 16000 3000000 32000 6100000 C3 C4 ltac:(lra) ltac:(lra) A1 A2 b1 b2 ltac:(lra) ltac:(lra) ltac:(lra) ltac:(lra)) as ((B1 & _) & (B2 & _) & _).
    split; repeat (apply valid_div || apply valid_sub || apply valid_of_int || assumption). }
  destruct (float_grid M c size nw se Hg) as (_ & _ & _ & _ & _ & _ & _ & Hin & _).
  destruct (resampled_float _ _ _ _ _ _ Cf Hin Hs) as (I1 & I2 & I3 & I4).
  destruct (located_size _ _ _ Hl) as [Gx Gy]. apply Rabs_le_inv in Dx, Dy.
  assert (P : forall k r g n z, valid64 n -> valid64 z -> is_value n k -> is_value z r -> 900 <= g <= 1500 -> - (0.01) <= r * k - g <= 0.01 ->
    exists x, is_value (f64_mul n z) x /\ Rabs (x - g) <= 0.011).
  { intros k r g n z Vn Vz Xn Xz Hgg Hd. pose proof (mul64 _ _ _ _ Vn Vz Xn Xz) as R. exists (rnd64 (k * r)).
    assert (B : Rabs (k * r) <= 1501) by (apply Rabs_le; lra).
    split; [apply (result_value _ _ _ _ R); apply no_overflow; lra|].
    pose proof (rnd_err (k * r)) as Re. pose proof u_upper. pose proof u_small.
    assert ((Rabs (k * r) / 2 + tiny) * u <= 0.001).
    { apply Rle_trans with ((1501 / 2 + tiny) * (2.3 / 10 ^ 16)); [|unfold tiny; lra].
      apply Rmult_le_compat; [unfold tiny; pose proof (Rabs_pos (k * r)); lra|lra|lra|lra]. }
    assert (Re' : Rabs (rnd64 (k * r) - k * r) <= 0.001) by lra. apply Rabs_le_inv in Re'. apply Rabs_le. lra. }
  destruct (P _ _ _ _ _ (valid_of_int (c_dx c)) (proj1 V) I1 X Gx Dx) as (x & X1 & X2).
  destruct (P _ _ _ _ _ (valid_of_int (c_dy c)) (proj2 V) I2 Y Gy Dy) as (y & Y1 & Y2).
  exists x, y. auto.
Qed.

(** * A run: the picture product on the 920 km grid, with one border point at its
    north-western corner. *)
Lemma check_format M E bytes dx dy f :
  match new_composite (arith64 M) E bytes with Value c => (c_dx c =? dx)%Z && (c_dy c =? dy)%Z && (c_format c =? f)%Z | _ => false end = true ->
  exists c, reads M E (tool_world bytes) [] c /\ c_dx c = dx /\ c_dy c = dy /\ c_format c = f.
Proof.
  destruct (new_composite (arith64 M) E bytes) as [c| |] eqn:Hc; intros H; try discriminate.
  apply andb_prop in H. destruct H as [H H3]. apply andb_prop in H. destruct H as [H1 H2].
  exists c. split; [exists bytes; auto|]. split; [now apply Z.eqb_eq|]. split; now apply Z.eqb_eq.
Qed.
Lemma pg_reads M E : exists c, reads M E (tool_world pg_file) [] c /\ c_dx c = 460%Z /\ c_dy c = 460%Z /\ c_format c = 0%Z.
Proof. apply check_format. vm_compute. reflexivity. Qed.
Example C57_case log K E : let border := [(deg 5466218275 8, deg 1900684377 9)] in let r := (54.66218275, 1.900684377) in
  exists c i width height, reads correct E (tool_world pg_file) [] c /\
    In (EvWritePng i) (convert correct log K E border (tool_world pg_file) [] []) /\
    In (EvGrid width height) (convert correct log K E border (tool_world pg_file) [] []) /\
    on_float_grid correct c (920, 920)%Z (deg 5466218275 8, deg 1900684377 9) (deg 4698044293 8, deg 1473300934 8) /\
    documented_corners (920, 920)%Z (5 <=? c_format c)%Z (54.66218275, 1.900684377) (46.98044293, 14.73300934) /\
    located (920, 920)%Z (5 <=? c_format c)%Z (from_reference 460 460) /\
    (c_dx c * c_dy c * 4 <= 2 ^ 48)%Z /\ (0 < c_dx c /\ 0 < c_dy c)%Z /\
    (exists p, In p border /\ stands_for p r) /\
    let q := exact_fraction (c_format c) (54.66218275, 1.900684377) (46.98044293, 14.73300934) (fst r) (snd r) in
    pixel_index (c_dx c) (IZR (c_dx c) * fst q) 0 /\ pixel_index (c_dy c) (IZR (c_dy c) * snd q) 0.
Proof.
  cbv zeta. destruct (pg_reads correct E) as (c & Hr & Dx & Dy & Fm).
  assert (Ha : (c_dx c * c_dy c * 4 <= 2 ^ 48)%Z) by (rewrite Dx, Dy; lia).
  set (border := [(deg 5466218275 8, deg 1900684377 9)]).
  destruct (C44_run correct log K E border (tool_world pg_file) [] [] c Hr Ha) as (i & name & _ & _ & Hc).
  assert (Hg : on_float_grid correct c (920, 920)%Z (deg 5466218275 8, deg 1900684377 9) (deg 4698044293 8, deg 1473300934 8)).
  { split; [left; destruct Hr as (bytes & _ & Hr); exists E, bytes; now left|]. cbn [num arith64] in *.
    split; [rewrite Dx, Dy; exists 1%Z, 0%Z; cbn [fst snd]; lia|]. rewrite Fm. constructor. }
  assert (Hp : c_has_projection c = true).
  { destruct (float_grid correct c _ _ _ Hg) as (b & ch & _ & -> & Hw & _).
    apply (fixed_raw correct (deg 5466218275 8) (deg 1900684377 9) (deg 4698044293 8) (deg 1473300934 8) ch b Hw). }
  cbn [num arith64] in *. rewrite Hp in Hc. do 4 eexists. split; [exact Hr|]. rewrite Hc.
  split; [right; right; right; right; left; reflexivity|]. split; [right; right; left; reflexivity|]. split; [exact Hg|].
  rewrite Fm, Dx, Dy. split; [constructor|]. split; [constructor|]. split; [lia|]. split; [lia|].
  split.
  - eexists. split; [left; reflexivity|]. split; [|split; [|cbn [fst snd]; lra]]; cbn [fst snd].
    + apply (lit_within 5466218275 8 55 47); try lia; try lra; try reflexivity; [apply Rabs_le; lra|simpl; lra].
    + apply (lit_within 1900684377 9 55 46); try lia; try lra; try reflexivity; [apply Rabs_le; lra|simpl; lra].
  - unfold exact_fraction. cbn [fst snd]. rewrite !Rminus_eq_0. unfold Rdiv. rewrite !Rmult_0_l, !Rmult_0_r.
    split; right; (split; [reflexivity|lra]).
Qed.
Print Assumptions C57_overlay.
Print Assumptions C57_extent.
