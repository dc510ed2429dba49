(** C64: Germany's border on the documented grids. *)
From Coq Require Import Reals Lra Lia Psatz Znumtheory Zpow_facts.
From Flocq Require Import Core BinarySingleNaN.
From Verif Require Import SpecOverlay GoBase GoFloat Catalog Composite Header Data Projection Radolan Vis Png Borders SpecReal SpecProj ExactReal SpecAccuracy SpecKm BaseFacts
  CompositeFacts Spec ApiFacts FloatFacts PropFloat PropGrid PropReal PropProjFloat VisFacts AccFacts PropAccuracy GridNumbers PropLookup PropKm PropTool PropOverlay.
Local Open Scope R_scope.

(** * The table *)
(** Boxes, in millionths of a degree: south, north, west, east. *)
Definition box : Type := (Z * Z) * (Z * Z).
Definition in_box (p : Z * Z) (b : box) : bool :=
  let '((s, n), (w, e)) := b in ((s <=? fst p) && (fst p <=? n) && (w <=? snd p) && (snd p <=? e))%Z%bool.
Definition west_box : box := ((47270000, 54810000), (5860000, 10000000))%Z.
Definition coast_box : box := ((54810000, 54880000), (8280000, 9720000))%Z.
Definition north_box : box := ((54880000, 54970000), (8280000, 9720000))%Z.
Definition south_east_box : box := ((47270000, 50820000), (10000000, 14080000))%Z.
Definition north_east_box : box := ((50810000, 54710000), (10000000, 15040000))%Z.
Definition boxes : list box := [west_box; coast_box; north_box; south_east_box; north_east_box].
Lemma table_boxes : forallb (fun p => existsb (in_box p) boxes) border_decimals = true.
Proof. vm_compute. reflexivity. Qed.
Lemma point_box a b : In (a, b) border_decimals -> exists x, In x boxes /\ in_box (a, b) x = true.
Proof.
  intros H. pose proof table_boxes as T. rewrite forallb_forall in T. specialize (T _ H). apply existsb_exists in T. exact T.
Qed.

(** * The boxes on the map plane *)
Lemma radians_mono a b : a <= b -> radians a <= radians b.
Proof. intros H. pose proof (Raux.Rabs_le_inv _ _ pi_bounds). unfold radians. apply Rmult_le_compat_r; lra. Qed.
Ltac box_range := 
  match goal with
  | H : ?l <= ?n <= ?h |- _ <= PI / 4 - radians ?n / 2 <= _ =>
      pose proof (radians_mono _ _ (proj1 H)); pose proof (radians_mono _ _ (proj2 H)); split
  | H : ?l <= ?e <= ?h |- _ <= radians (10 - ?e) <= _ =>
      pose proof (radians_mono (10 - h) (10 - e) ltac:(lra)); pose proof (radians_mono (10 - e) (10 - l) ltac:(lra)); split
  | H : ?l <= ?e <= ?h |- _ <= radians (?e - 10) <= _ =>
      pose proof (radians_mono (l - 10) (e - 10) ltac:(lra)); pose proof (radians_mono (e - 10) (h - 10) ltac:(lra)); split
  | H : ?l <= ?n <= ?h |- _ <= radians ?n <= _ =>
      pose proof (radians_mono _ _ (proj1 H)); pose proof (radians_mono _ _ (proj2 H)); split
  end; pose proof (Raux.Rabs_le_inv _ _ pi_bounds); unfold radians in *; lra.
Ltac zero_eval := unfold slo, chi, clo; lra.
Ltac box_num := first [box_range|num_eval|zero_eval].

Lemma plane_west n e : 47.27 <= n <= 54.81 -> 5.86 <= e <= 10 ->
  -335.71 <= fst (plane 0 n e) <= 0.01 /\ 3759.68 <= snd (plane 0 n e) <= 4649.97.
Proof. intros N H. apply (sph_west n e 0.3070906 0.3728897 0 0.0722567); box_num. Qed.
Lemma plane_coast n e : 54.81 <= n <= 54.88 -> 8.28 <= e <= 9.72 ->
  -113.15 <= fst (plane 0 n e) <= -18.37 /\ 3759.83 <= snd (plane 0 n e) <= 3769.50.
Proof. intros N H. apply (sph_west n e 0.3064798 0.3070907 0.0048869 0.0300197); box_num. Qed.
Lemma plane_north n e : 54.88 <= n <= 54.97 -> 8.28 <= e <= 9.72 ->
  -112.92 <= fst (plane 0 n e) <= -18.32 /\ 3749.56 <= snd (plane 0 n e) <= 3761.51.
Proof. intros N H. apply (sph_west n e 0.3056944 0.3064799 0.0048869 0.0300197); box_num. Qed.
Lemma plane_south_east n e : 47.27 <= n <= 50.82 -> 10 <= e <= 14.08 ->
  -0.01 <= fst (plane 0 n e) <= 330.85 /\ 4219.57 <= snd (plane 0 n e) <= 4649.97.
Proof. intros N H. apply (sph_east n e 0.3419099 0.3728897 0 0.0712095); box_num. Qed.
Lemma plane_north_east n e : 50.81 <= n <= 54.71 -> 10 <= e <= 15.04 ->
  -0.01 <= fst (plane 0 n e) <= 371.75 /\ 3766.31 <= snd (plane 0 n e) <= 4231.50.
Proof. intros N H. apply (sph_east n e 0.3079633 0.3419973 0 0.0879646); box_num. Qed.
(** The ellipsoid: one box on each side of 10 E. *)
Lemma power_germany n : 47.27 <= n <= 54.97 -> 0.9940 <= Rpower (flat n) (ecc / 2) <= 0.9955.
Proof. intros N. apply (power_in n 0.8250 0.9595); box_num. Qed.
Lemma wgs_germany_west n e : 47.27 <= n <= 54.97 -> 5.86 <= e <= 10 ->
  -340 <= fst (plane 5 n e) <= 1 /\ 3730 <= snd (plane 5 n e) <= 4680.
Proof.
  intros N H. apply (wgs_west n e) with (al := 0.3056944) (ah := 0.3728897) (bl := 0) (bh := 0.0722567) (pl := 0.9940) (ph := 0.9955); 
    first [exact (power_germany n N)|box_num].
Qed.
Lemma wgs_germany_east n e : 47.27 <= n <= 54.97 -> 10 <= e <= 15.04 ->
  -1 <= fst (plane 5 n e) <= 420 /\ 3730 <= snd (plane 5 n e) <= 4680.
Proof.
  intros N H. apply (wgs_east n e) with (al := 0.3056944) (ah := 0.3728897) (bl := 0) (bh := 0.0879646) (pl := 0.9940) (ph := 0.9955); 
    first [exact (power_germany n N)|box_num].
Qed.
(** The northernmost point of the table. *)
Lemma plane_sylt : snd (plane 0 54.966620 8.353271) <= 3750.2.
Proof.
  assert (H : -112.92 <= fst (plane 0 54.966620 8.353271) <= -18.32 /\ 3749.56 <= snd (plane 0 54.966620 8.353271) <= 3750.2); [|lra].
  apply (sph_west 54.966620 8.353271 0.305723 0.305725 0.028740 0.028742); first [num_eval|range].
Qed.

Lemma plane_format f n e : plane f n e = if (5 <=? f)%Z then plane 5 n e else plane 0 n e.
Proof. unfold plane, pole_distance. cbn [Z.leb Z.compare Pos.compare Pos.compare_cont]. now destruct (5 <=? f)%Z. Qed.

Lemma box_real a b s n w e : in_box (a, b) ((s, n), (w, e)) = true ->
  IZR s / 10 ^ 6 <= IZR a / 10 ^ 6 <= IZR n / 10 ^ 6 /\ IZR w / 10 ^ 6 <= IZR b / 10 ^ 6 <= IZR e / 10 ^ 6.
Proof.
  cbn [in_box fst snd]. rewrite !andb_true_iff, !Z.leb_le. intros [[[H1 H2] H3] H4].
  apply IZR_le in H1, H2, H3, H4. lra.
Qed.

Lemma germany a b : In (a, b) border_decimals ->
  (47.27 <= IZR a / 10 ^ 6 <= 54.97 /\ 5.86 <= IZR b / 10 ^ 6 <= 15.04) /\
  (let p := plane 0 (IZR a / 10 ^ 6) (IZR b / 10 ^ 6) in -335.71 <= fst p <= 371.75 /\ 3749.56 <= snd p <= 4649.97 /\
   ((a <= 54880000)%Z -> 3759.68 <= snd p)) /\
  (let p := plane 5 (IZR a / 10 ^ 6) (IZR b / 10 ^ 6) in -340 <= fst p <= 420 /\ 3730 <= snd p <= 4680).
Proof.
  intros H. destruct (point_box a b H) as (x & Hx & B).
  assert (Bd : (47.27 <= IZR a / 10 ^ 6 <= 54.97 /\ 5.86 <= IZR b / 10 ^ 6 <= 15.04) /\
    (let p := plane 0 (IZR a / 10 ^ 6) (IZR b / 10 ^ 6) in -335.71 <= fst p <= 371.75 /\ 3749.56 <= snd p <= 4649.97 /\
     ((a <= 54880000)%Z -> 3759.68 <= snd p))).
  { cbv zeta. destruct Hx as [<-|[<-|[<-|[<-|[<-|[]]]]]]; pose proof (box_real _ _ _ _ _ _ B) as [N O].
    - destruct (plane_west (IZR a / 10 ^ 6) (IZR b / 10 ^ 6)); [lra|lra|]. split; [lra|]. split; [lra|]. split; [lra|]. intros _. lra.
    - destruct (plane_coast (IZR a / 10 ^ 6) (IZR b / 10 ^ 6)); [lra|lra|]. split; [lra|]. split; [lra|]. split; [lra|]. intros _. lra.
    - destruct (plane_north (IZR a / 10 ^ 6) (IZR b / 10 ^ 6)); [lra|lra|]. split; [lra|]. split; [lra|]. split; [lra|]. intros Ha.
      apply IZR_le in Ha. destruct (plane_coast (IZR a / 10 ^ 6) (IZR b / 10 ^ 6)); [lra|lra|]. lra.
    - destruct (plane_south_east (IZR a / 10 ^ 6) (IZR b / 10 ^ 6)); [lra|lra|]. split; [lra|]. split; [lra|]. split; [lra|]. intros _. lra.
    - destruct (plane_north_east (IZR a / 10 ^ 6) (IZR b / 10 ^ 6)); [lra|lra|]. split; [lra|]. split; [lra|]. split; [lra|]. intros _. lra. }
  destruct Bd as [[N O] R]. split; [auto|]. split; [exact R|]. cbv zeta.
  destruct (Rle_or_lt (IZR b / 10 ^ 6) 10) as [Hb|Hb].
  - destruct (wgs_germany_west (IZR a / 10 ^ 6) (IZR b / 10 ^ 6)); [lra|lra|]. lra.
  - destruct (wgs_germany_east (IZR a / 10 ^ 6) (IZR b / 10 ^ 6)); [lra|lra|]. lra.
Qed.

(** The entry as a pair of float64 numbers. *)
Lemma entry_stands a b : In (a, b) border_decimals ->
  stands_for (f64_lit a (-6), f64_lit b (-6)) (IZR a / 10 ^ 6, IZR b / 10 ^ 6).
Proof.
  intros H. destruct (germany a b H) as [[N O] _].
  assert (Q : forall m, 1 <= IZR m / 10 ^ 6 <= 55 -> within (powerRZ 2 (-47)) (f64_lit m (-6)) (IZR m / 10 ^ 6)).
  { intros m H2. assert (M0 : (Z.abs m <> 0)%Z). { intros E. assert (m = 0%Z) by lia. subst m. lra. }
    replace (10 ^ 6) with (IZR (10 ^ 6)) in * by (change (10 ^ 6)%Z with 1000000%Z; lra).
    destruct (approx_lit m 6 55 M0) as (V & _ & _ & v & X & D); [lia|rewrite Rabs_pos_eq; lra|lra|].
    split; [exact V|]. exists v. split; [exact X|]. replace (powerRZ 2 (-47)) with (32 * u) by (symmetry; apply (units 47 32); [lia|simpl; lra]). pose proof u_small. unfold tiny in *. nra. }
  split; [apply Q; lra|]. split; [|cbn [fst snd]; lra].
  destruct (Q b ltac:(lra)) as (V & v & X & D). split; [exact V|]. exists v. split; [exact X|]. eapply Rle_trans; [exact D|].
  replace (powerRZ 2 (-47)) with (32 * u) by (symmetry; apply (units 47 32); [lia|simpl; lra]). replace (powerRZ 2 (-46)) with (64 * u) by (symmetry; apply (units 46 64); [lia|simpl; lra]). pose proof u_small. lra.
Qed.

(** * The theorems *)
(** The table lists latitude before longitude (its comment says the opposite),
    and all its points lie in Germany's bounding box. *)
Theorem C64_table : Z.of_nat (length border) = 12492%Z /\
  (forall p, In p border -> exists a b, p = (f64_lit a (-6), f64_lit b (-6)) /\ In (a, b) border_decimals) /\
  (forall a b, In (a, b) border_decimals -> (47270000 <= a <= 54970000 /\ 5860000 <= b <= 15040000)%Z).
Proof.
  split; [|split].
  - unfold border. rewrite map_length. vm_compute. reflexivity.
  - intros p H. unfold border in H. apply in_map_iff in H. destruct H as ([a b] & <- & H). eauto.
  - intros a b H. destruct (germany a b H) as [[N O] _]. assert (T : forall l h x, l / 10 ^ 6 <= IZR x / 10 ^ 6 <= h / 10 ^ 6 -> l <= IZR x <= h) by (intros; lra).
    assert (A := T 47270000 54970000 a ltac:(lra)). assert (B := T 5860000 15040000 b ltac:(lra)).
    repeat split; apply le_IZR; lra.
Qed.

Lemma axis_inside x d g k : 1 <= d -> 900 <= g -> Rabs (x * (g / d) - k) <= 0.005 -> 0.01 <= k <= g - 0.01 -> 0 <= x < d.
Proof.
  intros Hd Hg H K. apply Rabs_le_inv in H.
  assert (P : 0 < g / d) by (apply Rdiv_lt_0_compat; lra). assert (E : d * (g / d) = g) by (field; lra).
  split; [nra|]. apply Rmult_lt_reg_r with (g / d); [exact P|]. lra.
Qed.

(** Inside the picture: the whole border on all grids but the national one, there
    everything south of 54.88 N. *)
Theorem C64_inside M (c : composite (num (arith64 M))) size origin a b :
  accurate_library (powerRZ 2 (-48)) M -> @calibrated (arith64 M) c ->
  resampled (c_dx c) (c_dy c) (fst size) (snd size) -> located size (5 <=? c_format c)%Z origin ->
  In (a, b) border_decimals -> size <> (900, 900)%Z \/ (a <= 54880000)%Z ->
  let p := project (arith64 M) c (f64_lit a (-6)) (f64_lit b (-6)) in
  exists x y, is_value (fst p) x /\ is_value (snd p) y /\ 0 <= x < IZR (c_dx c) /\ 0 <= y < IZR (c_dy c).
Proof.
  intros HM Hc Hr Hl Hin Hs. cbv zeta. destruct (germany a b Hin) as ((N & O) & S & W). cbv zeta in S, W.
  destruct (entry_stands a b Hin) as (Wn & We & Rn & Re). cbn [fst snd] in Wn, We, Rn, Re.
  destruct (C56_kilometres M c size origin _ _ _ _ HM Hc Hr Hl Wn We Rn Re) as (x & y & X & Y & Kx & Ky).
  destruct (corners_located (c_format c) _ _ _ Hl eq_refl) as (nw & se & nwR & seR & Cf & Cd & _).
  destruct (resampled_pos _ _ _ _ _ _ Cd Hr) as [Px Py]. 
  assert (Ix : 1 <= IZR (c_dx c)) by (apply IZR_le; lia). assert (Iy : 1 <= IZR (c_dy c)) by (apply IZR_le; lia).
  destruct (located_size _ _ _ Hl) as [Gx Gy]. exists x, y. split; [exact X|]. split; [exact Y|].
  rewrite plane_format in Kx, Ky. pose proof ref as [R1 R2].
  assert (B : 0.01 <= fst (if (5 <=? c_format c)%Z then plane 5 (IZR a / 10 ^ 6) (IZR b / 10 ^ 6) else plane 0 (IZR a / 10 ^ 6) (IZR b / 10 ^ 6)) - fst origin <= IZR (fst size) - 0.01 /\
    0.01 <= snd (if (5 <=? c_format c)%Z then plane 5 (IZR a / 10 ^ 6) (IZR b / 10 ^ 6) else plane 0 (IZR a / 10 ^ 6) (IZR b / 10 ^ 6)) - snd origin <= IZR (snd size) - 0.01).
  { destruct S as (S1 & S2 & S3). destruct W as (W1 & W2).
    clear - S1 S2 S3 W1 W2 Hl Hs R1 R2.
    destruct (5 <=? c_format c)%Z; inversion Hl; subst; unfold from_reference in *; cbn [fst snd] in *; try (split; lra).
    destruct Hs as [Hs|Hs]; [congruence|]. specialize (S3 Hs). split; lra. }
  destruct B as [B1 B2]. split; [exact (axis_inside _ _ _ _ Ix (proj1 Gx) (Kx ltac:(lra)) B1)|exact (axis_inside _ _ _ _ Iy (proj1 Gy) (Ky ltac:(lra)) B2)].
Qed.

(** The national grid cuts the border off: its northernmost point lies more than
    two pixels above the picture, at every resolution. *)
Theorem C64_cut_off M (c : composite (num (arith64 M))) :
  accurate_library (powerRZ 2 (-48)) M -> @calibrated (arith64 M) c ->
  resampled (c_dx c) (c_dy c) 900 900 -> (c_format c < 5)%Z ->
  In (54966620, 8353271)%Z border_decimals /\
  exists y, is_value (snd (project (arith64 M) c (f64_lit 54966620 (-6)) (f64_lit 8353271 (-6)))) y /\ y < -2.
Proof.
  intros HM Hc Hr Hf. 
  assert (Hin : In (54966620, 8353271)%Z border_decimals).
  { assert (T : existsb (fun p => (fst p =? 54966620) && (snd p =? 8353271))%Z%bool border_decimals = true) by (vm_compute; reflexivity).
    apply existsb_exists in T. destruct T as ([p q] & T1 & T2). apply andb_true_iff in T2. cbn [fst snd] in T2. rewrite !Z.eqb_eq in T2. destruct T2 as [-> ->]. exact T1. }
  split; [exact Hin|]. destruct (entry_stands _ _ Hin) as (Wn & We & Rn & Re). cbn [fst snd] in Wn, We, Rn, Re.
  assert (Ef : (5 <=? c_format c)%Z = false) by (apply Z.leb_gt; exact Hf).
  assert (Hl : located (900, 900)%Z (5 <=? c_format c)%Z (from_reference 450 450)) by (rewrite Ef; constructor).
  assert (Cd : documented_corners (900, 900)%Z (5 <=? c_format c)%Z (54.5877, 2.0715) (47.0705, 14.6209)) by (rewrite Ef; constructor).
  destruct (corners_located (c_format c) _ _ _ Hl eq_refl) as (nw & se & nwR & seR & Cf & _).
  assert (Hg : on_float_grid M c (900, 900)%Z nw se) by (split; [exact Hc|]; split; [exact Hr|exact Cf]).
  destruct (accuracy_bounded M c _ _ _ _ _ _ _ _ _ HM Hg Cd Wn We Rn Re) as (x & y & _ & Y & _ & D & _).
  exists y. split; [exact Y|]. unfold exact_fraction in D. cbv zeta in D. cbn [fst snd] in D. rewrite !(plane_format (c_format c)), Ef in D.
  destruct (resampled_pos _ _ _ _ _ _ Cd Hr) as [_ Py]. 
  pose proof plane_sylt as Ps. pose proof national_nw as [_ Pn]. pose proof national_se as [_ Pe].
  replace (IZR 54966620 / 10 ^ 6) with 54.966620 in D by lra. replace (IZR 8353271 / 10 ^ 6) with 8.353271 in D by lra.
  set (P := snd (plane 0 54.966620 8.353271)) in *. set (N := snd (plane 0 54.5877 2.0715)) in *. set (S := snd (plane 0 47.0705 14.6209)) in *.
  assert (Q : (P - N) / (S - N) <= -0.0093).
  { apply Rmult_le_reg_r with (S - N); [lra|]. unfold Rdiv. rewrite Rmult_assoc, Rinv_l by lra. lra. }
  assert (H225 : (225 <= c_dy c)%Z). {
    destruct Hr as (i & j & Hi & Hj & _ & Ey). 
    assert (Dv : (225 | c_dy c)%Z).
    { apply (Z.gauss 225 (2 ^ i)); [exists (4 * 2 ^ j)%Z; lia|].
      apply Zgcd_1_rel_prime, rel_prime_Zpower_r; [exact Hi|]. apply Zgcd_1_rel_prime. reflexivity. }
    apply Z.divide_pos_le; [lia|exact Dv]. }
  apply IZR_le in H225. apply Rabs_le_inv in D. nra.
Qed.

(** The picture radolan2png writes shows every border point inside it. *)
Theorem C64_drawn M log K E w inp out i (c : composite f64) size origin a b :
  accurate_library (powerRZ 2 (-48)) M -> reads M E w inp c -> In (EvWritePng i) (convert M log K E border w inp out) ->
  resampled (c_dx c) (c_dy c) (fst size) (snd size) -> located size (5 <=? c_format c)%Z origin -> (c_dx c * c_dy c * 4 <= 2 ^ 48)%Z ->
  In (a, b) border_decimals -> size <> (900, 900)%Z \/ (a <= 54880000)%Z ->
  exists x y px py, is_value (fst (project (arith64 M) c (f64_lit a (-6)) (f64_lit b (-6)))) x /\
    is_value (snd (project (arith64 M) c (f64_lit a (-6)) (f64_lit b (-6)))) y /\
    (0 <= px < c_dx c)%Z /\ (0 <= py < c_dy c)%Z /\ IZR px <= x < IZR px + 1 /\ IZR py <= y < IZR py + 1 /\
    (i_pix i px py = yellow \/ i_pix i px py = bright_green).
Proof.
  intros HM Hr Hi Hs Hl Ha Hin Hn.
  assert (Hc : @calibrated (arith64 M) c). { left. destruct Hr as (bytes & _ & H2). exists E, bytes. now left. }
  destruct (C64_inside M c size origin a b HM Hc Hs Hl Hin Hn) as (x & y & X & Y & Bx & By).
  destruct (corners_located (c_format c) _ _ _ Hl eq_refl) as (nw & se & nwR & seR & Cf & Cd & _).
  assert (Hg : on_float_grid M c size nw se) by (split; [exact Hc|]; split; [exact Hs|exact Cf]).
  destruct (C44_run M log K E border w inp out c Hr Ha) as (i' & name & (_ & Hf) & _ & Hw). rewrite Hw in Hi.
  assert (i' = i) as ->.
  { revert Hi. clear. intros [Hi|[Hi|Hi]]; [discriminate|discriminate|]. apply in_app_or in Hi.
    destruct Hi as [Hi|[Hi|Hi]]; [destruct (c_has_projection c); [destruct Hi as [Hi|[]]; discriminate|destruct Hi]|discriminate|].
    destruct (w_create w); [|destruct Hi as [Hi|[]]; discriminate]. destruct Hi as [Hi|Hi]; [congruence|].
    destruct (w_encode w); [destruct Hi|destruct Hi as [Hi|[]]; discriminate]. }
  clear Hi Hw. destruct (resampled_pos _ _ _ _ _ _ Cd Hs) as [Px Py]. cbn [num arith64] in *.
  assert (Lx : (c_dx c <= 2 ^ 50)%Z) by nia. assert (Ly : (c_dy c <= 2 ^ 50)%Z) by nia.
  assert (Hp : c_has_projection c = true).
  { destruct (float_grid M c size nw se Hg) as (bb & ch & _ & -> & Hw & _). apply (fixed_raw M (fst nw) (snd nw) (fst se) (snd se) ch bb Hw). }
  assert (I : forall v d, 0 <= v < IZR d -> (0 <= Zfloor v < d)%Z /\ IZR (Zfloor v) <= v < IZR (Zfloor v) + 1 /\ Ztrunc v = Zfloor v).
  { intros v d Hv. pose proof (Zfloor_lb v). pose proof (Zfloor_ub v). split; [|split; [lra|apply Ztrunc_floor; lra]].
    split; [apply Zfloor_lub; lra|apply lt_IZR; lra]. }
  destruct (I x _ Bx) as (I1 & I2 & I3). destruct (I y _ By) as (J1 & J2 & J3).
  destruct (Hf _ _ I1 J1) as (F1 & F2 & _). specialize (F1 Hp). specialize (F2 Hp).
  exists x, y, (Zfloor x), (Zfloor y). repeat split; try assumption; try lia; try lra.
  assert (D : drawn_at M K c border (Zfloor x) (Zfloor y)).
  { exists (f64_lit a (-6)), (f64_lit b (-6)). split.
    - unfold border. apply (in_map (fun p => (f64_lit (fst p) (-6), f64_lit (snd p) (-6))) _ (a, b) Hin).
    - assert (T : forall v d, 0 <= v < IZR d -> (d <= 2 ^ 50)%Z -> Rabs v < IZR (2 ^ 62)).
      { intros v d Hv Hd. apply IZR_le in Hd. rewrite Rabs_pos_eq by lra. apply Rlt_le_trans with (IZR (2 ^ 50)); [lra|]. apply IZR_le. discriminate. }
      split; [rewrite <- I3|rewrite <- J3]; apply to_int_value; [exact X| |exact Y|]; eauto. }
  destruct (rgba_eq_dec (i_pix i (Zfloor x) (Zfloor y)) bright_green) as [Em|Em]; [auto|left]. apply F2; [|exact D]. intros Hm. apply Em. auto.
Qed.
Print Assumptions C64_table.
Print Assumptions C64_inside.
Print Assumptions C64_cut_off.
Print Assumptions C64_drawn.

(** * The hypotheses are met *)
(** A pg file through the tool, and a national composite at 2 km. *)
Example C64_case log K E : accurate_library (powerRZ 2 (-48)) correct /\ In (47270111, 10178342)%Z border_decimals /\
  (exists c i, reads correct E (tool_world pg_file) [] c /\
    In (EvWritePng i) (convert correct log K E border (tool_world pg_file) [] []) /\
    resampled (c_dx c) (c_dy c) 920 920 /\ located (920, 920)%Z (5 <=? c_format c)%Z (from_reference 460 460) /\
    (920, 920)%Z <> (900, 900)%Z /\ (c_dx c * c_dy c * 4 <= 2 ^ 48)%Z) /\
  (let c := new_dummy (arith64 correct) [] 3 450 450 in @calibrated (arith64 correct) c /\ resampled (c_dx c) (c_dy c) 900 900 /\
   located (900, 900)%Z (5 <=? c_format c)%Z (from_reference 450 450) /\ (47270111 <= 54880000)%Z /\ (c_format c < 5)%Z).
Proof.
  split; [exact correct_accurate|]. split; [left; reflexivity|]. split.
  - destruct (pg_reads correct E) as (c & Hr & Dx & Dy & Fm).
    assert (Ha : (c_dx c * c_dy c * 4 <= 2 ^ 48)%Z) by (rewrite Dx, Dy; lia).
    destruct (C44_run correct log K E border (tool_world pg_file) [] [] c Hr Ha) as (i & name & _ & _ & Hc).
    exists c, i. split; [exact Hr|]. split.
    + rewrite Hc. right. right. apply in_or_app. right. right. left. reflexivity.
    + rewrite Fm, Dx, Dy. split; [exists 1%Z, 0%Z; lia|]. split; [constructor|]. split; [congruence|lia].
  - cbv zeta. destruct (dummy_fields (arith64 correct) [] 3 450 450) as (-> & -> & ->).
    split; [right; exists [], 3%Z, 450%Z, 450%Z; auto|]. split; [exists 1%Z, 0%Z; lia|]. split; [constructor|lia].
Qed.
