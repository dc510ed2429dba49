(** C29, C31, C32, C33: grid detection and availability of the projection. *)
From Verif Require Import GoBase GoFloat Catalog Composite Header Data Projection Radolan
  BaseFacts HeaderSafe HeaderFacts DataFacts ParseFacts CompositeFacts Spec SpecHeader ApiFacts FileFacts HeaderMeaning PropFile PropHeader SpecProj.
From Coq Require Import Znumtheory.
From Coq Require String. Import String.StringSyntax.

(** * C31: bisection *)
Lemma land_1 z : (Z.land z 1 =? 0) = Z.even z.
Proof.
  change 1 with (Z.ones 1). rewrite Z.land_ones by lia. change (2 ^ 1) with 2. rewrite Zmod_even. destruct (Z.even z); reflexivity.
Qed.

Definition lead (a b : Z) (k : Z) (r : Z * Z) : Prop :=
  0 <= k /\ a = fst r * 2 ^ k /\ b = snd r * 2 ^ k /\ (Z.odd (fst r) = true \/ Z.odd (snd r) = true).

Lemma min_res_loop_spec fuel : forall a b, a <> 0 -> Z.abs a < 2 ^ Z.of_nat fuel -> 
  exists r k, min_res_loop fuel a b = Some r /\ lead a b k r.
Proof.
  induction fuel as [|f IH]; intros a b Ha Hb.
  - change (2 ^ Z.of_nat 0) with 1 in Hb. lia.
  - cbn [min_res_loop]. rewrite !land_1. destruct (Z.even a) eqn:Ea; cbn [andb].
    2:{ exists (a, b), 0. split; [reflexivity|]. unfold lead; cbn [fst snd]. rewrite <- Z.negb_even, Ea. repeat split; try lia; try (rewrite Z.pow_0_r; lia). }
    destruct (Z.even b) eqn:Eb; cbn [andb].
    2:{ exists (a, b), 0. split; [reflexivity|]. unfold lead; cbn [fst snd]. rewrite <- (Z.negb_even b), Eb. repeat split; try lia; try (rewrite Z.pow_0_r; lia). }
    apply Z.even_spec in Ea as [a' ->]. apply Z.even_spec in Eb as [b' ->].
    rewrite !Z.shiftr_div_pow2 by lia. change (2 ^ 1) with 2. rewrite !(Z.mul_comm 2), !Z.div_mul by lia.
    rewrite Nat2Z.inj_succ, Z.pow_succ_r in Hb by lia.
    destruct (IH a' b') as (r & k & E & Hk & H1 & H2 & H3); [lia|lia|].
    exists r, (k + 1). split; [assumption|]. unfold lead. rewrite Z.pow_add_r by lia. change (2 ^ 1) with 2.
    repeat split; [lia|nia|nia|assumption].
Qed.

Lemma in_int_abs z : in_int z = true -> Z.abs z < 2 ^ 64.
Proof. unfold in_int, int_min, int_max. lia. Qed.

(** The bisection loop terminates (64 rounds suffice for every pair of ints
    that enters it). *)
Theorem C31_terminates dx dy : in_int dx = true -> dx <> 0 -> exists r, min_res_loop 64 dx dy = Some r.
Proof.
  intros Hi Hx. destruct (min_res_loop_spec 64 dx dy Hx) as (r & _ & H & _); [exact (in_int_abs dx Hi)|eauto].
Qed.

Lemma min_res_lead dx dy : in_int dx = true -> dx <> 0 -> dy <> 0 -> exists k, lead dx dy k (min_res dx dy).
Proof.
  intros Hi Hx Hy. unfold min_res. replace (dx =? 0) with false by lia. replace (dy =? 0) with false by lia. cbn [orb].
  destruct (min_res_loop_spec 64 dx dy Hx) as (r & k & -> & H); [exact (in_int_abs dx Hi)|eauto].
Qed.

Lemma odd_pow_le x k j : Z.odd x = true -> 0 <= k -> 0 <= j -> (2 ^ j | x * 2 ^ k) -> j <= k.
Proof.
  intros Ho Hk Hj [q Hq]. destruct (Z_le_gt_dec j k) as [|Hlt]; [assumption|exfalso].
  replace j with (k + 1 + (j - k - 1)) in Hq by lia. rewrite !Z.pow_add_r in Hq by lia. change (2 ^ 1) with 2 in Hq.
  assert (0 < 2 ^ k) by (apply Z.pow_pos_nonneg; lia).
  assert (Hx : x = 2 * (q * 2 ^ (j - k - 1))) by nia.
  rewrite Hx, Z.odd_mul in Ho. discriminate.
Qed.

(** The result is the pair divided by its largest common power of two. *)
Theorem C31_min_res dx dy : in_int dx = true -> in_int dy = true ->
  (dx = 0 \/ dy = 0 -> min_res dx dy = (dx, dy)) /\
  (dx <> 0 -> dy <> 0 -> exists k, 0 <= k /\ (2 ^ k | dx) /\ (2 ^ k | dy) /\
     (forall j, 0 <= j -> (2 ^ j | dx) -> (2 ^ j | dy) -> j <= k) /\
     min_res dx dy = (dx / 2 ^ k, dy / 2 ^ k)).
Proof.
  intros Hx Hy. split.
  - intros H. unfold min_res. replace ((dx =? 0) || (dy =? 0)) with true by lia. reflexivity.
  - intros Nx Ny. destruct (min_res_lead dx dy Hx Nx Ny) as (k & Hk & H1 & H2 & H3).
    assert (P : 0 < 2 ^ k) by (apply Z.pow_pos_nonneg; lia).
    exists k. split; [assumption|]. split; [now exists (fst (min_res dx dy))|]. split; [now exists (snd (min_res dx dy))|]. split.
    + intros j Hj D1 D2. rewrite H1 in D1. rewrite H2 in D2. destruct H3; eauto using odd_pow_le.
    + destruct (min_res dx dy) as [p q]. cbn [fst snd] in *. subst dx dy. rewrite !Z.div_mul by lia. reflexivity.
Qed.

Example C31_case : min_res 1100 1200 = (275, 300) /\ min_res 460 460 = (115, 115) /\ min_res (-12) 8 = (-3, 2).
Proof. vm_compute. auto. Qed.

(** * C32: grid detection *)
Lemma pow_cancel p q x y a b c d : 0 <= a -> 0 <= b -> 
  (Z.odd p = true \/ Z.odd q = true) -> (Z.odd x = true \/ Z.odd y = true) ->
  p * 2 ^ a = x * 2 ^ b -> q * 2 ^ a = y * 2 ^ b -> c = p -> d = q -> c = x /\ d = y.
Proof.
  intros Ha Hb O1 O2 E1 E2 -> ->.
  assert (D : a = b).
  { apply Z.le_antisymm.
    - destruct O2 as [O|O]; [apply (odd_pow_le x)|apply (odd_pow_le y)]; auto; [exists p|exists q]; lia.
    - destruct O1 as [O|O]; [apply (odd_pow_le p)|apply (odd_pow_le q)]; auto; [exists x|exists y]; lia. }
  subst b. assert (0 < 2 ^ a) by (apply Z.pow_pos_nonneg; lia). split; nia.
Qed.

Lemma same_dims_iff a b : same_dims a b = true <-> a = b.
Proof.
  unfold same_dims. destruct a as [p q], b as [x y]. cbn. rewrite andb_true_iff, !Z.eqb_eq. split; [intros [-> ->]; reflexivity|intros H; injection H; auto].
Qed.

Lemma resampled_iff dx dy gx gy : in_int dx = true -> in_int gx = true -> gx <> 0 -> gy <> 0 ->
  same_dims (min_res dx dy) (min_res gx gy) = true <-> resampled dx dy gx gy.
Proof.
  intros Hd Hg Nx Ny. rewrite same_dims_iff. destruct (min_res_lead gx gy Hg Nx Ny) as (k & Hk & G1 & G2 & G3).
  assert (P : 0 < 2 ^ k) by (apply Z.pow_pos_nonneg; lia).
  destruct (Z.eq_dec dx 0) as [->|Dx]; [|destruct (Z.eq_dec dy 0) as [->|Dy]].
  - change (min_res 0 dy) with (0, dy). split.
    + intros H. rewrite <- H in *. cbn [fst snd] in *. nia.
    + intros (a & b & Ha & Hb & E1 & E2). assert (0 < 2 ^ b) by (apply Z.pow_pos_nonneg; lia). nia.
  - assert (min_res dx 0 = (dx, 0)) as -> by (unfold min_res; rewrite orb_true_r; reflexivity). split.
    + intros H. rewrite <- H in *. cbn [fst snd] in *. nia.
    + intros (a & b & Ha & Hb & E1 & E2). assert (0 < 2 ^ b) by (apply Z.pow_pos_nonneg; lia). nia.
  - destruct (min_res_lead dx dy Hd Dx Dy) as (j & Hj & D1 & D2 & D3).
    assert (P' : 0 < 2 ^ j) by (apply Z.pow_pos_nonneg; lia).
    split.
    + intros H. rewrite H in *. exists k, j. repeat split; try assumption; nia.
    + intros (a & b & Ha & Hb & E1 & E2). destruct (min_res dx dy) as [p q], (min_res gx gy) as [x y]. cbn [fst snd] in *.
      subst dx dy gx gy. rewrite <- !Z.mul_assoc, <- !Z.pow_add_r in E1, E2 by assumption.
      destruct (pow_cancel p q x y (j + a) (k + b) p q) as [-> ->]; auto; lia.
Qed.

(** Which documented size each grid has. *)
Definition size_of (g : grid) : option (Z * Z) :=
  match g with
  | unknownGrid => None
  | nationalGrid => Some (900, 900)
  | nationalPictureGrid => Some (920, 920)
  | extendedNationalGrid => Some (900, 1100)
  | DE1200Grid => Some (1100, 1200)
  | middleEuropeanGrid => Some (1400, 1500)
  end.

(** A composite's size is a resampling of at most one documented size. *)
Theorem C32_unambiguous dx dy s t : in_int dx = true -> 
  In s documented_sizes -> In t documented_sizes ->
  resampled dx dy (fst s) (snd s) -> resampled dx dy (fst t) (snd t) -> s = t.
Proof.
  intros Hd Hs Ht H1 H2.
  assert (F : forall u, In u documented_sizes -> resampled dx dy (fst u) (snd u) -> min_res dx dy = min_res (fst u) (snd u)).
  { intros u Hu Hr. apply same_dims_iff, resampled_iff; [assumption| | | |assumption];
    cbn in Hu; repeat destruct Hu as [<-|Hu]; try contradiction; reflexivity || discriminate. }
  pose proof (F s Hs H1) as E1. rewrite (F t Ht H2) in E1.
  cbn in Hs, Ht. repeat destruct Hs as [<-|Hs]; try contradiction; repeat destruct Ht as [<-|Ht]; try contradiction;
  first [reflexivity|vm_compute in E1; discriminate].
Qed.

Theorem C32_detect_grid dx dy : in_int dx = true ->
  match size_of (detect_grid dx dy) with
  | Some (gx, gy) => resampled dx dy gx gy
  | None => ~ known_size dx dy
  end.
Proof.
  intros Hd. unfold detect_grid.
  assert (R : forall gx gy, In (gx, gy) documented_sizes -> same_dims (min_res dx dy) (min_res gx gy) = true <-> resampled dx dy gx gy).
  { intros gx gy Hg. apply resampled_iff; [assumption| | |]; cbn in Hg; repeat destruct Hg as [Hg|Hg]; try contradiction;
    injection Hg as <- <-; reflexivity || discriminate. }
  destruct (same_dims (min_res dx dy) (min_res 900 900)) eqn:E1; [apply R; cbn; auto|].
  destruct (same_dims (min_res dx dy) (min_res 920 920)) eqn:E2; [apply R; cbn; auto|].
  destruct (same_dims (min_res dx dy) (min_res 900 1100)) eqn:E3; [apply R; cbn; auto|].
  destruct (same_dims (min_res dx dy) (min_res 1100 1200)) eqn:E4; [apply R; cbn; auto|].
  destruct (same_dims (min_res dx dy) (min_res 1400 1500)) eqn:E5; [apply R; cbn; auto 6|].
  intros (gx & gy & Hin & Hr). apply (R _ _ Hin) in Hr. cbn in Hin.
  repeat destruct Hin as [Hin|Hin]; try contradiction; injection Hin as <- <-; congruence.
Qed.

Lemma detect_iff dx dy g gx gy : in_int dx = true -> size_of g = Some (gx, gy) ->
  detect_grid dx dy = g <-> resampled dx dy gx gy.
Proof.
  intros Hd Hg. pose proof (C32_detect_grid dx dy Hd) as H. split.
  - intros Heq. rewrite Heq, Hg in H. exact H.
  - intros Hr. assert (Hin : In (gx, gy) documented_sizes) by (destruct g; inversion Hg; subst; cbn; auto 6).
    destruct (size_of (detect_grid dx dy)) as [[ux uy]|] eqn:Hs.
    + assert (Hin' : In (ux, uy) documented_sizes) by (destruct (detect_grid dx dy); inversion Hs; subst; cbn; auto 6).
      pose proof (C32_unambiguous dx dy (gx, gy) (ux, uy) Hd Hin Hin' Hr H) as E. injection E as <- <-.
      destruct g, (detect_grid dx dy); cbn in Hg, Hs; congruence.
    + exfalso. apply H. exists gx, gy. auto.
Qed.

Lemma known_iff dx dy : in_int dx = true -> known_size dx dy <-> detect_grid dx dy <> unknownGrid.
Proof.
  intros Hd. pose proof (C32_detect_grid dx dy Hd) as H. split.
  - intros Hk E. rewrite E in H. exact (H Hk).
  - intros Hn. destruct (detect_grid dx dy); try congruence; cbn in H; do 2 eexists; split; try exact H; cbn; auto 6.
Qed.

(** * C33: availability of the projection *)
Section Avail.
Variable A : arith.
Variable E : goenv.
Notation T := (num A).

Lemma corner_points_some format g : corner_points A format g = None <-> g = unknownGrid.
Proof. destruct g; cbn; split; try discriminate; auto. destruct (5 <=? format); discriminate. Qed.

(** The calibration proper, for given corner points. *)
Definition fixed (p q r s : T) (c : composite T) : composite T :=
  let c := set_has_projection c true in
  let c := set_ry (set_rx c (n_ofZ A 1)) (n_ofZ A 1) in
  let c := set_offy (set_offx c (n_zero A)) (n_zero A) in
  let '(ox, oy) := project A c p q in
  let c := set_offy (set_offx c ox) oy in
  let '(resx, resy) := project A c r s in
  let c := set_rx c (n_div A resx (n_ofZ A (c_dx c))) in
  set_ry c (n_div A resy (n_ofZ A (c_dy c))).
Definition unset (c : composite T) : composite T :=
  set_offy (set_offx (set_ry (set_rx c (n_nan A)) (n_nan A)) (n_nan A)) (n_nan A).

Lemma calibrate_eq c : calibrate_projection A c =
  let g := detect_grid (c_dx c) (c_dy c) in
  match corner_points A (c_format c) g with
  | None => unset c
  | Some ((p, q), (r, s)) =>
      if 5 <=? c_format c then match g with DE1200Grid => fixed p q r s (set_wgs84 (unset c) true) | _ => unset c end
      else fixed p q r s (unset c)
  end.
Proof.
  assert (X : c_dx (unset c) = c_dx c) by reflexivity. assert (Y : c_dy (unset c) = c_dy c) by reflexivity.
  assert (F : c_format (unset c) = c_format c) by reflexivity.
  unfold calibrate_projection. fold (unset c). revert X Y F. generalize (unset c). intros u X Y F. rewrite X, Y, F.
  generalize (detect_grid (c_dx c) (c_dy c)). intros g. cbv zeta.
  destruct (corner_points A (c_format c) g) as [[[p q] [r s]]|]; [|reflexivity].
  unfold fixed. destruct (5 <=? c_format c); [destruct g|]; reflexivity.
Qed.

Lemma fixed_has p q r s c : c_has_projection (fixed p q r s c) = true.
Proof. unfold fixed. destruct (project A _ p q) as [ox oy]. destruct (project A _ r s) as [rx ry]. reflexivity. Qed.

Lemma calibrate_has (c : composite T) : c_has_projection c = false -> in_int (c_dx c) = true ->
  c_has_projection (calibrate_projection A c) = true <-> projectable (c_format c) (c_dx c) (c_dy c).
Proof.
  intros Hc Hd. rewrite calibrate_eq. cbv zeta. unfold projectable.
  pose proof (detect_iff (c_dx c) (c_dy c) DE1200Grid 1100 1200 Hd eq_refl) as H1.
  pose proof (known_iff (c_dx c) (c_dy c) Hd) as H2.
  assert (Hu : c_has_projection (unset c) = false) by exact Hc.
  destruct (corner_points A (c_format c) (detect_grid (c_dx c) (c_dy c))) as [[[a b] [d e]]|] eqn:Hcp.
  - destruct (5 <=? c_format c).
    + destruct (detect_grid (c_dx c) (c_dy c)); rewrite ?fixed_has, ?Hu; split; intros Hh; try congruence; try (apply H1; reflexivity); apply H1 in Hh; discriminate.
    + rewrite fixed_has. split; [intros _|reflexivity]. apply H2.
      intros Hg. rewrite Hg in Hcp. discriminate.
  - apply corner_points_some in Hcp. rewrite Hcp in *. rewrite Hu. split; [discriminate|]. intros Hp. exfalso.
    destruct (5 <=? c_format c); [apply H1 in Hp; discriminate|apply H2 in Hp; congruence].
Qed.

Lemma calibrate_without (c : composite T) :
  c_has_projection (calibrate_projection A c) = false ->
  c_rx (calibrate_projection A c) = n_nan A /\ c_ry (calibrate_projection A c) = n_nan A /\
  forall north east, project A (calibrate_projection A c) north east = (n_nan A, n_nan A).
Proof.
  intros H. assert (K : calibrate_projection A c = unset c).
  { revert H. rewrite calibrate_eq. cbv zeta.
    destruct (corner_points A (c_format c) (detect_grid (c_dx c) (c_dy c))) as [[[a b] [d e]]|]; [|reflexivity].
    destruct (5 <=? c_format c); [destruct (detect_grid (c_dx c) (c_dy c)); try reflexivity|]; rewrite fixed_has; discriminate. }
  rewrite K in *. split; [reflexivity|]. split; [reflexivity|].
  intros north east. unfold project. rewrite H. reflexivity.
Qed.

(** Two composites with the same projection. *)
Definition same_projection (c d : composite T) : Prop :=
  c_has_projection c = c_has_projection d /\ c_rx c = c_rx d /\ c_ry c = c_ry d /\
  forall north east, project A c north east = project A d north east.

Definition proj_fields (c : composite T) := (c_has_projection c, c_wgs84 c, c_rx c, c_ry c, c_offx c, c_offy c).

Lemma project_fields (c d : composite T) north east : proj_fields c = proj_fields d -> project A c north east = project A d north east.
Proof.
  unfold proj_fields. intros H. injection H as H1 H2 H3 H4 H5 H6.
  unfold project, project_wgs84, project_sphere. rewrite H1, H2, H3, H4, H5, H6. reflexivity.
Qed.

Lemma fixed_fields p q r s (c d : composite T) : c_wgs84 c = c_wgs84 d -> c_dx c = c_dx d -> c_dy c = c_dy d ->
  proj_fields (fixed p q r s c) = proj_fields (fixed p q r s d).
Proof.
  intros Hw Hx Hy. unfold fixed.
  rewrite (project_fields (set_offy (set_offx (set_ry (set_rx (set_has_projection c true) _) _) _) _)
                          (set_offy (set_offx (set_ry (set_rx (set_has_projection d true) (n_ofZ A 1)) (n_ofZ A 1)) (n_zero A)) (n_zero A)))
    by (unfold proj_fields; cbn; rewrite Hw; reflexivity).
  destruct (project A _ p q) as [ox oy].
  rewrite (project_fields (set_offy (set_offx (set_offy (set_offx (set_ry (set_rx (set_has_projection c true) _) _) _) _) _) _)
                          (set_offy (set_offx (set_offy (set_offx (set_ry (set_rx (set_has_projection d true) (n_ofZ A 1)) (n_ofZ A 1)) (n_zero A)) (n_zero A)) ox) oy))
    by (unfold proj_fields; cbn; rewrite Hw; reflexivity).
  destruct (project A _ r s) as [rx ry]. unfold proj_fields. cbn. rewrite Hw, Hx, Hy. reflexivity.
Qed.

Lemma calibrate_fields (c d : composite T) :
  c_has_projection c = c_has_projection d -> c_wgs84 c = c_wgs84 d -> c_format c = c_format d -> c_dx c = c_dx d -> c_dy c = c_dy d ->
  proj_fields (calibrate_projection A c) = proj_fields (calibrate_projection A d).
Proof.
  intros H1 H2 H3 H4 H5. rewrite !calibrate_eq. cbv zeta. rewrite H3, H4, H5.
  assert (K : proj_fields (unset c) = proj_fields (unset d)) by (unfold proj_fields; cbn; rewrite H1, H2; reflexivity).
  destruct (corner_points A (c_format d) _) as [[[p q] [r s]]|]; [|assumption].
  destruct (5 <=? c_format d); [|apply fixed_fields; assumption].
  destruct (detect_grid _ _); try assumption. apply fixed_fields; auto.
Qed.

Lemma header_stage input c : parsed A E input c ->
  exists ch : composite T, c = calibrate_projection A ch /\ c_has_projection ch = false /\ c_wgs84 ch = false /\ in_int (c_dx ch) = true.
Proof.
  intros H. apply (parsed_inv A E) in H as (text & rest & tail & ch & p & dz & d0 & H1 & H2 & H3 & H4 & H5 & H6 & H7 & H8 & ->).
  eexists. split; [reflexivity|].
  pose proof (parse_header_text_framed (n_ofZ A) E (zero_composite (n_zero A)) (text ++ [Byte.x03])) as Hf.
  rewrite H2 in Hf. destruct Hf as (_ & _ & _ & _ & F1 & F2 & _).
  pose proof (parse_header_text_dims _ _ _ _ _ H2) as [_ (_ & _ & Hi & _)].
  cbn. auto.
Qed.

(** A composite read from a file has a projection exactly if its size and
    format version are covered by a projection rule. *)
Theorem C33_parsed input c : parsed A E input c ->
  c_has_projection c = true <-> projectable (c_format c) (c_dx c) (c_dy c).
Proof.
  intros H. destruct (header_stage input c H) as (ch & -> & H1 & H2 & H3).
  pose proof (calibrate_frame A ch) as F. unfold data_frame in F.
  rewrite (calibrate_has ch H1 H3). assert (c_format (calibrate_projection A ch) = c_format ch /\ c_dx (calibrate_projection A ch) = c_dx ch /\ c_dy (calibrate_projection A ch) = c_dy ch) as (-> & -> & ->) by tauto.
  reflexivity.
Qed.

(** The same for a dummy made by NewDummy. *)
Theorem C33_dummy product format dx dy : in_int dx = true ->
  c_has_projection (new_dummy A product format dx dy) = true <-> projectable format dx dy.
Proof. intros H. unfold new_dummy. exact (calibrate_has (set_dy (set_dx (set_format (set_product (zero_composite (n_zero A)) product) format) dx) dy) eq_refl H). Qed.

(** Without projection: NaN for all coordinates, and no resolution. *)
Theorem C33_without c : (exists input, parsed A E input c) \/ (exists product format dx dy, c = new_dummy A product format dx dy) ->
  c_has_projection c = false ->
  c_rx c = n_nan A /\ c_ry c = n_nan A /\ forall north east, project A c north east = (n_nan A, n_nan A).
Proof.
  intros [(input & H)|(p & f & dx & dy & ->)].
  - destruct (header_stage input c H) as (ch & -> & _). apply calibrate_without.
  - unfold new_dummy. apply calibrate_without.
Qed.

(** An input rejected with an error leaves a composite without projection. *)
Theorem C33_failed input e c : new_composite A E input = Failure e c -> e <> ErrUnknownUnit ->
  c_has_projection c = false /\ forall north east, project A c north east = (n_nan A, n_nan A).
Proof.
  intros H He. assert (Hf : c_has_projection c = false).
  { revert H. unfold new_composite.
    destruct (parse_header _ E _ input) as [[ch rest]|e1 c1|] eqn:Hh; [| |discriminate].
    - apply parse_header_inv in Hh as (h & Hr & Ht).
      pose proof (parse_header_text_framed (n_ofZ A) E (zero_composite (n_zero A)) h) as Hf. rewrite Ht in Hf.
      destruct Hf as (_ & _ & _ & _ & F1 & _).
      pose proof (parse_header_text_dims _ _ _ _ _ Ht) as [Hd _].
      pose proof (parse_data_shape ch rest Hd) as Hs.
      destruct (parse_data ch rest) as [[cd tail]|e1 c1|].
      + destruct (arrange_data cd); [|discriminate]. destruct (unit_eqb _ _); [|discriminate]. congruence.
      + destruct Hs as (_ & p & ->). intros Hx. injection Hx as _ <-. exact F1.
      + discriminate.
    - intros Hx. injection Hx as _ <-. unfold parse_header in Hh. destruct (read_until Byte.x03 input) as [[h r]|].
      + pose proof (parse_header_text_framed (n_ofZ A) E (zero_composite (n_zero A)) h) as Hf.
        destruct (parse_header_text _ E _ h); cbn in Hh; try discriminate. injection Hh as _ <-. apply Hf.
      + injection Hh as _ <-. reflexivity. }
  split; [assumption|]. intros north east. unfold project. rewrite Hf. reflexivity.
Qed.

(** A dummy with product, format version and size of a file projects like the file. *)
Theorem C33_dummy_like_file input c : parsed A E input c ->
  same_projection (new_dummy A (c_product c) (c_format c) (c_dx c) (c_dy c)) c.
Proof.
  intros H. destruct (header_stage input c H) as (ch & -> & H1 & H2 & H3).
  pose proof (calibrate_frame A ch) as F. unfold data_frame in F.
  assert (c_format (calibrate_projection A ch) = c_format ch /\ c_dx (calibrate_projection A ch) = c_dx ch /\ c_dy (calibrate_projection A ch) = c_dy ch) as (-> & -> & ->) by tauto.
  unfold new_dummy.
  assert (K := calibrate_fields (set_dy (set_dx (set_format (set_product (zero_composite (n_zero A)) (c_product (calibrate_projection A ch))) (c_format ch)) (c_dx ch)) (c_dy ch)) ch).
  cbn in K. specialize (K (eq_sym H1) (eq_sym H2) eq_refl eq_refl eq_refl).
  split; [|split; [|split]]; try (unfold proj_fields in K; congruence).
  intros north east. apply project_fields. exact K.
Qed.

(** * C29: local products *)
(** Whenever the size of an accepted file comes from the catalog of local
    products, the resolution reported for it is NaN, whatever the catalog says. *)
Theorem C29_local_resolution_lost input text data c : parsed A E input c -> file_layout input text data ->
  field E text (bs "GP") = None -> field E text (bs "BG") = None ->
  c_rx c = n_nan A /\ c_ry c = n_nan A /\ c_has_projection c = false.
Proof.
  intros Hp Hl G1 G2. pose proof (C27_dimensions A E _ _ _ _ Hp Hl) as [? G|? G0 G|v _ _ Hv X1 X2 X3 X4]; try congruence.
  destruct (catalog_dims _ _ Hv) as (_ & V1 & V2 & _).
  assert (Hf : c_has_projection c = false).
  { apply not_true_is_false. rewrite (C33_parsed input c Hp), X3, X4, V1, V2.
    unfold projectable. pose proof (detect_iff 200 200 DE1200Grid 1100 1200 eq_refl eq_refl) as D1.
    pose proof (known_iff 200 200 eq_refl) as D2. change (detect_grid 200 200) with unknownGrid in D1, D2.
    destruct (5 <=? c_format c); [rewrite <- D1; discriminate|rewrite D2; congruence]. }
  destruct (C33_without c (or_introl (ex_intro _ input Hp)) Hf) as (R1 & R2 & _). auto.
Qed.
End Avail.

(** The desired property (the resolution of the catalog is reported) is false
    in float64 arithmetic with every math library. *)
Definition px_text : list byte := bs "PX262115100000616BY22205LV 1  1.0CS0MX 0".
Definition px_file : list byte := px_text ++ Byte.x03 :: repeat Byte.x0a 224.

Theorem C29_resolution_is_false M E :
  ~ (forall input text data c v, parsed (arith64 M) E input c -> file_layout input text data ->
       field E text (bs "GP") = None -> field E text (bs "BG") = None ->
       lookup dimension_catalog (firstn 2 text) = Some v ->
       c_rx c = f64_of_int (s_rx v) /\ c_ry c = f64_of_int (s_ry v)).
Proof.
  intros H. destruct (C05_bottom_case (arith64 M) E) as (c & Hp & _).
  assert (Hl : file_layout px_file px_text (repeat Byte.x0a 224)).
  { split; [reflexivity|]. vm_compute. intuition discriminate. }
  assert (G1 : field E px_text (bs "GP") = None) by (vm_compute; reflexivity).
  assert (G2 : field E px_text (bs "BG") = None) by (vm_compute; reflexivity).
  destruct (H px_file px_text _ c (mk_spec 200 224 200 200 1 1) Hp Hl G1 G2 eq_refl) as [H1 _].
  destruct (C29_local_resolution_lost (arith64 M) E px_file px_text _ c Hp Hl G1 G2) as (H2 & _).
  rewrite H1 in H2. discriminate.
Qed.

(** Sizes in use: RW (900x900), the doubled DE1200 grid, and a radar-local one. *)
Example C32_case : resampled 900 900 900 900 /\ resampled 460 460 920 920 /\ resampled 2200 2400 1100 1200 /\ ~ known_size 200 200.
Proof.
  repeat split; try (exists 0, 0; lia); try (exists 1, 0; lia); try (exists 0, 1; lia).
  rewrite known_iff by reflexivity. intros H. now apply H.
Qed.
Example C33_case A : c_has_projection (new_dummy A (bs "RW") 3 900 900) = true /\
  c_has_projection (new_dummy A (bs "RW") 5 900 900) = false /\ c_has_projection (new_dummy A (bs "WN") 5 1100 1200) = true.
Proof.
  split; [|split].
  - apply C33_dummy; [reflexivity|]. exists 900, 900. split; [cbn; auto|exists 0, 0; lia].
  - apply not_true_is_false. rewrite C33_dummy by reflexivity. intros H.
    apply (detect_iff 900 900 DE1200Grid 1100 1200) in H; try reflexivity. discriminate.
  - apply C33_dummy; [reflexivity|]. exists 0, 0. lia.
Qed.
