(** C40: Image. *)
From Coq Require Import Lia.
From Verif Require Import GoBase GoFloat Catalog Composite Header Data Projection Radolan Vis
  Spec BaseFacts CompositeFacts ApiFacts PropFile.
Local Open Scope Z_scope.

(** The picture of a function on a rectangle: outside it image.RGBA is
    transparent black. *)
Definition paints (i : image) (dx dy : Z) (pixel : Z -> Z -> rgba) : Prop :=
  (i_x0 i = Z.min 0 dx /\ i_y0 i = Z.min 0 dy /\ i_x1 i = Z.max 0 dx /\ i_y1 i = Z.max 0 dy) /\
  forall x y, i_pix i x y = pixel x y.

Definition in_bounds (i : image) x y : Prop := i_x0 i <= x < i_x1 i /\ i_y0 i <= y < i_y1 i.
Definition same_bounds (i j : image) : Prop := i_x0 i = i_x0 j /\ i_y0 i = i_y0 j /\ i_x1 i = i_x1 j /\ i_y1 i = i_y1 j.

Lemma img_set_pix i x y c x' y' : in_bounds i x y ->
  same_bounds (img_set i x y c) i /\ i_pix (img_set i x y c) x' y' = if (x' =? x) && (y' =? y) then c else i_pix i x' y'.
Proof.
  intros H. unfold in_bounds in H. unfold img_set. replace (in_image i x y) with true by (unfold in_image; lia).
  cbn. unfold same_bounds. cbn. auto.
Qed.

Lemma image_row_spec fn r n : forall x y i, 0 <= x -> x + Z.of_nat n <= len r ->
  (forall x', x <= x' < x + Z.of_nat n -> in_bounds i x' y) ->
  exists j, image_row fn (Some r) n x y i = Some j /\ same_bounds j i /\
  (forall x' y' v, y' = y -> x <= x' < x + Z.of_nat n -> index r x' = Some v -> i_pix j x' y' = fn (f64_of_f32 v)) /\
  (forall x' y', ~ (y' = y /\ x <= x' < x + Z.of_nat n) -> i_pix j x' y' = i_pix i x' y').
Proof.
  induction n as [|n IH]; intros x y i Hx Hn Hb.
  - exists i. split; [reflexivity|]. split; [repeat split|]. split; [intros; lia|auto].
  - cbn [image_row]. destruct (index_some r x) as [v Hv]; [lia|]. rewrite Hv.
    assert (Hi : in_bounds i x y) by (apply Hb; lia).
    set (i1 := img_set i x y (fn (f64_of_f32 v))).
    assert (Hs : same_bounds i1 i) by (apply (img_set_pix i x y _ 0 0 Hi)).
    destruct (IH (x + 1) y i1) as (j & Hj & Sj & P1 & P2); [lia|lia| |].
    { intros x' Hx'. specialize (Hb x' ltac:(lia)). unfold in_bounds, same_bounds in *. lia. }
    exists j. split; [exact Hj|]. split. { unfold same_bounds in *. lia. }
    split.
    + intros x' y' v' -> Hx' Hv'. destruct (Z.eq_dec x' x) as [->|Hne].
      * rewrite P2 by lia. unfold i1. rewrite (proj2 (img_set_pix i x y _ x y Hi)), !Z.eqb_refl. cbn. congruence.
      * apply P1; [reflexivity|lia|assumption].
    + intros x' y' Hn'. rewrite P2 by lia. unfold i1. rewrite (proj2 (img_set_pix i x y _ x' y' Hi)).
      replace ((x' =? x) && (y' =? y)) with false by lia. reflexivity.
Qed.

Lemma image_rows_spec fn l dx n : forall y i, 0 <= dx -> 0 <= y -> y + Z.of_nat n <= len l ->
  (forall r, In r l -> len r = dx) ->
  (forall x' y', 0 <= x' < dx -> y <= y' < y + Z.of_nat n -> in_bounds i x' y') ->
  exists j, image_rows fn l dx n y i = Some j /\ same_bounds j i /\
  (forall x' y' r v, 0 <= x' < dx -> y <= y' < y + Z.of_nat n -> index l y' = Some r -> index r x' = Some v -> i_pix j x' y' = fn (f64_of_f32 v)) /\
  (forall x' y', ~ (0 <= x' < dx /\ y <= y' < y + Z.of_nat n) -> i_pix j x' y' = i_pix i x' y').
Proof.
  induction n as [|n IH]; intros y i Hdx Hy Hn Hw Hb.
  - exists i. split; [reflexivity|]. split; [repeat split|]. split; [intros; lia|auto].
  - cbn [image_rows]. destruct (index_some l y) as [r Hr]; [lia|]. rewrite Hr.
    assert (Lr : len r = dx). { apply Hw. apply (nth_error_In l (Z.to_nat y)). now apply index_inv. }
    destruct (image_row_spec fn r (Z.to_nat dx) 0 y i) as (j1 & J1 & S1 & P1 & P2); [lia|lia| |].
    { intros x' Hx'. apply Hb; lia. }
    rewrite J1.
    destruct (IH (y + 1) j1) as (j & Hj & Sj & Q1 & Q2); [lia|lia|lia|assumption| |].
    { intros x' y' Hx' Hy'. specialize (Hb x' y' Hx' ltac:(lia)). unfold in_bounds, same_bounds in *. lia. }
    exists j. split; [exact Hj|]. split. { unfold same_bounds in *. lia. }
    split.
    + intros x' y' r' v Hx' Hy' Hr' Hv. destruct (Z.eq_dec y' y) as [->|Hne].
      * rewrite Q2 by lia. rewrite Hr in Hr'. injection Hr' as <-. apply (P1 x' y v); [reflexivity|lia|assumption].
      * apply (Q1 x' y' r' v); [assumption|lia|assumption|assumption].
    + intros x' y' Hn'. rewrite Q2 by lia. apply P2. lia.
Qed.

Lemma new_rgba_some dx dy : Z.abs dx * Z.abs dy * 4 <= 2 ^ 48 ->
  exists i, new_rgba dx dy = Some i /\ paints i dx dy (fun _ _ => transparent).
Proof.
  intros H. unfold new_rgba. replace (_ <=? max_alloc) with true by (unfold max_alloc; lia).
  eexists. split; [reflexivity|]. split; [repeat split|reflexivity].
Qed.

(** Image on every composite an application can obtain, for every colour
    function and every layer. *)
Theorem C40_image A E (c : composite (num A)) fn layer : obtainable A E c ->
  Z.abs (c_dx c) * Z.abs (c_dy c) * 4 <= 2 ^ 48 ->
  exists i pixel, image_of A fn c layer = Some i /\ paints i (c_dx c) (c_dy c) pixel /\
    forall x y, (inside x y layer (c_dx c) (c_dy c) (c_dz c) ->
                   exists v, at_z A c x y layer = Some v /\ pixel x y = fn (f64_of_f32 v)) /\
                (~ inside x y layer (c_dx c) (c_dy c) (c_dz c) -> pixel x y = transparent).
Proof.
  intros Ho Ha. unfold image_of. destruct (new_rgba_some _ _ Ha) as (i & -> & Hb & Hp).
  assert (Hc : (exists input, parsed A E input c) \/ c_dz c = 0).
  { destruct Ho as [[input Hr]|(p & f & dx & dy & ->)].
    - destruct (returned_cases A E input c Hr); eauto.
    - right. apply new_dummy_dz. }
  destruct ((layer <? 0) || (c_dz c <=? layer)) eqn:Hl.
  - exists i, (fun _ _ => transparent). split; [reflexivity|]. split; [split; assumption|].
    intros x y. split; [unfold inside; lia|auto].
  - destruct Hc as [[input Hin]|Hz]; [|lia].
    destruct (parsed_shape A E input c Hin) as ((_ & _ & Dx & Dy & _) & _ & (L1 & L2) & _).
    destruct (index_some (c_dataz c) layer) as [l Hi]; [lia|]. rewrite Hi.
    destruct (L2 l) as [Ll Lw]. { apply (nth_error_In (c_dataz c) (Z.to_nat layer)). now apply index_inv. }
    destruct (image_rows_spec fn l (c_dx c) (Z.to_nat (c_dy c)) 0 i) as (j & Hj & Sj & P1 & P2); [lia|lia|lia|assumption| |].
    { intros x y Hx Hy. unfold in_bounds. lia. }
    rewrite Hj. exists j, (i_pix j). split; [reflexivity|]. split.
    { split; [unfold same_bounds in *; lia|reflexivity]. }
    intros x y. split.
    + intros (Hx & Hy & Hz). destruct (parsed_cell A E input c x y layer Hin) as [v Hv]; [unfold inside; lia|].
      exists v. split; [apply at_z_cell; [unfold inside; lia|assumption]|].
      destruct Hv as (l' & Hl' & r & Hr & Hv). apply nth_is_index in Hl', Hr, Hv.
      rewrite Hi in Hl'. injection Hl' as <-. apply (P1 x y r v); [assumption|lia|assumption|assumption].
    + intros Hn. unfold inside in Hn. rewrite P2 by lia. apply Hp.
Qed.
Print Assumptions C40_image.

(** Image panics only if the picture is too large to allocate. *)
Theorem C40_panic_iff A E (c : composite (num A)) fn layer : obtainable A E c ->
  image_of A fn c layer = None <-> 2 ^ 48 < Z.abs (c_dx c) * Z.abs (c_dy c) * 4.
Proof.
  intros Ho. split.
  - intros H. destruct (Z_lt_le_dec (2 ^ 48) (Z.abs (c_dx c) * Z.abs (c_dy c) * 4)) as [|Hle]; [assumption|].
    destruct (C40_image A E c fn layer Ho Hle) as (i & pixel & Hi & _). congruence.
  - intros H. unfold image_of, new_rgba. replace (_ <=? max_alloc) with false by (unfold max_alloc; lia). reflexivity.
Qed.
Print Assumptions C40_panic_iff.

Example C40_case A E : exists c, obtainable A E c /\ Z.abs (c_dx c) * Z.abs (c_dy c) * 4 <= 2 ^ 48 /\
  inside 2 1 0 (c_dx c) (c_dy c) (c_dz c) /\ ~ inside 2 1 7 (c_dx c) (c_dy c) (c_dz c).
Proof.
  destruct (one_byte_parsed A E) as (c & Hp & Hx & Hy & _ & Hpy & _). exists c.
  destruct (C03_shape A E _ c Hp) as ((_ & _ & _ & _ & Hz) & _).
  destruct (C05_layers A E _ c Hp) as [Hm _]. rewrite Hpy, Hy in Hm. destruct (Hm eq_refl) as [Hdz _].
  change (2 / 2) with 1 in Hdz.
  split. { left. exists (file one_byte_text one_byte_data). destruct Hp as [Hp|Hp]; [now left|right; eauto]. }
  rewrite Hx, Hy, Hdz. unfold inside. lia.
Qed.
