(** C68: changed data bytes change nothing but the values they encode. *)
From Coq Require Import Lia.
From Coq Require String. Import String.StringSyntax.
From Verif Require Import GoBase GoFloat Catalog Composite Header Data Projection Radolan Spec SpecHeader SpecData SpecDamage
  BaseFacts ParseFacts HeaderMeaning CompositeFacts FileFacts ApiFacts RoundTrip PropFile PropHeader PropGrid PropData.

Section Damage.
Variables (A : arith) (E : goenv).
Notation T := (num A).

Lemma parsed_possible input (c : composite T) : parsed A E input c -> possible_dims c.
Proof.
  intros Hp. pose proof Hp as H.
  apply (parsed_fields A E) in H as (t & r & tl & ch & p & dz & d0 & _ & _ & _ & Ha & _ & _ & _ & _ & _ & _ & _ & _ & _ & _ & Ex & Ey & _).
  destruct (C03_shape A E _ _ Hp) as ((X1 & X2 & _) & _). unfold possible_dims. revert Ha. unfold alloc_ok. rewrite <- Ex, <- Ey. intuition.
Qed.

(** Files with the same header: all fields but the values are the same, and so is the error. *)
Theorem C68_header text data data' (c c' : composite T) : ~ In Byte.x03 text ->
  parsed A E (text ++ Byte.x03 :: data) c -> parsed A E (text ++ Byte.x03 :: data') c' ->
  without_values c' = without_values c /\
  (new_composite A E (text ++ Byte.x03 :: data) = Value c <-> new_composite A E (text ++ Byte.x03 :: data') = Value c') /\
  forall north east, project A c' north east = project A c north east.
Proof.
  intros Hn Hp Hp'.
  pose proof (C05_layers A E _ _ Hp) as Z1. pose proof (C05_layers A E _ _ Hp') as Z2.
  assert (U : c_unit c = c_unit c').
  { pose proof Hp as H. pose proof Hp' as H'.
    apply (parsed_fields A E) in H as (t & r & tl & ch & p & dz & d0 & L & P & _ & _ & _ & _ & _ & _ & _ & _ & _ & _ & -> & _).
    apply (parsed_fields A E) in H' as (t' & r' & tl' & ch' & p' & dz' & d0' & L' & P' & _ & _ & _ & _ & _ & _ & _ & _ & _ & _ & -> & _).
    destruct (file_layout_unique _ _ _ _ _ L (conj eq_refl Hn)) as [-> _]. destruct (file_layout_unique _ _ _ _ _ L' (conj eq_refl Hn)) as [-> _].
    rewrite P in P'. injection P' as <-. reflexivity. }
  assert (W : without_values c' = without_values c /\ proj_fields A c' = proj_fields A c).
  { pose proof Hp as H. pose proof Hp' as H'.
    apply (parsed_inv A E) in H as (t & r & tl & ch & p & dz & d0 & L & P & _ & _ & _ & _ & _ & _ & Ec).
    apply (parsed_inv A E) in H' as (t' & r' & tl' & ch' & p' & dz' & d0' & L' & P' & _ & _ & _ & _ & _ & _ & Ec').
    destruct (file_layout_unique _ _ _ _ _ L (conj eq_refl Hn)) as [-> _]. destruct (file_layout_unique _ _ _ _ _ L' (conj eq_refl Hn)) as [-> _].
    rewrite P in P'. injection P' as <-.
    set (x := set_data (set_dz (set_dataz (set_plain ch p) dz) (len dz)) d0) in Ec. set (x' := set_data (set_dz (set_dataz (set_plain ch p') dz') (len dz')) d0') in Ec'.
    assert (Q : proj_fields A c' = proj_fields A c) by (rewrite Ec, Ec'; apply calibrate_fields; reflexivity).
    split; [|exact Q]. pose proof (calibrate_frame A x) as F. pose proof (calibrate_frame A x') as F'. rewrite <- Ec in F. rewrite <- Ec' in F'.
    destruct F as (F1 & F2 & F3 & F4 & F5 & _ & F7 & F8 & _ & _ & F11 & F12 & F13 & F14 & F15 & F16 & F17).
    destruct F' as (G1 & G2 & G3 & G4 & G5 & _ & G7 & G8 & _ & _ & G11 & G12 & G13 & G14 & G15 & G16 & G17).
    assert (Dz : c_dz c' = c_dz c).
    { assert (Ey : c_py c' = c_py c) by (rewrite F8, G8; reflexivity). assert (Ed : c_dy c' = c_dy c) by (rewrite F12, G12; reflexivity).
      rewrite Ey, Ed in Z2. destruct (Z.eq_dec (c_py c mod c_dy c) 0) as [E0|E0].
      - destruct (proj1 Z1 E0) as [-> _]. destruct (proj1 Z2 E0) as [-> _]. reflexivity.
      - destruct (proj2 Z1 E0) as [-> _]. destruct (proj2 Z2 E0) as [-> _]. reflexivity. }
    clear F13 G13. unfold proj_fields in Q. injection Q as Q1 Q2 Q3 Q4 Q5 Q6.
    unfold without_values, set_data, set_dataz, set_plain; cbn [c_product c_capture c_forecast c_interval c_unit c_plain c_px c_py c_dataz c_data c_dx c_dy c_dz c_rx c_ry c_has_projection c_format c_data_length c_precision c_level c_offx c_offy c_wgs84].
    rewrite F1, F2, F3, F4, F5, F7, F8, F11, F12, F14, F15, F16, F17, G1, G2, G3, G4, G5, G7, G8, G11, G12, G14, G15, G16, G17, Q1, Q2, Q3, Q4, Q5, Q6, Dz. reflexivity. }
  destruct W as [W Q]. split; [exact W|]. split; [|intros north east; apply project_fields; exact Q].
  assert (V : forall input (d : composite T), parsed A E input d -> (new_composite A E input = Value d <-> c_unit d <> Unit_unknown)).
  { intros input d Hd. pose proof (new_composite_inv A E input) as Hs. destruct Hd as [Hd|Hd]; rewrite Hd in Hs; cbn beta iota in Hs.
    - split; [intros _; apply Hs|auto].
    - split; [congruence|]. intros Hu. destruct Hs as [[Hs _]|(_ & Hs & _)]; [now elim Hs|contradiction]. }
  rewrite (V _ _ Hp), (V _ _ Hp'), U. reflexivity.
Qed.

(** Fixed-width files: any change of data bytes is accepted, and every value
    whose bytes did not change is the same. *)
Theorem C68_two_byte text data data' (c : composite T) : ~ In Byte.x03 text ->
  parsed A E (text ++ Byte.x03 :: data) c -> field E text (bs "LV") = None -> announced_payload E text (2 * (c_px c * c_py c)) ->
  length data' = length data ->
  exists c', parsed A E (text ++ Byte.x03 :: data') c' /\
    forall x y z, inside x y z (c_dx c) (c_dy c) (c_dz c) ->
      let k := ((c_dz c - z) * c_dy c - 1 - y) * c_dx c + x in
      (forall b, nth_is data (2 * k) b -> nth_is data' (2 * k) b) -> (forall b, nth_is data (2 * k + 1) b -> nth_is data' (2 * k + 1) b) ->
      at_z A c' x y z = at_z A c x y z.
Proof.
  intros Hn Hp Hlv Hpay Hlen.
  assert (Hl : file_layout (text ++ Byte.x03 :: data) text data) by (split; [reflexivity|exact Hn]).
  assert (Hl' : file_layout (text ++ Byte.x03 :: data') text data') by (split; [reflexivity|exact Hn]).
  pose proof (parsed_meaning A E _ _ _ _ Hp Hl) as Hm.
  pose proof (parsed_possible _ _ Hp) as Hd.
  pose proof (C19_two_byte_truncated A E text data c Hl Hm Hd Hlv Hpay) as Hc. pose proof (C19_two_byte_truncated A E text data' c Hl' Hm Hd Hlv Hpay) as Hc'.
  unfold len in Hc, Hc'. rewrite Hlen in Hc'. destruct (_ <=? _).
  2:{ exfalso. destruct Hc as [d Hc]. destruct Hp as [Hp|Hp]; congruence. }
  destruct Hc' as [c' Hc']. exists c'. split; [exact Hc'|]. destruct (C68_header text data data' c c' Hn Hp Hc') as [W _].
  intros x y z Hin k K1 K2.
  destruct (C06_two_byte_pixels A E _ text data c x y z Hp Hl Hlv Hpay Hin) as (lo & hi & B1 & B2 & ->).
  assert (P : c_px c' = c_px c /\ c_py c' = c_py c /\ c_dx c' = c_dx c /\ c_dy c' = c_dy c /\ c_dz c' = c_dz c /\ c_precision c' = c_precision c /\ c_unit c' = c_unit c).
  { unfold without_values in W. apply (f_equal (fun d => (c_px d, c_py d, c_dx d, c_dy d, c_dz d, c_precision d, c_unit d))) in W. cbn in W. injection W. auto 10. }
  destruct P as (P1 & P2 & P3 & P4 & P5 & P6 & P7).
  destruct (C06_two_byte_pixels A E _ text data' c' x y z Hc' Hl' Hlv) as (lo' & hi' & B1' & B2' & ->); [now rewrite P1, P2|now rewrite P3, P4, P5|].
  rewrite P3, P4, P5 in B1', B2'. fold k in B1, B2, B1', B2'. apply K1 in B1. apply K2 in B2. rewrite P6, P7.
  destruct B1 as [_ B1], B2 as [_ B2], B1' as [_ B1'], B2' as [_ B2']. congruence.
Qed.

Theorem C68_one_byte text data data' (c : composite T) : ~ In Byte.x03 text ->
  parsed A E (text ++ Byte.x03 :: data) c -> field E text (bs "LV") = None -> announced_payload E text (c_px c * c_py c) ->
  length data' = length data ->
  exists c', parsed A E (text ++ Byte.x03 :: data') c' /\
    forall x y z, inside x y z (c_dx c) (c_dy c) (c_dz c) ->
      let k := ((c_dz c - z) * c_dy c - 1 - y) * c_dx c + x in
      (forall b, nth_is data k b -> nth_is data' k b) -> at_z A c' x y z = at_z A c x y z.
Proof.
  intros Hn Hp Hlv Hpay Hlen.
  assert (Hl : file_layout (text ++ Byte.x03 :: data) text data) by (split; [reflexivity|exact Hn]).
  assert (Hl' : file_layout (text ++ Byte.x03 :: data') text data') by (split; [reflexivity|exact Hn]).
  pose proof (parsed_meaning A E _ _ _ _ Hp Hl) as Hm.
  pose proof (parsed_possible _ _ Hp) as Hd.
  pose proof (C19_one_byte_truncated A E text data c Hl Hm Hd Hlv Hpay) as Hc. pose proof (C19_one_byte_truncated A E text data' c Hl' Hm Hd Hlv Hpay) as Hc'.
  unfold len in Hc, Hc'. rewrite Hlen in Hc'. destruct (_ <=? _).
  2:{ exfalso. destruct Hc as [d Hc]. destruct Hp as [Hp|Hp]; congruence. }
  destruct Hc' as [c' Hc']. exists c'. split; [exact Hc'|]. destruct (C68_header text data data' c c' Hn Hp Hc') as [W _].
  intros x y z Hin k K1.
  destruct (C07_one_byte_pixels A E _ text data c x y z Hp Hl Hlv Hpay Hin) as (lo & B1 & ->).
  assert (P : c_px c' = c_px c /\ c_py c' = c_py c /\ c_dx c' = c_dx c /\ c_dy c' = c_dy c /\ c_dz c' = c_dz c /\ c_precision c' = c_precision c /\ c_unit c' = c_unit c).
  { unfold without_values in W. apply (f_equal (fun d => (c_px d, c_py d, c_dx d, c_dy d, c_dz d, c_precision d, c_unit d))) in W. cbn in W. injection W. auto 10. }
  destruct P as (P1 & P2 & P3 & P4 & P5 & P6 & P7).
  destruct (C07_one_byte_pixels A E _ text data' c' x y z Hc' Hl' Hlv) as (lo' & B1' & ->); [now rewrite P1, P2|now rewrite P3, P4, P5|].
  rewrite P3, P4, P5 in B1'. fold k in B1, B1'. apply K1 in B1. rewrite P6, P7.
  destruct B1 as [_ B1], B1' as [_ B1']. congruence.
Qed.

Lemma replaced_length {X} (l : list X) y x : (y < length l)%nat -> length (replaced l y x) = length l.
Proof. intros H. unfold replaced. rewrite app_length, firstn_length. cbn [length]. rewrite skipn_length. lia. Qed.
Lemma replaced_Forall {X} (P : X -> Prop) l y x : Forall P l -> P x -> Forall P (replaced l y x).
Proof.
  intros F H. revert y. induction F as [|a l Ha F IH]; intros y.
  - unfold replaced. rewrite firstn_nil, skipn_nil. constructor; [exact H|constructor].
  - destruct y as [|y]; [constructor; assumption|]. unfold replaced in *. cbn [firstn skipn app]. constructor; [exact Ha|apply IH].
Qed.
Lemma replaced_Forall2 {X Y} (R : X -> Y -> Prop) l m y a b : Forall2 R l m -> R a b -> Forall2 R (replaced l y a) (replaced m y b).
Proof.
  intros F H. revert y. induction F as [|u v l m Huv F IH]; intros y.
  - unfold replaced. rewrite !firstn_nil, !skipn_nil. cbn. constructor; [exact H|constructor].
  - destruct y as [|y]; [constructor; assumption|]. unfold replaced in *. cbn [firstn skipn app]. constructor; [exact Huv|apply IH].
Qed.
Lemma Forall2_functional {X Y} (R : X -> Y -> Prop) (l : list X) (m m' : list Y) : (forall x y z, R x y -> R x z -> y = z) -> Forall2 R l m -> Forall2 R l m' -> m = m'.
Proof. intros H F. revert m'. induction F as [|u v l m Huv F IH]; intros m' G; inversion G; subst; [reflexivity|]. f_equal; eauto. Qed.

(** Runlength files: a changed line changes its own row, or is reported. *)
Theorem C68_runlength text lv levels lines tail (c : composite T) y line : ~ In Byte.x03 text ->
  let file ls := text ++ Byte.x03 :: concat (map (fun l => l ++ [Byte.x0a]) ls) ++ tail in
  field E text (bs "LV") = Some lv -> level_table E lv levels ->
  parsed A E (file lines) c -> len lines = c_py c -> Forall (fun l => ~ In Byte.x0a l) lines ->
  (y < length lines)%nat -> ~ In Byte.x0a line ->
  match line_meaning levels (Z.to_nat (c_px c)) line with
  | Some row => exists c', parsed A E (file (replaced lines y line)) c' /\ c_plain c' = replaced (c_plain c) y row
  | None => (bad_offset line -> exists c', new_composite A E (file (replaced lines y line)) = Failure EOffsetValue c') /\
            (~ bad_offset line -> exists c', new_composite A E (file (replaced lines y line)) = Failure EDestination c')
  end.
Proof.
  intros Hn file Hlv Ht Hp Hlen Hnl Hy Hl.
  assert (L1 : file_layout (file lines) text (concat (map (fun l => l ++ [Byte.x0a]) lines) ++ tail)) by (split; [reflexivity|exact Hn]).
  assert (L2 : file_layout (file (replaced lines y line)) text (concat (map (fun l => l ++ [Byte.x0a]) (replaced lines y line)) ++ tail)) by (split; [reflexivity|exact Hn]).
  pose proof (parsed_meaning A E _ _ _ _ Hp L1) as Hm. pose proof (parsed_possible _ _ Hp) as Hd.
  destruct (C08_runlength_rows A E _ text _ lv levels c Hp L1 Hlv Ht) as (ls & t & Hs & Hls & F).
  assert (S1 : split_lines (concat (map (fun l => l ++ [Byte.x0a]) lines) ++ tail) lines tail) by (split; [reflexivity|exact Hnl]).
  destruct (split_lines_fun lines _ ls tail t ltac:(unfold len in *; lia) S1 Hs) as [<- <-].
  assert (Hlr : length (replaced lines y line) = length lines) by (now apply replaced_length).
  assert (Hnr : Forall (fun l => ~ In Byte.x0a l) (replaced lines y line)) by (now apply replaced_Forall).
  assert (Fm : Forall (fun l => line_meaning levels (Z.to_nat (c_px c)) l <> None) lines) by (clear -F; induction F; constructor; [congruence|assumption]).
  destruct (line_meaning levels (Z.to_nat (c_px c)) line) as [row|] eqn:Em.
  - assert (Hacc : exists c', parsed A E (file lines) c') by eauto.
    apply C46_accepted_iff in Hacc as (text0 & data0 & c0 & n & K1 & K2 & K3 & K4 & K5).
    destruct (file_layout_unique _ _ _ _ _ K1 L1) as [-> ->].
    assert (Hacc' : exists c', parsed A E (file (replaced lines y line)) c').
    { apply C46_accepted_iff. exists text, (concat (map (fun l => l ++ [Byte.x0a]) (replaced lines y line)) ++ tail), c, n.
      split; [exact L2|]. split; [exact Hm|]. split; [exact Hd|]. split; [exact K4|]. left.
      exists lv, levels, (replaced lines y line), tail. split; [exact Hlv|]. split; [exact Ht|]. split; [split; [reflexivity|exact Hnr]|].
      split; [unfold len in *; rewrite Hlr; exact Hlen|]. apply replaced_Forall; [exact Fm|congruence]. }
    destruct Hacc' as [c' Hp']. exists c'. split; [exact Hp'|].
    pose proof (parsed_header A E _ _ _ _ _ Hp' L2 Hm) as (_ & _ & _ & _ & _ & Ex & Ey & _).
    destruct (C08_runlength_rows A E _ text _ lv levels c' Hp' L2 Hlv Ht) as (ls' & t' & Hs' & Hls' & F').
    assert (S2 : split_lines (concat (map (fun l => l ++ [Byte.x0a]) (replaced lines y line)) ++ tail) (replaced lines y line) tail) by (split; [reflexivity|exact Hnr]).
    destruct (split_lines_fun (replaced lines y line) _ ls' tail t' ltac:(unfold len in *; lia) S2 Hs') as [<- <-].
    rewrite Ex in F'. eapply Forall2_functional; [|exact F'|apply replaced_Forall2; [exact F|exact Em]]. cbn. congruence.
  - assert (D : forall e, data_defect E text (concat (map (fun l => l ++ [Byte.x0a]) (replaced lines y line)) ++ tail) (c_px c) (c_py c) e -> e <> ErrUnknownUnit ->
      exists c', new_composite A E (file (replaced lines y line)) = Failure e c').
    { intros e De He. exact (proj2 (C50_data_error A E _ text _ c e L2 Hm He) De). }
    assert (Sp : split_lines (concat (map (fun l => l ++ [Byte.x0a]) (replaced lines y line)) ++ tail) (firstn y lines ++ [line])
      (concat (map (fun l => l ++ [Byte.x0a]) (skipn (S y) lines)) ++ tail)).
    { split.
      - unfold replaced. rewrite !map_app, !concat_app. cbn [map concat]. rewrite ?concat_app, ?app_nil_r, <- !app_assoc. reflexivity.
      - unfold replaced in Hnr. apply Forall_app in Hnr as [N1 _]. apply Forall_app. split; [exact N1|]. constructor; [exact Hl|constructor]. }
    assert (Fy : Forall (fun l => line_meaning levels (Z.to_nat (c_px c)) l <> None) (firstn y lines)) by (rewrite <- (firstn_skipn y lines) in Fm; now apply Forall_app in Fm).
    assert (Ly : len (firstn y lines) < c_py c) by (unfold len in *; rewrite firstn_length; lia).
    split; intros Hb; apply D; try discriminate.
    + eapply defect_offset; try eassumption.
    + eapply defect_long; try eassumption.
Qed.
End Damage.

(** * Concrete cases *)
(** All bytes of the last record damaged: the other values stay. *)
Definition damaged_data := firstn 10 two_byte_data ++ [Byte.xff; Byte.xff].
Example C68_case A E : exists c c', parsed A E (file two_byte_text two_byte_data) c /\ parsed A E (file two_byte_text damaged_data) c' /\
  at_z A c' 0 0 0 = at_z A c 0 0 0 /\ at_z A c' 1 0 0 = at_z A c 1 0 0 /\ at_z A c' 2 0 0 <> at_z A c 2 0 0.
Proof.
  destruct (two_byte_parsed A E) as (c & Hp & Hx & Hy & Hpx & Hpy & _).
  destruct two_byte_layout as [_ Hn].
  destruct (C68_two_byte A E two_byte_text two_byte_data damaged_data c Hn Hp) as (c' & Hp' & H).
  - vm_compute. reflexivity.
  - rewrite Hpx, Hpy. apply two_byte_payload.
  - reflexivity.
  - exists c, c'. split; [exact Hp|]. split; [exact Hp'|].
    assert (Hz : c_dz c = 1).
    { destruct (proj1 (C05_layers A E _ _ Hp)) as [-> _]; rewrite Hpy, Hy; reflexivity. }
    rewrite Hx, Hy, Hz in H.
    split; [|split].
    + apply H; [unfold inside; lia| |]; intros b [_ Hb]; (split; [lia|]); vm_compute in Hb |- *; exact Hb.
    + apply H; [unfold inside; lia| |]; intros b [_ Hb]; (split; [lia|]); vm_compute in Hb |- *; exact Hb.
    + clear -Hp Hp'. unfold parsed in Hp, Hp'. destruct Hp as [Hp|Hp], Hp' as [Hp'|Hp']; vm_compute in Hp, Hp'; try discriminate.
      injection Hp as <-. injection Hp' as <-. vm_compute. discriminate.
Qed.
Definition run_lines := [[Byte.x01; Byte.x11; Byte.x21; Byte.x13]; [Byte.x02; Byte.x12; Byte.x1f; Byte.x12]].
Example C68_case_run A E : exists c levels lv, parsed A E (run_text ++ Byte.x03 :: concat (map (fun l => l ++ [Byte.x0a]) run_lines) ++ [Byte.x41]) c /\
  field E run_text (bs "LV") = Some lv /\ level_table E lv levels /\ len run_lines = c_py c /\
  line_meaning levels (Z.to_nat (c_px c)) [Byte.x01; Byte.x14] = Some [NaN32; NaN32; NaN32; NaN32] /\
  line_meaning levels (Z.to_nat (c_px c)) [Byte.x01; Byte.x10; Byte.x51] = None.
Proof.
  destruct (run_parsed A E) as (c & Hp & _ & _ & Hx & Hy & _). destruct (run_levels E) as (lv & H1 & H2).
  exists c, [f32_lit 1 0; f32_lit 19 0; f32_lit (-28) 0], lv. rewrite Hx, Hy.
  split; [exact Hp|]. split; [exact H1|]. split; [exact H2|]. repeat split; vm_compute; reflexivity.
Qed.
Print Assumptions C68_header.
Print Assumptions C68_two_byte.
Print Assumptions C68_one_byte.
Print Assumptions C68_runlength.
