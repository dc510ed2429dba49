(** C76: how radolan2png ends. *)
From Coq Require Import Lia.
From Verif Require Import GoBase GoFloat Catalog Composite Header Data Projection Radolan Vis Png ErrorText ToolExit
  SpecExit Spec SpecHeader SpecText BaseFacts CompositeFacts ApiFacts PropFile PropImage PropHeader PropData PropText PropTool.
From Coq Require String. Import String.StringSyntax.
Local Open Scope Z_scope.
Local Opaque draw_mesh draw_borders mesh_points frange color_fn image_of new_composite fl flit.

Section Exit.
Variable M : mathlib.
Variable log : f64 -> f64.
Variable K : convs.
Variable E : goenv.
Variable border : list (f64 * f64).
Variable stamp : list byte.
Variable open_error create_error : list byte -> list byte.
Variable encode_error : list byte.
Variable parse_error : error -> list byte -> list byte.
Notation A := (arith64 M).
Notation status w args := (exit_status (main M log K E border w args)).
Notation stderr := (tool_stderr M log K E stamp open_error create_error encode_error parse_error).
Notation logged := (logged stamp).
Notation message := (composite_error A E parse_error).

(** The ways a run with two file names can end. *)
Inductive end_of (w : world) (inp out : list byte) : Z -> option (list byte) -> Prop :=
| end_input line : w_input w inp = None -> logged (open_error inp) line -> end_of w inp out 1 (Some line)
| end_refused bytes text line : w_input w inp = Some bytes -> message bytes = Some text -> logged text line -> end_of w inp out 1 (Some line)
| end_create bytes c line : w_input w inp = Some bytes -> new_composite A E bytes = Value c -> c_dx c * c_dy c * 4 <= 2 ^ 48 ->
    w_create w = false -> logged (create_error out) line -> end_of w inp out 1 (Some line)
| end_encode bytes c line : w_input w inp = Some bytes -> new_composite A E bytes = Value c -> c_dx c * c_dy c * 4 <= 2 ^ 48 ->
    w_create w = true -> w_encode w = false -> logged encode_error line -> end_of w inp out 1 (Some line)
| end_done bytes c : w_input w inp = Some bytes -> new_composite A E bytes = Value c -> c_dx c * c_dy c * 4 <= 2 ^ 48 ->
    w_create w = true -> w_encode w = true -> end_of w inp out 0 (Some [])
| end_crash bytes : w_input w inp = Some bytes ->
    (new_composite A E bytes = Panic \/ exists c, new_composite A E bytes = Value c /\ 2 ^ 48 < c_dx c * c_dy c * 4) -> end_of w inp out 2 None.

Lemma log_fatal_logged text : logged text (log_fatal stamp text).
Proof.
  unfold SpecExit.logged, log_fatal. destruct (rev text) as [|b r] eqn:Hr; [left; reflexivity|].
  apply (f_equal (@rev byte)) in Hr. rewrite rev_involutive in Hr. cbn [rev] in Hr.
  destruct b; try (left; reflexivity). right. split; [eauto|]. now rewrite app_nil_r.
Qed.

(** ** C76 *)
Theorem C76_end w name inp out rest : end_of w inp out (status w (name :: inp :: out :: rest)) (stderr w (name :: inp :: out :: rest)).
Proof.
  cbn [main tool_stderr]. destruct (w_input w inp) as [bytes|] eqn:Hw.
  2:{ rewrite (C44_no_input M log K E border w inp out Hw). apply end_input; [exact Hw|apply log_fatal_logged]. }
  destruct (new_composite A E bytes) as [c|e c|] eqn:Hc.
  - assert (Hr : reads M E w inp c) by (exists bytes; auto).
    destruct (C44_color_defined M log K E w inp c Hr) as (f & Hch & _). apply chosen_iff in Hch. destruct Hch as (cm & Hcm & _).
    apply select_chosen in Hcm. cbn [num arith64] in *. rewrite Hcm.
    assert (Ho : obtainable A E c) by (left; exists bytes; now left).
    destruct (C03_shape A E bytes c (or_introl Hc)) as ((_ & _ & Dx & Dy & Dz) & _).
    destruct (Z_lt_le_dec (2 ^ 48) (c_dx c * c_dy c * 4)) as [Hl|Hl].
    + assert (Hi : image_of A (color_fn K log cm) c 0 = None).
      { apply (C40_panic_iff A E c (color_fn K log cm) 0 Ho). cbn [num arith64] in *. rewrite !Z.abs_eq by lia. exact Hl. }
      unfold Png.convert. cbn [num arith64] in *. rewrite Hi, Hw, Hc. cbn [num arith64] in *. rewrite Hcm, Hi. cbn. apply end_crash with bytes; [exact Hw|]. right. eauto.
    + destruct (image_of A (color_fn K log cm) c 0) as [i|] eqn:Hi.
      2:{ apply (C40_panic_iff A E c (color_fn K log cm) 0 Ho) in Hi. cbn [num arith64] in *. rewrite !Z.abs_eq in Hi by lia. lia. }
      destruct (C44_run M log K E border w inp out c Hr Hl) as (i' & nm & _ & _ & ->).
      assert (Hx : exit_status (EvOpen inp :: EvInfo (c_product c) (Some nm) (c_forecast c) ::
        (if c_has_projection c then [EvGrid (f64_mul (f64_of_int (c_dx c)) (c_rx c)) (f64_mul (f64_of_int (c_dy c)) (c_ry c))] else []) ++ EvCreate out ::
        (if w_create w then EvWritePng i' :: (if w_encode w then [] else [EvFatal]) else [EvFatal])) = if w_create w && w_encode w then 0 else 1).
      { destruct (c_has_projection c), (w_create w), (w_encode w); reflexivity. }
      cbn [num arith64] in *. rewrite Hx, ?Hi. destruct (w_create w) eqn:W1; [destruct (w_encode w) eqn:W2|]; cbn [andb].
      * eapply end_done; eauto.
      * eapply end_encode; eauto using log_fatal_logged.
      * eapply end_create; eauto using log_fatal_logged.
  - rewrite (C44_bad_input M log K E border w inp out bytes e c Hw Hc). cbn [exit_status].
    assert (Hm : exists t, message bytes = Some t).
    { unfold composite_error. rewrite Hc. rewrite message_form by (intros ->; now apply (proj2 (proj2 (C50_never A E bytes c)))). eauto. }
    destruct Hm as [t Ht]. rewrite Ht. cbn [option_map]. eapply end_refused; eauto using log_fatal_logged.
  - unfold Png.convert. rewrite Hw, Hc. cbn. eapply end_crash; eauto.
Qed.

Lemma logged_not_empty text line : logged text line -> line <> [].
Proof. intros [->|[_ ->]] H; apply app_eq_nil in H as [_ H]; discriminate. Qed.

(** Fewer than two file names: usage, success. *)
Theorem C76_usage w args : (length args < 3)%nat -> status w args = 0 /\ stderr w args = Some [].
Proof. destruct args as [|a [|b [|c t]]]; cbn; intros H; try lia; auto. Qed.

(** Success means that the picture has been written completely. *)
Theorem C76_success w name inp out rest : status w (name :: inp :: out :: rest) = 0 <->
  w_encode w = true /\ exists i, In (EvWritePng i) (main M log K E border w (name :: inp :: out :: rest)).
Proof.
  split.
  - intros H. pose proof (C76_end w name inp out rest) as D. rewrite H in D.
    remember 0 as z eqn:Ez. destruct D; try discriminate. split; [assumption|]. cbn [main].
    destruct (C44_run M log K E border w inp out c) as (i & nm & _ & _ & ->); [exists bytes; auto|assumption|].
    exists i. rewrite !H3. right. right. apply in_or_app. right. right. now left.
  - intros (He & i & Hi). pose proof (C76_end w name inp out rest) as D. cbn [main] in *.
    destruct D as [line Hw _|bytes text line Hw Hm _|bytes c line Hw Hc Hl H1 _|bytes c line Hw Hc Hl H1 H2 _|bytes c Hw Hc Hl H1 H2|bytes Hw Hc]; [exfalso|exfalso|exfalso|exfalso|reflexivity|exfalso].
    + rewrite (C44_no_input M log K E border w inp out Hw) in Hi. cbn in Hi. intuition discriminate.
    + unfold composite_error in Hm. destruct (new_composite A E bytes) as [c|e c|] eqn:Hc; try discriminate.
      rewrite (C44_bad_input M log K E border w inp out bytes e c Hw Hc) in Hi. cbn in Hi. intuition discriminate.
    + destruct (C44_run M log K E border w inp out c) as (i' & nm & _ & _ & Hr); [exists bytes; auto|assumption|]. rewrite Hr, H1 in Hi.
      match type of Hi with context [if ?b then [EvGrid _ _] else _] => destruct b end; cbn in Hi; intuition discriminate.
    + congruence.
    + destruct Hc as [Hc|(c & Hc & Hl)].
      * unfold Png.convert in Hi. rewrite Hw, Hc in Hi. cbn in Hi. intuition discriminate.
      * assert (Ho : obtainable A E c) by (left; exists bytes; now left).
        destruct (C03_shape A E bytes c (or_introl Hc)) as ((_ & _ & Dx & Dy & Dz) & _).
        unfold Png.convert in Hi. rewrite Hw, Hc in Hi. cbn [num arith64] in *. destruct (select_colormap _ _) as [cm|]; [|cbn in Hi; intuition discriminate].
        assert (Hn : image_of A (color_fn K log cm) c 0 = None).
        { apply (C40_panic_iff A E c (color_fn K log cm) 0 Ho). cbn [num arith64] in *. rewrite !Z.abs_eq by lia. exact Hl. }
        cbn [num arith64] in *. rewrite Hn in Hi. cbn in Hi. intuition discriminate.
Qed.

(** Nothing on stderr exactly on success, one line exactly with status 1. *)
Theorem C76_quiet w args : (stderr w args = Some [] <-> status w args = 0) /\
  ((exists line, stderr w args = Some line /\ line <> []) <-> status w args = 1) /\
  (stderr w args = None <-> status w args = 2).
Proof.
  destruct args as [|a [|inp [|out rest]]]; try (cbn; repeat split; try discriminate; try tauto; intros (l & [= <-] & H); congruence).
  pose proof (C76_end w a inp out rest) as D. destruct D;
    try (match goal with H : logged _ _ |- _ => apply logged_not_empty in H end;
         repeat split; try discriminate; try congruence; eauto).
  - repeat split; try discriminate. intros (l & [= <-] & H'). congruence.
  - repeat split; try discriminate. intros (l & [=] & _).
Qed.

(** The input is refused: the message of NewComposite is logged, the status is
    1, and no file is created. *)
Theorem C76_refused w name inp out rest bytes text : w_input w inp = Some bytes -> message bytes = Some text ->
  status w (name :: inp :: out :: rest) = 1 /\
  (exists line, stderr w (name :: inp :: out :: rest) = Some line /\ logged text line) /\
  main M log K E border w (name :: inp :: out :: rest) = [EvOpen inp; EvFatal].
Proof.
  intros Hw Hm. pose proof Hm as Hm'. unfold composite_error in Hm'. destruct (new_composite A E bytes) as [c|e c|] eqn:Hc; try discriminate.
  cbn [main tool_stderr]. rewrite (C44_bad_input M log K E border w inp out bytes e c Hw Hc), Hw, Hc, Hm. cbn. split; [reflexivity|].
  split; [|reflexivity]. eexists. split; [reflexivity|apply log_fatal_logged].
Qed.

(** A complete file of a product that is not in the catalog is not converted. *)
Theorem C76_unknown_product w name inp out rest bytes (c : composite (num A)) text data : w_input w inp = Some bytes ->
  parsed A E bytes c -> file_layout bytes text data -> lookup unit_catalog (firstn 2 text) = None ->
  status w (name :: inp :: out :: rest) = 1 /\
  stderr w (name :: inp :: out :: rest) =
    Some (stamp ++ bs " radolan.NewComposite: data unit not defined in catalog. data values can be incorrect" ++ [Byte.x0a]).
Proof.
  intros Hw Hp Hf Hl. assert (Hm := proj2 (C72_unit A E parse_error bytes) (ex_intro _ c (ex_intro _ text (ex_intro _ data (conj Hp (conj Hf Hl)))))).
  destruct (C76_refused w name inp out rest bytes _ Hw Hm) as (Hs & (line & He & Hlog) & _). split; [exact Hs|]. rewrite He. f_equal.
  destruct Hlog as [->|[[t Ht] _]]; [reflexivity|]. exfalso. apply (f_equal (@rev byte)) in Ht. rewrite rev_app_distr in Ht. vm_compute in Ht. discriminate.
Qed.

(** Something that is no radar file at all (no delimiter of the header). *)
Theorem C76_no_header w name inp out rest bytes : w_input w inp = Some bytes -> ~ In Byte.x03 bytes ->
  status w (name :: inp :: out :: rest) = 1 /\
  stderr w (name :: inp :: out :: rest) = Some (stamp ++ bs " radolan.parseHeader: header corrupted: too short" ++ [Byte.x0a]).
Proof.
  intros Hw Hn. destruct (C49_no_delimiter A E bytes Hn) as [c Hc].
  assert (Hm : message bytes = Some (bs "radolan.parseHeader: header corrupted: too short")) by (unfold composite_error; rewrite Hc; reflexivity).
  destruct (C76_refused w name inp out rest bytes _ Hw Hm) as (Hs & (line & He & Hlog) & _). split; [exact Hs|]. rewrite He. f_equal.
  destruct Hlog as [->|[[t Ht] _]]; [reflexivity|]. exfalso. apply (f_equal (@rev byte)) in Ht. rewrite rev_app_distr in Ht. vm_compute in Ht. discriminate.
Qed.
End Exit.

(** *** Cases *)
Section Cases.
Variable M : mathlib.
Variable log : f64 -> f64.
Variable K : convs.
Variable E : goenv.
Variable border : list (f64 * f64).
Variable stamp : list byte.
Variable open_error create_error : list byte -> list byte.
Variable parse_error : error -> list byte -> list byte.
Notation status w args := (exit_status (main M log K E border w args)).
Notation stderr encode_error := (tool_stderr M log K E stamp open_error create_error encode_error parse_error).
Definition converting (bytes : list byte) : world := mk_world (fun _ => Some bytes) true true.
Definition args3 : list (list byte) := [bs "radolan2png"; bs "in"; bs "out.png"].

(** A one-byte file is converted. *)
Example C76_case_success : status (converting (file one_byte_text one_byte_data)) args3 = 0.
Proof.
  destruct (C44_case M log K E) as [(c & Hr & Dx & Dy & _) _].
  apply (C76_success M log K E border [] (fun _ => []) (fun _ => []) [] parse_error). split; [reflexivity|]. cbn [main args3].
  destruct (C44_run M log K E border (converting (file one_byte_text one_byte_data)) (bs "in") (bs "out.png") c Hr) as (i & nm & _ & _ & H).
  { rewrite Dx, Dy. lia. }
  exists i. rewrite H. right. right. apply in_or_app. right. right. now left.
Qed.
(** The same when the disk is full while the picture is written. *)
Example C76_case_encode : let w := mk_world (fun _ => Some (file one_byte_text one_byte_data)) true false in
  status w args3 = 1 /\ stderr (bs "no space left on device") w args3 = Some (stamp ++ bs " no space left on device" ++ [Byte.x0a]).
Proof.
  intros w. destruct (C44_case M log K E) as [(c & (bytes & Hb & Hc) & Dx & Dy & _) _]. injection Hb as <-.
  pose proof (C76_end M log K E border stamp open_error create_error (bs "no space left on device") parse_error w (bs "radolan2png") (bs "in") (bs "out.png") []) as D.
  change [bs "radolan2png"; bs "in"; bs "out.png"] with args3 in D.
  remember (file one_byte_text one_byte_data) as b eqn:Eb. clear Eb.
  remember (status w args3) as z eqn:Ez. clear Ez. remember (stderr (bs "no space left on device") w args3) as o eqn:Eo. clear Eo.
  destruct D as [line Hw|bytes text line Hw Hm|bytes c' line Hw Hc' Hl H1|bytes c' line Hw Hc' Hl H1 H2 Hlog|bytes c' Hw Hc' Hl H1 H2|bytes Hw Hc'].
  - discriminate.
  - exfalso. cbn [w_input w] in Hw. injection Hw as <-. unfold composite_error in Hm. rewrite Hc in Hm. discriminate.
  - discriminate.
  - split; [reflexivity|]. f_equal. destruct Hlog as [->|[[t Ht] _]]; [reflexivity|]. exfalso. apply (f_equal (@rev byte)) in Ht. rewrite rev_app_distr in Ht. vm_compute in Ht. discriminate.
  - discriminate.
  - exfalso. cbn [w_input w] in Hw. injection Hw as <-. destruct Hc' as [Hc'|(c' & Hc' & Hl)]; [congruence|]. assert (c' = c) by congruence. subst c'. cbn [num arith64] in Hl, Dx, Dy. rewrite Dx, Dy in Hl. lia.
Qed.
(** A file of the unknown product ZZ. *)
Example C76_case_unknown ee : let bytes := file (bs "ZZ282105100000716BY    58VS 3PR E+00INT   5BG002003") one_byte_data in
  status (converting bytes) args3 = 1 /\
  stderr ee (converting bytes) args3 =
    Some (stamp ++ bs " radolan.NewComposite: data unit not defined in catalog. data values can be incorrect" ++ [Byte.x0a]).
Proof.
  intros bytes. destruct (C28_unknown_case (arith64 M) E) as (c & Hc & _).
  apply (C76_unknown_product M log K E border stamp open_error create_error ee parse_error (converting bytes) _ _ _ _ bytes c
    (bs "ZZ282105100000716BY    58VS 3PR E+00INT   5BG002003") one_byte_data); [reflexivity|now right| |reflexivity].
  split; [reflexivity|]. vm_compute. intuition discriminate.
Qed.
(** An empty file. *)
Example C76_case_empty ee : status (converting []) args3 = 1 /\
  stderr ee (converting []) args3 = Some (stamp ++ bs " radolan.parseHeader: header corrupted: too short" ++ [Byte.x0a]).
Proof. apply C76_no_header with (bytes := []); [reflexivity|intros []]. Qed.
(** Negative dimensions: a crash, status 2. *)
Example C76_case_crash data : status (converting (file negative_text data)) args3 = 2.
Proof.
  pose proof (C76_end M log K E border stamp open_error create_error [] parse_error (converting (file negative_text data)) (bs "radolan2png") (bs "in") (bs "out.png") []) as D.
  change [bs "radolan2png"; bs "in"; bs "out.png"] with args3 in D.
  pose proof (C02_negative_dimension_panics (arith64 M) E data) as P.
  remember (file negative_text data) as b eqn:Eb. clear Eb.
  remember (status (converting b) args3) as z eqn:Ez. clear Ez. remember (stderr [] (converting b) args3) as o eqn:Eo. clear Eo.
  destruct D as [line Hw|bytes text line Hw Hm|bytes c' line Hw Hc' Hl H1|bytes c' line Hw Hc' Hl H1|bytes c' Hw Hc' Hl H1 H2|bytes Hw Hc'];
    [discriminate|..|reflexivity]; exfalso; cbn [w_input converting] in Hw; injection Hw as <-; [unfold composite_error in Hm; rewrite P in Hm; discriminate|..]; rewrite P in Hc'; discriminate.
Qed.
End Cases.
Print Assumptions C76_end.
Print Assumptions C76_usage.
Print Assumptions C76_success.
Print Assumptions C76_quiet.
Print Assumptions C76_refused.
Print Assumptions C76_unknown_product.
Print Assumptions C76_no_header.
