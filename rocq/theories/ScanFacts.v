(** The scanner model reads exactly the numbers described in SpecHeader.v. *)
From Coq Require Import Lia.
From Verif Require Import GoBase GoUtf8 GoScan GoFloat Catalog Header Spec SpecHeader BaseFacts HeaderSafe.

Lemma decimal_acc ds : forall a, fold_left (fun a d => a * 10 + (d - 48)) ds a = a * 10 ^ len ds + decimal ds.
Proof.
  induction ds as [|d ds IH]; intros a; cbn [fold_left decimal].
  - change (len []) with 0. change (10 ^ 0) with 1. lia.
  - rewrite IH. unfold len. cbn [length]. rewrite Nat2Z.inj_succ, Z.pow_succ_r by lia. lia.
Qed.
Lemma dec_value_decimal ds : dec_value ds = decimal ds.
Proof. unfold dec_value. rewrite decimal_acc. lia. Qed.

Lemma is_dec_digit r : is_dec r = true <-> digit_rune r.
Proof. unfold is_dec, between, digit_rune. rewrite andb_true_iff, !Z.leb_le. lia. Qed.

Lemma skip_space_spec l r : skip_space l = Some r ->
  exists bl, l = bl ++ r /\ Forall blank_rune bl /\ (forall c t, r = c :: t -> is_space c = false).
Proof.
  revert r. induction l as [|x l IH]; intros r; cbn [skip_space].
  - intros [= <-]. exists []. repeat split; auto. discriminate.
  - destruct (x =? 10) eqn:E10; [discriminate|]. destruct (is_space x) eqn:Es.
    + intros H. destruct (IH _ H) as (bl & -> & Hb & Hr). exists (x :: bl).
      split; [reflexivity|split; [|exact Hr]]. constructor; [|assumption].
      split; [assumption|]. now apply Z.eqb_neq.
    + intros [= <-]. exists []. split; [reflexivity|split; [constructor|]]. intros c t [= -> _]. exact Es.
Qed.

Lemma skip_space_blanks bl r : Forall blank_rune bl -> (forall c t, r = c :: t -> is_space c = false) ->
  skip_space (bl ++ r) = Some r.
Proof.
  intros Hb Hr. induction Hb as [|x bl [Hs Hn] Hb IH]; cbn [app skip_space].
  - destruct r as [|c t]; [reflexivity|]. cbn [skip_space]. pose proof (Hr c t eq_refl) as Hc.
    destruct (c =? 10) eqn:E; [|now rewrite Hc].
    apply Z.eqb_eq in E. subst. discriminate Hc.
  - apply Z.eqb_neq in Hn. now rewrite Hn, Hs.
Qed.

Lemma accept_many_max p l a b : accept_many p l = (a, b) -> forall d t, b = d :: t -> p d = false.
Proof.
  revert a b. induction l as [|x l IH]; intros a b; cbn [accept_many]; [intros [= <- <-]; discriminate|].
  destruct (p x) eqn:Ep.
  - destruct (accept_many p l) as [a' b'] eqn:E. intros [= <- <-]. eapply IH; eauto.
  - intros [= <- <-] d t [= -> _]. exact Ep.
Qed.
Lemma accept_many_app p a b : forallb p a = true -> (forall d t, b = d :: t -> p d = false) ->
  accept_many p (a ++ b) = (a, b).
Proof.
  intros Ha Hb. induction a as [|x a IH]; cbn [app accept_many].
  - destruct b as [|d t]; [reflexivity|]. cbn [accept_many]. now rewrite (Hb d t eq_refl).
  - cbn in Ha. apply andb_true_iff in Ha. destruct Ha as [-> Ha]. now rewrite IH.
Qed.

Lemma digit_not_space r : digit_rune r -> is_space r = false.
Proof.
  intros H. unfold digit_rune in H. unfold is_space, between.
  repeat rewrite orb_false_iff. repeat split;
  repeat match goal with
  | |- context [?a <=? ?b] => destruct (Z.leb_spec a b)
  | |- context [?a =? ?b] => destruct (Z.eqb_spec a b)
  end; cbn; auto; exfalso; lia.
Qed.

Lemma in_int_iff v : in_int v = true <-> int_min <= v <= int_max.
Proof. unfold in_int. rewrite andb_true_iff, !Z.leb_le. tauto. Qed.

Lemma scan_int_number l v rest : scan_int l = Some (v, rest) <-> number_prefix l v rest.
Proof.
  split.
  - unfold scan_int. destruct (skip_space l) as [[|x l1]|] eqn:Es; try discriminate.
    destruct (accept_one is_sign (x :: l1)) as [sg l2] eqn:Eo.
    destruct (accept_many is_dec l2) as [ds l3] eqn:Ed.
    destruct ds as [|d ds]; [discriminate|].
    unfold parse_int. destruct (in_int _) eqn:Ei; [|discriminate]. intros [= <- <-].
    destruct (skip_space_spec _ _ Es) as (bl & -> & Hb & _).
    destruct (accept_many_split _ _ _ _ Ed) as [-> Hd].
    destruct (accept_one_split _ _ _ _ Eo) as [Hx _].
    assert (Hsg : sg = [] \/ sg = [43] \/ sg = [45]).
    { cbn in Eo. destruct (is_sign x) eqn:Ex; injection Eo as <- _; [|tauto].
      unfold is_sign in Ex. apply orb_true_iff in Ex. rewrite !Z.eqb_eq in Ex. destruct Ex as [-> | ->]; auto. }
    econstructor.
    + f_equal. exact Hx.
    + assumption.
    + exact Hsg.
    + discriminate.
    + apply Forall_forall. intros r Hr. apply is_dec_digit. rewrite forallb_forall in Hd. auto.
    + intros r t -> Hr. apply is_dec_digit in Hr. rewrite (accept_many_max _ _ _ _ Ed r t eq_refl) in Hr. discriminate.
    + rewrite <- dec_value_decimal. destruct Hsg as [-> | [-> | ->]]; reflexivity.
    + now apply in_int_iff.
  - intros [bl sg ds -> Hb Hsg Hne Hd Hr Hv Hi].
    unfold scan_int.
    assert (Hns : forall c t, sg ++ ds ++ rest = c :: t -> is_space c = false).
    { intros c t He. destruct Hsg as [-> | [-> | ->]]; cbn in He.
      - destruct ds as [|d ds]; [congruence|]. injection He as <- _. apply digit_not_space. now inversion Hd.
      - injection He as <- _. reflexivity.
      - injection He as <- _. reflexivity. }
    rewrite (skip_space_blanks bl _ Hb Hns).
    destruct ds as [|d ds]; [congruence|].
    assert (Hdd : forallb is_dec (d :: ds) = true).
    { apply forallb_forall. intros r Hr'. apply is_dec_digit. rewrite Forall_forall in Hd. auto. }
    assert (Hm : accept_many is_dec ((d :: ds) ++ rest) = (d :: ds, rest)).
    { apply accept_many_app; [assumption|]. intros r t ->. destruct (is_dec r) eqn:E; [|reflexivity].
      exfalso. eapply Hr; [reflexivity|]. now apply is_dec_digit. }
    apply in_int_iff in Hi.
    destruct Hsg as [-> | [-> | ->]].
    + cbn [app].
      assert (Hd1 : digit_rune d) by now inversion Hd.
      assert (Hs : is_sign d = false).
      { unfold is_sign, digit_rune in *. apply orb_false_iff. rewrite !Z.eqb_neq. lia. }
      cbn [accept_one]. rewrite Hs. change (d :: ds ++ rest) with ((d :: ds) ++ rest). rewrite Hm.
      unfold parse_int. rewrite dec_value_decimal.
      rewrite Hv in Hi. cbn [list_eq_dec list_rec list_rect] in Hi. rewrite Hi. now rewrite Hv.
    + cbn [app accept_one]. change (is_sign 43) with true. cbn iota.
      change (d :: ds ++ rest) with ((d :: ds) ++ rest). rewrite Hm.
      unfold parse_int. rewrite dec_value_decimal. rewrite Hv in *. cbn in Hi |- *. now rewrite Hi.
    + cbn [app accept_one]. change (is_sign 45) with true. cbn iota.
      change (d :: ds ++ rest) with ((d :: ds) ++ rest). rewrite Hm.
      unfold parse_int. rewrite dec_value_decimal. rewrite Hv in *. cbn in Hi |- *. now rewrite Hi.
Qed.

(** doScanf skips blanks before the verb; scan_int does so again. *)
Lemma skip_then_scan l l1 : skip_space l = Some l1 -> scan_int l1 = scan_int l.
Proof.
  intros H. unfold scan_int. rewrite H.
  destruct (skip_space_spec _ _ H) as (bl & _ & _ & Hr).
  rewrite (skip_space_blanks [] l1 (Forall_nil _) Hr : skip_space l1 = Some l1). reflexivity.
Qed.
Lemma skip_none_scan l : skip_space l = None -> scan_int l = None.
Proof. unfold scan_int. now intros ->. Qed.

Lemma sscanf_verb rest l :
  sscanf (Verb_d None :: rest) l =
  match scan_int l with
  | None => ([], false)
  | Some (v, l') => let '(vs, ok) := sscanf rest l' in (v :: vs, ok)
  end.
Proof.
  cbn [sscanf]. destruct (skip_space l) as [l1|] eqn:E.
  - rewrite (skip_then_scan _ _ E). destruct (scan_int l) as [[v w]|]; [|reflexivity]. now rewrite app_nil_r.
  - now rewrite (skip_none_scan _ E).
Qed.

Lemma sscanf_d_number s v : sscanf_d s = Some v <-> number_text s v.
Proof.
  unfold sscanf_d, number_text. rewrite sscanf_verb. cbn [sscanf].
  destruct (scan_int (runes s)) as [[v' r]|] eqn:E.
  - split; [intros [= <-]; exists r; now apply scan_int_number|].
    intros [r' Hr]. apply scan_int_number in Hr. rewrite E in Hr. injection Hr as -> _. reflexivity.
  - split; [discriminate|]. intros [r' Hr]. apply scan_int_number in Hr. congruence.
Qed.

Lemma number_prefix_fun l v r v' r' : number_prefix l v r -> number_prefix l v' r' -> v = v' /\ r = r'.
Proof. rewrite <- !scan_int_number. intros -> [= -> ->]. auto. Qed.

Lemma number_text_fun s v v' : number_text s v -> number_text s v' -> v = v'.
Proof. rewrite <- !sscanf_d_number. congruence. Qed.

Lemma sscanf_lit c rest l :
  sscanf (Lit c :: rest) l = match l with x :: t => if x =? c then sscanf rest t else ([], false) | [] => ([], false) end.
Proof. reflexivity. Qed.

Lemma sscanf_times s a b :
  sscanf [Verb_d None; Lit 120; Verb_d None] (runes s) = ([a; b], true) <-> times_text s a b.
Proof.
  unfold times_text. rewrite sscanf_verb.
  destruct (scan_int (runes s)) as [[v r]|] eqn:E.
  - rewrite sscanf_lit. destruct r as [|x r].
    + split; [discriminate|]. intros (r1 & r2 & H & _). apply scan_int_number in H. congruence.
    + destruct (x =? 120) eqn:Ex.
      * apply Z.eqb_eq in Ex. subst x.
        rewrite sscanf_verb. cbn [sscanf]. destruct (scan_int r) as [[v2 r2]|] eqn:E2.
        -- split; [intros [= <- <-]; exists r, r2; split; now apply scan_int_number|].
           intros (r1 & r3 & H1 & H2). apply scan_int_number in H1, H2. rewrite E in H1. injection H1 as -> ->.
           rewrite E2 in H2. injection H2 as -> _. reflexivity.
        -- split; [discriminate|]. intros (r1 & r3 & H1 & H2). apply scan_int_number in H1, H2. rewrite E in H1. injection H1 as -> ->. congruence.
      * split; [discriminate|]. intros (r1 & r2 & H & _). apply scan_int_number in H. rewrite E in H. injection H as _ -> ->. discriminate Ex.
  - split; [discriminate|]. intros (r1 & r2 & H & _). apply scan_int_number in H. congruence.
Qed.

Lemma sscanf_verb3 rest l :
  sscanf (Verb_d (Some 3%nat) :: rest) l =
  match skip_space l with
  | None => ([], false)
  | Some l1 =>
  match scan_int (firstn 3 l1) with
  | None => ([], false)
  | Some (v, l') => let '(vs, ok) := sscanf rest (l' ++ skipn 3 l1) in (v :: vs, ok)
  end end.
Proof. reflexivity. Qed.

Lemma number3_scan l v rest : number3_prefix l v rest <->
  exists l1 r, skip_space l = Some l1 /\ scan_int (firstn 3 l1) = Some (v, r) /\ rest = r ++ skipn 3 l1.
Proof.
  split.
  - intros (bl & body & r & -> & Hb & Hn & Hp & ->). exists body, r. split; [now apply skip_space_blanks|].
    split; [now apply scan_int_number|reflexivity].
  - intros (l1 & r & Hs & Hi & ->). destruct (skip_space_spec _ _ Hs) as (bl & -> & Hb & Hn).
    exists bl, l1, r. repeat (split; [assumption || reflexivity|]). split; [now apply scan_int_number|reflexivity].
Qed.

Lemma sscanf_pair s a b :
  sscanf [Verb_d (Some 3%nat); Verb_d (Some 3%nat)] (runes s) = ([a; b], true) <-> pair_text s a b.
Proof.
  unfold pair_text. rewrite sscanf_verb3. split.
  - destruct (skip_space (runes s)) as [l1|] eqn:Es; [|discriminate].
    destruct (scan_int (firstn 3 l1)) as [[v r]|] eqn:E; [|discriminate].
    rewrite sscanf_verb3.
    destruct (skip_space (r ++ skipn 3 l1)) as [l2|] eqn:Es2; [|discriminate].
    destruct (scan_int (firstn 3 l2)) as [[v2 r2]|] eqn:E2; [|discriminate].
    cbn [sscanf]. intros [= <- <-]. exists (r ++ skipn 3 l1), (r2 ++ skipn 3 l2).
    split; apply number3_scan; eauto 6.
  - intros (r1 & r2 & H1 & H2). apply number3_scan in H1, H2.
    destruct H1 as (l1 & r & -> & -> & ->). rewrite sscanf_verb3.
    destruct H2 as (l2 & r' & -> & -> & ->). reflexivity.
Qed.

Lemma number_range s v : number_text s v -> int_min <= v <= int_max.
Proof. intros [r [? ? ? ? ? ? ? ? ? ? Hi]]. exact Hi. Qed.
