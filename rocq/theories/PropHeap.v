(** C52, C53: composites in shared memory. *)
From Verif Require Import GoBase GoUtf8 GoScan GoTime GoFloat Catalog Composite Header Data Projection Radolan
  BaseFacts HeaderSafe HeaderFacts DataFacts ParseFacts CompositeFacts Spec PropFile Heap SpecHeap HeapFacts HeapWorld.
From Coq Require String. Import String.StringSyntax.

Section Heap.
Variable A : arith.
Variable E : goenv.
Notation T := (num A).
Notation reachable := (reachable A E).
Notation wstep := (wstep A E).

Definition final (input : list byte) (r : result A) (m : memory) : Prop :=
  view_result m r = new_composite A E input /\ rep_result A m r.
Definition done_ok (input : list byte) (r : result A) (ws : list (path * f32)) (m : memory) : Prop :=
  outcome_after (new_composite A E input) ws (view_result m r) /\ rep_result A m r.
Definition activity_ok (act : activity A) (m : memory) : Prop :=
  match act with
  | Running input p => safe (final input) p m
  | Done input r ws => done_ok input r ws m
  end.

Definition inv (w : world A) : Prop :=
  (exists n, forall a, (n <= a)%nat -> w_mem w a = None) /\
  exists own : nat -> memory,
    (forall i, sub (own i) (w_mem w)) /\
    (forall i j a b b', own i a = Some b -> own j a = Some b' -> i = j) /\
    forall i act, nth_error (w_acts w) i = Some act -> activity_ok act (own i).

Definition set_own (own : nat -> memory) (i : nat) (m : memory) : nat -> memory :=
  fun j => if Nat.eqb j i then m else own j.
Lemma set_own_same own i m : set_own own i m i = m.
Proof. unfold set_own. now rewrite Nat.eqb_refl. Qed.
Lemma set_own_other own i m j : j <> i -> set_own own i m j = own j.
Proof. unfold set_own. intros H. apply Nat.eqb_neq in H. now rewrite H. Qed.

Lemma finite_upd m a b n : (forall a, (n <= a)%nat -> m a = None) -> exists n', forall a', (n' <= a')%nat -> upd m a b a' = None.
Proof. intros H. exists (S (Nat.max n a)). intros a' Ha. rewrite upd_other by lia. apply H. lia. Qed.

Lemma outcome_after_nil (o : outcome T (composite T)) : outcome_after o [] o.
Proof. destruct o; cbn; auto using no_writes. Qed.

(** An update of memory the activity i owns, or has just been given. *)
Lemma inv_upd m l own i a b act' : (exists n, forall a, (n <= a)%nat -> m a = None) ->
  (forall i, sub (own i) m) -> (forall i j a b b', own i a = Some b -> own j a = Some b' -> i = j) ->
  (forall i act, nth_error l i = Some act -> activity_ok act (own i)) ->
  (m a = None \/ own i a <> None) -> (i < length l)%nat ->
  activity_ok act' (upd (own i) a b) ->
  inv (mk_world (upd m a b) (replace_nth l i act')).
Proof.
  intros [n Hn] Hsub Hdis Hact Ha Hi Hok. split; [apply (finite_upd m a b n Hn)|].
  assert (Hfree : forall j, j <> i -> own j a = None).
  { intros j Hj. destruct (own j a) as [b'|] eqn:Hb; [|reflexivity]. exfalso. destruct Ha as [Ha|Ha].
    - apply Hsub in Hb. congruence.
    - destruct (own i a) as [b2|] eqn:Hb2; [|congruence]. apply Hj. eapply Hdis; eauto. }
  exists (set_own own i (upd (own i) a b)). cbn. repeat split.
  - intros j a' b' Hj. destruct (Nat.eq_dec j i) as [->|Hne].
    + rewrite set_own_same in Hj. unfold upd in *. destruct (Nat.eqb a' a); [assumption|]. now apply Hsub in Hj.
    + rewrite set_own_other in Hj by assumption. rewrite upd_other; [now apply Hsub in Hj|].
      intros ->. rewrite Hfree in Hj by assumption. discriminate.
  - intros j k a' b1 b2 Hj Hk. unfold set_own in *.
    destruct (Nat.eqb_spec j i) as [H1|H1]; destruct (Nat.eqb_spec k i) as [H2|H2].
    + congruence.
    + unfold upd in Hj. destruct (Nat.eqb a' a) eqn:Ha'.
      * apply Nat.eqb_eq in Ha'. subst a'. rewrite Hfree in Hk by assumption. discriminate.
      * subst j. eapply Hdis; eauto.
    + unfold upd in Hk. destruct (Nat.eqb a' a) eqn:Ha'.
      * apply Nat.eqb_eq in Ha'. subst a'. rewrite Hfree in Hj by assumption. discriminate.
      * subst k. eapply Hdis; eauto.
    + eapply Hdis; eauto.
  - intros j act Hj. destruct (Nat.eq_dec j i) as [->|Hne].
    + rewrite set_own_same. rewrite replace_nth_same in Hj by assumption. injection Hj as <-. assumption.
    + rewrite set_own_other by assumption. rewrite replace_nth_other in Hj by congruence. eauto.
Qed.

Lemma inv_act m l own i act' : (exists n, forall a, (n <= a)%nat -> m a = None) ->
  (forall i, sub (own i) m) -> (forall i j a b b', own i a = Some b -> own j a = Some b' -> i = j) ->
  (forall i act, nth_error l i = Some act -> activity_ok act (own i)) ->
  (i < length l)%nat -> activity_ok act' (own i) -> inv (mk_world m (replace_nth l i act')).
Proof.
  intros Hn Hsub Hdis Hact Hi Hok. split; [assumption|]. exists own. repeat split; auto.
  intros j act Hj. cbn in Hj. destruct (Nat.eq_dec j i) as [->|Hne].
  - rewrite replace_nth_same in Hj by assumption. injection Hj as <-. assumption.
  - rewrite replace_nth_other in Hj by congruence. eauto.
Qed.

Lemma outcome_after_write o ws r m h p v m' : outcome_after o ws (view_result m r) ->
  result_held r = Some h -> rep A m h -> store m h p v = Some m' ->
  outcome_after o (ws ++ [(p, v)]) (view_result m' r).
Proof.
  intros Ho Hr Hrep Hs. unfold store in Hs. destruct (resolve m h p) as [[a f]|] eqn:Hres; [|discriminate].
  injection Hs as <-. pose proof (write_view A m h p v a f Hrep Hres) as Hw.
  destruct r as [h'|e h'|]; cbn in Hr; try discriminate; injection Hr as ->; cbn in *; destruct o; try contradiction.
  - eapply more_writes; eauto.
  - destruct Ho as [-> Ho]. split; [reflexivity|]. eapply more_writes; eauto.
Qed.

Lemma inv_step w w' : inv w -> wstep w w' -> inv w'.
Proof.
  intros (Hn & own & Hsub & Hdis & Hact) Hstep.
  destruct Hstep as [m l input|m l i input p m' p' Hi Hp|m l i input r Hi|m l i input r ws h p v m' Hi Hr Hs];
    cbn [w_mem w_acts] in *.
  - split; [assumption|]. exists (set_own own (length l) (fun _ => None)). cbn. repeat split.
    + intros j a b Hj. unfold set_own in Hj. destruct (Nat.eqb j (length l)); [discriminate|]. now apply Hsub in Hj.
    + intros j k a b b' Hj Hk. unfold set_own in *. destruct (Nat.eqb j (length l)); [discriminate|].
      destruct (Nat.eqb k (length l)); [discriminate|]. eauto.
    + intros j act Hj. destruct (Nat.eq_dec j (length l)) as [->|Hne].
      * rewrite set_own_same. rewrite nth_error_app2 in Hj by lia. rewrite Nat.sub_diag in Hj.
        injection Hj as <-. cbn. apply (new_composite_safe A E input).
      * rewrite set_own_other by assumption. apply Hact. 
        assert (j < length l)%nat.
        { assert (j < length (l ++ [Running input (mem_new_composite A E input)]))%nat by (apply nth_error_Some; congruence).
          rewrite app_length in *. cbn in *. lia. }
        now rewrite nth_error_app1 in Hj by assumption.
  - pose proof (Hact _ _ Hi) as Hsafe. cbn in Hsafe.
    assert (Hil : (i < length l)%nat) by (apply nth_error_Some; congruence).
    destruct Hp as [m b k a Ha|m a z k l0 r Ha Hz|m a z r k l0 l1 Ha Hz|m a k l0 Ha|m a z v k l0 l1 Ha Hz]; cbn in Hsafe.
    + eapply inv_upd; eauto. cbn. apply Hsafe. destruct (own i a) eqn:Hx; [|reflexivity]. apply Hsub in Hx. congruence.
    + destruct Hsafe as (l1 & r1 & H1 & H2 & H3). pose proof (Hsub _ _ _ H1) as H1'. rewrite Ha in H1'. injection H1' as <-.
      rewrite Hz in H2. injection H2 as <-. eapply inv_act; eauto.
    + destruct Hsafe as (l2 & r1 & H1 & H2 & H3). pose proof (Hsub _ _ _ H1) as H1'. rewrite Ha in H1'. injection H1' as <-.
      rewrite Hz in H2. injection H2 as <-. eapply inv_upd; eauto. right. congruence.
    + destruct Hsafe as (l1 & H1 & H3). pose proof (Hsub _ _ _ H1) as H1'. rewrite Ha in H1'. injection H1' as <-.
      eapply inv_act; eauto.
    + destruct Hsafe as (l2 & r1 & H1 & H2 & H3). pose proof (Hsub _ _ _ H1) as H1'. rewrite Ha in H1'. injection H1' as <-.
      rewrite Hz in H2. injection H2 as <-. eapply inv_upd; eauto. right. congruence.
  - pose proof (Hact _ _ Hi) as [Hv Hrep]. eapply inv_act; eauto; [apply nth_error_Some; congruence|].
    cbn. split; [|assumption]. rewrite Hv. apply outcome_after_nil.
  - pose proof (Hact _ _ Hi) as [Hv Hrep]. pose proof (Hrep _ Hr) as Hh.
    pose proof Hs as Hs0. unfold store in Hs. destruct (resolve m h p) as [[a f]|] eqn:Hres; [|discriminate].
    injection Hs as <-.
    assert (Hres' : resolve (own i) h p = Some (a, f)) by (rewrite <- Hres; symmetry; apply (resolve_sub A (own i) m h p (Hsub i) Hh)).
    destruct (rep_upd A (own i) h p a f v Hh Hres' (resolve_column A _ _ _ _ _ Hh Hres')) as [Hrep' Hown].
    eapply inv_upd; eauto.
    + right. congruence.
    + apply nth_error_Some; congruence.
    + cbn. split.
      * eapply outcome_after_write; eauto. unfold store. rewrite Hres'. reflexivity.
      * intros h' Hh'. rewrite Hr in Hh'. injection Hh' as <-. assumption.
Qed.

Lemma inv_reachable w : reachable w -> inv w.
Proof.
  induction 1 as [|w w' _ IH Hs]; [|eapply inv_step; eauto].
  split; [exists 0%nat; reflexivity|]. exists (fun _ _ => None). repeat split; try discriminate.
  intros i act Hi. destruct i; discriminate.
Qed.

Lemma view_result_sub m m' (r : result A) : sub m m' -> rep_result A m r -> view_result m' r = view_result m r.
Proof.
  intros Hs Hr. destruct r as [h|e h|]; cbn; [| |reflexivity]; f_equal; apply (view_sub A); auto; apply Hr; reflexivity.
Qed.

(** C52.  Whatever the schedule of any number of calls of NewComposite and of
    writes to their results: what a caller sees in a composite is what
    NewComposite returns for its input alone, plus the assignments made to
    this composite; an assignment through one of the fields is seen through all names of the
    pixel and changes nothing else. *)
Theorem C52_history w i input r ws : reachable w -> nth_error (w_acts w) i = Some (Done input r ws) ->
  outcome_after (new_composite A E input) ws (view_result (w_mem w) r).
Proof.
  intros Hr Hi. destruct (inv_reachable w Hr) as (_ & own & Hsub & _ & Hact).
  destruct (Hact _ _ Hi) as [Ho Hrep]. rewrite (view_result_sub (own i) (w_mem w) r (Hsub i) Hrep). assumption.
Qed.

(** Until the caller writes to it. *)
Theorem C52_untouched w i input r : reachable w -> nth_error (w_acts w) i = Some (Done input r []) ->
  view_result (w_mem w) r = new_composite A E input.
Proof.
  intros Hr Hi. pose proof (C52_history w i input r [] Hr Hi) as H.
  destruct (new_composite A E input) as [c|e c|]; destruct (view_result (w_mem w) r) as [c'|e' c'|]; cbn in H; try contradiction.
  - inversion H; [reflexivity|]. destruct ws; discriminate.
  - destruct H as [-> H]. inversion H; [reflexivity|]. destruct ws; discriminate.
  - reflexivity.
Qed.

(** An assignment panics exactly if there is no such element. *)
Theorem C52_writable w i input r ws h p v : reachable w -> nth_error (w_acts w) i = Some (Done input r ws) ->
  result_held r = Some h ->
  (store (w_mem w) h p v = None <-> read (view (w_mem w) h) p = None).
Proof.
  intros Hr Hi Hh. destruct (inv_reachable w Hr) as (_ & own & Hsub & _ & Hact).
  destruct (Hact _ _ Hi) as [_ Hrep]. pose proof (rep_sub A _ _ _ (Hsub i) (Hrep _ Hh)) as Hrep'.
  rewrite (read_view A) by assumption. unfold store. destruct (resolve (w_mem w) h p) as [[a f]|] eqn:Hres; [|tauto].
  destruct (index_some f (column p) (resolve_column A _ _ _ _ _ Hrep' Hres)) as [u ->]. split; discriminate.
Qed.

(** AtZ sees the assignment. *)
Theorem C52_at_z (c : composite T) p v c' x y z : after_write c p v c' ->
  inside x y z (c_dx c) (c_dy c) (c_dz c) ->
  at_z A c' x y z = match at_z A c x y z with
                    | None => None
                    | Some old => Some (if same_place c p (InDataZ z y x) then v else old)
                    end.
Proof.
  intros (_ & Hm & Hq) (Hx & Hy & Hz).
  assert (Hd : c_dx c' = c_dx c /\ c_dy c' = c_dy c /\ c_dz c' = c_dz c).
  { unfold same_metadata in Hm. split; [|split].
    - exact (f_equal c_dx Hm). - exact (f_equal c_dy Hm). - exact (f_equal c_dz Hm). }
  destruct Hd as (H1 & H2 & H3). unfold at_z. rewrite H1, H2, H3.
  replace ((x <? 0) || (y <? 0) || (z <? 0) || (c_dx c <=? x) || (c_dy c <=? y) || (c_dz c <=? z)) with false by lia.
  exact (Hq (InDataZ z y x)).
Qed.

(** No call gets stuck or waits for another: it can always go on .. *)
Theorem C52_progress w i input p : reachable w -> nth_error (w_acts w) i = Some (Running input p) ->
  exists w', wstep w w' /\
    (forall j, j <> i -> nth_error (w_acts w') j = nth_error (w_acts w) j) /\
    ((exists r, nth_error (w_acts w') i = Some (Done input r [])) \/
     (exists p' m', nth_error (w_acts w') i = Some (Running input p') /\ pstep (w_mem w) p m' p')).
Proof.
  intros Hr Hi. destruct (inv_reachable w Hr) as ([n Hn] & own & Hsub & _ & Hact).
  destruct w as [m l]. cbn [w_mem w_acts] in *. pose proof (Hact _ _ Hi) as Hs. cbn in Hs.
  assert (Hil : (i < length l)%nat) by (apply nth_error_Some; congruence).
  assert (Hrun : forall m' p', pstep m p m' p' -> exists w', wstep (mk_world m l) w' /\
    (forall j, j <> i -> nth_error (w_acts w') j = nth_error l j) /\
    ((exists r, nth_error (w_acts w') i = Some (Done input r [])) \/
     (exists p' m', nth_error (w_acts w') i = Some (Running input p') /\ pstep m p m' p'))).
  { intros m' p' Hp. exists (mk_world m' (replace_nth l i (Running input p'))). split; [eapply w_run; eauto|].
    cbn. split; [intros j Hj; apply replace_nth_other; congruence|]. right. exists p', m'.
    split; [apply replace_nth_same; assumption|assumption]. }
  destruct p as [r|b k|a z k|a z r k|a k|a z v k]; cbn in Hs.
  - exists (mk_world m (replace_nth l i (Done input r []))). split; [eapply w_return; eauto|].
    cbn. split; [intros j Hj; apply replace_nth_other; congruence|]. left. exists r. apply replace_nth_same. assumption.
  - eapply Hrun. apply (step_alloc m b k n). apply Hn. lia.
  - destruct Hs as (l0 & r & H1 & H2 & _). eapply Hrun. eapply step_get_row; eauto. apply (Hsub i). eassumption.
  - destruct Hs as (l0 & r0 & H1 & H2 & _). eapply Hrun. eapply step_set_row; eauto. apply (Hsub i). eassumption.
  - destruct Hs as (l0 & H1 & _). eapply Hrun. eapply step_get_floats. apply (Hsub i). eassumption.
  - destruct Hs as (l0 & r0 & H1 & H2 & _). eapply Hrun. eapply step_set_float; eauto. apply (Hsub i). eassumption.
Qed.

(** .. and returns after finitely many steps of its own. *)
Theorem C52_returns w i input p : reachable w -> nth_error (w_acts w) i = Some (Running input p) ->
  exists w' r, reachable w' /\ nth_error (w_acts w') i = Some (Done input r []) /\
    forall j, j <> i -> nth_error (w_acts w') j = nth_error (w_acts w) j.
Proof.
  revert w. induction p as [r|b k IH|a z k IH|a z r k IH|a k IH|a z v k IH]; intros w Hr Hi;
    destruct (C52_progress w i input _ Hr Hi) as (w1 & Hs & Ho & [[r1 Hd]|(p' & m' & Hp' & Hst)]);
    try (exists w1, r1; split; [eapply reach_step; eauto|auto]; fail);
    inversion Hst; subst;
    (edestruct IH as (w2 & r2 & G2 & G3 & G4); [|exact Hp'|]; [eapply reach_step; eauto|]);
    (exists w2, r2; split; [assumption|]; split; [assumption|]; intros j Hj; rewrite G4, Ho by assumption; reflexivity).
Qed.

(** No data races: a running call never touches an array another running call
    is about to touch, nor one a caller can reach through a composite. *)
Lemma next_owned input p m a : safe (final input) p m -> next_access p = Some a -> exists b, m a = Some b.
Proof.
  destruct p; cbn; intros Hs Ha; try discriminate; injection Ha as <-.
  - destruct Hs as (? & ? & ? & _). eauto.
  - destruct Hs as (? & ? & ? & _). eauto.
  - destruct Hs as (? & ? & _). eauto.
  - destruct Hs as (? & ? & ? & _). eauto.
Qed.

Theorem C52_no_race w i j inp1 p1 inp2 p2 a : reachable w ->
  nth_error (w_acts w) i = Some (Running inp1 p1) -> nth_error (w_acts w) j = Some (Running inp2 p2) ->
  next_access p1 = Some a -> next_access p2 = Some a -> i = j.
Proof.
  intros Hr Hi Hj H1 H2. destruct (inv_reachable w Hr) as (_ & own & Hsub & Hdis & Hact).
  destruct (next_owned _ _ _ _ (Hact _ _ Hi) H1) as [b1 Hb1].
  destruct (next_owned _ _ _ _ (Hact _ _ Hj) H2) as [b2 Hb2]. eauto.
Qed.

Theorem C52_no_race_caller w i j inp1 p1 inp2 r ws h q a f : reachable w ->
  nth_error (w_acts w) i = Some (Running inp1 p1) -> nth_error (w_acts w) j = Some (Done inp2 r ws) ->
  result_held r = Some h -> resolve (w_mem w) h q = Some (a, f) -> next_access p1 <> Some a.
Proof.
  intros Hr Hi Hj Hh Hq H1. destruct (inv_reachable w Hr) as (_ & own & Hsub & Hdis & Hact).
  destruct (next_owned _ _ _ _ (Hact _ _ Hi) H1) as [b1 Hb1].
  destruct (Hact _ _ Hj) as [_ Hrep]. specialize (Hrep _ Hh).
  rewrite (resolve_sub A (own j) (w_mem w) h q (Hsub j) Hrep) in Hq.
  destruct (rep_upd A (own j) h q a f NaN32 Hrep Hq (resolve_column A _ _ _ _ _ Hrep Hq)) as [_ Hb2].
  assert (i = j) by eauto. subst j. congruence.
Qed.

Lemma held_rep w i input r ws h : reachable w -> nth_error (w_acts w) i = Some (Done input r ws) ->
  result_held r = Some h -> rep A (w_mem w) h.
Proof.
  intros Hr Hi Hh. destruct (inv_reachable w Hr) as (_ & own & Hsub & _ & Hact).
  destruct (Hact _ _ Hi) as [_ Hrep]. exact (rep_sub A _ _ _ (Hsub i) (Hrep _ Hh)).
Qed.

(** C53 (refuted).  rows := append(c.Data, row) on a composite with several
    layers overwrites the first row of the next layer .. *)
Theorem C53_append_overwrites w i input r ws h a f fresh : reachable w ->
  nth_error (w_acts w) i = Some (Done input r ws) -> result_held r = Some h ->
  2 <= len (c_dataz (view (w_mem w) h)) -> w_mem w a = Some (Floats f) ->
  exists m' t', append_row (w_mem w) (h_data h) (Some a) fresh = Some (m', t') /\
    forall x, read (view m' h) (InDataZ 1 0 x) = index f x.
Proof.
  intros Hr Hi Hh Hz Ha. pose proof (held_rep _ _ _ _ _ _ Hr Hi Hh) as Hrep.
  set (m := w_mem w) in *. change (c_dataz (view m h)) with (map (view_table m) (h_dataz h)) in Hz. rewrite len_map in Hz.
  destruct Hrep as [(_ & H & _)|(t & addrs & plain & Ho & Hp & [[H _]|(H0 & Hdy & Hlay)])];
    [rewrite H in Hz; cbn in Hz; lia|rewrite H in Hz; cbn in Hz; lia|].
  destruct (index_some (h_dataz h) 1) as [t1 H1]; [lia|].
  destruct (Hlay _ _ H0) as (Hd0 & Htop0 & Hend0). destruct (Hlay _ _ H1) as (Hd1 & Htop1 & Hend1).
  destruct Hdy as (Hdy & Hpy & Hn).
  assert (Htop : layer_top (h_fields h) 0 = 0 /\ layer_top (h_fields h) 1 = c_dy (h_fields h)).
  { unfold layer_top. destruct (c_py (h_fields h) mod c_dy (h_fields h) =? 0); lia. }
  destruct Htop as [Ht0 Ht1]. rewrite Ht0 in *. rewrite Ht1 in *. clear Ht0 Ht1 Hn.
  set (dy := c_dy (h_fields h)) in *. rewrite Hd0. unfold append_row, layer_table. cbn [t_arr t_off t_len t_cap].
  replace (dy <? len addrs - 0) with true by lia.
  pose proof Ho as (Ht & _). rewrite Ht.
  rewrite assign_some by (rewrite len_map; lia).
  eexists _, _. split; [reflexivity|]. intros x. cbn [read].
  set (l' := replace_nth _ _ _). set (m' := upd m t (Rows l')).
  change (c_dataz (view m' h)) with (map (view_table m') (h_dataz h)).
  rewrite index_nth, nth_error_map by lia. rewrite index_nth in H1 by lia. rewrite H1. cbn [option_map].
  rewrite Hd1. unfold at2, view_table, layer_table. cbn [t_arr t_off t_len t_cap]. unfold m' at 1. rewrite upd_same.
  rewrite index_nth, nth_error_map by lia. rewrite nth_error_firstn_lt by lia. rewrite nth_error_skipn_add.
  rewrite Nat.add_0_r. unfold l'. rewrite Z.add_0_l. rewrite replace_nth_same by (rewrite map_length; unfold len in *; lia).
  cbn. unfold m'. rewrite upd_other by congruence. rewrite Ha. reflexivity.
Qed.

(** .. while with a single layer it is copied, and the composite stays as it is. *)
Theorem C53_append_copies w i input r ws h a fresh : reachable w ->
  nth_error (w_acts w) i = Some (Done input r ws) -> result_held r = Some h ->
  len (c_dataz (view (w_mem w) h)) <= 1 -> w_mem w fresh = None ->
  exists m' t', append_row (w_mem w) (h_data h) (Some a) fresh = Some (m', t') /\
    view m' h = view (w_mem w) h.
Proof.
  intros Hr Hi Hh Hz Hf. pose proof (held_rep _ _ _ _ _ _ Hr Hi Hh) as Hrep.
  set (m := w_mem w) in *. change (c_dataz (view m h)) with (map (view_table m) (h_dataz h)) in Hz. rewrite len_map in Hz.
  assert (Hcap : (t_len (h_data h) <? t_cap (h_data h)) = false).
  { destruct Hrep as [(_ & _ & ->)|(t & addrs & plain & Ho & Hp & [[_ ->]|(H0 & (Hdy & Hpy & Hn) & Hlay)])]; try reflexivity.
    assert (H1 : len (h_dataz h) = 1) by (apply index_inv in H0; lia).
    destruct (Hlay _ _ H0) as (-> & _). unfold layer_table, layer_top in *. cbn.
    destruct (c_py (h_fields h) mod c_dy (h_fields h) =? 0); lia. }
  unfold append_row. rewrite Hcap. eexists _, _. split; [reflexivity|].
  apply (view_sub A m); [|assumption]. intros b blk Hb. rewrite upd_other; [assumption|congruence].
Qed.
End Heap.

Lemma called A E input : exists w r, reachable A E w /\ nth_error (w_acts w) 0 = Some (Done input r []).
Proof.
  destruct (C52_returns A E (mk_world (fun _ => None) [Running input (mem_new_composite A E input)]) 0 input
    (mem_new_composite A E input)) as (w & r & H1 & H2 & _).
  - eapply reach_step; [apply reach_empty|]. apply (w_call A E (fun _ => None) []).
  - reflexivity.
  - eauto.
Qed.

(** A world with a parsed composite whose pixel has been assigned to through
    Data and is read through PlainData, and one with twelve layers. *)
Lemma write_case A E input (c : composite (num A)) p q v u : new_composite A E input = Value c ->
  read c p <> None -> read c q = Some u ->
  exists w h, reachable A E w /\ nth_error (w_acts w) 0 = Some (Done input (Returned h) [(p, v)]) /\
    read (view (w_mem w) h) q = Some (if same_place c p q then v else u).
Proof.
  intros Hc Hp Hq. destruct (called A E input) as ([m l] & r & Hr & Hi).
  pose proof (C52_untouched A E _ _ _ _ Hr Hi) as Hv. rewrite Hc in Hv. cbn [w_mem w_acts] in *.
  destruct r as [h|e h|]; cbn [view_result] in Hv; try discriminate. injection Hv as Hv.
  destruct (store m h p v) as [m'|] eqn:Hs.
  2:{ exfalso. apply (C52_writable A E (mk_world m l) 0 _ _ _ h p v Hr Hi eq_refl) in Hs. cbn [w_mem] in Hs. congruence. }
  exists (mk_world m' (replace_nth l 0 (Done input (Returned h) [(p, v)]))), h.
  assert (Hr' : reachable A E (mk_world m' (replace_nth l 0 (Done input (Returned h) [(p, v)])))).
  { eapply reach_step; [exact Hr|]. eapply (w_write A E m l 0 _ _ [] h); eauto. }
  split; [assumption|].
  assert (Hi' : nth_error (replace_nth l 0 (Done input (Returned h) [(p, v)])) 0 = Some (Done input (Returned h) [(p, v)])).
  { apply replace_nth_same. apply nth_error_Some. congruence. }
  split; [exact Hi'|].
  pose proof (C52_history A E _ _ _ _ _ Hr' Hi') as Ho. rewrite Hc in Ho. cbn in Ho. cbn [w_mem].
  inversion Ho as [|ws p' v' c1 c2 H1 H2 Hx].
  destruct ws as [|? ws]; [|destruct ws; discriminate]. cbn in Hx. injection Hx as -> ->.
  inversion H1 as [Hy|ws ? ? ? ? ? ? Hy]; [|destruct ws; discriminate]. subst c1 c2.
  destruct H2 as (_ & _ & H2). rewrite H2, Hq. reflexivity.
Qed.

Example C52_case A E : exists w h, reachable A E w /\
  nth_error (w_acts w) 0 = Some (Done (file two_byte_text two_byte_data) (Returned h) [(InData 1 2, NaN32)]) /\
  read (view (w_mem w) h) (InPlain 1 2) = Some NaN32.
Proof.
  assert (Hc : exists c, new_composite A E (file two_byte_text two_byte_data) = Value c /\
    match read c (InData 1 2), read c (InPlain 1 2) with Some _, Some _ => same_place c (InData 1 2) (InPlain 1 2) | _, _ => false end = true).
  { eexists. split; [vm_compute; reflexivity|]. vm_compute. reflexivity. }
  generalize dependent (file two_byte_text two_byte_data). intros input (c & Hc & Hb).
  destruct (read c (InData 1 2)) as [u1|] eqn:H1; [|discriminate].
  destruct (read c (InPlain 1 2)) as [u2|] eqn:H2; [|discriminate].
  destruct (write_case A E input c (InData 1 2) (InPlain 1 2) NaN32 u2 Hc) as (w & h & Hr & Hi & Hv); [congruence|assumption|].
  exists w, h. rewrite Hb in Hv. auto.
Qed.

Example C53_case A E : exists w r h, reachable A E w /\
  nth_error (w_acts w) 0 = Some (Done (file (bs "PZ262115100000616BY22205LV 1  1.0CS0MX 0") (repeat Byte.x0a 2400)) r []) /\
  result_held r = Some h /\ len (c_dataz (view (w_mem w) h)) = 12.
Proof.
  assert (Hc : match new_composite A E (file (bs "PZ262115100000616BY22205LV 1  1.0CS0MX 0") (repeat Byte.x0a 2400))
     with Value c | Failure _ c => len (c_dataz c) =? 12 | Panic => false end = true) by (vm_compute; reflexivity).
  generalize dependent (file (bs "PZ262115100000616BY22205LV 1  1.0CS0MX 0") (repeat Byte.x0a 2400)). intros input Hc.
  destruct (called A E input) as (w & r & Hr & Hi).
  rewrite <- (C52_untouched A E _ _ _ _ Hr Hi) in Hc. exists w, r.
  destruct r as [h|e h|]; cbn [view_result] in Hc; [| |discriminate]; exists h; (split; [assumption|]; split; [assumption|];
    split; [reflexivity|]; apply Z.eqb_eq; assumption).
Qed.

Print Assumptions C52_history.
Print Assumptions C52_untouched.
Print Assumptions C52_writable.
Print Assumptions C52_at_z.
Print Assumptions C52_progress.
Print Assumptions C52_returns.
Print Assumptions C52_no_race.
Print Assumptions C52_no_race_caller.
Print Assumptions C53_append_overwrites.
Print Assumptions C53_append_copies.
