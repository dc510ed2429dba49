(** Lemmas about Data.v: row loops, decoders, arrangement. *)
From Verif Require Import GoBase GoFloat Catalog Composite Header Data BaseFacts.

(** A chain of reads: the lines delivered one after the other. *)
Inductive reads (read : list byte -> option (list byte * list byte)) :
  list byte -> list (list byte) -> list byte -> Prop :=
| reads_nil s : reads read s [] s
| reads_cons s line s1 lines s2 :
    read s = Some (line, s1) -> reads read s1 lines s2 -> reads read s (line :: lines) s2.

Lemma reads_app read s l1 s1 l2 s2 : reads read s l1 s1 -> reads read s1 l2 s2 -> reads read s (l1 ++ l2) s2.
Proof. induction 1; cbn; auto. intros. econstructor; eauto. Qed.

Lemma reads_extend read t :
  (forall s l s', read s = Some (l, s') -> read (s ++ t) = Some (l, s' ++ t)) ->
  forall s ls s', reads read s ls s' -> reads read (s ++ t) ls (s' ++ t).
Proof. intros Hr s ls s'. induction 1; econstructor; eauto. Qed.

Definition wide (w : nat) (rows : list (list f32)) : Prop := Forall (fun r => length r = w) rows.

Lemma wide_nth w rows k r : wide w rows -> nth_error rows k = Some r -> length r = w.
Proof. unfold wide; rewrite Forall_forall. intros H Hn. apply H. eapply nth_error_In; eauto. Qed.

Lemma wide_replace w rows k r : wide w rows -> length r = w -> wide w (replace_nth rows k r).
Proof.
  unfold wide. intros H Hr. revert k; induction H; intros [|k]; cbn; constructor; auto.
Qed.

Lemma replace_nth_replace {A} (l : list A) n v : nth_error l n = Some v -> replace_nth l n v = l.
Proof. revert n; induction l as [|x l IH]; intros [|n]; cbn; intros H; try discriminate; try congruence. f_equal; auto. Qed.

Section Rows.
Context {T : Type}.
Variable read : list byte -> option (list byte * list byte).
Variable eread : error.
Variable decode : list f32 -> list byte -> row_result.
Variable row : Z -> Z.
Variable w : nat.

(** The decoder neither panics nor changes the width of a row. *)
Definition width_ok : Prop := forall dst line, length dst = w ->
  match decode dst line with
  | RowOk d => length d = w
  | RowErr _ d => length d = w
  | RowPanic => False
  end.

(** Its result depends on the destination only through its width. *)
Definition dst_indep : Prop := forall d1 d2 line, length d1 = w -> length d2 = w ->
  match decode d1 line with RowOk r => decode d2 line = RowOk r | _ => True end.

Lemma row_loop_spec (Hdec : width_ok) : forall n i (c : composite T) s,
  wide w (c_plain c) ->
  (forall k, i <= k < i + Z.of_nat n -> 0 <= row k < len (c_plain c)) ->
  (forall k k', i <= k < i + Z.of_nat n -> i <= k' < i + Z.of_nat n -> row k = row k' -> k = k') ->
  match row_loop read eread decode row n i c s with
  | Value (c', s') =>
      exists p lines, c' = set_plain c p /\ length p = length (c_plain c) /\ wide w p /\
        length lines = n /\ reads read s lines s' /\
        (forall k line, nth_error lines k = Some line ->
           exists dst r, nth_error (c_plain c) (Z.to_nat (row (i + Z.of_nat k))) = Some dst /\
             nth_error p (Z.to_nat (row (i + Z.of_nat k))) = Some r /\ decode dst line = RowOk r) /\
        (forall j, (forall k, i <= k < i + Z.of_nat n -> Z.to_nat (row k) <> j) -> nth_error p j = nth_error (c_plain c) j)
  | Failure e c' => exists p, c' = set_plain c p /\ length p = length (c_plain c) /\ wide w p
  | Panic => False
  end.
Proof.
  induction n as [|n IH]; intros i c s Hw Hr Hinj; cbn [row_loop].
  - exists (c_plain c), []. repeat split; auto.
    + destruct c; reflexivity.
    + constructor.
    + intros k line Hk; destruct k; discriminate.
  - destruct (read s) as [[line s1]|] eqn:Hread.
    2:{ exists (c_plain c). repeat split; auto. destruct c; reflexivity. }
    assert (Hi : 0 <= row i < len (c_plain c)) by (apply Hr; lia).
    destruct (index_some (c_plain c) (row i) Hi) as [dst Hdst]. rewrite Hdst.
    apply index_inv in Hdst as [_ Hdst].
    assert (Hlen : length dst = w) by (eapply wide_nth; eauto).
    pose proof (Hdec dst line Hlen) as Hd.
    destruct (decode dst line) as [d|e d|] eqn:Hdl; try contradiction.
    + rewrite assign_some by assumption.
      set (p1 := replace_nth (c_plain c) (Z.to_nat (row i)) d).
      assert (Hp1len : length p1 = length (c_plain c)) by apply replace_nth_length.
      specialize (IH (i + 1) (set_plain c p1) s1). cbn [c_plain set_plain] in IH.
      assert (Hw1 : wide w p1) by (apply wide_replace; auto).
      specialize (IH Hw1).
      assert (H1 : forall k, i + 1 <= k < i + 1 + Z.of_nat n -> 0 <= row k < len p1).
      { intros k Hk. unfold len. rewrite Hp1len. apply Hr. lia. }
      assert (H2 : forall k k', i + 1 <= k < i + 1 + Z.of_nat n -> i + 1 <= k' < i + 1 + Z.of_nat n -> row k = row k' -> k = k').
      { intros k k' Hk Hk'. apply Hinj; lia. }
      specialize (IH H1 H2).
      destruct (row_loop read eread decode row n (i + 1) (set_plain c p1) s1) as [[c' s']|e c'|]; auto.
      * destruct IH as (p & lines & -> & Hpl & Hpw & Hll & Hch & Hrows & Hother).
        exists p, (line :: lines). repeat split; auto.
        -- congruence.
        -- cbn; lia.
        -- econstructor; eauto.
        -- intros [|k] line' Hk.
           ++ cbn in Hk. injection Hk as <-. rewrite Z.add_0_r.
              exists dst, d. split; [assumption|]. split; [|assumption].
              rewrite Hother. { apply replace_nth_same. unfold len in Hi. lia. }
              intros k Hk Heq. assert (row k = row i) by (pose proof (Hr k ltac:(lia)); lia).
              assert (k = i) by (apply Hinj; lia). lia.
           ++ cbn in Hk. destruct (Hrows k line' Hk) as (dst' & r & Ha & Hb & Hc).
              replace (i + 1 + Z.of_nat k) with (i + Z.of_nat (S k)) in * by lia.
              assert (Hkn : (k < n)%nat) by (rewrite <- Hll; apply nth_error_Some; congruence).
              exists dst', r. split; [|auto]. rewrite <- Ha. symmetry. apply replace_nth_other.
              intros Heq. assert (row (i + Z.of_nat (S k)) = row i) by (pose proof (Hr (i + Z.of_nat (S k)) ltac:(lia)); lia).
              assert (i + Z.of_nat (S k) = i) by (apply Hinj; lia). lia.
        -- intros j Hj. rewrite Hother by (intros k Hk; apply Hj; lia).
           apply replace_nth_other. intros <-. apply (Hj i); [lia|reflexivity].
      * destruct IH as (p & -> & Hpl & Hpw). exists p. repeat split; auto. congruence.
    + rewrite assign_some by assumption.
      exists (replace_nth (c_plain c) (Z.to_nat (row i)) d). repeat split; auto.
      * apply replace_nth_length.
      * apply wide_replace; auto.
Qed.

(** The loop does not look beyond what it reads. *)
Lemma row_loop_extend t
  (Hr : forall s l s', read s = Some (l, s') -> read (s ++ t) = Some (l, s' ++ t)) :
  forall n i (c : composite T) s c' s',
  row_loop read eread decode row n i c s = Value (c', s') ->
  row_loop read eread decode row n i c (s ++ t) = Value (c', s' ++ t).
Proof.
  induction n as [|n IH]; cbn [row_loop]; intros i c s c' s' H.
  - injection H as <- <-. reflexivity.
  - destruct (read s) as [[line s1]|] eqn:Hread; [|discriminate].
    rewrite (Hr _ _ _ Hread).
    destruct (index (c_plain c) (row i)); [|discriminate].
    destruct (decode l line); try discriminate.
    + destruct (assign (c_plain c) (row i) dst); [|discriminate]. auto.
    + destruct (assign (c_plain c) (row i) dst); discriminate.
Qed.
End Rows.

(** Reading functions. *)
Lemma read_until_extend d t s l s' :
  read_until d s = Some (l, s') -> read_until d (s ++ t) = Some (l, s' ++ t).
Proof.
  intros H. apply read_until_inv in H as (p & -> & -> & Hp).
  rewrite <- app_assoc, <- app_comm_cons. now apply read_until_app.
Qed.

Lemma read_line_extend t s l s' :
  read_line_runlength s = Some (l, s') -> read_line_runlength (s ++ t) = Some (l, s' ++ t).
Proof.
  unfold read_line_runlength. destruct (read_until Byte.x0a s) as [[line rest]|] eqn:H; [|discriminate].
  rewrite (read_until_extend _ t _ _ _ H). intros H1; injection H1 as <- <-. reflexivity.
Qed.

Lemma read_line_inv s l s' :
  read_line_runlength s = Some (l, s') <-> s = l ++ Byte.x0a :: s' /\ ~ In Byte.x0a l.
Proof.
  unfold read_line_runlength. split.
  - destruct (read_until Byte.x0a s) as [[line rest]|] eqn:H; [|discriminate].
    intros H1; injection H1 as <- <-. apply read_until_inv in H as (p & -> & -> & Hp).
    rewrite removelast_last. auto.
  - intros [-> Hl]. rewrite read_until_app by assumption. now rewrite removelast_last.
Qed.

Lemma read_full_extend n t s l s' : 0 <= n ->
  read_full n s = Some (l, s') -> read_full n (s ++ t) = Some (l, s' ++ t).
Proof.
  intros Hn H. apply read_full_inv in H as (H1 & -> & <-); [|assumption].
  rewrite <- app_assoc. apply read_full_app.
Qed.

(** A chain of fixed-width reads cuts the stream into blocks. *)
Lemma reads_full_concat n : 0 <= n -> forall s ls s', reads (read_full n) s ls s' ->
  s = concat ls ++ s' /\ Forall (fun l => len l = n) ls.
Proof.
  intros Hn s ls s'. induction 1 as [|s line s1 lines s2 Hr Hc [IH1 IH2]]; [auto|].
  apply read_full_inv in Hr as (_ & -> & Hl); [|assumption].
  cbn. rewrite <- app_assoc, <- IH1. auto.
Qed.

Lemma reads_full_exists n : 0 <= n -> forall k s, Z.of_nat k * n <= len s ->
  exists ls s', reads (read_full n) s ls s' /\ length ls = k.
Proof.
  intros Hn. induction k as [|k IH]; intros s Hs.
  - exists [], s. split; [constructor|reflexivity].
  - assert (Hn1 : n <= len s) by (pose proof (len_nonneg s); nia).
    assert (Hr : read_full n s = Some (firstn (Z.to_nat n) s, skipn (Z.to_nat n) s)).
    { unfold read_full. replace (n <=? len s) with true by lia. reflexivity. }
    destruct (IH (skipn (Z.to_nat n) s)) as (ls & s' & H1 & H2).
    { unfold len in *. rewrite skipn_length. nia. }
    exists (firstn (Z.to_nat n) s :: ls), s'. split; [econstructor; eauto|cbn; lia].
Qed.

Lemma concat_nth_block {A} (ls : list (list A)) w : Forall (fun l => length l = w) ls ->
  forall k l j, nth_error ls k = Some l -> (j < w)%nat ->
  nth_error (concat ls) (k * w + j) = nth_error l j.
Proof.
  induction 1 as [|x ls Hx Hls IH]; intros k l j Hk Hj; [destruct k; discriminate|].
  destruct k as [|k]; cbn [concat] in *; cbn [nth_error] in Hk.
  - injection Hk as ->. cbn. rewrite nth_error_app1 by lia. reflexivity.
  - rewrite nth_error_app2 by nia. rewrite <- (IH k l j Hk Hj). f_equal. nia.
Qed.

Lemma concat_block_length {A} (ls : list (list A)) w : Forall (fun l => length l = w) ls ->
  length (concat ls) = (length ls * w)%nat.
Proof. induction 1 as [|x ls Hx Hls IH]; cbn; [reflexivity|]. rewrite app_length. lia. Qed.

(** Decoders. *)
Lemma little_endian_values_spec f : forall n line,
  length line = (2 * n)%nat ->
  exists r, little_endian_values f n line = Some r /\ length r = n /\
    forall k, (k < n)%nat -> exists a b, nth_error line (2 * k) = Some a /\ nth_error line (2 * k + 1) = Some b /\
      nth_error r k = Some (f a b).
Proof.
  induction n as [|n IH]; intros line Hl.
  - exists []. cbn. repeat split; auto. intros; lia.
  - destruct line as [|a [|b t]]; cbn in Hl; try lia.
    destruct (IH t) as (r & Hr & Hrl & Hrk); [lia|].
    cbn [little_endian_values]. rewrite Hr. exists (f a b :: r). repeat split; [cbn; lia|].
    intros [|k] Hk.
    + exists a, b. cbn. auto.
    + destruct (Hrk k) as (a' & b' & H1 & H2 & H3); [lia|]. exists a', b'.
      replace (2 * S k)%nat with (S (S (2 * k))) by lia.
      replace (S (S (2 * k)) + 1)%nat with (S (S (2 * k + 1))) by lia. cbn. auto.
Qed.

Lemma decode_little_endian_ok p u dst line : len line = 2 * len dst ->
  exists r, decode_little_endian p u dst line = RowOk r /\ length r = length dst /\
    forall k, (k < length dst)%nat -> exists a b, nth_error line (2 * k) = Some a /\ nth_error line (2 * k + 1) = Some b /\
      nth_error r k = Some (rvp6_little_endian p u a b).
Proof.
  intros H. unfold decode_little_endian.
  replace (negb (len line mod 2 =? 0) || negb (len dst * 2 =? len line)) with false.
  2:{ symmetry. apply orb_false_iff. split; apply negb_false_iff, Z.eqb_eq; [|lia].
      rewrite H, Z.mul_comm. apply Z.mod_mul. lia. }
  destruct (little_endian_values_spec (rvp6_little_endian p u) (length dst) line) as (r & Hr & H1 & H2).
  { unfold len in H. lia. }
  rewrite Hr. eauto.
Qed.

Lemma decode_little_endian_width p u w : width_ok (decode_little_endian p u) w.
Proof.
  intros dst line Hw. unfold decode_little_endian.
  destruct (negb (len line mod 2 =? 0) || negb (len dst * 2 =? len line)) eqn:He; [assumption|].
  apply orb_false_iff in He as [_ He]. apply negb_false_iff, Z.eqb_eq in He.
  destruct (little_endian_values_spec (rvp6_little_endian p u) (length dst) line) as (r & Hr & H1 & H2).
  { unfold len in He. lia. }
  rewrite Hr. congruence.
Qed.

Lemma decode_single_byte_width p u w : width_ok (decode_single_byte p u) w.
Proof.
  intros dst line Hw. unfold decode_single_byte.
  destruct (negb (len dst =? len line)) eqn:He; [assumption|].
  apply negb_false_iff, Z.eqb_eq in He. rewrite map_length. unfold len in He. lia.
Qed.

Lemma decode_single_byte_ok p u dst line : len line = len dst ->
  decode_single_byte p u dst line = RowOk (map (rvp6_single_byte p u) line).
Proof. intros H. unfold decode_single_byte. rewrite H, Z.eqb_refl. reflexivity. Qed.

Lemma rvp6_runlength_total level v : 0 <= v -> exists f, rvp6_runlength level v = Some f.
Proof.
  intros H. unfold rvp6_runlength. destruct (v =? 0) eqn:H0; [eauto|].
  destruct (len level <=? v - 1) eqn:H1; [eauto|]. apply index_some. lia.
Qed.

Lemma write_run_width level v : 0 <= v -> forall n dst pos, 0 <= pos ->
  match write_run level v n dst pos with
  | (RowOk d, pos') => length d = length dst /\ pos' = pos + Z.of_nat n
  | (RowErr _ d, _) => length d = length dst
  | (RowPanic, _) => False
  end.
Proof.
  intros Hv. induction n as [|n IH]; intros dst pos Hp; cbn [write_run]; [split; lia|].
  destruct (len dst <=? pos) eqn:Hl; [reflexivity|].
  destruct (rvp6_runlength_total level v Hv) as [f ->].
  rewrite assign_some by lia.
  specialize (IH (replace_nth dst (Z.to_nat pos) f) (pos + 1) ltac:(lia)).
  rewrite replace_nth_length in IH.
  destruct (write_run level v n _ (pos + 1)) as [[d|e d|] p']; auto.
  destruct IH; split; lia.
Qed.

Lemma runlength_loop_width level : forall line first offset dst pos, 0 <= pos ->
  match runlength_loop level line first offset dst pos with
  | RowOk d => length d = length dst
  | RowErr _ d => length d = length dst
  | RowPanic => False
  end.
Proof.
  induction line as [|b line IH]; intros first offset dst pos Hp; cbn [runlength_loop]; [reflexivity|].
  destruct first; [apply IH; lia|]. destruct offset.
  - destruct (bz b <? 16) eqn:Hb; [reflexivity|]. apply IH. lia.
  - pose proof (write_run_width level (Z.land (bz b) 15)) as Hw.
    assert (H0 : 0 <= Z.land (bz b) 15) by (apply Z.land_nonneg; lia).
    specialize (Hw H0 (Z.to_nat (Z.shiftr (bz b) 4)) dst pos Hp).
    destruct (write_run level _ _ dst pos) as [[d|e d|] p']; auto.
    destruct Hw as [Hd Hp']. specialize (IH false false d p' ltac:(lia)).
    rewrite Hd in IH. exact IH.
Qed.

Lemma decode_runlength_width level w : width_ok (decode_runlength level) w.
Proof.
  intros dst line Hw. unfold decode_runlength.
  pose proof (runlength_loop_width level line true true (repeat NaN32 (length dst)) 0 ltac:(lia)) as H.
  rewrite repeat_length in H. destruct (runlength_loop _ _ _ _ _ _); congruence.
Qed.

Lemma decode_runlength_indep level d1 d2 line : length d1 = length d2 ->
  decode_runlength level d1 line = decode_runlength level d2 line.
Proof. intros H. unfold decode_runlength. now rewrite H. Qed.

Lemma write_run_errors level v : forall n dst pos e d p',
  write_run level v n dst pos = (RowErr e d, p') -> e = EDestination.
Proof.
  induction n as [|n IH]; intros dst pos e d p'; cbn [write_run]; [discriminate|].
  destruct (len dst <=? pos); [congruence|].
  destruct (rvp6_runlength level v); [|discriminate].
  destruct (assign dst pos f); [apply IH|discriminate].
Qed.

Lemma runlength_loop_errors level : forall line first offset dst pos e d,
  runlength_loop level line first offset dst pos = RowErr e d -> e = EOffsetValue \/ e = EDestination.
Proof.
  induction line as [|b line IH]; intros first offset dst pos e d; cbn [runlength_loop]; [discriminate|].
  destruct first; [apply IH|]. destruct offset.
  - destruct (bz b <? 16); [left; congruence|apply IH].
  - destruct (write_run level _ _ dst pos) as [[d'|e' d'|] p'] eqn:Hw.
    + apply IH.
    + intros H; injection H as <- <-. right. eapply write_run_errors; eauto.
    + discriminate.
Qed.

Lemma decode_runlength_errors level dst line e d :
  decode_runlength level dst line = RowErr e d -> e = EOffsetValue \/ e = EDestination.
Proof. apply runlength_loop_errors. Qed.
