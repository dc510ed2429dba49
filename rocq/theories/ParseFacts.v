(** parseData, arrangeData and NewComposite as a whole. *)
From Verif Require Import GoBase GoFloat Catalog Composite Header Data Projection Radolan BaseFacts HeaderSafe DataFacts.

Section RowsComplete.
Context {T : Type}.
Variable read : list byte -> option (list byte * list byte).
Variable eread : error.
Variable decode : list f32 -> list byte -> row_result.
Variable row : Z -> Z.
Variable w : nat.

Lemma row_loop_complete : forall lines i (c : composite T) s s',
  reads read s lines s' ->
  (forall dst line, In line lines -> length dst = w -> exists r, decode dst line = RowOk r /\ length r = w) ->
  wide w (c_plain c) ->
  (forall k, i <= k < i + len lines -> 0 <= row k < len (c_plain c)) ->
  exists c', row_loop read eread decode row (length lines) i c s = Value (c', s').
Proof.
  induction lines as [|line lines IH]; intros i c s s' Hr Hd Hw Hrow; cbn [row_loop length].
  - inversion Hr; subst. eauto.
  - inversion Hr as [|? ? s1 ? ? Hread Hrest]; subst. rewrite Hread.
    assert (Hi : 0 <= row i < len (c_plain c)) by (apply Hrow; rewrite len_cons; pose proof (len_nonneg lines); lia).
    destruct (index_some (c_plain c) (row i) Hi) as [dst Hdst]. rewrite Hdst.
    apply index_inv in Hdst as [_ Hdst].
    assert (Hlen : length dst = w) by (eapply wide_nth; eauto).
    destruct (Hd dst line) as (r & -> & Hrl); [left; reflexivity|assumption|].
    rewrite assign_some by assumption.
    apply IH; auto.
    + intros; apply Hd; [right|]; assumption.
    + cbn. now apply wide_replace.
    + intros k Hk. cbn. unfold len. rewrite replace_nth_length. apply Hrow. rewrite len_cons. lia.
Qed.

Lemma row_loop_error :
  (forall s line s' dst, read s = Some (line, s') -> length dst = w -> exists r, decode dst line = RowOk r /\ length r = w) ->
  forall n i (c : composite T) s e c', wide w (c_plain c) ->
  row_loop read eread decode row n i c s = Failure e c' -> e = eread.
Proof.
  intros Hd. induction n as [|n IH]; intros i c s e c' Hw; cbn [row_loop]; [discriminate|].
  destruct (read s) as [[line s1]|] eqn:Hr; [|congruence].
  destruct (index (c_plain c) _) as [dst|] eqn:Hi; [|discriminate].
  apply index_inv in Hi as [Hi Hdst].
  assert (length dst = w) by (eapply wide_nth; eauto).
  destruct (Hd s line s1 dst Hr) as (r & -> & Hrl); [assumption|].
  rewrite assign_some by assumption.
  apply IH. cbn. apply wide_replace; auto.
Qed.
End RowsComplete.

Definition cell (p : list (list f32)) (y x : Z) : option f32 :=
  match index p y with Some r => index r x | None => None end.

Section Parse.
Context {T : Type}.
Implicit Types c : composite T.

Definition dims_pos c : Prop :=
  0 < c_px c /\ 0 < c_py c /\ c_dx c = c_px c /\ c_px c * 4 <= max_alloc /\ c_py c * 24 <= max_alloc.
Definition plain_ok c : Prop := len (c_plain c) = c_py c /\ wide (Z.to_nat (c_px c)) (c_plain c).

Lemma px_double c : dims_pos c -> int_wrap (c_dx c * 2) = 2 * c_px c.
Proof. intros (H1 & H2 & H3 & H4 & H5). rewrite H3, int_wrap_id; unfold max_alloc in *; lia. Qed.

Lemma parse_runlength_spec c s : plain_ok c ->
  match parse_runlength c s with
  | Value (c', s') =>
      exists p lines, c' = set_plain c p /\ len p = c_py c /\ wide (Z.to_nat (c_px c)) p /\
        len lines = c_py c /\ reads read_line_runlength s lines s' /\
        (forall k line, nth_error lines k = Some line -> exists r, nth_error p k = Some r /\
           decode_runlength (level_of c) (repeat NaN32 (Z.to_nat (c_px c))) line = RowOk r)
  | Failure e c' => exists p, c' = set_plain c p /\ len p = c_py c /\ wide (Z.to_nat (c_px c)) p
  | Panic => False
  end.
Proof.
  intros [Hl Hw]. unfold parse_runlength.
  pose proof (row_loop_spec read_line_runlength EReadRunlength (decode_runlength (level_of c)) (fun i => i)
     (Z.to_nat (c_px c)) (decode_runlength_width _ _) (length (c_plain c)) 0 c s Hw) as H.
  cbv beta in H. specialize (H ltac:(unfold len; lia) ltac:(auto)).
  destruct (row_loop _ _ _ _ _ _ _ _) as [[c' s']|e c'|]; auto.
  - destruct H as (p & lines & H1 & H2 & H3 & H4 & H5 & H6 & _).
    exists p, lines. repeat split; auto; try (unfold len in *; lia).
    intros k line Hk. destruct (H6 k line Hk) as (dst & r & Ha & Hb & Hc).
    rewrite Z.add_0_l, Nat2Z.id in Ha, Hb. exists r. split; [assumption|].
    rewrite <- Hc. apply decode_runlength_indep. rewrite repeat_length. symmetry. exact (wide_nth _ _ _ _ Hw Ha).
  - destruct H as (p & H1 & H2 & H3). exists p. repeat split; auto; unfold len in *; lia.
Qed.

Lemma parse_runlength_errors c s e c' : parse_runlength c s = Failure e c' ->
  e = EReadRunlength \/ e = EOffsetValue \/ e = EDestination.
Proof.
  unfold parse_runlength. generalize (level_of c). intros lv.
  generalize 0. generalize (length (c_plain c)). intros n. revert c s.
  induction n as [|n IH]; intros c s i; cbn [row_loop]; [discriminate|].
  destruct (read_line_runlength s) as [[line s1]|]; [|intros H; injection H; auto].
  destruct (index (c_plain c) i) as [dst|]; [|discriminate].
  destruct (decode_runlength lv dst line) as [d|e1 d|] eqn:Hdr.
  - destruct (assign _ _ _); [apply IH|discriminate].
  - destruct (assign _ _ _); [|discriminate]. intros H; injection H as <- <-.
    apply decode_runlength_errors in Hdr. auto.
  - discriminate.
Qed.

Lemma flip_row n k : 0 <= k < n -> 0 <= n - 1 - k < n.
Proof. lia. Qed.

Lemma parse_little_endian_loop c s : dims_pos c ->
  parse_little_endian c s =
  row_loop (read_full (2 * c_px c)) EReadLittleEndian (decode_little_endian (c_precision c) (c_unit c))
        (fun i => len (c_plain c) - 1 - i) (length (c_plain c)) 0 c s.
Proof.
  intros Hd. pose proof (px_double c Hd) as Hdx. destruct Hd as (Hpx & Hpy & Hdpx & Hap & Hay).
  unfold parse_little_endian. rewrite Hdx.
  rewrite make_some by (unfold max_alloc in *; lia). destruct (c_plain c); reflexivity.
Qed.

Lemma parse_little_endian_spec c s : dims_pos c -> plain_ok c ->
  match parse_little_endian c s with
  | Value (c', s') =>
      exists p, c' = set_plain c p /\ len p = c_py c /\ wide (Z.to_nat (c_px c)) p /\
        2 * (c_px c * c_py c) <= len s /\
        s' = skipn (Z.to_nat (2 * (c_px c * c_py c))) s /\
        (forall y x, 0 <= y < c_py c -> 0 <= x < c_px c ->
          exists a b, index s (2 * ((c_py c - 1 - y) * c_px c + x)) = Some a /\
                      index s (2 * ((c_py c - 1 - y) * c_px c + x) + 1) = Some b /\
                      cell p y x = Some (rvp6_little_endian (c_precision c) (c_unit c) a b))
  | Failure e c' => len s < 2 * (c_px c * c_py c) /\ e = EReadLittleEndian /\
      exists p, c' = set_plain c p /\ len p = c_py c /\ wide (Z.to_nat (c_px c)) p
  | Panic => False
  end.
Proof.
  intros Hd [Hl Hw]. pose proof Hd as Hd0. destruct Hd as (Hpx & Hpy & Hdpx & Hap & Hay).
  rewrite (parse_little_endian_loop c s Hd0).
  pose proof (row_loop_spec (read_full (2 * c_px c)) EReadLittleEndian (decode_little_endian (c_precision c) (c_unit c))
     (fun i => len (c_plain c) - 1 - i)
     (Z.to_nat (c_px c)) (decode_little_endian_width _ _ _) (length (c_plain c)) 0 c s Hw) as H.
  cbv beta in H. specialize (H ltac:(unfold len; lia) ltac:(unfold len; lia)).
  pose proof (@row_loop_complete T (read_full (2 * c_px c)) EReadLittleEndian (decode_little_endian (c_precision c) (c_unit c))
     (fun i => len (c_plain c) - 1 - i) (Z.to_nat (c_px c))) as Hcomp.
  assert (Hok : 2 * (c_px c * c_py c) <= len s -> exists c' s', 
     row_loop (read_full (2 * c_px c)) EReadLittleEndian
       (decode_little_endian (c_precision c) (c_unit c))
       (fun i : Z => len (c_plain c) - 1 - i) (length (c_plain c)) 0 c s = Value (c', s')).
  { intros Hs. destruct (reads_full_exists (2 * c_px c) ltac:(lia) (length (c_plain c)) s) as (ls & s' & Hr & Hll).
    { unfold len in Hl. rewrite Hl. nia. }
    destruct (Hcomp ls 0 c s s' Hr) as [c' Hc'].
    - intros dst line Hin Hdl. apply reads_full_concat in Hr as [_ Hf]; [|lia].
      rewrite Forall_forall in Hf. apply Hf in Hin.
      destruct (decode_little_endian_ok (c_precision c) (c_unit c) dst line) as (r & Hr1 & Hr2 & _).
      { unfold len in *. lia. }
      exists r. split; [assumption|lia].
    - assumption.
    - intros k Hk. unfold len in *. lia.
    - rewrite Hll in Hc'. eauto. }
  destruct (row_loop _ _ _ _ _ _ _ _) as [[c' s']|e c'|] eqn:Hloop; auto.
  - destruct H as (p & lines & H1 & H2 & H3 & H4 & H5 & H6 & _).
    apply reads_full_concat in H5 as [Hs Hlines]; [|lia].
    assert (Hlines' : Forall (fun l => length l = Z.to_nat (2 * c_px c)) lines).
    { eapply Forall_impl; [|exact Hlines]. cbn. unfold len. intros; lia. }
    pose proof (concat_block_length lines _ Hlines') as Hcl.
    exists p. repeat split; auto; try (unfold len in *; lia).
    + subst s. rewrite len_app. unfold len in *. rewrite Hcl, H4. nia.
    + subst s. rewrite skipn_app.
      replace (Z.to_nat (2 * (c_px c * c_py c))) with (length (concat lines)).
      2:{ rewrite Hcl, H4. unfold len in *. nia. }
      rewrite skipn_all, Nat.sub_diag. reflexivity.
    + intros y x Hy Hx.
      set (k := Z.to_nat (c_py c - 1 - y)).
      assert (Hk : (k < length lines)%nat) by (unfold len in *; lia).
      destruct (nth_error lines k) as [line|] eqn:Hline.
      2:{ apply nth_error_None in Hline. lia. }
      destruct (H6 k line Hline) as (dst & r & Ha & Hb & Hc).
      assert (Hdl : length dst = Z.to_nat (c_px c)) by exact (wide_nth _ _ _ _ Hw Ha).
      assert (Hll : len line = 2 * c_px c).
      { rewrite Forall_forall in Hlines. apply Hlines. eapply nth_error_In; eauto. }
      destruct (decode_little_endian_ok (c_precision c) (c_unit c) dst line) as (r' & Hr1 & Hr2 & Hr3).
      { unfold len in *. lia. }
      rewrite Hc in Hr1. injection Hr1 as <-.
      destruct (Hr3 (Z.to_nat x)) as (a & b & Hxa & Hxb & Hxr); [lia|].
      exists a, b.
      assert (Hyy : Z.to_nat (len (c_plain c) - 1 - (0 + Z.of_nat k)) = Z.to_nat y) by (unfold len in *; lia).
      rewrite Hyy in *.
      rewrite !index_nth by nia.
      replace (Z.to_nat (2 * ((c_py c - 1 - y) * c_px c + x))) with (k * Z.to_nat (2 * c_px c) + 2 * Z.to_nat x)%nat by nia.
      replace (Z.to_nat (2 * ((c_py c - 1 - y) * c_px c + x) + 1)) with (k * Z.to_nat (2 * c_px c) + (2 * Z.to_nat x + 1))%nat by nia.
      subst s. rewrite !nth_error_app1 by (rewrite Hcl; nia).
      rewrite !(concat_nth_block _ _ Hlines' k line) by (auto; lia).
      repeat split; auto. unfold cell. rewrite index_nth by lia. rewrite Hb, index_nth by lia. assumption.
  - split; [|split].
    + destruct (Z_lt_le_dec (len s) (2 * (c_px c * c_py c))) as [Hlt|Hge]; [assumption|].
      destruct (Hok Hge) as (? & ? & Heq). congruence.
    + eapply (row_loop_error _ _ _ _ (Z.to_nat (c_px c))); [|exact Hw|exact Hloop].
      intros s0 line s1 dst Hr Hdl. apply read_full_inv in Hr as (_ & _ & Hll); [|lia].
      destruct (decode_little_endian_ok (c_precision c) (c_unit c) dst line) as (r & -> & Hrl & _); [unfold len in *; lia|].
      exists r; split; [reflexivity|lia].
    + destruct H as (p & H1 & H2 & H3). exists p. repeat split; auto; unfold len in *; lia.
Qed.
Lemma parse_single_byte_loop c s : dims_pos c ->
  parse_single_byte c s =
  row_loop (read_full (c_px c)) EReadSingleByte (decode_single_byte (c_precision c) (c_unit c))
        (fun i => len (c_plain c) - 1 - i) (length (c_plain c)) 0 c s.
Proof.
  intros (Hpx & Hpy & Hdpx & Hap & Hay).
  unfold parse_single_byte. rewrite Hdpx.
  rewrite make_some by (unfold max_alloc in *; lia). destruct (c_plain c); reflexivity.
Qed.

Lemma parse_single_byte_spec c s : dims_pos c -> plain_ok c ->
  match parse_single_byte c s with
  | Value (c', s') =>
      exists p, c' = set_plain c p /\ len p = c_py c /\ wide (Z.to_nat (c_px c)) p /\
        c_px c * c_py c <= len s /\
        s' = skipn (Z.to_nat (c_px c * c_py c)) s /\
        (forall y x, 0 <= y < c_py c -> 0 <= x < c_px c ->
          exists a, index s ((c_py c - 1 - y) * c_px c + x) = Some a /\
                    cell p y x = Some (rvp6_single_byte (c_precision c) (c_unit c) a))
  | Failure e c' => len s < c_px c * c_py c /\ e = EReadSingleByte /\
      exists p, c' = set_plain c p /\ len p = c_py c /\ wide (Z.to_nat (c_px c)) p
  | Panic => False
  end.
Proof.
  intros Hd [Hl Hw]. pose proof Hd as Hd0. destruct Hd as (Hpx & Hpy & Hdpx & Hap & Hay).
  rewrite (parse_single_byte_loop c s Hd0).
  pose proof (row_loop_spec (read_full (c_px c)) EReadSingleByte (decode_single_byte (c_precision c) (c_unit c))
     (fun i => len (c_plain c) - 1 - i)
     (Z.to_nat (c_px c)) (decode_single_byte_width _ _ _) (length (c_plain c)) 0 c s Hw) as H.
  cbv beta in H. specialize (H ltac:(unfold len; lia) ltac:(unfold len; lia)).
  pose proof (@row_loop_complete T (read_full (c_px c)) EReadSingleByte (decode_single_byte (c_precision c) (c_unit c))
     (fun i => len (c_plain c) - 1 - i) (Z.to_nat (c_px c))) as Hcomp.
  assert (Hok : c_px c * c_py c <= len s -> exists c' s', 
     row_loop (read_full (c_px c)) EReadSingleByte
       (decode_single_byte (c_precision c) (c_unit c))
       (fun i : Z => len (c_plain c) - 1 - i) (length (c_plain c)) 0 c s = Value (c', s')).
  { intros Hs. destruct (reads_full_exists (c_px c) ltac:(lia) (length (c_plain c)) s) as (ls & s' & Hr & Hll).
    { unfold len in Hl. rewrite Hl. nia. }
    destruct (Hcomp ls 0 c s s' Hr) as [c' Hc'].
    - intros dst line Hin Hdl. apply reads_full_concat in Hr as [_ Hf]; [|lia].
      rewrite Forall_forall in Hf. apply Hf in Hin.
      exists (map (rvp6_single_byte (c_precision c) (c_unit c)) line). rewrite map_length. split.
      + apply decode_single_byte_ok. unfold len in *. lia.
      + unfold len in *. lia.
    - assumption.
    - intros k Hk. unfold len in *. lia.
    - rewrite Hll in Hc'. eauto. }
  destruct (row_loop _ _ _ _ _ _ _ _) as [[c' s']|e c'|] eqn:Hloop; auto.
  - destruct H as (p & lines & H1 & H2 & H3 & H4 & H5 & H6 & _).
    apply reads_full_concat in H5 as [Hs Hlines]; [|lia].
    assert (Hlines' : Forall (fun l => length l = Z.to_nat (c_px c)) lines).
    { eapply Forall_impl; [|exact Hlines]. cbn. unfold len. intros; lia. }
    pose proof (concat_block_length lines _ Hlines') as Hcl.
    exists p. repeat split; auto; try (unfold len in *; lia).
    + subst s. rewrite len_app. unfold len in *. rewrite Hcl, H4. nia.
    + subst s. rewrite skipn_app.
      replace (Z.to_nat (c_px c * c_py c)) with (length (concat lines)).
      2:{ rewrite Hcl, H4. unfold len in *. nia. }
      rewrite skipn_all, Nat.sub_diag. reflexivity.
    + intros y x Hy Hx.
      set (k := Z.to_nat (c_py c - 1 - y)).
      assert (Hk : (k < length lines)%nat) by (unfold len in *; lia).
      destruct (nth_error lines k) as [line|] eqn:Hline.
      2:{ apply nth_error_None in Hline. lia. }
      destruct (H6 k line Hline) as (dst & r & Ha & Hb & Hc).
      assert (Hdl : length dst = Z.to_nat (c_px c)) by exact (wide_nth _ _ _ _ Hw Ha).
      assert (Hll : len line = c_px c).
      { rewrite Forall_forall in Hlines. apply Hlines. eapply nth_error_In; eauto. }
      rewrite decode_single_byte_ok in Hc by (unfold len in *; lia). injection Hc as <-.
      destruct (nth_error line (Z.to_nat x)) as [a|] eqn:Hxa.
      2:{ apply nth_error_None in Hxa. unfold len in *. lia. }
      exists a.
      assert (Hyy : Z.to_nat (len (c_plain c) - 1 - (0 + Z.of_nat k)) = Z.to_nat y) by (unfold len in *; lia).
      rewrite Hyy in *.
      rewrite !index_nth by nia.
      replace (Z.to_nat ((c_py c - 1 - y) * c_px c + x)) with (k * Z.to_nat (c_px c) + Z.to_nat x)%nat by nia.
      subst s. rewrite !nth_error_app1 by (rewrite Hcl; nia).
      rewrite !(concat_nth_block _ _ Hlines' k line) by (auto; lia).
      repeat split; auto. unfold cell. rewrite index_nth by lia. rewrite Hb, index_nth by lia.
      now apply map_nth_error.
  - split; [|split].
    + destruct (Z_lt_le_dec (len s) (c_px c * c_py c)) as [Hlt|Hge]; [assumption|].
      destruct (Hok Hge) as (? & ? & Heq). congruence.
    + eapply (row_loop_error _ _ _ _ (Z.to_nat (c_px c))); [|exact Hw|exact Hloop].
      intros s0 line s1 dst Hr Hdl. apply read_full_inv in Hr as (_ & _ & Hll); [|lia].
      exists (map (rvp6_single_byte (c_precision c) (c_unit c)) line). rewrite map_length. split.
      * apply decode_single_byte_ok. unfold len in *. lia.
      * unfold len in *. lia.
    + destruct H as (p & H1 & H2 & H3). exists p. repeat split; auto; unfold len in *; lia.
Qed.

(** The conditions under which the allocation in parseData succeeds. *)
Definition alloc_ok c : Prop :=
  0 < c_px c /\ 0 < c_py c /\ c_px c * 4 <= max_alloc /\ c_py c * 24 <= max_alloc.
Definition blank c : list (list f32) := repeat (repeat (S754_zero false) (Z.to_nat (c_px c))) (Z.to_nat (c_py c)).

Lemma map_const_repeat {A B} (z : B) (a : A) n : map (fun _ => z) (repeat a n) = repeat z n.
Proof. induction n; cbn; congruence. Qed.

Lemma parse_data_eq c s :
  parse_data c s =
    if (c_px c =? 0) || (c_py c =? 0) then Failure ENoHeader c
    else if (0 <? c_px c) && (0 <? c_py c) && (c_px c * 4 <=? max_alloc) && (c_py c * 24 <=? max_alloc)
    then let c1 := set_plain c (blank c) in parse_encoding (identify_encoding c1) c1 s
    else Panic.
Proof.
  unfold parse_data. destruct ((c_px c =? 0) || (c_py c =? 0)) eqn:H0; [reflexivity|].
  apply orb_false_iff in H0 as [H1 H2].
  destruct (make 24 ([] : list f32) (c_py c)) as [rows|] eqn:Hm.
  2:{ apply make_none in Hm.
      replace ((0 <? c_px c) && (0 <? c_py c) && (c_px c * 4 <=? max_alloc) && (c_py c * 24 <=? max_alloc)) with false; [reflexivity|].
      symmetry. rewrite !andb_false_iff. lia. }
  apply make_inv in Hm as (Hm1 & Hm2 & ->).
  assert (Hne : exists r rs, repeat ([] : list f32) (Z.to_nat (c_py c)) = r :: rs).
  { destruct (Z.to_nat (c_py c)) eqn:Hn; [lia|]. cbn. eauto. }
  destruct Hne as (r & rs & Hne).
  destruct (make 4 (S754_zero false) (c_px c)) as [zs|] eqn:Hz.
  - apply make_inv in Hz as (Hz1 & Hz2 & ->).
    replace ((0 <? c_px c) && (0 <? c_py c) && (c_px c * 4 <=? max_alloc) && (c_py c * 24 <=? max_alloc)) with true.
    2:{ symmetry. rewrite !andb_true_iff. lia. }
    replace (blank c) with (map (fun _ : list f32 => repeat (S754_zero false : f32) (Z.to_nat (c_px c))) (repeat ([] : list f32) (Z.to_nat (c_py c)))) by apply map_const_repeat.
    rewrite Hne, make_some by lia. reflexivity.
  - pose proof Hz as Hz0. apply make_none in Hz. rewrite Hne.
    replace ((0 <? c_px c) && (0 <? c_py c) && (c_px c * 4 <=? max_alloc) && (c_py c * 24 <=? max_alloc)) with false.
    { unfold f32 in *. rewrite Hz0. reflexivity. }
    symmetry. rewrite !andb_false_iff. lia.
Qed.

Lemma blank_ok c : alloc_ok c -> plain_ok (set_plain c (blank c)).
Proof.
  intros (H1 & H2 & _). unfold plain_ok, blank; cbn. rewrite len_repeat. split; [lia|].
  unfold wide. apply Forall_forall. intros r Hr. apply repeat_spec in Hr as ->. apply repeat_length.
Qed.

Lemma dims_pos_of c : dims_ok c -> alloc_ok c -> dims_pos c.
Proof. unfold dims_ok, alloc_ok, dims_pos. intros [[-> ->]|(H1 & H2 & _)] (? & ? & ? & ?); repeat split; congruence || lia. Qed.

Lemma alloc_ok_test c : alloc_ok c <->
  (0 <? c_px c) && (0 <? c_py c) && (c_px c * 4 <=? max_alloc) && (c_py c * 24 <=? max_alloc) = true.
Proof. unfold alloc_ok. rewrite !andb_true_iff. lia. Qed.

Lemma alloc_ok_nonzero c : alloc_ok c -> (c_px c =? 0) || (c_py c =? 0) = false.
Proof. unfold alloc_ok. rewrite orb_false_iff. lia. Qed.

Lemma parse_data_alloc c s : alloc_ok c ->
  parse_data c s = parse_encoding (identify_encoding c) (set_plain c (blank c)) s.
Proof.
  intros H. rewrite parse_data_eq, alloc_ok_nonzero by assumption.
  apply alloc_ok_test in H. rewrite H. reflexivity.
Qed.

(** parseData: no panic on acceptable dimensions; shape of the result. *)
Lemma parse_data_shape c s : dims_ok c ->
  match parse_data c s with
  | Value (c', _) => alloc_ok c /\ exists p, c' = set_plain c p /\ len p = c_py c /\ wide (Z.to_nat (c_px c)) p
  | Failure e c' => e <> ErrUnknownUnit /\ exists p, c' = set_plain c p
  | Panic => c_px c <> 0 /\ c_py c <> 0 /\ ~ alloc_ok c
  end.
Proof.
  intros Hd. rewrite parse_data_eq.
  destruct ((c_px c =? 0) || (c_py c =? 0)) eqn:H0.
  { split; [discriminate|]. exists (c_plain c). destruct c; reflexivity. }
  apply orb_false_iff in H0 as [Hx Hy].
  destruct (_ && _) eqn:Ha.
  2:{ repeat split; try lia. intros H. apply alloc_ok_test in H. congruence. }
  apply alloc_ok_test in Ha. pose proof (dims_pos_of c Hd Ha) as Hp. pose proof (blank_ok c Ha) as Hb.
  cbv zeta. set (c1 := set_plain c (blank c)) in *.
  assert (Hp1 : dims_pos c1) by exact Hp.
  destruct (identify_encoding c1); cbn [parse_encoding].
  - pose proof (parse_runlength_spec c1 s Hb) as H.
    destruct (parse_runlength c1 s) as [[c' s']|e c'|] eqn:He.
    + split; [assumption|]. destruct H as (p & lines & H1 & H2 & H3 & _). exists p. repeat split; auto.
    + destruct H as (p & H1 & _). split; [|exists p; exact H1].
      apply parse_runlength_errors in He. intuition congruence.
    + contradiction.
  - pose proof (parse_little_endian_spec c1 s Hp1 Hb) as H.
    destruct (parse_little_endian c1 s) as [[c' s']|e c'|] eqn:He.
    + split; [assumption|]. destruct H as (p & H1 & H2 & H3 & _). exists p. repeat split; auto.
    + destruct H as (_ & -> & p & H1 & _). split; [discriminate|exists p; exact H1].
    + contradiction.
  - pose proof (parse_single_byte_spec c1 s Hp1 Hb) as H.
    destruct (parse_single_byte c1 s) as [[c' s']|e c'|] eqn:He.
    + split; [assumption|]. destruct H as (p & H1 & H2 & H3 & _). exists p. repeat split; auto.
    + destruct H as (_ & -> & p & H1 & _). split; [discriminate|exists p; exact H1].
    + contradiction.
  - split; [discriminate|]. exists (blank c). reflexivity.
Qed.
End Parse.
