(** C74: what the message says when the reader fails. *)
From Coq Require Import Lia PeanoNat.
From Verif Require Import GoBase GoFloat Catalog Composite Header Data Projection Radolan Bufio ErrorText ReadError
  SpecReader SpecReadError BaseFacts Spec SpecHeader SpecData SpecText HeaderMeaning ApiFacts FileFacts DefectFacts PropHeader PropData PropFile PropReader PropText.
From Coq Require String. Import String.StringSyntax.
Local Open Scope nat_scope.

(** * Which errors the buffered reader hands on *)
Section Errors.
Variable S : Type.
Variable read : nat -> S -> list byte * option rderr * S.
Variable size : nat.
Hypothesis Hsize : 0 < size.
Variable x : rderr.
(** States that report no error but x, with at most g empty reads next unless x
    is the error for too many of them. *)
Variable J : nat -> S -> Prop.
Hypothesis Jstep : forall g s n, J g s -> 0 < n -> exists d e s', read n s = (d, e, s') /\ length d <= n /\
  ((e = Some x /\ forall g', J g' s') \/ (e = None /\ d <> [] /\ J 99 s') \/
   (e = None /\ d = [] /\ ((exists g', g = Datatypes.S g' /\ J g' s') \/ (x = RdNoProgress /\ J 99 s')))).

Definition K (b : bufrd S) : Prop := length (b_buf b) <= size /\ (exists g, g <= 99 /\ J g (b_src b)) /\ (b_err b = None \/ b_err b = Some x).

Lemma fill_K i : forall g b, (g < i \/ x = RdNoProgress) -> g <= 99 -> length (b_buf b) < size -> b_err b = None -> J g (b_src b) -> K (fill_loop S read size i b).
Proof.
  induction i as [|i IH]; intros g b Hg Hg' Hb He HJ.
  - cbn [fill_loop]. split; [cbn; lia|]. split; [exists g; auto|]. right. cbn. destruct Hg as [Hg|Hg]; [lia|now rewrite Hg].
  - cbn [fill_loop]. destruct (Jstep g (b_src b) (size - length (b_buf b)) HJ ltac:(lia)) as (d & e & s' & H1 & H2 & H3). rewrite H1.
    destruct H3 as [[-> H3]|[(-> & H3 & H4)|(-> & -> & H4)]].
    + split; [cbn; rewrite app_length; lia|]. split; [exists 0; split; [lia|apply H3]|]. right; reflexivity.
    + destruct d as [|y d]; [congruence|]. split; [cbn [b_buf]; rewrite app_length; lia|]. split; [exists 99; auto|]. left; exact He.
    + rewrite app_nil_r. destruct H4 as [(g' & -> & H4)|[H4 H5]].
      * apply (IH g'); cbn; auto; [|lia]. destruct Hg as [Hg|Hg]; [left; lia|now right].
      * apply (IH 99); cbn; auto.
Qed.
Lemma slice_K d fuel : forall s b r, K b -> slice_loop S read size fuel d s b = Some r ->
  K (snd r) /\ forall e, snd (fst r) = Some (Pending e) -> e = x.
Proof.
  induction fuel as [|fuel IH]; intros s b r HK; cbn [slice_loop]; destruct HK as (K1 & (g & K2 & K3) & K4);
  destruct (index_byte d (skipn s (b_buf b))) as [i|].
  1, 3: intros [= <-]; cbn; split; [|discriminate]; split; [cbn; rewrite skipn_length; lia|]; split; [exists g; auto|exact K4].
  1, 2: destruct (b_err b) as [e|] eqn:He.
  1, 3: intros [= <-]; cbn; split; [split; [cbn; lia|]; split; [exists g; auto|now left]|]; intros e' [= <-]; destruct K4; congruence.
  1, 2: destruct (Nat.leb_spec size (length (b_buf b))) as [Hl|Hl].
  1, 3: intros [= <-]; cbn; split; [split; [cbn; lia|]; split; [exists g; auto|now left]|discriminate].
  - discriminate.
  - apply IH. unfold fill. apply (fill_K _ g); auto. left. unfold max_empty_reads. lia.
Qed.
Lemma read_bytes_K d fuel : forall b r, K b -> read_bytes S read size fuel d b = Some r ->
  K (snd r) /\ forall e, snd (fst r) = Some e -> e = x.
Proof.
  induction fuel as [|fuel IH]; intros b r HK; [discriminate|]. cbn [read_bytes]. unfold read_slice.
  destruct (slice_loop S read size (Datatypes.S fuel) d 0 b) as [y|] eqn:Hy; [|discriminate].
  pose proof (slice_K d _ _ _ _ HK Hy) as [H1 H2]. destruct y as [[frag [[|e]|]] b']; cbn in H1, H2.
  - destruct (read_bytes S read size fuel d b') as [[[line e] b'']|] eqn:Hr; [|discriminate]. intros [= <-]. cbn. apply (IH b' (line, e, b'') H1 Hr).
  - intros [= <-]. cbn. split; [assumption|]. intros e' [= <-]. now apply H2.
  - intros [= <-]. cbn. split; [assumption|discriminate].
Qed.
Lemma buf_read_K n b : 0 < n -> K b -> K (snd (buf_read S read size n b)) /\ forall e, snd (fst (buf_read S read size n b)) = Some e -> e = x.
Proof.
  intros Hn (K1 & (g & K2 & K3) & K4). destruct n as [|n]; [lia|]. unfold buf_read. destruct (b_buf b) as [|y buf] eqn:Hb.
  - destruct (b_err b) as [e|] eqn:He.
    + cbn. split; [split; [cbn; lia|]; split; [exists g; auto|now left]|]. intros e' [= <-]. destruct K4; congruence.
    + destruct (Nat.leb size (Datatypes.S n)).
      * destruct (Jstep g (b_src b) (Datatypes.S n) K3 ltac:(lia)) as (d & e & s' & H1 & H2 & H3). rewrite H1. cbn.
        destruct H3 as [[-> H3]|[(-> & H3 & H4)|(-> & -> & H4)]].
        -- split; [split; [cbn; lia|]; split; [exists 0; split; [lia|apply H3]|now left]|congruence].
        -- split; [split; [cbn; lia|]; split; [exists 99; auto|now left]|discriminate].
        -- split; [|discriminate]. split; [cbn; lia|]. split; [|now left]. destruct H4 as [(g' & -> & H4)|[_ H4]]; [exists g'; split; [lia|auto]|exists 99; auto].
      * destruct (Jstep g (b_src b) size K3 ltac:(lia)) as (d & e & s' & H1 & H2 & H3). rewrite H1.
        destruct d as [|z d].
        -- cbn. destruct H3 as [[-> H3]|[(-> & H3 & H4)|(-> & _ & H4)]].
           ++ split; [split; [cbn; lia|]; split; [exists 0; split; [lia|apply H3]|now left]|congruence].
           ++ congruence.
           ++ split; [|discriminate]. split; [cbn; lia|]. split; [|now left]. destruct H4 as [(g' & -> & H4)|[_ H4]]; [exists g'; split; [lia|auto]|exists 99; auto].
        -- cbn [fst snd]. split; [|discriminate]. split; [cbn [b_buf]; rewrite skipn_length; lia|]. cbn [b_src b_err].
           destruct H3 as [[-> H3]|[(-> & H3 & H4)|(-> & H3 & H4)]]; [|split; [exists 99; auto|now left]|discriminate].
           split; [exists 0; split; [lia|apply H3]|now right].
  - cbn [fst snd]. split; [|discriminate]. split; [cbn [b_buf]; rewrite skipn_length; lia|]. split; [exists g; auto|exact K4].
Qed.
Lemma full_K fuel : forall n got b r, K b -> full_loop S read size fuel n got b = Some r ->
  K (snd r) /\ forall e, snd (fst r) = Some e -> e = x.
Proof.
  induction fuel as [|fuel IH]; intros n got b r HK; cbn [full_loop]; destruct (Nat.leb_spec n (length got)) as [Hn|Hn].
  1, 3: intros [= <-]; cbn; split; [assumption|discriminate].
  - discriminate.
  - destruct (buf_read_K (n - length got) b ltac:(lia) HK) as [H1 H2].
    destruct (buf_read S read size (n - length got) b) as [[d [e|]] b']; cbn in H1, H2.
    + destruct (Nat.leb n (length (got ++ d))); intros [= <-]; cbn; (split; [assumption|]); [discriminate|]. intros e' [= <-]. now apply H2.
    + intros Hr. now apply (IH _ _ _ _ H1 Hr).
Qed.

(** * The failing call *)
Lemma failing_exists A rd eread decode row : (forall dst line e dst', decode dst line = RowErr e dst' -> e <> eread) ->
  forall n i (c : composite (num A)) b c', row_loop_rd S A rd eread decode row n i c b = Some (Failure eread c') ->
  exists got e, failing_read S rd n b = Some (got, e).
Proof.
  intros Hdec. induction n as [|n IH]; intros i c b c'; cbn [row_loop_rd failing_read]; [discriminate|].
  destruct (rd b) as [[[line [e|]] b']|]; [eauto| |discriminate].
  destruct (index (c_plain c) (row i)) as [dst|]; [|discriminate].
  destruct (decode dst line) as [dst'|e dst'|] eqn:Hd; [| |discriminate]; destruct (assign (c_plain c) (row i) dst'); try discriminate.
  - apply IH.
  - intros [= -> _]. exfalso. eapply Hdec; eauto.
Qed.
End Errors.

Section Composite.
Variable S : Type.
Variable read : nat -> S -> list byte * option rderr * S.
Variable A : arith.
Variable E : goenv.
Notation T := (num A).
Notation size := default_buf_size.

Definition read_kind (e : error) : bool :=
  match e with EReadRunlength | EReadLittleEndian | EReadSingleByte => true | _ => false end.
Definition line_reader (fuel : nat) (e : error) (c : composite T) : bufrd S -> option (list byte * option rderr * bufrd S) :=
  match e with
  | EReadRunlength => read_line_runlength_rd S read size fuel
  | EReadLittleEndian => read_line_full_rd S read size fuel (int_wrap (c_dx c * 2))
  | _ => read_line_full_rd S read size fuel (c_dx c)
  end.

Lemma decode_kind_runlength level dst line e dst' : decode_runlength level dst line = RowErr e dst' -> read_kind e = false.
Proof. unfold decode_runlength. intros H. apply runlength_errors in H. destruct H; subst; reflexivity. Qed.
Lemma decode_kind_little p u dst line e dst' : decode_little_endian p u dst line = RowErr e dst' -> read_kind e = false.
Proof. unfold decode_little_endian. destruct (_ || _); [intros [= <- _]; reflexivity|]. destruct (little_endian_values _ _ _); discriminate. Qed.
Lemma decode_kind_single p u dst line e dst' : decode_single_byte p u dst line = RowErr e dst' -> read_kind e = false.
Proof. unfold decode_single_byte. destruct (negb _); [intros [= <- _]; reflexivity|discriminate]. Qed.

Lemma row_loop_kind rd eread decode row : (forall dst line e dst', decode dst line = RowErr e dst' -> read_kind e = false) ->
  forall n i (c : composite T) b e c', row_loop_rd S A rd eread decode row n i c b = Some (Failure e c') -> read_kind e = true -> e = eread.
Proof.
  intros Hdec. induction n as [|n IH]; intros i c b e c'; cbn [row_loop_rd]; [discriminate|].
  destruct (rd b) as [[[line [e0|]] b']|]; [now intros [= <- _]| |discriminate].
  destruct (index (c_plain c) (row i)) as [dst|]; [|discriminate].
  destruct (decode dst line) as [dst'|e1 dst'|] eqn:Hd; [| |discriminate]; destruct (assign (c_plain c) (row i) dst'); try discriminate.
  - apply IH.
  - intros [= <- _] Hk. apply Hdec in Hd. congruence.
Qed.

Lemma data_failing fuel (c : composite T) b e c' : parse_data_rd S read size A fuel c b = Some (Failure e c') -> read_kind e = true ->
  exists got err, failing_read S (line_reader fuel e c) (Z.to_nat (c_py c)) b = Some (got, err).
Proof.
  unfold parse_data_rd. intros H Hk. destruct (_ || _); [injection H as <- _; discriminate|].
  destruct (make 24 ([] : list f32) (c_py c)) as [rows|] eqn:Hm; [|discriminate].
  assert (Hl : length rows = Z.to_nat (c_py c)).
  { unfold make in Hm. destruct (_ && _); [|discriminate]. injection Hm as <-. apply repeat_length. }
  assert (G : forall c1 : composite T, length (c_plain c1) = length rows -> c_dx c1 = c_dx c -> forall k,
    parse_encoding_rd S read size A fuel k c1 b = Some (Failure e c') ->
    exists got err, failing_read S (line_reader fuel e c) (Z.to_nat (c_py c)) b = Some (got, err)).
  { clear H. intros c1 H1 H2 k. rewrite <- Hl, <- H1. destruct k; cbn [parse_encoding_rd].
    - unfold parse_runlength_rd. intros H. pose proof (row_loop_kind _ _ _ _ (decode_kind_runlength _) _ _ _ _ _ _ H Hk) as ->.
      eapply failing_exists; [|exact H]. intros dst line e dst' Hd ->. now apply decode_kind_runlength in Hd.
    - unfold parse_little_endian_rd. cbv zeta. intros H.
      assert (H' : row_loop_rd S A (read_line_full_rd S read size fuel (int_wrap (c_dx c1 * 2))) EReadLittleEndian
         (decode_little_endian (c_precision c1) (c_unit c1)) (fun i => (len (c_plain c1) - 1 - i)%Z) (length (c_plain c1)) 0 c1 b = Some (Failure e c')).
      { revert H. destruct (c_plain c1), (make 1 Byte.x00 (int_wrap (c_dx c1 * 2))); auto; discriminate. }
      pose proof (row_loop_kind _ _ _ _ (decode_kind_little _ _) _ _ _ _ _ _ H' Hk) as ->. cbn [line_reader]. rewrite <- H2.
      eapply failing_exists; [|exact H']. intros dst line e dst' Hd ->. now apply decode_kind_little in Hd.
    - unfold parse_single_byte_rd. cbv zeta. intros H.
      assert (H' : row_loop_rd S A (read_line_full_rd S read size fuel (c_dx c1)) EReadSingleByte
         (decode_single_byte (c_precision c1) (c_unit c1)) (fun i => (len (c_plain c1) - 1 - i)%Z) (length (c_plain c1)) 0 c1 b = Some (Failure e c')).
      { revert H. destruct (c_plain c1), (make 1 Byte.x00 (c_dx c1)); auto; discriminate. }
      pose proof (row_loop_kind _ _ _ _ (decode_kind_single _ _) _ _ _ _ _ _ H' Hk) as ->. cbn [line_reader]. rewrite <- H2.
      eapply failing_exists; [|exact H']. intros dst line e dst' Hd ->. now apply decode_kind_single in Hd.
    - intros [= <- _]. discriminate. }
  destruct rows as [|r rows], (make 4 (S754_zero false : f32) (c_px c)) as [zs|]; cbv zeta in H; try discriminate;
    eapply G; try exact H; try reflexivity; cbn; now rewrite ?map_length.
Qed.

(** Read errors come out of the data section. *)
Lemma composite_failing how fuel g b l e c' ob : enough size l fuel -> g <= 99 -> holds S read how g b l -> length (b_buf b) <= size ->
  new_composite_on S read size A E fuel b = Some (Failure e c', ob) -> read_kind e = true ->
  exists header rest b' c got err g', read_bytes S read size fuel Byte.x03 b = Some (header, None, b') /\
    read_until Byte.x03 l = Some (header, rest) /\
    parse_header_text (n_ofZ A) E (zero_composite (n_zero A)) header = Value c /\
    enough size rest fuel /\ g' <= 99 /\ holds S read how g' b' rest /\ length (b_buf b') <= size /\
    failing_read S (line_reader fuel e c) (Z.to_nat (c_py c)) b' = Some (got, err).
Proof.
  intros HP Hg Hh Hsz. unfold new_composite_on, parse_header_rd. intros H Hk.
  assert (Hl : lined S read size how Byte.x03 l (read_bytes S read size fuel Byte.x03 b)).
  { apply (read_bytes_ok S read size default_pos how _ fuel g); auto. unfold enough in HP; lia. }
  destruct Hl as [line l' b' g' H1 H2 H3 H4|e0 b' H1]; [|injection H as <- _ _; discriminate].
  destruct (parse_header_text (n_ofZ A) E (zero_composite (n_zero A)) line) as [c|e1 c1|] eqn:Ht; cbn [bind] in H; [| |discriminate].
  - destruct (parse_data_rd S read size A fuel c b') as [[[c2 b2]|e2 c2|]|] eqn:Hd; try discriminate.
    + destruct (arrange_data c2); [|discriminate]. destruct (unit_eqb _ _); [|discriminate]. injection H as <- _ _. discriminate.
    + injection H as <- _ _. destruct (data_failing _ _ _ _ _ Hd Hk) as (got & err & Hf). exists line, l', b', c, got, err, g'.
      split; [reflexivity|]. split; [assumption|]. split; [assumption|]. split; [|auto].
      apply read_until_inv in H1. destruct H1 as (p & -> & -> & _).
      eapply enough_suffix with (p := p ++ [Byte.x03]); [exact read|exact default_pos|exact HP|]. rewrite <- app_assoc. reflexivity.
  - injection H as <- _ _. exfalso. apply read_until_inv in H1. destruct H1 as (p & -> & _ & Hp).
    pose proof (header_first_defect _ _ _ _ _ _ Hp Ht) as Hd. apply first_defect_in in Hd. destruct Hd as (d & Hin & _).
    apply (in_map fst) in Hin. cbn in Hin. match type of Hk with read_kind ?y = _ => destruct y end; try discriminate Hk; intuition discriminate.
Qed.

(** The error of the failing call, and what it got. *)
Section One.
Variable x : rderr.
Variable J : nat -> S -> Prop.
Hypothesis Jstep : forall g s n, J g s -> 0 < n -> exists d e s', read n s = (d, e, s') /\ length d <= n /\
  ((e = Some x /\ forall g', J g' s') \/ (e = None /\ d <> [] /\ J 99 s') \/
   (e = None /\ d = [] /\ ((exists g', g = Datatypes.S g' /\ J g' s') \/ (x = RdNoProgress /\ J 99 s')))).
Notation KK := (K S size x J).

Lemma failing_error fuel e (c : composite T) : forall n b got err, KK b -> failing_read S (line_reader fuel e c) n b = Some (got, err) -> err = x.
Proof.
  assert (HL : forall b r, KK b -> line_reader fuel e c b = Some r -> KK (snd r) /\ forall err, snd (fst r) = Some err -> err = x).
  { assert (HF : forall w b r, KK b -> read_line_full_rd S read size fuel w b = Some r -> KK (snd r) /\ forall err, snd (fst r) = Some err -> err = x).
    { intros w b r HK. apply (full_K S read size default_pos x J Jstep). exact HK. }
    intros b r HK. destruct e; cbn [line_reader]; try now apply HF.
    unfold read_line_runlength_rd. destruct (read_bytes S read size fuel Byte.x0a b) as [[[line e] b']|] eqn:Hr; [|discriminate].
    intros [= <-]. cbn. exact (read_bytes_K S read size default_pos x J Jstep _ _ _ _ HK Hr). }
  induction n as [|n IH]; intros b got err HK; cbn [failing_read]; [discriminate|].
  destruct (line_reader fuel e c b) as [[[line [e0|]] b']|] eqn:Hl; [| |discriminate]; destruct (HL _ _ HK Hl) as [H1 H2]; cbn in H1, H2.
  - intros [= _ <-]. now apply H2.
  - now apply IH.
Qed.
Lemma failing_got fuel w : forall n g b l got err, enough size l fuel -> g <= 99 -> holds S read true g b l -> length (b_buf b) <= size ->
  failing_read S (read_line_full_rd S read size fuel w) n b = Some (got, err) -> got = unread_rest (read_full w) n l.
Proof.
  induction n as [|n IH]; intros g b l got err HP Hg Hh Hsz; cbn [failing_read unread_rest]; [discriminate|].
  unfold read_line_full_rd at 1, read_full at 1.
  assert (Hf : filled S read size true (Z.to_nat w) l (full_loop S read size fuel (Z.to_nat w) [] b)).
  { apply (full_ok S read size default_pos true fuel (Z.to_nat w) [] g); auto; [unfold enough in HP; lia|cbn; lia]. }
  destruct Hf as [b' g' H1 H2 H3 H4|e b' H1 H2|H1 H2]; [| |discriminate].
  - replace (w <=? len l)%Z with true by (unfold len; lia). apply (IH g'); auto.
    eapply enough_suffix with (p := firstn (Z.to_nat w) l); [exact read|exact default_pos|exact HP|]. now rewrite firstn_skipn.
  - replace (w <=? len l)%Z with false by (unfold len; lia). now intros [= <- _].
Qed.
End One.
End Composite.

(** * Readers that fail with x *)
Section Failing.
Variable S : Type.
Variable read : nat -> S -> list byte * option rderr * S.
Variable x : rderr.
Lemma broken_ended : forall s, broken read x s -> ended read s.
Proof.
  cofix IH. intros s [s' H]. constructor. intros n Hn. destruct (H n Hn) as (s2 & H1 & H2). exists x, s2. split; [exact H1|now apply IH].
Qed.
Lemma broken_delivers s g : broken read x s -> delivers_then read x g s [].
Proof.
  intros [s' H]. constructor. intros n Hn. destruct (H n Hn) as (s2 & H1 & H2).
  exists [], (Some x), s2, []. split; [exact H1|]. split; [cbn; lia|]. split; [reflexivity|]. left. auto.
Qed.
Lemma delivers_of_then : forall g s l, delivers_then read x g s l -> delivers read g s l.
Proof.
  fix IH 4. intros g s l [g' s' l' H]. constructor. intros n Hn.
  destruct (H n Hn) as (d & e & s1 & l1 & H1 & H2 & H3 & H4). exists d, e, s1, l1.
  split; [assumption|]. split; [assumption|]. split; [assumption|].
  destruct H4 as [(H4 & H5 & H6)|[(H4 & H5 & H6)|(H4 & H5 & g2 & H6 & H7)]].
  - left. split; [congruence|]. split; [assumption|]. now apply broken_ended.
  - right; left. auto.
  - right; right. split; [assumption|]. split; [assumption|]. exists g2. auto.
Qed.
Definition Jthen (g : nat) (s : S) : Prop := exists l, delivers_then read x g s l.
Lemma then_step : forall g s n, Jthen g s -> 0 < n -> exists d e s', read n s = (d, e, s') /\ length d <= n /\
  ((e = Some x /\ forall g', Jthen g' s') \/ (e = None /\ d <> [] /\ Jthen 99 s') \/
   (e = None /\ d = [] /\ ((exists g', g = Datatypes.S g' /\ Jthen g' s') \/ (x = RdNoProgress /\ Jthen 99 s')))).
Proof.
  intros g s n [l [g' s' l' H]] Hn. destruct (H n Hn) as (d & e & s1 & l1 & H1 & H2 & H3 & H4). exists d, e, s1.
  split; [assumption|]. split; [assumption|]. destruct H4 as [(H4 & H5 & H6)|[(H4 & H5 & H6)|(H4 & H5 & g2 & H6 & H7)]].
  - left. split; [assumption|]. intros g2. exists []. now apply broken_delivers.
  - right; left. split; [assumption|]. split; [assumption|]. now exists l1.
  - right; right. split; [assumption|]. split; [assumption|]. left. exists g2. split; [assumption|]. now exists l1.
Qed.
End Failing.

Section Stalling.
Variable S : Type.
Variable read : nat -> S -> list byte * option rderr * S.
Definition Jstall (g : nat) (s : S) : Prop := exists l, delivers_then_stalls read g s l.
Lemma stall_step : forall g s n, Jstall g s -> 0 < n -> exists d e s', read n s = (d, e, s') /\ length d <= n /\
  ((e = Some RdNoProgress /\ forall g', Jstall g' s') \/ (e = None /\ d <> [] /\ Jstall 99 s') \/
   (e = None /\ d = [] /\ ((exists g', g = Datatypes.S g' /\ Jstall g' s') \/ (RdNoProgress = RdNoProgress /\ Jstall 99 s')))).
Proof.
  intros g s n [l [g' s' [s1 H]|g' s' l' H]] Hn.
  - destruct (H n Hn) as (s2 & H1 & H2). exists [], None, s2. split; [assumption|]. split; [cbn; lia|]. right; right.
    split; [reflexivity|]. split; [reflexivity|]. right. split; [reflexivity|]. exists []. now constructor.
  - destruct (H n Hn) as (d & s1 & l1 & H1 & H2 & H3 & H4). exists d, None, s1. split; [assumption|]. split; [assumption|].
    right. destruct H4 as [(H4 & H5)|(H4 & g2 & H5 & H6)].
    + left. split; [reflexivity|]. split; [assumption|]. now exists l1.
    + right. split; [reflexivity|]. split; [assumption|]. left. exists g2. split; [assumption|]. now exists l1.
Qed.
End Stalling.

Section Message.
Variable S : Type.
Variable read : nat -> S -> list byte * option rderr * S.
Variable A : arith.
Variable E : goenv.
Variable parse_error : error -> list byte -> list byte.
Variable other : Z -> list byte.
Notation size := default_buf_size.
(** The message on a reader, and on the bytes. *)
Notation reader_message := (fun fuel s => composite_error_rd S read A E fuel parse_error other s).
Notation message := (composite_error A E (fun e input => parse_error e (header_of input))).

Lemma with_header e : with_detail e = true -> read_kind e = false -> forall how fuel g b l, enough size l fuel -> g <= 99 ->
  holds S read how g b l -> length (b_buf b) <= size ->
  (exists c, new_composite A E l = Failure e c) ->
  detail_rd S read A E fuel parse_error other e b = detail A E (fun e input => parse_error e (header_of input)) e l.
Proof.
  intros Hd Hk how fuel g b l HP Hg Hh Hsz [c Hc]. unfold detail_rd.
  assert (Hl : lined S read size how Byte.x03 l (read_bytes S read size fuel Byte.x03 b)).
  { apply (read_bytes_ok S read size default_pos how _ fuel g); auto. unfold enough in HP; lia. }
  destruct Hl as [line l' b' g' H1 H2 H3 H4|e0 b' H1].
  - destruct e; try discriminate Hd; try discriminate Hk; cbn [detail]; unfold header_of; rewrite H1; reflexivity.
  - exfalso. unfold new_composite, parse_header in Hc. rewrite H1 in Hc. injection Hc as <- _. discriminate Hd.
Qed.

(** What gets into the message of a read error. *)
Lemma failing_detail x (J : nat -> S -> Prop) :
  (forall g s n, J g s -> 0 < n -> exists d e s', read n s = (d, e, s') /\ length d <= n /\
    ((e = Some x /\ forall g', J g' s') \/ (e = None /\ d <> [] /\ J 99 s') \/
     (e = None /\ d = [] /\ ((exists g', g = Datatypes.S g' /\ J g' s') \/ (x = RdNoProgress /\ J 99 s'))))) ->
  forall how fuel s l e c, J 99 s -> feeds S read how 99 s l -> enough size l fuel -> read_kind e = true ->
  new_composite_rd S read A E fuel s = Some (Failure e c) ->
  (x <> RdEOF -> detail_rd S read A E fuel parse_error other e (new_reader S s) = reader_error_text other x) /\
  (x = RdEOF -> how = true -> detail_rd S read A E fuel parse_error other e (new_reader S s) =
     detail A E (fun e input => parse_error e (header_of input)) e l).
Proof.
  intros Jstep how fuel s l e c HJ Hf HP Hk Hc.
  assert (Hh : holds S read how 99 (new_reader S s) l) by (apply (holds_running _ _ _ _ _ _ l); auto).
  unfold new_composite_rd, new_composite_src in Hc.
  destruct (new_composite_on S read size A E fuel (new_reader S s)) as [[r ob]|] eqn:Hn; [|discriminate]. cbn in Hc. injection Hc as ->.
  destruct (composite_failing S read A E how fuel 99 _ l e c ob HP (le_n _) Hh (Nat.le_0_l _) Hn Hk)
    as (header & rest & b' & ch & got & err & g' & R1 & R2 & R3 & R4 & R5 & R6 & R7 & R8).
  assert (HK : K S size x J (new_reader S s)).
  { split; [cbn; lia|]. split; [exists 99; auto|now left]. }
  destruct (read_bytes_K S read size default_pos x J Jstep _ _ _ _ HK R1) as [HK' _]. cbn [snd] in HK'.
  pose proof (failing_error S read A x J Jstep fuel e ch _ _ _ _ HK' R8) as ->.
  assert (Hp : parse_header (n_ofZ A) E (zero_composite (n_zero A)) l = Value (ch, rest)).
  { unfold parse_header. rewrite R2, R3. reflexivity. }
  unfold detail_rd. rewrite R1, R3. cbv zeta.
  destruct e; try discriminate Hk; cbn [line_reader] in R8; rewrite R8; cbn [detail]; rewrite Hp; cbv zeta; (split; [intros Hx|intros Hx ->]).
  - reflexivity.
  - now rewrite Hx.
  - unfold full_error_text. destruct x; [congruence|reflexivity|reflexivity].
  - eapply failing_got in R8; eauto. rewrite R8, Hx. now destruct (unread_rest _ _ _).
  - unfold full_error_text. destruct x; [congruence|reflexivity|reflexivity].
  - eapply failing_got in R8; eauto. rewrite R8, Hx. now destruct (unread_rest _ _ _).
Qed.

(** ** C74 *)
(** The reader ends with io.EOF: the message is that of the bytes (C72). *)
Lemma eof_steps s l : delivers_then read RdEOF 99 s l -> forall fuel, steps size l <= fuel -> reader_message fuel s = Some (message l).
Proof.
  intros Hd. pose proof (feeds_of_delivers S read _ _ _ (delivers_of_then S read _ _ _ _ Hd)) as Hf.
  intros fuel Hfuel. pose proof (steps_enough S read _ _ _ Hfuel) as Hfuel'; clear Hfuel; rename Hfuel' into Hfuel.
  pose proof (plain_same S read A E true s l fuel Hf Hfuel) as Hs. unfold composite_error_rd, composite_error.
  destruct (new_composite_rd S read A E fuel s) as [r|] eqn:Hr; [|destruct Hs; discriminate]. destruct Hs as [-> _].
  destruct (new_composite A E l) as [c|e c|] eqn:Hc; [reflexivity| |reflexivity].
  assert (He : e <> EArchive) by (intros ->; now apply (proj2 (proj2 (C50_never A E l c)))).
  rewrite !message_form by assumption. do 3 f_equal. destruct (with_detail e) eqn:Hw; [|reflexivity].
  destruct (read_kind e) eqn:Hk.
  - apply (proj2 (failing_detail RdEOF (Jthen S read RdEOF) (then_step S read RdEOF) true fuel s l e c (ex_intro _ l Hd) Hf Hfuel Hk Hr) eq_refl eq_refl).
  - apply (with_header e Hw Hk true fuel 99 _ l Hfuel (le_n _)); [|cbn; lia|eauto]. apply (holds_running _ _ _ _ _ _ l); auto.
Qed.
Theorem C74_eof s l : delivers_then read RdEOF 99 s l -> exists n, forall fuel, n <= fuel -> reader_message fuel s = Some (message l).
Proof.
  intros. exists (steps size l). intros fuel Hf. now apply eof_steps.
Qed.

(** The reader breaks down with another error x within the data: the message
    names the data section's reading function and gives the text of x. *)
Lemma read_error_steps s l x text data (c : composite (num A)) e : x <> RdEOF -> delivers_then read x 99 s l ->
  file_layout l text data -> header_meaning E text c ->
  In e [EReadRunlength; EReadLittleEndian; EReadSingleByte] -> data_defect E text data (c_px c) (c_py c) e ->
  forall fuel, steps size l <= fuel -> reader_message fuel s = Some (Some (message_start e ++ reader_error_text other x)).
Proof.
  intros Hx Hd Hl Hm Hin Hdef.
  assert (Hk : read_kind e = true) by (cbn in Hin; intuition (subst; reflexivity)).
  destruct (proj2 (C50_data_error A E l text data c e Hl Hm ltac:(intros ->; discriminate Hk)) Hdef) as [c' Hc].
  pose proof (feeds_of_delivers S read _ _ _ (delivers_of_then S read _ _ _ _ Hd)) as Hf.
  intros fuel Hfuel. pose proof (steps_enough S read _ _ _ Hfuel) as Hfuel'; clear Hfuel; rename Hfuel' into Hfuel.
  pose proof (plain_same S read A E true s l fuel Hf Hfuel) as Hs. unfold composite_error_rd.
  destruct (new_composite_rd S read A E fuel s) as [r|] eqn:Hr; [|destruct Hs; discriminate]. destruct Hs as [-> _].
  rewrite Hc. rewrite message_form by (intros ->; discriminate Hk). do 3 f_equal.
  rewrite Hc in Hr. replace (with_detail e) with true by (destruct e; try discriminate Hk; reflexivity).
  apply (proj1 (failing_detail x (Jthen S read x) (then_step S read x) true fuel s l e c' (ex_intro _ l Hd) Hf Hfuel Hk Hr) Hx).
Qed.
Theorem C74_read_error s l x text data (c : composite (num A)) e : x <> RdEOF -> delivers_then read x 99 s l ->
  file_layout l text data -> header_meaning E text c ->
  In e [EReadRunlength; EReadLittleEndian; EReadSingleByte] -> data_defect E text data (c_px c) (c_py c) e ->
  exists n, forall fuel, n <= fuel -> reader_message fuel s = Some (Some (message_start e ++ reader_error_text other x)).
Proof.
  intros. exists (steps size l). intros fuel Hf. now apply (read_error_steps s l x text data c).
Qed.

(** Within the header, x is not mentioned: the header is called too short. *)
Lemma in_header_steps s l x : delivers_then read x 99 s l -> ~ In Byte.x03 l ->
  forall fuel, steps size l <= fuel -> reader_message fuel s = Some (Some (bs "radolan.parseHeader: header corrupted: too short")).
Proof.
  intros Hd Hn. pose proof (feeds_of_delivers S read _ _ _ (delivers_of_then S read _ _ _ _ Hd)) as Hf.
  intros fuel Hfuel. pose proof (steps_enough S read _ _ _ Hfuel) as Hfuel'; clear Hfuel; rename Hfuel' into Hfuel.
  pose proof (plain_same S read A E true s l fuel Hf Hfuel) as Hs. unfold composite_error_rd.
  destruct (new_composite_rd S read A E fuel s) as [r|] eqn:Hr; [|destruct Hs; discriminate]. destruct Hs as [-> _].
  destruct (C49_no_delimiter A E l Hn) as [c Hc]. rewrite Hc. reflexivity.
Qed.
Theorem C74_in_header s l x : delivers_then read x 99 s l -> ~ In Byte.x03 l ->
  exists n, forall fuel, n <= fuel -> reader_message fuel s = Some (Some (bs "radolan.parseHeader: header corrupted: too short")).
Proof.
  intros. exists (steps size l). intros fuel Hf. now apply (in_header_steps s l x).
Qed.

(** In all other cases x does not matter: the message, or that there is none,
    is that of the bytes delivered; in particular x is ignored when it comes
    with the last byte of a complete file or after it. *)
Theorem C74_otherwise s l x : delivers_then read x 99 s l ->
  (forall e c, In e [EReadRunlength; EReadLittleEndian; EReadSingleByte] -> new_composite A E l <> Failure e c) ->
  exists n, forall fuel, n <= fuel -> reader_message fuel s = Some (message l).
Proof.
  intros Hd Hne. pose proof (feeds_of_delivers S read _ _ _ (delivers_of_then S read _ _ _ _ Hd)) as Hf.
  exists (steps size l). intros fuel Hfuel. pose proof (steps_enough S read _ _ _ Hfuel) as Hfuel'; clear Hfuel; rename Hfuel' into Hfuel.
  pose proof (plain_same S read A E true s l fuel Hf Hfuel) as Hs. unfold composite_error_rd, composite_error.
  destruct (new_composite_rd S read A E fuel s) as [r|] eqn:Hr; [|destruct Hs; discriminate]. destruct Hs as [-> _].
  destruct (new_composite A E l) as [c|e c|] eqn:Hc; [reflexivity| |reflexivity].
  assert (He : e <> EArchive) by (intros ->; now apply (proj2 (proj2 (C50_never A E l c)))).
  rewrite !message_form by assumption. do 3 f_equal. destruct (with_detail e) eqn:Hw; [|reflexivity].
  apply (with_header e Hw) with (how := true) (g := 99); auto.
  - destruct (read_kind e) eqn:Hk; [|reflexivity]. exfalso. apply (Hne e c); [|reflexivity]. destruct e; try discriminate Hk; cbn; tauto.
  - apply (holds_running _ _ _ _ _ _ l); auto.
  - cbn. lia.
  - eauto.
Qed.
Theorem C74_complete s l x c : delivers_then read x 99 s l -> new_composite A E l = Value c ->
  exists n, forall fuel, n <= fuel -> new_composite_rd S read A E fuel s = Some (Value c) /\ reader_message fuel s = Some None.
Proof.
  intros Hd Hc. destruct (C20_any_reader S read A E s l (delivers_of_then S read _ _ _ _ Hd)) as (n & Hn).
  exists n. intros fuel Hf. specialize (Hn fuel Hf). rewrite Hc in Hn. split; [exact Hn|]. unfold composite_error_rd. now rewrite Hn.
Qed.

(** A reader that stalls within the lines of a runlength file. *)
Theorem C74_stalled s l text data (c : composite (num A)) : delivers_then_stalls read 99 s l ->
  file_layout l text data -> header_meaning E text c -> data_defect E text data (c_px c) (c_py c) EReadRunlength ->
  exists n, forall fuel, n <= fuel ->
    reader_message fuel s = Some (Some (bs "radolan.readLineRunlength: multiple Read calls return no data or error")).
Proof.
  intros Hd Hl Hm Hdef.
  destruct (proj2 (C50_data_error A E l text data c EReadRunlength Hl Hm ltac:(discriminate)) Hdef) as [c' Hc].
  pose proof (feeds_of_stalls S read _ _ _ Hd) as Hf.
  exists (steps size l). intros fuel Hfuel. pose proof (steps_enough S read _ _ _ Hfuel) as Hfuel'; clear Hfuel; rename Hfuel' into Hfuel.
  pose proof (plain_same S read A E false s l fuel Hf Hfuel) as Hs. unfold composite_error_rd.
  destruct (new_composite_rd S read A E fuel s) as [r|] eqn:Hr.
  - destruct Hs as [-> _]. rewrite Hc in Hr |- *. cbn [error_message]. 
    rewrite (proj1 (failing_detail RdNoProgress (Jstall S read) (stall_step S read) false fuel s l EReadRunlength c' (ex_intro _ l Hd) Hf Hfuel eq_refl Hr) ltac:(discriminate)).
    reflexivity.
  - destruct Hs as (_ & e & c2 & Hc2 & Hw). exfalso. rewrite Hc in Hc2. injection Hc2 as <- _. destruct Hw; discriminate.
Qed.
End Message.

(** *** Cases *)
(** A reader on bytes, as many per call as asked for, and then the error x. *)
Definition broken_read (x : rderr) (n : nat) (l : list byte) : list byte * option rderr * list byte :=
  match l with [] => ([], Some x, []) | _ => (firstn n l, None, skipn n l) end.
Lemma broken_read_broken x : broken (broken_read x) x [].
Proof. cofix IH. constructor. intros n Hn. exists []. split; [reflexivity|exact IH]. Qed.
Lemma broken_read_delivers x : forall k l g, length l <= k -> delivers_then (broken_read x) x g l l.
Proof.
  induction k as [|k IH]; intros l g Hk.
  - destruct l; [|cbn in Hk; lia]. apply broken_delivers, broken_read_broken.
  - destruct l as [|y l]; [apply broken_delivers, broken_read_broken|]. constructor. intros n Hn.
    exists (firstn n (y :: l)), None, (skipn n (y :: l)), (skipn n (y :: l)). split; [reflexivity|]. split; [rewrite firstn_length; lia|].
    split; [symmetry; apply firstn_skipn|]. right; left. split; [reflexivity|]. split; [destruct n; [lia|discriminate]|].
    apply IH. rewrite skipn_length. destruct n; [lia|]. cbn [length] in *. lia.
Qed.

(** A one-byte file whose connection breaks down (error 7) within the data. *)
Example C74_case_broken A E pe : exists n, forall fuel, n <= fuel ->
  composite_error_rd _ (broken_read (RdOther 7)) A E fuel pe (fun _ => bs "connection reset by peer") (file one_byte_text (firstn 2 one_byte_data)) =
    Some (Some (bs "radolan.readLineSingleByte: connection reset by peer")).
Proof.
  assert (Hm : exists c : composite (num A), header_meaning E one_byte_text c).
  { eexists. eapply (meaning_of_text (n_zero A)). vm_compute. reflexivity. }
  destruct Hm as (c & Hm). set (data := firstn 2 one_byte_data).
  assert (Hf : file_layout (file one_byte_text data) one_byte_text data) by (split; [reflexivity|vm_compute; intuition discriminate]).
  apply (C74_read_error _ (broken_read (RdOther 7)) A E pe (fun _ => bs "connection reset by peer") (file one_byte_text data) (file one_byte_text data) (RdOther 7) one_byte_text data c EReadSingleByte).
  - discriminate.
  - eapply broken_read_delivers. reflexivity.
  - exact Hf.
  - exact Hm.
  - cbn. tauto.
  - apply (C50_data_error A E _ _ _ _ _ Hf Hm); [discriminate|]. eexists. vm_compute. reflexivity.
Qed.
(** The same within the header, and after the complete file. *)
Example C74_case_header A E pe : exists n, forall fuel, n <= fuel ->
  composite_error_rd _ (broken_read (RdOther 7)) A E fuel pe (fun _ => bs "connection reset by peer") one_byte_text =
    Some (Some (bs "radolan.parseHeader: header corrupted: too short")).
Proof.
  eapply C74_in_header; [eapply broken_read_delivers; reflexivity|]. vm_compute. intuition discriminate.
Qed.
Example C74_case_complete M E pe : exists c n, forall fuel, n <= fuel ->
  new_composite_rd _ (broken_read (RdOther 7)) (arith64 M) E fuel (file one_byte_text one_byte_data) = Some (Value c) /\
  composite_error_rd _ (broken_read (RdOther 7)) (arith64 M) E fuel pe (fun _ => bs "connection reset by peer") (file one_byte_text one_byte_data) = Some None.
Proof.
  destruct (new_composite (arith64 M) E (file one_byte_text one_byte_data)) as [c|e c|] eqn:Hc.
  - exists c. eapply C74_complete; [eapply broken_read_delivers; reflexivity|exact Hc].
  - exfalso. revert Hc. vm_compute. discriminate.
  - exfalso. revert Hc. vm_compute. discriminate.
Qed.
(** A runlength file whose reader stalls within the second line; the same
    reader ending with io.EOF. *)
Definition half_lines : list byte := [Byte.x01; Byte.x11; Byte.x21; Byte.x13; Byte.x0a; Byte.x02].
Lemma half_lines_defect A E : exists c : composite (num A), header_meaning E run_text c /\
  file_layout (file run_text half_lines) run_text half_lines /\ data_defect E run_text half_lines (c_px c) (c_py c) EReadRunlength.
Proof.
  assert (Hm : exists c : composite (num A), header_meaning E run_text c).
  { eexists. eapply (meaning_of_text (n_zero A)). vm_compute. reflexivity. }
  destruct Hm as [c Hm]. exists c. split; [exact Hm|].
  assert (Hf : file_layout (file run_text half_lines) run_text half_lines) by (split; [reflexivity|vm_compute; intuition discriminate]).
  split; [exact Hf|]. apply (C50_data_error A E _ _ _ _ _ Hf Hm); [discriminate|]. eexists. vm_compute. reflexivity.
Qed.
Example C74_case_stalled A E pe other : exists n, forall fuel, n <= fuel ->
  composite_error_rd _ stall_read A E fuel pe other [file run_text half_lines] =
    Some (Some (bs "radolan.readLineRunlength: multiple Read calls return no data or error")).
Proof.
  destruct (half_lines_defect A E) as (c & Hm & Hf & Hd).
  apply (C74_stalled _ stall_read A E pe other _ (file run_text half_lines) run_text half_lines c); auto.
  eapply stall_delivers; [reflexivity|]. vm_compute. discriminate.
Qed.
Example C74_case_eof A E pe other : exists n, forall fuel, n <= fuel ->
  composite_error_rd _ (broken_read RdEOF) A E fuel pe other (file run_text half_lines) = Some (Some (bs "radolan.readLineRunlength: EOF")).
Proof.
  destruct (half_lines_defect A E) as (c & Hm & Hf & Hd).
  destruct (C74_eof _ (broken_read RdEOF) A E pe other (file run_text half_lines) (file run_text half_lines)) as [n Hn].
  { eapply broken_read_delivers. reflexivity. }
  exists n. intros fuel H. rewrite (Hn fuel H). apply f_equal. now apply (C72_cut_runlength A E _ _ run_text half_lines c).
Qed.
Print Assumptions C74_eof.
Print Assumptions C74_read_error.
Print Assumptions C74_in_header.
Print Assumptions C74_otherwise.
Print Assumptions C74_complete.
Print Assumptions C74_stalled.
