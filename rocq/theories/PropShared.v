(** C51: composites one after another from the same *bufio.Reader. *)
From Coq Require Import Lia PeanoNat.
From Verif Require Import GoBase GoFloat Catalog Composite Header Data Projection Radolan Bufio SpecReader BaseFacts
  Spec SpecHeader HeaderMeaning ApiFacts FileFacts DefectFacts PropHeader PropFile PropReader.
Local Open Scope nat_scope.

Section Shared.
Variable S : Type.
Variable read : nat -> S -> list byte * option rderr * S.

Lemma delivers_of_feeds g s l : feeds S read true g s l -> delivers read g s l.
Proof.
  revert g s l. fix IH 4. intros g s l [g' s' H _|g' s' l' H]; [discriminate|]. constructor. intros n Hn.
  destruct (H n Hn) as (d & e & s1 & l1 & H1 & H2 & H3 & H4). exists d, e, s1, l1.
  split; [assumption|]. split; [assumption|]. split; [assumption|].
  destruct H4 as [(H4 & H5 & H6 & H7)|[(H4 & H5 & H6)|(H4 & H5 & g2 & H6 & H7)]].
  - left. auto.
  - right; left. auto.
  - right; right. split; [assumption|]. split; [assumption|]. exists g2. auto.
Qed.

Lemma delivers_more (X : Type) (rd : nat -> X -> list byte * option rderr * X) :
  forall g s l, delivers rd g s l -> forall h, g <= h -> delivers rd h s l.
Proof.
  fix IH 4. intros g s l [g' s' l' H] h Hh. constructor. intros n Hn.
  destruct (H n Hn) as (d & e & s1 & l1 & H1 & H2 & H3 & H4). exists d, e, s1, l1.
  split; [assumption|]. split; [assumption|]. split; [assumption|].
  destruct H4 as [H4|[H4|(H4 & H5 & g2 & H6 & H7)]]; [auto|auto|].
  right; right. split; [assumption|]. split; [assumption|]. destruct h as [|h]; [exfalso; subst g'; inversion Hh|]. exists h.
  split; [reflexivity|]. apply (IH g2); [assumption|]. subst g'. now apply le_S_n.
Qed.

Lemma unread_holds size b l : unread read size b l <->
  length (b_buf b) <= size /\ exists g, g <= 99 /\ holds S read true g b l.
Proof.
  split.
  - intros [g l' Hg Hl He Hd|e Hl He Hd]; (split; [assumption|]).
    + exists g. split; [assumption|]. eapply holds_running; eauto using feeds_of_delivers.
    + exists 0. split; [lia|]. eapply holds_ending; eauto.
  - intros (Hl & g & Hg & [l' He Hf ->|e _ He Hd ->]).
    + eapply unread_running; eauto using delivers_of_feeds.
    + eapply unread_ending; eauto.
Qed.

Section Composite.
Variable A : arith.
Variable E : goenv.

Lemma whole_left f t : whole_file A E f -> left_over A E (f ++ t) = Some t.
Proof.
  intros [[c Hc] Hmin]. destruct (parsed_inv A E f c Hc)
    as (text & rest & tail & ch & p & dz & d0 & [Hf Hin] & H2 & H3 & H4 & H5 & H6 & H7 & H8 & _).
  destruct (parse_data_prefix A ch rest _ tail H5 H3) as (used & -> & Hext & _).
  assert (tail = []) as ->.
  { destruct tail as [|x tail]; [reflexivity|]. exfalso.
    apply (Hmin (text ++ Byte.x03 :: used) (x :: tail)) with (c := c); [now rewrite Hf, <- app_assoc|discriminate|].
    unfold parsed in *. rewrite (new_composite_header A E text used ch Hin H2).
    rewrite Hf, (new_composite_header A E text (used ++ x :: tail) ch Hin H2) in Hc. rewrite H3 in Hc.
    pose proof (Hext []) as Hx. rewrite app_nil_r in Hx. rewrite Hx. exact Hc. }
  rewrite app_nil_r in Hf. subst f. unfold left_over, parse_header.
  rewrite <- app_assoc, <- app_comm_cons, read_until_app by assumption. rewrite H2. cbn [bind].
  now rewrite Hext.
Qed.

(** One call on a large enough *bufio.Reader. *)
Lemma one_call size b f rest fuel : default_buf_size <= size -> unread read size b (f ++ rest) -> whole_file A E f ->
  steps size (f ++ rest) <= fuel ->
  exists b', new_composite_buf S read size A E fuel b = Some (new_composite A E f, Some b') /\ unread read size b' rest.
Proof.
  intros Hs Hu Hw Hf. assert (Hpos : 0 < size) by (pose proof default_pos; lia).
  apply unread_holds in Hu as (Hl & g & Hg & Hh).
  unfold new_composite_buf. replace (default_buf_size <=? size) with true by (symmetry; now apply Nat.leb_le).
  pose proof (new_composite_on_same S read size Hpos A E true g b (f ++ rest) Hg Hh Hl fuel (steps_enough S read _ _ _ Hf)) as H.
  destruct (new_composite_on S read size A E fuel b) as [[r o]|]; [|destruct H; discriminate].
  destruct H as [[H1 H2] _]. cbn [fst snd] in *. pose proof (whole_left f rest Hw) as Hlo. destruct Hw as [[c Hc] Hmin].
  assert (Ht : new_composite A E (f ++ rest) = new_composite A E f) by (eapply C19_trailing_ignored; eauto).
  rewrite Ht in *.
  destruct o as [b'|].
  - destruct H2 as (r' & g' & H3 & H4 & H5 & H6). rewrite Hlo in H3. injection H3 as <-. exists b'. subst r.
    split; [reflexivity|]. apply unread_holds. eauto.
  - exfalso. destruct H2 as [H2|H2]; [congruence|]. destruct Hc; congruence.
Qed.

(** Files one after another in one *bufio.Reader (with a buffer of at least
    4096 bytes): the calls give the composites of the files, in order, and the
    reader is left with the bytes behind them. *)
Theorem C51_successive size b files rest : 4096 <= size ->
  unread read size b (concat files ++ rest) -> Forall (whole_file A E) files ->
  exists n, forall fuel, n <= fuel -> exists b',
    successive read A E size fuel (length files) b = Some (map (new_composite A E) files, b') /\ unread read size b' rest.
Proof.
  intros Hs Hu Hw. exists (steps size (concat files ++ rest)). intros fuel Hf. revert b Hu Hf.
  induction Hw as [|f files Hw _ IH]; intros b Hu Hf.
  - exists b. split; [reflexivity|]. exact Hu.
  - cbn [concat length map successive] in *. rewrite <- app_assoc in Hu, Hf.
    destruct (one_call size b f _ fuel Hs Hu Hw Hf) as (b1 & H1 & H2). rewrite H1.
    destruct (IH b1 H2) as (b2 & H3 & H4).
    { unfold steps in *. rewrite (app_length f) in Hf. clear - Hf. lia. }
    rewrite H3. exists b2. auto.
Qed.

(** Whatever is left in the reader, a call gives the result of those bytes. *)
Theorem C51_any_bytes size b l : 4096 <= size -> unread read size b l ->
  exists n, forall fuel, n <= fuel -> exists o,
    new_composite_buf S read size A E fuel b = Some (new_composite A E l, o).
Proof.
  intros Hs Hu. assert (Hpos : 0 < size) by lia.
  apply unread_holds in Hu as (Hl & g & Hg & Hh). exists (steps size l). intros fuel Hf.
  unfold new_composite_buf. replace (default_buf_size <=? size) with true by (symmetry; apply Nat.leb_le; exact Hs).
  pose proof (new_composite_on_same S read size Hpos A E true g b l Hg Hh Hl fuel (steps_enough S read _ _ _ Hf)) as H.
  destruct (new_composite_on S read size A E fuel b) as [[r o]|]; [|destruct H; discriminate].
  destruct H as [[H1 H2] _]. cbn [fst] in H1. subst r. eauto.
Qed.

(** A *bufio.Reader is itself an io.Reader that delivers what is left. *)
Lemma bufio_end_step size n b : 0 < size -> 0 < n -> b_buf b = [] -> ended read (b_src b) ->
  exists e b', buf_read S read size n b = ([], Some e, b') /\ b_buf b' = [] /\ ended read (b_src b').
Proof.
  intros Hpos Hn Hb He. destruct n as [|n]; [lia|].
  unfold buf_read. rewrite Hb. destruct (b_err b) as [e|].
  - exists e, (mk_bufrd [] None (b_src b)). auto.
  - destruct He as [s He]. destruct (size <=? Datatypes.S n).
    + destruct (He (Datatypes.S n) Hn) as (e & s' & -> & H'). exists e, (mk_bufrd [] None s'). auto.
    + destruct (He size Hpos) as (e & s' & -> & H'). exists e, (mk_bufrd [] None s'). auto.
Qed.
Lemma bufio_ended size b : 0 < size -> b_buf b = [] -> ended read (b_src b) -> ended (buf_read S read size) b.
Proof.
  intros Hpos. revert b. cofix IH. intros b Hb He. constructor. intros n Hn.
  destruct (bufio_end_step size n b Hpos Hn Hb He) as (e & b' & H1 & H2 & H3).
  exists e, b'. split; [exact H1|]. apply IH; assumption.
Qed.
Lemma bufio_delivers size : 0 < size -> forall k g b l, 100 * length l + g <= k -> g <= 99 -> length (b_buf b) <= size ->
  holds S read true g b l -> delivers (buf_read S read size) g b l.
Proof.
  intros Hpos. induction k as [k IH] using lt_wf_ind. intros g b l Hk Hg Hl Hh. constructor. intros n Hn.
  destruct (buf_read_ok S read size Hpos true g b l n Hn Hg Hh Hl) as (d & e & b' & H1 & H2 & H3 & l' & H4 & H5).
  exists d, e, b', l'. split; [assumption|]. split; [assumption|]. split; [assumption|].
  destruct H5 as [(_ & H6 & H7 & _ & H8 & H9)|[(H6 & H7 & g' & H8 & H9)|[(H6 & H7 & g' & H8 & H9)|(_ & _ & H6 & _)]]].
  - left. split; [assumption|]. split; [assumption|]. now apply bufio_ended.
  - right; left. split; [assumption|]. split; [assumption|].
    assert (Hlt : length l' < length l). { subst l. rewrite app_length. destruct d; [congruence|cbn; lia]. }
    assert (Hg' : delivers (buf_read S read size) g' b' l') by (eapply (IH (100 * length l' + g')); eauto; lia).
    now apply (delivers_more _ _ g').
  - right; right. split; [assumption|]. split; [assumption|]. exists g'. split; [assumption|]. subst l d.
    cbn [app] in *. eapply (IH (100 * length l' + g')); eauto; lia.
  - discriminate.
Qed.

(** Smaller buffers: NewComposite puts its own buffer on top.  The result is
    that of the bytes left. *)
Theorem C51_small_buffer size b l : 0 < size < 4096 -> unread read size b l ->
  exists n, forall fuel, n <= fuel -> exists o,
    new_composite_buf S read size A E fuel b = Some (new_composite A E l, o).
Proof.
  intros [Hpos Hs] Hu. apply unread_holds in Hu as (Hl & g & Hg & Hh).
  assert (Hd : delivers (buf_read S read size) 99 b l).
  { apply (delivers_more _ _ g); [|assumption]. eapply bufio_delivers; eauto. }
  destruct (C20_any_reader (bufrd S) (buf_read S read size) A E b l Hd) as (n & Hn).
  exists n. intros fuel Hf. specialize (Hn fuel Hf). unfold new_composite_rd in Hn. unfold new_composite_buf.
  replace (default_buf_size <=? size) with false by (symmetry; apply Nat.leb_gt; exact Hs).
  destruct (new_composite_src _ _ _ _ _ _) as [[r o]|]; [|discriminate]. cbn [option_map fst snd] in *. injection Hn as ->. eauto.
Qed.

(** * What a reader has once reached is never left *)
Section Reach.
Variable P : S -> Prop.
Hypothesis HP : forall n s, P s -> P (snd (read n s)).
Variable size : nat.

Lemma fill_reach i : forall b, P (b_src b) -> P (b_src (fill_loop S read size i b)).
Proof.
  induction i as [|i IH]; intros b Hb; cbn [fill_loop]; [exact Hb|].
  pose proof (HP (size - length (b_buf b)) (b_src b) Hb) as H. destruct (read _ (b_src b)) as [[d [e|]] s']; [exact H|].
  destruct d; [apply IH|]; exact H.
Qed.
Lemma slice_reach d fuel : forall s b x e b', P (b_src b) -> slice_loop S read size fuel d s b = Some (x, e, b') -> P (b_src b').
Proof.
  induction fuel as [|fuel IH]; intros s b x e b' Hb; cbn [slice_loop];
  (destruct (index_byte d (skipn s (b_buf b))); [intros [= _ _ <-]; exact Hb|]);
  (destruct (b_err b); [intros [= _ _ <-]; exact Hb|]); (destruct (size <=? length (b_buf b)); [intros [= _ _ <-]; exact Hb|]).
  - discriminate.
  - apply IH. now apply fill_reach.
Qed.
Lemma read_bytes_reach d fuel : forall b x e b', P (b_src b) -> read_bytes S read size fuel d b = Some (x, e, b') -> P (b_src b').
Proof.
  induction fuel as [|fuel IH]; intros b x e b' Hb; cbn [read_bytes]; [discriminate|].
  destruct (read_slice _ _ _ _ _ b) as [[[frag [[|e1]|]] b1]|] eqn:Hs; try discriminate.
  - apply slice_reach in Hs; [|assumption]. destruct (read_bytes S read size fuel d b1) as [[[line e1] b2]|] eqn:Hr; [|discriminate].
    intros [= _ _ <-]. eapply IH; eauto.
  - intros [= _ _ <-]. eapply slice_reach; eauto.
  - intros [= _ _ <-]. eapply slice_reach; eauto.
Qed.
Lemma buf_read_reach n b : P (b_src b) -> P (b_src (snd (buf_read S read size n b))).
Proof.
  intros Hb. destruct n as [|n]; cbn [buf_read]; [destruct (b_buf b); exact Hb|].
  destruct (b_buf b); [|exact Hb]. destruct (b_err b); [exact Hb|].
  pose proof (HP (Datatypes.S n) _ Hb) as H1. pose proof (HP size _ Hb) as H2.
  destruct (size <=? Datatypes.S n).
  - destruct (read (Datatypes.S n) (b_src b)) as [[d e] s']. exact H1.
  - destruct (read size (b_src b)) as [[d e] s']. destruct d; exact H2.
Qed.
Lemma full_reach n fuel : forall got b x e b', P (b_src b) -> full_loop S read size fuel n got b = Some (x, e, b') -> P (b_src b').
Proof.
  induction fuel as [|fuel IH]; intros got b x e b' Hb; cbn [full_loop]; (destruct (n <=? length got); [intros [= _ _ <-]; exact Hb|]); [discriminate|].
  pose proof (buf_read_reach (n - length got) b Hb) as H. destruct (buf_read _ _ _ _ b) as [[d [e1|]] b1]; cbn [snd] in H.
  - destruct (n <=? length (got ++ d)); intros [= _ _ <-]; exact H.
  - now apply IH.
Qed.
Lemma row_loop_reach rd eread decode row : (forall b x e b', P (b_src b) -> rd b = Some (x, e, b') -> P (b_src b')) ->
  forall n i (c : composite (num A)) b c' b', P (b_src b) -> row_loop_rd S A rd eread decode row n i c b = Some (Value (c', b')) -> P (b_src b').
Proof.
  intros Hrd. induction n as [|n IH]; intros i c b c' b' Hb; cbn [row_loop_rd]; [intros [= _ <-]; exact Hb|].
  destruct (rd b) as [[[line [e|]] b1]|] eqn:Hr; try discriminate.
  destruct (index (c_plain c) (row i)); [|discriminate]. destruct (decode l line); try discriminate.
  - destruct (assign (c_plain c) (row i) dst); [|discriminate]. apply IH. eauto.
  - destruct (assign (c_plain c) (row i) dst); discriminate.
Qed.
Lemma parse_data_reach fuel (c : composite (num A)) b c' b' : P (b_src b) -> parse_data_rd S read size A fuel c b = Some (Value (c', b')) -> P (b_src b').
Proof.
  intros Hb. unfold parse_data_rd. destruct (_ || _)%bool; [discriminate|].
  destruct (make 24 ([] : list f32) (c_py c)) as [rows|]; [|discriminate].
  assert (H : forall k c0, parse_encoding_rd S read size A fuel k c0 b = Some (Value (c', b')) -> P (b_src b')).
  { intros [] c0; cbn [parse_encoding_rd]; [| | |discriminate].
    - apply row_loop_reach; [|assumption]. intros b0 x e b1 H0. unfold read_line_runlength_rd.
      destruct (read_bytes S read size fuel Byte.x0a b0) as [[[line e1] b2]|] eqn:Hr; [|discriminate].
      intros [= _ _ <-]. eapply read_bytes_reach; eauto.
    - unfold parse_little_endian_rd. cbv zeta.
      destruct (c_plain c0), (make 1 Byte.x00 (int_wrap (c_dx c0 * 2))); try discriminate; apply row_loop_reach; auto;
      intros b0 x e b1 H0; now apply full_reach.
    - unfold parse_single_byte_rd. cbv zeta.
      destruct (c_plain c0), (make 1 Byte.x00 (c_dx c0)); try discriminate; apply row_loop_reach; auto;
      intros b0 x e b1 H0; now apply full_reach. }
  destruct rows, (make 4 (S754_zero false : f32) (c_px c)); cbv zeta; try discriminate; apply H.
Qed.
End Reach.
End Composite.
End Shared.

(** * Reading ahead *)
(** A reader that gives all it has, as os.File and bytes.Reader do. *)
Definition plain_read (n : nat) (l : list byte) : list byte * option rderr * list byte :=
  match l with [] => ([], Some RdEOF, []) | _ => (firstn n l, None, skipn n l) end.

Lemma plain_delivers : forall k l g, length l <= k -> delivers plain_read g l l.
Proof.
  induction k as [|k IH]; intros l g Hl; constructor; intros n Hn.
  - destruct l; [|cbn in Hl; lia]. exists [], (Some RdEOF), [], []. cbn. split; [reflexivity|]. split; [lia|]. split; [reflexivity|].
    left. split; [discriminate|]. split; [reflexivity|]. cofix IH. constructor. intros m Hm. exists RdEOF, []. auto.
  - destruct l as [|x l].
    + exists [], (Some RdEOF), [], []. cbn. split; [reflexivity|]. split; [lia|]. split; [reflexivity|].
      left. split; [discriminate|]. split; [reflexivity|]. cofix IH'. constructor. intros m Hm. exists RdEOF, []. auto.
    + exists (firstn n (x :: l)), None, (skipn n (x :: l)), (skipn n (x :: l)). split; [reflexivity|].
      split; [rewrite firstn_length; lia|]. split; [symmetry; apply firstn_skipn|].
      right; left. split; [reflexivity|]. destruct n as [|n]; [lia|]. split; [cbn; discriminate|].
      apply IH. cbn [skipn]. rewrite skipn_length. cbn in Hl. lia.
Qed.

Lemma plain_fill size i l : l <> [] -> length l <= size ->
  fill_loop (list byte) plain_read size (Datatypes.S i) (new_reader (list byte) l) = mk_bufrd l None [].
Proof.
  intros Hl Hs. unfold new_reader. cbn [fill_loop b_buf b_src b_err length]. rewrite Nat.sub_0_r.
  destruct l as [|x l]; [congruence|]. unfold plain_read at 1. rewrite firstn_all2, skipn_all2 by assumption. reflexivity.
Qed.
Lemma plain_first size l : l <> [] -> length l <= size ->
  fill (list byte) plain_read size (new_reader (list byte) l) = mk_bufrd l None [].
Proof. exact (plain_fill size 99 l). Qed.
Lemma plain_slice size d fuel l x e b' : 0 < size -> l <> [] -> length l <= size ->
  slice_loop (list byte) plain_read size fuel d 0 (new_reader (list byte) l) = Some (x, e, b') -> b_src b' = [].
Proof.
  intros Hp Hl Hs. destruct fuel as [|fuel]; cbn [slice_loop new_reader b_buf b_err skipn index_byte length];
    replace (size <=? 0) with false by (symmetry; now apply Nat.leb_gt); [discriminate|].
  rewrite plain_first by assumption.
  apply (slice_reach (list byte) plain_read (fun s => s = [])); [|reflexivity]. intros n s ->. reflexivity.
Qed.
Lemma plain_empty size fuel A E : 0 < size -> new_composite_on (list byte) plain_read size A E (Datatypes.S (Datatypes.S fuel)) (new_reader (list byte) []) =
  Some (Failure EHeaderShort (zero_composite (n_zero A)), None).
Proof.
  intros Hp. unfold new_composite_on, parse_header_rd. cbn [read_bytes]. unfold read_slice.
  cbn [slice_loop new_reader b_buf b_err skipn index_byte length].
  replace (size <=? 0) with false by (symmetry; now apply Nat.leb_gt).
  assert (Hf : fill (list byte) plain_read size (new_reader (list byte) []) = mk_bufrd [] (Some RdEOF) []) by reflexivity.
  rewrite Hf. reflexivity.
Qed.

(** A plain reader holding a file and more: the result is that of the file, but
    up to 4096 bytes behind it are gone, so a second file that starts there
    cannot be read. *)
Theorem C51_reads_ahead A E f rest : whole_file A E f -> length (f ++ rest) <= 4096 ->
  exists n, forall fuel, n <= fuel ->
    new_composite_src (list byte) plain_read A E fuel (f ++ rest) = Some (new_composite A E f, Some []) /\
    exists c, new_composite_src (list byte) plain_read A E fuel [] = Some (Failure EHeaderShort c, None).
Proof.
  intros Hw Hlen. set (l := f ++ rest) in *.
  exists (steps default_buf_size l). intros fuel Hf.
  assert (Hne : l <> []).
  { destruct Hw as [[c Hc] _]. destruct (parsed_inv A E f c Hc) as (text & data & _ & _ & _ & _ & _ & [Hl _] & _).
    unfold l. rewrite Hl. destruct text; discriminate. }
  split.
  - assert (Hh : holds (list byte) plain_read true 99 (new_reader (list byte) l) l).
    { apply (holds_running _ _ _ _ _ _ l); auto. eapply feeds_of_delivers, plain_delivers; eauto. }
    pose proof (new_composite_on_same (list byte) plain_read default_buf_size default_pos A E true 99 _ l (le_n _) Hh (Nat.le_0_l _) fuel
      (steps_enough (list byte) plain_read _ _ _ Hf)) as H.
    unfold new_composite_src.
    destruct (new_composite_on (list byte) plain_read default_buf_size A E fuel (new_reader (list byte) l)) as [[r o]|] eqn:Hon; [|destruct H; discriminate].
    destruct H as [[H1 H2] _]. cbn [option_map fst snd] in *. pose proof (whole_left A E f rest Hw) as Hlo. fold l in Hlo.
    destruct Hw as [[c Hc] Hmin].
    assert (Ht : new_composite A E l = new_composite A E f) by (eapply C19_trailing_ignored; eauto). rewrite Ht in *. subst r.
    destruct o as [b'|]; [|exfalso; destruct H2 as [H2|H2]; [congruence|destruct Hc; congruence]].
    cbn [option_map]. enough (Hsrc : b_src b' = []) by now rewrite Hsrc.
    unfold new_composite_on, parse_header_rd in Hon. destruct fuel as [|fuel]; [discriminate|].
    destruct (read_bytes (list byte) plain_read default_buf_size (Datatypes.S fuel) Byte.x03 (new_reader (list byte) l)) as [[[line e] b1]|] eqn:Hr; [|discriminate].
    assert (Hb1 : b_src b1 = []).
    { cbn [read_bytes] in Hr. unfold read_slice in Hr.
      destruct (slice_loop _ _ _ _ _ _ _) as [[[x e1] b2]|] eqn:Hs; [|discriminate].
      apply plain_slice in Hs; [|apply default_pos|assumption|assumption].
      destruct e1 as [[|e1]|]; try (injection Hr as _ _ <-; exact Hs).
      destruct (read_bytes _ _ _ fuel _ b2) as [[[y e2] b3]|] eqn:Hr2; [|discriminate]. injection Hr as _ _ <-.
      revert Hs Hr2. apply (read_bytes_reach (list byte) plain_read (fun s => s = [])). intros n s ->. reflexivity. }
    destruct e; [discriminate|]. destruct (bind _ _) as [[c1 b2]|e c1|] eqn:Hb; [|discriminate|discriminate].
    assert (b2 = b1) as ->.
    { destruct (parse_header_text _ _ _ _); cbn [bind] in Hb; try discriminate. now injection Hb as _ <-. }
    destruct (parse_data_rd (list byte) plain_read default_buf_size A (Datatypes.S fuel) c1 b1) as [[[c2 b3]|e c2|]|] eqn:Hd; try discriminate.
    apply (parse_data_reach (list byte) plain_read A (fun s => s = [])) in Hd; [|intros n s ->; reflexivity|assumption].
    destruct (arrange_data c2); [|discriminate]. cbv zeta in Hon. injection Hon as _ <-. exact Hd.
  - exists (zero_composite (n_zero A)). destruct fuel as [|[|fuel]]; [unfold steps in Hf; lia|unfold steps in Hf; lia|].
    unfold new_composite_src. rewrite plain_empty by apply default_pos. reflexivity.
Qed.
(** The files of PropFile are whole files; two of them and a further byte in a
    bufio.NewReader. *)
Lemma whole_check A E f :
  (match new_composite A E f with Value _ | Failure ErrUnknownUnit _ => true | _ => false end &&
   forallb (fun k => match new_composite A E (firstn k f) with Value _ | Failure ErrUnknownUnit _ => false | _ => true end) (seq 0 (length f)))%bool = true ->
  whole_file A E f.
Proof.
  intros H. apply andb_prop in H as [H1 H2]. split.
  - unfold parsed. destruct (new_composite A E f) as [c|[] c|]; try discriminate; eauto.
  - intros p s -> Hs c Hc. rewrite forallb_forall in H2. specialize (H2 (length p)).
    rewrite firstn_app, firstn_all, Nat.sub_diag, app_nil_r in H2. unfold parsed in Hc.
    assert (Hin : In (length p) (seq 0 (length (p ++ s)))).
    { apply in_seq. rewrite app_length. destruct s; [congruence|cbn; lia]. }
    specialize (H2 Hin). destruct Hc as [Hc|Hc]; rewrite Hc in H2; discriminate.
Qed.
Example C51_case A E : let f := file one_byte_text one_byte_data in
  Forall (whole_file A E) [f; f] /\
  unread plain_read 4096 (new_reader (list byte) (concat [f; f] ++ [Byte.x00])) (concat [f; f] ++ [Byte.x00]) /\
  length (f ++ f) <= 4096.
Proof.
  cbv zeta. assert (Hw : whole_file A E (file one_byte_text one_byte_data)) by (apply whole_check; vm_compute; reflexivity).
  split; [auto|]. split.
  - apply (unread_running (list byte) plain_read 4096 (new_reader (list byte) _) 99); auto; [apply Nat.le_0_l|].
    eapply plain_delivers; eauto.
  - apply Nat.leb_le. vm_compute. reflexivity.
Qed.
Print Assumptions C51_successive.
Print Assumptions C51_any_bytes.
Print Assumptions C51_small_buffer.
Print Assumptions C51_reads_ahead.
