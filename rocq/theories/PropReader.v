(** C20: the result does not depend on how the reader delivers the bytes. *)
From Coq Require Import Lia PeanoNat.
From Verif Require Import GoBase GoFloat Catalog Composite Header Data Projection Radolan Bufio SpecReader BaseFacts
  Spec SpecHeader HeaderMeaning ApiFacts FileFacts DefectFacts PropHeader PropFile.
Local Open Scope nat_scope.
Ltac conj := repeat match goal with |- _ /\ _ => split end.

Section Reader.
Variable S : Type.
Variable read : nat -> S -> list byte * option rderr * S.
Notation ended := (ended read).
Notation stalled := (stalled read).
Notation bufrd := (bufrd S).
Variable size : nat.
Hypothesis Hsize : 0 < size.

(** Both kinds of delivery at once: [how] is true if the end is reported. *)
Inductive feeds (how : bool) : nat -> S -> list byte -> Prop :=
| feeds_stall g s : how = false -> stalled s -> feeds how g s []
| feeds_step g s l :
    (forall n, 0 < n -> exists d e s' l', read n s = (d, e, s') /\ length d <= n /\ l = d ++ l' /\
       ((how = true /\ e <> None /\ l' = [] /\ ended s') \/
        (e = None /\ d <> [] /\ feeds how 99 s' l') \/
        (e = None /\ d = [] /\ exists g', g = Datatypes.S g' /\ feeds how g' s' l'))) ->
    feeds how g s l.

Lemma feeds_of_delivers g s l : delivers read g s l -> feeds true g s l.
Proof.
  revert g s l. fix IH 4. intros g s l [g' s' l' H]. apply feeds_step. intros n Hn.
  destruct (H n Hn) as (d & e & s1 & l1 & H1 & H2 & H3 & H4). exists d, e, s1, l1.
  split; [assumption|]. split; [assumption|]. split; [assumption|].
  destruct H4 as [(H4 & H5 & H6)|[(H4 & H5 & H6)|(H4 & H5 & g2 & H6 & H7)]].
  - left. auto.
  - right; left. auto.
  - right; right. split; [assumption|]. split; [assumption|]. exists g2. auto.
Qed.
Lemma feeds_of_stalls g s l : delivers_then_stalls read g s l -> feeds false g s l.
Proof.
  revert g s l. fix IH 4. intros g s l [g' s' H|g' s' l' H].
  - now apply feeds_stall.
  - apply feeds_step. intros n Hn.
    destruct (H n Hn) as (d & s1 & l1 & H1 & H2 & H3 & H4). exists d, None, s1, l1.
    split; [assumption|]. split; [assumption|]. split; [assumption|].
    destruct H4 as [(H4 & H5)|(H4 & g2 & H5 & H6)].
    + right; left. auto.
    + right; right. split; [reflexivity|]. split; [assumption|]. exists g2. auto.
Qed.
Lemma feeds_ended g s : ended s -> feeds true g s [].
Proof.
  intros [s' H]. apply feeds_step. intros n Hn. destruct (H n Hn) as (e & s1 & H1 & H2).
  exists [], (Some e), s1, []. split; [assumption|]. split; [cbn; lia|]. split; [reflexivity|]. left. split; [reflexivity|]. split; [discriminate|]. auto.
Qed.

(** One read, for states that are not stalled from the start. *)
Lemma feeds_inv how g s l n : 0 < n -> feeds how g s l ->
  exists d e s', read n s = (d, e, s') /\ length d <= n /\ exists l', l = d ++ l' /\
   ((how = true /\ e <> None /\ l' = [] /\ ended s') \/
    (e = None /\ d <> [] /\ feeds how 99 s' l') \/
    (e = None /\ d = [] /\ exists g', g = Datatypes.S g' /\ feeds how g' s' l') \/
    (e = None /\ d = [] /\ how = false /\ l = [] /\ stalled s')).
Proof.
  intros Hn [g' s' H1 [s1 H2]|g' s' l' H].
  - destruct (H2 n Hn) as (s2 & H3 & H4). exists [], None, s2. split; [assumption|]. split; [cbn; lia|].
    exists []. split; [reflexivity|]. do 3 right. auto.
  - destruct (H n Hn) as (d & e & s1 & l1 & H1 & H2 & H3 & H4). exists d, e, s1. split; [assumption|]. split; [assumption|].
    exists l1. split; [assumption|]. destruct H4 as [H4|[H4|H4]]; auto.
Qed.

(** The buffered reader still has to hand out l.  [g] as above. *)
Inductive holds (how : bool) (g : nat) (b : bufrd) (l : list byte) : Prop :=
| holds_running l' : b_err b = None -> feeds how g (b_src b) l' -> l = b_buf b ++ l' -> holds how g b l
| holds_ending e : how = true -> b_err b = Some e -> ended (b_src b) -> l = b_buf b -> holds how g b l.

(** * fill *)
Lemma fill_stalled i : forall b, length (b_buf b) < size -> stalled (b_src b) ->
  b_buf (fill_loop S read size i b) = b_buf b /\ (exists e, b_err (fill_loop S read size i b) = Some e) .
Proof.
  induction i as [|i IH]; intros b Hb Hs; cbn [fill_loop]; [split; [reflexivity|eexists; reflexivity]|].
  destruct Hs as [s H]. destruct (H (size - length (b_buf b))) as (s' & H1 & H2); [lia|].
  rewrite H1. rewrite app_nil_r. apply (IH (mk_bufrd (b_buf b) (b_err b) s')); assumption.
Qed.

Lemma fill_ok how i : forall g b l', g < i -> length (b_buf b) < size -> b_err b = None -> feeds how g (b_src b) l' ->
  let b' := fill_loop S read size i b in
  (exists d l'', b_err b' = None /\ d <> [] /\ b_buf b' = b_buf b ++ d /\ length (b_buf b') <= size /\
     l' = d ++ l'' /\ feeds how 99 (b_src b') l'') \/
  (exists e, how = true /\ b_err b' = Some e /\ ended (b_src b') /\ b_buf b' = b_buf b ++ l' /\ length (b_buf b') <= size) \/
  (exists e, how = false /\ b_err b' = Some e /\ b_buf b' = b_buf b /\ l' = []).
Proof.
  induction i as [|i IH]; intros g b l' Hg Hb He Hf; [lia|]. cbn [fill_loop].
  destruct (feeds_inv how g (b_src b) l' (size - length (b_buf b)) ltac:(lia) Hf)
    as (d & e & s' & H1 & H2 & l'' & H3 & H4).
  rewrite H1. destruct H4 as [(H4 & H5 & H6 & H7)|[(H4 & H5 & H6)|[(H4 & H5 & g' & H6 & H7)|(H4 & H5 & H6 & H7 & H8)]]].
  - destruct e as [e|]; [|congruence]. right; left. exists e. cbn [b_err b_src b_buf]. subst l''. rewrite app_nil_r in H3. subst d.
    conj; auto. rewrite app_length. lia.
  - subst e. destruct d as [|x d]; [congruence|]. left. exists (x :: d), l''. cbn [b_err b_src b_buf].
    conj; auto. rewrite app_length. lia.
  - subst e d. rewrite app_nil_r. cbn [app] in H3. subst l''.
    apply (IH g' (mk_bufrd (b_buf b) (b_err b) s') l'); cbn [b_buf b_err b_src]; auto. lia.
  - subst e d how. cbn [app] in H3. subst l''. rewrite app_nil_r.
    destruct (fill_stalled i (mk_bufrd (b_buf b) (b_err b) s') Hb H8) as (F1 & e & F2).
    right; right. exists e. auto.
Qed.

(** * ReadSlice *)
Lemma index_byte_some d l i : index_byte d l = Some i -> exists p r, l = p ++ d :: r /\ length p = i /\ ~ In d p.
Proof.
  revert i. induction l as [|x l IH]; intros i; cbn; [discriminate|].
  destruct (byte_eqb x d) eqn:Hx.
  - intros H; injection H as <-. apply byte_eqb_eq in Hx. subst x. exists [], l. auto.
  - destruct (index_byte d l) as [j|]; [|discriminate]. intros H; injection H as <-.
    destruct (IH j eq_refl) as (p & r & H1 & H2 & H3). exists (x :: p), r. subst l. cbn.
    conj; auto. intros [Hc|Hc]; [|auto]. subst x. apply byte_eqb_neq in Hx. congruence.
Qed.
Lemma index_byte_none d l : index_byte d l = None <-> ~ In d l.
Proof.
  induction l as [|x l IH]; cbn; [tauto|]. destruct (byte_eqb x d) eqn:Hx.
  - apply byte_eqb_eq in Hx. split; [discriminate|]. intros H. exfalso. apply H. auto.
  - apply byte_eqb_neq in Hx. destruct (index_byte d l).
    + split; [discriminate|]. intros H. exfalso. assert (Hn : ~ In d l) by tauto. apply IH in Hn. discriminate.
    + split; [|reflexivity]. intros _ [Hc|Hc]; [congruence|]. apply IH in Hc; auto.
Qed.

Inductive sliced (how : bool) (d : byte) (l : list byte) : option (list byte * option slice_err * bufrd) -> Prop :=
| sliced_line p l' b' g : ~ In d p -> l = p ++ d :: l' -> g <= 99 -> holds how g b' l' -> length (b_buf b') <= size ->
    sliced how d l (Some (p ++ [d], None, b'))
| sliced_full p l' b' g : ~ In d p -> p <> [] -> l = p ++ l' -> g <= 99 -> holds how g b' l' -> length (b_buf b') <= size ->
    sliced how d l (Some (p, Some BufferFull, b'))
| sliced_end e b' : ~ In d l -> sliced how d l (Some (l, Some (Pending e), b')).

Lemma slice_ok how d fuel : forall s g b l, size <= fuel + length (b_buf b) -> g <= 99 -> holds how g b l -> length (b_buf b) <= size ->
  ~ In d (firstn s (b_buf b)) -> s <= length (b_buf b) -> sliced how d l (slice_loop S read size fuel d s b).
Proof.
  induction fuel as [|fuel IH]; intros s g b l Hfuel Hg Hh Hsz Hs Hsl; cbn [slice_loop];
  destruct (index_byte d (skipn s (b_buf b))) as [i|] eqn:Hi.
  1, 3: apply index_byte_some in Hi; destruct Hi as (p & r & H1 & H2 & H3);
    assert (Hbuf : b_buf b = (firstn s (b_buf b) ++ p) ++ d :: r) by (rewrite <- app_assoc, <- H1; symmetry; apply firstn_skipn);
    assert (Hlen : length (firstn s (b_buf b) ++ p) = i + s) by (rewrite app_length, firstn_length; lia);
    assert (Hnot : ~ In d (firstn s (b_buf b) ++ p)) by (rewrite in_app_iff; tauto);
    revert Hbuf Hlen Hnot; generalize (firstn s (b_buf b) ++ p); intros q Hbuf Hlen Hnot;
    rewrite Hbuf;
    replace (firstn (i + s + 1) (q ++ d :: r)) with (q ++ [d])
      by (rewrite <- Hlen; rewrite firstn_app; rewrite firstn_all2 by lia; replace (length q + 1 - length q) with 1 by lia; reflexivity);
    replace (skipn (i + s + 1) (q ++ d :: r)) with r
      by (rewrite <- Hlen; rewrite skipn_app; rewrite skipn_all2 by lia; replace (length q + 1 - length q) with 1 by lia; reflexivity);
    assert (Hr : length r <= size) by (rewrite Hbuf in Hsz; rewrite app_length in Hsz; cbn in Hsz; lia);
    destruct Hh as [l' E1 E2 E3|e E0 E1 E2 E3];
    [ apply (sliced_line how d l q (r ++ l') _ g); auto;
      [ rewrite E3, Hbuf, <- app_assoc; reflexivity | apply (holds_running _ _ _ _ l'); auto ]
    | apply (sliced_line how d l q r _ g); auto;
      [ rewrite E3, Hbuf; reflexivity | apply (holds_ending _ _ _ _ e); auto ] ].
  1, 2: apply index_byte_none in Hi;
    assert (Hnot : ~ In d (b_buf b))
      by (rewrite <- (firstn_skipn s (b_buf b)), in_app_iff; tauto);
    destruct Hh as [l' E1 E2 E3|e E0 E1 E2 E3]; rewrite E1.
  2, 4: subst l; now apply sliced_end.
  - replace (Nat.leb size (length (b_buf b))) with true by (symmetry; apply Nat.leb_le; lia).
    apply (sliced_full how d l (b_buf b) l' _ g); auto.
    + intros Hc. rewrite Hc in Hfuel. cbn in Hfuel. lia.
    + apply (holds_running _ _ _ _ l'); auto.
    + cbn. lia.
  - destruct (Nat.leb size (length (b_buf b))) eqn:Hfull.
    + apply Nat.leb_le in Hfull. apply (sliced_full how d l (b_buf b) l' _ g); auto.
      * intros Hc. rewrite Hc in Hfull. cbn in Hfull. lia.
      * apply (holds_running _ _ _ _ l'); auto.
      * cbn. lia.
    + apply Nat.leb_gt in Hfull. unfold fill.
      destruct (fill_ok how max_empty_reads g b l' ltac:(unfold max_empty_reads; lia) Hfull E1 E2)
        as [(dd & l'' & F1 & F2 & F3 & F4 & F5 & F6)|[(e & F0 & F1 & F2 & F3 & F4)|(e & F0 & F1 & F2 & F3)]].
      * apply (IH _ 99); auto.
        -- rewrite F3, app_length. destruct dd; [congruence|]. cbn [length]. lia.
        -- apply (holds_running _ _ _ _ l''); auto. subst l l'. rewrite F3, app_assoc. reflexivity.
        -- rewrite F3, firstn_app, firstn_all2 by lia. rewrite Nat.sub_diag. cbn. rewrite app_nil_r. assumption.
        -- rewrite F3, app_length. lia.
      * (* the end is reported *)
        assert (Hh' : holds how 99 (fill_loop S read size max_empty_reads b) l).
        { apply (holds_ending _ _ _ _ e); auto. rewrite F3. assumption. }
        assert (Hs' : ~ In d (firstn (length (b_buf b)) (b_buf (fill_loop S read size max_empty_reads b)))).
        { rewrite F3, firstn_app, firstn_all2 by lia. rewrite Nat.sub_diag. cbn. rewrite app_nil_r. assumption. }
        destruct l' as [|x l'].
        -- (* nothing new: the next iteration returns *)
           rewrite app_nil_r in F3, E3.
           destruct fuel as [|fuel]; cbn [slice_loop];
           rewrite F3, skipn_all; cbn [index_byte]; rewrite F1; subst l; now apply sliced_end.
        -- apply (IH _ 99); auto; rewrite F3, app_length; cbn [length]; lia.
      * subst l'. rewrite app_nil_r in E3.
        destruct fuel as [|fuel]; cbn [slice_loop]; rewrite F2, skipn_all; cbn [index_byte]; rewrite F1; subst l; now apply sliced_end.
Qed.

(** * ReadBytes, ReadString *)
Inductive lined (how : bool) (d : byte) (l : list byte) : option (list byte * option rderr * bufrd) -> Prop :=
| lined_line line l' b' g : read_until d l = Some (line, l') -> g <= 99 -> holds how g b' l' -> length (b_buf b') <= size ->
    lined how d l (Some (line, None, b'))
| lined_end e b' : read_until d l = None -> lined how d l (Some (l, Some e, b')).

Lemma read_bytes_ok how d fuel : forall g b l, size + length l < fuel -> g <= 99 -> holds how g b l -> length (b_buf b) <= size ->
  lined how d l (read_bytes S read size fuel d b).
Proof.
  induction fuel as [|fuel IH]; intros g b l Hfuel Hg Hh Hsz; [lia|]. cbn [read_bytes].
  assert (Hs : sliced how d l (read_slice S read size (Datatypes.S fuel) d b)).
  { unfold read_slice. apply (slice_ok how d (Datatypes.S fuel) 0 g b l); auto; cbn; try lia; tauto. }
  destruct Hs as [p l' b' g' H1 H2 H3 H4 H5|p l' b' g' H1 H2 H3 H4 H5 H6|e b' H1].
  - apply (lined_line how d l _ l' b' g'); auto. subst l. now apply read_until_app.
  - assert (Hl : lined how d l' (read_bytes S read size fuel d b')).
    { apply (IH g'); auto. subst l. rewrite app_length in Hfuel. destruct p; [congruence|]. cbn [length] in Hfuel. lia. }
    subst l. destruct Hl as [line r b'' g'' L1 L2 L3 L4|e b'' L1].
    + apply (lined_line how d (p ++ l') (p ++ line) r b'' g''); auto.
      apply read_until_inv in L1. destruct L1 as (q & -> & -> & Hq). rewrite !app_assoc. apply read_until_app. rewrite in_app_iff. tauto.
    + apply lined_end. apply read_until_none. apply read_until_none in L1. rewrite in_app_iff. tauto.
  - apply lined_end. now apply read_until_none.
Qed.

(** * ReadFull *)
Lemma buf_read_ok how g b l n : 0 < n -> g <= 99 -> holds how g b l -> length (b_buf b) <= size ->
  exists d e b', buf_read S read size n b = (d, e, b') /\ length d <= n /\ length (b_buf b') <= size /\ exists l', l = d ++ l' /\
   ((how = true /\ e <> None /\ l' = [] /\ holds how 99 b' [] /\ b_buf b' = [] /\ ended (b_src b')) \/
    (e = None /\ d <> [] /\ exists g', g' <= 99 /\ holds how g' b' l') \/
    (e = None /\ d = [] /\ exists g', g = Datatypes.S g' /\ holds how g' b' l') \/
    (e = None /\ d = [] /\ how = false /\ l = [] /\ stalled (b_src b') /\ b_buf b' = [] /\ b_err b' = None)).
Proof.
  intros Hn Hg Hh Hsz. destruct n as [|n]; [lia|]. remember (Datatypes.S n) as m eqn:Hm. unfold buf_read. rewrite Hm. rewrite <- Hm.
  destruct (b_buf b) as [|x buf] eqn:Hbuf.
  - destruct Hh as [l' E1 E2 E3|e E0 E1 E2 E3]; rewrite E1.
    + rewrite Hbuf in E3. cbn in E3. subst l'. destruct (Nat.leb size m) eqn:Hbig.
      * destruct (feeds_inv how g (b_src b) l m Hn E2) as (d & e & s' & H1 & H2 & l'' & H3 & H4). rewrite H1.
        exists d, e, (mk_bufrd [] None s'). split; [reflexivity|]. split; [assumption|]. split; [cbn; lia|]. exists l''. split; [assumption|].
        destruct H4 as [(H4 & H5 & H6 & H7)|[(H4 & H5 & H6)|[(H4 & H5 & g' & H6 & H7)|(H4 & H5 & H6 & H7 & H8)]]].
        -- left. subst how. conj; auto. apply (holds_running _ _ _ _ []); auto. now apply feeds_ended.
        -- right; left. conj; auto. exists 99. split; [lia|]. apply (holds_running _ _ _ _ l''); auto.
        -- right; right; left. conj; auto. exists g'. split; [assumption|]. apply (holds_running _ _ _ _ l''); auto.
        -- do 3 right. conj; auto.
      * apply Nat.leb_gt in Hbig.
        destruct (feeds_inv how g (b_src b) l size ltac:(lia) E2) as (d & e & s' & H1 & H2 & l'' & H3 & H4). rewrite H1.
        destruct d as [|x d].
        -- cbn in H3. subst l''. exists [], e, (mk_bufrd [] None s'). split; [reflexivity|]. split; [cbn; lia|]. split; [cbn; lia|]. exists l. split; [reflexivity|].
           destruct H4 as [(H4 & H5 & H6 & H7)|[(H4 & H5 & H6)|[(H4 & H5 & g' & H6 & H7)|(H4 & H5 & H6 & H7 & H8)]]].
           ++ left. subst how. conj; auto. apply (holds_running _ _ _ _ []); auto. now apply feeds_ended.
           ++ congruence.
           ++ right; right; left. conj; auto. exists g'. split; [assumption|]. apply (holds_running _ _ _ _ l); auto.
           ++ do 3 right. conj; auto.
        -- exists (firstn m (x :: d)), None, (mk_bufrd (skipn m (x :: d)) e s').
           split; [reflexivity|]. split; [rewrite firstn_length; lia|]. split; [cbn [b_buf]; rewrite skipn_length; lia|].
           exists (skipn m (x :: d) ++ l''). split; [rewrite app_assoc, firstn_skipn; assumption|].
           right; left. split; [reflexivity|]. split; [subst m; cbn; discriminate|].
           destruct H4 as [(H4 & H5 & H6 & H7)|[(H4 & H5 & H6)|[(H4 & H5 & g' & H6 & H7)|(H4 & H5 & H6 & H7 & H8)]]]; try congruence.
           ++ exists 0. split; [lia|]. destruct e as [e|]; [|congruence]. apply (holds_ending _ _ _ _ e); auto. cbn [b_buf]. subst l''. apply app_nil_r.
           ++ exists 99. split; [lia|]. subst e. apply (holds_running _ _ _ _ l''); auto.
    + rewrite Hbuf in E3. subst l. exists [], (Some e), (mk_bufrd [] None (b_src b)). split; [reflexivity|]. split; [cbn; lia|]. split; [cbn; lia|].
      exists []. split; [reflexivity|]. left. conj; auto; [discriminate|]. subst how. apply (holds_running _ _ _ _ []); auto. now apply feeds_ended.
  - exists (firstn m (x :: buf)), None, (mk_bufrd (skipn m (x :: buf)) (b_err b) (b_src b)).
    split; [reflexivity|]. split; [rewrite firstn_length; lia|]. split; [cbn [b_buf]; rewrite skipn_length; lia|].
    destruct Hh as [l' E1 E2 E3|e E0 E1 E2 E3]; rewrite Hbuf in E3.
    + exists (skipn m (x :: buf) ++ l'). split; [rewrite app_assoc, firstn_skipn; assumption|].
      right; left. split; [reflexivity|]. split; [subst m; cbn; discriminate|]. exists g. split; [assumption|]. apply (holds_running _ _ _ _ l'); auto.
    + exists (skipn m (x :: buf)). split; [rewrite firstn_skipn; assumption|].
      right; left. split; [reflexivity|]. split; [subst m; cbn; discriminate|]. exists g. split; [assumption|]. apply (holds_ending _ _ _ _ e); auto.
Qed.

Inductive filled (how : bool) (n : nat) (l : list byte) : option (list byte * option rderr * bufrd) -> Prop :=
| filled_ok b' g : n <= length l -> g <= 99 -> holds how g b' (skipn n l) -> length (b_buf b') <= size ->
    filled how n l (Some (firstn n l, None, b'))
| filled_end e b' : how = true -> length l < n -> filled how n l (Some (l, Some e, b'))
| filled_hang : how = false -> length l < n -> filled how n l None.

Lemma full_stalled fuel : forall n got b, length got < n -> b_buf b = [] -> b_err b = None -> stalled (b_src b) ->
  full_loop S read size fuel n got b = None.
Proof.
  induction fuel as [|fuel IH]; intros n got b Hn H1 H2 H3; cbn [full_loop];
  replace (Nat.leb n (length got)) with false by (symmetry; apply Nat.leb_gt; lia); [reflexivity|].
  unfold buf_read. destruct (n - length got) as [|k] eqn:Hk; [lia|]. rewrite H1, H2.
  destruct H3 as [s H3]. destruct (Nat.leb size (Datatypes.S k)).
  - destruct (H3 (Datatypes.S k)) as (s' & R & H4); [lia|]. rewrite R, app_nil_r. apply IH; auto.
  - destruct (H3 size) as (s' & R & H4); [lia|]. rewrite R, app_nil_r. apply IH; auto.
Qed.

Lemma full_ok how fuel : forall n got g b l, 100 * length l + g < fuel -> g <= 99 -> holds how g b l -> length (b_buf b) <= size ->
  length got <= n -> filled how n (got ++ l) (full_loop S read size fuel n got b).
Proof.
  induction fuel as [|fuel IH]; intros n got g b l Hfuel Hg Hh Hsz Hgot; [lia|]. cbn [full_loop].
  destruct (Nat.leb n (length got)) eqn:Hdone.
  - apply Nat.leb_le in Hdone. assert (n = length got) by lia. subst n.
    replace got with (firstn (length got) (got ++ l)) at 3 by (rewrite firstn_app, firstn_all, Nat.sub_diag; cbn; apply app_nil_r).
    apply (filled_ok how _ _ b g); auto; [rewrite app_length; lia|]. rewrite skipn_app, skipn_all, Nat.sub_diag. assumption.
  - apply Nat.leb_gt in Hdone.
    destruct (buf_read_ok how g b l (n - length got) ltac:(lia) Hg Hh Hsz) as (d & e & b' & H1 & H2 & H3 & l' & H4 & H5). rewrite H1.
    destruct H5 as [(H5 & H6 & H7 & H8 & _)|[(H5 & H6 & g' & H7 & H8)|[(H5 & H6 & g' & H7 & H8)|(H5 & H6 & H7 & H8 & H9 & H10 & H11)]]].
    + destruct e as [e|]; [|congruence]. subst l'. rewrite app_nil_r in H4. subst d. destruct (Nat.leb n (length (got ++ l))) eqn:Hl.
      * apply Nat.leb_le in Hl. assert (Hn : n = length (got ++ l)) by (rewrite app_length in *; lia).
        replace (Some (got ++ l, @None rderr, b')) with (Some (firstn n (got ++ l), @None rderr, b')) by (rewrite Hn, firstn_all; reflexivity).
        apply (filled_ok how _ _ b' 99); auto. rewrite Hn, skipn_all. assumption.
      * apply Nat.leb_gt in Hl. now apply filled_end.
    + subst e l. rewrite app_assoc. apply (IH n (got ++ d) g'); auto.
      * rewrite app_length in Hfuel. destruct d; [congruence|]. cbn [length] in Hfuel. lia.
      * rewrite app_length. lia.
    + subst e d l. rewrite app_nil_r. cbn [app] in *. apply (IH n got g'); auto; lia.
    + clear H4. subst e d l. rewrite !app_nil_r. rewrite (full_stalled fuel n got b' ltac:(lia) H10 H11 H9). apply filled_hang; [assumption|lia].
Qed.

(** * NewComposite *)
Section Composite.
Variable A : arith.
Variable E : goenv.
Notation T := (num A).

Definition enough (l : list byte) (fuel : nat) : Prop := size + 100 * length l + 100 < fuel.
Lemma enough_suffix l p r fuel : enough l fuel -> l = p ++ r -> enough r fuel.
Proof. unfold enough. intros H ->. rewrite app_length in H. lia. Qed.

(** What a run on the reader gives, against the run on the bytes: the same, but
    a stalled reader leaves NewComposite waiting for ever where the bytes give
    the error of a fixed-width data section. *)
Definition waits (e : error) : Prop := e = EReadLittleEndian \/ e = EReadSingleByte.
Inductive same {X Y : Type} (R : X -> Y -> Prop) (how : bool) : option (outcome T X) -> outcome T Y -> Prop :=
| same_value x y : R x y -> same R how (Some (Value x)) (Value y)
| same_panic : same R how (Some Panic) Panic
| same_failure e c : (how = false -> ~ waits e) -> same R how (Some (Failure e c)) (Failure e c)
| same_hang e c : how = false -> waits e -> same R how None (Failure e c).

Definition first_same (how : bool) (x : composite T * bufrd) (y : composite T * list byte) : Prop :=
  fst x = fst y /\ exists g, g <= 99 /\ holds how g (snd x) (snd y) /\ length (b_buf (snd x)) <= size.

(** The row loops agree, if the line readers do. *)
Lemma row_loop_agree how rd pure eread decode row (P : list byte -> Prop) :
  (forall dst line e dst', decode dst line = RowErr e dst' -> ~ waits e) ->
  (forall g b l, P l -> g <= 99 -> holds how g b l -> length (b_buf b) <= size ->
     match pure l with
     | Some (line, l') => exists b' g', rd b = Some (line, None, b') /\ P l' /\ g' <= 99 /\ holds how g' b' l' /\ length (b_buf b') <= size
     | None => ((how = false -> ~ waits eread) /\ (exists line e b', rd b = Some (line, Some e, b'))) \/ (how = false /\ waits eread /\ rd b = None)
     end) ->
  forall n i (c : composite T) g b l, P l -> g <= 99 -> holds how g b l -> length (b_buf b) <= size ->
  same (first_same how) how (row_loop_rd S A rd eread decode row n i c b) (row_loop pure eread decode row n i c l).
Proof.
  intros Hdec Hrd. induction n as [|n IH]; intros i c g b l HP Hg Hh Hsz; cbn [row_loop_rd row_loop]; [constructor; split; [reflexivity|]; exists g; auto|].
  pose proof (Hrd g b l HP Hg Hh Hsz) as H. destruct (pure l) as [[line l']|].
  - destruct H as (b' & g' & H1 & H2 & H3 & H4 & H5). rewrite H1.
    destruct (index (c_plain c) (row i)) as [dst|]; [|constructor].
    destruct (decode dst line) as [dst'|e dst'|] eqn:Hd; [| |constructor].
    + destruct (assign (c_plain c) (row i) dst'); [|constructor]. apply (IH _ _ g'); auto.
    + destruct (assign (c_plain c) (row i) dst'); [|constructor]. constructor. intros _. eapply Hdec; eauto.
  - destruct H as [(H1 & line & e & b' & H2)|(H1 & H2 & H3)].
    + rewrite H2. constructor. assumption.
    + rewrite H3. now constructor.
Qed.

Lemma runlength_errors level line : forall first offset dst pos e dst', runlength_loop level line first offset dst pos = RowErr e dst' ->
  e = EOffsetValue \/ e = EDestination.
Proof.
  assert (Hw : forall v n dst pos e dst' p, write_run level v n dst pos = (RowErr e dst', p) -> e = EDestination).
  { intros v n. induction n as [|n IH]; intros dst pos e dst' p; cbn [write_run]; [discriminate|].
    destruct (len dst <=? pos)%Z; [intros H; now injection H as <- _ _|].
    destruct (rvp6_runlength level v); [|discriminate]. destruct (assign dst pos f); [|discriminate]. apply IH. }
  induction line as [|x line IH]; intros first offset dst pos e dst'; cbn [runlength_loop]; [discriminate|].
  destruct first; [apply IH|]. destruct offset.
  - destruct (bz x <? 16)%Z; [intros H; injection H as <- _; auto|apply IH].
  - destruct (write_run _ _ _ dst pos) as [r p] eqn:Hr. destruct r as [d|e' d|]; [apply IH| |discriminate].
    intros H. injection H as <- _. right. eapply Hw; eauto.
Qed.

Lemma parse_runlength_same how fuel c g b l : enough l fuel -> g <= 99 -> holds how g b l -> length (b_buf b) <= size ->
  same (first_same how) how (parse_runlength_rd S read size A fuel c b) (parse_runlength c l).
Proof.
  intros HP Hg Hh Hsz. unfold parse_runlength_rd, parse_runlength.
  apply (row_loop_agree how _ _ _ _ _ (fun l => enough l fuel)) with (g := g); auto.
  - intros dst line e dst' H. apply runlength_errors in H. unfold waits. destruct H; subst; intros [Hc|Hc]; discriminate.
  - clear - Hsize. intros g b l HP Hg Hh Hsz. unfold read_line_runlength, read_line_runlength_rd.
    assert (Hl : lined how Byte.x0a l (read_bytes S read size fuel Byte.x0a b)).
    { apply (read_bytes_ok how _ fuel g); auto. unfold enough in HP. lia. }
    destruct Hl as [line l' b' g' H1 H2 H3 H4|e b' H1]; rewrite H1.
    + exists b', g'. conj; auto. apply read_until_inv in H1. destruct H1 as (p & -> & -> & _).
      apply (enough_suffix _ (p ++ [Byte.x0a]) l' _ HP). rewrite <- app_assoc. reflexivity.
    + left. split; [intros _ [Hc|Hc]; discriminate|]. eauto.
Qed.

Lemma full_same how fuel eread n decode row k i (c : composite T) g b l :
  (0 <= n)%Z -> waits eread -> (forall dst line e dst', decode dst line = RowErr e dst' -> ~ waits e) ->
  enough l fuel -> g <= 99 -> holds how g b l -> length (b_buf b) <= size ->
  same (first_same how) how (row_loop_rd S A (read_line_full_rd S read size fuel n) eread decode row k i c b) (row_loop (read_full n) eread decode row k i c l).
Proof.
  intros Hn Hw Hdec HP Hg Hh Hsz.
  apply (row_loop_agree how _ _ _ _ _ (fun l => enough l fuel)) with (g := g); auto.
  clear - Hsize Hn Hw. intros g b l HP Hg Hh Hsz. unfold read_full, read_line_full_rd.
  assert (Hf : filled how (Z.to_nat n) l (full_loop S read size fuel (Z.to_nat n) [] b)).
  { apply (full_ok how fuel (Z.to_nat n) [] g); auto; [unfold enough in HP; lia|cbn; lia]. }
  destruct Hf as [b' g' H1 H2 H3 H4|e b' H1 H2|H1 H2].
  - replace (n <=? len l)%Z with true by (unfold len; lia). exists b', g'. conj; auto.
    apply (enough_suffix l (firstn (Z.to_nat n) l) _ _ HP). now rewrite firstn_skipn.
  - replace (n <=? len l)%Z with false by (unfold len; lia). left. split; [congruence|]. eauto.
  - replace (n <=? len l)%Z with false by (unfold len; lia). right. auto.
Qed.

Lemma make_nonneg {X} sz (z : X) n l : make sz z n = Some l -> (0 <= n)%Z.
Proof. unfold make. destruct (0 <=? n)%Z eqn:H; [lia|discriminate]. Qed.

Lemma parse_little_endian_same how fuel c g b l : enough l fuel -> g <= 99 -> holds how g b l -> length (b_buf b) <= size ->
  same (first_same how) how (parse_little_endian_rd S read size A fuel c b) (parse_little_endian c l).
Proof.
  intros HP Hg Hh Hsz. unfold parse_little_endian_rd, parse_little_endian.
  destruct (c_plain c) as [|r rows] eqn:Hp; [constructor; split; [reflexivity|]; exists g; auto|].
  destruct (make 1 Byte.x00 (int_wrap (c_dx c * 2))) eqn:Hm; [|constructor]. apply make_nonneg in Hm.
  apply (full_same how fuel) with (g := g); auto.
  - left; reflexivity.
  - intros dst line e dst'. unfold decode_little_endian. destruct (_ || _); [intros H; injection H as <- _; intros [H|H]; discriminate|].
    destruct (little_endian_values _ _ _); discriminate.
Qed.
Lemma parse_single_byte_same how fuel c g b l : enough l fuel -> g <= 99 -> holds how g b l -> length (b_buf b) <= size ->
  same (first_same how) how (parse_single_byte_rd S read size A fuel c b) (parse_single_byte c l).
Proof.
  intros HP Hg Hh Hsz. unfold parse_single_byte_rd, parse_single_byte.
  destruct (c_plain c) as [|r rows] eqn:Hp; [constructor; split; [reflexivity|]; exists g; auto|].
  destruct (make 1 Byte.x00 (c_dx c)) eqn:Hm; [|constructor]. apply make_nonneg in Hm.
  apply (full_same how fuel) with (g := g); auto.
  - right; reflexivity.
  - intros dst line e dst'. unfold decode_single_byte. destruct (negb _); [intros H; injection H as <- _; intros [H|H]; discriminate|discriminate].
Qed.
Lemma parse_encoding_same how fuel k c g b l : enough l fuel -> g <= 99 -> holds how g b l -> length (b_buf b) <= size ->
  same (first_same how) how (parse_encoding_rd S read size A fuel k c b) (parse_encoding k c l).
Proof.
  intros HP Hg Hh Hsz. destruct k; cbn [parse_encoding_rd parse_encoding].
  - now apply (parse_runlength_same how fuel c g).
  - now apply (parse_little_endian_same how fuel c g).
  - now apply (parse_single_byte_same how fuel c g).
  - constructor. intros _ [H|H]; discriminate.
Qed.
Lemma parse_data_same how fuel c g b l : enough l fuel -> g <= 99 -> holds how g b l -> length (b_buf b) <= size ->
  same (first_same how) how (parse_data_rd S read size A fuel c b) (parse_data c l).
Proof.
  intros HP Hg Hh Hsz. unfold parse_data_rd, parse_data.
  destruct (_ || _); [constructor; intros _ [H|H]; discriminate|].
  destruct (make 24 ([] : list f32) (c_py c)) as [rows|]; [|constructor].
  destruct rows as [|r rows], (make 4 (S754_zero false : f32) (c_px c)) as [zs|]; cbv zeta;
    try constructor; now apply (parse_encoding_same how fuel _ _ g).
Qed.

(** The bytes left behind the data section. *)
Definition left_over (l : list byte) : option (list byte) :=
  match parse_header (n_ofZ A) E (zero_composite (n_zero A)) l with
  | Value (c, l') => match parse_data c l' with Value (_, r) => Some r | _ => None end
  | _ => None
  end.
Definition result_same (how : bool) (l : list byte) (x : outcome T (composite T) * option bufrd) : Prop :=
  fst x = new_composite A E l /\
  match snd x with
  | None => left_over l = None \/ new_composite A E l = Panic
  | Some b => exists r g, left_over l = Some r /\ g <= 99 /\ holds how g b r /\ length (b_buf b) <= size
  end.

Lemma new_composite_on_same how g b l : g <= 99 -> holds how g b l -> length (b_buf b) <= size ->
  forall fuel, enough l fuel ->
  match new_composite_on S read size A E fuel b with
  | Some x => result_same how l x /\ (how = false -> forall e c, fst x = Failure e c -> ~ waits e)
  | None => how = false /\ exists e c, new_composite A E l = Failure e c /\ waits e
  end.
Proof.
  intros Hg Hh Hsz fuel HP. unfold result_same, left_over, new_composite_on, new_composite, parse_header_rd, parse_header.
  assert (Hl : lined how Byte.x03 l (read_bytes S read size fuel Byte.x03 b)).
  { apply (read_bytes_ok how _ fuel g); auto. unfold enough in HP; lia. }
  destruct Hl as [line l' b' g' H1 H2 H3 H4|e b' H1]; rewrite H1; cbn [fst snd].
  2:{ conj; auto. intros _ e0 c [= <- _] [H|H]; discriminate. }
  destruct (parse_header_text (n_ofZ A) E (zero_composite (n_zero A)) line) as [c|e c|] eqn:Ht; cbn [bind fst snd].
  - assert (HP' : enough l' fuel).
    { apply read_until_inv in H1. destruct H1 as (p & -> & -> & _).
      apply (enough_suffix _ (p ++ [Byte.x03]) l' _ HP). rewrite <- app_assoc. reflexivity. }
    destruct (parse_data_same how fuel c g' b' l' HP' H2 H3 H4) as [[c1 b1] [c2 l2] R| |e1 c1 R|e1 c1 R1 R2]; cbn [fst snd].
    + destruct R as [R (g2 & R2 & R3 & R4)]. cbn [fst snd] in *. subst c2. destruct (arrange_data c1) as [c2|]; cbn [fst snd].
      * conj; auto.
        -- exists l2, g2. auto.
        -- intros _ e0 c0. destruct (unit_eqb _ _); [|discriminate]. intros [= <- _] [H|H]; discriminate.
      * conj; auto. intros _ e0 c0. discriminate.
    + conj; auto. intros _ e0 c0. discriminate.
    + conj; auto. intros Hhow e0 c0 [= <- _]; auto.
    + conj; eauto.
  - conj; auto. intros _ e0 c0 [= <- _] Hw. apply read_until_inv in H1. destruct H1 as (p & -> & _ & Hp).
    pose proof (header_first_defect _ _ _ _ _ _ Hp Ht) as Hd. apply first_defect_in in Hd. destruct Hd as (d & Hin & _).
    apply (in_map fst) in Hin. cbn in Hin. unfold waits in Hw. destruct Hw as [Hw|Hw]; subst e; intuition discriminate.
  - conj; auto. intros _ e0 c0. discriminate.
Qed.

(** More iterations do not change a result. *)
Lemma slice_mono d n : forall m s b r, n <= m -> slice_loop S read size n d s b = Some r -> slice_loop S read size m d s b = Some r.
Proof.
  induction n as [|n IH]; intros m s b r Hm; destruct m as [|m]; try lia; cbn [slice_loop];
  destruct (index_byte d (skipn s (b_buf b))); auto; destruct (b_err b); auto; destruct (Nat.leb size (length (b_buf b))); auto.
  - discriminate.
  - apply IH. lia.
Qed.
Lemma read_bytes_mono d n : forall m b r, n <= m -> read_bytes S read size n d b = Some r -> read_bytes S read size m d b = Some r.
Proof.
  induction n as [|n IH]; intros m b r Hm; [discriminate|]. destruct m as [|m]; [lia|]. cbn [read_bytes]. unfold read_slice.
  destruct (slice_loop S read size (Datatypes.S n) d 0 b) as [x|] eqn:Hx; [|discriminate].
  rewrite (slice_mono d (Datatypes.S n) (Datatypes.S m) 0 b x Hm Hx).
  destruct x as [[frag [[|e]|]] b']; auto. destruct (read_bytes S read size n d b') as [y|] eqn:Hy; [|discriminate].
  rewrite (IH m b' y ltac:(lia) Hy). auto.
Qed.
Lemma full_mono k n : forall m got b r, n <= m -> full_loop S read size n k got b = Some r -> full_loop S read size m k got b = Some r.
Proof.
  induction n as [|n IH]; intros m got b r Hm; destruct m as [|m]; try lia; cbn [full_loop]; destruct (Nat.leb k (length got)); auto.
  - discriminate.
  - destruct (buf_read S read size (k - length got) b) as [[d e] b']. destruct e; [auto|]. apply IH. lia.
Qed.
Lemma row_loop_mono rd1 rd2 eread decode row : (forall b r, rd1 b = Some r -> rd2 b = Some r) ->
  forall n i (c : composite T) b r, row_loop_rd S A rd1 eread decode row n i c b = Some r -> row_loop_rd S A rd2 eread decode row n i c b = Some r.
Proof.
  intros Hrd. induction n as [|n IH]; intros i c b r; cbn [row_loop_rd]; [auto|].
  destruct (rd1 b) as [x|] eqn:Hx; [|discriminate]. rewrite (Hrd b x Hx). destruct x as [[line [e|]] b']; auto.
  destruct (index (c_plain c) (row i)) as [dst|]; auto. destruct (decode dst line) as [d|e d|]; auto.
  destruct (assign (c_plain c) (row i) d); auto.
Qed.
Lemma parse_encoding_mono n m k (c : composite T) b r : n <= m ->
  parse_encoding_rd S read size A n k c b = Some r -> parse_encoding_rd S read size A m k c b = Some r.
Proof.
  intros Hm. destruct k; cbn [parse_encoding_rd]; auto.
  - apply row_loop_mono. intros b0 r0. unfold read_line_runlength_rd.
    destruct (read_bytes S read size n Byte.x0a b0) as [x|] eqn:Hx; [|discriminate]. now rewrite (read_bytes_mono _ n m b0 x Hm Hx).
  - unfold parse_little_endian_rd. cbv zeta. 
    destruct (c_plain c), (make 1 Byte.x00 (int_wrap (c_dx c * 2))); auto; apply row_loop_mono; intros b0 r0; now apply full_mono.
  - unfold parse_single_byte_rd. cbv zeta. 
    destruct (c_plain c), (make 1 Byte.x00 (c_dx c)); auto; apply row_loop_mono; intros b0 r0; now apply full_mono.
Qed.
Lemma new_composite_on_mono n m b r : n <= m -> new_composite_on S read size A E n b = Some r -> new_composite_on S read size A E m b = Some r.
Proof.
  intros Hm. unfold new_composite_on, parse_header_rd.
  destruct (read_bytes S read size n Byte.x03 b) as [x|] eqn:Hx; [|discriminate].
  rewrite (read_bytes_mono _ n m _ x Hm Hx). destruct x as [[line [e|]] b0]; auto.
  destruct (bind _ _) as [[c b1]|e c|]; auto.
  assert (Hd : forall r, parse_data_rd S read size A n c b1 = Some r -> parse_data_rd S read size A m c b1 = Some r).
  { intros r0. unfold parse_data_rd. destruct (_ || _); auto.
    destruct (make 24 ([] : list f32) (c_py c)) as [rows|]; auto.
    destruct rows, (make 4 (S754_zero false : f32) (c_px c)); cbv zeta; auto; now apply parse_encoding_mono. }
  destruct (parse_data_rd S read size A n c b1) as [x|] eqn:Hy; [|discriminate]. now rewrite (Hd x eq_refl).
Qed.
End Composite.
End Reader.

Section Plain.
Variable S : Type.
Variable read : nat -> S -> list byte * option rderr * S.
Variable A : arith.
Variable E : goenv.
Lemma default_pos : 0 < default_buf_size.
Proof. unfold default_buf_size. lia. Qed.
Definition steps (size : nat) (l : list byte) : nat := Datatypes.S (size + 100 * length l + 100).
Lemma steps_enough size l fuel : steps size l <= fuel -> enough size l fuel.
Proof. unfold steps, enough. lia. Qed.

Lemma plain_same how s l fuel : feeds S read how 99 s l -> enough default_buf_size l fuel ->
  match new_composite_rd S read A E fuel s with
  | Some x => x = new_composite A E l /\ (how = false -> forall e c, x = Failure e c -> ~ waits e)
  | None => how = false /\ exists e c, new_composite A E l = Failure e c /\ waits e
  end.
Proof.
  intros Hf HP. unfold new_composite_rd, new_composite_src.
  assert (Hh : holds S read how 99 (new_reader S s) l) by (apply (holds_running _ _ _ _ _ _ l); auto).
  pose proof (new_composite_on_same S read default_buf_size default_pos A E how 99 _ l (le_n _) Hh (Nat.le_0_l _) fuel HP) as H.
  destruct (new_composite_on S read default_buf_size A E fuel (new_reader S s)) as [x|]; cbn [option_map]; [|exact H].
  destruct H as [[H1 _] H2]. auto.
Qed.

(** Any reader that delivers the bytes gives the result of the bytes, and all
    loops end. *)
Theorem C20_any_reader s l : delivers read 99 s l ->
  exists n, forall fuel, n <= fuel -> new_composite_rd S read A E fuel s = Some (new_composite A E l).
Proof.
  intros H. apply feeds_of_delivers in H. exists (steps default_buf_size l). intros fuel Hf.
  pose proof (plain_same true s l fuel H (steps_enough _ _ _ Hf)) as Hs.
  destruct (new_composite_rd S read A E fuel s) as [x|]; destruct Hs as [Hs _]; congruence.
Qed.

(** A reader that stalls after some bytes, neither delivering nor reporting an
    end: NewComposite still returns the result of those bytes (in particular an
    error if the header or a runlength line is incomplete), unless that is the
    error of a truncated two-byte or one-byte data section; then NewComposite
    never returns. *)
Theorem C20_stalling_reader s l : delivers_then_stalls read 99 s l ->
  ((forall c, new_composite A E l <> Failure EReadLittleEndian c /\ new_composite A E l <> Failure EReadSingleByte c) ->
    exists n, forall fuel, n <= fuel -> new_composite_rd S read A E fuel s = Some (new_composite A E l)) /\
  ((exists c, new_composite A E l = Failure EReadLittleEndian c \/ new_composite A E l = Failure EReadSingleByte c) ->
    forall fuel, new_composite_rd S read A E fuel s = None).
Proof.
  intros H. apply feeds_of_stalls in H. split.
  - intros Hn. exists (steps default_buf_size l). intros fuel Hf.
    pose proof (plain_same false s l fuel H (steps_enough _ _ _ Hf)) as Hs.
    destruct (new_composite_rd S read A E fuel s) as [x|]; [destruct Hs as [Hs _]; congruence|].
    destruct Hs as (_ & e & c & Hc & [Hw|Hw]); exfalso; subst e; destruct (Hn c); congruence.
  - intros (c & Hc) fuel. destruct (new_composite_rd S read A E fuel s) as [r|] eqn:Hr; [exfalso|reflexivity].
    destruct (ex_intro (fun n => steps default_buf_size l <= n /\ fuel <= n) (steps default_buf_size l + fuel) (conj (Nat.le_add_r _ _) (Nat.le_add_l _ _))) as (n & Hn & Hn').
    pose proof (plain_same false s l n H (steps_enough _ _ _ Hn)) as Hs.
    unfold new_composite_rd, new_composite_src in Hr, Hs.
    destruct (new_composite_on S read default_buf_size A E fuel (new_reader S s)) as [x|] eqn:Hx; [|discriminate].
    rewrite (new_composite_on_mono S read default_buf_size default_pos A E fuel n _ x Hn' Hx) in Hs.
    cbn [option_map] in Hs. destruct Hs as [Hs1 Hs2]. unfold waits in Hs2.
    destruct Hc as [Hc|Hc]; rewrite Hc in Hs1; eapply Hs2; eauto.
Qed.
End Plain.

(** Two readers that deliver the same bytes give the same result. *)
Theorem C20_two_readers S1 (r1 : nat -> S1 -> list byte * option rderr * S1) S2 (r2 : nat -> S2 -> list byte * option rderr * S2) A E s1 s2 l :
  delivers r1 99 s1 l -> delivers r2 99 s2 l ->
  exists n, forall fuel, n <= fuel -> new_composite_rd S1 r1 A E fuel s1 = new_composite_rd S2 r2 A E fuel s2 /\
    new_composite_rd S1 r1 A E fuel s1 <> None.
Proof.
  intros H1 H2. destruct (C20_any_reader S1 r1 A E s1 l H1) as (n1 & E1). destruct (C20_any_reader S2 r2 A E s2 l H2) as (n2 & E2).
  exists (max n1 n2). intros fuel Hf. rewrite E1, E2 by lia. split; [reflexivity|discriminate].
Qed.

(** * Readers *)
(** Delivers a list of chunks one by one (cut to the size asked for), an empty
    chunk being an empty read, and io.EOF with the last byte ([eager]) or after it. *)
Definition chunk_read (eager : bool) (n : nat) (s : list (list byte)) : list byte * option rderr * list (list byte) :=
  match s with
  | [] => ([], Some RdEOF, [])
  | c :: t =>
      if Nat.leb (length c) n
      then (c, match t with [] => if eager then Some RdEOF else None | _ => None end, t)
      else (firstn n c, None, skipn n c :: t)
  end.
Lemma chunk_ended eager : ended (chunk_read eager) [].
Proof. cofix IH. constructor. intros n Hn. exists RdEOF, []. split; [reflexivity|exact IH]. Qed.

Fixpoint empties (s : list (list byte)) : nat :=
  match s with [] :: t => Datatypes.S (empties t) | _ => 0 end.
Definition few_empties (s : list (list byte)) : Prop := forall a b, s = a ++ b -> empties b <= 99.
Lemma few_tail c t : few_empties (c :: t) -> few_empties t.
Proof. intros H a b ->. apply (H (c :: a) b). reflexivity. Qed.

Lemma chunk_delivers eager : forall k s, length (concat s) + length s <= k -> few_empties s ->
  forall g, empties s <= g -> delivers (chunk_read eager) g s (concat s).
Proof.
  induction k as [|k IH]; intros s Hk Hf g Hg.
  - destruct s; [|cbn in Hk; lia]. constructor. intros n Hn. exists [], (Some RdEOF), [], []. cbn. split; [reflexivity|]. split; [lia|].
    split; [reflexivity|]. left. split; [discriminate|]. split; [reflexivity|]. apply chunk_ended.
  - destruct s as [|c t].
    + constructor. intros n Hn. exists [], (Some RdEOF), [], []. cbn. split; [reflexivity|]. split; [lia|].
      split; [reflexivity|]. left. split; [discriminate|]. split; [reflexivity|]. apply chunk_ended.
    + constructor. intros n Hn. cbn [chunk_read concat]. destruct (Nat.leb (length c) n) eqn:Hle.
      * apply Nat.leb_le in Hle.
        destruct (match t with [] => eager | _ => false end) eqn:Hlast.
        -- destruct t; [|discriminate]. subst eager. exists c, (Some RdEOF), [], []. split; [reflexivity|]. split; [assumption|].
           split; [reflexivity|]. left. split; [discriminate|]. split; [reflexivity|]. apply chunk_ended.
        -- exists c, None, t, (concat t). split; [destruct t; [rewrite Hlast|]; reflexivity|]. split; [assumption|]. split; [reflexivity|].
           right. cbn [concat length] in Hk. rewrite app_length in Hk.
           destruct c as [|x c].
           ++ right. split; [reflexivity|]. split; [reflexivity|]. cbn [empties] in Hg. destruct g as [|g]; [lia|]. exists g.
              split; [reflexivity|]. apply IH; [lia|now apply few_tail in Hf|lia].
           ++ left. split; [reflexivity|]. split; [discriminate|]. apply IH; [lia|now apply few_tail in Hf|]. apply (Hf [x :: c] t). reflexivity.
      * apply Nat.leb_gt in Hle. exists (firstn n c), None, (skipn n c :: t), (skipn n c ++ concat t).
        split; [reflexivity|]. split; [rewrite firstn_length; lia|]. split; [rewrite app_assoc, firstn_skipn; reflexivity|].
        assert (Hc : forall t', empties (skipn n c :: t') = 0).
        { intros t'. assert (Hl : length (skipn n c) <> 0) by (rewrite skipn_length; lia). destruct (skipn n c); [cbn in Hl; lia|reflexivity]. }
        right. left. split; [reflexivity|]. split. { destruct n, c; cbn in *; try lia; discriminate. }
        change (skipn n c ++ concat t) with (concat (skipn n c :: t)). apply IH; [|intros a b Hab|].
        -- cbn [concat length] in Hk |- *. rewrite app_length in Hk |- *. rewrite skipn_length. lia.
        -- destruct a as [|a0 a].
           ++ cbn in Hab. subst b. rewrite Hc. lia.
           ++ injection Hab as <- ->. apply (Hf (c :: a) b). reflexivity.
        -- rewrite Hc. lia.
Qed.

(** The one-byte file of PropFile in single bytes with empty reads in between, and as a whole with EOF. *)
Definition dribble : list (list byte) := flat_map (fun b => [[]; [b]; []]) (file one_byte_text one_byte_data).
Example C20_case : delivers (chunk_read false) 99 dribble (file one_byte_text one_byte_data) /\
  delivers (chunk_read true) 99 [file one_byte_text one_byte_data] (file one_byte_text one_byte_data).
Proof.
  assert (Hd : forall l, few_empties (flat_map (fun b => [[]; [b]; []]) l : list (list byte))).
  { intros l a b. revert a. induction l as [|x l IH]; intros a Hab.
    - destruct a, b; try discriminate. cbn. lia.
    - cbn in Hab. destruct a as [|a0 a]; cbn in Hab; [subst b; cbn; lia|]. injection Hab as _ Hab.
      destruct a as [|a1 a]; cbn in Hab; [subst b; cbn; lia|]. injection Hab as _ Hab.
      destruct a as [|a2 a]; cbn in Hab; [subst b; cbn; destruct l; cbn; lia|]. injection Hab as _ Hab. eapply IH; eauto. }
  split.
  - replace (file one_byte_text one_byte_data) with (concat dribble) at 2.
    + eapply chunk_delivers; [reflexivity|apply Hd|]. cbn. lia.
    + unfold dribble. generalize (file one_byte_text one_byte_data). induction l as [|x l IH]; cbn; congruence.
  - replace (file one_byte_text one_byte_data) with (concat [file one_byte_text one_byte_data]) at 2 by (cbn [concat]; apply app_nil_r).
    eapply chunk_delivers; [reflexivity| |cbn; lia].
    intros a b Hab. destruct a as [|a0 a]; cbn in Hab; [subst b; cbn; lia|]. injection Hab as _ Hab. destruct a, b; try discriminate. cbn. lia.
Qed.

(** A stalling reader: the chunks, then empty reads for ever. *)
Definition stall_read (n : nat) (s : list (list byte)) : list byte * option rderr * list (list byte) :=
  match s with
  | [] => ([], None, [])
  | c :: t => if Nat.leb (length c) n then (c, None, t) else (firstn n c, None, skipn n c :: t)
  end.
Lemma stall_stalled : stalled stall_read [].
Proof. cofix IH. constructor. intros n Hn. exists []. split; [reflexivity|exact IH]. Qed.
Lemma stall_delivers : forall k c, length c <= k -> c <> [] -> forall g, delivers_then_stalls stall_read g [c] c.
Proof.
  induction k as [|k IH]; intros c Hk Hc g; [destruct c; cbn in Hk; [congruence|lia]|].
  apply is_before_stall. intros n Hn. cbn [stall_read]. destruct (Nat.leb (length c) n) eqn:Hle.
  - apply Nat.leb_le in Hle. exists c, [], []. split; [reflexivity|]. split; [assumption|]. split; [symmetry; apply app_nil_r|].
    left. split; [assumption|]. apply is_at_stall. apply stall_stalled.
  - apply Nat.leb_gt in Hle. exists (firstn n c), [skipn n c], (skipn n c). split; [reflexivity|]. split; [rewrite firstn_length; lia|].
    split; [symmetry; apply firstn_skipn|]. left. split.
    + destruct n, c; cbn in *; try lia; discriminate.
    + apply IH; [rewrite skipn_length; lia|]. intros Hs. assert (Hl : length (skipn n c) = 0) by now rewrite Hs. rewrite skipn_length in Hl. lia.
Qed.
Example C20_stall_case M E : exists s l c, delivers_then_stalls stall_read 99 s l /\
  new_composite (arith64 M) E l = Failure EReadSingleByte c.
Proof.
  exists [file one_byte_text [Byte.x00; Byte.x01]], (file one_byte_text [Byte.x00; Byte.x01]). eexists. split.
  - eapply stall_delivers; [reflexivity|]. vm_compute. discriminate.
  - vm_compute. reflexivity.
Qed.
Print Assumptions C20_any_reader.
Print Assumptions C20_stalling_reader.
Print Assumptions C20_two_readers.
