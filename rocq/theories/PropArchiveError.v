(** C75: the message of an error of NewComposites. *)
From Verif Require Import GoBase GoFloat Catalog Composite Header Data Projection Radolan Bufio ErrorText ReadError
  SpecReader SpecReadError TarReader ArchiveError BaseFacts Spec SpecHeader SpecData SpecText HeaderMeaning ApiFacts FileFacts DefectFacts PropHeader PropData PropFile PropReader PropText PropReadError PropTar SpecTar SpecArchiveError.
From Coq Require String. Import String.StringSyntax.
Local Open Scope nat_scope.

Section ArchiveMessage.
Variable S : Type.
Variable next : S -> next_result * S.
Variable next_error : S -> list byte.
Variable read : nat -> S -> list byte * option rderr * S.
Variable A : arith.
Variable E : goenv.
Variable parse_error : error -> list byte -> list byte.
Variable other : Z -> list byte.
Notation size := default_buf_size.
(** The message on a tar reader, and the message of NewComposite on bytes. *)
Notation archive_message := (fun fuel count s => composites_error_rd S next next_error read A E fuel parse_error other count s).
Notation message := (composite_error A E (fun e input => parse_error e (header_of input))).
Notation accepted := (fun e => exists c, new_composite A E e = Value c).

(** After the accepted entries the message is decided at the spot. *)
Lemma up_to fuel : forall good p s, entries_up_to next next_error read s good p -> Forall accepted good ->
  (forall e, In e good -> steps size e <= fuel) ->
  forall n, length good < n -> exists s', entries_up_to next next_error read s' [] p /\
    archive_message fuel n s = archive_message fuel (n - length good) s'.
Proof.
  induction good as [|e good IH]; intros p s H Hg Hf n Hn.
  - exists s. split; [exact H|]. cbn. now rewrite Nat.sub_0_r.
  - inversion H as [| |? s1 ? ? ? Hnx Hd Hrest]; subst. inversion Hg as [|? ? [c Hc] Hg']; subst.
    pose proof (src_entry S next read A E s1 e fuel Hd (Hf e (or_introl eq_refl))) as Hs. rewrite Hc in Hs. destruct Hs as (s2 & Hs & Hr).
    destruct n as [|n]; [cbn in Hn; lia|].
    destruct (IH p s2 (Hrest s2 Hr) Hg' (fun x Hx => Hf x (or_intror Hx)) n ltac:(cbn in Hn; lia)) as (s' & Hs' & Hm).
    exists s'. split; [exact Hs'|]. cbn [length Nat.sub]. rewrite <- Hm. cbn [composites_error_rd]. now rewrite Hnx, Hs.
Qed.

Lemma enough_fuel (good : list (list byte)) : exists n, forall e, In e good -> steps size e <= n.
Proof.
  induction good as [|e good [n IH]]; [exists 0; intros e []|]. exists (steps size e + n). intros x [->|Hx]; [lia|]. specialize (IH x Hx). lia.
Qed.

(** At an entry that is not accepted. *)
Lemma at_entry l x e0 c0 fuel n s : entries_up_to next next_error read s [] (InEntry l x) -> 0 < n -> steps size l <= fuel ->
  new_composite A E l = Failure e0 c0 ->
  exists s1, delivers_then read x 99 s1 l /\ archive_message fuel n s = composite_error_rd S read A E fuel parse_error other s1.
Proof.
  intros H Hn Hf Hc. inversion H as [|? s1 ? ? Hnx Hd|]; subst. exists s1. split; [exact Hd|]. destruct n as [|n]; [lia|].
  cbn [composites_error_rd]. rewrite Hnx.
  pose proof (src_entry S next read A E s1 l fuel (delivers_of_then S read _ _ _ _ Hd) Hf) as Hs. rewrite Hc in Hs.
  destruct Hs as [o ->]. reflexivity.
Qed.

Lemma decided good l x e0 c0 s : entries_up_to next next_error read s good (InEntry l x) -> Forall accepted good ->
  new_composite A E l = Failure e0 c0 ->
  exists n, forall fuel count, n <= fuel -> n <= count ->
    steps size l <= fuel /\
    exists s1, delivers_then read x 99 s1 l /\ archive_message fuel count s = composite_error_rd S read A E fuel parse_error other s1.
Proof.
  intros H Hg Hc. destruct (enough_fuel good) as [m Hm]. exists (m + length good + 1 + steps size l). intros fuel count Hf Hn.
  split; [lia|].
  destruct (up_to fuel good _ s H Hg ltac:(intros e He; specialize (Hm e He); lia) count ltac:(lia)) as (s' & Hs' & Hmsg).
  destruct (at_entry l x e0 c0 fuel (count - length good) s' Hs' ltac:(lia) ltac:(lia) Hc) as (s1 & Hd & He).
  exists s1. split; [exact Hd|]. rewrite <- He. exact Hmsg.
Qed.

(** ** C75 *)
(** The first entry that NewComposite does not accept decides: its message is
    returned as it is. *)
Theorem C75_bad_entry s good l e c : entries_up_to next next_error read s good (InEntry l RdEOF) -> Forall accepted good ->
  new_composite A E l = Failure e c ->
  exists n, forall fuel count, n <= fuel -> n <= count -> archive_message fuel count s = Some (message l).
Proof.
  intros H Hg Hc. destruct (decided good l RdEOF e c s H Hg Hc) as [n Hn]. exists n. intros fuel count Hf Hk.
  destruct (Hn fuel count Hf Hk) as (Hst & s1 & Hd & ->). now apply (eof_steps S read A E parse_error other s1 l Hd).
Qed.

(** The archive breaks down with x within the data of an entry. *)
Theorem C75_broken_data s good l x text data (c : composite (num A)) e : x <> RdEOF ->
  entries_up_to next next_error read s good (InEntry l x) -> Forall accepted good ->
  file_layout l text data -> header_meaning E text c ->
  In e [EReadRunlength; EReadLittleEndian; EReadSingleByte] -> data_defect E text data (c_px c) (c_py c) e ->
  exists n, forall fuel count, n <= fuel -> n <= count ->
    archive_message fuel count s = Some (Some (message_start e ++ reader_error_text other x)).
Proof.
  intros Hx H Hg Hl Hm Hin Hdef.
  destruct (proj2 (C50_data_error A E l text data c e Hl Hm ltac:(intros ->; cbn in Hin; intuition discriminate)) Hdef) as [c' Hc].
  destruct (decided good l x e c' s H Hg Hc) as [n Hn]. exists n. intros fuel count Hf Hk.
  destruct (Hn fuel count Hf Hk) as (Hst & s1 & Hd & ->). now apply (read_error_steps S read A E parse_error other s1 l x text data c e).
Qed.

(** The archive breaks down within the header of an entry. *)
Theorem C75_broken_header s good l x : entries_up_to next next_error read s good (InEntry l x) -> Forall accepted good -> ~ In Byte.x03 l ->
  exists n, forall fuel count, n <= fuel -> n <= count ->
    archive_message fuel count s = Some (Some (bs "radolan.parseHeader: header corrupted: too short")).
Proof.
  intros H Hg Hl. destruct (C49_no_delimiter A E l Hl) as [c Hc].
  destruct (decided good l x _ c s H Hg Hc) as [n Hn]. exists n. intros fuel count Hf Hk.
  destruct (Hn fuel count Hf Hk) as (Hst & s1 & Hd & ->). now apply (in_header_steps S read A E parse_error other s1 l x).
Qed.

(** The archive breaks down between the entries: the error of the tar reader
    is returned as it is. *)
Theorem C75_between s good text : entries_up_to next next_error read s good (AtNext text) -> Forall accepted good ->
  exists n, forall fuel count, n <= fuel -> n <= count -> archive_message fuel count s = Some (Some text).
Proof.
  intros H Hg. destruct (enough_fuel good) as [m Hm]. exists (m + length good + 1). intros fuel count Hf Hn.
  destruct (up_to fuel good _ s H Hg ltac:(intros e He; specialize (Hm e He); lia) count ltac:(lia)) as (s' & Hs' & ->).
  inversion Hs' as [? Hnx| |]; subst. destruct (count - length good) as [|k] eqn:Hk; [lia|]. cbn [composites_error_rd].
  destruct (next s') as [r s2]. cbn [fst] in Hnx. now subst.
Qed.

(** One entry of unknown unit spoils the archive. *)
Theorem C75_unknown_unit s good l c : entries_up_to next next_error read s good (InEntry l RdEOF) -> Forall accepted good ->
  new_composite A E l = Failure ErrUnknownUnit c ->
  exists n, forall fuel count, n <= fuel -> n <= count ->
    archive_message fuel count s = Some (Some (bs "radolan.NewComposite: data unit not defined in catalog. data values can be incorrect")).
Proof.
  intros H Hg Hc. destruct (C75_bad_entry s good l _ c H Hg Hc) as [n Hn]. exists n. intros fuel count Hf Hk.
  rewrite (Hn fuel count Hf Hk). unfold composite_error. rewrite Hc. reflexivity.
Qed.

(** On any archive there is a message exactly if an error is returned. *)
Theorem C75_message_iff_error sort s es clean : holds_entries next read s es clean ->
  exists n, forall fuel count, n <= fuel -> n <= count ->
  match new_composites A E sort (mk_archive es clean) with
  | ArchiveErr _ => exists m, archive_message fuel count s = Some (Some m)
  | _ => archive_message fuel count s = Some None
  end.
Proof.
  intros H. destruct (enough_fuel es) as [m Hm]. exists (m + length es + 1). intros fuel count Hf Hn.
  assert (Hs : forall e, In e es -> steps size e <= fuel) by (intros e He; specialize (Hm e He); lia).
  assert (Hc : length es < count) by lia. clear m Hm Hf Hn.
  assert (G : forall cs, match read_entries A E es clean cs with
    | ArchiveErr _ => exists m, archive_message fuel count s = Some (Some m)
    | _ => archive_message fuel count s = Some None
    end).
  { revert clean s H count Hs Hc. induction es as [|e es IH]; intros clean s H count Hs Hc cs; (destruct count as [|n]; [cbn in Hc; lia|]);
      cbn [read_entries composites_error_rd].
    - inversion H; subst; destruct (next s) as [k s']; cbn [fst] in *; subst; eauto.
    - inversion H as [| |? s1 ? ? ? Hnx Hd Hrest]; subst. rewrite Hnx.
      pose proof (src_entry S next read A E s1 e fuel Hd (Hs e (or_introl eq_refl))) as Hsrc.
      destruct (new_composite A E e) as [c|er c|] eqn:He.
      + destruct Hsrc as (s2 & -> & Hr). apply IH; [now apply Hrest|intros x Hx; apply Hs; now right|cbn in Hc; lia].
      + destruct Hsrc as [o Ho]. rewrite Ho. unfold composite_error_rd, new_composite_rd. rewrite Ho. cbn.
        rewrite message_form by (intros ->; now apply (proj2 (proj2 (C50_never A E e c)))). eauto.
      + destruct Hsrc as [o ->]. reflexivity. }
  specialize (G []). unfold new_composites. cbn [ar_entries ar_clean_end]. destruct (read_entries A E es clean []); exact G.
Qed.
End ArchiveMessage.

(** *** Cases: a tar reader on entries, each with the error after its bytes;
    after the last one Next reports "unexpected EOF". *)
Definition cut_state := (list byte * rderr * list (list byte * rderr))%type.
Definition cut_next (s : cut_state) : next_result * cut_state :=
  match s with
  | (_, (e, x) :: rest) => (NextEntry, (e, x, rest))
  | (_, []) => (NextErr, s)
  end.
Definition cut_error (s : cut_state) : list byte := bs "unexpected EOF".
Definition cut_read (n : nat) (s : cut_state) : list byte * option rderr * cut_state :=
  let '(l, x, rest) := s in let '(d, e, l') := broken_read x n l in (d, e, (l', x, rest)).

Lemma cut_broken x rest : broken cut_read x ([], x, rest).
Proof. cofix IH. constructor. intros n Hn. exists ([], x, rest). split; [reflexivity|exact IH]. Qed.
Lemma cut_delivers x rest : forall k l g, length l <= k -> delivers_then cut_read x g (l, x, rest) l.
Proof.
  assert (B : forall g, delivers_then cut_read x g ([], x, rest) []) by (intros; apply broken_delivers, cut_broken).
  induction k as [|k IH]; intros l g Hk.
  - destruct l; [apply B|cbn in Hk; lia].
  - destruct l as [|y l]; [apply B|]. constructor. intros n Hn.
    exists (firstn n (y :: l)), None, (skipn n (y :: l), x, rest), (skipn n (y :: l)). split; [reflexivity|]. split; [rewrite firstn_length; lia|].
    split; [symmetry; apply firstn_skipn|]. right; left. split; [reflexivity|]. split; [destruct n; [lia|discriminate]|].
    apply IH. rewrite skipn_length. destruct n; [lia|]. cbn [length] in *. lia.
Qed.
Lemma cut_reached l x rest s' : reached cut_read (l, x, rest) s' -> exists l', s' = (l', x, rest).
Proof.
  intros H. remember (l, x, rest) as s0 eqn:E0. induction H as [s|s s' n H IH]; [eauto|].
  destruct (IH E0) as (l' & ->). unfold cut_read. destruct (broken_read x n l') as [[d e] l2]. cbn. eauto.
Qed.
Lemma cut_up_to p rest : (forall l x, entries_up_to cut_next cut_error cut_read (l, x, rest) [] p) ->
  forall good l x, entries_up_to cut_next cut_error cut_read (l, x, map (fun e => (e, RdEOF)) good ++ rest) good p.
Proof.
  intros Hp. induction good as [|e good IH]; intros l x; [apply Hp|]. eapply one_entry; [reflexivity| |].
  - eapply delivers_of_then, cut_delivers. reflexivity.
  - intros s2 H2. apply cut_reached in H2 as [l' ->]. apply IH.
Qed.
Lemma cut_entry good e ex l x : entries_up_to cut_next cut_error cut_read (l, x, map (fun e => (e, RdEOF)) good ++ [(e, ex)]) good (InEntry e ex).
Proof. apply cut_up_to. intros l' x'. eapply spot_entry; [reflexivity|]. eapply cut_delivers. reflexivity. Qed.
Lemma cut_nothing good l x : entries_up_to cut_next cut_error cut_read (l, x, map (fun e => (e, RdEOF)) good ++ []) good (AtNext (bs "unexpected EOF")).
Proof. apply cut_up_to. intros l' x'. exact (spot_next _ cut_next cut_error cut_read (l', x', []) eq_refl). Qed.

Definition good_file : list byte := file one_byte_text one_byte_data.
Lemma good_accepted M E : Forall (fun e => exists c, new_composite (arith64 M) E e = Value c) [good_file; good_file].
Proof.
  assert (H : exists c, new_composite (arith64 M) E good_file = Value c).
  { destruct (new_composite (arith64 M) E good_file) as [c|e c|] eqn:Hc; [eauto| |]; exfalso; revert Hc; vm_compute; discriminate. }
  repeat constructor; exact H.
Qed.
(** Two files, then one cut off within its data: in the archive, or by the
    archive's own end (error 7). *)
Example C75_case_entry M E pe other : exists n, forall fuel count, n <= fuel -> n <= count ->
  composites_error_rd _ cut_next cut_error cut_read (arith64 M) E fuel pe other count
    ([], RdEOF, [(good_file, RdEOF); (good_file, RdEOF); (file run_text half_lines, RdEOF)]) = Some (Some (bs "radolan.readLineRunlength: EOF")).
Proof.
  destruct (half_lines_defect (arith64 M) E) as (c & Hm & Hf & Hd).
  destruct (proj2 (C50_data_error _ E _ _ _ _ EReadRunlength Hf Hm ltac:(discriminate)) Hd) as [c' Hc].
  destruct (C75_bad_entry _ cut_next cut_error cut_read (arith64 M) E pe other _ _ _ _ _ (cut_entry [good_file; good_file] (file run_text half_lines) RdEOF [] RdEOF) (good_accepted M E) Hc) as [n Hn].
  exists n. intros fuel count H1 H2. etransitivity; [exact (Hn fuel count H1 H2)|]. apply f_equal. now apply (C72_cut_runlength _ E _ _ run_text half_lines c).
Qed.
Example C75_case_broken M E pe : exists n, forall fuel count, n <= fuel -> n <= count ->
  composites_error_rd _ cut_next cut_error cut_read (arith64 M) E fuel pe (fun _ => bs "unexpected EOF") count
    ([], RdEOF, [(good_file, RdEOF); (good_file, RdEOF); (file run_text half_lines, RdOther 7)]) = Some (Some (bs "radolan.readLineRunlength: unexpected EOF")).
Proof.
  destruct (half_lines_defect (arith64 M) E) as (c & Hm & Hf & Hd).
  apply (C75_broken_data _ cut_next cut_error cut_read (arith64 M) E pe (fun _ => bs "unexpected EOF") _ [good_file; good_file] (file run_text half_lines) (RdOther 7) run_text half_lines c EReadRunlength).
  - discriminate.
  - exact (cut_entry [good_file; good_file] (file run_text half_lines) (RdOther 7) [] RdEOF).
  - apply good_accepted.
  - exact Hf.
  - exact Hm.
  - cbn. tauto.
  - exact Hd.
Qed.
Example C75_case_between M E pe other : exists n, forall fuel count, n <= fuel -> n <= count ->
  composites_error_rd _ cut_next cut_error cut_read (arith64 M) E fuel pe other count
    ([], RdEOF, [(good_file, RdEOF); (good_file, RdEOF)]) = Some (Some (bs "unexpected EOF")).
Proof. eapply C75_between; [exact (cut_nothing [good_file; good_file] [] RdEOF)|apply good_accepted]. Qed.
Example C75_case_header M E pe other : exists n, forall fuel count, n <= fuel -> n <= count ->
  composites_error_rd _ cut_next cut_error cut_read (arith64 M) E fuel pe other count
    ([], RdEOF, [(good_file, RdEOF); (good_file, RdEOF); (one_byte_text, RdOther 7)]) = Some (Some (bs "radolan.parseHeader: header corrupted: too short")).
Proof.
  eapply C75_broken_header; [exact (cut_entry [good_file; good_file] one_byte_text (RdOther 7) [] RdEOF)|apply good_accepted|]. vm_compute. intuition discriminate.
Qed.
(** One file of the unknown product ZZ among others. *)
Example C75_case_unit M E pe other : exists n, forall fuel count, n <= fuel -> n <= count ->
  composites_error_rd _ cut_next cut_error cut_read (arith64 M) E fuel pe other count
    ([], RdEOF, [(good_file, RdEOF); (good_file, RdEOF); (file (bs "ZZ282105100000716BY    58VS 3PR E+00INT   5BG002003") one_byte_data, RdEOF)]) =
    Some (Some (bs "radolan.NewComposite: data unit not defined in catalog. data values can be incorrect")).
Proof.
  destruct (new_composite (arith64 M) E (file (bs "ZZ282105100000716BY    58VS 3PR E+00INT   5BG002003") one_byte_data)) as [c|e c|] eqn:Hc;
    [exfalso; revert Hc; vm_compute; discriminate| |exfalso; revert Hc; vm_compute; discriminate].
  assert (He : e = ErrUnknownUnit) by (revert Hc; vm_compute; congruence). subst e.
  eapply C75_unknown_unit; [exact (cut_entry [good_file; good_file] (file (bs "ZZ282105100000716BY    58VS 3PR E+00INT   5BG002003") one_byte_data) RdEOF [] RdEOF)|apply good_accepted|exact Hc].
Qed.
(** No error, no message. *)
Example C75_case_none M E pe other : exists n, forall fuel count, n <= fuel -> n <= count ->
  composites_error_rd _ tar_next (fun _ => []) (tar_read true) (arith64 M) E fuel pe other count (dripping [good_file; good_file] true) = Some None.
Proof.
  pose proof (C75_message_iff_error _ tar_next (fun _ => []) (tar_read true) (arith64 M) E pe other (fun _ l => l) _ _ _ (dripping_holds true [good_file; good_file] true)) as [n Hn].
  exists n. intros fuel count H1 H2. specialize (Hn fuel count H1 H2).
  pose proof (good_accepted M E) as Hg. inversion Hg as [|? ? [c Hc] _]; subst.
  unfold new_composites in Hn. cbn [ar_entries ar_clean_end read_entries app] in Hn. rewrite Hc in Hn. exact Hn.
Qed.
Print Assumptions C75_bad_entry.
Print Assumptions C75_broken_data.
Print Assumptions C75_broken_header.
Print Assumptions C75_between.
Print Assumptions C75_unknown_unit.
Print Assumptions C75_message_iff_error.
