(** C71: NewComposites on a tar reader gives what NewComposite gives for the entries. *)
From Verif Require Import GoBase GoFloat Catalog Composite Header Data Projection Radolan Bufio Spec SpecHeader SpecWriter SpecReader SpecArchive TarReader SpecTar
  BaseFacts PropReader PropHeader PropArchive.
From Coq Require Import Permutation.
Local Open Scope nat_scope.

Section Reached.
Variable S : Type.
Variable read : nat -> S -> list byte * option rderr * S.
Variable size : nat.
Variable s0 : S.
Notation bufrd := (bufrd S).
Notation ok b := (reached read s0 (b_src b)).

Lemma reached_read n s d e s' : reached read s0 s -> read n s = (d, e, s') -> reached read s0 s'.
Proof. intros H Hr. pose proof (reached_more S read s0 s n H) as M. now rewrite Hr in M. Qed.

Lemma fill_reached : forall i b, ok b -> ok (fill_loop S read size i b).
Proof.
  induction i as [|i IH]; intros b H; cbn [fill_loop]; [exact H|].
  destruct (read _ _) as [[d e] s'] eqn:Hr. pose proof (reached_read _ _ _ _ _ H Hr) as H'.
  destruct e; [exact H'|]. destruct d; [apply IH|]; exact H'.
Qed.

Lemma slice_reached d fuel : forall s b x e b', ok b -> slice_loop S read size fuel d s b = Some (x, e, b') -> ok b'.
Proof.
  induction fuel as [|fuel IH]; intros s b x e b' H; cbn [slice_loop]; destruct (index_byte d _); try (intros [= <- <- <-]; exact H).
  - destruct (b_err b); [intros [= <- <- <-]; exact H|]. destruct (Nat.leb _ _); [intros [= <- <- <-]; exact H|discriminate].
  - destruct (b_err b); [intros [= <- <- <-]; exact H|]. destruct (Nat.leb _ _); [intros [= <- <- <-]; exact H|].
    apply IH. now apply fill_reached.
Qed.

Lemma bytes_reached d fuel : forall b x e b', ok b -> read_bytes S read size fuel d b = Some (x, e, b') -> ok b'.
Proof.
  induction fuel as [|fuel IH]; intros b x e b' H; cbn [read_bytes]; [discriminate|].
  destruct (read_slice S read size (Datatypes.S fuel) d b) as [[[f [[|k]|]] b1]|] eqn:Hs; try discriminate.
  - destruct (read_bytes S read size fuel d b1) as [[[l e1] b2]|] eqn:Hb; [|discriminate]. intros [= <- <- <-].
    eapply IH; [|exact Hb]. eapply slice_reached; [exact H|exact Hs].
  - intros [= <- <- <-]. eapply slice_reached; [exact H|exact Hs].
  - intros [= <- <- <-]. eapply slice_reached; [exact H|exact Hs].
Qed.

Lemma buf_read_reached n b x e b' : ok b -> buf_read S read size n b = (x, e, b') -> ok b'.
Proof.
  intros H. unfold buf_read. destruct n.
  - destruct (b_buf b); intros [= <- <- <-]; exact H.
  - destruct (b_buf b); [|intros [= <- <- <-]; exact H]. destruct (b_err b); [intros [= <- <- <-]; exact H|].
    destruct (Nat.leb _ _).
    + destruct (read _ _) as [[d k] s'] eqn:Hr. intros [= <- <- <-]. exact (reached_read _ _ _ _ _ H Hr).
    + destruct (read _ _) as [[d k] s'] eqn:Hr. pose proof (reached_read _ _ _ _ _ H Hr) as H'. destruct d; intros [= <- <- <-]; exact H'.
Qed.

Lemma full_reached fuel : forall n got b x e b', ok b -> full_loop S read size fuel n got b = Some (x, e, b') -> ok b'.
Proof.
  induction fuel as [|fuel IH]; intros n got b x e b' H; cbn [full_loop]; destruct (Nat.leb n _); try (intros [= <- <- <-]; exact H); try discriminate.
  destruct (buf_read S read size _ b) as [[d k] b1] eqn:Hb. pose proof (buf_read_reached _ _ _ _ _ H Hb) as H'.
  destruct k; [|intros Hf; eapply IH; [exact H'|exact Hf]]. destruct (Nat.leb n _); intros [= <- <- <-]; exact H'.
Qed.

Section Composite.
Variable A : arith.
Variable E : goenv.
Variable fuel : nat.
Notation T := (num A).

Lemma rows_reached rd eread decode row : (forall b x e b', ok b -> rd b = Some (x, e, b') -> ok b') ->
  forall n i (c : composite T) b c' b', ok b -> row_loop_rd S A rd eread decode row n i c b = Some (Value (c', b')) -> ok b'.
Proof.
  intros Hrd. induction n as [|n IH]; intros i c b c' b' H; cbn [row_loop_rd]; [intros [= <- <-]; exact H|].
  destruct (rd b) as [[[line [e|]] b1]|] eqn:Hb; try discriminate. pose proof (Hrd _ _ _ _ H Hb) as H'.
  destruct (index _ _) as [dst|]; [|discriminate].
  destruct (decode dst line) as [d'|e d'|]; try discriminate; destruct (assign _ _ _); try discriminate. now apply IH.
Qed.

Lemma encoding_reached k (c : composite T) b c' b' : ok b ->
  parse_encoding_rd S read size A fuel k c b = Some (Value (c', b')) -> ok b'.
Proof.
  intros H. destruct k; cbn [parse_encoding_rd]; [| | |discriminate].
  - unfold parse_runlength_rd. apply rows_reached; [|exact H]. intros b0 x e b1 H0. unfold read_line_runlength_rd.
    destruct (read_bytes S read size fuel _ b0) as [[[l k] b2]|] eqn:Hb; [|discriminate]. intros [= <- <- <-].
    eapply bytes_reached; [exact H0|exact Hb].
  - unfold parse_little_endian_rd. cbv zeta. destruct (c_plain c) as [|r rs], (make 1 Byte.x00 (int_wrap (c_dx c * 2))); try discriminate;
      (apply rows_reached; [|exact H]; intros b0 x e b1 H0; apply full_reached; exact H0).
  - unfold parse_single_byte_rd. cbv zeta. destruct (c_plain c) as [|r rs], (make 1 Byte.x00 (c_dx c)); try discriminate;
      (apply rows_reached; [|exact H]; intros b0 x e b1 H0; apply full_reached; exact H0).
Qed.

Lemma data_reached (c : composite T) b c' b' : ok b -> parse_data_rd S read size A fuel c b = Some (Value (c', b')) -> ok b'.
Proof.
  intros H. unfold parse_data_rd. destruct (_ || _); [discriminate|]. destruct (make 24 ([] : list f32) (c_py c)) as [rows|]; [|discriminate].
  destruct rows, (make 4 (S754_zero false : f32) (c_px c)); cbv zeta; try discriminate; now apply encoding_reached.
Qed.

Lemma composite_reached b r b' : ok b -> new_composite_on S read size A E fuel b = Some (r, Some b') -> ok b'.
Proof.
  intros H. unfold new_composite_on, parse_header_rd.
  destruct (read_bytes S read size fuel Byte.x03 b) as [[[line [e|]] b1]|] eqn:Hb; try discriminate.
  pose proof (bytes_reached _ _ _ _ _ _ H Hb) as H1.
  destruct (parse_header_text _ E _ line) as [c|e c|]; cbn [bind]; try discriminate.
  destruct (parse_data_rd S read size A fuel c b1) as [[[c' b2]|e c'|]|] eqn:Hd; try discriminate.
  destruct (arrange_data c'); [|discriminate]. cbv zeta. intros [= <- <-]. eapply data_reached; [exact H1|exact Hd].
Qed.

Lemma composite_leaves b c o : new_composite_on S read size A E fuel b = Some (Value c, o) -> exists b', o = Some b'.
Proof.
  unfold new_composite_on. destruct (parse_header_rd _ _ _ _ _ _ _ b) as [[[c1 b1]|e c1|]|]; try discriminate.
  destruct (parse_data_rd _ _ _ _ _ _ _) as [[[c2 b2]|e c2|]|]; try discriminate.
  destruct (arrange_data c2); [|discriminate]. cbv zeta. intros [= _ <-]. eauto.
Qed.
End Composite.
End Reached.

Section Archive.
Variable S : Type.
Variable next : S -> next_result * S.
Variable read : nat -> S -> list byte * option rderr * S.
Variable A : arith.
Variable E : goenv.
Variable sort : (composite (num A) -> composite (num A) -> bool) -> list (composite (num A)) -> list (composite (num A)).

Lemma src_entry s l fuel : delivers read 99 s l -> steps default_buf_size l <= fuel ->
  match new_composite A E l with
  | Value c => exists s', new_composite_src S read A E fuel s = Some (Value c, Some s') /\ reached read s s'
  | r => exists o, new_composite_src S read A E fuel s = Some (r, o)
  end.
Proof.
  intros Hd Hf. pose proof (plain_same S read A E true s l fuel ltac:(now apply feeds_of_delivers) ltac:(unfold enough; unfold steps in Hf; lia)) as H.
  unfold new_composite_rd in H. unfold new_composite_src in *.
  destruct (new_composite_on S read default_buf_size A E fuel (new_reader S s)) as [[r o]|] eqn:Hr; cbn [option_map fst snd] in *.
  - destruct H as [<- _]. destruct r as [c|e c|]; [|eauto|eauto].
    destruct (composite_leaves S read _ A E fuel _ _ _ Hr) as [b' ->]. exists (b_src b'). split; [reflexivity|].
    eapply composite_reached; [|exact Hr]. constructor.
  - destruct H as [H _]. discriminate.
Qed.

Lemma archive_same fuel : forall es clean s, holds_entries next read s es clean ->
  (forall e, In e es -> steps default_buf_size e <= fuel) ->
  forall n cs, length es < n -> archive_loop S next read A E fuel n s cs = Some (read_entries A E es clean cs).
Proof.
  induction es as [|e es IH]; intros clean s H Hf n cs Hn; destruct n as [|n]; try (cbn in Hn; lia); cbn [archive_loop read_entries].
  - inversion H; subst; destruct (next s) as [k s']; cbn [fst] in *; subst; reflexivity.
  - inversion H as [| |? s1 ? ? ? Hnx Hd Hrest]; subst. rewrite Hnx.
    pose proof (src_entry s1 e fuel Hd (Hf e (or_introl eq_refl))) as Hs.
    destruct (new_composite A E e) as [c|er c|].
    + destruct Hs as (s2 & -> & Hr). apply IH; [now apply Hrest|intros x Hx; apply Hf; now right|cbn in Hn; lia].
    + destruct Hs as [o ->]. reflexivity.
    + destruct Hs as [o ->]. reflexivity.
Qed.

(** C71: on a tar reader that holds the entries, however it delivers their
    bytes, and although NewComposite leaves it somewhere within each entry,
    NewComposites returns what the entries' bytes give; all loops end. *)
Theorem C71_archive_reader s es clean : holds_entries next read s es clean ->
  exists n, forall fuel count, n <= fuel -> n <= count ->
    new_composites_rd S next read A E sort fuel count s = Some (new_composites A E sort (mk_archive es clean)).
Proof.
  intros H. exists (fold_right (fun e k => steps default_buf_size e + k) (Datatypes.S (length es)) es). intros fuel count Hf Hc.
  assert (B : length es < fold_right (fun e k => steps default_buf_size e + k) (Datatypes.S (length es)) es).
  { generalize (length es) as m. intros m. induction es as [|e l IH]; cbn [fold_right]; [lia|]. 
    assert (m < fold_right (fun e k => steps default_buf_size e + k) (Datatypes.S m) l); [|lia].
    clear. induction l; cbn [fold_right]; lia. }
  assert (F : forall e, In e es -> steps default_buf_size e <= fold_right (fun e k => steps default_buf_size e + k) (Datatypes.S (length es)) es).
  { generalize (Datatypes.S (length es)) as m. intros m. clear. induction es as [|e l IH]; intros x Hx; [destruct Hx|].
    cbn [fold_right]. destruct Hx as [<-|Hx]; [lia|]. specialize (IH x Hx). lia. }
  unfold new_composites_rd, new_composites. cbn [ar_entries ar_clean_end].
  rewrite (archive_same fuel es clean s H ltac:(intros x Hx; specialize (F x Hx); lia) count []) by lia.
  destruct (read_entries A E es clean []); reflexivity.
Qed.
End Archive.

Section Series.
Variable S : Type.
Variable next : S -> next_result * S.
Variable read : nat -> S -> list byte * option rderr * S.
Variable A : arith.
Variable E : goenv.
Variable sort : (composite (num A) -> composite (num A) -> bool) -> list (composite (num A)) -> list (composite (num A)).

(** Written files about different minutes, in any order in the archive: the i-th
    composite holds the i-th in time. *)
Theorem C71_series s entries listed : sort_contract A sort ->
  holds_entries next read s (map e_bytes entries) true -> Forall (fun e => exists tail, well_written e tail) entries ->
  Permutation listed entries -> strictly_in_time listed ->
  exists cs n, Forall2 SpecArchive.holds listed cs /\ forall fuel count, n <= fuel -> n <= count ->
    new_composites_rd S next read A E sort fuel count s = Some (ArchiveOk cs).
Proof.
  intros Hs H F P St. destruct (C67_series A E sort entries listed Hs F P St) as (cs & Hcs & Fh).
  destruct (C71_archive_reader S next read A E sort s _ _ H) as (n & Hn). exists cs, n. split; [exact Fh|].
  intros fuel count H1 H2. rewrite (Hn fuel count H1 H2), Hcs. reflexivity.
Qed.

(** The archive breaks off within the data of an entry: an error. *)
Theorem C71_broken_off s entries e tail k after clean : Forall (fun e => exists tail, well_written e tail) entries ->
  well_written e tail -> k + length tail < length (e_bytes e) ->
  holds_entries next read s (map e_bytes entries ++ firstn k (e_bytes e) :: after) clean ->
  exists err n, forall fuel count, n <= fuel -> n <= count ->
    new_composites_rd S next read A E sort fuel count s = Some (ArchiveErr err).
Proof.
  intros F We Hk H. destruct (C67_damaged A E sort entries e tail k after clean F We Hk) as (err & Herr & _).
  destruct (C71_archive_reader S next read A E sort s _ _ H) as (n & Hn). exists err, n.
  intros fuel count H1 H2. rewrite (Hn fuel count H1 H2), Herr. reflexivity.
Qed.

(** It breaks off between entries (or within the unread rest of one): an error. *)
Theorem C71_no_end s entries : Forall (fun e => exists tail, well_written e tail) entries ->
  holds_entries next read s (map e_bytes entries) false ->
  exists n, forall fuel count, n <= fuel -> n <= count ->
    new_composites_rd S next read A E sort fuel count s = Some (ArchiveErr EArchive).
Proof.
  intros F H. pose proof (C67_broken_off A E sort entries F) as Herr.
  destruct (C71_archive_reader S next read A E sort s _ _ H) as (n & Hn). exists n.
  intros fuel count H1 H2. rewrite (Hn fuel count H1 H2), Herr. reflexivity.
Qed.
End Series.

(** *** A tar reader that holds entries: the chunks left of the current entry,
    the entries to come (as chunks), whether the end is regular. *)
Definition tar_state := (list (list byte) * list (list (list byte)) * bool)%type.
Definition tar_next (s : tar_state) : next_result * tar_state :=
  match s with
  | (_, e :: rest, clean) => (NextEntry, (e, rest, clean))
  | (cur, [], clean) => (if clean then NextEOF else NextErr, (cur, [], clean))
  end.
Definition tar_read (eager : bool) (n : nat) (s : tar_state) : list byte * option rderr * tar_state :=
  let '(cur, rest, clean) := s in
  let '(d, e, cur') := chunk_read eager n cur in (d, e, (cur', rest, clean)).

Lemma tar_reached eager cur rest clean s' : reached (tar_read eager) (cur, rest, clean) s' -> exists cur', s' = (cur', rest, clean).
Proof.
  intros H. remember (cur, rest, clean) as s0 eqn:E0. induction H as [s|s s' n H IH]; [eauto|].
  destruct (IH E0) as (c' & ->). unfold tar_read. destruct (chunk_read eager n c') as [[d e] c2]. cbn. eauto.
Qed.
Lemma tar_ended eager rest clean : forall cur, ended (chunk_read eager) cur -> ended (tar_read eager) (cur, rest, clean).
Proof.
  cofix CIH. intros cur H. inversion H as [s Hs]; subst. constructor. intros n Hn. destruct (Hs n Hn) as (e & s' & Hr & He).
  exists e, (s', rest, clean). split; [unfold tar_read; now rewrite Hr|]. now apply CIH.
Qed.
Lemma tar_delivers eager rest clean : forall g cur l, delivers (chunk_read eager) g cur l -> delivers (tar_read eager) g (cur, rest, clean) l.
Proof.
  fix IH 4. intros g cur l H. destruct H as [g cur l H]. constructor. intros n Hn.
  destruct (H n Hn) as (d & e & s' & l' & Hr & Hl & El & D). exists d, e, (s', rest, clean), l'.
  split; [unfold tar_read; now rewrite Hr|]. split; [exact Hl|]. split; [exact El|].
  destruct D as [(D1 & D2 & D3)|[(D1 & D2 & D3)|(D1 & D2 & g' & Eg & D3)]].
  - left. split; [exact D1|]. split; [exact D2|]. now apply tar_ended.
  - right. left. split; [exact D1|]. split; [exact D2|]. now apply IH.
  - right. right. split; [exact D1|]. split; [exact D2|]. exists g'. split; [exact Eg|]. now apply IH.
Qed.
Lemma tar_holds eager clean : forall es cur, Forall few_empties es -> holds_entries tar_next (tar_read eager) (cur, es, clean) (map (@concat byte) es) clean.
Proof.
  induction es as [|e es IH]; intros cur F; cbn [map].
  - destruct clean; constructor; reflexivity.
  - inversion F as [|? ? Fe Fr]; subst. eapply holds_entry; [reflexivity| |].
    + apply tar_delivers. eapply chunk_delivers; [reflexivity|exact Fe|]. apply (Fe []). reflexivity.
    + intros s2 H2. apply tar_reached in H2 as (c2 & ->). now apply IH.
Qed.

(** A series of three, delivered byte by byte, every byte followed by an empty
    Read; the archive gives the forecasts for 60, 5 and 0 minutes. *)
Definition drops (l : list byte) : list (list byte) := flat_map (fun b => [[b]; []]) l.
Lemma drops_concat l : concat (drops l) = l.
Proof. induction l as [|b l IH]; [reflexivity|]. cbn. now f_equal. Qed.
Lemma drops_few l : few_empties (drops l).
Proof.
  intros a b. revert a. induction l as [|x l IH]; intros a Hab.
  - destruct a, b; try discriminate. cbn. lia.
  - cbn in Hab. destruct a as [|a0 a]; cbn in Hab; [subst b; cbn; lia|]. injection Hab as _ Hab.
    destruct a as [|a1 a]; cbn in Hab; [subst b; cbn; destruct l; cbn; lia|]. injection Hab as _ Hab. eapply IH; eauto.
Qed.
Definition dripping (l : list (list byte)) (clean : bool) : tar_state := ([], map drops l, clean).
Lemma dripping_holds eager l clean : holds_entries tar_next (tar_read eager) (dripping l clean) l clean.
Proof.
  unfold dripping. rewrite <- (map_id l) at 2. rewrite (map_ext id (fun x => concat (drops x))) by (intros; now rewrite drops_concat).
  rewrite <- (map_map drops (@concat byte)). apply tar_holds. apply Forall_forall. intros x Hx. apply in_map_iff in Hx as (y & <- & _). apply drops_few.
Qed.

Example C71_case A E : exists cs n, Forall2 SpecArchive.holds (map forecast_entry [0; 5; 60]%Z) cs /\ forall fuel count, n <= fuel -> n <= count ->
  new_composites_rd _ tar_next (tar_read true) A E insertion_sort fuel count (dripping (map e_bytes (map forecast_entry [60; 5; 0]%Z)) true) = Some (ArchiveOk cs).
Proof.
  apply C71_series with (entries := map forecast_entry [60; 5; 0]%Z).
  - apply insertion_sort_contract.
  - apply dripping_holds.
  - apply Forall_forall. intros e He. apply in_map_iff in He as (s & <- & Hs). exists []. now apply forecast_written.
  - apply Permutation_map. change [60; 5; 0]%Z with ([60] ++ [5; 0])%Z. transitivity ([5; 0] ++ [60])%Z; [apply perm_swap|apply Permutation_app_comm].
  - intros i j a b Hij Ha Hb. destruct i as [|[|[|i]]], j as [|[|[|j]]]; try lia; cbn in Ha, Hb;
      try (destruct i; discriminate); try (destruct j; discriminate); injection Ha as <-; injection Hb as <-; vm_compute; reflexivity.
Qed.
Example C71_case_broken A E : exists err n, forall fuel count, n <= fuel -> n <= count ->
  new_composites_rd _ tar_next (tar_read false) A E insertion_sort fuel count
    (dripping (map e_bytes [forecast_entry 60] ++ [firstn 60 (e_bytes (forecast_entry 5))]) false) = Some (ArchiveErr err).
Proof.
  apply C71_broken_off with (entries := [forecast_entry 60]) (e := forecast_entry 5) (tail := []) (k := 60) (after := []) (clean := false).
  - constructor; [|constructor]. exists []. apply forecast_written. now left.
  - apply forecast_written. right. now left.
  - vm_compute. lia.
  - apply dripping_holds.
Qed.
Print Assumptions C71_archive_reader.
Print Assumptions C71_series.
Print Assumptions C71_broken_off.
Print Assumptions C71_no_end.
