(** C67: archives of written files. *)
From Coq Require Import Lia Permutation Sorted.
From Coq Require String. Import String.StringSyntax.
From Verif Require Import GoBase GoFloat Catalog Composite Header Data Projection Radolan Spec SpecHeader SpecWriter SpecArchive
  BaseFacts ScanFacts CompositeFacts FileFacts ApiFacts WriterFacts RoundTrip PropFile PropHeader.

(** Lists sorted strictly by a key are determined by their elements. *)
Lemma sorted_unique {X} (key : X -> Z) : forall l m : list X, Permutation l m ->
  (forall i j a b, (i < j)%nat -> nth_error l i = Some a -> nth_error l j = Some b -> key a < key b) ->
  (forall i j a b, (i < j)%nat -> nth_error m i = Some a -> nth_error m j = Some b -> key a <= key b) -> l = m.
Proof.
  induction l as [|x l IH]; intros m P L M; [apply Permutation_nil in P; now subst|].
  destruct m as [|y m]; [symmetry in P; apply Permutation_nil in P; discriminate|].
  assert (Hlt : forall z, In z l -> key x < key z).
  { intros z Hz. apply In_nth_error in Hz as [j Hj]. apply (L 0%nat (S j)); [lia|reflexivity|exact Hj]. }
  assert (x = y) as <-.
  { assert (Hy : In y (x :: l)) by (apply (Permutation_in y (Permutation_sym P)); now left).
    destruct Hy as [Hy|Hy]; [exact Hy|exfalso].
    assert (Hx : In x (y :: m)) by (apply (Permutation_in x P); now left).
    destruct Hx as [Hx|Hx]; [subst y; specialize (Hlt x Hy); lia|].
    apply In_nth_error in Hx as [j Hj]. pose proof (M 0%nat (S j) y x ltac:(lia) eq_refl Hj). specialize (Hlt y Hy). lia. }
  f_equal. apply Permutation_cons_inv in P. apply IH; [exact P| |].
  - intros i j a b Hij H1 H2. apply (L (S i) (S j)); [lia|exact H1|exact H2].
  - intros i j a b Hij H1 H2. apply (M (S i) (S j)); [lia|exact H1|exact H2].
Qed.

(** Pull a permutation back through a relation. *)
Lemma Forall2_perm {X Y} (R : X -> Y -> Prop) l m : Forall2 R l m -> forall m', Permutation m' m ->
  exists l', Permutation l' l /\ Forall2 R l' m'.
Proof.
  intros F m' P. revert l F. induction P as [|y m' m P IH|a b m|m1 m2 m3 P1 IH1 P2 IH2]; intros l F.
  - inversion F; subst. exists []. auto.
  - inversion F as [|x z l0 m0 H1 H2]; subst. destruct (IH l0 H2) as (l' & Q & G). exists (x :: l'). split; [now constructor|now constructor].
  - inversion F as [|x z l0 m0 H1 H2]; subst. inversion H2 as [|x' z' l1 m1 H3 H4]; subst. exists (x' :: x :: l1). split; [apply perm_swap|repeat constructor; assumption].
  - destruct (IH2 l F) as (l' & Q & G). destruct (IH1 l' G) as (l'' & Q' & G'). exists l''. split; [now transitivity l'|exact G'].
Qed.

Lemma Forall2_nth {X Y} (R : X -> Y -> Prop) l m : Forall2 R l m -> forall i x, nth_error l i = Some x -> exists y, nth_error m i = Some y /\ R x y.
Proof.
  induction 1 as [|a b l m H _ IH]; intros i x Hi; [destruct i; discriminate|]. destruct i as [|i]; cbn in *; [injection Hi as <-; eauto|eauto].
Qed.

Lemma Forall2_impl2 {X Y} (R S : X -> Y -> Prop) l m : (forall x y, R x y -> S x y) -> Forall2 R l m -> Forall2 S l m.
Proof. intros H. induction 1; constructor; auto. Qed.

Section Archive.
Variables (A : arith) (E : goenv).
Notation T := (num A).

Lemma parsed_known input (c : composite T) : parsed A E input c -> c_unit c <> Unit_unknown -> new_composite A E input = Value c.
Proof.
  intros [H|H] Hu; [exact H|]. exfalso.
  pose proof (new_composite_inv A E input) as Hs. rewrite H in Hs. cbn beta iota in Hs.
  destruct Hs as [[Hs _]|(_ & Hs & _)]; [now apply Hs|now apply Hu].
Qed.

Lemma entry_reads e tail : well_written e tail -> exists c : composite T, new_composite A E (e_bytes e) = Value c /\ holds e c.
Proof.
  intros [h px py dx dy cells t W U Sz B1 B2 L Tt G|h px py dx dy cells t W U Sz B1 B2 L Tt G|h px py dx dy ls lines t W U Sz B1 B2 L G Nl]; cbn [e_bytes].
  - destruct (C21_two_byte_file A E h px py dx dy cells t W Sz B1 B2 L Tt G) as (c & P & Wc & Pl).
    destruct (C21_header_round_trip A E h _ c W P) as [_ Uc]. exists c. split; [apply parsed_known; [exact P|rewrite Uc; exact U]|].
    split; [exact Wc|]. split; [exact Uc|exact Pl].
  - destruct (C21_one_byte_file A E h px py dx dy cells t W Sz B1 B2 L Tt G) as (c & P & Wc & Pl).
    destruct (C21_header_round_trip A E h _ c W P) as [_ Uc]. exists c. split; [apply parsed_known; [exact P|rewrite Uc; exact U]|].
    split; [exact Wc|]. split; [exact Uc|exact Pl].
  - destruct (C21_runlength_file A E h px py dx dy ls lines t W Sz B1 B2 L G Nl) as (c & P & Wc & Pl).
    destruct (C21_header_round_trip A E h _ c W P) as [_ Uc]. exists c. split; [apply parsed_known; [exact P|rewrite Uc; exact U]|].
    split; [exact Wc|]. split; [exact Uc|exact Pl].
Qed.

Lemma holds_time e (c : composite T) : holds e c -> c_forecast c = shown_at e * ns_per_minute.
Proof. intros ((_ & Hc & Hf & _) & _). unfold shown_at, or_zero. rewrite Hf, Hc. ring. Qed.

Variable sort : (composite T -> composite T -> bool) -> list (composite T) -> list (composite T).

(** All entries are delivered, in order of time. *)
Theorem C67_archive entries : sort_contract A sort -> Forall (fun e => exists tail, well_written e tail) entries ->
  exists cs order, new_composites A E sort (mk_archive (map e_bytes entries) true) = ArchiveOk cs /\
    Permutation order entries /\ in_time order /\ Forall2 holds order cs.
Proof.
  intros Hs F.
  assert (R : exists ps, Forall2 (fun e c => new_composite A E (e_bytes e) = Value c /\ holds e c) entries ps).
  { induction F as [|e l [t He] _ [ps IH]]; [exists []; constructor|]. destruct (entry_reads e t He) as (c & H1 & H2). exists (c :: ps). constructor; auto. }
  destruct R as [ps R].
  destruct (C30_archive_accepted A E sort (mk_archive (map e_bytes entries) true) eq_refl) as [cs Hcs].
  { cbn [ar_entries]. rewrite Forall_map. apply Forall_forall. intros e He. rewrite Forall_forall in F. destruct (F e He) as [t Ht].
    destruct (entry_reads e t Ht) as (c & H1 & _). eauto. }
  destruct (C30_archive_complete A E sort _ cs Hs Hcs) as (_ & (ps' & F' & P) & So). cbn [ar_entries] in F'.
  assert (ps' = ps) as ->.
  { clear -F' R. revert ps' F'. induction R as [|e c l m [H _] _ IH]; intros ps' F'; inversion F'; subst; [reflexivity|]. f_equal; [congruence|auto]. }
  destruct (Forall2_perm _ _ _ R cs P) as (order & Po & Fo). exists cs, order. split; [exact Hcs|]. split; [exact Po|].
  assert (Fh : Forall2 holds order cs) by (eapply Forall2_impl2; [|exact Fo]; cbn; tauto).
  split; [|exact Fh]. intros i j a b Hij Ha Hb.
  destruct (Forall2_nth _ _ _ Fh i a Ha) as (c & Hc & Kc). destruct (Forall2_nth _ _ _ Fh j b Hb) as (d & Hd & Kd).
  pose proof (So i j c d Hij Hc Hd) as Hle. rewrite (holds_time _ _ Kc), (holds_time _ _ Kd) in Hle. unfold ns_per_minute in Hle. lia.
Qed.

(** Entries about different minutes: whatever the order in the archive, the
    i-th composite holds the i-th entry in time. *)
Theorem C67_series entries listed : sort_contract A sort -> Forall (fun e => exists tail, well_written e tail) entries ->
  Permutation listed entries -> strictly_in_time listed ->
  exists cs, new_composites A E sort (mk_archive (map e_bytes entries) true) = ArchiveOk cs /\ Forall2 holds listed cs.
Proof.
  intros Hs F P St. destruct (C67_archive entries Hs F) as (cs & order & Hcs & Po & So & Fh). exists cs. split; [exact Hcs|].
  assert (listed = order) as ->; [|exact Fh]. apply (sorted_unique shown_at); [now rewrite P, Po|exact St|exact So].
Qed.
End Archive.

(** ... so neither the order in the archive nor the sorting algorithm matters. *)
Theorem C67_order_free (A : arith) (E : goenv) sort sort' entries entries' : sort_contract A sort -> sort_contract A sort' ->
  Forall (fun e => exists tail, well_written e tail) entries -> Permutation entries' entries ->
  (forall a b, In a entries -> In b entries -> shown_at a = shown_at b -> a = b) -> NoDup entries ->
  new_composites A E sort (mk_archive (map e_bytes entries) true) = new_composites A E sort' (mk_archive (map e_bytes entries') true).
Proof.
  intros Hs Hs' F P D N.
  destruct (C67_archive A E sort entries Hs F) as (cs & order & Hcs & Po & So & Fh). rewrite Hcs.
  destruct (C67_archive A E sort' entries' Hs') as (cs' & order' & Hcs' & Po' & So' & Fh').
  { rewrite P. exact F. }
  rewrite Hcs'. f_equal.
  (* both results are sorted strictly by time and hold the same composites *)
  destruct (C30_archive_complete A E sort _ cs Hs Hcs) as (_ & (ps & F1 & P1) & S1). destruct (C30_archive_complete A E sort' _ cs' Hs' Hcs') as (_ & (ps' & F1' & P1') & S1').
  cbn [ar_entries] in F1, F1'.
  assert (Pp : Permutation ps ps').
  { assert (G : forall es qs, Forall2 (fun e c => new_composite A E e = Value c) (map e_bytes es) qs -> map (@Value (num A) (composite (num A))) qs = map (new_composite A E) (map e_bytes es)).
    { intros es qs H. remember (map e_bytes es) as bs eqn:Eb. clear Eb. induction H; cbn; [reflexivity|]. now f_equal. }
    assert (Q : Permutation (map (@Value (num A) (composite (num A))) ps) (map (@Value (num A) (composite (num A))) ps')).
    { rewrite (G _ _ F1), (G _ _ F1'). do 2 apply Permutation_map. now symmetry. }
    apply Permutation_map_inv in Q as (l & El & Pl). 
    assert (ps = l) as ->; [|now symmetry]. clear -El. revert l El. induction ps as [|a ps IH]; intros [|b l] El; cbn in El; try discriminate; [reflexivity|].
    injection El as <- El. f_equal. auto. }
  apply (sorted_unique (fun c => c_forecast c)); [now rewrite P1, P1'| |exact S1'].
  intros i j c d Hij H1 H2. pose proof (S1 i j c d Hij H1 H2) as Hle.
  destruct (Z.eq_dec (c_forecast c) (c_forecast d)) as [Eq|]; [exfalso|lia].
  assert (Nth : forall (l : list entry) (m : list (composite (num A))) k y, Forall2 holds l m -> nth_error m k = Some y -> exists x, nth_error l k = Some x /\ holds x y).
  { intros l m k y H. revert k. induction H as [|a b l0 m0 H0 _ IH]; intros k Hk; [destruct k; discriminate|]. destruct k as [|k]; cbn in *; [injection Hk as <-; eauto|eauto]. }
  destruct (Nth _ _ _ _ Fh H1) as (a & Na & Ha). destruct (Nth _ _ _ _ Fh H2) as (b & Nb & Hb).
  rewrite (holds_time A _ _ Ha), (holds_time A _ _ Hb) in Eq. unfold ns_per_minute in Eq.
  assert (a = b) as <-.
  { apply D; [apply (Permutation_in a Po); eapply nth_error_In; exact Na|apply (Permutation_in b Po); eapply nth_error_In; exact Nb|lia]. }
  assert (No : NoDup order) by (eapply Permutation_NoDup; [symmetry; exact Po|exact N]).
  rewrite NoDup_nth_error in No. assert (i = j); [|lia]. apply No; [apply nth_error_Some; congruence|congruence].
Qed.

(** * Damaged archives *)
Fixpoint newlines (l : list byte) : nat :=
  match l with [] => 0 | b :: t => (if Byte.eqb b Byte.x0a then 1 else 0) + newlines t end.
Lemma newlines_app a b : newlines (a ++ b) = (newlines a + newlines b)%nat.
Proof. induction a as [|x a IH]; cbn [app newlines]; [reflexivity|]. rewrite IH. lia. Qed.
Lemma newlines_none l : ~ In Byte.x0a l -> newlines l = 0%nat.
Proof.
  induction l as [|x l IH]; intros H; cbn [newlines]; [reflexivity|]. destruct (Byte.eqb x Byte.x0a) eqn:Ex.
  - apply Byte.byte_dec_bl in Ex. subst x. exfalso. apply H. now left.
  - rewrite IH; [reflexivity|]. intros Hl. apply H. now right.
Qed.
Lemma newlines_lines lines : Forall (fun l => ~ In Byte.x0a l) lines ->
  newlines (concat (map (fun l => l ++ [Byte.x0a]) lines)) = length lines.
Proof.
  induction 1 as [|l ls H _ IH]; cbn [map concat length]; [reflexivity|]. rewrite !newlines_app, (newlines_none l H), IH. cbn. lia.
Qed.
Lemma lines_end (lines : list (list byte)) a r : concat (map (fun l => l ++ [Byte.x0a]) lines) = a ++ r -> r <> [] -> (0 < newlines r)%nat.
Proof.
  intros H Hr. destruct lines as [|l0 ls0] using rev_ind.
  - cbn in H. symmetry in H. apply app_eq_nil in H. tauto.
  - clear IHls0. rewrite map_app, concat_app in H. cbn [map concat] in H. rewrite app_nil_r, app_assoc in H.
    destruct r as [|x r'] using rev_ind; [now elim Hr|]. clear IHr'. rewrite app_assoc in H. apply app_inj_tail in H as [_ <-].
    rewrite newlines_app. cbn. lia.
Qed.

Section Damaged.
Variables (A : arith) (E : goenv).

Lemma cut_rejected e tail k : well_written e tail -> (k + length tail < length (e_bytes e))%nat ->
  ~ exists c, parsed A E (firstn k (e_bytes e)) c.
Proof.
  intros We Hk [c' Hp].
  assert (Hacc : exists c, parsed A E (firstn k (e_bytes e)) c) by eauto.
  apply C46_accepted_iff in Hacc as (text & data & c & n & Hl & Hm & Hd & Hpay & Hcase).
  assert (Q : exists h dat px py dx dy, e_bytes e = header_text h ++ Byte.x03 :: dat ++ tail /\ writable h /\ written_size h px py dx dy /\
    match h_levels h with
    | None => len dat = 2 * (px * py) /\ h_total h = len (header_text h) + 1 + 2 * (px * py) \/
              len dat = px * py /\ h_total h = len (header_text h) + 1 + px * py
    | Some _ => exists lines, dat = concat (map (fun l => l ++ [Byte.x0a]) lines) /\ Forall (fun l => ~ In Byte.x0a l) lines /\ len lines = py
    end).
  { destruct We as [h px py dx dy cells t W U Sz B1 B2 L Tt G|h px py dx dy cells t W U Sz B1 B2 L Tt G|h px py dx dy ls lines t W U Sz B1 B2 L G Nl]; cbn [e_bytes].
    - destruct (written_dims (n_zero A) h _ _ _ _ W Sz) as (_ & _ & P1 & P2). destruct (grid_widths _ _ _ _ (Z.lt_le_incl _ _ P1) G) as [G1 G2].
      exists h, (encode_grid encode_cell cells), px, py, dx, dy. split; [reflexivity|]. split; [exact W|]. split; [exact Sz|]. rewrite L. left. split; [|exact Tt].
      unfold len. rewrite (encode_grid_length encode_cell 2 (Z.to_nat px)); [nia|intros r [v|] _ _; reflexivity|exact G1].
    - destruct (written_dims (n_zero A) h _ _ _ _ W Sz) as (_ & _ & P1 & P2). destruct (grid_widths _ _ _ _ (Z.lt_le_incl _ _ P1) G) as [G1 G2].
      exists h, (encode_grid encode_byte_cell cells), px, py, dx, dy. split; [reflexivity|]. split; [exact W|]. split; [exact Sz|]. rewrite L. right. split; [|exact Tt].
      unfold len. rewrite (encode_grid_length encode_byte_cell 1 (Z.to_nat px)); [nia|intros r [v|] _ _; reflexivity|exact G1].
    - exists h, (encode_lines lines), px, py, dx, dy. split; [reflexivity|]. split; [exact W|]. split; [exact Sz|]. rewrite L.
      exists (map (fun nr => encode_line (fst nr) (snd nr)) lines). split; [unfold encode_lines; now rewrite map_map|]. destruct G as (G1 & _ & G3). split.
      + apply Forall_forall. intros l Hin. apply in_map_iff in Hin as ([b r] & <- & Hin). apply encode_line_newline.
        * cbn. intros ->. apply Nl. apply in_map_iff. exists (Byte.x0a, r). auto.
        * cbn. apply Forall_forall. intros v Hv. apply (G3 r v); [|assumption]. apply in_map_iff. exists (b, r). auto.
      + unfold len in *. rewrite map_length in *. exact G1. }
  destruct Q as (h & dat & px & py & dx & dy & Eb & W & Sz & Hdat). destruct (written_dims (n_zero A) h _ _ _ _ W Sz) as (_ & _ & P1 & P2).
  destruct Hl as [Ecut Hn].
  assert (Efull : e_bytes e = text ++ Byte.x03 :: (data ++ skipn k (e_bytes e))).
  { rewrite <- (firstn_skipn k (e_bytes e)) at 1. rewrite Ecut, <- app_assoc. reflexivity. }
  destruct (file_layout_unique (e_bytes e) text (data ++ skipn k (e_bytes e)) (header_text h) (dat ++ tail)) as [-> Edata].
  { split; assumption. } { split; [exact Eb|now apply header_text_clean]. }
  assert (Lk : length (firstn k (e_bytes e)) = k) by (rewrite firstn_length; lia).
  assert (Ld : (length data < length dat)%nat).
  { apply (f_equal (@length byte)) in Ecut. rewrite Lk, app_length in Ecut. cbn [length] in Ecut. rewrite Eb, app_length in Hk. cbn [length] in Hk. rewrite app_length in Hk. lia. }
  rewrite Ecut in Hp. destruct (C21_header_round_trip A E h data c' W Hp) as [Wc _].
  pose proof (parsed_header A E _ _ _ _ _ Hp (conj eq_refl Hn) Hm) as Hs.
  assert (Hdim : c_px c = px /\ c_py c = py).
  { destruct Hs as (_ & _ & _ & _ & _ & <- & <- & _). destruct Wc as (_ & _ & _ & _ & Wz & _). clear - Wz Sz. unfold written_size in *.
    destruct (h_size h); [intuition congruence|intuition congruence|]. destruct Wz as (v & H1 & H2 & H3 & _), Sz as (v' & H1' & H2' & H3' & _). rewrite H1 in H1'. injection H1' as <-. split; congruence. }
  destruct Hdim as [D1 D2]. rewrite D1, D2 in *.
  rewrite field_LV in Hcase by exact W. 
  destruct (h_levels h) as [ls|] eqn:L.
  - destruct Hdat as (lines & -> & Fl & Ll). destruct Hcase as [(lv & levels & lines' & tail' & _ & _ & [Ed Fl'] & Ll' & _)|[(F & _)|(F & _)]]; [|discriminate|discriminate].
    assert (Er : exists r, concat (map (fun l => l ++ [Byte.x0a]) lines) = data ++ r /\ r <> []).
    { exists (skipn (length data) (concat (map (fun l => l ++ [Byte.x0a]) lines))). 
      assert (Ef : firstn (length data) (concat (map (fun l => l ++ [Byte.x0a]) lines)) = data).
      { apply (f_equal (firstn (length data))) in Edata. rewrite firstn_app, firstn_all, Nat.sub_diag, firstn_O, app_nil_r in Edata.
        rewrite Edata at 2. rewrite firstn_app. replace (length data - length (concat (map (fun l => l ++ [Byte.x0a]) lines)))%nat with 0%nat by lia. now rewrite firstn_O, app_nil_r. }
      split; [rewrite <- Ef at 1; symmetry; apply firstn_skipn|]. intros Hz. apply (f_equal (@length byte)) in Hz. rewrite skipn_length in Hz. cbn in Hz. lia. }
    destruct Er as (r & Er & Nr). pose proof (lines_end _ _ _ Er Nr) as Hpos. apply (f_equal newlines) in Er.
    rewrite newlines_app, (newlines_lines _ Fl), Ed, newlines_app, (newlines_lines _ Fl') in Er. unfold len in *. lia.
  - assert (Hnn : n = h_total h - (len (header_text h) + 1)).
    { destruct Hpay as (v & Hv & ->). rewrite field_BY in Hv by exact W. pose proof (w_total _ W).
      assert (number_text (number 7 (h_total h)) (h_total h)) as Hv' by (apply number_reads; lia). rewrite (number_text_fun _ _ _ Hv Hv'). reflexivity. }
    destruct Hcase as [(lv & levels & lines' & tail' & F & _)|[(_ & Hw & Hlen)|(_ & Hw & Hw2 & Hlen)]]; [discriminate| |].
    + unfold len in *. destruct Hdat as [[H1 H2]|[H1 H2]]; nia.
    + unfold len in *. destruct Hdat as [[H1 H2]|[H1 H2]]; [|nia]. apply Hw2. f_equal. lia.
Qed.

Variable sort : (composite (num A) -> composite (num A) -> bool) -> list (composite (num A)) -> list (composite (num A)).

(** One entry cut off anywhere before the end of its data: an error, nothing else. *)
Theorem C67_damaged entries e tail k after clean : Forall (fun e => exists tail, well_written e tail) entries ->
  well_written e tail -> (k + length tail < length (e_bytes e))%nat ->
  exists err, new_composites A E sort (mk_archive (map e_bytes entries ++ firstn k (e_bytes e) :: after) clean) = ArchiveErr err /\
    In err [EHeaderShort; EReadRunlength; EReadLittleEndian; EReadSingleByte].
Proof.
  intros F We Hk.
  assert (X : exists err c, new_composite A E (firstn k (e_bytes e)) = Failure err c /\ In err [EHeaderShort; EReadRunlength; EReadLittleEndian; EReadSingleByte]).
  { destruct (entry_reads A E e tail We) as (c & Hc & _).
    destruct (C19_prefix A E (e_bytes e) c (or_introl Hc)) as (used & rest & Eu & Hu & Hcut).
    assert (Lu : (k < length used)%nat).
    { destruct (le_lt_dec (length used) k) as [Hle|]; [exfalso|assumption]. apply (cut_rejected e tail k We Hk). exists c.
      left. rewrite Eu, firstn_app, firstn_all2 by exact Hle. rewrite Hu. exact Hc. }
    destruct (Hcut k Lu) as (err & c' & H1 & H2). exists err, c'. split.
    - rewrite Eu, firstn_app. replace (k - length used)%nat with 0%nat by lia. rewrite firstn_O, app_nil_r. exact H1.
    - cbn. destruct H2 as [->|[->|[->| ->]]]; auto 6. }
  destruct X as (err & c & Hx & Hin). exists err. split; [|exact Hin].
  unfold new_composites. cbn [ar_entries ar_clean_end].
  assert (R : forall cs, read_entries A E (map e_bytes entries ++ firstn k (e_bytes e) :: after) clean cs = ArchiveErr err).
  { induction F as [|e0 l [t He] _ IH]; intros cs; cbn [map app read_entries]; [now rewrite Hx|].
    destruct (entry_reads A E e0 t He) as (c0 & -> & _). apply IH. }
  now rewrite R.
Qed.

(** So does an archive that breaks off or is damaged after the entries read. *)
Theorem C67_broken_off entries : Forall (fun e => exists tail, well_written e tail) entries ->
  new_composites A E sort (mk_archive (map e_bytes entries) false) = ArchiveErr EArchive.
Proof.
  intros F. unfold new_composites. cbn [ar_entries ar_clean_end].
  assert (R : forall cs, read_entries A E (map e_bytes entries) false cs = ArchiveErr EArchive).
  { induction F as [|e0 l [t He] _ IH]; intros cs; cbn [map app read_entries]; [reflexivity|].
    destruct (entry_reads A E e0 t He) as (c0 & -> & _). apply IH. }
  now rewrite R.
Qed.

(** An entry without content (a directory, say) makes the whole archive fail. *)
Theorem C67_directory entries after clean : Forall (fun e => exists tail, well_written e tail) entries ->
  new_composites A E sort (mk_archive (map e_bytes entries ++ [] :: after) clean) = ArchiveErr EHeaderShort.
Proof.
  intros F. unfold new_composites. cbn [ar_entries ar_clean_end].
  assert (R : forall cs, read_entries A E (map e_bytes entries ++ [] :: after) clean cs = ArchiveErr EHeaderShort).
  { induction F as [|e0 l [t He] _ IH]; intros cs; cbn [map app read_entries]; [reflexivity|].
    destruct (entry_reads A E e0 t He) as (c0 & -> & _). apply IH. }
  now rewrite R.
Qed.
End Damaged.

(** * A concrete archive: three forecasts, stored in the order 60, 5, 0 minutes *)
Definition forecast_header (step : Z) : header_data :=
  mk_header (bs "FX") 2016 7 28 21 5 65 (Some 3) None (Some 0) (Some 5) (Size_BG 2 3) (Some step) [].
Definition forecast_cells : list (list (option Z)) := [[Some 65; Some 100; None]; [Some 0; Some 255; Some 66]].
Definition forecast_entry (step : Z) : entry :=
  mk_entry (header_text (forecast_header step) ++ Byte.x03 :: encode_grid encode_byte_cell forecast_cells ++ []) (forecast_header step)
    (map (map (cell_value 0 Unit_dBZ)) forecast_cells).

Lemma forecast_written step : In step [60; 5; 0] -> well_written (forecast_entry step) [].
Proof.
  intros Hs.
  assert (Hl : len (header_text (forecast_header step)) = 58) by (destruct Hs as [<-|[<-|[<-|[]]]]; reflexivity).
  assert (W : writable (forecast_header step)).
  { constructor.
    - exists Byte.x46, Byte.x58. split; [reflexivity|]. unfold capital.
      split; [split; discriminate|left; split; [split; discriminate|vm_compute; intuition discriminate]].
    - cbn. lia.
    - unfold calendar_minute. cbn. lia.
    - cbn. unfold int_max. lia.
    - intros n [= <-]. unfold int_max. lia.
    - discriminate.
    - intros n [= <-]. lia.
    - intros n [= <-]. lia.
    - cbn. lia.
    - intros n [= <-]. cbn in Hs. lia.
    - rewrite Hl. unfold int_max. lia.
    - split; [constructor|intros k v []].
    - intros []. }
  apply (written_one_byte (forecast_header step) 3 2 3 2 forecast_cells []); try assumption.
  - discriminate.
  - cbn. auto.
  - lia.
  - lia.
  - reflexivity.
  - rewrite Hl. reflexivity.
  - split; [reflexivity|]. split.
    + intros r [<-|[<-|[]]]; reflexivity.
    + intros r x [<-|[<-|[]]] Hx; cbn in Hx; repeat destruct Hx as [<-|Hx]; try lia; try exact I; destruct Hx.
Qed.

Example C67_case A E : exists cs, 
  new_composites A E insertion_sort (mk_archive (map e_bytes (map forecast_entry [60; 5; 0])) true) = ArchiveOk cs /\
  Forall2 holds (map forecast_entry [0; 5; 60]) cs.
Proof.
  apply C67_series.
  - apply insertion_sort_contract.
  - apply Forall_forall. intros e He. apply in_map_iff in He as (s & <- & Hs). exists []. now apply forecast_written.
  - apply Permutation_map. change [60; 5; 0] with ([60] ++ [5; 0]). transitivity ([5; 0] ++ [60]); [apply perm_swap|apply Permutation_app_comm].
  - intros i j a b Hij Ha Hb. destruct i as [|[|[|i]]], j as [|[|[|j]]]; try lia; cbn in Ha, Hb;
      try (destruct i; discriminate); try (destruct j; discriminate); injection Ha as <-; injection Hb as <-; vm_compute; reflexivity.
Qed.
Example C67_case_damaged A E : exists err, In err [EHeaderShort; EReadRunlength; EReadLittleEndian; EReadSingleByte] /\
  new_composites A E insertion_sort (mk_archive (map e_bytes [forecast_entry 60] ++ firstn 60 (e_bytes (forecast_entry 5)) :: []) true) = ArchiveErr err.
Proof.
  destruct (C67_damaged A E insertion_sort [forecast_entry 60] (forecast_entry 5) [] 60 [] true) as (err & H1 & H2).
  - constructor; [|constructor]. exists []. apply forecast_written. now left.
  - apply forecast_written. right. now left.
  - vm_compute. lia.
  - exists err. split; assumption.
Qed.
Print Assumptions C67_archive.
Print Assumptions C67_series.
Print Assumptions C67_order_free.
Print Assumptions C67_damaged.
Print Assumptions C67_broken_off.
Print Assumptions C67_directory.
