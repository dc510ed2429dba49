(** Composites in memory: representation, writes, and the invariant of all
    reachable worlds. *)
From Verif Require Import GoBase GoUtf8 GoScan GoTime GoFloat Catalog Composite Header Data Projection Radolan
  BaseFacts HeaderSafe HeaderFacts DataFacts ParseFacts CompositeFacts Heap SpecHeap HeapFacts.

Section World.
Variable A : arith.
Variable E : goenv.
Notation T := (num A).
Implicit Types h : held A.
Implicit Types m : memory.

Definition rep m h : Prop :=
  (h_plain h = nil_table /\ h_dataz h = [] /\ h_data h = nil_table) \/
  exists t addrs plain, owns m t addrs plain /\ h_plain h = mk_table t 0 (len addrs) (len addrs) /\
    ((h_dataz h = [] /\ h_data h = nil_table) \/ layered A (h_fields h) t (len addrs) (h_dataz h) (h_data h)).
Definition rep_result m (r : result A) : Prop := forall h, result_held r = Some h -> rep m h.

Lemma new_composite_safe input :
  safe (fun r m => view_result m r = new_composite A E input /\ rep_result m r)
    (mem_new_composite A E input) (fun _ => None).
Proof.
  unfold mem_new_composite, new_composite.
  pose proof (parse_header_safe (n_ofZ A) E (zero_composite (n_zero A)) input) as Hsafe.
  destruct (parse_header _ E _ input) as [[ch rest]|e c|] eqn:Hh; [| |exfalso; apply Hsafe; reflexivity].
  2:{ cbn [safe view_result]. assert (Hf : frame (zero_composite (n_zero A)) c).
      { unfold parse_header in Hh. destruct (read_until Byte.x03 input) as [[hd r]|].
        - destruct (parse_header_text _ E _ hd) as [c1|e1 c1|] eqn:Ht; cbn in Hh; try discriminate.
          injection Hh as <- <-.
          pose proof (parse_header_text_framed (n_ofZ A) E (zero_composite (n_zero A)) hd) as Hf.
          rewrite Ht in Hf. exact Hf.
        - injection Hh as <- <-. apply HeaderSafe.frame_refl. }
      destruct Hf as (Hp & Hz & Hd & _). split.
      - unfold view. cbn [h_fields h_plain h_dataz h_data map]. rewrite !view_nil. f_equal. destruct c. cbn in *. subst. reflexivity.
      - intros h Hr. injection Hr as <-. left. auto. }
  apply parse_header_inv in Hh as (hd & Hr & Ht).
  pose proof (parse_header_text_dims _ _ _ _ _ Ht) as [Hd Hdi].
  pose proof (parse_header_text_framed (n_ofZ A) E (zero_composite (n_zero A)) hd) as Hf.
  rewrite Ht in Hf. destruct Hf as (Hp & Hz & Hdt & _).
  apply safe_bind. eapply safe_mono; [|apply (parse_data_safe A ch rest Hp)].
  intros [t pr] m H. cbn [fst snd] in H.
  pose proof (parse_data_shape ch rest Hd) as Hs.
  destruct (parse_data ch rest) as [[cd tail]|e c|] eqn:Hpd; destruct pr as [rest'|e'|]; try contradiction.
  - destruct H as (-> & ta & addrs & p & -> & -> & Ho).
    destruct Hs as (Ha & p' & Heq & Hl & Hw).
    apply (f_equal c_plain) in Heq. cbn in Heq. subst p'.
    assert (Hla : len addrs = len p) by (destruct Ho as (_ & _ & Hla & _); unfold len; congruence).
    destruct (arrange_data_mem A ch p ta (len addrs)) as (dz & d0 & Hm & Hlay & Harr); auto.
    { exact (dims_pos_of ch Hd Ha). } { split; assumption. }
    rewrite Hm. rewrite (Harr m addrs Ho). cbv zeta.
    assert (Hcal : view m (mk_held (calibrate_projection A (set_dz ch (len dz))) (mk_table ta 0 (len addrs) (len addrs)) dz d0) =
      calibrate_projection A (set_data (set_dz (set_dataz (set_plain ch p) (map (view_table m) dz)) (len dz)) (view_table m d0))).
    { unfold view. cbn [h_fields h_plain h_dataz h_data]. rewrite (view_whole m ta addrs p) by assumption.
      symmetry. exact (calibrate_with_data A (set_dz ch (len dz)) p (map (view_table m) dz) (view_table m d0)). }
    pose proof (calibrate_frame A (set_dz ch (len dz))) as Hfr.
    destruct Hfr as (_ & _ & _ & _ & Hu & _ & _ & Hpy & _ & _ & _ & Hdy & _).
    pose proof (calibrate_frame A (set_data (set_dz (set_dataz (set_plain ch p) (map (view_table m) dz)) (len dz)) (view_table m d0))) as Hfr2.
    destruct Hfr2 as (_ & _ & _ & _ & Hu2 & _).
    rewrite Hu, Hu2. cbn [set_dz c_unit set_data set_dataz set_plain].
    assert (Hrep : rep m (mk_held (calibrate_projection A (set_dz ch (len dz))) (mk_table ta 0 (len addrs) (len addrs)) dz d0)).
    { right. exists ta, addrs, p. split; [assumption|]. split; [reflexivity|]. right.
      cbn [h_fields h_dataz h_data]. destruct Hlay as (L1 & L2 & L3). split; [assumption|].
      unfold layer_top in *. rewrite Hdy, Hpy. split; assumption. }
    destruct (unit_eqb (c_unit ch) Unit_unknown); cbn [safe view_result]; rewrite Hcal; split; try reflexivity;
      intros h Hh; injection Hh as <-; assumption.
  - destruct H as (-> & [[-> ->]|(ta & addrs & p & -> & -> & Ho)]).
    + cbn [safe view_result]. split.
      * unfold view. cbn [h_fields h_plain h_dataz h_data map]. rewrite !view_nil. f_equal. destruct ch. cbn in *. subst. reflexivity.
      * intros h Hh. injection Hh as <-. left. auto.
    + cbn [safe view_result]. split.
      * unfold view. cbn [h_fields h_plain h_dataz h_data]. rewrite (view_whole m ta addrs p) by assumption.
        rewrite view_nil. f_equal. destruct ch. cbn in *. subst. reflexivity.
      * intros h Hh. injection Hh as <-. right. exists ta, addrs, p. auto.
  - cbn. split; [reflexivity|]. intros h Hh. discriminate.
Qed.

(** Cells of a window. *)
Definition window (t : nat) (n : Z) (w : table) : Prop :=
  (t_len w = 0 \/ t_arr w = t) /\ 0 <= t_off w /\ 0 <= t_len w /\ t_off w + t_len w <= n.

Lemma find_cell_window m t addrs plain w y x : owns m t addrs plain -> window t (len addrs) w ->
  match find_cell m w y x with
  | Some (a, f) => 0 <= y < t_len w /\ 0 <= x < len f /\
      nth_error addrs (Z.to_nat (t_off w + y)) = Some a /\ nth_error plain (Z.to_nat (t_off w + y)) = Some f /\
      t_off w + y < len addrs
  | None => True
  end.
Proof.
  intros Ho (Ht & H1 & H2 & H3). unfold find_cell.
  destruct ((0 <=? y) && (y <? t_len w)) eqn:Hy; [|exact I]. rewrite andb_true_iff in Hy.
  destruct Ht as [Ht|Ht]; [lia|]. rewrite Ht. destruct Ho as (-> & Hnd & Hl & Hr).
  destruct (nth_both addrs plain (Z.to_nat (t_off w + y)) Hl) as (a & f & Ha & Hf); [unfold len in *; lia|].
  rewrite index_nth by lia. rewrite nth_error_map, Ha. cbn. rewrite (Hr _ _ _ Ha Hf).
  destruct ((0 <=? x) && (x <? len f)) eqn:Hx; [|exact I]. rewrite andb_true_iff in Hx.
  repeat split; auto; lia.
Qed.

Lemma at2_window m t addrs plain w y x : owns m t addrs plain -> window t (len addrs) w ->
  at2 (view_table m w) y x = match find_cell m w y x with Some (a, f) => index f x | None => None end.
Proof.
  intros Ho (Ht & H1 & H2 & H3). unfold at2, find_cell.
  destruct ((0 <=? y) && (y <? t_len w)) eqn:Hy.
  - rewrite andb_true_iff in Hy. destruct Ht as [Ht|Ht]; [lia|].
    destruct w as [arr off l cap]. cbn in Ht, H1, H2, H3, Hy |- *. subst arr.
    rewrite (view_window m t addrs plain) by assumption. destruct Ho as (-> & Hnd & Hl & Hr).
    destruct (nth_both addrs plain (Z.to_nat (off + y)) Hl) as (a & f & Ha & Hf); [unfold len in *; lia|].
    rewrite !index_nth by lia. rewrite nth_error_map, Ha. cbn. rewrite (Hr _ _ _ Ha Hf).
    rewrite nth_error_firstn_lt by lia. rewrite nth_error_skipn_add.
    replace (Z.to_nat off + Z.to_nat y)%nat with (Z.to_nat (off + y)) by lia. rewrite Hf.
    destruct ((0 <=? x) && (x <? len f)) eqn:Hx; [reflexivity|].
    apply index_none. rewrite andb_false_iff in Hx. lia.
  - rewrite index_none; [reflexivity|]. rewrite andb_false_iff in Hy.
    assert (len (view_table m w) <= t_len w); [|lia].
    unfold view_table. destruct (m (t_arr w)) as [[l|l]|]; try (cbn; lia).
    rewrite len_map. unfold len. rewrite firstn_length. lia.
Qed.

(** The address array of a composite and where its cells are. *)
Definition owner m h (t : nat) (addrs : list nat) (plain : list (list f32)) : Prop :=
  owns m t addrs plain /\ window t (len addrs) (h_plain h) /\ t_off (h_plain h) = 0 /\
  window t (len addrs) (h_data h) /\ (t_len (h_data h) = 0 \/ t_off (h_data h) = layer_top (h_fields h) 0) /\
  (forall z w, index (h_dataz h) z = Some w -> window t (len addrs) w /\ t_off w = layer_top (h_fields h) z).

Lemma window_nil t n : 0 <= n -> window t n nil_table.
Proof. unfold window. cbn. lia. Qed.

Lemma rep_owner m h : rep m h ->
  (exists t addrs plain, owner m h t addrs plain) \/
  (h_plain h = nil_table /\ h_dataz h = [] /\ h_data h = nil_table).
Proof.
  intros [H|(t & addrs & plain & Ho & Hp & H)]; [right; assumption|left].
  exists t, addrs, plain. pose proof (len_nonneg addrs) as Hn. split; [assumption|]. rewrite Hp. cbn.
  split; [unfold window; cbn; lia|]. split; [reflexivity|].
  destruct H as [[Hz Hd]|(H0 & Hdy & Hw)].
  - rewrite Hz, Hd. split; [apply window_nil; assumption|]. split; [left; reflexivity|].
    intros z w Hi. apply index_inv in Hi as [_ Hi]. destruct (Z.to_nat z); discriminate.
  - assert (Hall : forall z w, index (h_dataz h) z = Some w -> window t (len addrs) w /\ t_off w = layer_top (h_fields h) z).
    { intros z w Hi. destruct (Hw z w Hi) as (-> & Ha & Hb). unfold window, layer_table. cbn. lia. }
    destruct (Hall _ _ H0). repeat split; auto; try apply H; try (apply (Hall z w); assumption).
Qed.

Lemma resolve_owner m h t addrs plain p a f : owner m h t addrs plain -> resolve m h p = Some (a, f) ->
  exists k, 0 <= k < len addrs /\ nth_error addrs (Z.to_nat k) = Some a /\ nth_error plain (Z.to_nat k) = Some f /\
    0 <= column p < len f /\ place (h_fields h) p = (k, column p).
Proof.
  intros (Ho & Hp & Hp0 & Hd & Hd0 & Hz) Hr. destruct p as [y x|z y x|y x]; cbn [resolve column place] in *.
  - pose proof (find_cell_window _ _ _ _ _ y x Ho Hp) as Hf. rewrite Hr in Hf. rewrite Hp0 in Hf.
    destruct Hf as (H1 & H2 & H3 & H4 & H5). exists y. rewrite Z.add_0_l in *. repeat split; auto; lia.
  - destruct (index (h_dataz h) z) as [w|] eqn:Hi; [|discriminate]. destruct (Hz z w Hi) as [Hw Ht].
    pose proof (find_cell_window _ _ _ _ _ y x Ho Hw) as Hf. rewrite Hr in Hf.
    destruct Hf as (H1 & H2 & H3 & H4 & H5). destruct Hw as (_ & Hw & _ & Hw').
    exists (layer_top (h_fields h) z + y). rewrite <- Ht. repeat split; auto; lia.
  - pose proof (find_cell_window _ _ _ _ _ y x Ho Hd) as Hf. rewrite Hr in Hf.
    destruct Hf as (H1 & H2 & H3 & H4 & H5). destruct Hd0 as [Hd0|Hd0]; [lia|]. destruct Hd as (_ & Hw & _ & Hw').
    exists (layer_top (h_fields h) 0 + y). rewrite <- Hd0. repeat split; auto; lia.
Qed.

Lemma find_cell_nil m y x : find_cell m nil_table y x = None.
Proof. unfold find_cell. cbn. destruct ((0 <=? y) && (y <? 0)) eqn:H; [|reflexivity]. lia. Qed.

Lemma resolve_nil m h p : h_plain h = nil_table /\ h_dataz h = [] /\ h_data h = nil_table -> resolve m h p = None.
Proof.
  intros (H1 & H2 & H3). destruct p; cbn; rewrite ?H1, ?H2, ?H3; try apply find_cell_nil.
  unfold index. cbn. destruct ((0 <=? z) && (z <? 0)); [destruct (Z.to_nat z)|]; reflexivity.
Qed.

Lemma read_view m h p : rep m h ->
  read (view m h) p = match resolve m h p with Some (a, f) => index f (column p) | None => None end.
Proof.
  intros Hr. apply rep_owner in Hr as [(t & addrs & plain & Ho & Hp & _ & Hd & _ & Hz)|Hn].
  - destruct p as [y x|z y x|y x]; cbn [read resolve column].
    + change (c_plain (view m h)) with (view_table m (h_plain h)). eapply at2_window; eauto.
    + change (c_dataz (view m h)) with (map (view_table m) (h_dataz h)).
      unfold index at 1. rewrite len_map. unfold index at 1.
      destruct ((0 <=? z) && (z <? len (h_dataz h))) eqn:Hb; [|reflexivity].
      rewrite nth_error_map. destruct (nth_error (h_dataz h) (Z.to_nat z)) as [w|] eqn:Hw; cbn; [|reflexivity].
      assert (Hi : index (h_dataz h) z = Some w) by (unfold index; rewrite Hb; assumption).
      eapply at2_window; eauto. apply (Hz z w Hi).
    + change (c_data (view m h)) with (view_table m (h_data h)). eapply at2_window; eauto.
  - rewrite resolve_nil by assumption. destruct Hn as (H1 & H2 & H3).
    assert (Hi : forall X (z : Z), index (@nil X) z = None).
    { intros X z. apply index_none. cbn. lia. }
    unfold view. rewrite H1, H2, H3, !view_nil. destruct p; cbn; unfold at2; cbn; rewrite ?Hi; reflexivity.
Qed.

(** Memory of one's own determines what one sees. *)
Definition sub (m m' : memory) : Prop := forall a b, m a = Some b -> m' a = Some b.

Lemma owns_sub m m' t addrs plain : sub m m' -> owns m t addrs plain -> owns m' t addrs plain.
Proof. intros Hs (H1 & H2 & H3 & H4). repeat split; auto. intros; eauto. Qed.

Lemma rep_sub m m' h : sub m m' -> rep m h -> rep m' h.
Proof.
  intros Hs [H|(t & addrs & plain & Ho & H)]; [left; assumption|right].
  exists t, addrs, plain. split; [eapply owns_sub; eauto|assumption].
Qed.

Lemma view_window_sub m m' t addrs plain w : sub m m' -> owns m t addrs plain -> window t (len addrs) w ->
  view_table m' w = view_table m w.
Proof.
  intros Hs Ho Hw. pose proof (owns_sub _ _ _ _ _ Hs Ho) as Ho'. destruct w as [arr off l cap].
  destruct Hw as ([Hw|Hw] & _); cbn in Hw.
  - subst l. unfold view_table. cbn. destruct (m' arr) as [[?|?]|]; destruct (m arr) as [[?|?]|]; reflexivity.
  - subst arr. rewrite (view_window m' t addrs plain), (view_window m t addrs plain); auto.
Qed.

Lemma view_sub m m' h : sub m m' -> rep m h -> view m' h = view m h.
Proof.
  intros Hs Hr. apply rep_owner in Hr as [(t & addrs & plain & Ho & Hp & _ & Hd & _ & Hz)|(H1 & H2 & H3)].
  - unfold view. rewrite (view_window_sub m m' t addrs plain (h_plain h)) by assumption.
    rewrite (view_window_sub m m' t addrs plain (h_data h)) by assumption.
    replace (map (view_table m') (h_dataz h)) with (map (view_table m) (h_dataz h)); [reflexivity|].
    apply map_ext_in. intros w Hin. apply In_nth_error in Hin as [z Hin].
    symmetry. apply (view_window_sub m m' t addrs plain); auto. apply (Hz (Z.of_nat z) w).
    rewrite index_nth by lia. now rewrite Nat2Z.id.
  - unfold view. rewrite H1, H2, H3, !view_nil. reflexivity.
Qed.

Lemma find_cell_sub m m' t addrs plain w y x : sub m m' -> owns m t addrs plain -> window t (len addrs) w ->
  find_cell m' w y x = find_cell m w y x.
Proof.
  intros Hs Ho (Ht & H1 & H2 & H3). unfold find_cell.
  destruct ((0 <=? y) && (y <? t_len w)) eqn:Hy; [|reflexivity]. rewrite andb_true_iff in Hy.
  destruct Ht as [Ht|Ht]; [lia|]. rewrite Ht. pose proof (owns_sub _ _ _ _ _ Hs Ho) as (-> & _).
  destruct Ho as (-> & Hnd & Hl & Hr).
  destruct (nth_both addrs plain (Z.to_nat (t_off w + y)) Hl) as (a & f & Ha & Hf); [unfold len in *; lia|].
  rewrite index_nth by lia. rewrite nth_error_map, Ha. cbn. rewrite (Hr _ _ _ Ha Hf).
  now rewrite (Hs _ _ (Hr _ _ _ Ha Hf)).
Qed.

Lemma resolve_sub m m' h p : sub m m' -> rep m h -> resolve m' h p = resolve m h p.
Proof.
  intros Hs Hr. apply rep_owner in Hr as [(t & addrs & plain & Ho & Hp & _ & Hd & _ & Hz)|Hn].
  - destruct p as [y x|z y x|y x]; cbn [resolve].
    + eapply find_cell_sub; eauto.
    + destruct (index (h_dataz h) z) as [w|] eqn:Hi; [|reflexivity]. eapply find_cell_sub; eauto. apply (Hz z w Hi).
    + eapply find_cell_sub; eauto.
  - rewrite !resolve_nil by assumption. reflexivity.
Qed.

(** A write. *)
Lemma find_cell_upd m t addrs plain w a f f' y x : owns m t addrs plain -> window t (len addrs) w ->
  In a addrs -> m a = Some (Floats f) -> length f' = length f ->
  find_cell (upd m a (Floats f')) w y x =
    match find_cell m w y x with
    | Some (b, g) => Some (b, if Nat.eqb b a then f' else g)
    | None => None
    end.
Proof.
  intros Ho (Ht & H1 & H2 & H3) Hin Ha Hf'. unfold find_cell.
  destruct ((0 <=? y) && (y <? t_len w)) eqn:Hy; [|reflexivity]. rewrite andb_true_iff in Hy.
  destruct Ht as [Ht|Ht]; [lia|]. rewrite Ht.
  apply In_nth_error in Hin as [k Hk]. pose proof (owns_distinct _ _ _ _ _ _ Ho Hk) as Hne.
  rewrite upd_other by congruence. destruct Ho as (-> & Hnd & Hl & Hr).
  destruct (nth_both addrs plain (Z.to_nat (t_off w + y)) Hl) as (b & g & Hb & Hg); [unfold len in *; lia|].
  rewrite index_nth by lia. rewrite nth_error_map, Hb. cbn. pose proof (Hr _ _ _ Hb Hg) as Hbg. rewrite Hbg.
  unfold upd. destruct (Nat.eqb b a) eqn:Heq.
  - apply Nat.eqb_eq in Heq. subst b. rewrite Hbg in Ha. injection Ha as ->. 
    replace (len f') with (len f) by (unfold len; congruence). destruct (_ && _); [rewrite Nat.eqb_refl|]; reflexivity.
  - rewrite Hbg. destruct (_ && _); [rewrite Heq|]; reflexivity.
Qed.

Lemma resolve_upd m h t addrs plain a f f' q : owner m h t addrs plain ->
  In a addrs -> m a = Some (Floats f) -> length f' = length f ->
  resolve (upd m a (Floats f')) h q =
    match resolve m h q with Some (b, g) => Some (b, if Nat.eqb b a then f' else g) | None => None end.
Proof.
  intros (Ho & Hp & _ & Hd & _ & Hz) Hin Ha Hf. destruct q as [y x|z y x|y x]; cbn [resolve].
  - eapply find_cell_upd; eauto.
  - destruct (index (h_dataz h) z) as [w|] eqn:Hi; [|reflexivity]. eapply find_cell_upd; eauto. apply (Hz z w Hi).
  - eapply find_cell_upd; eauto.
Qed.

Lemma rep_upd m h p a f v : rep m h -> resolve m h p = Some (a, f) -> 0 <= column p < len f ->
  rep (upd m a (Floats (replace_nth f (Z.to_nat (column p)) v))) h /\ m a = Some (Floats f).
Proof.
  intros Hr Hres Hc. pose proof Hr as Hr'. apply rep_owner in Hr' as [(t' & addrs' & plain' & Ho')|Hn].
  2:{ rewrite resolve_nil in Hres by assumption. discriminate. }
  destruct (resolve_owner _ _ _ _ _ _ _ _ Ho' Hres) as (k' & Hk' & Ha' & Hf' & _).
  assert (Hm : m a = Some (Floats f)) by (destruct Ho' as ((_ & _ & _ & Hx) & _); eauto).
  split; [|assumption]. destruct Hr as [H|(t & addrs & plain & Ho & H)]; [left; assumption|right].
  assert (Hin : In a addrs).
  { assert (addrs = addrs').
    { destruct Ho as (Ht & _). destruct H as (Hp & H). destruct Ho' as ((Ht' & _) & (Hw & _) & _).
      rewrite Hp in Hw. cbn in Hw. destruct Hw as [Hw|Hw].
      - assert (addrs = []) by (destruct addrs; [reflexivity|rewrite len_cons in Hw; pose proof (len_nonneg addrs); lia]).
        exfalso. clear Ha' Hf'. destruct p as [y x|z y x|y x].
        + cbn in Hres. rewrite Hp in Hres. unfold find_cell in Hres. cbn in Hres.
          destruct ((0 <=? y) && (y <? len addrs)) eqn:Hb; [lia|discriminate].
        + revert Hres. destruct H as [[Hz _]|(Hz0 & Hdy & Hlay)]; cbn.
          * rewrite Hz. rewrite index_none by (cbn; lia). discriminate.
          * destruct (Hlay 0 (h_data h) Hz0) as (_ & ? & ?). lia.
        + revert Hres. destruct H as [[_ Hd]|(Hz0 & Hdy & Hlay)]; cbn.
          * rewrite Hd, find_cell_nil. discriminate.
          * destruct (Hlay 0 (h_data h) Hz0) as (_ & ? & ?). lia.
      - subst t'. rewrite Ht in Ht'. injection Ht' as Ht'. clear - Ht'. revert addrs' Ht'.
        induction addrs as [|x l IH]; intros [|y l'] Hx; try discriminate; [reflexivity|].
        cbn in Hx. injection Hx as -> Hx. f_equal. auto. }
    subst addrs'. eapply nth_error_In; eauto. }
  apply In_nth_error in Hin as [k Hk].
  exists t, addrs, (replace_nth plain k (replace_nth f (Z.to_nat (column p)) v)).
  split; [apply owns_write; assumption|assumption].
Qed.

Lemma resolve_column m h p a f : rep m h -> resolve m h p = Some (a, f) -> 0 <= column p < len f.
Proof.
  intros Hr Hres. apply rep_owner in Hr as [(t & addrs & plain & Ho)|Hn].
  - destruct (resolve_owner _ _ _ _ _ _ _ _ Ho Hres) as (k & _ & _ & _ & H & _). assumption.
  - rewrite resolve_nil in Hres by assumption. discriminate.
Qed.

Lemma index_replace {X} (l : list X) i j v : 0 <= i < len l ->
  index (replace_nth l (Z.to_nat i) v) j = match index l j with Some x => Some (if i =? j then v else x) | None => None end.
Proof.
  intros Hi. destruct (Z.eq_dec i j) as [<-|Hne].
  - rewrite Z.eqb_refl. rewrite index_nth by lia. rewrite replace_nth_same by (unfold len in Hi; lia).
    destruct (index_some l i Hi) as [x ->]. reflexivity.
  - replace (i =? j) with false by lia.
    assert (Heq : index (replace_nth l (Z.to_nat i) v) j = index l j).
    { unfold index, len. rewrite replace_nth_length. destruct ((0 <=? j) && _) eqn:Hb; [|reflexivity].
      rewrite andb_true_iff in Hb. apply replace_nth_other. lia. }
    rewrite Heq. destruct (index l j); reflexivity.
Qed.

Lemma write_view m h p v a f : rep m h -> resolve m h p = Some (a, f) ->
  after_write (view m h) p v (view (upd m a (Floats (replace_nth f (Z.to_nat (column p)) v))) h).
Proof.
  intros Hr Hres. pose proof (resolve_column _ _ _ _ _ Hr Hres) as Hc.
  destruct (rep_upd m h p a f v Hr Hres Hc) as [Hr' Hm].
  set (f' := replace_nth f (Z.to_nat (column p)) v) in *.
  split; [|split].
  - rewrite read_view by assumption. rewrite Hres. destruct (index_some f (column p) Hc) as [u ->]. discriminate.
  - reflexivity.
  - intros q. rewrite !read_view by assumption.
    pose proof Hr as Hown. apply rep_owner in Hown as [(t & addrs & plain & Ho)|Hn].
    2:{ rewrite resolve_nil in Hres by assumption. discriminate. }
    destruct (resolve_owner _ _ _ _ _ _ _ _ Ho Hres) as (k & Hk & Ha & Hf & _ & Hpl).
    rewrite (resolve_upd m h t addrs plain a f f' q Ho); [|eapply nth_error_In; eauto|assumption|apply replace_nth_length].
    destruct (resolve m h q) as [[b g]|] eqn:Hq; [|reflexivity].
    destruct (resolve_owner _ _ _ _ _ _ _ _ Ho Hq) as (j & Hj & Hb & Hg & Hcq & Hplq).
    unfold same_place. change (place (view m h)) with (place (h_fields h)). rewrite Hpl, Hplq. cbn [fst snd].
    destruct (Nat.eqb b a) eqn:Hba.
    + apply Nat.eqb_eq in Hba. subst b.
      assert (Hkj : k = j).
      { destruct Ho as ((_ & Hnd & _) & _). pose proof (NoDup_nth _ _ _ _ Hnd Ha Hb). lia. }
      subst j. rewrite Hf in Hg. injection Hg as <-. rewrite Z.eqb_refl. cbn [andb].
      unfold f'. apply index_replace. assumption.
    + assert (Hkj : k <> j). { intros ->. rewrite Ha in Hb. injection Hb as ->. rewrite Nat.eqb_refl in Hba. discriminate. }
      replace (k =? j) with false by lia. cbn. destruct (index g (column q)); reflexivity.
Qed.
End World.
