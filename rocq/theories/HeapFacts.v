(** Proofs about Heap.v: a small separation logic.  [safe Q p m]: started with
    the memory m of its own, whatever addresses the allocator returns and
    whatever others do with their memory, p accesses only its own memory and
    ends in a result and own memory satisfying Q. *)
From Verif Require Import GoBase GoUtf8 GoScan GoTime GoFloat Catalog Composite Header Data Projection Radolan
  BaseFacts HeaderSafe HeaderFacts DataFacts ParseFacts CompositeFacts Heap SpecHeap.

Fixpoint safe {R} (Q : R -> memory -> Prop) (p : prog R) (m : memory) : Prop :=
  match p with
  | Ret r => Q r m
  | Alloc b k => forall a, m a = None -> safe Q (k a) (upd m a b)
  | GetRow a i k => exists l r, m a = Some (Rows l) /\ index l i = Some r /\ safe Q (k r) m
  | SetRow a i r k => exists l l', m a = Some (Rows l) /\ assign l i r = Some l' /\ safe Q k (upd m a (Rows l'))
  | GetFloats a k => exists l, m a = Some (Floats l) /\ safe Q (k l) m
  | SetFloat a i v k => exists l l', m a = Some (Floats l) /\ assign l i v = Some l' /\ safe Q k (upd m a (Floats l'))
  end.

Lemma safe_bind {R S} (Q : S -> memory -> Prop) (f : R -> prog S) : forall p m,
  safe (fun r m' => safe Q (f r) m') p m -> safe Q (pbind p f) m.
Proof.
  induction p as [r|b k IH|a i k IH|a i r k IH|a k IH|a i v k IH]; intros m; cbn; auto.
  - intros (l & r & H1 & H2 & H3). exists l, r. auto.
  - intros (l & l' & H1 & H2 & H3). exists l, l'. auto.
  - intros (l & H1 & H3). exists l. auto.
  - intros (l & l' & H1 & H2 & H3). exists l, l'. auto.
Qed.

Lemma safe_mono {R} (Q Q' : R -> memory -> Prop) (H : forall r m, Q r m -> Q' r m) : forall p m,
  safe Q p m -> safe Q' p m.
Proof.
  induction p as [r|b k IH|a i k IH|a i r k IH|a k IH|a i v k IH]; intros m; cbn; auto.
  - intros (l & r & H1 & H2 & H3). exists l, r. auto.
  - intros (l & l' & H1 & H2 & H3). exists l, l'. auto.
  - intros (l & H1 & H3). exists l. auto.
  - intros (l & l' & H1 & H2 & H3). exists l, l'. auto.
Qed.

Lemma upd_same m a b : upd m a b a = Some b.
Proof. unfold upd. now rewrite Nat.eqb_refl. Qed.
Lemma upd_other m a b a' : a' <> a -> upd m a b a' = m a'.
Proof. unfold upd. intros H. apply Nat.eqb_neq in H. now rewrite H. Qed.

(** The memory of a table: the array of rows and the rows' arrays. *)
Definition owns (m : memory) (t : nat) (addrs : list nat) (plain : list (list f32)) : Prop :=
  m t = Some (Rows (map Some addrs)) /\ NoDup addrs /\ length addrs = length plain /\
  forall k a r, nth_error addrs k = Some a -> nth_error plain k = Some r -> m a = Some (Floats r).

Lemma nth_both {X Y} (l : list X) (l' : list Y) k : length l = length l' -> (k < length l)%nat ->
  exists x y, nth_error l k = Some x /\ nth_error l' k = Some y.
Proof.
  intros Hl Hk. destruct (nth_error l k) eqn:H1; [|apply nth_error_None in H1; lia].
  destruct (nth_error l' k) eqn:H2; [|apply nth_error_None in H2; lia]. eauto.
Qed.

Lemma owns_distinct m t addrs plain k a : owns m t addrs plain -> nth_error addrs k = Some a -> a <> t.
Proof.
  intros (H1 & _ & Hl & H2) Hk ->.
  destruct (nth_both addrs plain k Hl) as (x & r & Hx & Hr); [apply nth_error_Some; congruence|].
  assert (m t = Some (Floats r)) by eauto. congruence.
Qed.

Lemma NoDup_nth {X} (l : list X) i j x : NoDup l -> nth_error l i = Some x -> nth_error l j = Some x -> i = j.
Proof. intros H Hi Hj. rewrite NoDup_nth_error in H. apply H; [apply nth_error_Some; congruence|congruence]. Qed.

Lemma owns_write m t addrs plain k a r : owns m t addrs plain -> nth_error addrs k = Some a ->
  owns (upd m a (Floats r)) t addrs (replace_nth plain k r).
Proof.
  intros Ho Hk. pose proof (owns_distinct _ _ _ _ _ _ Ho Hk) as Hne.
  destruct Ho as (H1 & Hnd & Hl & H2). repeat split; auto.
  - rewrite upd_other by congruence. assumption.
  - now rewrite replace_nth_length.
  - intros j a' r' Ha Hr. destruct (Nat.eq_dec j k) as [->|Hj].
    + rewrite Hk in Ha. injection Ha as <-. rewrite upd_same.
      rewrite replace_nth_same in Hr by (rewrite <- Hl; apply nth_error_Some; congruence). congruence.
    + rewrite replace_nth_other in Hr by congruence. rewrite upd_other; [eauto|].
      intros ->. apply Hj. eapply NoDup_nth; eauto.
Qed.

(** Writing a row element by element. *)
Lemma write_row_safe (Q : unit -> memory -> Prop) a : forall l m pre post,
  m a = Some (Floats (pre ++ post)) -> length post = length l ->
  (forall m', m' a = Some (Floats (pre ++ l)) -> (forall a', a' <> a -> m' a' = m a') -> Q tt m') ->
  safe Q (write_row a (len pre) l) m.
Proof.
  induction l as [|v l IH]; intros m pre post Hm Hl HQ; cbn [write_row safe].
  - destruct post; [|discriminate]. apply HQ; auto.
  - destruct post as [|w post]; [discriminate|]. cbn in Hl.
    exists (pre ++ w :: post), (pre ++ v :: post). split; [assumption|]. split.
    + rewrite assign_some by (rewrite len_app, len_cons; pose proof (len_nonneg pre); pose proof (len_nonneg post); lia).
      f_equal. unfold len. rewrite Nat2Z.id. clear. induction pre; cbn; congruence.
    + replace (len pre + 1) with (len (pre ++ [v])) by (rewrite len_app; reflexivity).
      apply IH with (post := post).
      * rewrite upd_same. now rewrite <- app_assoc.
      * lia.
      * intros m' H1 H2. apply HQ.
        -- rewrite <- app_assoc in H1. exact H1.
        -- intros a' Ha. rewrite H2 by assumption. now apply upd_other.
Qed.

Lemma owns_rewrite m m' t addrs plain k a r : owns m t addrs plain -> nth_error addrs k = Some a ->
  m' a = Some (Floats r) -> (forall a', a' <> a -> m' a' = m a') -> owns m' t addrs (replace_nth plain k r).
Proof.
  intros Ho Hk H1 H2. pose proof (owns_write m t addrs plain k a r Ho Hk) as (G1 & G2 & G3 & G4).
  assert (Heq : forall b, m' b = upd m a (Floats r) b).
  { intros b. destruct (Nat.eq_dec b a) as [->|Hb]; [now rewrite upd_same|rewrite upd_other; auto]. }
  repeat split; auto.
  - now rewrite Heq.
  - intros. rewrite Heq. eauto.
Qed.

(** The row loops do what Data.row_loop does. *)
Section Loop.
Context {T : Type}.
Variable read : list byte -> option (list byte * list byte).
Variable eread : error.
Variable decode : list f32 -> list byte -> row_result.
Variable row : Z -> Z.
Hypothesis Hdec : forall w, width_ok decode w.

Lemma row_loop_safe t addrs n0 cap : forall n i (c : composite T) s m, owns m t addrs (c_plain c) ->
  n0 = len addrs ->
  safe (fun r m' =>
    match row_loop read eread decode row n i c s, r with
    | Value (c', s'), Continue rest => rest = s' /\ exists p, c' = set_plain c p /\ owns m' t addrs p
    | Failure e c', Stop e' => e' = e /\ exists p, c' = set_plain c p /\ owns m' t addrs p
    | Panic, Crash => True
    | _, _ => False
    end)
    (mem_row_loop read eread decode row (mk_table t 0 n0 cap) n i s) m.
Proof.
  induction n as [|n IH]; intros i c s m Ho Hn0; cbn [mem_row_loop row_loop t_arr t_off t_len].
  - cbn. split; [reflexivity|]. exists (c_plain c). split; [destruct c; reflexivity|assumption].
  - destruct (read s) as [[line s1]|].
    2:{ cbn. split; [reflexivity|]. exists (c_plain c). split; [destruct c; reflexivity|assumption]. }
    pose proof Ho as (Ht & _ & Hl & Hrows).
    destruct ((0 <=? row i) && (row i <? n0)) eqn:Hb.
    2:{ rewrite index_none; [exact I|]. rewrite andb_false_iff in Hb. unfold len in *. lia. }
    rewrite andb_true_iff in Hb.
    destruct (nth_both addrs (c_plain c) (Z.to_nat (row i)) Hl) as (a & dst & Ha & Hd); [unfold len in *; lia|].
    rewrite index_nth by lia. rewrite Hd. rewrite Z.add_0_l.
    cbn [safe]. exists (map Some addrs), (Some a). split; [assumption|]. split.
    { rewrite index_nth by lia. rewrite nth_error_map, Ha. reflexivity. }
    cbn [safe]. exists dst. split; [eauto|].
    pose proof (Hdec (length dst) dst line eq_refl) as Hw.
    assert (Hbl : 0 <= row i < len (c_plain c)) by (unfold len in *; lia).
    destruct (decode dst line) as [d|e d|].
    + rewrite assign_some by assumption. apply safe_bind.
      apply (write_row_safe _ a d m [] dst); [eauto|congruence|].
      intros m' H1 H2. cbn [app] in H1.
      specialize (IH (i + 1) (set_plain c (replace_nth (c_plain c) (Z.to_nat (row i)) d)) s1 m').
      eapply safe_mono; [|apply IH; [cbn; eapply owns_rewrite; eauto|assumption]].
      intros r m2. cbv beta. destruct (row_loop _ _ _ _ _ _ _ _) as [[c' s']|e c'|]; destruct r; auto.
    + rewrite assign_some by assumption. apply safe_bind.
      apply (write_row_safe _ a d m [] dst); [eauto|congruence|].
      intros m' H1 H2. cbn. split; [reflexivity|]. eexists. split; [reflexivity|].
      eapply owns_rewrite; eauto.
    + contradiction.
Qed.
End Loop.

Lemma NoDup_snoc {X} (l : list X) a : NoDup l -> ~ In a l -> NoDup (l ++ [a]).
Proof.
  intros Hl Ha. apply NoDup_rev in Hl. rewrite <- (rev_involutive (l ++ [a])). apply NoDup_rev.
  rewrite rev_app_distr. cbn. constructor; [now rewrite <- in_rev|assumption].
Qed.

(** Allocation of the rows (data.go:55-58). *)
Lemma make_rows_safe t n0 px zs : make 4 (S754_zero false : f32) px = Some zs -> forall n done m,
  m t = Some (Rows (map Some done ++ repeat None n)) -> NoDup done ->
  (forall a, In a done -> m a = Some (Floats zs)) ->
  safe (fun ok m' => ok = true /\ exists addrs, owns m' t addrs (repeat zs (length done + n)))
    (make_rows (mk_table t 0 n0 n0) px n (len done)) m.
Proof.
  intros Hmk. induction n as [|n IH]; intros done m Hm Hnd Hd; cbn [make_rows].
  - cbn. split; [reflexivity|]. exists done. rewrite app_nil_r in Hm. rewrite Nat.add_0_r.
    repeat split; auto; [now rewrite repeat_length|].
    intros k a r Ha Hr. apply nth_error_In in Hr. apply repeat_spec in Hr as ->. apply Hd. eapply nth_error_In; eauto.
  - rewrite Hmk. cbn [safe t_arr t_off]. intros a Ha. rewrite Z.add_0_l.
    assert (Hat : a <> t) by congruence.
    exists (map Some done ++ repeat None (S n)), (map Some (done ++ [a]) ++ repeat None n).
    split; [rewrite upd_other by congruence; assumption|]. split.
    { rewrite assign_some.
      - f_equal. unfold len. rewrite Nat2Z.id, map_app, <- app_assoc. cbn. clear.
        induction done; cbn; congruence.
      - rewrite len_app, len_map, len_repeat. pose proof (len_nonneg done). lia. }
    replace (len done + 1) with (len (done ++ [a])) by (rewrite len_app; reflexivity).
    assert (Hnin : ~ In a done) by (intros Hin; apply Hd in Hin; congruence).
    eapply safe_mono; [|apply IH].
    + intros ok m'. cbv beta. rewrite app_length. cbn. replace (length done + S n)%nat with (length done + 1 + n)%nat by lia. auto.
    + now rewrite upd_same.
    + apply NoDup_snoc; auto.
    + intros b Hb. apply in_app_or in Hb as [Hb|[<-|[]]].
      * rewrite !upd_other; auto; [congruence|]. intros ->. apply Hd in Hb. congruence.
      * rewrite upd_other by congruence. now rewrite upd_same.
Qed.

Section Parse.
Variable A : arith.
Variable E : goenv.
Notation T := (num A).

Definition parse_post (t : nat) (addrs : list nat) (o : outcome T (composite T * list byte)) (c : composite T)
    (r : progress) (m' : memory) : Prop :=
  match o, r with
  | Value (c', s'), Continue rest => rest = s' /\ exists p, c' = set_plain c p /\ owns m' t addrs p
  | Failure e c', Stop e' => e' = e /\ exists p, c' = set_plain c p /\ owns m' t addrs p
  | Panic, Crash => True
  | _, _ => False
  end.

Lemma nonempty_test {X} (l : list X) : (0 <? len l) = match l with [] => false | _ => true end.
Proof. destruct l; [reflexivity|]. rewrite len_cons. pose proof (len_nonneg l). lia. Qed.

Lemma parse_encoding_safe e (c : composite T) t addrs s m : owns m t addrs (c_plain c) ->
  safe (parse_post t addrs (parse_encoding e c s) c)
    (mem_parse_encoding A e c (mk_table t 0 (len addrs) (len addrs)) s) m.
Proof.
  intros Ho. pose proof Ho as (_ & _ & Hl & _).
  assert (Hlen : len addrs = len (c_plain c)) by (unfold len; congruence).
  destruct e; cbn [mem_parse_encoding parse_encoding].
  - unfold mem_parse_runlength, parse_runlength. cbn [t_len].
    replace (Z.to_nat (len addrs)) with (length (c_plain c)) by (unfold len; lia).
    eapply row_loop_safe; eauto. intros w. apply decode_runlength_width.
  - unfold mem_parse_little_endian, parse_little_endian. cbn [t_len]. rewrite Hlen, nonempty_test.
    replace (Z.to_nat (len (c_plain c))) with (length (c_plain c)) by (unfold len; lia).
    destruct (make 1 Byte.x00 (int_wrap (c_dx c * 2))) as [b|]; destruct (c_plain c) as [|r0 rs] eqn:Hp; cbv iota;
      try exact I; rewrite <- Hp in *; (eapply row_loop_safe; eauto; intros w; apply decode_little_endian_width).
  - unfold mem_parse_single_byte, parse_single_byte. cbn [t_len]. rewrite Hlen, nonempty_test.
    replace (Z.to_nat (len (c_plain c))) with (length (c_plain c)) by (unfold len; lia).
    destruct (make 1 Byte.x00 (c_dx c)) as [b|]; destruct (c_plain c) as [|r0 rs] eqn:Hp; cbv iota;
      try exact I; rewrite <- Hp in *; (eapply row_loop_safe; eauto; intros w; apply decode_single_byte_width).
  - cbn. split; [reflexivity|]. exists (c_plain c). split; [destruct c; reflexivity|assumption].
Qed.

(** The parsers look at nothing but the header fields and the rows. *)
Lemma mem_parse_encoding_plain e (c : composite T) p t s :
  mem_parse_encoding A e (set_plain c p) t s = mem_parse_encoding A e c t s.
Proof. destruct c, e; reflexivity. Qed.

Lemma empty_none (b : nat) : (fun _ : nat => @None block) b = None.
Proof. reflexivity. Qed.

Lemma parse_data_safe (c : composite T) s : c_plain c = [] ->
  safe (fun tr m' =>
    match parse_data c s, snd tr with
    | Value (c', s'), Continue rest => rest = s' /\ exists t addrs p, c' = set_plain c p /\
        fst tr = mk_table t 0 (len addrs) (len addrs) /\ owns m' t addrs p
    | Failure e c', Stop e' => e' = e /\
        ((c' = c /\ fst tr = nil_table) \/
         exists t addrs p, c' = set_plain c p /\ fst tr = mk_table t 0 (len addrs) (len addrs) /\ owns m' t addrs p)
    | Panic, Crash => True
    | _, _ => False
    end) (mem_parse_data A c s) (fun _ => None).
Proof.
  intros Hc. rewrite parse_data_eq. unfold mem_parse_data.
  destruct ((c_px c =? 0) || (c_py c =? 0)) eqn:H0.
  { cbn. split; [reflexivity|]. left. auto. }
  apply orb_false_iff in H0 as [H1 H2].
  destruct (make 24 (None : option nat) (c_py c)) as [rows|] eqn:Hm.
  2:{ apply make_none in Hm.
      replace ((0 <? c_px c) && (0 <? c_py c) && (c_px c * 4 <=? max_alloc) && (c_py c * 24 <=? max_alloc)) with false; [exact I|].
      symmetry. rewrite !andb_false_iff. lia. }
  apply make_inv in Hm as (Hm1 & Hm2 & ->).
  cbn [safe]. intros t _. apply safe_bind.
  rewrite repeat_length, len_repeat.
  destruct (make 4 (S754_zero false : f32) (c_px c)) as [zs|] eqn:Hz.
  2:{ pose proof Hz as Hz0. apply make_none in Hz.
      replace ((0 <? c_px c) && (0 <? c_py c) && (c_px c * 4 <=? max_alloc) && (c_py c * 24 <=? max_alloc)) with false
        by (symmetry; rewrite !andb_false_iff; lia).
      destruct (Z.to_nat (c_py c)) eqn:Hn; [lia|]. cbn [make_rows]. unfold f32 in *. rewrite Hz0. exact I. }
  eapply safe_mono; [|apply (make_rows_safe t (Z.of_nat (Z.to_nat (c_py c))) (c_px c) zs Hz (Z.to_nat (c_py c)) [])].
  - cbn [length Nat.add]. intros ok m' (-> & addrs & Ho). apply safe_bind.
    apply make_inv in Hz as (Hz1 & Hz2 & ->).
    replace ((0 <? c_px c) && (0 <? c_py c) && (c_px c * 4 <=? max_alloc) && (c_py c * 24 <=? max_alloc)) with true
      by (symmetry; rewrite !andb_true_iff; lia).
    cbv zeta. fold (blank c) in Ho.
    pose proof Ho as (_ & _ & Hl & _). unfold blank in Hl. rewrite repeat_length in Hl.
    replace (Z.of_nat (Z.to_nat (c_py c))) with (len addrs) by (unfold len; lia).
    rewrite <- (mem_parse_encoding_plain _ c (blank c)).
    change (identify_encoding (set_plain c (blank c))) with (identify_encoding c).
    eapply safe_mono; [|apply (parse_encoding_safe (identify_encoding c) (set_plain c (blank c)) t addrs s m' Ho)].
    intros r m2 Hp. cbn [safe fst snd]. unfold parse_post in Hp.
    destruct (parse_encoding _ _ s) as [[c' s']|e c'|]; destruct r; auto.
    + destruct Hp as (-> & p & -> & Hp). split; [reflexivity|]. exists t, addrs, p. auto.
    + destruct Hp as (-> & p & -> & Hp). split; [reflexivity|]. right. exists t, addrs, p. auto.
  - now rewrite upd_same.
  - constructor.
  - intros a [].
Qed.
End Parse.

(** Windows of the plain data. *)
Lemma view_rows m t addrs plain : owns m t addrs plain -> map (view_row m) (map Some addrs) = plain.
Proof.
  intros (_ & _ & Hl & H). revert plain Hl H. induction addrs as [|a l IH]; intros [|r plain] Hl H; try discriminate; [reflexivity|].
  cbn. rewrite (H 0%nat a r eq_refl eq_refl). f_equal. apply IH; [cbn in Hl; lia|].
  intros k a' r' Ha Hr. exact (H (S k) a' r' Ha Hr).
Qed.

Lemma view_window m t addrs plain off l cap : owns m t addrs plain ->
  view_table m (mk_table t off l cap) = firstn (Z.to_nat l) (skipn (Z.to_nat off) plain).
Proof.
  intros Ho. unfold view_table. cbn. pose proof Ho as (-> & _).
  rewrite <- firstn_map, <- skipn_map, (view_rows _ _ _ _ Ho). reflexivity.
Qed.

Lemma view_whole m t addrs plain cap : owns m t addrs plain ->
  view_table m (mk_table t 0 (len addrs) cap) = plain.
Proof.
  intros Ho. rewrite (view_window _ _ _ _ _ _ _ Ho). pose proof Ho as (_ & _ & Hl & _).
  unfold len. rewrite Nat2Z.id, Hl. cbn. apply firstn_all.
Qed.

Lemma view_nil m : view_table m nil_table = [].
Proof. unfold view_table. cbn. destruct (m 0%nat) as [[l|l]|]; reflexivity. Qed.

Section Arrange.
Variable A : arith.
Notation T := (num A).
Implicit Types c : composite T.

Definition layer_table (t : nat) (n dy : Z) (off : Z) : table := mk_table t off dy (n - off).

Lemma mem_split_layers_eq t n dy : 0 < dy -> forall k i, 0 <= i -> dy * (i + Z.of_nat k) <= n ->
  mem_split_layers (mk_table t 0 n n) dy k i =
    Some (map (fun j => layer_table t n dy ((i + Z.of_nat j) * dy)) (seq 0 k)).
Proof.
  intros Hdy. induction k as [|k IH]; intros i Hi Hn; cbn [mem_split_layers]; [reflexivity|].
  unfold subtable. cbn [t_cap t_arr t_off].
  replace ((0 <=? dy * i) && (dy * i <=? dy * (i + 1)) && (dy * (i + 1) <=? n)) with true by (symmetry; rewrite !andb_true_iff; nia).
  rewrite IH by lia. cbn [seq map]. f_equal. f_equal.
  - unfold layer_table. f_equal; lia.
  - rewrite <- seq_shift, map_map. apply map_ext. intros j. f_equal. lia.
Qed.

Lemma split_layers_eq (plain : list (list f32)) dy : 0 < dy -> forall k i, 0 <= i -> dy * (i + Z.of_nat k) <= len plain ->
  split_layers plain dy k i =
    Some (map (fun j => firstn (Z.to_nat dy) (skipn (Z.to_nat ((i + Z.of_nat j) * dy)) plain)) (seq 0 k)).
Proof.
  intros Hdy. induction k as [|k IH]; intros i Hi Hn; cbn [split_layers]; [reflexivity|].
  rewrite slice_some by nia. rewrite IH by lia. cbn [seq map]. f_equal. f_equal.
  - f_equal; [lia|]. f_equal. lia.
  - rewrite <- seq_shift, map_map. apply map_ext. intros j. f_equal. f_equal. lia.
Qed.

(** The tables DataZ and Data of an arranged composite. *)
Definition layered c (t : nat) (n : Z) (dz : list table) (d0 : table) : Prop :=
  index dz 0 = Some d0 /\
  (0 < c_dy c /\ c_py c = n /\ if c_py c mod c_dy c =? 0 then len dz * c_dy c = n else len dz = 1) /\
  forall z tz, index dz z = Some tz -> tz = layer_table t n (c_dy c) (layer_top c z) /\
    0 <= layer_top c z /\ layer_top c z + c_dy c <= n.

Lemma arrange_data_mem c p t n : dims_ok (set_plain c p) -> dims_pos (set_plain c p) -> plain_ok (set_plain c p) ->
  n = len p ->
  exists dz d0, mem_arrange_data A c (mk_table t 0 n n) = Some (dz, d0) /\ layered c t n dz d0 /\
    forall m addrs, owns m t addrs p ->
      arrange_data (set_plain c p) =
        Some (set_data (set_dz (set_dataz (set_plain c p) (map (view_table m) dz)) (len dz)) (view_table m d0)).
Proof.
  intros Hd (Hpx & Hpy & Hdx & Ha1 & Ha2) [Hl Hw] Hn.
  change (c_plain (set_plain c p)) with p in *.
  change (c_px (set_plain c p)) with (c_px c) in *. change (c_py (set_plain c p)) with (c_py c) in *.
  change (c_dx (set_plain c p)) with (c_dx c) in *.
  assert (Hdy : 0 < c_dy c /\ c_dy c <= c_py c) by (clear - Hd Hpx Hpy Hdx; unfold dims_ok in Hd; cbn in Hd; lia).
  destruct Hdy as (Hdy & Hdpy).
  unfold mem_arrange_data, arrange_data.
  change (c_plain (set_plain c p)) with p.
  change (c_py (set_plain c p)) with (c_py c) in *. change (c_dy (set_plain c p)) with (c_dy c) in *.
  replace (c_dy c =? 0) with false by lia.
  rewrite Z.rem_mod_nonneg by lia.
  destruct (c_py c mod c_dy c =? 0) eqn:Hrem.
  - apply Z.eqb_eq in Hrem. rewrite Z.quot_div_nonneg by lia.
    assert (Hq : c_dy c * (c_py c / c_dy c) = c_py c) by (rewrite (Z.div_mod (c_py c) (c_dy c)) at 2; lia).
    set (q := c_py c / c_dy c) in *. clearbody q.
    assert (Hq1 : 1 <= q) by nia.
    rewrite !make_some by nia. rewrite !repeat_length.
    rewrite mem_split_layers_eq by nia. rewrite split_layers_eq by nia.
    set (dz := map _ (seq 0 (Z.to_nat q))).
    assert (Hdz : len dz = q) by (unfold dz, len; rewrite map_length, seq_length; lia).
    assert (Hidx : forall z tz, index dz z = Some tz -> 0 <= z < q /\ tz = layer_table t n (c_dy c) (z * c_dy c)).
    { intros z tz Hz. apply index_inv in Hz as [Hz1 Hz2]. split; [lia|].
      unfold dz in Hz2. rewrite nth_error_map in Hz2.
      destruct (nth_error (seq 0 (Z.to_nat q)) (Z.to_nat z)) as [j|] eqn:Hj; [|discriminate].
      apply nth_error_nth with (d := 0%nat) in Hj. rewrite seq_nth in Hj by lia. cbn in Hj. subst j.
      cbn in Hz2. injection Hz2 as <-. f_equal. lia. }
    destruct (index_some dz 0) as [d0 Hd0]; [lia|]. rewrite Hd0.
    exists dz, d0. split; [reflexivity|]. split.
    + split; [assumption|]. split; [split; [assumption|]; split; [lia|]; replace (c_py c mod c_dy c =? 0) with true by lia; nia|].
      intros z tz Hz. apply Hidx in Hz as [Hz ->].
      unfold layer_top. rewrite Hrem. cbn. split; [reflexivity|]. nia.
    + intros m addrs Ho.
      assert (Hv : map (view_table m) dz = map (fun j : nat =>
          firstn (Z.to_nat (c_dy c)) (skipn (Z.to_nat ((0 + Z.of_nat j) * c_dy c)) p)) (seq 0 (Z.to_nat q))).
      { unfold dz. rewrite map_map. apply map_ext. intros j. unfold layer_table.
        rewrite (view_window m t addrs p) by assumption. reflexivity. }
      rewrite <- Hv.
      replace (index (map (view_table m) dz) 0) with (Some (view_table m d0)).
      2:{ symmetry. rewrite index_nth, nth_error_map by lia. rewrite index_nth in Hd0 by lia. rewrite Hd0. reflexivity. }
      rewrite len_map. reflexivity.
  - unfold subtable. cbn [t_arr t_off t_len t_cap].
    replace ((0 <=? c_py c - c_dy c) && (c_py c - c_dy c <=? n) && (n <=? n)) with true by (symmetry; rewrite !andb_true_iff; lia).
    rewrite slice_some by lia.
    set (d0 := mk_table t _ _ _).
    assert (Hd0 : d0 = layer_table t n (c_dy c) (layer_top c 0)).
    { unfold d0, layer_table, layer_top. rewrite Hrem. f_equal; lia. }
    exists [d0], d0. split; [reflexivity|]. split.
    + split; [reflexivity|]. split; [split; [assumption|]; split; [lia|]; rewrite Hrem; reflexivity|]. intros z tz Hz. apply index_inv in Hz as [Hz1 Hz2].
      unfold len in Hz1. cbn in Hz1. replace (Z.to_nat z) with 0%nat in Hz2 by lia. cbn in Hz2. injection Hz2 as <-.
      replace z with 0 by lia. split; [assumption|]. unfold layer_top. rewrite Hrem. lia.
    + intros m addrs Ho. cbn [map]. unfold d0. rewrite (view_window m t addrs p) by assumption.
      cbn [index]. unfold index. cbn -[firstn skipn]. 
      replace (Z.to_nat (n - (c_py c - c_dy c))) with (Z.to_nat (len p - (c_py c - c_dy c))) by (subst n; reflexivity).
      reflexivity.
Qed.

(** Calibration ignores the data fields. *)
Definition with_data c p z d : composite T := set_data (set_dataz (set_plain c p) z) d.
Ltac same_project n e :=
  match goal with |- context [project A ?x n e] =>
    match goal with |- context [project A ?y n e] =>
      tryif constr_eq x y then fail
      else (change (project A x n e) with (project A y n e); destruct (project A y n e)) end end.
Lemma calibrate_with_data c p z d :
  calibrate_projection A (with_data c p z d) = with_data (calibrate_projection A c) p z d.
Proof.
  unfold calibrate_projection. cbv zeta.
  change (c_dx (set_offy (set_offx (set_ry (set_rx (with_data c p z d) (n_nan A)) (n_nan A)) (n_nan A)) (n_nan A)))
    with (c_dx c).
  change (c_dy (set_offy (set_offx (set_ry (set_rx (with_data c p z d) (n_nan A)) (n_nan A)) (n_nan A)) (n_nan A)))
    with (c_dy c).
  change (c_format (set_offy (set_offx (set_ry (set_rx (with_data c p z d) (n_nan A)) (n_nan A)) (n_nan A)) (n_nan A)))
    with (c_format c).
  change (c_dx (set_offy (set_offx (set_ry (set_rx c (n_nan A)) (n_nan A)) (n_nan A)) (n_nan A))) with (c_dx c).
  change (c_dy (set_offy (set_offx (set_ry (set_rx c (n_nan A)) (n_nan A)) (n_nan A)) (n_nan A))) with (c_dy c).
  change (c_format (set_offy (set_offx (set_ry (set_rx c (n_nan A)) (n_nan A)) (n_nan A)) (n_nan A))) with (c_format c).
  destruct (corner_points A (c_format c) (detect_grid (c_dx c) (c_dy c))) as [[[ot ol] [eb er]]|]; [|reflexivity].
  destruct (5 <=? c_format c).
  - destruct (detect_grid (c_dx c) (c_dy c)); reflexivity.
  - same_project ot ol. same_project eb er. reflexivity.
Qed.
End Arrange.
