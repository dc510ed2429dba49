(** Splitting a header text into fields. *)
From Coq Require Import Lia.
From Verif Require Import GoBase GoUtf8 GoScan GoFloat Catalog Composite Header Spec SpecHeader BaseFacts FieldFacts HeaderSafe.
From Coq Require String. Import String.StringSyntax.

Fixpoint numbered (i : Z) (s : list byte) : list (Z * Z) :=
  match s with [] => [] | b :: t => (i, bz b) :: numbered (i + 1) t end.

Lemma range_ascii s : Forall (fun b => bz b < 128) s -> forall i, range_from i 0 s = numbered i s.
Proof.
  induction 1 as [|b s Hb _ IH]; intros i; [reflexivity|]. cbn [range_from numbered].
  unfold decode_rune. apply Z.ltb_lt in Hb. rewrite Hb. cbn. now rewrite IH.
Qed.

Lemma numbered_app a b : forall i, numbered i (a ++ b) = numbered i a ++ numbered (i + len a) b.
Proof.
  induction a as [|x a IH]; intros i; cbn [numbered app].
  - rewrite len_nil. now rewrite Z.add_0_r.
  - rewrite IH, len_cons. do 3 f_equal. lia.
Qed.

Lemma runes_ascii s : Forall (fun b => bz b < 128) s -> runes s = map bz s.
Proof.
  intros H. unfold runes, range_string. rewrite range_ascii by assumption. generalize 0.
  clear H. induction s as [|b s IH]; intros i; cbn; [reflexivity|]. now rewrite IH.
Qed.

Lemma upper_capital up b : bz b < 128 -> is_upper up (bz b) = true <-> capital b.
Proof.
  intros H. unfold is_upper, between, capital. pose proof (bz_range b).
  replace (bz b <=? 255) with true by (symmetry; apply Z.leb_le; lia).
  rewrite !orb_true_iff, !andb_true_iff, !Z.leb_le. lia.
Qed.
Lemma capital_upper up b : capital b -> is_upper up (bz b) = true.
Proof. intros H. apply upper_capital; [unfold capital in H; lia|assumption]. Qed.
Lemma plain_upper up b : plain_char b -> is_upper up (bz b) = false.
Proof. intros [H H']. apply not_true_is_false. now rewrite upper_capital. Qed.

Section Run.
Variable G : goenv.
Variable header : list byte.

(** Reading the rest of a key. *)
Lemma run_key k : Forall capital k -> forall i m bk ek bv ev rest, k <> [] ->
  split_loop G header (mk_split m bk ek bv ev false) (numbered i k ++ rest) =
  split_loop G header (mk_split m bk (i + len k) bv ev false) rest.
Proof.
  induction 1 as [|b k Hb Hk IH]; intros i m bk ek bv ev rest Hne; [congruence|].
  cbn [numbered app split_loop]. unfold split_step. rewrite capital_upper by assumption. cbn [sp_dispatch sp_map sp_bk sp_ek sp_bv sp_ev].
  destruct k as [|b' k].
  - reflexivity.
  - rewrite IH by discriminate. rewrite (len_cons b). do 2 f_equal. lia.
Qed.

Lemma run_key_store k i m bk ek bv ev rest m' : Forall capital k -> k <> [] ->
  split_store header (mk_split m bk ek bv ev true) = Some m' ->
  split_loop G header (mk_split m bk ek bv ev true) (numbered i k ++ rest) =
  split_loop G header (mk_split m' i (i + len k) bv ev false) rest.
Proof.
  intros Hk Hne Hs. destruct Hk as [|b k Hb Hk]; [congruence|].
  cbn [numbered app split_loop]. unfold split_step. rewrite capital_upper by assumption. cbn [sp_dispatch].
  rewrite Hs. destruct k as [|b' k].
  - reflexivity.
  - rewrite run_key by (auto; discriminate). rewrite (len_cons b). cbn [sp_bv sp_ev]. do 2 f_equal. lia.
Qed.

Lemma run_value_more v : Forall plain_char v -> forall i m bk ek bv ev rest, 0 < i -> v <> [] ->
  split_loop G header (mk_split m bk ek bv ev true) (numbered i v ++ rest) =
  split_loop G header (mk_split m bk ek bv (i + len v) true) rest.
Proof.
  induction 1 as [|b v Hb Hv IH]; intros i m bk ek bv ev rest Hi Hne; [congruence|].
  cbn [numbered app split_loop]. unfold split_step. rewrite plain_upper by assumption.
  replace (i =? 0) with false by (symmetry; apply Z.eqb_neq; lia). cbn [sp_dispatch sp_map sp_bk sp_ek sp_bv sp_ev].
  destruct v as [|b' v].
  - reflexivity.
  - rewrite IH by (try discriminate; lia). rewrite (len_cons b). do 2 f_equal. lia.
Qed.
Lemma run_value v i m bk ek bv ev rest : Forall plain_char v -> 0 < i -> v <> [] ->
  split_loop G header (mk_split m bk ek bv ev false) (numbered i v ++ rest) =
  split_loop G header (mk_split m bk ek i (i + len v) true) rest.
Proof.
  intros Hv Hi Hne. destruct Hv as [|b v Hb Hv]; [congruence|].
  cbn [numbered app split_loop]. unfold split_step. rewrite plain_upper by assumption.
  replace (i =? 0) with false by (symmetry; apply Z.eqb_neq; lia). cbn [sp_dispatch sp_map sp_bk sp_ek].
  destruct v as [|b' v].
  - reflexivity.
  - rewrite run_value_more by (auto; try discriminate; lia). rewrite (len_cons b). do 2 f_equal. lia.
Qed.

Lemma store_mid pre k v post m bv ev : header = pre ++ k ++ v ++ post ->
  split_store header (mk_split m (len pre) (len pre + len k) (len pre + len k) (len pre + len k + len v) bv) =
    Some ((k, v) :: m) /\ ev = ev :> Z.
Proof.
  intros ->. split; [|reflexivity]. unfold split_store. cbn [sp_bk sp_ek sp_bv sp_ev sp_map].
  rewrite (slice_app_mid pre k (v ++ post)).
  rewrite (app_assoc pre k). rewrite <- (len_app pre k). now rewrite (slice_app_mid (pre ++ k) v post).
Qed.
End Run.

Lemma pair_numbered i k v rest : numbered i (k ++ v) ++ rest = numbered i k ++ numbered (i + len k) v ++ rest.
Proof. rewrite numbered_app. now rewrite app_assoc. Qed.

(** With a field [k v] pending just before position [len pre]. *)
Lemma run_fields G : forall fields tail header pre k v m,
  field_list fields -> header = pre ++ k ++ v ++ join_fields fields ++ tail ->
  0 < len pre + len k + len v ->
  exists pre' k' v' m', header = pre' ++ k' ++ v' ++ tail /\ (k', v') :: m' = rev fields ++ (k, v) :: m /\
    forall rest,
    split_loop G header (mk_split m (len pre) (len pre + len k) (len pre + len k) (len pre + len k + len v) true)
      (numbered (len pre + len k + len v) (join_fields fields) ++ rest) =
    split_loop G header (mk_split m' (len pre') (len pre' + len k') (len pre' + len k') (len pre' + len k' + len v') true) rest.
Proof.
  induction fields as [|[k1 v1] fields IH]; intros tail header pre k v m Hf Hh Hpos.
  - exists pre, k, v, m. split; [exact Hh|]. split; [reflexivity|]. intros rest. reflexivity.
  - inversion Hf as [|? ? (N1 & C1 & N2 & C2) Hf']; subst. cbn [fst snd] in *.
    pose proof (len_nonneg pre). pose proof (len_nonneg k). pose proof (len_nonneg v).
    assert (L1 : 0 < len k1) by (destruct k1; [congruence|rewrite len_cons; pose proof (len_nonneg k1); lia]).
    set (header := pre ++ k ++ v ++ join_fields ((k1, v1) :: fields) ++ tail).
    assert (Hh1 : header = (pre ++ k ++ v) ++ k1 ++ v1 ++ join_fields fields ++ tail).
    { unfold header, join_fields. cbn [map concat fst snd]. rewrite !app_assoc. reflexivity. }
    assert (Lp : len (pre ++ k ++ v) = len pre + len k + len v) by (rewrite !len_app; lia).
    destruct (IH tail header (pre ++ k ++ v) k1 v1 ((k, v) :: m) Hf' Hh1 ltac:(pose proof (len_nonneg v1); lia))
      as (pre' & k' & v' & m' & E1 & E2 & E3).
    exists pre', k', v', m'. split; [exact E1|]. split.
    { rewrite E2. cbn [rev]. now rewrite <- app_assoc. }
    intros rest. rewrite <- E3. rewrite Lp.
    unfold join_fields at 1. cbn [map concat fst snd]. fold (join_fields fields).
    rewrite numbered_app, len_app. rewrite numbered_app, <- !app_assoc.
    rewrite (run_key_store G header k1 _ m _ _ _ _ _ ((k, v) :: m)).
    + rewrite run_value by (auto; lia). rewrite Z.add_assoc. reflexivity.
    + assumption.
    + assumption.
    + apply (store_mid header pre k v (join_fields ((k1, v1) :: fields) ++ tail) m true 0). reflexivity.
Qed.

Lemma field_list_ascii fields : field_list fields -> Forall (fun b => bz b < 128) (join_fields fields).
Proof.
  induction 1 as [|[k v] fields (N1 & C1 & N2 & C2) _ IH]; [constructor|].
  unfold join_fields. cbn [map concat fst snd] in *. rewrite !Forall_app. repeat split; auto.
  - eapply Forall_impl; [|exact C1]. unfold capital. intros; lia.
  - eapply Forall_impl; [|exact C2]. now intros ? [? _].
Qed.

Lemma split_fields_state G k v fields tail : field_list ((k, v) :: fields) -> Forall (fun b => bz b < 128) tail ->
  exists pre' k' v' m', join_fields ((k, v) :: fields) ++ tail = pre' ++ k' ++ v' ++ tail /\
    (k', v') :: m' = rev ((k, v) :: fields) /\
    split_header G (join_fields ((k, v) :: fields) ++ tail) =
    split_loop G (join_fields ((k, v) :: fields) ++ tail)
      (mk_split m' (len pre') (len pre' + len k') (len pre' + len k') (len pre' + len k' + len v') true)
      (numbered (len pre' + len k' + len v') tail).
Proof.
  intros Hf Ht. pose proof (field_list_ascii _ Hf) as Ha.
  inversion Hf as [|? ? (N1 & C1 & N2 & C2) Hf']; subst. cbn [fst snd] in *.
  assert (L1 : 0 < len k) by (destruct k; [congruence|rewrite len_cons; pose proof (len_nonneg k); lia]).
  set (header := join_fields ((k, v) :: fields) ++ tail).
  assert (Hh : header = [] ++ k ++ v ++ join_fields fields ++ tail).
  { unfold header, join_fields. cbn [map concat fst snd app]. now rewrite <- !app_assoc. }
  destruct (run_fields G fields tail header [] k v [] Hf' Hh ltac:(pose proof (len_nonneg v); change (len (@nil byte)) with 0; lia))
    as (pre' & k' & v' & m' & E1 & E2 & E3).
  exists pre', k', v', m'. split; [exact E1|]. split; [exact E2|].
  assert (Hl : len pre' + len k' + len v' = len (join_fields ((k, v) :: fields))).
  { pose proof (f_equal len E1) as He. unfold header in He. rewrite !len_app in He. lia. }
  unfold split_header, range_string. rewrite range_ascii by (unfold header; rewrite Forall_app; auto).
  unfold header at 2. rewrite numbered_app, Z.add_0_l. rewrite <- Hl.
  rewrite <- E3. change (len (@nil byte)) with 0. rewrite !Z.add_0_l.
  unfold join_fields at 1. cbn [map concat fst snd]. fold (join_fields fields).
  rewrite numbered_app, (numbered_app k v), <- !app_assoc.
  rewrite run_key by auto. rewrite !Z.add_0_l. rewrite run_value by (auto; lia).
  rewrite len_app. reflexivity.
Qed.

Theorem split_fields G fields : fields <> [] -> field_list fields ->
  split_header G (join_fields fields) = Some (rev fields).
Proof.
  intros Hne Hf. destruct fields as [|[k v] fields]; [congruence|].
  destruct (split_fields_state G k v fields [] Hf ltac:(constructor)) as (pre' & k' & v' & m' & E1 & E2 & E3).
  rewrite !app_nil_r in *. rewrite E3. cbn [numbered split_loop]. rewrite <- E2. rewrite E1.
  apply (store_mid _ pre' k' v' [] m' true 0). now rewrite app_nil_r.
Qed.

(** A key at the end gets the value before it. *)
Theorem split_trailing G fields k v key : key <> [] -> Forall capital key -> field_list (fields ++ [(k, v)]) ->
  split_header G (join_fields (fields ++ [(k, v)]) ++ key) = Some ((key, v) :: (k, v) :: rev fields).
Proof.
  intros Hne Hk Hf. destruct (fields ++ [(k, v)]) as [|[k0 v0] fs] eqn:Hfs; [destruct fields; discriminate|].
  destruct (split_fields_state G k0 v0 fs key Hf) as (pre' & k' & v' & m' & E1 & E2 & E3).
  { eapply Forall_impl; [|exact Hk]. unfold capital. intros; lia. }
  rewrite E3. rewrite <- Hfs in E2. rewrite rev_app_distr in E2. cbn [rev app] in E2.
  injection E2 as -> -> E2. subst m'.
  rewrite <- (app_nil_r (numbered _ key)).
  assert (Hst : split_store (join_fields ((k0, v0) :: fs) ++ key)
    (mk_split (rev fields) (len pre') (len pre' + len k) (len pre' + len k) (len pre' + len k + len v) true) = Some ((k, v) :: rev fields)).
  { apply (store_mid _ pre' k v key (rev fields) true 0). exact E1. }
  rewrite (run_key_store G _ key _ _ _ _ _ _ _ _ Hk Hne Hst). cbn [split_loop].
  unfold split_store. cbn [sp_bk sp_ek sp_bv sp_ev sp_map]. rewrite E1.
  replace (pre' ++ k ++ v ++ key) with ((pre' ++ k ++ v) ++ key ++ []) by (now rewrite app_nil_r, <- !app_assoc).
  replace (len pre' + len k + len v) with (len (pre' ++ k ++ v)) by (rewrite !len_app; lia).
  rewrite slice_app_mid. rewrite !len_app.
  replace ((pre' ++ k ++ v) ++ key ++ []) with ((pre' ++ k) ++ v ++ key) by (now rewrite app_nil_r, <- !app_assoc).
  replace (len pre' + (len k + len v)) with (len (pre' ++ k) + len v) by (rewrite !len_app; lia).
  rewrite <- (len_app pre' k). now rewrite slice_app_mid.
Qed.

Lemma split_key_only G key : Forall capital key -> split_header G key = Some [(key, [])].
Proof.
  intros Hk. unfold split_header, range_string.
  rewrite range_ascii by (eapply Forall_impl; [|exact Hk]; unfold capital; intros; lia).
  rewrite <- (app_nil_r (numbered 0 key)).
  destruct key as [|b key]; [reflexivity|].
  rewrite run_key by (auto; discriminate). cbn [split_loop]. unfold split_store. cbn [sp_bk sp_ek sp_bv sp_ev sp_map].
  pose proof (slice_app_mid (@nil byte) (b :: key) []) as H1. cbn [app] in H1. rewrite app_nil_r in H1. change (len (@nil byte)) with 0 in H1.
  rewrite H1. pose proof (slice_app_mid (@nil byte) [] (b :: key)) as H2. cbn [app] in H2. change (len (@nil byte)) with 0 in H2. cbn [Z.add] in H2. now rewrite H2.
Qed.

Theorem split_no_key G b text : plain_char b -> split_header G (b :: text) = Some [].
Proof.
  intros Hb. unfold split_header, range_string. cbn [range_from].
  destruct Hb as [Hb Hc]. unfold decode_rune. pose proof (proj2 (Z.ltb_lt _ _) Hb) as Hb'. rewrite Hb'.
  cbn [split_loop]. unfold split_step. rewrite plain_upper by (now split). reflexivity.
Qed.

Theorem field_of_fields G fields k : field_list fields -> field G (join_fields fields) k = last_value fields k \/ fields = [].
Proof.
  intros Hf. destruct fields as [|kv fields]; [now right|left].
  rewrite (field_lookup _ _ _ _ (split_fields G (kv :: fields) ltac:(discriminate) Hf)). apply lookup_rev_last.
Qed.

(** Every ASCII text is of one of the forms above. *)
Lemma text_form text : Forall (fun b => bz b < 128) text ->
  exists pre fields key, text = pre ++ join_fields fields ++ key /\ Forall plain_char pre /\ field_list fields /\ Forall capital key.
Proof.
  induction 1 as [|b text Hb _ (pre & fields & key & -> & Hp & Hf & Hk)].
  - exists [], [], []. repeat split; constructor.
  - destruct (is_upper (fun _ => false) (bz b)) eqn:Hu.
    + apply upper_capital in Hu; [|assumption]. destruct pre as [|p pre].
      * destruct fields as [|[k v] fields].
        { exists [], [], (b :: key). split; [reflexivity|]. split; [constructor|]. split; [constructor|]. now constructor. }
        inversion Hf as [|? ? (N1 & C1 & N2 & C2) Hf']; subst. cbn [fst snd] in *.
        exists [], ((b :: k, v) :: fields), key. split; [reflexivity|]. split; [constructor|]. split; [|assumption].
        constructor; [|assumption]. cbn [fst snd]. split; [discriminate|]. split; [now constructor|]. now split.
      * exists [], (([b], p :: pre) :: fields), key. split.
        { unfold join_fields. cbn [map concat fst snd app]. now rewrite <- !app_assoc. }
        split; [constructor|]. split; [|assumption]. constructor; [|assumption]. cbn [fst snd].
        split; [discriminate|]. split; [constructor; [assumption|constructor]|]. split; [discriminate|assumption].
    + assert (Hpc : plain_char b). { split; [assumption|]. rewrite <- (upper_capital (fun _ => false)) by assumption. congruence. }
      exists (b :: pre), fields, key. split; [reflexivity|]. split; [now constructor|]. now split.
Qed.
