(** Facts about the language primitives of GoBase.v. *)
From Verif Require Import GoBase.
From Coq Require Export NArith Lia ZifyBool ZifyNat ZifyN.
Ltac Zify.zify_post_hook ::= Z.div_mod_to_equations.

Lemma bz_range b : 0 <= bz b < 256.
Proof. unfold bz. pose proof (Byte.to_N_bounded b). lia. Qed.

Lemma bz_inj a b : bz a = bz b -> a = b.
Proof.
  unfold bz; intros H. apply N2Z.inj in H.
  assert (Ha := Byte.of_to_N a). assert (Hb := Byte.of_to_N b).
  rewrite H in Ha. congruence.
Qed.

Lemma byte_eqb_eq a b : byte_eqb a b = true <-> a = b.
Proof.
  unfold byte_eqb. split; intros H.
  - now apply Byte.byte_dec_bl.
  - now apply Byte.byte_dec_lb.
Qed.

Lemma byte_eqb_refl a : byte_eqb a a = true.
Proof. now apply byte_eqb_eq. Qed.

Lemma byte_eqb_neq a b : byte_eqb a b = false <-> a <> b.
Proof.
  split; intros H.
  - intros ->. rewrite byte_eqb_refl in H. discriminate.
  - destruct (byte_eqb a b) eqn:X; [|reflexivity]. apply byte_eqb_eq in X. contradiction.
Qed.

Lemma str_eqb_eq a b : str_eqb a b = true <-> a = b.
Proof.
  revert b; induction a as [|x a IH]; intros [|y b]; cbn; try (split; congruence).
  rewrite andb_true_iff, byte_eqb_eq, IH. split; [intros [-> ->]; reflexivity|].
  intros H; injection H; auto.
Qed.

Lemma str_eqb_refl a : str_eqb a a = true.
Proof. now apply str_eqb_eq. Qed.

Lemma str_eqb_neq a b : str_eqb a b = false <-> a <> b.
Proof.
  split; intros H.
  - intros ->. rewrite str_eqb_refl in H. discriminate.
  - destruct (str_eqb a b) eqn:X; [|reflexivity]. apply str_eqb_eq in X. contradiction.
Qed.

(** A property of all bytes, checked by enumeration. *)
Definition all_bytes : list byte :=
  map (fun n => match Byte.of_N (N.of_nat n) with Some b => b | None => Byte.x00 end) (seq 0 256).
Lemma all_bytes_complete b : In b all_bytes.
Proof.
  unfold all_bytes. apply in_map_iff. exists (N.to_nat (Byte.to_N b)). split.
  - rewrite N2Nat.id, Byte.of_to_N. reflexivity.
  - apply in_seq. pose proof (Byte.to_N_bounded b). lia.
Qed.
Lemma byte_forall (P : byte -> bool) : forallb P all_bytes = true -> forall b, P b = true.
Proof. intros H b. rewrite forallb_forall in H. apply H, all_bytes_complete. Qed.

Lemma bz_surj z : 0 <= z < 256 -> exists b, bz b = z.
Proof.
  intros H. destruct (Byte.of_N (Z.to_N z)) as [b|] eqn:X.
  - exists b. unfold bz. apply Byte.to_of_N in X. rewrite X. lia.
  - apply Byte.of_N_None_iff in X. lia.
Qed.

Lemma len_nonneg {A} (l : list A) : 0 <= len l.
Proof. unfold len; lia. Qed.
Lemma len_app {A} (a b : list A) : len (a ++ b) = len a + len b.
Proof. unfold len; rewrite app_length; lia. Qed.
Lemma len_cons {A} (x : A) l : len (x :: l) = 1 + len l.
Proof. unfold len; cbn [length]; lia. Qed.
Lemma len_nil {A} : len (@nil A) = 0.
Proof. reflexivity. Qed.
Lemma len_map {A B} (f : A -> B) l : len (map f l) = len l.
Proof. unfold len; now rewrite map_length. Qed.
Lemma len_repeat {A} (x : A) n : len (repeat x n) = Z.of_nat n.
Proof. unfold len; now rewrite repeat_length. Qed.

Lemma int_wrap_id z : - 2 ^ 63 <= z < 2 ^ 63 -> int_wrap z = z.
Proof. intros H; unfold int_wrap. rewrite Z.mod_small; lia. Qed.
Lemma int_wrap_range z : - 2 ^ 63 <= int_wrap z < 2 ^ 63.
Proof. unfold int_wrap. pose proof (Z.mod_pos_bound (z + 2 ^ 63) (2 ^ 64) ltac:(lia)). lia. Qed.
Lemma in_int_iff z : in_int z = true <-> - 2 ^ 63 <= z < 2 ^ 63.
Proof. unfold in_int, int_min, int_max. rewrite andb_true_iff, !Z.leb_le. lia. Qed.

Lemma slice_some {A} (l : list A) a b :
  0 <= a -> a <= b -> b <= len l ->
  slice l a b = Some (firstn (Z.to_nat (b - a)) (skipn (Z.to_nat a) l)).
Proof.
  intros; unfold slice.
  replace ((0 <=? a) && (a <=? b) && (b <=? len l)) with true by lia. reflexivity.
Qed.

Lemma slice_inv {A} (l : list A) a b r :
  slice l a b = Some r ->
  0 <= a /\ a <= b /\ b <= len l /\
  r = firstn (Z.to_nat (b - a)) (skipn (Z.to_nat a) l).
Proof.
  unfold slice. destruct ((0 <=? a) && (a <=? b) && (b <=? len l)) eqn:X; [|discriminate].
  intros H; injection H as <-. repeat split; lia.
Qed.

Lemma slice_len {A} (l : list A) a b r : slice l a b = Some r -> len r = b - a.
Proof.
  intros H; apply slice_inv in H as (H1 & H2 & H3 & ->).
  unfold len in *. rewrite firstn_length, skipn_length. lia.
Qed.

Lemma slice_app_mid {A} (p m s : list A) :
  slice (p ++ m ++ s) (len p) (len p + len m) = Some m.
Proof.
  rewrite slice_some; rewrite ?len_app; try (pose proof (len_nonneg p); pose proof (len_nonneg m); pose proof (len_nonneg s); lia).
  unfold len. replace (Z.to_nat (Z.of_nat (length p))) with (length p) by lia.
  rewrite skipn_app, skipn_all, Nat.sub_diag. cbn [app skipn].
  replace (Z.to_nat _) with (length m) by lia.
  rewrite firstn_app, firstn_all, Nat.sub_diag. cbn. now rewrite app_nil_r.
Qed.

Lemma index_some {A} (l : list A) i : 0 <= i < len l -> exists x, index l i = Some x.
Proof.
  intros H; unfold index. replace ((0 <=? i) && (i <? len l)) with true by lia.
  destruct (nth_error l (Z.to_nat i)) as [x|] eqn:X; [eauto|].
  apply nth_error_None in X. unfold len in H. lia.
Qed.

Lemma index_inv {A} (l : list A) i x :
  index l i = Some x -> 0 <= i < len l /\ nth_error l (Z.to_nat i) = Some x.
Proof. unfold index. destruct ((0 <=? i) && (i <? len l)) eqn:X; [|discriminate]. intros; split; [lia|auto]. Qed.

Lemma index_nth {A} (l : list A) i : 0 <= i -> index l i = nth_error l (Z.to_nat i).
Proof.
  intros H; unfold index. destruct ((0 <=? i) && (i <? len l)) eqn:X; [reflexivity|].
  symmetry; apply nth_error_None. unfold len in X. lia.
Qed.

Lemma index_none {A} (l : list A) i : ~ (0 <= i < len l) -> index l i = None.
Proof. intros H; unfold index. replace ((0 <=? i) && (i <? len l)) with false by lia. reflexivity. Qed.

Lemma replace_nth_length {A} (l : list A) n v : length (replace_nth l n v) = length l.
Proof. revert n; induction l as [|x l IH]; intros [|n]; cbn; auto. Qed.

Lemma replace_nth_same {A} (l : list A) n v :
  (n < length l)%nat -> nth_error (replace_nth l n v) n = Some v.
Proof. revert n; induction l as [|x l IH]; intros [|n]; cbn; intros; try lia; auto. apply IH; lia. Qed.

Lemma replace_nth_other {A} (l : list A) n m v :
  n <> m -> nth_error (replace_nth l n v) m = nth_error l m.
Proof.
  revert n m; induction l as [|x l IH]; intros [|n] [|m]; cbn; intros; auto; congruence.
Qed.

Lemma assign_some {A} (l : list A) i v :
  0 <= i < len l -> assign l i v = Some (replace_nth l (Z.to_nat i) v).
Proof. intros H; unfold assign. replace ((0 <=? i) && (i <? len l)) with true by lia. reflexivity. Qed.

Lemma assign_inv {A} (l : list A) i v r :
  assign l i v = Some r -> 0 <= i < len l /\ r = replace_nth l (Z.to_nat i) v.
Proof. unfold assign. destruct ((0 <=? i) && (i <? len l)) eqn:X; [|discriminate]. intros H; injection H as <-; split; [lia|auto]. Qed.

Lemma make_inv {A} sz (z : A) n r :
  make sz z n = Some r -> 0 <= n /\ n * sz <= max_alloc /\ r = repeat z (Z.to_nat n).
Proof. unfold make. destruct ((0 <=? n) && (n * sz <=? max_alloc)) eqn:X; [|discriminate]. intros H; injection H as <-; repeat split; lia. Qed.

Lemma make_some {A} sz (z : A) n :
  0 <= n -> n * sz <= max_alloc -> make sz z n = Some (repeat z (Z.to_nat n)).
Proof. intros; unfold make. replace ((0 <=? n) && (n * sz <=? max_alloc)) with true by lia. reflexivity. Qed.

Lemma make_none {A} sz (z : A) n : make sz z n = None <-> n < 0 \/ n * sz > max_alloc.
Proof. unfold make. destruct ((0 <=? n) && (n * sz <=? max_alloc)) eqn:X; split; intros H; try discriminate; try lia; auto. Qed.

Lemma read_until_inv d s l r :
  read_until d s = Some (l, r) ->
  exists p, l = p ++ [d] /\ s = p ++ d :: r /\ ~ In d p.
Proof.
  revert l; induction s as [|b s IH]; cbn; intros l H; [discriminate|].
  destruct (byte_eqb b d) eqn:X.
  - injection H as <- <-. apply byte_eqb_eq in X as ->. exists []. cbn; auto.
  - destruct (read_until d s) as [[l' r']|] eqn:Y; [|discriminate].
    injection H as <- <-. destruct (IH _ eq_refl) as (p & -> & -> & Hp).
    exists (b :: p). cbn. repeat split; auto. apply byte_eqb_neq in X. intros [->|?]; auto.
Qed.

Lemma read_until_app d p r : ~ In d p -> read_until d (p ++ d :: r) = Some (p ++ [d], r).
Proof.
  induction p as [|b p IH]; cbn; intros H.
  - now rewrite byte_eqb_refl.
  - assert (b <> d) by (intros ->; apply H; auto).
    rewrite (proj2 (byte_eqb_neq b d)) by assumption. rewrite IH; auto.
Qed.

Lemma read_until_none d s : read_until d s = None <-> ~ In d s.
Proof.
  induction s as [|b s IH]; cbn; [tauto|].
  destruct (byte_eqb b d) eqn:X.
  - apply byte_eqb_eq in X as ->. split; [discriminate|]. intros H; exfalso; auto.
  - apply byte_eqb_neq in X. destruct (read_until d s) as [[l r]|].
    + split; [discriminate|]. intros H. destruct IH as [_ IH].
      assert (~ In d s) by tauto. specialize (IH H0). discriminate.
    + split; auto. intros _ [->|H]; [congruence|]. now apply IH.
Qed.

Lemma read_full_inv n s l r :
  read_full n s = Some (l, r) -> 0 <= n ->
  n <= len s /\ s = l ++ r /\ len l = n.
Proof.
  unfold read_full. destruct (n <=? len s) eqn:X; [|discriminate].
  intros H H0; injection H as <- <-. split; [lia|]. split; [now rewrite firstn_skipn|].
  unfold len in *. rewrite firstn_length. lia.
Qed.

Lemma read_full_app l r : read_full (len l) (l ++ r) = Some (l, r).
Proof.
  unfold read_full. rewrite len_app. replace (len l <=? len l + len r) with true by (pose proof (len_nonneg r); lia).
  unfold len. rewrite Nat2Z.id, firstn_app, firstn_all, Nat.sub_diag, skipn_app, skipn_all, Nat.sub_diag.
  cbn. now rewrite app_nil_r.
Qed.

Lemma nth_error_repeat_some {A} (x : A) n k : (k < n)%nat -> nth_error (repeat x n) k = Some x.
Proof. revert k; induction n as [|n IH]; intros [|k]; cbn; intros; try lia; auto. apply IH; lia. Qed.

Lemma nth_error_firstn_lt {A} (l : list A) n k : (k < n)%nat -> nth_error (firstn n l) k = nth_error l k.
Proof.
  revert n k; induction l as [|x l IH]; intros [|n] [|k]; cbn; intros; try lia; auto.
  apply IH; lia.
Qed.

Lemma nth_error_skipn_add {A} (l : list A) n k : nth_error (skipn n l) k = nth_error l (n + k).
Proof. revert l; induction n as [|n IH]; intros [|x l]; cbn; auto. now destruct k. Qed.

Lemma skipn_skipn' {A} (l : list A) n m : skipn n (skipn m l) = skipn (m + n) l.
Proof. revert l; induction m as [|m IH]; intros l; cbn; [reflexivity|]. destruct l; [now rewrite skipn_nil|apply IH]. Qed.

Lemma map_repeat' {A B} (f : A -> B) x n : map f (repeat x n) = repeat (f x) n.
Proof. induction n; cbn; congruence. Qed.
