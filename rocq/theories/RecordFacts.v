(** The record decoders against Spec.v. *)
From Verif Require Import GoBase GoUtf8 GoScan GoTime GoFloat Catalog Composite Header Data Projection Radolan Spec BaseFacts.

Lemma f32_two_of_int : f32_two = f32_of_int 2.
Proof. vm_compute. reflexivity. Qed.

Lemma toDBZ_eq v : toDBZ v = f32_sub (f32_div v (f32_of_int 2)) (f32_lit 325 (-1)).
Proof. reflexivity. Qed.

Lemma scaled_value_eq p u n :
  (if negb (unit_eqb u Unit_dBZ) then rvp6_raw p n else toDBZ (rvp6_raw p n)) = scaled_value p u n.
Proof. destruct u; reflexivity. Qed.

Definition hi_ok (b : byte) : bool :=
  let x := bz b in
  Bool.eqb (negb (Z.land x (Z.shiftl 1 5) =? 0)) (Z.testbit x 5) &&
  Bool.eqb (negb (Z.land x (Z.shiftl 1 6) =? 0)) (Z.testbit x 6) &&
  (Z.land 15 x =? x mod 16).
Lemma hi_all b : hi_ok b = true.
Proof. apply (byte_forall hi_ok). vm_compute. reflexivity. Qed.

Lemma rvp6_little_endian_eq p u lo hi : rvp6_little_endian p u lo hi = two_byte_value p u lo hi.
Proof.
  unfold rvp6_little_endian, two_byte_value.
  pose proof (hi_all hi) as H. unfold hi_ok in H. rewrite !andb_true_iff in H.
  destruct H as [[H5 H6] H15]. apply eqb_prop in H5, H6. apply Z.eqb_eq in H15.
  rewrite H5, H6, H15. destruct (Z.testbit (bz hi) 5); [reflexivity|].
  rewrite Z.shiftl_mul_pow2 by lia. change (2 ^ 8) with 256.
  rewrite scaled_value_eq. f_equal. destruct (Z.testbit (bz hi) 6); lia.
Qed.

Lemma rvp6_single_byte_eq p u b : rvp6_single_byte p u b = one_byte_value p u b.
Proof.
  unfold rvp6_single_byte, one_byte_value. destruct (bz b =? 250); [reflexivity|].
  apply scaled_value_eq.
Qed.

(** Encoding and decoding two-byte records. *)
From Verif Require Import Spec RunFacts CalendarFacts.

Definition hi_of (h : Z) (a s b : bool) : Z :=
  h + (if a then 16 else 0) + (if s then 64 else 0) + (if b then 128 else 0).
Definition hi_of_ok (h : Z) : bool :=
  forallb (fun a => forallb (fun s => forallb (fun b =>
    let x := hi_of h a s b in
    (0 <=? x) && (x <? 256) && negb (Z.testbit x 5) && Bool.eqb (Z.testbit x 6) s && (x mod 16 =? h))
    [true; false]) [true; false]) [true; false].

Lemma hi_of_spec h a s b : 0 <= h <= 15 ->
  let x := hi_of h a s b in
  0 <= x < 256 /\ Z.testbit x 5 = false /\ Z.testbit x 6 = s /\ x mod 16 = h.
Proof.
  intros Hh x.
  assert (H : hi_of_ok h = true) by (revert h Hh x; intros h Hh _; apply (range_check 0 15 hi_of_ok); [vm_compute; reflexivity|assumption]).
  assert (Hx : (0 <=? x) && (x <? 256) && negb (Z.testbit x 5) && Bool.eqb (Z.testbit x 6) s && (x mod 16 =? h) = true).
  { unfold hi_of_ok in H. rewrite forallb_forall in H. specialize (H a ltac:(destruct a; cbn; auto)).
    rewrite forallb_forall in H. specialize (H s ltac:(destruct s; cbn; auto)).
    rewrite forallb_forall in H. exact (H b ltac:(destruct b; cbn; auto)). }
  rewrite !andb_true_iff in Hx. destruct Hx as ((((H1 & H2) & H3) & H4) & H5).
  apply Z.leb_le in H1. apply Z.ltb_lt in H2. apply negb_true_iff in H3. apply eqb_prop in H4. apply Z.eqb_eq in H5. auto.
Qed.

Lemma encode_two_bytes_value p u v a b : - 4095 <= v <= 4095 ->
  exists lo hi, encode_two_bytes v a b = [lo; hi] /\ two_byte_value p u lo hi = scaled_value p u v.
Proof.
  intros Hv. unfold encode_two_bytes. eexists _, _. split; [reflexivity|].
  set (m := Z.abs v).
  assert (Hm : 0 <= m <= 4095) by (unfold m; lia).
  assert (Hq : 0 <= m / 256 <= 15).
  { split; [apply Z.div_pos; lia|]. apply Z.lt_succ_r. apply Z.div_lt_upper_bound; lia. }
  pose proof (Z.mod_pos_bound m 256 ltac:(lia)) as Hr.
  destruct (hi_of_spec (m / 256) a (v <? 0) b Hq) as (H1 & H2 & H3 & H4).
  unfold hi_of in *. unfold two_byte_value.
  rewrite (to_byte_bz (m mod 256)) by lia. rewrite (to_byte_bz (m / 256 + _ + _ + _)) by exact H1.
  rewrite H2, H3, H4. f_equal.
  replace (m / 256 * 256 + m mod 256) with m by (rewrite (Z.div_mod m 256) at 1; lia).
  unfold m. destruct (Z.ltb_spec v 0); lia.
Qed.
