(** Runlength decoding against its meaning in Spec.v. *)
From Verif Require Import GoBase GoUtf8 GoScan GoTime GoFloat Catalog Composite Header Data Projection Radolan Spec
  BaseFacts HeaderSafe HeaderFacts DataFacts ParseFacts CompositeFacts ApiFacts.

Lemma rvp6_runlength_eq level v : 0 <= v -> rvp6_runlength level v = Some (level_value level v).
Proof.
  intros Hv. unfold rvp6_runlength, level_value. destruct (v =? 0) eqn:H0; [reflexivity|].
  destruct (len level <=? v - 1) eqn:Hl.
  - replace (nth_error level (Z.to_nat (v - 1))) with (@None f32); [reflexivity|].
    symmetry. apply nth_error_None. unfold len in Hl. lia.
  - rewrite index_nth by lia. destruct (nth_error level (Z.to_nat (v - 1))) eqn:Hn; [reflexivity|].
    apply nth_error_None in Hn. unfold len in Hl. lia.
Qed.

(** Writing values over a row, starting at a position. *)
Definition overlay (dst : list f32) (pos : nat) (vals : list f32) : list f32 :=
  firstn pos dst ++ vals ++ skipn (pos + length vals) dst.

Lemma overlay_nil dst pos : overlay dst pos [] = dst.
Proof. unfold overlay. cbn. rewrite Nat.add_0_r. apply firstn_skipn. Qed.

Lemma overlay_length dst pos vals : (pos + length vals <= length dst)%nat -> length (overlay dst pos vals) = length dst.
Proof. intros H. unfold overlay. rewrite !app_length, firstn_length, skipn_length. lia. Qed.

Lemma overlay_app dst pos a b : (pos + length a + length b <= length dst)%nat ->
  overlay (overlay dst pos a) (pos + length a) b = overlay dst pos (a ++ b).
Proof.
  intros H. unfold overlay.
  set (s := skipn (pos + length a) dst).
  assert (Hf : length (firstn pos dst) = pos) by (rewrite firstn_length; lia).
  assert (Hpa : length (firstn pos dst ++ a) = (pos + length a)%nat) by (rewrite app_length; lia).
  rewrite (app_assoc (firstn pos dst) a s).
  rewrite firstn_app, firstn_all2 by lia. rewrite Hpa, Nat.sub_diag. cbn [firstn]. rewrite app_nil_r.
  rewrite skipn_app, skipn_all2 by lia. rewrite Hpa.
  replace (pos + length a + length b - (pos + length a))%nat with (length b) by lia.
  cbn [app]. unfold s. rewrite skipn_skipn'.
  rewrite <- !app_assoc. do 4 f_equal. rewrite app_length. lia.
Qed.

Lemma replace_nth_overlay dst pos v : (pos < length dst)%nat -> replace_nth dst pos v = overlay dst pos [v].
Proof.
  revert pos; induction dst as [|x dst IH]; intros [|pos] H; cbn in *; try lia; auto.
  unfold overlay in *. cbn. f_equal. rewrite IH by lia. reflexivity.
Qed.

Lemma write_run_spec level v : 0 <= v -> forall n dst pos, 0 <= pos ->
  write_run level v n dst pos =
    if (n =? 0)%nat then (RowOk dst, pos)
    else if (Z.to_nat pos + n <=? length dst)%nat
    then (RowOk (overlay dst (Z.to_nat pos) (repeat (level_value level v) n)), pos + Z.of_nat n)
    else write_run level v n dst pos.
Proof.
  intros Hv. induction n as [|n IH]; intros dst pos Hp; [reflexivity|].
  change (S n =? 0)%nat with false. cbv iota.
  destruct (Z.to_nat pos + S n <=? length dst)%nat eqn:Hl; [|reflexivity].
  apply Nat.leb_le in Hl. cbn [write_run].
  replace (len dst <=? pos) with false by (unfold len; lia).
  rewrite rvp6_runlength_eq by assumption.
  rewrite assign_some by (unfold len; lia).
  rewrite replace_nth_overlay by lia.
  rewrite IH by lia.
  destruct n as [|n].
  - cbn [Nat.eqb repeat]. f_equal.
  - change (S n =? 0)%nat with false. cbv iota.
    replace (Z.to_nat (pos + 1) + S n <=? length (overlay dst (Z.to_nat pos) [level_value level v]))%nat with true.
    2:{ symmetry. apply Nat.leb_le. rewrite overlay_length by (cbn; lia). lia. }
    f_equal; [|lia]. f_equal.
    replace (Z.to_nat (pos + 1)) with (Z.to_nat pos + length [level_value level v])%nat by (cbn; lia).
    rewrite overlay_app by (cbn; rewrite repeat_length; lia). reflexivity.
Qed.

Lemma write_run_overflow level v : 0 <= v -> forall n dst pos, 0 <= pos -> (0 < n)%nat ->
  (length dst < Z.to_nat pos + n)%nat -> exists d p', write_run level v n dst pos = (RowErr EDestination d, p').
Proof.
  intros Hv. induction n as [|n IH]; intros dst pos Hp Hn Hl; [lia|]. cbn [write_run].
  destruct (len dst <=? pos) eqn:Hle; [eauto|].
  rewrite rvp6_runlength_eq by assumption.
  rewrite assign_some by (unfold len in *; lia).
  apply IH; try lia. 
  - destruct n; [unfold len in *; lia|lia].
  - rewrite replace_nth_length. lia.
Qed.

Lemma nibbles b : Z.land (bz b) 15 = bz b mod 16 /\ Z.shiftr (bz b) 4 = bz b / 16.
Proof.
  split.
  - change 15 with (Z.ones 4). rewrite Z.land_ones by lia. reflexivity.
  - rewrite Z.shiftr_div_pow2 by lia. reflexivity.
Qed.

(** The run bytes. *)
Lemma runs_spec level : forall runs dst pos, 0 <= pos ->
  let vals := map (level_value level) (expand_runs runs) in
  match vals with
  | [] => runlength_loop level runs false false dst pos = RowOk dst
  | _ => if (Z.to_nat pos + length vals <=? length dst)%nat
         then runlength_loop level runs false false dst pos = RowOk (overlay dst (Z.to_nat pos) vals)
         else exists d, runlength_loop level runs false false dst pos = RowErr EDestination d
  end.
Proof.
  induction runs as [|b runs IH]; intros dst pos Hp; [reflexivity|].
  cbv zeta. cbn [expand_runs flat_map]. fold (expand_runs runs). rewrite map_app.
  cbn [runlength_loop]. destruct (nibbles b) as [-> ->].
  set (n := Z.to_nat (bz b / 16)). set (v := bz b mod 16).
  assert (Hv : 0 <= v) by (unfold v; pose proof (bz_range b); lia).
  rewrite map_repeat'. set (f := level_value level v). set (rest := map (level_value level) (expand_runs runs)).
  rewrite (write_run_spec level v Hv n dst pos Hp).
  destruct n as [|n].
  { cbn [Nat.eqb repeat app]. specialize (IH dst pos Hp). exact IH. }
  change (S n =? 0)%nat with false. cbv iota.
  destruct (Z.to_nat pos + S n <=? length dst)%nat eqn:Hl.
  - apply Nat.leb_le in Hl. fold f.
    set (dst1 := overlay dst (Z.to_nat pos) (repeat f (S n))).
    assert (Hd1 : length dst1 = length dst) by (apply overlay_length; rewrite repeat_length; lia).
    specialize (IH dst1 (pos + Z.of_nat (S n)) ltac:(lia)). cbv zeta in IH. fold rest in IH.
    replace (Z.to_nat (pos + Z.of_nat (S n))) with (Z.to_nat pos + length (repeat f (S n)))%nat in IH
      by (rewrite repeat_length; lia).
    assert (Hgoal : if (Z.to_nat pos + length (repeat f (S n) ++ rest) <=? length dst)%nat
      then runlength_loop level runs false false dst1 (pos + Z.of_nat (S n)) = RowOk (overlay dst (Z.to_nat pos) (repeat f (S n) ++ rest))
      else exists d, runlength_loop level runs false false dst1 (pos + Z.of_nat (S n)) = RowErr EDestination d).
    { rewrite Hd1 in IH. rewrite app_length, repeat_length in *.
      destruct rest as [|r rest'] eqn:Hrest.
      - replace (Z.to_nat pos + (S n + length (@nil f32)) <=? length dst)%nat with true by (symmetry; apply Nat.leb_le; cbn [length]; lia).
        rewrite IH, app_nil_r. reflexivity.
      - rewrite Nat.add_assoc.
        destruct (Z.to_nat pos + S n + length (r :: rest') <=? length dst)%nat eqn:Hl2; [|exact IH].
        apply Nat.leb_le in Hl2. rewrite IH. unfold dst1. f_equal.
        replace (Z.to_nat pos + S n)%nat with (Z.to_nat pos + length (repeat f (S n)))%nat by (rewrite repeat_length; reflexivity).
        rewrite overlay_app by (rewrite repeat_length; lia). reflexivity. }
    exact Hgoal.
  - apply Nat.leb_gt in Hl.
    destruct (write_run_overflow level v Hv (S n) dst pos Hp ltac:(lia) ltac:(lia)) as (d & p' & ->).
    change (repeat f (S n) ++ rest) with (f :: repeat f n ++ rest). cbv iota.
    replace (Z.to_nat pos + length (f :: repeat f n ++ rest) <=? length dst)%nat with false.
    { eauto. }
    symmetry. apply Nat.leb_gt. cbn [length]. rewrite app_length, repeat_length. lia.
Qed.

(** The offset bytes. *)
Lemma offsets_spec level : forall body dst pos, 0 <= pos ->
  let '(offs, runs) := split_offsets body in
  if existsb (fun b => bz b <? 16) offs
  then runlength_loop level body false true dst pos = RowErr EOffsetValue dst
  else 0 <= total_offset offs /\
       runlength_loop level body false true dst pos =
       match runs with
       | [] => RowOk dst
       | _ => runlength_loop level runs false false dst (pos + total_offset offs)
       end.
Proof.
  induction body as [|b body IH]; intros dst pos Hp; cbn [split_offsets]; [split; [cbn; lia|reflexivity]|].
  destruct (bz b =? 255) eqn:Hb.
  - specialize (IH dst (pos + (bz b - 16)) ltac:(lia)).
    destruct (split_offsets body) as [offs runs]. cbn [existsb runlength_loop].
    replace (bz b <? 16) with false by lia. rewrite Hb. cbn [orb].
    destruct (existsb _ offs); [exact IH|]. destruct IH as [IH1 IH2]. cbn [total_offset fold_right].
    fold (total_offset offs). split; [lia|]. rewrite IH2. destruct runs; [reflexivity|]. f_equal. lia.
  - cbn [existsb runlength_loop]. rewrite Hb, orb_false_r. destruct (bz b <? 16) eqn:H16; [reflexivity|].
    cbn [total_offset fold_right]. split; [lia|]. rewrite Z.add_0_r. destruct body; reflexivity.
Qed.

Lemma overlay_blank w start vals : (start + length vals <= w)%nat ->
  overlay (repeat NaN32 w) start vals = repeat NaN32 start ++ vals ++ repeat NaN32 (w - start - length vals).
Proof.
  intros H. unfold overlay.
  replace (repeat NaN32 w) with (repeat NaN32 start ++ repeat NaN32 (length vals) ++ repeat NaN32 (w - start - length vals)).
  2:{ rewrite <- !repeat_app. f_equal. lia. }
  rewrite firstn_app, firstn_all2 by (rewrite repeat_length; lia).
  rewrite repeat_length, Nat.sub_diag. cbn [firstn]. rewrite app_nil_r. do 2 f_equal.
  rewrite app_assoc, <- repeat_app, skipn_app, skipn_all2 by (rewrite repeat_length; lia).
  rewrite repeat_length, Nat.sub_diag. reflexivity.
Qed.

(** decodeRunlength computes exactly the meaning of the line. *)
Lemma decode_runlength_spec level dst line :
  match line_meaning level (length dst) line with
  | Some r => decode_runlength level dst line = RowOk r
  | None => exists e d, decode_runlength level dst line = RowErr e d /\ (e = EOffsetValue \/ e = EDestination)
  end.
Proof.
  unfold decode_runlength, line_meaning. destruct line as [|b body]; [reflexivity|].
  cbn [runlength_loop].
  pose proof (offsets_spec level body (repeat NaN32 (length dst)) 0 ltac:(lia)) as Ho.
  destruct (split_offsets body) as [offs runs].
  destruct (existsb _ offs); [eauto 6|]. destruct Ho as [H0 Ho]. rewrite Ho. clear Ho.
  rewrite Z.add_0_l.
  pose proof (runs_spec level runs (repeat NaN32 (length dst)) (total_offset offs) H0) as Hr. cbv zeta in Hr.
  destruct runs as [|r0 runs]; [reflexivity|].
  destruct (map (level_value level) (expand_runs (r0 :: runs))) as [|v vals] eqn:Hv; [exact Hr|].
  rewrite repeat_length in Hr.
  destruct (Z.to_nat (total_offset offs) + length (v :: vals) <=? length dst)%nat eqn:Hl.
  - rewrite Hr. f_equal. apply overlay_blank. apply Nat.leb_le in Hl. exact Hl.
  - destruct Hr as [d ->]. eauto 6.
Qed.

Lemma line_meaning_values level w line r f :
  line_meaning level w line = Some r -> In f r -> f = NaN32 \/ In f level.
Proof.
  assert (Hl : forall v, level_value level v = NaN32 \/ In (level_value level v) level).
  { intros v. unfold level_value. destruct (v =? 0); [auto|]. destruct (nth_error level _) eqn:Hn; [|auto].
    right. eapply nth_error_In; eauto. }
  unfold line_meaning. destruct line as [|b body].
  { intros H Hin; injection H as <-. apply repeat_spec in Hin. auto. }
  destruct (split_offsets body) as [offs runs]. destruct (existsb _ offs); [discriminate|].
  destruct (map (level_value level) (expand_runs runs)) as [|v vals] eqn:Hv.
  { intros H Hin; injection H as <-. apply repeat_spec in Hin. auto. }
  destruct (_ <=? w)%nat; [|discriminate]. rewrite <- Hv.
  intros H Hin; injection H as <-. apply in_app_or in Hin as [Hin|Hin]; [apply repeat_spec in Hin; auto|].
  apply in_app_or in Hin as [Hin|Hin]; [|apply repeat_spec in Hin; auto].
  apply in_map_iff in Hin as (x & <- & _). apply Hl.
Qed.

(** The encoder. *)
Lemma to_byte_bz z : 0 <= z < 256 -> bz (to_byte z) = z.
Proof.
  intros H. unfold to_byte. destruct (Byte.of_N (Z.to_N z)) as [b|] eqn:X.
  - unfold bz. apply Byte.to_of_N in X. rewrite X. lia.
  - apply Byte.of_N_None_iff in X. lia.
Qed.

Lemma leading_spec cells n rest : leading cells = (n, rest) ->
  cells = repeat 0 n ++ rest /\ (forall x t, rest = x :: t -> x <> 0).
Proof.
  revert n rest; induction cells as [|x cells IH]; cbn; intros n rest H.
  - injection H as <- <-. split; [reflexivity|discriminate].
  - destruct x as [|p|p].
    + destruct (leading cells) as [n' r']. injection H as <- <-.
      destruct (IH n' r' eq_refl) as [-> H2]. auto.
    + injection H as <- <-. split; [reflexivity|]. intros x t Hx; injection Hx as <- _. discriminate.
    + injection H as <- <-. split; [reflexivity|]. intros x t Hx; injection Hx as <- _. discriminate.
Qed.

Lemma split_encode_offset n runs :
  split_offsets (encode_offset n ++ runs) = (encode_offset n, runs) /\
  existsb (fun b => bz b <? 16) (encode_offset n) = false /\
  total_offset (encode_offset n) = Z.of_nat n.
Proof.
  unfold encode_offset.
  assert (Hmod : (n mod 239 < 239)%nat) by (apply Nat.mod_upper_bound; lia).
  assert (Hdm : n = (239 * (n / 239) + n mod 239)%nat) by (apply Nat.div_mod; lia).
  assert (Hlast : bz (to_byte (16 + Z.of_nat (n mod 239))) = 16 + Z.of_nat (n mod 239)) by (apply to_byte_bz; lia).
  assert (H255 : bz (to_byte 255) = 255) by (apply to_byte_bz; lia).
  assert (Hgen : forall q b, bz b = 16 + Z.of_nat (n mod 239) ->
    split_offsets ((repeat (to_byte 255) q ++ [b]) ++ runs) = (repeat (to_byte 255) q ++ [b], runs) /\
    existsb (fun b => bz b <? 16) (repeat (to_byte 255) q ++ [b]) = false /\
    total_offset (repeat (to_byte 255) q ++ [b]) = 239 * Z.of_nat q + Z.of_nat (n mod 239)).
  { intros q b Hb. induction q as [|q (IH1 & IH2 & IH3)].
    - cbn [repeat app split_offsets existsb total_offset fold_right]. rewrite Hb.
      replace (16 + Z.of_nat (n mod 239) =? 255) with false by lia.
      replace (16 + Z.of_nat (n mod 239) <? 16) with false by lia. repeat split; lia.
    - cbn [repeat app split_offsets existsb total_offset fold_right].
      rewrite H255, IH1, IH2. fold (total_offset (repeat (to_byte 255) q ++ [b])). rewrite IH3.
      repeat split; lia. }
  destruct (Hgen (n / 239)%nat _ Hlast) as (H1 & H2 & H3). repeat split; auto. rewrite H3. lia.
Qed.

Lemma expand_encode_runs : forall cells v cnt, 0 <= v < 16 -> Forall (fun x => 0 <= x < 16) cells -> (1 <= cnt <= 15)%nat ->
  expand_runs (encode_runs v cnt cells) = repeat v cnt ++ cells.
Proof.
  assert (Hone : forall v cnt, 0 <= v < 16 -> (1 <= cnt <= 15)%nat ->
     repeat (bz (to_byte (Z.of_nat cnt * 16 + v)) mod 16) (Z.to_nat (bz (to_byte (Z.of_nat cnt * 16 + v)) / 16)) = repeat v cnt).
  { intros v cnt Hv Hc. rewrite to_byte_bz by lia.
    rewrite Z.add_comm, Z.mod_add, Z.mod_small by lia. rewrite Z.div_add, Z.div_small by lia. f_equal. lia. }
  induction cells as [|x cells IH]; intros v cnt Hv Hf Hc; cbn [encode_runs].
  - unfold expand_runs. cbn [flat_map]. rewrite Hone by assumption. reflexivity.
  - inversion Hf as [|? ? Hx Hf']; subst.
    destruct ((x =? v) && (cnt <? 15)%nat) eqn:Hb.
    + apply andb_true_iff in Hb as [Hxv Hc15]. apply Z.eqb_eq in Hxv as ->. apply Nat.ltb_lt in Hc15.
      rewrite IH by (auto; lia). change (repeat v (S cnt)) with (v :: repeat v cnt).
      rewrite repeat_cons. now rewrite <- app_assoc.
    + cbn [expand_runs flat_map]. fold (expand_runs (encode_runs x 1 cells)).
      rewrite Hone by assumption. rewrite IH by (auto; lia). reflexivity.
Qed.

Lemma encode_line_meaning level number cells : Forall (fun x => 0 <= x < 16) cells ->
  line_meaning level (length cells) (encode_line number cells) = Some (map (level_value level) cells).
Proof.
  intros Hf. unfold encode_line. destruct (leading cells) as [n rest] eqn:Hl.
  apply leading_spec in Hl as [-> Hne]. apply Forall_app in Hf as [_ Hf].
  cbn [line_meaning].
  set (tail := match rest with [] => [] | v :: t => encode_runs v 1 t end).
  destruct (split_encode_offset n tail) as (H1 & H2 & H3). rewrite H1, H2, H3.
  assert (Htail : expand_runs tail = rest).
  { unfold tail. destruct rest as [|v t]; [reflexivity|]. inversion Hf; subst.
    rewrite expand_encode_runs by (auto; lia). reflexivity. }
  rewrite Htail, Nat2Z.id, map_app, map_repeat'.
  change (level_value level 0) with NaN32.
  rewrite app_length, repeat_length.
  destruct (map (level_value level) rest) as [|v vals] eqn:Hv.
  { apply map_eq_nil in Hv as ->. cbn. rewrite Nat.add_0_r, app_nil_r. reflexivity. }
  assert (Hlen : length (v :: vals) = length rest) by (rewrite <- Hv; apply map_length).
  rewrite Hlen, Nat.leb_refl.
  replace (n + length rest - n - length rest)%nat with 0%nat by lia. cbn [repeat]. now rewrite app_nil_r.
Qed.
