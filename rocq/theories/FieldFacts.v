(** The fields of a header text, and what splitHeader makes of them. *)
From Coq Require Import Lia.
From Verif Require Import GoBase GoUtf8 GoScan GoFloat Catalog Composite Header Spec BaseFacts HeaderSafe.

Lemma lookup_app {V} (a b : gomap V) k : lookup (a ++ b) k = match lookup a k with Some v => Some v | None => lookup b k end.
Proof. induction a as [|[k' v] a IH]; cbn; [reflexivity|]. now destruct (str_eqb k k'). Qed.

Lemma lookup_rev_last fields k : lookup (rev fields) k = last_value fields k.
Proof.
  induction fields as [|[k' v] fields IH]; [reflexivity|]. cbn [rev last_value]. rewrite lookup_app, IH. cbn [lookup].
  destruct (last_value fields k); [reflexivity|]. destruct (list_eq_dec _ k k') as [->|Hn].
  - now rewrite str_eqb_refl.
  - apply str_eqb_neq in Hn. now rewrite Hn.
Qed.

Section Blocks.
Context {X : Type}.
Variable kind : X -> bool.

Lemma blocks_nonempty l : forall g, In g (blocks kind l) -> g <> [].
Proof.
  induction l as [|x t IH]; cbn; [contradiction|]. destruct (blocks kind t) as [|[|y g] gs] eqn:Eb.
  - intros g [<-|[]]. discriminate.
  - intros g' [<-|[]]. discriminate.
  - destruct (Bool.eqb _ _); intros g' [<-|H]; try discriminate; apply IH; cbn; auto.
Qed.

(** A block in front of characters of the other kind. *)
Lemma blocks_app b g : forall l, g <> [] -> Forall (fun x => kind x = b) g ->
  (forall x t, l = x :: t -> kind x <> b) -> blocks kind (g ++ l) = g :: blocks kind l.
Proof.
  intros l. induction g as [|x g IH]; intros Hne Hg Hl; [congruence|].
  inversion Hg as [|? ? Hx Hg']; subst. destruct g as [|y g].
  - cbn [app blocks]. destruct l as [|z t]; [reflexivity|].
    assert (Hz := Hl z t eq_refl). cbn [blocks] in *.
    assert (N : forall g, In g (blocks kind (z :: t)) -> g <> []) by apply blocks_nonempty.
    cbn [blocks] in N. destruct (blocks kind t) as [|[|y g] gs].
    + destruct (Bool.eqb (kind x) (kind z)) eqn:Q; [apply Bool.eqb_prop in Q; congruence|reflexivity].
    + destruct (Bool.eqb (kind x) (kind z)) eqn:Q; [apply Bool.eqb_prop in Q; congruence|reflexivity].
    + destruct (Bool.eqb (kind z) (kind y)); (destruct (Bool.eqb (kind x) (kind z)) eqn:Q; [apply Bool.eqb_prop in Q; congruence|reflexivity]).
  - change ((x :: y :: g) ++ l) with (x :: (y :: g) ++ l). cbn [blocks]. fold (blocks kind).
    rewrite IH by (auto; discriminate). inversion Hg'; subst. replace (kind y) with (kind x) by congruence. now rewrite Bool.eqb_reflx.
Qed.
End Blocks.

Lemma last_snoc {X} (g : list X) x d : last (g ++ [x]) d = x.
Proof. induction g as [|y g IH]; [reflexivity|]. cbn [app]. destruct (g ++ [x]) eqn:Q; [destruct g; discriminate|exact IH]. Qed.

Section Loop.
Variable G : goenv.
Variable text : list byte.
Notation upper := (fun ic : Z * Z => is_upper (upper_hi G) (snd ic)).

(** A pending block: its first position and the one behind its last position. *)
Definition pending (b : bool) (g : list (Z * Z)) (lo hi : Z) : Prop :=
  exists f g', g = f :: g' /\ fst f = lo /\ fst (last g f) + 1 = hi /\ Forall (fun ic => upper ic = b) g.

Lemma pending_one b ic : upper ic = b -> pending b [ic] (fst ic) (fst ic + 1).
Proof. intros H. exists ic, []. repeat split; auto. Qed.

Lemma pending_more b g lo hi ic : pending b g lo hi -> upper ic = b -> pending b (g ++ [ic]) lo (fst ic + 1).
Proof.
  intros (f & g' & -> & Hlo & Hhi & Hg) H. exists f, (g' ++ [ic]). split; [reflexivity|]. split; [assumption|]. split.
  - change ((f :: g') ++ [ic]) with ((f :: g') ++ [ic]). now rewrite last_snoc.
  - rewrite Forall_app. auto.
Qed.

Lemma last_default {X} (g : list X) d e : g <> [] -> last g d = last g e.
Proof. induction g as [|x [|y g] IH]; intros H; [congruence|reflexivity|]. cbn [last]. apply IH. discriminate. Qed.

Lemma pending_text b g lo hi : pending b g lo hi -> 0 <= lo -> lo <= hi -> hi <= len text ->
  slice text lo hi = Some (block_text text g).
Proof.
  intros (f & g' & -> & <- & <- & _) H1 H2 H3. rewrite slice_some by assumption. destruct f as [i c]. unfold block_text. cbn [fst] in *.
  rewrite (last_default ((i, c) :: g') (i, 0) (i, c)) by discriminate. reflexivity.
Qed.

Lemma pending_app b g lo hi l : pending b g lo hi -> (forall x t, l = x :: t -> upper x <> b) ->
  blocks upper (g ++ l) = g :: blocks upper l.
Proof. intros (f & g' & -> & _ & _ & Hg) Hl. apply (blocks_app upper b); auto. discriminate. Qed.

(** Rest of the text, with a key block pending, or a key block and a value
    block. *)
Lemma loop_fields l : forall n, n <= len text -> increasing n (len text) l ->
  (forall m key bk ek bv ev prev, pending true key bk ek -> 0 <= bk -> bk <= ek -> ek <= n -> 0 < n ->
     slice text bv ev = Some prev ->
     split_loop G text (mk_split m bk ek bv ev false) l =
       Some (rev (keys_and_values text prev (blocks upper (key ++ l))) ++ m)) /\
  (forall m key bk ek value bv ev prev, pending true key bk ek -> 0 <= bk -> bk <= ek -> ek <= n -> 0 < n ->
     pending false value bv ev -> 0 <= bv -> bv <= ev -> ev <= n ->
     split_loop G text (mk_split m bk ek bv ev true) l =
       Some (rev (keys_and_values text prev (blocks upper (key ++ value ++ l))) ++ m)).
Proof.
  induction l as [|[i c] l IH]; intros n Hn Hl.
  - split.
    + intros m key bk ek bv ev prev Hk H1 H2 H3 H4 Hp. cbn [split_loop]. unfold split_store. cbn [sp_bk sp_ek sp_bv sp_ev sp_map].
      rewrite (pending_text _ _ _ _ Hk) by lia. rewrite Hp.
      rewrite (pending_app _ _ _ _ [] Hk) by discriminate. reflexivity.
    + intros m key bk ek value bv ev prev Hk H1 H2 H3 H4 Hv H5 H6 H7. cbn [split_loop]. unfold split_store. cbn [sp_bk sp_ek sp_bv sp_ev sp_map].
      rewrite (pending_text _ _ _ _ Hk) by lia. rewrite (pending_text _ _ _ _ Hv) by lia.
      rewrite (pending_app _ _ _ _ (value ++ []) Hk).
      2:{ destruct Hv as (f & g' & -> & _ & _ & Hg). intros x t Ex. cbn [app] in Ex. injection Ex as <- _. inversion Hg; congruence. }
      rewrite (pending_app _ _ _ _ [] Hv) by discriminate. reflexivity.
  - destruct Hl as [Hi Hl]. destruct (IH (i + 1) ltac:(lia) Hl) as [IHk IHv]. split.
    + intros m key bk ek bv ev prev Hk H1 H2 H3 H4 Hp. cbn [split_loop]. unfold split_step. cbn [sp_dispatch sp_map sp_bk sp_ek sp_bv sp_ev].
      destruct (is_upper (upper_hi G) c) eqn:Hu.
      * rewrite (IHk m (key ++ [(i, c)]) bk (i + 1) bv ev prev) by (try lia; try assumption; apply (pending_more true key bk ek (i, c)); assumption).
        now rewrite <- app_assoc.
      * replace (i =? 0) with false by (symmetry; apply Z.eqb_neq; lia).
        rewrite (IHv m key bk ek [(i, c)] i (i + 1) prev) by (try lia; try assumption; apply (pending_one false (i, c)); assumption).
        reflexivity.
    + intros m key bk ek value bv ev prev Hk H1 H2 H3 H4 Hv H5 H6 H7. cbn [split_loop]. unfold split_step. cbn [sp_dispatch sp_map sp_bk sp_ek sp_bv sp_ev].
      destruct (is_upper (upper_hi G) c) eqn:Hu.
      * unfold split_store. cbn [sp_bk sp_ek sp_bv sp_ev sp_map].
        pose proof (pending_text _ _ _ _ Hv ltac:(lia) ltac:(lia) ltac:(lia)) as Ev.
        rewrite (pending_text _ _ _ _ Hk) by lia. rewrite Ev.
        rewrite (IHk _ [(i, c)] i (i + 1) bv ev (block_text text value)) by (try lia; try assumption; apply (pending_one true (i, c)); assumption).
        rewrite (pending_app _ _ _ _ (value ++ (i, c) :: l) Hk).
        2:{ destruct Hv as (f & g' & -> & _ & _ & Hg). intros x t Ex. cbn [app] in Ex. injection Ex as <- _. inversion Hg; congruence. }
        rewrite (pending_app _ _ _ _ ((i, c) :: l) Hv).
        2:{ intros x t Ex. injection Ex as <- _. cbn [snd]. congruence. }
        cbn [keys_and_values rev app]. now rewrite <- app_assoc.
      * replace (i =? 0) with false by (symmetry; apply Z.eqb_neq; lia).
        rewrite (IHv m key bk ek (value ++ [(i, c)]) bv (i + 1) prev) by (try lia; try assumption; apply (pending_more false value bv ev (i, c)); assumption).
        now rewrite <- app_assoc.
Qed.
End Loop.

Lemma range_first b text : exists c l, range_string (b :: text) = (0, c) :: l.
Proof. unfold range_string. cbn [range_from]. destruct (decode_rune b text) as [r w]. eauto. Qed.

(** splitHeader stores exactly the fields of the text. *)
Theorem split_header_fields G text : split_header G text = Some (rev (fields_of_text G text)).
Proof.
  unfold split_header, fields_of_text. destruct text as [|b text]; [reflexivity|].
  pose proof (range_from_increasing (b :: text) 0 0) as Hr. fold (range_string (b :: text)) in Hr.
  destruct (range_first b text) as (c & l & E). rewrite E in *. rewrite Z.add_0_l in Hr. destruct Hr as [Hi Hl].
  cbn [split_loop]. unfold split_step. cbn [sp_dispatch sp_map sp_bk sp_ek sp_bv sp_ev snd].
  destruct (is_upper (upper_hi G) c) eqn:Hu; [|reflexivity].
  destruct (loop_fields G (b :: text) l (0 + 1) ltac:(rewrite len_cons; pose proof (len_nonneg text); lia) Hl) as [Hk _].
  rewrite (Hk [] [(0, c)] 0 (0 + 1) 0 0 []) by (try lia; try reflexivity; apply (pending_one G true (0, c)); assumption).
  now rewrite app_nil_r.
Qed.

Lemma field_lookup E text m k : split_header E text = Some m -> field E text k = lookup m k.
Proof. rewrite split_header_fields. intros H. injection H as <-. unfold field. now rewrite lookup_rev_last. Qed.
