(** C73: the memory NewComposite asks for. *)
From Coq Require Import Lia List.
From Coq Require String. Import String.StringSyntax.
From Verif Require Import GoBase GoFloat Catalog Composite Header Data Projection Radolan Heap Spec SpecHeader SpecHeap SpecMemory
  BaseFacts HeaderSafe HeaderFacts DataFacts ParseFacts CompositeFacts ScanFacts HeaderMeaning FileFacts FileComplete HeapFacts PropHeader PropFile PropHeap.

(** All that a program can allocate from here, whatever the memory contains. *)
Inductive total {R} : prog R -> Z -> Prop :=
| total_ret r : total (Ret r) 0
| total_alloc b k n : (forall a, total (k a) n) -> total (Alloc b k) (array_bytes b + n)
| total_get_row a i k n : (forall r, total (k r) n) -> total (GetRow a i k) n
| total_set_row a i r k n : total k n -> total (SetRow a i r k) n
| total_get_floats a k n : (forall l, total (k l) n) -> total (GetFloats a k) n
| total_set_float a i v k n : total k n -> total (SetFloat a i v k) n.

Lemma array_bytes_nonneg b : 0 <= array_bytes b.
Proof. destruct b; cbn [array_bytes]; unfold len; lia. Qed.
Lemma total_nonneg {R} (p : prog R) n : total p n -> 0 <= n.
Proof.
  induction 1 as [| b k n _ IH |a i k n _ IH| | a k n _ IH|]; try lia; try exact (IH None); try exact (IH []).
  specialize (IH O). pose proof (array_bytes_nonneg b). lia.
Qed.
Lemma total_step {R} (p : prog R) n m m' p' : total p n -> pstep m p m' p' -> total p' (n - requests p).
Proof.
  intros H S. destruct S; inversion H; subst; cbn [requests]; rewrite ?Z.sub_0_r; auto.
  match goal with |- total _ (?x + ?y - ?x) => replace (x + y - x) with y by lia end. auto.
Qed.
Lemma total_allocates {R} (p : prog R) n k q : total p n -> allocates p k q -> total q (n - k).
Proof.
  intros H. induction 1 as [|k q m m' q' _ IH S]; [now rewrite Z.sub_0_r|].
  pose proof (total_step _ _ _ _ _ IH S) as T. now replace (n - (k + requests q)) with (n - k - requests q) by lia.
Qed.
Lemma total_bind {R S} (p : prog R) (f : R -> prog S) n k : total p n -> (forall r, total (f r) k) -> total (pbind p f) (n + k).
Proof.
  intros H Hf. induction H; cbn [pbind]; try (constructor; auto; fail).
  - apply Hf.
  - rewrite <- Z.add_assoc. constructor; auto.
Qed.

Lemma total_write_row a l : forall i, total (write_row a i l) 0.
Proof. induction l as [|v l IH]; intros i; cbn [write_row]; constructor. apply IH. Qed.
Lemma total_row_loop read eread decode row t : forall n i s, total (mem_row_loop read eread decode row t n i s) 0.
Proof.
  induction n as [|n IH]; intros i s; cbn [mem_row_loop]; [constructor|]. destruct (read s) as [[line s']|]; [|constructor].
  destruct (_ && _); [|constructor]. constructor. intros [a|]; [|constructor]. constructor. intros dst.
  destruct (decode dst line); try constructor.
  - apply (total_bind _ _ 0 0); [apply total_write_row|intros; apply IH].
  - apply (total_bind _ _ 0 0); [apply total_write_row|intros; constructor].
Qed.

Section Memory.
Variable A : arith.
Variable E : goenv.
Notation T := (num A).

Lemma total_encoding e (c : composite T) t s : total (mem_parse_encoding A e c t s) 0.
Proof.
  destruct e; cbn [mem_parse_encoding]; [apply total_row_loop| | |constructor].
  - unfold mem_parse_little_endian. repeat match goal with |- context [match ?x with _ => _ end] => destruct x end; try constructor; apply total_row_loop.
  - unfold mem_parse_single_byte. repeat match goal with |- context [match ?x with _ => _ end] => destruct x end; try constructor; apply total_row_loop.
Qed.
Lemma total_make_rows t px : 0 < px -> px * 4 <= 2 ^ 48 -> forall n i, total (make_rows t px n i) (Z.of_nat n * (px * 4)).
Proof.
  intros H1 H2. induction n as [|n IH]; intros i; cbn [make_rows]; [constructor|].
  unfold make, max_alloc. replace ((0 <=? px) && (px * 4 <=? 2 ^ 48)) with true by lia.
  replace (Z.of_nat (S n) * (px * 4)) with (array_bytes (Floats (repeat (S754_zero false : f32) (Z.to_nat px))) + Z.of_nat n * (px * 4)).
  - constructor. intros a. constructor. apply IH.
  - cbn [array_bytes]. unfold len. rewrite repeat_length. lia.
Qed.
Lemma total_parse_data (c : composite T) s : possible_dims c -> total (mem_parse_data A c s) (grid_bytes (c_px c) (c_py c)).
Proof.
  intros (H1 & H2 & H3 & H4). unfold mem_parse_data, grid_bytes. replace ((c_px c =? 0) || (c_py c =? 0)) with false by lia.
  unfold make, max_alloc. replace ((0 <=? c_py c) && (c_py c * 24 <=? 2 ^ 48)) with true by lia.
  replace (c_py c * 24) with (array_bytes (Rows (repeat None (Z.to_nat (c_py c))))) by (cbn [array_bytes]; unfold len; rewrite repeat_length; lia).
  constructor. intros a. replace (c_py c * (c_px c * 4)) with (c_py c * (c_px c * 4) + 0) by lia. apply total_bind.
  - rewrite repeat_length. replace (c_py c * (c_px c * 4)) with (Z.of_nat (Z.to_nat (c_py c)) * (c_px c * 4)) by lia. now apply total_make_rows.
  - intros []; [|constructor]. apply (total_bind _ _ 0 0); [apply total_encoding|constructor].
Qed.

(** The calls that get past the header. *)
Lemma total_header input text data (c : composite T) : file_layout input text data -> header_meaning E text c -> possible_dims c ->
  total (mem_new_composite A E input) (grid_bytes (c_px c) (c_py c)).
Proof.
  intros [-> Hn] Hm Hp. destruct (header_enters A E text c Hm) as (ch & Hh & Hsame). pose proof (possible_same A _ _ Hsame Hp) as Ha.
  destruct Hsame as (_ & _ & _ & _ & _ & Ex & Ey & _). rewrite <- Ex, <- Ey.
  unfold mem_new_composite. unfold parse_header. rewrite read_until_app, Hh by assumption. cbn [bind].
  replace (grid_bytes (c_px ch) (c_py ch)) with (grid_bytes (c_px ch) (c_py ch) + 0) by lia.
  apply total_bind; [now apply total_parse_data|]. intros [t [rest|e|]]; try constructor.
  destruct (mem_arrange_data A ch t) as [[dz d0]|]; [|constructor]. cbv zeta. destruct (unit_eqb _ _); constructor.
Qed.

(** C73: a call that got a header with possible dimensions has, when it returns,
    allocated the arrays of exactly one composite of these dimensions, whatever
    the data section contains and whether or not it is there. *)
Theorem C73_total input text data (c : composite T) n r : file_layout input text data -> header_meaning E text c -> possible_dims c ->
  allocates (mem_new_composite A E input) n (Ret r) -> n = grid_bytes (c_px c) (c_py c).
Proof.
  intros Hl Hm Hp Hr. pose proof (total_allocates _ _ _ _ (total_header input text data c Hl Hm Hp) Hr) as H. inversion H. lia.
Qed.
(** It has never allocated more. *)
Theorem C73_never_more input text data (c : composite T) n p : file_layout input text data -> header_meaning E text c -> possible_dims c ->
  allocates (mem_new_composite A E input) n p -> n <= grid_bytes (c_px c) (c_py c).
Proof.
  intros Hl Hm Hp Hr. pose proof (total_nonneg _ _ (total_allocates _ _ _ _ (total_header input text data c Hl Hm Hp) Hr)). lia.
Qed.
(** Without a correct header nothing is allocated. *)
Theorem C73_no_header input n p : (forall text data (c : composite T), file_layout input text data -> ~ header_meaning E text c) ->
  allocates (mem_new_composite A E input) n p -> n = 0.
Proof.
  intros H Hr. assert (Ht : total (mem_new_composite A E input) 0).
  { unfold mem_new_composite. destruct (parse_header (n_ofZ A) E (zero_composite (n_zero A)) input) as [[c rest]|e c|] eqn:Eh; try constructor.
    exfalso. apply parse_header_inv in Eh as (h & Hr0 & Hh). apply read_until_inv in Hr0 as (text & -> & -> & Hn). apply (H text rest c); [now split|]. eapply header_meaning_sound. exact Hh. }
  pose proof (total_allocates _ _ _ _ Ht Hr) as Hq. apply total_nonneg in Hq.
  assert (0 <= n); [|lia]. clear -Hr. induction Hr as [|k q m m' q' _ IH _]; [lia|]. assert (0 <= requests q) by (destruct q; cbn; try lia; apply array_bytes_nonneg). lia.
Qed.

(** With impossible dimensions (C01: it panics, or one of them is zero) at most
    the slice of rows. *)
Theorem C73_impossible input text data (c : composite T) n p : file_layout input text data -> header_meaning E text c -> ~ possible_dims c ->
  allocates (mem_new_composite A E input) n p -> n <= 2 ^ 48.
Proof.
  intros [-> Hn] Hm Hp Hr. destruct (header_enters A E text c Hm) as (ch & Hh & Hsame). 
  destruct Hsame as (_ & _ & _ & _ & _ & Ex & Ey & _). unfold possible_dims in Hp. rewrite <- Ex, <- Ey in Hp.
  assert (Ht : exists t, 0 <= t <= 2 ^ 48 /\ total (mem_parse_data A ch data) t).
  { unfold mem_parse_data. destruct ((c_px ch =? 0) || (c_py ch =? 0)) eqn:Ez; [exists 0; split; [lia|constructor]|].
    unfold make at 1. unfold max_alloc. destruct ((0 <=? c_py ch) && (c_py ch * 24 <=? 2 ^ 48)) eqn:Ea; [|exists 0; split; [lia|constructor]].
    exists (array_bytes (Rows (repeat None (Z.to_nat (c_py ch)))) + 0). split; [cbn [array_bytes]; unfold len; rewrite repeat_length; lia|].
    constructor. intros a. rewrite repeat_length. destruct (Z.to_nat (c_py ch)) as [|k] eqn:Ek; [lia|]. cbn [make_rows].
    unfold make, max_alloc. replace ((0 <=? c_px ch) && (c_px ch * 4 <=? 2 ^ 48)) with false by lia. cbn [pbind]. constructor. }
  destruct Ht as (t & Bt & Ht).
  assert (Hq : total (mem_new_composite A E (text ++ Byte.x03 :: data)) (t + 0)).
  { unfold mem_new_composite. unfold parse_header. rewrite read_until_app, Hh by assumption. cbn [bind].
    apply total_bind; [exact Ht|]. intros [t' [rest|e|]]; try constructor.
    destruct (mem_arrange_data A ch t') as [[dz d0]|]; [|constructor]. cbv zeta. destruct (unit_eqb _ _); constructor. }
  pose proof (total_nonneg _ _ (total_allocates _ _ _ _ Hq Hr)). lia.
Qed.

(** Accepted files in the one-byte or two-byte encoding: at most 28 bytes per
    byte of the data section. *)
Theorem C73_accepted input text data c n p : parsed A E input c -> file_layout input text data -> field E text (bs "LV") = None ->
  allocates (mem_new_composite A E input) n p -> n <= 28 * len data.
Proof.
  intros Hp Hl Hlv Hr. destruct (proj1 (C46_accepted_iff A E input) (ex_intro _ c Hp)) as (text' & data' & c' & k & Hl' & Hm & Hd & _ & H).
  destruct (file_layout_unique _ _ _ _ _ Hl Hl') as [<- <-].
  pose proof (C73_never_more input text data c' n p Hl Hm Hd Hr) as Hb. unfold grid_bytes in Hb. destruct Hd as (H1 & H2 & _).
  assert (c_px c' * c_py c' <= len data). { destruct H as [(lv & levels & lines & tail & Hx & _)|[(_ & _ & H)|(_ & _ & _ & H)]]; [congruence|nia|assumption]. }
  nia.
Qed.

(** These runs are those of the calls in an application (C52): at every moment,
    a call has come to where it is by [allocates]. *)
Theorem C73_in_application w i input : reachable A E w ->
  (forall p, nth_error (w_acts w) i = Some (Running input p) -> exists n, allocates (mem_new_composite A E input) n p) /\
  (forall r ws, nth_error (w_acts w) i = Some (Done input r ws) -> exists n, allocates (mem_new_composite A E input) n (Ret r)).
Proof.
  intros H. revert i input. induction H as [|w w' H IH S]; intros i input.
  - cbn. destruct i; split; discriminate.
  - destruct S as [m l inp|m l j inp p m' p' Hj Hs|m l j inp r Hj|m l j inp r ws h q v m' Hj Hh Hs]; cbn [w_acts] in *.
    + destruct (IH i input) as [IH1 IH2]. destruct (Nat.lt_ge_cases i (length l)) as [Hi|Hi]; [now rewrite nth_error_app1|].
      rewrite nth_error_app2 by assumption. destruct (i - length l)%nat as [|k]; cbn; [|destruct k; split; discriminate].
      split; [|discriminate]. intros p Hp. injection Hp as <- <-. exists 0. constructor.
    + destruct (Nat.eq_dec i j) as [->|Hij]; [|rewrite replace_nth_other by congruence; apply IH].
      rewrite replace_nth_same by (apply nth_error_Some; congruence). split; [|discriminate]. intros p0 Hp. injection Hp as <- <-.
      destruct (proj1 (IH j inp) p Hj) as [n Hn]. eexists. econstructor; eassumption.
    + destruct (Nat.eq_dec i j) as [->|Hij]; [|rewrite replace_nth_other by congruence; apply IH].
      rewrite replace_nth_same by (apply nth_error_Some; congruence). split; [discriminate|]. intros r0 ws Hp. injection Hp as <- <- _.
      exact (proj1 (IH j inp) (Ret r) Hj).
    + destruct (Nat.eq_dec i j) as [->|Hij]; [|rewrite replace_nth_other by congruence; apply IH].
      rewrite replace_nth_same by (apply nth_error_Some; congruence). split; [discriminate|]. intros r0 ws0 Hp. injection Hp as <- <- _.
      exact (proj2 (IH j inp) r ws Hj).
Qed.
(** Every call can return. *)
Corollary returns_once input : exists n r, allocates (mem_new_composite A E input) n (Ret r).
Proof.
  destruct (called A E input) as (w & r & Hw & Hd). destruct (proj2 (C73_in_application w 0 input Hw) r [] Hd) as [n Hn]. eauto.
Qed.
End Memory.

(** * Memory in proportion to the input: refuted *)

(** Eighty bytes without any data. *)
Definition short_text := bs "FZ282105100000716BY 405160VS 3PR E-01INT   5GP10000000000000x10000000000000".
Lemma short_meaning {T} (zero : T) E : exists c : composite T, header_meaning E short_text c /\ possible_dims c /\
  c_px c = 10000000000000 /\ c_py c = 10000000000000.
Proof. eexists. split; [apply (meaning_of_text zero); vm_compute; reflexivity|]. vm_compute. repeat split; congruence. Qed.
Lemma short_layout : file_layout (file short_text []) short_text [].
Proof. split; [reflexivity|]. vm_compute. intuition discriminate. Qed.

Theorem C73_short_file A E : len (file short_text []) <= 80 /\
  (exists c, new_composite A E (file short_text []) = Failure EUnknownEncoding c) /\
  (exists n r, allocates (mem_new_composite A E (file short_text [])) n (Ret r)) /\
  forall n r, allocates (mem_new_composite A E (file short_text [])) n (Ret r) -> 4 * 10 ^ 26 < n.
Proof.
  split; [vm_compute; discriminate|]. destruct (short_meaning (n_zero A) E) as (c & Hm & Hp & Hx & Hy). split; [|split; [apply returns_once|]].
  - assert (Hh : exists ch, parse_header_text (n_ofZ A) E (zero_composite (n_zero A)) (short_text ++ [Byte.x03]) = Value ch /\ alloc_ok ch /\ identify_encoding ch = unknown).
    { eexists. split; [vm_compute; reflexivity|]. split; [vm_compute; repeat split; congruence|vm_compute; reflexivity]. }
    destruct Hh as (ch & Hh & Ha & Hi). unfold file. rewrite (new_composite_header A E short_text [] ch (proj2 short_layout) Hh), (parse_data_alloc ch [] Ha), Hi.
    eexists. cbn [parse_encoding]. reflexivity.
  - intros n r Hr. rewrite (C73_total A E _ _ _ c n r short_layout Hm Hp Hr), Hx, Hy. reflexivity.
Qed.

(** An accepted file: one empty line. *)
Definition wide_text := bs "PG262115100000616BY22205LV 3  1.0 19.0 28.0CS0GP 1x70000000000000".
Lemma wide_meaning {T} (zero : T) E : exists c : composite T, header_meaning E wide_text c /\ possible_dims c /\
  c_px c = 70000000000000 /\ c_py c = 1.
Proof. eexists. split; [apply (meaning_of_text zero); vm_compute; reflexivity|]. vm_compute. repeat split; congruence. Qed.
Lemma wide_layout : file_layout (file wide_text [Byte.x0a]) wide_text [Byte.x0a].
Proof. split; [reflexivity|]. vm_compute. intuition discriminate. Qed.

Theorem C73_short_levels A E : len (file wide_text [Byte.x0a]) <= 80 /\
  (exists c, parsed A E (file wide_text [Byte.x0a]) c) /\
  (exists n r, allocates (mem_new_composite A E (file wide_text [Byte.x0a])) n (Ret r)) /\
  forall n r, allocates (mem_new_composite A E (file wide_text [Byte.x0a])) n (Ret r) -> 2 * 10 ^ 14 < n.
Proof.
  split; [vm_compute; discriminate|]. destruct (wide_meaning (n_zero A) E) as (c & Hm & Hp & Hx & Hy). split; [|split; [apply returns_once|]].
  - apply C46_accepted_iff. exists wide_text, [Byte.x0a], c, (22205 - (len wide_text + 1)). split; [apply wide_layout|]. split; [exact Hm|]. split; [exact Hp|].
    split; [exists 22205; split; [apply sscanf_d_number; vm_compute; reflexivity|vm_compute; reflexivity]|].
    left. eexists. exists [f32_lit 1 0; f32_lit 19 0; f32_lit 28 0], [[]], []. split; [vm_compute; reflexivity|]. split.
    { exists [bs "  1.0"; bs " 19.0"; bs " 28.0"].
      split; [apply sscanf_d_number; vm_compute; reflexivity|]. split; [vm_compute; repeat constructor|]. split; [vm_compute; reflexivity|].
      split; [repeat constructor|]. repeat constructor; vm_compute; reflexivity. }
    split; [split; [reflexivity|repeat constructor; auto]|]. split; [rewrite Hy; reflexivity|]. repeat constructor. cbn [line_meaning]. discriminate.
  - intros n r Hr. rewrite (C73_total A E _ _ _ c n r wide_layout Hm Hp Hr), Hx, Hy. reflexivity.
Qed.

(** The small files of C06 and C07. *)
Example C73_case A E : exists n r, allocates (mem_new_composite A E (file two_byte_text two_byte_data)) n (Ret r) /\ n = 2 * 24 + 2 * (3 * 4).
Proof.
  destruct (returns_once A E (file two_byte_text two_byte_data)) as (n & r & H). exists n, r. split; [exact H|].
  assert (Hm : exists c : composite (num A), header_meaning E two_byte_text c /\ possible_dims c /\ c_px c = 3 /\ c_py c = 2).
  { eexists. split; [apply (meaning_of_text (n_zero A)); vm_compute; reflexivity|]. vm_compute; intuition congruence. }
  destruct Hm as (c & Hm & Hp & Hx & Hy).
  rewrite (C73_total A E _ _ _ c n r two_byte_layout Hm Hp H), Hx, Hy. reflexivity.
Qed.
(** A file whose header ends early. *)
Example C73_case_header A E : forall text data (c : composite (num A)), file_layout (bs "FZ2821") text data -> ~ header_meaning E text c.
Proof. intros text data c [H _] _. apply (f_equal (fun l => existsb (Byte.eqb Byte.x03) l)) in H. rewrite existsb_app in H. cbn in H. now rewrite orb_true_r in H. Qed.
(** The header of C02. *)
Example C73_case_impossible A E : exists c : composite (num A), file_layout (file negative_text []) negative_text [] /\
  header_meaning E negative_text c /\ ~ possible_dims c.
Proof.
  eexists. split; [split; [reflexivity|vm_compute; intuition discriminate]|]. split; [apply (meaning_of_text (n_zero A)); vm_compute; reflexivity|].
  unfold possible_dims. vm_compute. intuition discriminate.
Qed.

Print Assumptions C73_total.
Print Assumptions C73_never_more.
Print Assumptions C73_no_header.
Print Assumptions C73_impossible.
Print Assumptions C73_accepted.
Print Assumptions C73_in_application.
Print Assumptions C73_short_file.
Print Assumptions C73_short_levels.
