(** C27, C28: units and local products against the list of products. *)
From Coq Require Import Lia.
From Verif Require Import GoBase GoFloat Catalog Composite Header Data Projection Radolan
  Spec SpecHeader SpecCatalog BaseFacts HeaderFacts CompositeFacts PropFile PropHeader.
From Coq Require String. Import String.StringSyntax.

Definition str_in (k : list byte) (l : list (list byte)) : bool := existsb (str_eqb k) l.
Lemma str_in_iff k l : str_in k l = true <-> In k l.
Proof.
  unfold str_in. rewrite existsb_exists. split.
  - intros (x & H1 & H2). apply str_eqb_eq in H2. now subst.
  - intros H. exists k. split; [assumption|]. now apply str_eqb_eq.
Qed.

(** A finite map agrees with a predicate if it does on its keys and the
    predicate holds for no other key. *)
Lemma lookup_in_keys {V} (m : gomap V) k v : lookup m k = Some v -> In k (map fst m).
Proof.
  induction m as [|[k' v'] m IH]; [discriminate|]. cbn [lookup map fst In]. destruct (str_eqb k k') eqn:H.
  - apply str_eqb_eq in H. auto.
  - auto.
Qed.

Definition unit_in (k : list byte) : option unit_t :=
  if str_in k precipitation_products then Some Unit_mm
  else if str_in k reflectivity_products then Some Unit_dBZ
  else if str_in k velocity_products then Some Unit_mps
  else if str_in k echo_top_products then Some Unit_km else None.
Definition all_products := precipitation_products ++ reflectivity_products ++ velocity_products ++ echo_top_products.

Lemma unit_in_products k u : unit_in k = Some u -> In k all_products.
Proof.
  unfold unit_in, all_products. rewrite !in_app_iff, <- !str_in_iff.
  destruct (str_in k precipitation_products); auto. destruct (str_in k reflectivity_products); auto.
  destruct (str_in k velocity_products); auto. destruct (str_in k echo_top_products); auto. discriminate.
Qed.
Definition opt_unit_eqb (a b : option unit_t) : bool :=
  match a, b with Some a, Some b => unit_eqb a b | None, None => true | _, _ => false end.
Lemma opt_unit_eqb_eq a b : opt_unit_eqb a b = true -> a = b.
Proof. destruct a as [[]|], b as [[]|]; try discriminate; reflexivity. Qed.
Lemma unit_lookup k : lookup unit_catalog k = unit_in k.
Proof.
  assert (Ha : forallb (fun k => opt_unit_eqb (lookup unit_catalog k) (unit_in k)) (map fst unit_catalog ++ all_products) = true)
    by (vm_compute; reflexivity).
  rewrite forallb_forall in Ha.
  destruct (lookup unit_catalog k) as [u|] eqn:Hl.
  - rewrite <- Hl. apply opt_unit_eqb_eq, Ha. apply in_app_iff. left. eapply lookup_in_keys; eauto.
  - destruct (unit_in k) as [u|] eqn:Hu; [|reflexivity]. rewrite <- Hl, <- Hu.
    apply opt_unit_eqb_eq, Ha. apply in_app_iff. right. eapply unit_in_products; eauto.
Qed.

Lemma disjoint_products k : In k precipitation_products -> In k reflectivity_products \/ In k velocity_products \/ In k echo_top_products -> False.
Proof.
  intros H1 H2. assert (Ha : forallb (fun k => negb (str_in k reflectivity_products || str_in k velocity_products || str_in k echo_top_products)) precipitation_products = true)
    by (vm_compute; reflexivity).
  rewrite forallb_forall in Ha. specialize (Ha k H1). rewrite <- !str_in_iff in H2. 
  destruct H2 as [H2|[H2|H2]]; rewrite H2 in Ha; rewrite ?Bool.orb_true_r in Ha; discriminate.
Qed.
Lemma disjoint_products2 k : In k reflectivity_products -> In k velocity_products \/ In k echo_top_products -> False.
Proof.
  intros H1 H2. assert (Ha : forallb (fun k => negb (str_in k velocity_products || str_in k echo_top_products)) reflectivity_products = true)
    by (vm_compute; reflexivity).
  rewrite forallb_forall in Ha. specialize (Ha k H1). rewrite <- !str_in_iff in H2. 
  destruct H2 as [H2|H2]; rewrite H2 in Ha; rewrite ?Bool.orb_true_r in Ha; discriminate.
Qed.
Lemma disjoint_products3 k : In k velocity_products -> In k echo_top_products -> False.
Proof.
  intros H1 H2. assert (Ha : forallb (fun k => negb (str_in k echo_top_products)) velocity_products = true)
    by (vm_compute; reflexivity).
  rewrite forallb_forall in Ha. specialize (Ha k H1). rewrite <- !str_in_iff in H2. rewrite H2 in Ha. discriminate.
Qed.

Lemma unit_in_iff k u : unit_in k = Some u <-> product_unit k u.
Proof.
  unfold unit_in. split.
  - destruct (str_in k precipitation_products) eqn:H1; [intros [= <-]; constructor; now apply str_in_iff|].
    destruct (str_in k reflectivity_products) eqn:H2; [intros [= <-]; constructor; now apply str_in_iff|].
    destruct (str_in k velocity_products) eqn:H3; [intros [= <-]; constructor; now apply str_in_iff|].
    destruct (str_in k echo_top_products) eqn:H4; [intros [= <-]; constructor; now apply str_in_iff|discriminate].
  - assert (N : forall l, (In k l -> False) -> str_in k l = false).
    { intros l H. destruct (str_in k l) eqn:Hs; [|reflexivity]. apply str_in_iff in Hs. contradiction. }
    intros [H|H|H|H].
    + apply str_in_iff in H. now rewrite H.
    + rewrite (N precipitation_products) by (intros H'; eapply disjoint_products; eauto).
      apply str_in_iff in H. now rewrite H.
    + rewrite (N precipitation_products) by (intros H'; eapply disjoint_products; eauto).
      rewrite (N reflectivity_products) by (intros H'; eapply disjoint_products2; eauto).
      apply str_in_iff in H. now rewrite H.
    + rewrite (N precipitation_products) by (intros H'; eapply disjoint_products; eauto).
      rewrite (N reflectivity_products) by (intros H'; eapply disjoint_products2; eauto).
      rewrite (N velocity_products) by (intros H'; eapply disjoint_products3; eauto).
      apply str_in_iff in H. now rewrite H.
Qed.

(** The unit of a composite is that of its product. *)
Theorem C28_products A E input text data c : parsed A E input c -> file_layout input text data ->
  (forall u, product_unit (firstn 2 text) u -> c_unit c = u /\ new_composite A E input = Value c) /\
  ((forall u, ~ product_unit (firstn 2 text) u) -> c_unit c = Unit_unknown /\ new_composite A E input = Failure ErrUnknownUnit c).
Proof.
  intros Hp Hf. destruct (C28_unit A E input text data c Hp Hf) as [_ Hu]. rewrite unit_lookup in Hu. split.
  - intros u Hk. apply unit_in_iff in Hk. rewrite Hk in Hu. tauto.
  - intros Hn. destruct (unit_in (firstn 2 text)) as [u|] eqn:Hk; [|assumption].
    exfalso. apply unit_in_iff in Hk. now apply (Hn u).
Qed.

(** * Local products *)
Definition local_spec (k : list byte) : option (Z * Z * Z * Z) :=
  if str_in k local_products then Some (200, (if str_in k volume_products then 2400 else 224), 200, 200) else None.
Definition spec_dims (v : option spec) : option (Z * Z * Z * Z) :=
  match v with Some v => Some (s_px v, s_py v, s_dx v, s_dy v) | None => None end.
Definition opt4_eqb (a b : option (Z * Z * Z * Z)) : bool :=
  match a, b with
  | Some (a, b, c, d), Some (a', b', c', d') => (a =? a') && (b =? b') && (c =? c') && (d =? d')
  | None, None => true
  | _, _ => false
  end.
Lemma opt4_eqb_eq a b : opt4_eqb a b = true -> a = b.
Proof.
  destruct a as [[[[a b'] c] d]|], b as [[[[e f] g] h]|]; cbn; try discriminate; [|reflexivity].
  intros H. apply andb_prop in H as [H H4]. apply andb_prop in H as [H H3]. apply andb_prop in H as [H1 H2].
  apply Z.eqb_eq in H1, H2, H3, H4. congruence.
Qed.
Lemma local_lookup k : spec_dims (lookup dimension_catalog k) = local_spec k.
Proof.
  assert (Ha : forallb (fun k => opt4_eqb (spec_dims (lookup dimension_catalog k)) (local_spec k)) (map fst dimension_catalog ++ local_products) = true)
    by (vm_compute; reflexivity).
  rewrite forallb_forall in Ha.
  destruct (lookup dimension_catalog k) as [v|] eqn:Hl.
  - rewrite <- Hl. apply opt4_eqb_eq, Ha. apply in_app_iff. left. eapply lookup_in_keys; eauto.
  - destruct (local_spec k) as [u|] eqn:Hu; [|reflexivity]. rewrite <- Hu, <- Hl.
    apply opt4_eqb_eq, Ha. apply in_app_iff. right. apply str_in_iff. unfold local_spec in Hu. destruct (str_in k local_products); [reflexivity|discriminate].
Qed.

(** A file without dimensions in its header is that of a local product, and has
    its layout. *)
Theorem C27_local A E input text data c : parsed A E input c -> file_layout input text data ->
  field E text (bs "GP") = None -> field E text (bs "BG") = None ->
  In (firstn 2 text) local_products /\ c_px c = 200 /\ c_dx c = 200 /\ c_dy c = 200 /\
  forall rows layers, local_rows (firstn 2 text) rows layers -> c_py c = rows /\ c_dz c = layers.
Proof.
  intros Hp Hf Hg Hb. pose proof (C27_dimensions A E input text data c Hp Hf) as Ha.
  assert (Hv : exists v, lookup dimension_catalog (firstn 2 text) = Some v /\ c_px c = s_px v /\ c_py c = s_py v /\ c_dx c = s_dx v /\ c_dy c = s_dy v).
  { inversion Ha as [? G|? G0 G|v G0 G1 G2]; subst; try congruence. exists v. auto. }
  destruct Hv as (v & Hl & Vpx & Vpy & Vdx & Vdy).
  pose proof (local_lookup (firstn 2 text)) as Hs. rewrite Hl in Hs. cbn [spec_dims] in Hs. unfold local_spec in Hs.
  destruct (str_in (firstn 2 text) local_products) eqn:Hin; [|discriminate].
  assert (S1 : s_px v = 200) by congruence. assert (S3 : s_dx v = 200) by congruence. assert (S4 : s_dy v = 200) by congruence.
  assert (S2 : s_py v = if str_in (firstn 2 text) volume_products then 2400 else 224) by congruence.
  split; [now apply str_in_iff|]. split; [congruence|]. split; [congruence|]. split; [congruence|].
  destruct (C05_layers A E input c Hp) as [L1 L2].
  intros rows layers [Hvol|Hloc Hno].
  - apply str_in_iff in Hvol. rewrite Hvol in S2. split; [lia|].
    destruct L1 as [L1 _]; [rewrite Vpy, Vdy, S2, S4; reflexivity|]. rewrite L1, Vpy, Vdy, S2, S4. reflexivity.
  - destruct (str_in (firstn 2 text) volume_products) eqn:Hvol; [apply str_in_iff in Hvol; contradiction|]. split; [lia|].
    destruct L2 as [L2 _]; [rewrite Vpy, Vdy, S2, S4; discriminate|]. exact L2.
Qed.

(** Every label other than those is rejected without dimensions. *)
Theorem C27_not_local A E input text data c : file_layout input text data ->
  field E text (bs "GP") = None -> field E text (bs "BG") = None -> ~ In (firstn 2 text) local_products -> ~ parsed A E input c.
Proof. intros Hf Hg Hb Hn Hp. destruct (C27_local A E input text data c Hp Hf Hg Hb) as [H _]. contradiction. Qed.

(** No local product has an unknown unit. *)
Theorem C28_local_known A E input text data c : parsed A E input c -> file_layout input text data ->
  field E text (bs "GP") = None -> field E text (bs "BG") = None -> new_composite A E input = Value c.
Proof.
  intros Hp Hf Hg Hb. destruct (C27_local A E input text data c Hp Hf Hg Hb) as [Hin _].
  destruct (C28_products A E input text data c Hp Hf) as [Hu _].
  assert (Ha : forallb (fun k => match unit_in k with Some _ => true | None => false end) local_products = true) by (vm_compute; reflexivity).
  rewrite forallb_forall in Ha. specialize (Ha _ Hin). destruct (unit_in (firstn 2 text)) as [u|] eqn:Hk; [|discriminate].
  apply unit_in_iff in Hk. now destruct (Hu u Hk).
Qed.

Example C27_local_case A E : exists input text data c, parsed A E input c /\ file_layout input text data /\
  field E text (bs "GP") = None /\ field E text (bs "BG") = None /\ local_rows (firstn 2 text) 2400 12.
Proof.
  exists (file (bs "PZ262115100000616BY22205LV 1  1.0CS0MX 0") (repeat Byte.x0a 2400)), (bs "PZ262115100000616BY22205LV 1  1.0CS0MX 0"), (repeat Byte.x0a 2400).
  destruct (C05_layers_case A E) as (c & Hp & _). exists c. split; [assumption|]. split.
  - split; [reflexivity|]. vm_compute. intuition discriminate.
  - split; [vm_compute; reflexivity|]. split; [vm_compute; reflexivity|]. apply is_volume. vm_compute. auto.
Qed.
Print Assumptions C27_local.
Print Assumptions C28_products.
Print Assumptions C28_local_known.
