(** The project's own unit tests, run on the model (header_test.go:24-84,
    conversion_test.go:8-42).  These are tests of the model, not properties. *)
From Coq Require Import Lia.
From Coq Require String. Import String.StringSyntax.
From Verif Require Import GoBase GoFloat Catalog Composite Header Data Projection Spec.
Local Open Scope Z_scope.

Section Tests.
Variable A : arith.
Variable E : goenv.
Let zero := zero_composite (n_zero A).
Let ns : Z := 1000000000.

(** header_test.go:24-51 [TestParseHeaderPG]: 26 Jun 2016 21:15 UTC. *)
Example parse_header_pg :
  exists c, parse_header (n_ofZ A) E zero
    (bs "PG262115100000616BY22205LV 6  1.0 19.0 28.0 37.0 46.0 55.0CS0MX 0MS 88<boo,ros,emd,hnr,umd,pro,ess,fld,drs,neu,nhb,oft,eis,tur,isn,fbg,mem> are used, BG460460" ++ Byte.x03 :: bs "binarycontent") = Value (c, bs "binarycontent") /\
  c_product c = bs "PG" /\ c_capture c = 1466975700 * ns /\ c_forecast c = c_capture c /\ c_interval c = 0 /\
  c_dx c = 460 /\ c_dy c = 460 /\ c_data_length c = 22205 - 159 /\ c_precision c = 0 /\
  c_level c = Some [f32_of_int 1; f32_of_int 19; f32_of_int 28; f32_of_int 37; f32_of_int 46; f32_of_int 55].
Proof. eexists. split; [vm_compute; reflexivity|]. repeat split; vm_compute; reflexivity. Qed.

(** header_test.go:53-84 [TestParseHeaderFZ]: 28 Jul 2016 21:05 UTC, forecast 100 minutes later. *)
Example parse_header_fz :
  exists c, parse_header (n_ofZ A) E zero
    (bs "FZ282105100000716BY 405160VS 3SW   2.13.1PR E-01INT   5GP 450x 450VV 100MF 00000002MS 66<boo,ros,emd,hnr,umd,pro,ess,drs,neu,nhb,oft,eis,tur,isn,fbg,mem>" ++ Byte.x03 :: bs "binarycontent")
    = Value (c, bs "binarycontent") /\
  c_product c = bs "FZ" /\ c_capture c = 1469739900 * ns /\ c_forecast c = c_capture c + 100 * 60 * ns /\ c_interval c = 5 * 60 * ns /\
  c_dx c = 450 /\ c_dy c = 450 /\ c_data_length c = 405160 - 154 /\ c_precision c = -1 /\ c_level c = None.
Proof. eexists. split; [vm_compute; reflexivity|]. repeat split; vm_compute; reflexivity. Qed.
End Tests.

(** conversion_test.go:8-42 [TestConversion], the conversions between rvp-6 and dBZ. *)
Example conversion :
  List.Forall (fun '(rvp, dbz) => toDBZ rvp = dbz /\ f_eq (toRVP6 dbz) rvp = true)
    [ (f32_of_int 0, f32_lit (-325) (-1)); (f32_of_int 65, f32_of_int 0);
      (f32_of_int 100, f32_lit 175 (-1)); (f32_of_int 200, f32_lit 675 (-1)) ].
Proof. repeat constructor; vm_compute; reflexivity. Qed.
