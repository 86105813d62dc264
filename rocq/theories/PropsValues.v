(** C10, C11, C12: which values a metric type accepts and what is stored.
    Specification vocabulary: [accepts], [int_of] (ValueFacts.v), [vtyped] (View.v),
    [f64_abs_le], [MaxFloat32] (FloatFacts.v), [R64], [R32], [finite32], [rnd32]
    (FlocqFacts.v). [wf_goval]: integers lie in the range of their Go type. *)
From Verif Require Import Base BaseFacts Floats GoVal MetricType FloatFacts View ValueFacts OpRuns FlocqFacts.

(** ** C10 *)
Theorem C10_accepted_values t v : wf_goval v -> IsCompatible t v = true <-> accepts t v.
Proof. exact (compat_iff t v). Qed.
Example C10_ex1 : accepts 0 (VInt (-2147483648)) /\ ~ accepts 0 (VInt 2147483648) /\ ~ accepts 2 (VUint 1) /\ accepts 3 (VUint (2 ^ 64 - 1)).
Proof. rewrite <- !compat_iff by (split; cbv; congruence). cbv. split_and!; congruence. Qed.
(* 1e39 is no float32 value; the largest float32 is accepted, the next double up is not; NaN and infinities are not *)
Example C10_ex2 : IsCompatible FloatType (VF64 0x47EFFFFFE0000000) = true /\ IsCompatible FloatType (VF64 0x47EFFFFFE0000001) = false /\
  IsCompatible FloatType (VF64 0x7FF8000000000001) = false /\ IsCompatible DoubleType (VF64 0x7FF0000000000000) = true.
Proof. split_and!; reflexivity. Qed.

(** ** C11 *)
Theorem C11_integers t v z : wf_goval v -> IsCompatible t v = true -> int_of v = Some z ->
  int_of (resolve t v) = Some z /\ vtyped t (resolve t v).
Proof. exact (resolve_int t v z). Qed.
Theorem C11_strings t s : IsCompatible t (VStr s) = true -> t = StringType /\ resolve t (VStr s) = VStr s.
Proof. exact (resolve_string t s). Qed.
Theorem C11_doubles b : resolve DoubleType (VF64 b) = VF64 b.
Proof. exact (resolve_double b). Qed.
Theorem C11_float32 t b : IsCompatible t (VF32 b) = true -> t = FloatType /\ resolve t (VF32 b) = VF32 b.
Proof. exact (resolve_f32 t b). Qed.
Theorem C11_type t v : wf_goval v -> IsCompatible t v = true -> vtyped t (resolve t v).
Proof. exact (resolve_typed t v). Qed.
Example C11_ex : IsCompatible Uint32Type (VInt 7) = true /\ resolve Uint32Type (VInt 7) = VUint32 7 /\ resolve Int32Type (VInt (-7)) = VInt32 (-7).
Proof. split_and!; reflexivity. Qed.

(** ** C12 *)
Theorem C12_narrowing x : in_unsigned 64 x -> IsCompatible FloatType (VF64 x) = true ->
  resolve FloatType (VF64 x) = VF32 (f32_of_f64 x) /\ finite32 (f32_of_f64 x) /\ R32 (f32_of_f64 x) = rnd32 (R64 x).
Proof.
  intros Hx Hc. split; [reflexivity|]. apply narrow_correct; [exact Hx|]. apply (compat_iff FloatType (VF64 x) Hx) in Hc. destruct Hc as [Hc|[_ Hc]]; [discriminate|exact Hc].
Qed.
(* 0.1 as a double narrows to 0x3DCCCCCD *)
Example C12_ex : IsCompatible FloatType (VF64 0x3FB999999999999A) = true /\ f32_of_f64 0x3FB999999999999A = 0x3DCCCCCD.
Proof. split; vm_compute; reflexivity. Qed.

Print Assumptions C10_accepted_values.
Print Assumptions C11_integers.
Print Assumptions C11_strings.
Print Assumptions C11_doubles.
Print Assumptions C11_float32.
Print Assumptions C11_type.
Print Assumptions C12_narrowing.
