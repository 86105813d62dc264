(** Specification of accepted and stored values (C10, C11) and lemmas. *)
From Verif Require Import Base BaseFacts Floats GoVal MetricType FloatFacts View.

(** ** Specification *)
(** The integer range of a metric type; [None] for the non-integer types. *)
Definition int_range (t : Z) : option (Z * Z) :=
  if t =? 0 then Some (- 2 ^ 31, 2 ^ 31 - 1)          (* int32 *)
  else if t =? 1 then Some (0, 2 ^ 32 - 1)            (* uint32 *)
  else if t =? 2 then Some (- 2 ^ 63, 2 ^ 63 - 1)     (* int64 *)
  else if t =? 3 then Some (0, 2 ^ 64 - 1)            (* uint64 *)
  else None.
Definition fits_int (t z : Z) : Prop := exists lo hi, int_range t = Some (lo, hi) /\ lo <= z <= hi.
Definition unsigned_type (t : Z) : Prop := t = 1 \/ t = 3.

(** Values a metric of type [t] should accept. *)
Definition accepts (t : Z) (v : goval) : Prop :=
  match v with
  | VInt32 _ => t = 0 | VUint32 _ => t = 1 | VInt64 _ => t = 2 | VUint64 _ => t = 3 | VF32 _ => t = 4
  | VInt z => fits_int t z
  | VUint z => unsigned_type t /\ fits_int t z
  | VF64 b => t = 5 \/ (t = 4 /\ f64_abs_le b MaxFloat32)
  | VStr _ => t = 6
  | VOther => False
  end.

(** The integer a Go value stands for. *)
Definition int_of (v : goval) : option Z :=
  match v with
  | VInt z | VInt32 z | VInt64 z | VUint z | VUint32 z | VUint64 z => Some z
  | _ => None
  end.

(** ** Lemmas *)
Lemma compat_iff t v : wf_goval v -> IsCompatible t v = true <-> accepts t v.
Proof.
  intros Hw. unfold IsCompatible, accepts, Int32Type, Uint32Type, Int64Type, Uint64Type, FloatType, DoubleType, StringType.
  destruct v; cbn [wf_goval] in Hw; try (rewrite Z.eqb_eq; reflexivity).
  - unfold fits_int, int_range, isCompatibleInt, Int32Type, Uint32Type, Int64Type, Uint64Type. unfold in_signed in Hw.
    destruct (t =? 0) eqn:E0; [split; [intros; eexists _, _; split; [reflexivity|lia]|intros (?&?&[= <- <-]&?); lia]|].
    destruct (t =? 2) eqn:E2; [replace (t =? 1) with false by lia; split; [intros; eexists _, _; split; [reflexivity|lia]|auto]|].
    destruct (t =? 1) eqn:E1; [split; [intros; eexists _, _; split; [reflexivity|lia]|intros (?&?&[= <- <-]&?); lia]|].
    destruct (t =? 3) eqn:E3; [split; [intros; eexists _, _; split; [reflexivity|lia]|intros (?&?&[= <- <-]&?); lia]|].
    split; [discriminate|intros (?&?&?&?); discriminate].
  - unfold fits_int, int_range, isCompatibleUint, unsigned_type, Uint32Type, Uint64Type. unfold in_unsigned in Hw.
    destruct (z <=? 4294967295) eqn:E.
    + rewrite orb_true_iff, !Z.eqb_eq. split.
      * intros [-> | ->]; (split; [lia|]); eexists _, _; (split; [reflexivity|lia]).
      * tauto.
    + rewrite Z.eqb_eq. split.
      * intros ->. split; [lia|]. eexists _, _. split; [reflexivity|lia].
      * intros [[-> | ->] (?&?&[= <- <-]&?)]; lia.
  - unfold isCompatibleFloat, FloatType, DoubleType. pose proof (float32_range bits Hw) as HF. destruct (_ && _) eqn:E.
    + rewrite orb_true_iff, !Z.eqb_eq. split; [intros [H|H]; [right; split; [exact H|apply HF; reflexivity]|left; exact H]|tauto].
    + rewrite Z.eqb_eq. split; [tauto|]. intros [H|[_ H]]; [exact H|]. apply HF in H. discriminate.
  - split; [discriminate|tauto].
Qed.

Lemma resolve_int t v z : wf_goval v -> IsCompatible t v = true -> int_of v = Some z ->
  int_of (resolve t v) = Some z /\ vtyped t (resolve t v).
Proof.
  intros Hw Hc Hi. unfold resolve, resolveFloat, resolveInt.
  destruct v; cbn in Hi; try discriminate; injection Hi as ->; cbn [wf_goval IsCompatible] in *;
    unfold isCompatibleInt, isCompatibleUint, Int32Type, Uint32Type, Int64Type, Uint64Type in *; unfold in_signed, in_unsigned in *.
  - destruct (t =? 0) eqn:E0.
    { replace (t =? 2) with false by lia. replace (t =? 1) with false by lia. replace (t =? 3) with false by lia.
      cbn. rewrite to_signed_id by (unfold in_signed; lia). split; [reflexivity|]. unfold in_signed, Int32Type. lia. }
    destruct (t =? 2) eqn:E2; [split; [reflexivity|cbn; unfold in_signed, Int64Type; lia]|].
    destruct (t =? 1) eqn:E1. { cbn. rewrite to_unsigned_id by (unfold in_unsigned; lia). split; [reflexivity|]. unfold in_unsigned, Uint32Type. lia. }
    destruct (t =? 3) eqn:E3; [|discriminate]. cbn. rewrite to_unsigned_id by (unfold in_unsigned; lia). split; [reflexivity|]. unfold in_unsigned, Uint64Type. lia.
  - split; [reflexivity|]. cbn. unfold in_signed, Int32Type. lia.
  - split; [reflexivity|]. cbn. unfold in_signed, Int64Type. lia.
  - destruct (z <=? 4294967295) eqn:E.
    + destruct (t =? 3) eqn:E3; [split; [reflexivity|cbn; unfold in_unsigned, Uint64Type; lia]|].
      cbn. rewrite to_unsigned_id by (unfold in_unsigned; lia). split; [reflexivity|]. unfold in_unsigned, Uint32Type. lia.
    + rewrite Hc. split; [reflexivity|cbn; unfold in_unsigned, Uint64Type; lia].
  - split; [reflexivity|]. cbn. unfold in_unsigned, Uint32Type. lia.
  - split; [reflexivity|]. cbn. unfold in_unsigned, Uint64Type. lia.
Qed.

Lemma resolve_string t s : IsCompatible t (VStr s) = true -> t = StringType /\ resolve t (VStr s) = VStr s.
Proof. cbn. intros H. split; [unfold StringType in *; lia|reflexivity]. Qed.
Lemma resolve_double b : resolve DoubleType (VF64 b) = VF64 b.
Proof. reflexivity. Qed.
Lemma resolve_f32 t b : IsCompatible t (VF32 b) = true -> t = FloatType /\ resolve t (VF32 b) = VF32 b.
Proof. cbn. intros H. split; [unfold FloatType in *; lia|reflexivity]. Qed.
