(** MetricType: compatibility and resolution, /repo/metrics.go:17-129. *)
From Verif Require Import Base Floats GoVal.

(** [MetricType] is an int32 with the constants of /repo/metrics.go:20-28; any
    other number is a type no value is compatible with. *)
Definition Int32Type : Z := 0.
Definition Uint32Type : Z := 1.
Definition Int64Type : Z := 2.
Definition Uint64Type : Z := 3.
Definition FloatType : Z := 4.
Definition DoubleType : Z := 5.
Definition StringType : Z := 6.

(** /repo/metrics.go:32-45 *)
Definition isCompatibleInt (m v : Z) : bool :=
  if m =? Int32Type then (-2147483648 <=? v) && (v <=? 2147483647)
  else if m =? Int64Type then true
  else if m =? Uint32Type then (0 <=? v) && (v <=? 4294967295)
  else if m =? Uint64Type then 0 <=? v
  else false.

(** /repo/metrics.go:47-54 *)
Definition isCompatibleUint (m v : Z) : bool :=
  if v <=? 4294967295 then (m =? Uint32Type) || (m =? Uint64Type)
  else m =? Uint64Type.

(** /repo/metrics.go:56-63; comparisons with a NaN are false. *)
Definition isCompatibleFloat (m v : Z) : bool :=
  if f64_leb neg_max_float32_bits v && f64_leb v max_float32_bits
  then (m =? FloatType) || (m =? DoubleType)
  else m =? DoubleType.

(** /repo/metrics.go:66-88 *)
Definition IsCompatible (m : Z) (val : goval) : bool :=
  match val with
  | VInt v => isCompatibleInt m v
  | VInt32 _ => m =? Int32Type
  | VInt64 _ => m =? Int64Type
  | VUint v => isCompatibleUint m v
  | VUint32 _ => m =? Uint32Type
  | VUint64 _ => m =? Uint64Type
  | VF32 _ => m =? FloatType
  | VF64 v => isCompatibleFloat m v
  | VStr _ => m =? StringType
  | VOther => false
  end.

(** /repo/metrics.go:91-112 *)
Definition resolveInt (m : Z) (val : goval) : goval :=
  match val with
  | VInt v =>
      if m =? Int64Type then VInt64 v
      else if m =? Uint32Type then VUint32 (to_unsigned 32 v)
      else if m =? Uint64Type then VUint64 (to_unsigned 64 v)
      else VInt32 (to_signed 32 v)
  | VUint v =>
      if m =? Uint64Type then VUint64 v else VUint32 (to_unsigned 32 v)
  | val => val
  end.

(** /repo/metrics.go:115-122 *)
Definition resolveFloat (m : Z) (val : goval) : goval :=
  match val with
  | VF64 v => if m =? FloatType then VF32 (f32_of_f64 v) else VF64 v
  | val => val
  end.

(** /repo/metrics.go:124-129 *)
Definition resolve (m : Z) (val : goval) : goval := resolveFloat m (resolveInt m val).
