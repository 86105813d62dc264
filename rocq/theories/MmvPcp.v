(** Codes as the reader sees them: /repo/mmvdump/pcp.go. *)
From Verif Require Import Base.

(** Unit accessors, /repo/mmvdump/pcp.go:216-259: a Unit is a uint32; the results are
    uint8 / int8 and every value fits. *)
Definition DSpaceScale (u : Z) : Z := Z.land (Z.shiftr u 16) 15.
Definition DTimeScale (u : Z) : Z := Z.land (Z.shiftr u 12) 15.
Definition DCountScale (u : Z) : Z := Z.land (Z.shiftr u 8) 15.
Definition DSpaceDim (u : Z) : Z := to_signed 8 (Z.shiftr (to_signed 32 u) 28).
Definition DTimeDim (u : Z) : Z := to_signed 8 (Z.shiftr (to_signed 32 (to_unsigned 32 (Z.shiftl u 4))) 28).
Definition DCountDim (u : Z) : Z := to_signed 8 (Z.shiftr (to_signed 32 (to_unsigned 32 (Z.shiftl u 8))) 28).

(** The Type constants, /repo/mmvdump/pcp.go:170-180 ([iota - 1]). *)
Definition DNoSupportType : Z := -1.
Definition DInt32Type : Z := 0.
Definition DUint32Type : Z := 1.
Definition DInt64Type : Z := 2.
Definition DUint64Type : Z := 3.
Definition DFloatType : Z := 4.
Definition DDoubleType : Z := 5.
Definition DStringType : Z := 6.
Definition DUnknownType : Z := 255.

(** The Semantics constants, /repo/mmvdump/pcp.go:374-380. The first line is
    [NoSemantics Semantics = 0] and does not mention iota, so by the rule for omitted
    expressions every following constant is 0 as well. *)
Definition DNoSemantics : Z := 0.
Definition DCounterSemantics : Z := 0.
Definition DInstantSemantics : Z := 0.
Definition DDiscreteSemantics : Z := 0.

(** The unit constants, /repo/mmvdump/pcp.go:188-212. *)
Definition DSpaceUnit (iota : Z) : Z := Z.lor (Z.shiftl 1 28) (Z.shiftl iota 16).
Definition DTimeUnit (iota : Z) : Z := Z.lor (Z.shiftl 1 24) (Z.shiftl iota 12).
Definition DOneUnit : Z := Z.lor (Z.shiftl 1 20) (Z.shiftl 0 8).
