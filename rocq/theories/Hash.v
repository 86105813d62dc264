(** /repo/speed.go:43-57: FNV-1a, 32 bits, masked to [b] bits. *)
From Verif Require Import Base.

(** hash/fnv.New32a: offset basis 2166136261, prime 16777619. *)
Definition fnv_step (h : Z) (b : byte) : Z :=
  to_unsigned 32 (Z.lxor h (byteZ b) * 16777619).
Definition fnv1a (s : gostring) : Z := foldl fnv_step 2166136261 s.

(** [hash(s, b)]; [(1 << b) - 1] is a uint32 expression. *)
Definition hash (s : gostring) (b : Z) : Z :=
  let val := fnv1a s in
  if b =? 0 then val else Z.land val (to_unsigned 32 (to_unsigned 32 (Z.shiftl 1 b) - 1)).

(** /repo/metrics.go:462, /repo/instance_domain.go:22, /repo/client.go:88 *)
Definition PCPMetricItemBitLength : Z := 10.
Definition PCPInstanceDomainBitLength : Z := 22.
Definition PCPClusterIDBitLength : Z := 12.
