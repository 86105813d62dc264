(** Go interface values as used for metric values (/repo/metrics.go). *)
From Verif Require Import Base Floats.

(** Dynamic values of [interface{}] that the sources distinguish
    (/repo/metrics.go:66-88). Go's [int] and [uint] are 64 bits wide. [VOther]
    stands for every value of any other type (nil, bool, structs, ...). *)
Inductive goval :=
| VInt (z : Z) | VInt32 (z : Z) | VInt64 (z : Z)
| VUint (z : Z) | VUint32 (z : Z) | VUint64 (z : Z)
| VF32 (bits : Z) | VF64 (bits : Z)
| VStr (s : gostring)
| VOther.

(** Values Go's type system allows: each integer in the range of its type. *)
Definition wf_goval (v : goval) : Prop :=
  match v with
  | VInt z | VInt64 z => in_signed 64 z
  | VInt32 z => in_signed 32 z
  | VUint z | VUint64 z => in_unsigned 64 z
  | VUint32 z => in_unsigned 32 z
  | VF32 z => in_unsigned 32 z
  | VF64 z => in_unsigned 64 z
  | VStr _ | VOther => True
  end.

(** Go's [==] on interface values (same dynamic type and equal), as used by
    /repo/metrics.go:581 and /repo/metrics.go:1012. [VOther] never reaches it. *)
Definition go_eqb (a b : goval) : bool :=
  match a, b with
  | VInt x, VInt y | VInt32 x, VInt32 y | VInt64 x, VInt64 y
  | VUint x, VUint y | VUint32 x, VUint32 y | VUint64 x, VUint64 y => x =? y
  | VF32 x, VF32 y => f32_eqb x y
  | VF64 x, VF64 y => f64_eqb x y
  | VStr x, VStr y => bool_decide (x = y)
  | _, _ => false
  end.

(** What [binary.Write(buf, LittleEndian, val)] produces, or [None] for its
    "invalid type" error (int, uint and non fixed-size types), and the bytes of
    a string (/repo/bytewriter/bytewriter.go:58-71,83-86). Simplification: fixed
    size types the library never stores (bool, int8, ...) are in [VOther] and
    counted as errors. *)
Definition val_bytes (v : goval) : option (list byte) :=
  match v with
  | VInt32 z => Some (le_enc 4 z)
  | VUint32 z => Some (le_enc 4 z)
  | VInt64 z => Some (le_enc 8 z)
  | VUint64 z => Some (le_enc 8 z)
  | VF32 z => Some (le_enc 4 z)
  | VF64 z => Some (le_enc 8 z)
  | VStr s => Some s
  | VInt _ | VUint _ | VOther => None
  end.

Global Instance goval_eq_dec : EqDecision goval.
Proof. intros x y. unfold Decision. decide equality; try apply Z.eq_dec. apply list_eq_dec. Defined.
