(** Common imports, Go integer conversions, bytes and little-endian encodings.
    Modelled: the parts of Go's runtime the sources rely on (fixed size integer
    conversion, encoding/binary little endian as used by
    /repo/bytewriter/bytewriter.go:58-71 and /repo/mmvdump/mmvdump.go:328-345). *)
From Coq Require Export ZArith Lia List Bool.
From Coq Require Export Init.Byte Strings.Byte.
From Coq Require Import ZifyBool ZifyNat ZifyN.
From stdpp Require Export prelude list gmap sorting.
Export ListNotations.

Ltac Zify.zify_post_hook ::= Z.div_mod_to_equations.

Global Open Scope Z_scope.

(** ** Go integers *)

(** Conversion of an integer to an unsigned type of [w] bits: Go's
    [uint32(x)], [uint64(x)] (wraps around). *)
Definition to_unsigned (w : Z) (z : Z) : Z := z mod 2 ^ w.

(** Conversion of an integer to a two's complement type of [w] bits: Go's
    [int32(x)], [int64(x)]. *)
Definition to_signed (w : Z) (z : Z) : Z :=
  let m := z mod 2 ^ w in if m <? 2 ^ (w - 1) then m else m - 2 ^ w.

Definition in_signed (w z : Z) : Prop := - 2 ^ (w - 1) <= z < 2 ^ (w - 1).
Definition in_unsigned (w z : Z) : Prop := 0 <= z < 2 ^ w.

(** ** Bytes *)

(** Value of a byte, 0..255. *)
Definition byteZ (b : byte) : Z := Z.of_N (Byte.to_N b).

(** Go's [byte(x)]. *)
Definition zbyte (z : Z) : byte :=
  match Byte.of_N (Z.to_N (z mod 256)) with Some b => b | None => x00 end.

(** Go strings and byte slices: sequences of bytes. *)
Definition gostring := list byte.

(** Little-endian encoding of [z] in [n] bytes
    (encoding/binary.LittleEndian, /repo/bytewriter/bytewriter.go:11). *)
Fixpoint le_enc (n : nat) (z : Z) : list byte :=
  match n with
  | O => []
  | S n => zbyte z :: le_enc n (z / 256)
  end.

(** Little-endian decoding, unsigned. *)
Fixpoint le_dec (l : list byte) : Z :=
  match l with
  | [] => 0
  | b :: l => byteZ b + 256 * le_dec l
  end.

(** Length of a slice, as Go's [len]. *)
Definition zlen {A} (l : list A) : Z := Z.of_nat (length l).

(** Sum of a list. *)
Fixpoint sumZ (l : list Z) : Z := match l with [] => 0 | x :: l => x + sumZ l end.

(** [n] zero bytes, Go's [make([]byte, n)]. *)
Definition zeros (n : Z) : list byte := replicate (Z.to_nat n) x00.

(** Equality and countability of bytes, needed to use strings as map keys. *)
Global Instance byte_eq_dec : EqDecision byte.
Proof.
  refine (fun x y => match decide (Byte.to_N x = Byte.to_N y) with left e => left _ | right n => right _ end).
  - abstract (assert (Some x = Some y) as H; [rewrite <- !Byte.of_to_N, e; reflexivity|injection H as H; exact H]).
  - abstract (intros ->; exact (n eq_refl)).
Defined.

Global Program Instance byte_countable : Countable byte :=
  inj_countable Byte.to_N Byte.of_N _.
Next Obligation. intros x. apply Byte.of_to_N. Qed.

(** Coq string literals as Go strings (for constants and examples). *)
From Coq Require String.
Export String.StringSyntax.
Definition str (s : String.string) : gostring := String.list_byte_of_string s.
Arguments str s%string_scope.
