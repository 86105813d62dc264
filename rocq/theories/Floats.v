(** IEEE-754 binary32/binary64 values as raw bit patterns, with Go's float
    operations expressed through the standard library's [SpecFloat].

    Simplification: arithmetic that produces a NaN always produces the quiet NaN
    [0x7FF8000000000001] / [0x7FE00000]-style canonical pattern below; real hardware
    may keep another payload. Comparisons never depend on the payload. *)
From Verif Require Import Base.
From Coq Require Export Floats.SpecFloat.

(** A format: mantissa field width and exponent field width. *)
Record ffmt := { f_mw : Z; f_ew : Z }.
Definition F32 : ffmt := {| f_mw := 23; f_ew := 8 |}.
Definition F64 : ffmt := {| f_mw := 52; f_ew := 11 |}.

Definition f_prec (f : ffmt) : Z := f_mw f + 1.
Definition f_emax (f : ffmt) : Z := 2 ^ (f_ew f - 1).
Definition f_emin (f : ffmt) : Z := 3 - f_emax f - f_prec f.
Definition f_width (f : ffmt) : Z := 1 + f_ew f + f_mw f.

(** Bits to value (IEEE-754 interchange format; Go's math.Float64frombits). *)
Definition sf_decode (f : ffmt) (x : Z) : spec_float :=
  let s := negb (x / 2 ^ (f_mw f + f_ew f) =? 0) in
  let e := (x / 2 ^ f_mw f) mod 2 ^ f_ew f in
  let m := x mod 2 ^ f_mw f in
  if e =? 0 then
    match m with Zpos p => S754_finite s p (f_emin f) | _ => S754_zero s end
  else if e =? 2 ^ f_ew f - 1 then
    (if m =? 0 then S754_infinity s else S754_nan)
  else
    match m + 2 ^ f_mw f with
    | Zpos p => S754_finite s p (e + f_emin f - 1)
    | _ => S754_nan
    end.

(** Value to bits (Go's math.Float64bits), a uint32 or uint64. *)
Definition sf_encode (f : ffmt) (v : spec_float) : Z :=
  let sign (s : bool) := if s then 2 ^ (f_mw f + f_ew f) else 0 in
  to_unsigned (f_width f)
  match v with
  | S754_zero s => sign s
  | S754_infinity s => sign s + (2 ^ f_ew f - 1) * 2 ^ f_mw f
  | S754_nan => (2 ^ f_ew f - 1) * 2 ^ f_mw f + 2 ^ (f_mw f - 1)
  | S754_finite s m e =>
      if Zpos m <? 2 ^ f_mw f then sign s + Zpos m
      else sign s + (e - f_emin f + 1) * 2 ^ f_mw f + (Zpos m - 2 ^ f_mw f)
  end.

Definition f64_val (x : Z) : spec_float := sf_decode F64 x.
Definition f32_val (x : Z) : spec_float := sf_decode F32 x.

(** Go's [==] on float64 / float32. *)
Definition f64_eqb (a b : Z) : bool := SFeqb (f64_val a) (f64_val b).
Definition f32_eqb (a b : Z) : bool := SFeqb (f32_val a) (f32_val b).

(** Go's [<=] on float64. *)
Definition f64_leb (a b : Z) : bool := SFleb (f64_val a) (f64_val b).

(** Go's [a + b], [-a], [a * b], [a / b] on float64. *)
Definition f64_add (a b : Z) : Z := sf_encode F64 (SFadd 53 1024 (f64_val a) (f64_val b)).
Definition f64_sub (a b : Z) : Z := sf_encode F64 (SFsub 53 1024 (f64_val a) (f64_val b)).
Definition f64_mul (a b : Z) : Z := sf_encode F64 (SFmul 53 1024 (f64_val a) (f64_val b)).
Definition f64_div (a b : Z) : Z := sf_encode F64 (SFdiv 53 1024 (f64_val a) (f64_val b)).

(** Go's unary minus flips the sign bit, also of a NaN. *)
Definition f64_neg (a : Z) : Z := if a <? 2 ^ 63 then a + 2 ^ 63 else a - 2 ^ 63.

(** Go's [float64(i)] for an integer [i]. *)
Definition f64_of_Z (z : Z) : Z := sf_encode F64 (binary_normalize 53 1024 z 0 false).

(** Rounding of a value to binary32 (round to nearest, ties to even). *)
Definition sf_narrow (v : spec_float) : spec_float :=
  match v with
  | S754_finite s m e => binary_round 24 128 s m e
  | v => v
  end.

(** Go's [float32(x)] for a float64 [x]. *)
Definition f32_of_f64 (x : Z) : Z := sf_encode F32 (sf_narrow (f64_val x)).

(** math.MaxFloat32 as a float64 constant, /repo/metrics.go:58. *)
Definition max_float32_bits : Z := 0x47EFFFFFE0000000.
Definition neg_max_float32_bits : Z := 0xC7EFFFFFE0000000.

Definition f64_zero : Z := 0.
