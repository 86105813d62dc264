(** Metric units: 32-bit PMAPI words, /repo/metrics.go:134-364. *)
From Verif Require Import Base.

(** Constants of /repo/metrics.go:268-276, 306-313, 342. *)
Definition SpaceUnit (scale : Z) : Z := Z.lor (Z.shiftl 1 28) (Z.shiftl scale 16).
Definition TimeUnit (scale : Z) : Z := Z.lor (Z.shiftl 1 24) (Z.shiftl scale 12).
Definition ByteUnit := SpaceUnit 0.
Definition KilobyteUnit := SpaceUnit 1.
Definition MegabyteUnit := SpaceUnit 2.
Definition GigabyteUnit := SpaceUnit 3.
Definition TerabyteUnit := SpaceUnit 4.
Definition PetabyteUnit := SpaceUnit 5.
Definition ExabyteUnit := SpaceUnit 6.
Definition NanosecondUnit := TimeUnit 0.
Definition MicrosecondUnit := TimeUnit 1.
Definition MillisecondUnit := TimeUnit 2.
Definition SecondUnit := TimeUnit 3.
Definition MinuteUnit := TimeUnit 4.
Definition HourUnit := TimeUnit 5.
Definition OneUnit : Z := Z.shiftl 1 20.

(** [uint32(dimension) & 0xF] for an int8 dimension. *)
Definition dim_nibble (d : Z) : Z := Z.land (to_unsigned 32 d) 15.

(** Body of metricUnit.Space/Time/Count after the range check: or in the unit word
    and the dimension nibble at [sh] (/repo/metrics.go:167-197). [None] = panic. *)
Definition unit_or (repr u d sh : Z) : option Z :=
  if (d <? -8) || (7 <? d) then None
  else Some (Z.lor (Z.lor repr u) (to_unsigned 32 (Z.shiftl (dim_nibble d) sh))).

Definition mu_space (repr s d : Z) : option Z := unit_or repr s d 28.
Definition mu_time (repr t d : Z) : option Z := unit_or repr t d 24.

(** /repo/metrics.go:200-242 *)
Definition SpaceDim (repr : Z) : Z := Z.shiftr (to_signed 32 repr) 28.
Definition TimeDim (repr : Z) : Z := Z.shiftr (to_signed 32 (Z.shiftl repr 4)) 28.
Definition CountDim (repr : Z) : Z := Z.shiftr (to_signed 32 (Z.shiftl repr 8)) 28.

(** [None] = panic ("no ... scale on unit"). *)
Definition SpaceScale (repr : Z) : option Z :=
  if SpaceDim repr =? 0 then None
  else Some (Z.lor (Z.shiftl 1 28) (Z.shiftl (Z.land (Z.shiftr repr 16) 15) 16)).
Definition TimeScale (repr : Z) : option Z :=
  if TimeDim repr =? 0 then None
  else Some (Z.lor (Z.shiftl 1 24) (Z.shiftl (Z.land (Z.shiftr repr 12) 15) 12)).
Definition CountScale (repr : Z) : option Z :=
  if CountDim repr =? 0 then None
  else Some (Z.lor (Z.shiftl 1 20) (Z.shiftr (Z.land (Z.shiftr repr 8) 15) 8)).

(** ** Units as Go values: constants are immutable words, composed units are
    pointers to a mutable word (/repo/metrics.go:151-164). *)
Inductive munit :=
| USpace (w : Z) | UTime (w : Z) | UCount (w : Z)
| UPtr (p : nat).

Definition uheap := gmap nat Z.

(** [u.PMAPI()], /repo/metrics.go:164,282,318,347. [None] = dangling, unreachable. *)
Definition u_pmapi (h : uheap) (u : munit) : option Z :=
  match u with
  | USpace w | UTime w | UCount w => Some w
  | UPtr p => h !! p
  end.

(** NewMetricUnit, /repo/metrics.go:160-162. *)
Definition u_new (h : uheap) (p : nat) : uheap * munit := (<[p := 0]> h, UPtr p).

(** Which component is added. *)
Inductive ucomp := CSpace | CTime | CCount.
Definition comp_shift (c : ucomp) : Z :=
  match c with CSpace => 28 | CTime => 24 | CCount => 20 end.

(** [u.Space(w,d)] / [u.Time(w,d)] / [u.Count(w,d)], /repo/metrics.go:167-197 and
    287-299, 323-335, 352-364. [p] is the address a newly allocated metricUnit gets.
    [None] = panic. *)
Definition u_add (h : uheap) (p : nat) (u : munit) (c : ucomp) (w d : Z) : option (uheap * munit) :=
  let fresh base :=
    match unit_or base w d (comp_shift c) with
    | Some r => Some (<[p := r]> h, UPtr p)
    | None => None
    end in
  match u, c with
  | USpace _, CSpace | UTime _, CTime | UCount _, CCount => None
  | USpace b, _ | UTime b, _ | UCount b, _ => fresh b
  | UPtr q, _ =>
      match h !! q with
      | None => None
      | Some r => match unit_or r w d (comp_shift c) with
                  | Some r' => Some (<[q := r']> h, UPtr q)
                  | None => None
                  end
      end
  end.
