(** The String methods of the enumerations (generated by stringer) and of composed units.
    Slices and array accesses are checked; [None] = panic. The argument is the integer
    behind the Go value, in the range of its type; [dec] is fmt's %d and strconv.Itoa. *)
From Verif Require Import Base Units DumpText.

(** [s[lo:hi]] and [a[i]] *)
Definition slice (s : gostring) (lo hi : Z) : option gostring :=
  if (0 <=? lo) && (lo <=? hi) && (hi <=? zlen s) then Some (take (Z.to_nat (hi - lo)) (drop (Z.to_nat lo) s)) else None.
Definition index (a : list Z) (i : Z) : option Z := if 0 <=? i then a !! Z.to_nat i else None.
(** [name[idx[i]:idx[i+1]]] *)
Definition sub_name (name : gostring) (idx : list Z) (i : Z) : option gostring :=
  lo ← index idx i; hi ← index idx (i + 1); slice name lo hi.
(** [fmt.Sprintf("T(%d)", i)] *)
Definition unnamed (T : gostring) (i : Z) : option gostring := Some (T ++ str "(" ++ dec i ++ str ")").

(** /repo/metrictype_string.go:7-16 *)
Definition MetricType_name := str "Int32TypeUint32TypeInt64TypeUint64TypeFloatTypeDoubleTypeStringType".
Definition MetricType_index : list Z := [0; 9; 19; 28; 38; 47; 57; 67].
Definition MetricType_String (i : Z) : option gostring :=
  if (i <? 0) || (zlen MetricType_index - 1 <=? i) then unnamed (str "MetricType") i
  else sub_name MetricType_name MetricType_index i.

(** /repo/metricsemantics_string.go:7-27 *)
Definition MetricSemantics_name_0 := str "NoSemanticsCounterSemantics".
Definition MetricSemantics_name_1 := str "InstantSemanticsDiscreteSemantics".
Definition MetricSemantics_index_0 : list Z := [0; 11; 27].
Definition MetricSemantics_index_1 : list Z := [0; 16; 33].
Definition MetricSemantics_String (i : Z) : option gostring :=
  if (0 <=? i) && (i <=? 1) then sub_name MetricSemantics_name_0 MetricSemantics_index_0 i
  else if (3 <=? i) && (i <=? 4) then sub_name MetricSemantics_name_1 MetricSemantics_index_1 (i - 3)
  else unnamed (str "MetricSemantics") i.

(** /repo/mmvflag_string.go:7-27 *)
Definition MMVFlag_name_0 := str "NoPrefixFlagProcessFlag".
Definition MMVFlag_name_1 := str "SentinelFlag".
Definition MMVFlag_index_0 : list Z := [0; 12; 23].
Definition MMVFlag_String (i : Z) : option gostring :=
  if (1 <=? i) && (i <=? 2) then sub_name MMVFlag_name_0 MMVFlag_index_0 (i - 1)
  else if i =? 4 then Some MMVFlag_name_1
  else unnamed (str "MMVFlag") i.

(** /repo/spaceunit_string.go:7-46 *)
Definition SpaceUnit_String (i : Z) : option gostring :=
  if i =? 268435456 then Some (str "ByteUnit")
  else if i =? 268500992 then Some (str "KilobyteUnit")
  else if i =? 268566528 then Some (str "MegabyteUnit")
  else if i =? 268632064 then Some (str "GigabyteUnit")
  else if i =? 268697600 then Some (str "TerabyteUnit")
  else if i =? 268763136 then Some (str "PetabyteUnit")
  else if i =? 268828672 then Some (str "ExabyteUnit")
  else unnamed (str "SpaceUnit") i.

(** /repo/timeunit_string.go:7-42 *)
Definition TimeUnit_String (i : Z) : option gostring :=
  if i =? 16777216 then Some (str "NanosecondUnit")
  else if i =? 16781312 then Some (str "MicrosecondUnit")
  else if i =? 16785408 then Some (str "MillisecondUnit")
  else if i =? 16789504 then Some (str "SecondUnit")
  else if i =? 16793600 then Some (str "MinuteUnit")
  else if i =? 16797696 then Some (str "HourUnit")
  else unnamed (str "TimeUnit") i.

(** /repo/countunit_string.go:7-17; the subtraction wraps in uint32 *)
Definition CountUnit_name := str "OneUnit".
Definition CountUnit_index : list Z := [0; 7].
Definition CountUnit_String (i : Z) : option gostring :=
  let i := to_unsigned 32 (i - 1048576) in
  if zlen CountUnit_index - 1 <=? i then unnamed (str "CountUnit") (to_unsigned 32 (i + 1048576))
  else sub_name CountUnit_name CountUnit_index i.

(** /repo/mmvdump/semantics_string.go:7-16 *)
Definition Semantics_name := str "NoSemantics".
Definition Semantics_index : list Z := [0; 11].
Definition Semantics_String (i : Z) : option gostring :=
  if (i <? 0) || (zlen Semantics_index - 1 <=? i) then unnamed (str "Semantics") i
  else sub_name Semantics_name Semantics_index i.

(** /repo/mmvdump/toctype_string.go:7-17; the subtraction wraps in int32 *)
Definition TocType_name := str "TocIndomsTocInstancesTocMetricsTocValuesTocStrings".
Definition TocType_index : list Z := [0; 9; 21; 31; 40; 50].
Definition TocType_String (i : Z) : option gostring :=
  let i := to_signed 32 (i - 1) in
  if (i <? 0) || (zlen TocType_index - 1 <=? i) then unnamed (str "TocType") (to_signed 32 (i + 1))
  else sub_name TocType_name TocType_index i.

(** /repo/mmvdump/type_string.go:7-27 *)
Definition Type_name_0 := str "NoSupportTypeInt32TypeUint32TypeInt64TypeUint64TypeFloatTypeDoubleTypeStringType".
Definition Type_index_0 : list Z := [0; 13; 22; 32; 41; 51; 60; 70; 80].
Definition Type_String (i : Z) : option gostring :=
  if (-1 <=? i) && (i <=? 6) then sub_name Type_name_0 Type_index_0 (i + 1)
  else if i =? 255 then Some (str "UnknownType")
  else unnamed (str "Type") i.

(** metricUnit.String, /repo/metrics.go:244-262 *)
Definition unit_part (dim : Z) (scale : option Z) (name : Z -> option gostring) : option gostring :=
  if dim =? 0 then Some [] else s ← scale; n ← name s; Some (n ++ str "^" ++ dec dim).
Definition metricUnit_String (repr : Z) : option gostring :=
  a ← unit_part (SpaceDim repr) (SpaceScale repr) SpaceUnit_String;
  b ← unit_part (TimeDim repr) (TimeScale repr) TimeUnit_String;
  c ← unit_part (CountDim repr) (CountScale repr) CountUnit_String;
  Some (a ++ b ++ c).
