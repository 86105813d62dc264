(** The text form of a dump: /repo/mmvdump/writer.go, the String methods of
    /repo/mmvdump/pcp.go:216-368, /repo/mmvdump/type_string.go and
    /repo/mmvdump/semantics_string.go.
    Simplifications: the io.Writer never returns an error; floats are left as bit patterns
    (pieces [PF32] and [PF64]), everything else is printed byte for byte. *)
From Coq Require DecimalString HexadecimalString.
From Verif Require Import Base Floats GoVal Mmvdump.

Inductive piece := PB (b : list byte) | PF32 (bits : Z) | PF64 (bits : Z).

(** Output so far and how the writer ended: [return nil], [return err], or a panic. *)
Inductive wres := WOk (o : list piece) | WErr (o : list piece) | WPanic (o : list piece).

Definition wthen (a : wres) (b : wres) : wres :=
  match a with
  | WOk o => match b with WOk o' => WOk (o ++ o') | WErr o' => WErr (o ++ o') | WPanic o' => WPanic (o ++ o') end
  | r => r
  end.
Notation "a ;;; b" := (wthen a b) (at level 64, right associativity).
Definition say (b : list byte) : wres := WOk [PB b].

(** A nil dereference: [strings[o].Payload] for an [o] without entry, a method of a nil interface. *)
Definition with_nil {A} (x : option A) (k : A -> wres) : wres := match x with Some a => k a | None => WPanic [] end.

(** The verbs %v and %d of integers, and %x. *)
Definition dec (z : Z) : list byte := str (DecimalString.NilZero.string_of_int (Z.to_int z)).
Definition hex (z : Z) : list byte := str (HexadecimalString.NilZero.string_of_int (Z.to_hex_int z)).
Definition tab : list byte := [x09].
Definition nl : list byte := [x0a].

(** ** Names of types, semantics and units *)
(** Type.String, /repo/mmvdump/type_string.go:17-27. *)
Definition type_string (t : Z) : list byte :=
  if t =? -1 then str "NoSupportType" else if t =? 0 then str "Int32Type" else if t =? 1 then str "Uint32Type"
  else if t =? 2 then str "Int64Type" else if t =? 3 then str "Uint64Type" else if t =? 4 then str "FloatType"
  else if t =? 5 then str "DoubleType" else if t =? 6 then str "StringType" else if t =? 255 then str "UnknownType"
  else str "Type(" ++ dec t ++ str ")".
(** Semantics.String, /repo/mmvdump/semantics_string.go:11-16: the constants of pcp.go:371-377
    are all 0, so only 0 has a name. *)
Definition sem_string (s : Z) : list byte := if s =? 0 then str "NoSemantics" else str "Semantics(" ++ dec s ++ str ")".

(** SpaceScale .. CountDim, /repo/mmvdump/pcp.go:216-259. *)
Definition d_space_scale (u : Z) : Z := Z.land (Z.shiftr u 16) 15.
Definition d_time_scale (u : Z) : Z := Z.land (Z.shiftr u 12) 15.
Definition d_count_scale (u : Z) : Z := Z.land (Z.shiftr u 8) 15.
Definition d_space_dim (u : Z) : Z := Z.shiftr (to_signed 32 u) 28.
Definition d_time_dim (u : Z) : Z := Z.shiftr (to_signed 32 (Z.shiftl u 4)) 28.
Definition d_count_dim (u : Z) : Z := Z.shiftr (to_signed 32 (Z.shiftl u 8)) 28.

(** stringSpaceDim, stringTimeDim, stringCountDim, /repo/mmvdump/pcp.go:261-331. *)
Definition dim_suffix (d : Z) : list byte := if 1 <? Z.abs d then str "^" ++ dec d else [].
Definition dim_string (names : list (list byte)) (scale d : Z) : list byte :=
  match names !! Z.to_nat scale with Some n => n ++ dim_suffix d | None => str "<invalid>" end.
Definition space_names : list (list byte) := [str "B"; str "KiB"; str "MiB"; str "GiB"; str "TiB"; str "PiB"; str "EiB"].
Definition time_names : list (list byte) := [str "nsec"; str "usec"; str "msec"; str "sec"; str "min"; str "hr"].
Definition count_names : list (list byte) := [str "count"].
(** Unit.String, /repo/mmvdump/pcp.go:334-368. *)
Definition unit_string (u : Z) : list byte :=
  let sd := d_space_dim u in let td := d_time_dim u in let cd := d_count_dim u in
  let s := dim_string space_names (d_space_scale u) sd in
  let t := dim_string time_names (d_time_scale u) td in
  let c := dim_string count_names (d_count_scale u) cd in
  (if 0 <? sd then s else []) ++ (if 0 <? td then t else []) ++ (if 0 <? cd then c else []) ++
  (if (sd <? 0) || (td <? 0) || (cd <? 0)
   then str " / " ++ (if sd <? 0 then s else []) ++ (if td <? 0 then t else []) ++ (if cd <? 0 then c else []) else []).

(** ** Records *)
Section write.
Context (d : dump).
Let version := hd_version (du_header d).

(** instanceName / metricName, /repo/mmvdump/writer.go:10-15 and 67-72: the type assertion fails
    for the other form of a name. *)
Definition name_of (n : nameref) : option (list byte) :=
  if version =? 1 then match n with NInline b => Some b | NOffset _ => None end
  else match n with NOffset o => du_strings d !! o | NInline _ => None end.

(** writeInstance, /repo/mmvdump/writer.go:17-30. *)
Definition writeInstance (off : Z) : wres :=
  with_nil (du_instances d !! off) (fun i =>
  with_nil (name_of (di_external i)) (fun n =>
  with_nil (du_indoms d !! di_indom i) (fun x =>
  say (tab ++ str "[" ++ dec (dd_serial x) ++ str "/" ++ dec off ++ str "] instance = [" ++ dec (di_internal i) ++ str "/" ++ n ++ str "]" ++ nl)))).

(** The help texts of domains and metrics, 44-62 and 104-122. *)
Definition write_text (label : list byte) (o : Z) : wres :=
  if o =? 0 then say (tab ++ tab ++ str "(no " ++ label ++ str ")" ++ nl)
  else with_nil (du_strings d !! o) (fun s => say (tab ++ tab ++ label ++ str "=" ++ s ++ nl)).

(** writeInstanceDomain, /repo/mmvdump/writer.go:32-65. *)
Definition writeInstanceDomain (off : Z) : wres :=
  with_nil (du_indoms d !! off) (fun x =>
  say (tab ++ str "[" ++ dec (dd_serial x) ++ str "/" ++ dec off ++ str "] " ++ dec (dd_count x) ++ str " instances, starting at offset " ++ dec (dd_offset x) ++ nl) ;;;
  write_text (str "shorttext") (dd_short x) ;;; write_text (str "longtext") (dd_long x)).

(** writeMetric, /repo/mmvdump/writer.go:67-128. *)
Definition writeMetric (off : Z) : wres :=
  with_nil (du_metrics d !! off) (fun m =>
  with_nil (name_of (dm_name m)) (fun n =>
  say (tab ++ str "[" ++ dec (dm_item m) ++ str "/" ++ dec off ++ str "] " ++ n ++ nl) ;;;
  say (tab ++ tab ++ str "type=" ++ type_string (dm_type m) ++ str " (0x" ++ hex (dm_type m) ++ str "), sem=" ++ sem_string (dm_sem m) ++
       str " (0x" ++ hex (dm_sem m) ++ str "), pad=0x" ++ hex (dm_padding m) ++ nl) ;;;
  say (tab ++ tab ++ str "units=" ++ unit_string (dm_unit m) ++ nl) ;;;
  say (if dm_indom m =? -1 then tab ++ tab ++ str "(no indom)" ++ nl else tab ++ tab ++ str "indom=" ++ dec (dm_indom m) ++ nl) ;;;
  write_text (str "shorttext") (dm_short m) ;;; write_text (str "longtext") (dm_long m))).

(** %v of what FixedVal returns. *)
Definition write_val (v : goval) : wres :=
  match v with
  | VInt32 z | VUint32 z | VInt64 z | VUint64 z | VInt z | VUint z => say (dec z)
  | VF32 b => WOk [PF32 b]
  | VF64 b => WOk [PF64 b]
  | VStr s => say s
  | VOther => say []
  end.

(** writeValue, /repo/mmvdump/writer.go:130-173. *)
Definition writeValue (off : Z) : wres :=
  with_nil (du_values d !! off) (fun v =>
  with_nil (du_metrics d !! dv_metric v) (fun m =>
  with_nil (name_of (dm_name m)) (fun n =>
  say (tab ++ str "[" ++ dec (dm_item m) ++ str "/" ++ dec off ++ str "] " ++ n) ;;;
  match (if dm_type m =? 6 then (s ← du_strings d !! to_unsigned 64 (dv_extra v); Some (VStr s)) else FixedVal (dv_val v) (dm_type m)) with
  | None => WErr []
  | Some a =>
      (if negb (dm_indom m =? -1) && negb (dm_indom m =? 0) then
         with_nil (du_instances d !! dv_instance v) (fun i =>
         with_nil (name_of (di_external i)) (fun iname =>
         say (str "[" ++ dec (di_internal i) ++ str " or """ ++ iname ++ str """]")))
       else WOk []) ;;;
      say (str " = ") ;;; write_val a ;;; say nl
  end))).

(** writeString, /repo/mmvdump/writer.go:175-178. *)
Definition writeString (off : Z) : wres :=
  with_nil (du_strings d !! off) (fun s => say (tab ++ str "[" ++ dec off ++ str "] " ++ s ++ nl)).

(** ** writeComponents, /repo/mmvdump/writer.go:180-248 *)
(** itemtype, itemsize and writeItem; they keep their values when no case of the switch matches. *)
Definition kind := (list byte * Z * option (Z -> wres))%type.
Definition w_inst_len : Z := if version =? 1 then DInstance1Length else DInstance2Length.
Definition w_metric_len : Z := if version =? 1 then DMetric1Length else DMetric2Length.
Definition kind_of (t : Z) (k : kind) : kind :=
  if t =? TocInstances then (str "instances", w_inst_len, Some writeInstance)
  else if t =? TocIndoms then (str "indoms", DInstanceDomainLength, Some writeInstanceDomain)
  else if t =? TocMetrics then (str "metric", w_metric_len, Some writeMetric)
  else if t =? TocValues then (str "values", DValueLength, Some writeValue)
  else if t =? TocStrings then (str "strings", DStringLength, Some writeString)
  else k.

(** The loop over the entries of a section, 231-235; calling a nil function panics. *)
Fixpoint write_items (f : option (Z -> wres)) (off size : Z) (n : nat) : wres :=
  match n with
  | O => WOk []
  | S n => with_nil f (fun g => g off) ;;; write_items f (to_unsigned 64 (off + size)) size n
  end.

Fixpoint write_sections (ti toff : Z) (k : kind) (tocs : list toc) : wres :=
  match tocs with
  | [] => WOk []
  | t :: tocs =>
      let k := kind_of (tc_type t) k in
      say (str "TOC[" ++ dec ti ++ str "], offset: " ++ dec toff ++ str ", " ++ k.1.1 ++ str " offset: " ++ dec (tc_offset t) ++
           str " (" ++ dec (tc_count t) ++ str " entries)" ++ nl) ;;;
      write_items k.2 (tc_offset t) k.1.2 (Z.to_nat (tc_count t)) ;;;
      say nl ;;;
      write_sections (ti + 1) (toff + DTocLength) k tocs
  end.

(** Write, /repo/mmvdump/writer.go:252-274. *)
Definition Write : wres :=
  let h := du_header d in
  say (str "Version   = " ++ dec (hd_version h) ++ nl ++ str "Generated = " ++ dec (hd_g1 h) ++ nl ++ str "Toc Count = " ++ dec (hd_toc h) ++ nl ++
       str "Cluster   = " ++ dec (hd_cluster h) ++ nl ++ str "Process   = " ++ dec (hd_process h) ++ nl ++ str "Flags     = 0x" ++ hex (hd_flag h) ++ nl ++ nl) ;;;
  write_sections 0 DHeaderLength ([], 0, None) (du_tocs d).
End write.

(** The output with the floats printed by [f32] and [f64]. *)
Definition flatten (f32 f64 : Z -> list byte) (o : list piece) : list byte :=
  concat (map (fun p => match p with PB b => b | PF32 z => f32 z | PF64 z => f64 z end) o).
