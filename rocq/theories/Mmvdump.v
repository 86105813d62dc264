(** The MMV reader: /repo/mmvdump/mmvdump.go and the data types of
    /repo/mmvdump/pcp.go. Go casts pointers into the byte slice to structs; here the
    fields are decoded (little endian, the layout of amd64). *)
From Verif Require Import Base Floats GoVal.

(** /repo/mmvdump/pcp.go:385-395 *)
Definition DHeaderLength : Z := 40.
Definition DTocLength : Z := 16.
Definition DMetric1Length : Z := 104.
Definition DMetric2Length : Z := 48.
Definition DValueLength : Z := 32.
Definition DInstance1Length : Z := 80.
Definition DInstance2Length : Z := 24.
Definition DInstanceDomainLength : Z := 32.
Definition DStringLength : Z := 256.

(** ** Field access *)

Definition sub (off n : Z) (data : list byte) : list byte :=
  take (Z.to_nat n) (drop (Z.to_nat off) data).
Definition u32 (off : Z) (data : list byte) : Z := le_dec (sub off 4 data).
Definition u64 (off : Z) (data : list byte) : Z := le_dec (sub off 8 data).
Definition i32 (off : Z) (data : list byte) : Z := to_signed 32 (u32 off data).
Definition i64 (off : Z) (data : list byte) : Z := to_signed 64 (u64 off data).

(** ** Records *)

(** Header, /repo/mmvdump/pcp.go:20-27. *)
Record header := mkHeader {
  hd_magic : list byte; hd_version : Z; hd_g1 : Z; hd_g2 : Z;
  hd_toc : Z; hd_flag : Z; hd_process : Z; hd_cluster : Z }.

(** Toc, /repo/mmvdump/pcp.go:44-48, types 34-40. *)
Record toc := mkToc { tc_type : Z; tc_count : Z; tc_offset : Z }.
Definition TocIndoms : Z := 1.
Definition TocInstances : Z := 2.
Definition TocMetrics : Z := 3.
Definition TocValues : Z := 4.
Definition TocStrings : Z := 5.

(** A name: inline (version 1) or the offset of a string (version 2). *)
Inductive nameref := NInline (b : list byte) | NOffset (o : Z).

(** Instance1 / Instance2, /repo/mmvdump/pcp.go:57-83. *)
Record dinstance := mkDInstance {
  di_indom : Z; di_padding : Z; di_internal : Z; di_external : nameref }.

(** InstanceDomain, /repo/mmvdump/pcp.go:86-89. *)
Record dindom := mkDIndom {
  dd_serial : Z; dd_count : Z; dd_offset : Z; dd_short : Z; dd_long : Z }.

(** Metric1 / Metric2, /repo/mmvdump/pcp.go:104-148. *)
Record dmetric := mkDMetric {
  dm_name : nameref; dm_item : Z; dm_type : Z; dm_sem : Z; dm_unit : Z;
  dm_indom : Z; dm_padding : Z; dm_short : Z; dm_long : Z }.

(** Value, /repo/mmvdump/pcp.go:151-159. *)
Record dvalue := mkDValue { dv_val : Z; dv_extra : Z; dv_metric : Z; dv_instance : Z }.

(** ** Decoding at an offset known to be in range *)

Definition dec_header (data : list byte) : header :=
  mkHeader (sub 0 4 data) (i32 4 data) (u64 8 data) (u64 16 data)
    (i32 24 data) (i32 28 data) (i32 32 data) (i32 36 data).

Definition dec_toc (data : list byte) (off : Z) : toc :=
  mkToc (i32 off data) (i32 (off + 4) data) (u64 (off + 8) data).

Definition dec_instance (version : Z) (data : list byte) (off : Z) : dinstance :=
  mkDInstance (u64 off data) (u32 (off + 8) data) (i32 (off + 12) data)
    (if version =? 1 then NInline (sub (off + 16) 64 data) else NOffset (u64 (off + 16) data)).

Definition dec_indom (data : list byte) (off : Z) : dindom :=
  mkDIndom (u32 off data) (u32 (off + 4) data) (u64 (off + 8) data) (u64 (off + 16) data) (u64 (off + 24) data).

Definition dec_metric_at (name : nameref) (data : list byte) (o : Z) : dmetric :=
  mkDMetric name (u32 o data) (i32 (o + 4) data) (i32 (o + 8) data) (u32 (o + 12) data)
    (i32 (o + 16) data) (u32 (o + 20) data) (u64 (o + 24) data) (u64 (o + 32) data).

Definition dec_metric (version : Z) (data : list byte) (off : Z) : dmetric :=
  if version =? 1 then dec_metric_at (NInline (sub off 64 data)) data (off + 64)
  else dec_metric_at (NOffset (u64 off data)) data (off + 8).

Definition dec_value (data : list byte) (off : Z) : dvalue :=
  mkDValue (u64 off data) (i64 (off + 8) data) (u64 (off + 16) data) (u64 (off + 24) data).

Definition dec_string (data : list byte) (off : Z) : list byte := sub off 256 data.

(** ** Reading with checks *)

(** Outcome of reading one item or a section. *)
Inductive ires (A : Type) := IOk (a : A) | IErr | IPanic.
Arguments IOk {A} a. Arguments IErr {A}. Arguments IPanic {A}.

(** The pattern of readInstance, readInstanceDomain, readMetric, readValue,
    readString (/repo/mmvdump/mmvdump.go:52-108): the sum [offset+length] is a uint64
    and may wrap around; if it does, the following [&data[offset]] panics.
    Simplification: for a version other than 1 and 2 Go reads an Instance2/Metric2
    after checking the version 1 length, as here. *)
Definition read_at {A} (len : Z) (dec : list byte -> Z -> A) (data : list byte) (off : Z) : ires A :=
  if zlen data <? to_unsigned 64 (off + len) then IErr
  else if zlen data <=? off then IPanic
  else IOk (dec data off).

(** readHeader, /repo/mmvdump/mmvdump.go:24-40. *)
Definition readHeader (data : list byte) : option header :=
  if zlen data <? DHeaderLength then None
  else
    let h := dec_header data in
    if bool_decide (take 3 (hd_magic h) = str "MMV") then
      if hd_g1 h =? hd_g2 h then Some h else None
    else None.

(** readToc / readTocs, /repo/mmvdump/mmvdump.go:42-48,110-122. *)
Fixpoint read_tocs (data : list byte) (off : Z) (n : nat) : option (list toc) :=
  match n with
  | O => Some []
  | S n =>
      if zlen data <? off + DTocLength then None
      else match read_tocs data (off + DTocLength) n with
           | None => None
           | Some l => Some (dec_toc data off :: l)
           end
  end.

(** readItems, /repo/mmvdump/mmvdump.go:124-158: one goroutine per item, run here in
    index order (DumpSched.v treats all schedules). A negative count makes wg.Add panic. *)
Fixpoint read_items_n {A} (n : nat) (off len : Z) (f : Z -> ires A) (acc : gmap Z A) : ires (gmap Z A) :=
  match n with
  | O => IOk acc
  | S n =>
      match f off with
      | IOk x => read_items_n n (to_unsigned 64 (off + len)) len f (<[off := x]> acc)
      | IErr => IErr
      | IPanic => IPanic
      end
  end.

Definition readItems {A} (off count len : Z) (f : Z -> ires A) : ires (gmap Z A) :=
  if count <? 0 then IPanic else read_items_n (Z.to_nat count) off len f ∅.

Definition d_inst_len (version : Z) : Z := if version =? 2 then DInstance2Length else DInstance1Length.
Definition d_metric_len (version : Z) : Z := if version =? 2 then DMetric2Length else DMetric1Length.

(** Everything Dump returns; a section without table-of-contents entry is a nil map. *)
Record dump := mkDump {
  du_header : header;
  du_tocs : list toc;
  du_metrics : gmap Z dmetric;
  du_values : gmap Z dvalue;
  du_instances : gmap Z dinstance;
  du_indoms : gmap Z dindom;
  du_strings : gmap Z (list byte) }.

(** Result of Dump: a dump, an error, a panic, or blocking forever (an entry of
    unknown type never calls Done). *)
Inductive dres := DOk (d : dump) | DErr | DPanic | DHang.

(** The five results of readComponents and its errors. *)
Record comps := mkComps {
  co_metrics : ires (gmap Z dmetric);
  co_values : ires (gmap Z dvalue);
  co_instances : ires (gmap Z dinstance);
  co_indoms : ires (gmap Z dindom);
  co_strings : ires (gmap Z (list byte));
  co_unknown : bool;
  co_panic : bool }.

Definition no_comps : comps := mkComps (IOk ∅) (IOk ∅) (IOk ∅) (IOk ∅) (IOk ∅) false false.

Definition is_ipanic {A} (r : ires A) : bool := match r with IPanic => true | _ => false end.

(** One goroutine of readComponents, /repo/mmvdump/mmvdump.go:253-279. *)
Definition read_component (data : list byte) (version : Z) (c : comps) (t : toc) : comps :=
  if tc_type t =? TocInstances then
    let r := readItems (tc_offset t) (tc_count t) (d_inst_len version)
               (read_at (d_inst_len version) (dec_instance version) data) in
    mkComps (co_metrics c) (co_values c) r (co_indoms c) (co_strings c) (co_unknown c) (co_panic c || is_ipanic r)
  else if tc_type t =? TocIndoms then
    let r := readItems (tc_offset t) (tc_count t) DInstanceDomainLength
               (read_at DInstanceDomainLength dec_indom data) in
    mkComps (co_metrics c) (co_values c) (co_instances c) r (co_strings c) (co_unknown c) (co_panic c || is_ipanic r)
  else if tc_type t =? TocMetrics then
    let r := readItems (tc_offset t) (tc_count t) (d_metric_len version)
               (read_at (d_metric_len version) (dec_metric version) data) in
    mkComps r (co_values c) (co_instances c) (co_indoms c) (co_strings c) (co_unknown c) (co_panic c || is_ipanic r)
  else if tc_type t =? TocValues then
    let r := readItems (tc_offset t) (tc_count t) DValueLength (read_at DValueLength dec_value data) in
    mkComps (co_metrics c) r (co_instances c) (co_indoms c) (co_strings c) (co_unknown c) (co_panic c || is_ipanic r)
  else if tc_type t =? TocStrings then
    let r := readItems (tc_offset t) (tc_count t) DStringLength (read_at DStringLength dec_string data) in
    mkComps (co_metrics c) (co_values c) (co_instances c) (co_indoms c) r (co_unknown c) (co_panic c || is_ipanic r)
  else
    mkComps (co_metrics c) (co_values c) (co_instances c) (co_indoms c) (co_strings c) true (co_panic c).

(** readComponents, /repo/mmvdump/mmvdump.go:240-284, goroutines run in order. *)
Definition readComponents (data : list byte) (tocs : list toc) (version : Z) : comps :=
  foldl (read_component data version) no_comps tocs.

(** Dump, /repo/mmvdump/mmvdump.go:287-325. *)
Definition Dump (data : list byte) : dres :=
  match readHeader data with
  | None => DErr
  | Some h =>
      if hd_toc h <? 0 then DPanic
      else
        match read_tocs data DHeaderLength (Z.to_nat (hd_toc h)) with
        | None => DErr
        | Some tocs =>
            let c := readComponents data tocs (hd_version h) in
            if co_panic c then DPanic
            else if co_unknown c then DHang
            else
              match co_metrics c, co_values c, co_instances c, co_indoms c, co_strings c with
              | IOk m, IOk v, IOk i, IOk d, IOk s => DOk (mkDump h tocs m v i d s)
              | _, _, _, _, _ => DErr
              end
        end
  end.

(** FixedVal, /repo/mmvdump/mmvdump.go:328-345. [None] = error. *)
Definition FixedVal (data t : Z) : option goval :=
  if t =? 0 then Some (VInt32 (to_signed 32 data))
  else if t =? 1 then Some (VUint32 (to_unsigned 32 data))
  else if t =? 2 then Some (VInt64 (to_signed 64 data))
  else if t =? 3 then Some (VUint64 data)
  else if t =? 4 then Some (VF32 (to_unsigned 32 data))
  else if t =? 5 then Some (VF64 data)
  else None.
