(** The goroutines of the reader: readItems and readComponents
    (/repo/mmvdump/mmvdump.go:124-158, 240-284) as a transition system.
    Simplifications: the unsynchronised accesses to [err] (a data race in Go) are atomic here;
    a goroutine that has not been scheduled yet and one that has not been created yet are
    the same; the copies of [items] into the typed maps (160-238) are part of the last step
    of the section's goroutine. *)
From Verif Require Import Base Floats GoVal Mmvdump.

(** interface{} as stored in [items]. *)
Inductive ditem :=
| ItInstance (x : dinstance) | ItIndom (x : dindom) | ItMetric (x : dmetric)
| ItValue (x : dvalue) | ItString (x : list byte).

(** The [itemlength] and the reader function that readInstances, readInstanceDomains, readMetrics,
    readValues and readStrings pass to readItems, /repo/mmvdump/mmvdump.go:160-238. *)
Definition item_len (version t : Z) : Z :=
  if t =? TocInstances then d_inst_len version
  else if t =? TocIndoms then DInstanceDomainLength
  else if t =? TocMetrics then d_metric_len version
  else if t =? TocValues then DValueLength
  else DStringLength.
Definition dec_item (version t : Z) (data : list byte) (off : Z) : ditem :=
  if t =? TocInstances then ItInstance (dec_instance version data off)
  else if t =? TocIndoms then ItIndom (dec_indom data off)
  else if t =? TocMetrics then ItMetric (dec_metric version data off)
  else if t =? TocValues then ItValue (dec_value data off)
  else ItString (dec_string data off).
Definition read_item (data : list byte) (version t off : Z) : ires ditem :=
  read_at (item_len version t) (dec_item version t) data off.

(** The cases of the switch in readComponents, /repo/mmvdump/mmvdump.go:251-278. *)
Definition known_type (t : Z) : bool :=
  (t =? TocInstances) || (t =? TocIndoms) || (t =? TocMetrics) || (t =? TocValues) || (t =? TocStrings).

(** The offsets the loop of readItems passes to its goroutines, 136. *)
Fixpoint item_offs (off len : Z) (n : nat) : list Z :=
  match n with O => [] | S n => off :: item_offs (to_unsigned 64 (off + len)) len n end.

(** A goroutine of readItems, 137-148: [if err == nil], readItem, the critical section or
    [err = ierr], [wg.Done()]. *)
Inductive gpc := GCheck | GRead | GStore (x : ditem) | GFail | GEnd.

(** A goroutine of readComponents with the variables of its call of readItems. *)
Record sect := mkSect {
  s_toc : toc;
  s_started : bool;
  s_pcs : list (Z * gpc);
  s_items : gmap Z ditem;
  s_err : bool;
  s_ret : bool }.

(** The sections and the result variables of readComponents: for each type the map or an error. *)
Inductive dst :=
| DRun (ss : list sect) (res : gmap Z (option (gmap Z ditem)))
| DCrash.

Definition new_sect (t : toc) : sect := mkSect t false [] ∅ false false.
Definition dinit (tocs : list toc) : dst := DRun (map new_sect tocs) ∅.

(** One step of a goroutine of readItems at offset [o]; [None]: panic. *)
Definition gpc_step (data : list byte) (version : Z) (s : sect) (o : Z) (p : gpc) : option (gpc * gmap Z ditem * bool) :=
  match p with
  | GCheck => Some (if s_err s then GEnd else GRead, s_items s, s_err s)
  | GRead =>
      match read_item data version (tc_type (s_toc s)) o with
      | IOk x => Some (GStore x, s_items s, s_err s)
      | IErr => Some (GFail, s_items s, s_err s)
      | IPanic => None
      end
  | GStore x => Some (GEnd, <[o := x]> (s_items s), s_err s)
  | GFail => Some (GEnd, s_items s, true)
  | GEnd => Some (GEnd, s_items s, s_err s)
  end.

Definition all_end (l : list (Z * gpc)) : Prop := Forall (fun p => p.2 = GEnd) l.

Inductive dstep (data : list byte) (version : Z) : dst -> dst -> Prop :=
(** The call of readItems: wg.Add(count) panics for a negative count. *)
| ds_start l1 s l2 res : known_type (tc_type (s_toc s)) = true -> s_started s = false -> 0 <= tc_count (s_toc s) ->
    dstep data version (DRun (l1 ++ s :: l2) res)
      (DRun (l1 ++ mkSect (s_toc s) true
               (map (fun o => (o, GCheck)) (item_offs (tc_offset (s_toc s)) (item_len version (tc_type (s_toc s))) (Z.to_nat (tc_count (s_toc s)))))
               ∅ false false :: l2) res)
| ds_negative l1 s l2 res : known_type (tc_type (s_toc s)) = true -> s_started s = false -> tc_count (s_toc s) < 0 ->
    dstep data version (DRun (l1 ++ s :: l2) res) DCrash
(** A goroutine of readItems. *)
| ds_item l1 s l2 res p1 o p p2 p' items err : s_started s = true -> s_pcs s = p1 ++ (o, p) :: p2 -> p <> GEnd ->
    gpc_step data version s o p = Some (p', items, err) ->
    dstep data version (DRun (l1 ++ s :: l2) res)
      (DRun (l1 ++ mkSect (s_toc s) true (p1 ++ (o, p') :: p2) items err (s_ret s) :: l2) res)
| ds_panic l1 s l2 res p1 o p p2 : s_started s = true -> s_pcs s = p1 ++ (o, p) :: p2 ->
    gpc_step data version s o p = None ->
    dstep data version (DRun (l1 ++ s :: l2) res) DCrash
(** wg.Wait() returns, the results are assigned, 150-157 and 253-277. *)
| ds_return l1 s l2 res : s_started s = true -> s_ret s = false -> all_end (s_pcs s) ->
    dstep data version (DRun (l1 ++ s :: l2) res)
      (DRun (l1 ++ mkSect (s_toc s) true (s_pcs s) (s_items s) (s_err s) true :: l2)
         (<[tc_type (s_toc s) := if s_err s then None else Some (s_items s)]> res)).

(** The wait group of readComponents is at zero. *)
Definition all_returned (ss : list sect) : Prop := Forall (fun s => s_ret s = true) ss.

(** The typed maps; the zero value of a result variable is a nil map. *)
Definition as_metric (x : ditem) : option dmetric := match x with ItMetric y => Some y | _ => None end.
Definition as_value (x : ditem) : option dvalue := match x with ItValue y => Some y | _ => None end.
Definition as_instance (x : ditem) : option dinstance := match x with ItInstance y => Some y | _ => None end.
Definition as_indom (x : ditem) : option dindom := match x with ItIndom y => Some y | _ => None end.
Definition as_string (x : ditem) : option (list byte) := match x with ItString y => Some y | _ => None end.
Definition typed {A} (f : ditem -> option A) (r : option (option (gmap Z ditem))) : gmap Z A :=
  match r with Some (Some m) => omap f m | _ => ∅ end.

Definition failed (res : gmap Z (option (gmap Z ditem))) (t : Z) : bool := match res !! t with Some None => true | _ => false end.
(** The switch at the end of Dump, /repo/mmvdump/mmvdump.go:311-324. *)
Definition dresult (h : header) (tocs : list toc) (res : gmap Z (option (gmap Z ditem))) : dres :=
  if failed res TocInstances || failed res TocIndoms || failed res TocMetrics || failed res TocValues || failed res TocStrings then DErr
  else DOk (mkDump h tocs (typed as_metric (res !! TocMetrics)) (typed as_value (res !! TocValues))
              (typed as_instance (res !! TocInstances)) (typed as_indom (res !! TocIndoms)) (typed as_string (res !! TocStrings))).

(** What one execution of Dump ends in. *)
Inductive dump_run (data : list byte) : dres -> Prop :=
| dr_header : readHeader data = None -> dump_run data DErr
| dr_count h : readHeader data = Some h -> hd_toc h < 0 -> dump_run data DPanic
| dr_tocs h : readHeader data = Some h -> 0 <= hd_toc h -> read_tocs data DHeaderLength (Z.to_nat (hd_toc h)) = None -> dump_run data DErr
| dr_done h tocs ss res : readHeader data = Some h -> 0 <= hd_toc h -> read_tocs data DHeaderLength (Z.to_nat (hd_toc h)) = Some tocs ->
    rtc (dstep data (hd_version h)) (dinit tocs) (DRun ss res) -> all_returned ss -> dump_run data (dresult h tocs res)
| dr_crash h tocs : readHeader data = Some h -> 0 <= hd_toc h -> read_tocs data DHeaderLength (Z.to_nat (hd_toc h)) = Some tocs ->
    rtc (dstep data (hd_version h)) (dinit tocs) DCrash -> dump_run data DPanic
| dr_hang h tocs ss res : readHeader data = Some h -> 0 <= hd_toc h -> read_tocs data DHeaderLength (Z.to_nat (hd_toc h)) = Some tocs ->
    rtc (dstep data (hd_version h)) (dinit tocs) (DRun ss res) -> ~ all_returned ss ->
    (forall x, ~ dstep data (hd_version h) (DRun ss res) x) -> dump_run data DHang.
