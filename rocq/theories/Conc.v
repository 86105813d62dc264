(** The methods of metrics as sequences of accesses to shared memory, to be called from
    several goroutines: /repo/metrics.go:539-946, 992-1023, 1060-1077, 1145-1207,
    1277-1322, 1453-1531. Metrics.v gives each of these methods as one step; that this is
    the same is [prog_leads] in ConcRuns.v. *)
From Verif Require Import Base Floats GoVal MetricType ByteWriter Hash Units Indom Metrics Registry Prog Client World OpRuns Locks.

(** Body of a method between taking and releasing the lock. [n] names the value: [None]
    the value of a singleton, [Some i] the one of instance [i]. *)
Inductive mprog :=
| QRet (o : outcome) (res : option goval)                   (* return; the value returned by the reading methods *)
| QVal (n : option gostring) (k : option goval -> mprog)     (* read m.val, or m.vals[i].val; None: a nil dereference *)
| QUpd (n : option gostring) (k : option closure -> mprog)   (* read m.update *)
| QSetVal (n : option gostring) (v : goval) (k : mprog)      (* m.val = v *)
| QTimer (k : mkind -> mprog)                                (* read t.started, t.since *)
| QSetTimer (mk : mkind) (k : mprog)                         (* write them; one step for both *)
| QWrite (w : nat) (off : Z) (data : list byte) (kok kerr : mprog). (* writer.Write(data, off), byte by byte *)

(** The shared memory: all metrics, the writers and the files. *)
Record mem := mkMem { q_metrics : gmap nat metric; q_files : files }.

Definition upd_metric (s : mem) (mp : nat) (m : metric) : mem := mkMem (<[mp := m]> (q_metrics s)) (q_files s).

(** One access; [None]: the body has returned, or the access is a memory fault (which
    ends the process, so nothing happens any more). Write is
    /repo/bytewriter/bytewriter.go:34-46: its bounds check concerns the whole data and
    gives the same answer before every byte. *)
Definition qnext (mp : nat) (p : mprog) (s : mem) : option (mprog * mem) :=
  match p with
  | QRet _ _ => None
  | QVal n k => m ← q_metrics s !! mp; Some (k (c_val <$> cell_at m n), s)
  | QUpd n k => m ← q_metrics s !! mp; Some (k (cell_at m n ≫= c_upd), s)
  | QSetVal n v k => m ← q_metrics s !! mp; c ← cell_at m n; Some (k, upd_metric s mp (put_cell m n (mkCell v (c_upd c))))
  | QTimer k => m ← q_metrics s !! mp; Some (k (m_kind m), s)
  | QSetTimer mk k => m ← q_metrics s !! mp; Some (k, upd_metric s mp (with_kind m mk))
  | QWrite w off data kok kerr =>
      wr ← f_writers (q_files s) !! w;
      if wr_live wr then
        buf ← f_inodes (q_files s) !! wr_inode wr;
        if zlen buf <? off + zlen data then Some (kerr, s)
        else match data with
             | [] => Some (kok, s)
             | b :: data => if off <? 0 then Some (QRet RPanic None, s)
                 else Some (QWrite w (off + 1) data kok kerr,
                            mkMem (q_metrics s) (mkFiles (f_writers (q_files s)) (<[wr_inode wr := do_store buf (off, b)]> (f_inodes (q_files s)))))
             end
      else None
  end.
Definition qstep (mp : nat) (p : mprog) (s : mem) (p' : mprog) (s' : mem) : Prop := qnext mp p s = Some (p', s').

(** The update closure, /repo/metrics.go:543-552, then [k]; an error of WriteVal is
    returned, one of MustWrite is a panic. *)
Definition q_write_val (cl : closure) (v : goval) (k : mprog) : mprog :=
  match v with
  | VStr s => QWrite (cl_writer cl) (cl_off cl) s k (QRet RErr None)
  | v => match val_bytes v with
         | Some d => QWrite (cl_writer cl) (cl_off cl) d k (QRet RErr None)
         | None => QWrite (cl_writer cl) (cl_off cl) [] (QRet RErr None) (QRet RErr None)
         end
  end.
Definition q_update (cl : closure) (v : goval) (k : mprog) : mprog :=
  match v with
  | VStr s => QWrite (cl_writer cl) (cl_off cl) (zeros StringLength) (q_write_val cl v k) (QRet RPanic None)
  | v => q_write_val cl v k
  end.

(** The common part of set and setInstance, /repo/metrics.go:581-589, 1012-1020. *)
Definition q_store (n : option gostring) (v : goval) (k : mprog) : mprog :=
  QVal n (fun cur => match cur with
    | None => QRet RPanic None
    | Some x => if go_eqb v x then k
                else QUpd n (fun u => match u with
                       | None => QSetVal n v k
                       | Some cl => q_update cl v (QSetVal n v k)
                       end)
    end).
(** set, /repo/metrics.go:574-592. *)
Definition q_set (t : Z) (v : goval) (k : mprog) : mprog :=
  if IsCompatible t v then q_store None (resolve t v) k else QRet RErr None.
(** setInstance, /repo/metrics.go:1001-1023. *)
Definition q_set_instance (t : Z) (d : indom) (v : goval) (i : gostring) (k : mprog) : mprog :=
  if IsCompatible t v then if has_instance d i then q_store (Some i) (resolve t v) k else QRet RErr None else QRet RErr None.
(** valInstance, /repo/metrics.go:992-998. *)
Definition q_val_instance (d : indom) (i : gostring) (k : option goval -> mprog) : mprog :=
  if has_instance d i then QVal (Some i) k else QRet RErr None.

Definition q_ok : mprog := QRet ROk None.

(** The type assertions on stored values. *)
Definition q_int (v : option goval) (k : Z -> mprog) : mprog :=
  match as_int64 v with Some z => k z | None => QRet RPanic None end.
Definition q_f64 (v : option goval) (k : Z -> mprog) : mprog :=
  match as_f64 v with Some z => k z | None => QRet RPanic None end.

(** PCPCounter.Set and Inc, /repo/metrics.go:701-730. *)
Definition q_counter_set (t z : Z) : mprog :=
  QVal None (fun x => q_int x (fun v => if z <? v then QRet RErr None else q_set t (VInt64 z) q_ok)).
Definition q_counter_inc (t z : Z) : mprog :=
  if z <? 0 then QRet RErr None else if z =? 0 then q_ok
  else QVal None (fun x => q_int x (fun v => q_set t (VInt64 (to_signed 64 (v + z))) q_ok)).
(** PCPGauge.Inc, /repo/metrics.go:811-821. *)
Definition q_gauge_inc (t d : Z) : mprog :=
  if f64_eqb d f64_zero then q_ok
  else QVal None (fun x => q_f64 x (fun v => q_set t (VF64 (f64_add v d)) q_ok)).
(** PCPTimer.Start, Reset and Stop, /repo/metrics.go:885-946. *)
Definition q_timer (k : bool -> Z -> mprog) : mprog :=
  QTimer (fun mk => match mk with MTimer b since => k b since | _ => QRet RPanic None end).
Definition q_timer_start (now : Z) : mprog :=
  q_timer (fun b since => if b then QRet RErr None else QSetTimer (MTimer true now) q_ok).
Definition q_timer_reset (t : Z) : mprog :=
  q_timer (fun b since => if b then QRet RErr None else q_set t (VF64 f64_zero) q_ok).
Definition q_timer_stop (t unit now : Z) : mprog :=
  q_timer (fun b since => if b
    then QVal None (fun x => q_f64 x (fun v =>
           q_set t (VF64 (f64_add v (timer_increment unit (time_since now since)))) (QSetTimer (MTimer false since) q_ok)))
    else QRet RErr None).
(** PCPCounterVector.Set and Inc, /repo/metrics.go:1158-1173, 1189-1207. *)
Definition q_cv_set (t : Z) (d : indom) (z : Z) (i : gostring) : mprog :=
  q_val_instance d i (fun x => q_int x (fun v => if z <? v then QRet RErr None else q_set_instance t d (VInt64 z) i q_ok)).
Definition q_cv_inc (t : Z) (d : indom) (z : Z) (i : gostring) : mprog :=
  if z <? 0 then QRet RErr None else if z =? 0 then q_ok
  else q_val_instance d i (fun x => q_int x (fun v => q_set_instance t d (VInt64 (to_signed 64 (v + z))) i q_ok)).
(** PCPGaugeVector.Inc, /repo/metrics.go:1311-1321. *)
Definition q_gv_inc (t : Z) (d : indom) (z : Z) (i : gostring) : mprog :=
  q_val_instance d i (fun x => q_f64 x (fun v => q_set_instance t d (VF64 (f64_add v z)) i q_ok)).
(** PCPHistogram.update and Record, /repo/metrics.go:1467-1531. *)
Definition q_hist_upd (t : Z) (d : indom) (i : gostring) (z : Z) (k : mprog) : mprog :=
  QVal (Some i) (fun x => match x with
    | None => QRet RPanic None
    | Some c => if go_eqb c (VF64 z) then k else q_set_instance t d (VF64 z) i k
    end).
Definition q_hist_record (t : Z) (d : indom) (res : option hstats) : mprog :=
  match res with
  | None => QRet RErr None
  | Some s =>
      q_hist_upd t d (str "min") (f64_of_Z (hs_min s)) (q_hist_upd t d (str "max") (f64_of_Z (hs_max s))
        (q_hist_upd t d (str "mean") (hs_mean s) (q_hist_upd t d (str "standard_deviation") (hs_stddev s)
          (q_hist_upd t d (str "variance") (f64_mul (hs_stddev s) (hs_stddev s)) q_ok))))
  end.

(** The method [op] of metric [m]: what the code of the method depends on besides the
    shared memory is the metric's Go type, its description and its domain, which never
    change. The methods on all instances (SetAll, IncAll, UpAll, DecAll) take the lock
    once per instance, so they are sequences of calls and not listed here. *)
Definition prog_of (hp : heap) (m : metric) (op : mop) : option mprog :=
  let t := md_type (m_desc m) in
  let dom (f : indom -> mprog) := match m_body m with BInst ip _ => f <$> h_indoms hp !! ip | BSingle _ => None end in
  match m_kind m, op with
  | MSingleton, OSet v => Some (q_set t v q_ok)
  | MCounter, OCSet z => Some (q_counter_set t z)
  | MCounter, OCInc z => Some (q_counter_inc t z)
  | MCounter, OCUp => Some (q_counter_inc t 1)
  | MGauge, OGSet z => Some (q_set t (VF64 z) q_ok)
  | MGauge, OGInc z => Some (q_gauge_inc t z)
  | MGauge, OGDec z => Some (q_gauge_inc t (f64_neg z))
  | MTimer _ _, OTStart now => Some (q_timer_start now)
  | MTimer _ _, OTReset => Some (q_timer_reset t)
  | MTimer _ _, OTStop now => Some (q_timer_stop t (md_unit (m_desc m)) now)
  | MInstance, OISet v i => dom (fun d => q_set_instance t d v i q_ok)
  | MCounterVector, OVSet z i => dom (fun d => q_cv_set t d z i)
  | MCounterVector, OVInc z i => dom (fun d => q_cv_inc t d z i)
  | MCounterVector, OVUp i => dom (fun d => q_cv_inc t d 1 i)
  | MGaugeVector, OWSet z i => dom (fun d => q_set_instance t d (VF64 z) i q_ok)
  | MGaugeVector, OWInc z i => dom (fun d => q_gv_inc t d z i)
  | MGaugeVector, OWDec z i => dom (fun d => q_gv_inc t d (f64_neg z) i)
  | MHistogram, OHRecord res => dom (fun d => q_hist_record t d res)
  | _, _ => None
  end.

Definition is_up (op : mop) : bool := match op with OCUp | OVUp _ => true | _ => false end.

(** Calls of goroutines on metrics: a method that changes the metric ([mst]: its Must
    variant), or Val / ValInstance, /repo/metrics.go:622-627, 692-697, 789-794,
    1060-1065, 1145-1155, 1277-1287. *)
Inductive mcall :=
| MUpdate (mp : nat) (op : mop) (mst : bool)
| MVal (mp : nat) (n : option gostring).

Definition mc_obj (c : mcall) : option nat := match c with MUpdate mp _ _ | MVal mp _ => Some mp end.
Definition mc_rd (c : mcall) : bool := match c with MUpdate _ _ _ => false | MVal _ _ => true end.

(** Bodies, from the objects as they are at the start. (A call of a method the metric's
    type does not have is no Go program; it does nothing here.) *)
Definition mc_enter (hp : heap) (c : mcall) : mprog :=
  match c with
  | MUpdate mp op _ => default q_ok (m ← h_metrics hp !! mp; prog_of hp m op)
  | MVal mp n =>
      match n, m_body <$> h_metrics hp !! mp with
      | Some i, Some (BInst ip _) =>
          match h_indoms hp !! ip with
          | Some d => q_val_instance d i (fun v => match v with Some _ => QRet ROk v | None => QRet RPanic None end)
          | None => q_ok
          end
      | _, _ => QVal n (fun v => match v with Some _ => QRet ROk v | None => QRet RPanic None end)
      end
  end.

(** What the caller sees: Up and the Must methods panic on an error, after the unlock. *)
Definition mc_outcome (c : mcall) (o : outcome) : outcome :=
  match c with
  | MUpdate _ op mst => match o with RErr => if mst || is_up op then RPanic else RErr | o => o end
  | MVal _ _ => o
  end.

Definition mc_ret (p : mprog) : option (outcome * option goval) := match p with QRet o v => Some (o, v) | _ => None end.

(** Goroutines calling methods of metrics. *)
Definition cstep (hp : heap) := mstep mc_obj mc_rd (mc_enter hp) (fun o => match o with Some mp => qstep mp | None => fun _ _ _ _ => False end) mc_ret.
Definition world_mem (w : world) : mem := mkMem (h_metrics (w_heap w)) (w_files w).
Definition mem_world (w : world) (s : mem) : world :=
  mkWorld (mkHeap (h_indoms (w_heap w)) (q_metrics s)) (w_regs w) (w_clients w) (q_files s) (w_paths w) (w_offs w) (w_dead w).
