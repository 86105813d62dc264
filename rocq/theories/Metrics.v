(** Metrics: /repo/metrics.go:456-1577. *)
From Verif Require Import Base Floats GoVal MetricType ByteWriter Hash Units Indom.

(** ** Outcomes of API calls *)
(** nil error, an error, a Go panic, or a memory fault (store through an unmapped
    mapping, which kills the process). *)
Inductive outcome := ROk | RErr | RPanic | RFault.

(** ** Files as seen by metrics *)

(** A mapped writer: which inode it maps and whether it is still mapped
    (/repo/bytewriter/memorymappedwriter.go:14-18,62-79). *)
Record writer := mkWriter { wr_inode : nat; wr_live : bool }.

Record files := mkFiles { f_writers : gmap nat writer; f_inodes : gmap nat buffer }.

Global Instance eta_files : Inhabited files := populate (mkFiles ∅ ∅).

(** updateClosure, /repo/metrics.go:539-552: writer and offset captured by the closure. *)
Record closure := mkClosure { cl_writer : nat; cl_off : Z }.

(** Running one buffer operation through a writer. Simplification: any use of an
    unmapped writer is a fault (in Go the store faults; a write that fails its bounds
    check or writes no byte would not). *)
Definition with_writer (fs : files) (w : nat) (f : buffer -> wres) : outcome * files :=
  match f_writers fs !! w with
  | None => (RFault, fs)
  | Some wr =>
      if wr_live wr then
        match f_inodes fs !! wr_inode wr with
        | None => (RFault, fs)
        | Some buf =>
            let upd b := mkFiles (f_writers fs) (<[wr_inode wr := b]> (f_inodes fs)) in
            match f buf with
            | WOk b _ => (ROk, upd b)
            | WErr b _ => (RErr, upd b)
            | WPanic b => (RPanic, upd b)
            end
        end
      else (RFault, fs)
  end.

(** The body of the closure, /repo/metrics.go:544-551. *)
Definition run_update (fs : files) (cl : closure) (v : goval) : outcome * files :=
  match v with
  | VStr s =>
      match with_writer fs (cl_writer cl) (fun b => bw_must_write b (zeros StringLength) (cl_off cl)) with
      | (ROk, fs') => with_writer fs' (cl_writer cl) (fun b => bw_write_val b v (cl_off cl))
      | r => r
      end
  | _ => with_writer fs (cl_writer cl) (fun b => bw_write_val b v (cl_off cl))
  end.

(** ** A single stored value *)

(** The pair (val, update) of pcpSingletonMetric (/repo/metrics.go:557-561) and of
    instanceValue (/repo/metrics.go:950-953). *)
Record cell := mkCell { c_val : goval; c_upd : option closure }.

(** Common part of set (/repo/metrics.go:579-591) and setInstance
    (/repo/metrics.go:1010-1021): compare, write through, store. *)
Definition store_cell (fs : files) (c : cell) (v : goval) : outcome * files * cell :=
  if go_eqb v (c_val c) then (ROk, fs, c)
  else match c_upd c with
       | None => (ROk, fs, mkCell v None)
       | Some cl =>
           match run_update fs cl v with
           | (ROk, fs') => (ROk, fs', mkCell v (Some cl))
           | (o, fs') => (o, fs', c)
           end
       end.

(** pcpSingletonMetric.set, /repo/metrics.go:574-592. *)
Definition set_cell (t : Z) (fs : files) (c : cell) (v : goval) : outcome * files * cell :=
  if IsCompatible t v then store_cell fs c (resolve t v) else (RErr, fs, c).

(** ** Descriptions *)

(** pcpMetricDesc, /repo/metrics.go:469-476. The unit is its PMAPI word
    (simplification: units are not mutated after the metric is created). *)
Record mdesc := mkDesc {
  md_id : Z; md_name : gostring; md_type : Z; md_sem : Z; md_unit : Z;
  md_short : gostring; md_long : gostring }.

(** newpcpMetricDesc, /repo/metrics.go:479-507. *)
Definition new_desc (n : gostring) (t s u : Z) (desc : list gostring) : option mdesc :=
  if bool_decide (n = []) then None
  else if StringLength <? zlen n then None
  else if 2 <? zlen desc then None
  else Some (mkDesc (hash n PCPMetricItemBitLength) n t s u (desc_short desc) (desc_long desc)).

(** /repo/metrics.go:370-379 *)
Definition NoSemantics : Z := 0.
Definition CounterSemantics : Z := 1.
Definition InstantSemantics : Z := 3.
Definition DiscreteSemantics : Z := 4.

(** ** Metrics *)

(** Concrete metric types; the timer carries (started, since),
    /repo/metrics.go:859-864. *)
Inductive mkind :=
| MSingleton | MCounter | MGauge | MTimer (started : bool) (since : Z)
| MInstance | MCounterVector | MGaugeVector | MHistogram.

(** pcpSingletonMetric or pcpInstanceMetric (/repo/metrics.go:557-561, 961-965).
    An instance metric points to its instance domain object. *)
Inductive mbody :=
| BSingle (c : cell)
| BInst (ip : nat) (vals : gmap gostring cell).

Record metric := mkMetric { m_desc : mdesc; m_kind : mkind; m_body : mbody }.

(** newpcpSingletonMetric, /repo/metrics.go:564-571. *)
Definition new_single (v : goval) (d : mdesc) (k : mkind) : option metric :=
  if IsCompatible (md_type d) v
  then Some (mkMetric d k (BSingle (mkCell (resolve (md_type d) v) None)))
  else None.

(** The loop of /repo/metrics.go:975-987 over the instances in some order. *)
Fixpoint init_vals (t : Z) (vals : gmap gostring goval) (insts : list gostring)
    (acc : gmap gostring cell) : option (gmap gostring cell) :=
  match insts with
  | [] => Some acc
  | i :: insts =>
      match vals !! i with
      | None => None
      | Some v =>
          if IsCompatible t v then init_vals t vals insts (<[i := mkCell (resolve t v) None]> acc)
          else None
      end
  end.

(** newpcpInstanceMetric, /repo/metrics.go:968-990; [order] is the order in which
    Go's runtime iterates over the domain's instances. *)
Definition new_inst_body (vals : gmap gostring goval) (ip : nat) (dom : indom) (d : mdesc)
    (k : mkind) (order : list gostring) : option metric :=
  if Z.of_nat (size vals) =? instance_count dom then
    match init_vals (md_type d) vals order ∅ with
    | Some cells => Some (mkMetric d k (BInst ip cells))
    | None => None
    end
  else None.

(** NewPCPSingletonMetric, /repo/metrics.go:600-617. *)
Definition NewPCPSingletonMetric (v : goval) (name : gostring) (t s u : Z) (desc : list gostring) : option metric :=
  match new_desc name t s u desc with Some d => new_single v d MSingleton | None => None end.

(** NewPCPCounter, /repo/metrics.go:678-690. *)
Definition NewPCPCounter (v : Z) (name : gostring) (desc : list gostring) : option metric :=
  match new_desc name Int64Type CounterSemantics OneUnit desc with
  | Some d => new_single (VInt64 v) d MCounter | None => None end.

(** NewPCPGauge, /repo/metrics.go:775-787. *)
Definition NewPCPGauge (v : Z) (name : gostring) (desc : list gostring) : option metric :=
  match new_desc name DoubleType InstantSemantics OneUnit desc with
  | Some d => new_single (VF64 v) d MGauge | None => None end.

(** NewPCPTimer, /repo/metrics.go:870-882. *)
Definition NewPCPTimer (name : gostring) (unit : Z) (desc : list gostring) : option metric :=
  match new_desc name DoubleType DiscreteSemantics unit desc with
  | Some d => new_single (VF64 0) d (MTimer false 0) | None => None end.

(** NewPCPInstanceMetric, /repo/metrics.go:1045-1057. *)
Definition NewPCPInstanceMetric (vals : gmap gostring goval) (name : gostring) (ip : nat) (dom : indom)
    (t s u : Z) (desc : list gostring) (order : list gostring) : option metric :=
  match new_desc name t s u desc with
  | Some d => new_inst_body vals ip dom d MInstance order | None => None end.

(** generateInstanceMetric, /repo/metrics.go:1104-1117: creates the domain
    [name + ".indom"] (at address [ip]) and the metric; [keys] is the order in which
    the instance names were listed. *)
Definition generate_instance_metric (vals : gmap gostring goval) (name : gostring) (keys : list gostring)
    (ip : nat) (t s u : Z) (desc : list gostring) (k : mkind) (order : list gostring)
    : option (indom * metric) :=
  match new_indom (name ++ str ".indom") keys [] with
  | None => None
  | Some dom =>
      match new_desc name t s u desc with
      | None => None
      | Some d => match new_inst_body vals ip dom d k order with
                  | Some m => Some (dom, m) | None => None end
      end
  end.

(** NewPCPCounterVector, /repo/metrics.go:1131-1143; NewPCPGaugeVector 1263-1275. *)
Definition NewPCPCounterVector (vals : gmap gostring Z) (name : gostring) (desc : list gostring)
    (ip : nat) (keys order : list gostring) : option (indom * metric) :=
  generate_instance_metric (VInt64 <$> vals) name keys ip Int64Type CounterSemantics OneUnit desc
    MCounterVector order.
Definition NewPCPGaugeVector (vals : gmap gostring Z) (name : gostring) (desc : list gostring)
    (ip : nat) (keys order : list gostring) : option (indom * metric) :=
  generate_instance_metric (VF64 <$> vals) name keys ip DoubleType InstantSemantics OneUnit desc
    MGaugeVector order.

(** ** Operations *)

(** Result of an operation on one metric: outcome, files, metric afterwards. *)
Definition mres := (outcome * files * metric)%type.

Definition with_body (m : metric) (b : mbody) : metric := mkMetric (m_desc m) (m_kind m) b.
Definition with_kind (m : metric) (k : mkind) : metric := mkMetric (m_desc m) k (m_body m).

(** pcpSingletonMetric.set on a metric, /repo/metrics.go:574-592. Called on an
    instance metric it is a type error, unreachable in Go. *)
Definition m_set (fs : files) (m : metric) (v : goval) : mres :=
  match m_body m with
  | BSingle c =>
      let '(o, fs', c') := set_cell (md_type (m_desc m)) fs c v in (o, fs', with_body m (BSingle c'))
  | BInst _ _ => (RPanic, fs, m)
  end.

(** valInstance, /repo/metrics.go:992-998. [None] = error. A missing cell for an
    instance of the domain would be a nil dereference ([Some None]). *)
Definition val_instance (dom : indom) (m : metric) (i : gostring) : option (option goval) :=
  match m_body m with
  | BInst _ vals => if has_instance dom i then Some (c_val <$> vals !! i) else None
  | BSingle _ => None
  end.

(** pcpInstanceMetric.setInstance, /repo/metrics.go:1001-1023. *)
Definition m_set_instance (fs : files) (dom : indom) (m : metric) (v : goval) (i : gostring) : mres :=
  match m_body m with
  | BInst ip vals =>
      if IsCompatible (md_type (m_desc m)) v then
        if has_instance dom i then
          match vals !! i with
          | None => (RPanic, fs, m)
          | Some c =>
              let '(o, fs', c') := store_cell fs c (resolve (md_type (m_desc m)) v) in
              (o, fs', with_body m (BInst ip (<[i := c']> vals)))
          end
        else (RErr, fs, m)
      else (RErr, fs, m)
  | BSingle _ => (RPanic, fs, m)
  end.

(** Current value of a singleton (Val, /repo/metrics.go:622-627). *)
Definition m_val (m : metric) : option goval :=
  match m_body m with BSingle c => Some (c_val c) | BInst _ _ => None end.

Definition as_int64 (v : option goval) : option Z :=
  match v with Some (VInt64 z) => Some z | _ => None end.
Definition as_f64 (v : option goval) : option Z :=
  match v with Some (VF64 z) => Some z | _ => None end.

(** PCPCounter.Set, /repo/metrics.go:701-712. The failing type assertion on
    [c.val] is a panic. *)
Definition counter_set (fs : files) (m : metric) (val : Z) : mres :=
  match as_int64 (m_val m) with
  | None => (RPanic, fs, m)
  | Some v => if val <? v then (RErr, fs, m) else m_set fs m (VInt64 val)
  end.

(** PCPCounter.Inc, /repo/metrics.go:715-730; [v += val] wraps. *)
Definition counter_inc (fs : files) (m : metric) (val : Z) : mres :=
  if val <? 0 then (RErr, fs, m)
  else if val =? 0 then (ROk, fs, m)
  else match as_int64 (m_val m) with
       | None => (RPanic, fs, m)
       | Some v => m_set fs m (VInt64 (to_signed 64 (v + val)))
       end.

(** A [Must] method panics where the plain one returns an error. *)
Definition must_m (r : mres) : mres :=
  match r with (RErr, fs, m) => (RPanic, fs, m) | r => r end.

(** PCPCounter.Up, /repo/metrics.go:740. *)
Definition counter_up (fs : files) (m : metric) : mres := must_m (counter_inc fs m 1).

(** PCPGauge.Set, /repo/metrics.go:797-801; Inc 811-821; Dec 831-833. *)
Definition gauge_set (fs : files) (m : metric) (v : Z) : mres := m_set fs m (VF64 v).
Definition gauge_inc (fs : files) (m : metric) (d : Z) : mres :=
  if f64_eqb d f64_zero then (ROk, fs, m)
  else match as_f64 (m_val m) with
       | None => (RPanic, fs, m)
       | Some v => m_set fs m (VF64 (f64_add v d))
       end.
Definition gauge_dec (fs : files) (m : metric) (d : Z) : mres := gauge_inc fs m (f64_neg d).

(** PCPTimer.Start, /repo/metrics.go:897-908; [now] is time.Now() in nanoseconds. *)
Definition timer_start (fs : files) (m : metric) (now : Z) : mres :=
  match m_kind m with
  | MTimer false _ => (ROk, fs, with_kind m (MTimer true now))
  | MTimer true _ => (RErr, fs, m)
  | _ => (RPanic, fs, m)
  end.

(** PCPTimer.Reset, /repo/metrics.go:885-894. *)
Definition timer_reset (fs : files) (m : metric) : mres :=
  match m_kind m with
  | MTimer false _ => m_set fs m (VF64 f64_zero)
  | MTimer true _ => (RErr, fs, m)
  | _ => (RPanic, fs, m)
  end.

(** time.Duration.Seconds/Minutes/Hours (Go standard library): whole units plus
    the remaining nanoseconds divided by the unit. *)
Definition dur_units (d unit : Z) : Z :=
  f64_add (f64_of_Z (Z.quot d unit)) (f64_div (f64_of_Z (Z.rem d unit)) (f64_of_Z unit)).

(** The float64 constants 1e-3 and 1e-6. *)
Definition f64_1em3 : Z := 0x3F50624DD2F1A9FC.
Definition f64_1em6 : Z := 0x3EB0C6F7A0B5ED8D.

(** The switch of /repo/metrics.go:922-936: elapsed nanoseconds to a float64 in the
    timer's unit. *)
Definition timer_increment (unit d : Z) : Z :=
  if unit =? NanosecondUnit then f64_of_Z d
  else if unit =? MicrosecondUnit then f64_mul (f64_of_Z d) f64_1em3
  else if unit =? MillisecondUnit then f64_mul (f64_of_Z d) f64_1em6
  else if unit =? SecondUnit then dur_units d 1000000000
  else if unit =? MinuteUnit then dur_units d 60000000000
  else if unit =? HourUnit then dur_units d 3600000000000
  else f64_zero.

(** time.Since: a saturating int64 difference (Go standard library, Time.Sub). *)
Definition time_since (now since : Z) : Z := Z.max (- 2 ^ 63) (Z.min (2 ^ 63 - 1) (now - since)).

(** PCPTimer.Stop, /repo/metrics.go:911-946; also returns the float64 result. *)
Definition timer_stop (fs : files) (m : metric) (now : Z) : mres * Z :=
  match m_kind m with
  | MTimer false _ => (RErr, fs, m, 0)
  | MTimer true since =>
      match as_f64 (m_val m) with
      | None => (RPanic, fs, m, 0)
      | Some v =>
          let inc := timer_increment (md_unit (m_desc m)) (time_since now since) in
          match m_set fs m (VF64 (f64_add v inc)) with
          | (ROk, fs', m') => (ROk, fs', with_kind m' (MTimer false since), f64_add v inc)
          | (o, fs', m') => (o, fs', m', 0xBFF0000000000000)
          end
      end
  | _ => (RPanic, fs, m, 0)
  end.

(** PCPCounterVector.Set, /repo/metrics.go:1158-1173. *)
Definition cv_set (fs : files) (dom : indom) (m : metric) (val : Z) (i : gostring) : mres :=
  match val_instance dom m i with
  | None => (RErr, fs, m)
  | Some v =>
      match as_int64 v with
      | None => (RPanic, fs, m)
      | Some z => if val <? z then (RErr, fs, m) else m_set_instance fs dom m (VInt64 val) i
      end
  end.

(** PCPCounterVector.Inc, /repo/metrics.go:1189-1207. *)
Definition cv_inc (fs : files) (dom : indom) (m : metric) (inc : Z) (i : gostring) : mres :=
  if inc <? 0 then (RErr, fs, m)
  else if inc =? 0 then (ROk, fs, m)
  else match val_instance dom m i with
       | None => (RErr, fs, m)
       | Some v =>
           match as_int64 v with
           | None => (RPanic, fs, m)
           | Some z => m_set_instance fs dom m (VInt64 (to_signed 64 (z + inc))) i
           end
       end.

(** PCPGaugeVector.Set, /repo/metrics.go:1290-1294; Inc 1311-1321; Dec 1338. *)
Definition gv_set (fs : files) (dom : indom) (m : metric) (v : Z) (i : gostring) : mres :=
  m_set_instance fs dom m (VF64 v) i.
Definition gv_inc (fs : files) (dom : indom) (m : metric) (d : Z) (i : gostring) : mres :=
  match val_instance dom m i with
  | None => (RErr, fs, m)
  | Some v =>
      match as_f64 v with
      | None => (RPanic, fs, m)
      | Some z => m_set_instance fs dom m (VF64 (f64_add z d)) i
      end
  end.

(** SetAll / IncAll / UpAll / DecAll: a loop of Must calls over the instances in
    some order (/repo/metrics.go:1182-1186, 1217-1221, 1227, 1304-1308, 1331-1335,
    1344). *)
Fixpoint for_all (f : files -> metric -> gostring -> mres) (fs : files) (m : metric)
    (order : list gostring) : mres :=
  match order with
  | [] => (ROk, fs, m)
  | i :: order =>
      match must_m (f fs m i) with
      | (ROk, fs', m') => for_all f fs' m' order
      | r => r
      end
  end.

Definition cv_set_all fs dom m v order := for_all (fun fs m i => cv_set fs dom m v i) fs m order.
Definition cv_inc_all fs dom m v order := for_all (fun fs m i => cv_inc fs dom m v i) fs m order.
Definition gv_set_all fs dom m v order := for_all (fun fs m i => gv_set fs dom m v i) fs m order.
Definition gv_inc_all fs dom m v order := for_all (fun fs m i => gv_inc fs dom m v i) fs m order.

(** ** Histograms *)

(** /repo/metrics.go:1379-1410 *)
Definition HistogramMin : Z := 0.
Definition HistogramMax : Z := 3600000000.
Definition normalize (low high sig : Z) : Z * Z * Z :=
  let low := if low <? HistogramMin then HistogramMin else low in
  let low := if HistogramMax <? low then HistogramMax else low in
  let high := if high <? HistogramMin then HistogramMin else high in
  let high := if HistogramMax <? high then HistogramMax else high in
  let sig := if sig <? 1 then 1 else sig in
  let sig := if 5 <? sig then 5 else sig in
  (low, high, sig).

(** NewPCPHistogram, /repo/metrics.go:1420-1445: returns the parameters passed to
    hdrhistogram.New and the metric. [dom] is the shared histogramIndom. *)
Definition NewPCPHistogram (name : gostring) (low high sig unit : Z) (desc : list gostring)
    (ip : nat) (dom : indom) (order : list gostring) : option ((Z * Z * Z) * metric) :=
  if high <? low then None
  else
    match new_desc name DoubleType InstantSemantics unit desc with
    | None => None
    | Some d =>
        match new_inst_body (list_to_map ((fun i => (i, VF64 f64_zero)) <$> histogramInstances))
                ip dom d MHistogram order with
        | None => None
        | Some m => Some (normalize low high sig, m)
        end
    end.

(** Statistics the histogram library reports: Min, Max (int64), Mean, StdDev (float64). *)
Record hstats := mkStats { hs_min : Z; hs_max : Z; hs_mean : Z; hs_stddev : Z }.

(** [updateinstance], /repo/metrics.go:1468-1473. *)
Definition hist_upd1 (fs : files) (dom : indom) (m : metric) (i : gostring) (v : Z) : mres :=
  match m_body m with
  | BInst _ vals =>
      match vals !! i with
      | None => (RPanic, fs, m)
      | Some c => if go_eqb (c_val c) (VF64 v) then (ROk, fs, m)
                  else m_set_instance fs dom m (VF64 v) i
      end
  | _ => (RPanic, fs, m)
  end.

(** Sequencing of /repo/metrics.go:1475-1495: stop at the first non-nil error. *)
Definition mbind (r : mres) (f : files -> metric -> mres) : mres :=
  match r with (ROk, fs, m) => f fs m | r => r end.

(** PCPHistogram.update, /repo/metrics.go:1467-1498. *)
Definition hist_update (fs : files) (dom : indom) (m : metric) (s : hstats) : mres :=
  mbind (hist_upd1 fs dom m (str "min") (f64_of_Z (hs_min s))) (fun fs m =>
  mbind (hist_upd1 fs dom m (str "max") (f64_of_Z (hs_max s))) (fun fs m =>
  mbind (hist_upd1 fs dom m (str "mean") (hs_mean s)) (fun fs m =>
  mbind (hist_upd1 fs dom m (str "standard_deviation") (hs_stddev s)) (fun fs m =>
  hist_upd1 fs dom m (str "variance") (f64_mul (hs_stddev s) (hs_stddev s)))))).

(** Record / RecordN, /repo/metrics.go:1501-1531: [res] is what the library did:
    [None] an error, otherwise the statistics after recording. *)
Definition hist_record (fs : files) (dom : indom) (m : metric) (res : option hstats) : mres :=
  match res with
  | None => (RErr, fs, m)
  | Some s => hist_update fs dom m s
  end.

(** High and Low, /repo/metrics.go:1448-1451, from the library's
    LowestTrackableValue and HighestTrackableValue. *)
Definition hist_High (lowest highest : Z) : Z := lowest.
Definition hist_Low (lowest highest : Z) : Z := highest.
