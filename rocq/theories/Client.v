(** PCPClient.start and everything it calls: /repo/client.go:159-617. *)
From Verif Require Import Base Floats GoVal MetricType ByteWriter Hash Units Indom Metrics Registry Prog.

(** /repo/client.go:16-33 *)
Definition HeaderLength : Z := 40.
Definition TocLength : Z := 16.
Definition Metric1Length : Z := 104.
Definition Metric2Length : Z := 48.
Definition ValueLength : Z := 32.
Definition Instance1Length : Z := 80.
Definition Instance2Length : Z := 24.
Definition InstanceDomainLength : Z := 32.
Definition MaxDataValueSize : Z := 16.

(** What start() reads from the client and the registry. *)
Record cfg := mkCfg {
  k_reg : registry;
  k_flag : Z;          (* c.flag *)
  k_cluster : Z;       (* c.clusterID *)
  k_gen : Z;           (* time.Now().Unix() in writeHeaderBlock *)
  k_pid : Z }.         (* os.Getpid() *)

(** tocCount, /repo/client.go:159-171. *)
Definition tocCount (r : registry) : Z :=
  2 + (if 0 <? InstanceCount r then 2 else 0) + (if 0 <? StringCount r then 1 else 0).

(** /repo/client.go:213-221 *)
Definition InstanceLength (r : registry) : Z := if r_version2 r then Instance2Length else Instance1Length.
Definition MetricLength (r : registry) : Z := if r_version2 r then Metric2Length else Metric1Length.

(** Length, /repo/client.go:174-192. *)
Definition Length (r : registry) : Z :=
  HeaderLength + tocCount r * TocLength + InstanceCount r * InstanceLength r
  + InstanceDomainCount r * InstanceDomainLength + MetricCount r * MetricLength r
  + ValuesCount r * ValueLength + StringCount r * StringLength.

(** Section offsets, /repo/client.go:223-227. *)
Definition indomoffset (r : registry) : Z := HeaderLength + TocLength * tocCount r.
Definition instanceoffset (r : registry) : Z := indomoffset r + InstanceDomainLength * InstanceDomainCount r.
Definition metricsoffset (r : registry) : Z := instanceoffset r + InstanceLength r * InstanceCount r.
Definition valuesoffset (r : registry) : Z := metricsoffset r + MetricLength r * MetricCount r.
Definition stringsoffset (r : registry) : Z := valuesoffset r + ValueLength * ValuesCount r.

(** Channel creation and first sends, /repo/client.go:229-246. *)
Definition init_ch (r : registry) (c : chan) : chst :=
  match c with
  | CInstance => if 0 <? InstanceDomainCount r then ChFull (instanceoffset r) else ChNil
  | CIndom => if 0 <? InstanceDomainCount r then ChFull (indomoffset r) else ChNil
  | CMetric => if 0 <? MetricCount r then ChFull (metricsoffset r) else ChNil
  | CValue => if 0 <? MetricCount r then ChFull (valuesoffset r) else ChNil
  | CString => if 0 <? StringCount r then ChFull (stringsoffset r) else ChNil
  end.

(** ** Write statements *)

Definition w_str (off : Z) (s : gostring) (k : prog) : prog := PWrite true off s k.
Definition w_i32 (off v : Z) (k : prog) : prog := PWrite true off (le_enc 4 v) k.
Definition w_i64 (off v : Z) (k : prog) : prog := PWrite true off (le_enc 8 v) k.

(** A take of the next slot of [size] bytes: [off := <-c; c <- off + size]. *)
Definition alloc (c : chan) (size : Z) (k : Z -> prog) : prog :=
  PTake c (fun off => PPut c (off + size) (k off)).

(** An optional description string: /repo/client.go:421-426 and three more places.
    The result is 0 when there is no string. *)
Definition opt_string (s : gostring) (k : Z -> prog) : prog :=
  if nonempty s then alloc CString StringLength (fun so => w_str so s (k so)) else k 0.

(** writeHeaderBlock, /repo/client.go:276-312. The two unbuffered channels genc and
    g2offc only hand gen and g2off = 16 to start() after all header writes; they are
    modelled by start() waiting for this goroutine (simplification). *)
Definition writeHeaderBlock (c : cfg) : prog :=
  w_str 0 (str "MMV")
  (w_i32 4 (if r_version2 (k_reg c) then 2 else 1)
  (w_i64 8 (k_gen c)
  (w_i64 16 0
  (w_i32 24 (to_signed 32 (tocCount (k_reg c)))
  (w_i32 28 (to_signed 32 (k_flag c))
  (w_i32 32 (to_signed 32 (k_pid c))
  (w_i32 36 (k_cluster c) PRet))))))).

(** Position of the second generation number. *)
Definition g2off : Z := 16.

(** writeSingleToc, /repo/client.go:372-376. *)
Definition writeSingleToc (pos identifier count offset : Z) : prog :=
  w_i32 pos identifier (w_i32 (pos + 4) (to_signed 32 count) (w_i64 (pos + 8) offset PRet)).

(** The goroutines of writeTocBlock in order with their positions,
    /repo/client.go:314-370. *)
Definition toc_entries (r : registry) : list (Z * Z * Z) :=
  (if 0 <? InstanceDomainCount r then [(1, InstanceDomainCount r, indomoffset r)] else [])
  ++ (if 0 <? InstanceCount r then [(2, InstanceCount r, instanceoffset r)] else [])
  ++ [(3, MetricCount r, if MetricCount r =? 0 then 0 else metricsoffset r)]
  ++ [(4, ValuesCount r, if MetricCount r =? 0 then 0 else valuesoffset r)]
  ++ (if 0 <? StringCount r then [(5, StringCount r, stringsoffset r)] else []).

Fixpoint toc_progs (pos : Z) (l : list (Z * Z * Z)) : list prog :=
  match l with
  | [] => []
  | (id, cnt, off) :: l => writeSingleToc pos id cnt off :: toc_progs (pos + TocLength) l
  end.

Definition writeTocBlock (r : registry) : prog :=
  PWg (tocCount r) [] (gos (toc_progs HeaderLength (toc_entries r)) PRet) PRet.

(** writeInstance, /repo/client.go:442-458. *)
Definition writeInstance (v2 : bool) (ip : nat) (name : gostring) (id indomoff off : Z) : prog :=
  PSetOff (ip, name) off
  (w_i64 off indomoff
  (w_i32 (off + 8) 0
  (w_i32 (off + 12) id
  (if v2 then
     alloc CString StringLength (fun soff => w_i64 (off + 16) soff (w_str soff name PRet))
   else w_str (off + 16) name PRet)))).

(** The loop of /repo/client.go:410-416. *)
Fixpoint instance_progs (v2 : bool) (ip : nat) (inoff ilen ioff : Z) (l : list (gostring * Z)) : list prog :=
  match l with
  | [] => []
  | (n, id) :: l => writeInstance v2 ip n id inoff ioff :: instance_progs v2 ip inoff ilen (ioff + ilen) l
  end.

(** writeInstanceDomain, /repo/client.go:392-440; [insts] are the instances in the
    order of Go's map iteration. *)
Definition writeInstanceDomain (r : registry) (ip : nat) (d : indom) (insts : list (gostring * Z)) : prog :=
  let v2 := r_version2 r in
  let ilen := InstanceLength r in
  alloc CIndom InstanceDomainLength (fun off =>
  alloc CInstance (ilen * instance_count d) (fun ioff =>
  PWg (instance_count d) []
    (w_i32 off (id_id d)
    (w_i32 (off + 4) (to_signed 32 (instance_count d))
    (w_i64 (off + 8) ioff
    (gos (instance_progs v2 ip off ilen ioff insts)
    (opt_string (id_short d) (fun so =>
     opt_string (id_long d) (fun lo =>
     w_i64 (off + 16) so (w_i64 (off + 24) lo PRet))))))))
    PRet)).

(** writeInstanceDomains, /repo/client.go:378-390. *)
Definition writeInstanceDomains (r : registry) (doms : list (nat * indom * list (gostring * Z))) : prog -> prog :=
  PWg (InstanceDomainCount r) []
    (gos ((fun x => writeInstanceDomain r x.1.1 x.1.2 x.2) <$> doms) PRet).

(** The update closure run by writeValue with its error ignored
    (/repo/client.go:613, /repo/metrics.go:543-552). *)
Definition update_prog (off : Z) (v : goval) (k : prog) : prog :=
  match v with
  | VStr s => PWrite true off (zeros StringLength) (PWrite false off s k)
  | v => match val_bytes v with
         | Some d => PWrite false off d k
         | None => k
         end
  end.

(** writeValue, /repo/client.go:603-617; the closure is stored in [key]. *)
Definition writeValue (t : Z) (v : goval) (offset : Z) (key : vkey) : prog :=
  if t =? StringType then
    w_i64 offset (StringLength - 1)
    (alloc CString StringLength (fun so =>
     w_i64 (offset + 8) so
     (update_prog so v (PSetUpd key so PRet))))
  else update_prog offset v (PSetUpd key offset PRet).

(** writeMetricDesc, /repo/client.go:554-601; [iid] is the id of the metric's
    instance domain, or [None]. *)
Definition writeMetricDesc (v2 : bool) (d : mdesc) (iid : option Z) (off : Z) : prog :=
  let rest off :=
    w_i32 off (md_id d)
    (w_i32 (off + 4) (md_type d)
    (w_i32 (off + 8) (md_sem d)
    (w_i32 (off + 12) (md_unit d)
    (w_i32 (off + 16) (match iid with Some i => i | None => -1 end)
    (w_i32 (off + 20) 0
    (opt_string (md_short d) (fun so =>
     opt_string (md_long d) (fun lo =>
     w_i64 (off + 24) so (w_i64 (off + 32) lo PRet)))))))))  in
  if v2 then
    PPut CMetric (off + Metric2Length)
    (alloc CString StringLength (fun noff =>
     w_i64 off noff (w_str noff (md_name d) (rest (off + 8)))))
  else
    PPut CMetric (off + Metric1Length)
    (w_str off (md_name d) (rest (off + (MaxV1NameLength + 1)))).

(** writeSingletonMetric, /repo/client.go:502-525. *)
Definition writeSingletonMetric (v2 : bool) (mp : nat) (d : mdesc) (v : goval) : prog :=
  PWg 2 []
    (PTake CMetric (fun doff =>
     PGo (writeMetricDesc v2 d None doff)
    (alloc CValue ValueLength (fun off =>
     PGo (writeValue (md_type d) v off (mp, None))
    (w_i64 (off + MaxDataValueSize) doff
    (w_i64 (off + MaxDataValueSize + 8) 0 PRet))))))
    PRet.

(** The loop of /repo/client.go:538-549; [vals] are (instance name, current value)
    in the order of Go's map iteration over the domain's instances. *)
Fixpoint instance_values (t : Z) (mp ip : nat) (doff : Z) (vals : list (gostring * goval)) : prog :=
  match vals with
  | [] => PRet
  | (n, v) :: vals =>
      alloc CValue ValueLength (fun off =>
      PGo (writeValue t v off (mp, Some n))
     (w_i64 (off + MaxDataValueSize) doff
     (PGetOff (ip, n) (fun io =>
      w_i64 (off + MaxDataValueSize + 8) io
      (instance_values t mp ip doff vals)))))
  end.

(** writeInstanceMetric, /repo/client.go:527-552. *)
Definition writeInstanceMetric (v2 : bool) (mp ip : nat) (d : mdesc) (dom : indom) (vals : list (gostring * goval)) : prog :=
  PWg (1 + instance_count dom) []
    (PTake CMetric (fun doff =>
     PGo (writeMetricDesc v2 d (Some (id_id dom)) doff)
     (instance_values (md_type d) mp ip doff vals)))
    PRet.

(** A metric as writeMetrics sees it: pointer, description and either the value or
    the domain (pointer and object) with the values in iteration order. *)
Inductive mplan :=
| MPSingle (mp : nat) (d : mdesc) (v : goval)
| MPInst (mp : nat) (d : mdesc) (ip : nat) (dom : indom) (vals : list (gostring * goval)).

Definition writeMetric (v2 : bool) (m : mplan) : prog :=
  match m with
  | MPSingle mp d v => writeSingletonMetric v2 mp d v
  | MPInst mp d ip dom vals => writeInstanceMetric v2 mp ip d dom vals
  end.

(** writeMetrics, /repo/client.go:460-500. *)
Definition writeMetrics (r : registry) (ms : list mplan) : prog :=
  PWg (MetricCount r) [] (gos (writeMetric (r_version2 r) <$> ms) PRet) PRet.

(** One choice of all map iteration orders: the domains with their instances and
    the metrics with their values, each in the order Go happens to visit them. *)
Record plan := mkPlan {
  pl_doms : list (nat * indom * list (gostring * Z));
  pl_mets : list mplan }.

(** start, /repo/client.go:212-274 (after the channel set-up, see [init_ch]). *)
Definition start_prog (c : cfg) (pl : plan) : prog :=
  PWg 3 []
    (PGo (writeHeaderBlock c)
    (PGo (writeTocBlock (k_reg c))
    (PGo (writeInstanceDomains (k_reg c) (pl_doms pl) (writeMetrics (k_reg c) (pl_mets pl)))
     PRet)))
    (w_i64 g2off (k_gen c) PRet).

(** Initial shared state: NewMemoryMappedWriter fills the file with Length zero
    bytes (/repo/bytewriter/memorymappedwriter.go:44-47). [offs] are the offset
    fields left over from an earlier Start (0 for new instances). *)
Definition start_state (r : registry) (offs : gmap okey Z) (upds : gmap vkey Z) : gst :=
  mkGst (zeros (Length r)) (init_ch r) offs upds false.

(** ** Iteration orders *)

(** [pl] visits exactly the registered domains, each with exactly its instances, and
    exactly the registered metrics, each with exactly the instances of its domain;
    this is what Go's unordered map iteration guarantees. *)
Definition dom_ok (hp : heap) (x : nat * indom * list (gostring * Z)) : Prop :=
  h_indoms hp !! x.1.1 = Some x.1.2 /\ x.2 ≡ₚ map_to_list (id_insts x.1.2).

Definition mplan_ok (hp : heap) (mp : nat) (p : mplan) : Prop :=
  exists m, h_metrics hp !! mp = Some m /\
  match p with
  | MPSingle mp' d v => mp' = mp /\ d = m_desc m /\ exists c, m_body m = BSingle c /\ v = c_val c
  | MPInst mp' d ip dom vals =>
      mp' = mp /\ d = m_desc m /\
      exists cells, m_body m = BInst ip cells /\ h_indoms hp !! ip = Some dom /\
        vals.*1 ≡ₚ (map_to_list (id_insts dom)).*1 /\
        Forall (fun x => exists c, cells !! x.1 = Some c /\ c_val c = x.2) vals
  end.

Definition plan_ok (hp : heap) (r : registry) (pl : plan) : Prop :=
  (exists ord, ord ≡ₚ (map_to_list (r_indoms r)).*2 /\
     (fun x => x.1.1) <$> pl_doms pl = ord /\ Forall (dom_ok hp) (pl_doms pl)) /\
  (exists ord, ord ≡ₚ (map_to_list (r_metrics r)).*2 /\ Forall2 (mplan_ok hp) ord (pl_mets pl)).
