(** Histories of API calls: all objects of a process using the library, the files,
    and one transition per API call. Calls are sequential here; Start itself is the
    concurrent program of Client.v and may take any schedule. *)
From Verif Require Import Base Floats GoVal MetricType ByteWriter Hash Units Indom Metrics Registry Prog Client.

(** PCPClient, /repo/client.go:103-119. The channels live in Prog.v. *)
Record client := mkClient {
  cl_loc : gostring; cl_cluster : Z; cl_flag : Z; cl_reg : nat; cl_wr : option nat }.

(** /repo/client.go:88, 91-98 *)
Definition PCPClusterIDBitLength : Z := 12.
Definition NoPrefixFlag : Z := 1.
Definition ProcessFlag : Z := 2.
Definition SentinelFlag : Z := 4.

(** Everything the process can reach, plus the directory entries [w_paths] (path to
    inode); [w_offs] holds the [offset] fields of all instances; [w_dead]: a memory
    fault or a panic in a goroutine of Start has killed the process. *)
Record world := mkWorld {
  w_heap : heap;
  w_regs : gmap nat registry;
  w_clients : gmap nat client;
  w_files : files;
  w_paths : gmap gostring nat;
  w_offs : gmap okey Z;
  w_dead : bool }.

(** Package initialisation, /repo/speed.go:22-37. The shared histogramIndom has
    address 0. *)
Definition histogramIndom : indom :=
  mkIndom (hash (str "histogram") PCPInstanceDomainBitLength) (str "histogram")
    (list_to_map ((fun i => (i, inst_id i)) <$> histogramInstances)) [] [].
Definition w_init : world :=
  mkWorld (mkHeap {[0%nat := histogramIndom]} ∅) ∅ ∅ (mkFiles ∅ ∅) ∅ ∅ false.

(** ** Updates of metrics *)

(** The exported methods that change a metric; [ord] is the map iteration order of
    the All methods, [now] the clock, [res] what the histogram library did. *)
Inductive mop :=
| OSet (v : goval)
| OCSet (z : Z) | OCInc (z : Z) | OCUp
| OGSet (z : Z) | OGInc (z : Z) | OGDec (z : Z)
| OTStart (now : Z) | OTReset | OTStop (now : Z)
| OISet (v : goval) (i : gostring)
| OVSet (z : Z) (i : gostring) | OVInc (z : Z) (i : gostring) | OVUp (i : gostring)
| OVSetAll (z : Z) (ord : list gostring) | OVIncAll (z : Z) (ord : list gostring) | OVUpAll (ord : list gostring)
| OWSet (z : Z) (i : gostring) | OWInc (z : Z) (i : gostring) | OWDec (z : Z) (i : gostring)
| OWSetAll (z : Z) (ord : list gostring) | OWIncAll (z : Z) (ord : list gostring) | OWDecAll (z : Z) (ord : list gostring)
| OHRecord (res : option hstats).

(** Methods on instances get the metric's domain object. *)
Definition with_dom (hp : heap) (m : metric) (f : indom -> mres) : option mres :=
  match m_body m with
  | BInst ip _ => f <$> h_indoms hp !! ip
  | BSingle _ => None
  end.

(** Dispatch on the Go type of the metric; [None]: no such method. *)
Definition run_op (fs : files) (hp : heap) (m : metric) (op : mop) : option mres :=
  match m_kind m, op with
  | MSingleton, OSet v => Some (m_set fs m v)
  | MCounter, OCSet z => Some (counter_set fs m z)
  | MCounter, OCInc z => Some (counter_inc fs m z)
  | MCounter, OCUp => Some (counter_up fs m)
  | MGauge, OGSet z => Some (gauge_set fs m z)
  | MGauge, OGInc z => Some (gauge_inc fs m z)
  | MGauge, OGDec z => Some (gauge_dec fs m z)
  | MTimer _ _, OTStart now => Some (timer_start fs m now)
  | MTimer _ _, OTReset => Some (timer_reset fs m)
  | MTimer _ _, OTStop now => Some (timer_stop fs m now).1
  | MInstance, OISet v i => with_dom hp m (fun d => m_set_instance fs d m v i)
  | MCounterVector, OVSet z i => with_dom hp m (fun d => cv_set fs d m z i)
  | MCounterVector, OVInc z i => with_dom hp m (fun d => cv_inc fs d m z i)
  | MCounterVector, OVUp i => with_dom hp m (fun d => must_m (cv_inc fs d m 1 i))
  | MCounterVector, OVSetAll z ord => with_dom hp m (fun d => cv_set_all fs d m z ord)
  | MCounterVector, OVIncAll z ord => with_dom hp m (fun d => cv_inc_all fs d m z ord)
  | MCounterVector, OVUpAll ord => with_dom hp m (fun d => cv_inc_all fs d m 1 ord)
  | MGaugeVector, OWSet z i => with_dom hp m (fun d => gv_set fs d m z i)
  | MGaugeVector, OWInc z i => with_dom hp m (fun d => gv_inc fs d m z i)
  | MGaugeVector, OWDec z i => with_dom hp m (fun d => gv_inc fs d m (f64_neg z) i)
  | MGaugeVector, OWSetAll z ord => with_dom hp m (fun d => gv_set_all fs d m z ord)
  | MGaugeVector, OWIncAll z ord => with_dom hp m (fun d => gv_inc_all fs d m z ord)
  | MGaugeVector, OWDecAll z ord => with_dom hp m (fun d => gv_inc_all fs d m (f64_neg z) ord)
  | MHistogram, OHRecord res => with_dom hp m (fun d => hist_record fs d m res)
  | _, _ => None
  end.

(** Arguments Go's types allow, and iteration orders its maps allow. *)
Definition ord_ok (hp : heap) (m : metric) (ord : list gostring) : Prop :=
  forall ip cells d, m_body m = BInst ip cells -> h_indoms hp !! ip = Some d -> ord ≡ₚ (map_to_list (id_insts d)).*1.
Definition op_args (hp : heap) (m : metric) (op : mop) : Prop :=
  match op with
  | OSet v | OISet v _ => wf_goval v
  | OCSet z | OCInc z | OVSet z _ | OVInc z _ => in_signed 64 z
  | OGSet z | OGInc z | OGDec z | OWSet z _ | OWInc z _ | OWDec z _ => in_unsigned 64 z
  | OVSetAll z ord | OVIncAll z ord => in_signed 64 z /\ ord_ok hp m ord
  | OVUpAll ord => ord_ok hp m ord
  | OWSetAll z ord | OWIncAll z ord | OWDecAll z ord => in_unsigned 64 z /\ ord_ok hp m ord
  | OHRecord (Some s) => in_signed 64 (hs_min s) /\ in_signed 64 (hs_max s) /\
      in_unsigned 64 (hs_mean s) /\ in_unsigned 64 (hs_stddev s)
  | OCUp | OTStart _ | OTReset | OTStop _ | OVUp _ | OHRecord None => True
  end.

(** ** Creation of metrics *)

Definition desc_args (t s u : Z) : Prop := in_signed 32 t /\ in_signed 32 s /\ in_unsigned 32 u.

(** [created hp ip m new]: a constructor can return [m]; [new] is the domain it
    creates, to be stored at address [ip]. *)
Inductive created (hp : heap) (ip : nat) : metric -> option indom -> Prop :=
| cr_singleton v name t s u desc m : wf_goval v -> desc_args t s u ->
    NewPCPSingletonMetric v name t s u desc = Some m -> created hp ip m None
| cr_counter v name desc m : in_signed 64 v -> NewPCPCounter v name desc = Some m -> created hp ip m None
| cr_gauge v name desc m : in_unsigned 64 v -> NewPCPGauge v name desc = Some m -> created hp ip m None
| cr_timer name u desc m : in_unsigned 32 u -> NewPCPTimer name u desc = Some m -> created hp ip m None
| cr_instance vals name ip' d t s u desc ord m : (forall i v, vals !! i = Some v -> wf_goval v) -> desc_args t s u ->
    h_indoms hp !! ip' = Some d -> ord ≡ₚ (map_to_list (id_insts d)).*1 ->
    NewPCPInstanceMetric vals name ip' d t s u desc ord = Some m -> created hp ip m None
| cr_cvector vals name desc keys ord d m : (forall i z, vals !! i = Some z -> in_signed 64 z) ->
    keys ≡ₚ (map_to_list vals).*1 -> ord ≡ₚ (map_to_list (id_insts d)).*1 ->
    NewPCPCounterVector vals name desc ip keys ord = Some (d, m) -> created hp ip m (Some d)
| cr_gvector vals name desc keys ord d m : (forall i z, vals !! i = Some z -> in_unsigned 64 z) ->
    keys ≡ₚ (map_to_list vals).*1 -> ord ≡ₚ (map_to_list (id_insts d)).*1 ->
    NewPCPGaugeVector vals name desc ip keys ord = Some (d, m) -> created hp ip m (Some d)
| cr_histogram name low high sig u desc d ord pars m : in_unsigned 32 u ->
    h_indoms hp !! 0%nat = Some d -> ord ≡ₚ (map_to_list (id_insts d)).*1 ->
    NewPCPHistogram name low high sig u desc 0%nat d ord = Some (pars, m) -> created hp ip m None.

(** ** Start and Stop *)

(** The closures installed by Start: [u] maps (metric, instance) to the offset
    captured together with writer [w] (/repo/client.go:613-616, /repo/metrics.go:539-552). *)
Definition set_cell_upd (w : nat) (o : option Z) (c : cell) : cell :=
  match o with Some off => mkCell (c_val c) (Some (mkClosure w off)) | None => c end.
Definition set_body_upd (w : nat) (u : gmap vkey Z) (mp : nat) (b : mbody) : mbody :=
  match b with
  | BSingle c => BSingle (set_cell_upd w (u !! (mp, None)) c)
  | BInst ip cells => BInst ip (map_imap (fun n c => Some (set_cell_upd w (u !! (mp, Some n)) c)) cells)
  end.
Definition set_upds (w : nat) (u : gmap vkey Z) (hp : heap) : heap :=
  mkHeap (h_indoms hp) (map_imap (fun mp m => Some (with_body m (set_body_upd w u mp (m_body m)))) (h_metrics hp)).

Definition set_mapped (r : registry) (b : bool) : registry :=
  mkReg (r_indoms r) (r_metrics r) (r_instanceCount r) (r_valueCount r) (r_stringcount r) b (r_version2 r).

Definition set_regs (w : world) (regs : gmap nat registry) : world :=
  mkWorld (w_heap w) regs (w_clients w) (w_files w) (w_paths w) (w_offs w) (w_dead w).

(** What start() sees. *)
Definition start_cfg (c : client) (r : registry) (gen pid : Z) : cfg := mkCfg r (cl_flag c) (cl_cluster c) gen pid.

(** One complete schedule of start() over a plan. *)
Definition start_run (hp : heap) (offs : gmap okey Z) (k : cfg) (s : gst) : Prop :=
  exists pl, plan_ok hp (k_reg k) pl /\
    rtc (gstep (Length (k_reg k))) (start_state (k_reg k) offs ∅, start_prog k pl) (s, PRet) /\ g_panic s = false.
(** A schedule on which a goroutine of start() panics. *)
Definition start_panics (hp : heap) (offs : gmap okey Z) (k : cfg) (s : gst) : Prop :=
  exists pl p, plan_ok hp (k_reg k) pl /\
    rtc (gstep (Length (k_reg k))) (start_state (k_reg k) offs ∅, start_prog k pl) (s, p) /\ g_panic s = true.

(** Start with a successful NewMemoryMappedWriter, /repo/client.go:195-210: the path
    gets the new inode [ino], the new writer is [wr]. *)
Definition started (w : world) (cid : nat) (c : client) (r : registry) (wr ino : nat) (s : gst) : world :=
  mkWorld (set_upds wr (g_upd s) (w_heap w))
    (<[cl_reg c := set_mapped r true]> (w_regs w))
    (<[cid := mkClient (cl_loc c) (cl_cluster c) (cl_flag c) (cl_reg c) (Some wr)]> (w_clients w))
    (mkFiles (<[wr := mkWriter ino true]> (f_writers (w_files w))) (<[ino := g_buf s]> (f_inodes (w_files w))))
    (<[cl_loc c := ino]> (w_paths w)) (g_off s) false.

(** Unmap, /repo/bytewriter/memorymappedwriter.go:62-79, when the system calls succeed. *)
Definition unmap_writer (fs : files) (wr : nat) : files :=
  match f_writers fs !! wr with
  | Some x => mkFiles (<[wr := mkWriter (wr_inode x) false]> (f_writers fs)) (f_inodes fs)
  | None => fs
  end.

(** Stop on a mapped registry, /repo/client.go:627-652. A nil c.writer makes the
    type assertion panic, after mapped was cleared. os.Remove fails if the path is gone. *)
Definition stopped (w : world) (cid : nat) (c : client) (r : registry) (erase : bool) : outcome * world :=
  let regs := <[cl_reg c := set_mapped r false]> (w_regs w) in
  match cl_wr c with
  | None => (RPanic, set_regs w regs)
  | Some wr =>
      let clients := <[cid := mkClient (cl_loc c) (cl_cluster c) (cl_flag c) (cl_reg c) None]> (w_clients w) in
      let fs := unmap_writer (w_files w) wr in
      if erase then
        (match w_paths w !! cl_loc c with Some _ => ROk | None => RErr end,
         mkWorld (w_heap w) regs clients fs (delete (cl_loc c) (w_paths w)) (w_offs w) (w_dead w))
      else (ROk, mkWorld (w_heap w) regs clients fs (w_paths w) (w_offs w) (w_dead w))
  end.

(** ** Transitions *)

Inductive call :=
| CNewRegistry (rid : nat)
| CNewClient (cid : nat) (name loc : gostring) (rid : nat)
| CNewIndom (ip : nat)
| CNewMetric (mp ip : nat)
| CAddMetric (rid mp : nat)
| CAddIndom (rid ip : nat)
| CAddIndomByName (rid ip : nat) (name : gostring) (insts : list gostring)
| CAddByString (rid mp ip : nat) (name indom : gostring) (insts : option (list gostring)) (val : sarg) (t s u : Z)
| CSetFlag (cid : nat) (flag : Z)
| CStart (cid : nat) (gen pid : Z) (os : bool)
| CStop (cid : nat) (erase os : bool)
| CUpdate (mp : nat) (op : mop) (mst : bool).

(** AddMetricByString after parseString returned [name], [indom] and [insts]
    ([None] for nil), /repo/registry.go:322-333. *)
Definition add_by_string (hp : heap) (r : registry) (mp ip : nat) (name indom : gostring)
    (insts : option (list gostring)) (val : sarg) (t s u : Z) (ord : list gostring) : outcome * heap * registry :=
  match insts with
  | None => add_singleton_by_string hp r mp name val t s u
  | Some l => add_instance_by_string hp r mp ip name val indom l t s u ord
  end.

(** Order in which NewPCPInstanceMetric visits the domain used by
    addInstanceMetricByString: the registered one or the one just created. *)
Definition by_string_ord (hp : heap) (r : registry) (indom : gostring) (insts : option (list gostring)) (ord : list gostring) : Prop :=
  match insts with
  | None => True
  | Some l =>
      match r_indoms r !! indom with
      | Some ip => forall d, h_indoms hp !! ip = Some d -> ord ≡ₚ (map_to_list (id_insts d)).*1
      | None => forall d, new_indom indom l [] = Some d -> ord ≡ₚ (map_to_list (id_insts d)).*1
      end
  end.

Definition wf_sarg (a : sarg) : Prop :=
  match a with AVal v => wf_goval v | AInst vals => forall i v, vals !! i = Some v -> wf_goval v end.

Definition is_fault (o : outcome) : bool := match o with RFault => true | _ => false end.

Inductive wstep : world -> call -> outcome -> world -> Prop :=
| ws_new_registry w rid : w_dead w = false -> w_regs w !! rid = None ->
    wstep w (CNewRegistry rid) ROk (set_regs w (<[rid := new_registry]> (w_regs w)))
(* NewPCPClientWithRegistry, /repo/client.go:127-139; [loc] is mmvFileLocation's result, see Path.v *)
| ws_new_client w cid name loc rid : w_dead w = false -> w_clients w !! cid = None -> is_Some (w_regs w !! rid) ->
    wstep w (CNewClient cid name loc rid) ROk
      (mkWorld (w_heap w) (w_regs w) (<[cid := mkClient loc (hash name PCPClusterIDBitLength) ProcessFlag rid None]> (w_clients w))
         (w_files w) (w_paths w) (w_offs w) false)
| ws_new_indom w ip name insts desc d : w_dead w = false -> h_indoms (w_heap w) !! ip = None ->
    new_indom name insts desc = Some d ->
    wstep w (CNewIndom ip) ROk
      (mkWorld (mkHeap (<[ip := d]> (h_indoms (w_heap w))) (h_metrics (w_heap w))) (w_regs w) (w_clients w) (w_files w) (w_paths w) (w_offs w) false)
| ws_new_metric w mp ip m new : w_dead w = false -> h_metrics (w_heap w) !! mp = None -> h_indoms (w_heap w) !! ip = None ->
    created (w_heap w) ip m new ->
    wstep w (CNewMetric mp ip) ROk
      (mkWorld (mkHeap (match new with Some d => <[ip := d]> (h_indoms (w_heap w)) | None => h_indoms (w_heap w) end)
                  (<[mp := m]> (h_metrics (w_heap w)))) (w_regs w) (w_clients w) (w_files w) (w_paths w) (w_offs w) false)
| ws_add_metric w rid mp r m o r' : w_dead w = false -> w_regs w !! rid = Some r -> h_metrics (w_heap w) !! mp = Some m ->
    add_metric (w_heap w) r mp m = (o, r') ->
    wstep w (CAddMetric rid mp) o (set_regs w (<[rid := r']> (w_regs w)))
| ws_add_indom w rid ip r d : w_dead w = false -> w_regs w !! rid = Some r -> h_indoms (w_heap w) !! ip = Some d ->
    wstep w (CAddIndom rid ip) (match add_indom r ip d with Some _ => ROk | None => RErr end)
      (set_regs w (match add_indom r ip d with Some r' => <[rid := r']> (w_regs w) | None => w_regs w end))
| ws_add_indom_by_name w rid ip name insts r o hp' r' : w_dead w = false -> w_regs w !! rid = Some r -> h_indoms (w_heap w) !! ip = None ->
    add_indom_by_name (w_heap w) r ip name insts = (o, hp', r') ->
    wstep w (CAddIndomByName rid ip name insts) o
      (mkWorld hp' (<[rid := r']> (w_regs w)) (w_clients w) (w_files w) (w_paths w) (w_offs w) false)
| ws_add_by_string w rid mp ip name indom insts val t s u ord r o hp' r' :
    w_dead w = false -> w_regs w !! rid = Some r -> h_metrics (w_heap w) !! mp = None -> h_indoms (w_heap w) !! ip = None ->
    wf_sarg val -> desc_args t s u -> by_string_ord (w_heap w) r indom insts ord ->
    add_by_string (w_heap w) r mp ip name indom insts val t s u ord = (o, hp', r') ->
    wstep w (CAddByString rid mp ip name indom insts val t s u) o
      (mkWorld hp' (<[rid := r']> (w_regs w)) (w_clients w) (w_files w) (w_paths w) (w_offs w) false)
(* SetFlag, /repo/client.go:147-156 *)
| ws_set_flag w cid flag c r : w_dead w = false -> w_clients w !! cid = Some c -> w_regs w !! cl_reg c = Some r ->
    wstep w (CSetFlag cid flag) (if r_mapped r then RErr else ROk)
      (mkWorld (w_heap w) (w_regs w)
         (if r_mapped r then w_clients w else <[cid := mkClient (cl_loc c) (cl_cluster c) flag (cl_reg c) (cl_wr c)]> (w_clients w))
         (w_files w) (w_paths w) (w_offs w) false)
| ws_start w cid gen pid c r wr ino s : w_dead w = false -> w_clients w !! cid = Some c -> w_regs w !! cl_reg c = Some r ->
    f_writers (w_files w) !! wr = None -> f_inodes (w_files w) !! ino = None ->
    start_run (w_heap w) (w_offs w) (start_cfg c r gen pid) s ->
    wstep w (CStart cid gen pid true) ROk (started w cid c r wr ino s)
(* the process dies, what was written so far stays in the new file *)
| ws_start_panic w cid gen pid c r ino s : w_dead w = false -> w_clients w !! cid = Some c -> w_regs w !! cl_reg c = Some r ->
    f_inodes (w_files w) !! ino = None -> start_panics (w_heap w) (w_offs w) (start_cfg c r gen pid) s ->
    wstep w (CStart cid gen pid true) RPanic
      (mkWorld (w_heap w) (w_regs w) (w_clients w) (mkFiles (f_writers (w_files w)) (<[ino := g_buf s]> (f_inodes (w_files w))))
         (<[cl_loc c := ino]> (w_paths w)) (w_offs w) true)
(* a failing system call: the old file may be gone, a new one holding only zeros may be left; call by call in Files.v *)
| ws_start_err w cid gen pid c r (paths : gmap gostring nat) (inodes : gmap nat buffer) : w_dead w = false -> w_clients w !! cid = Some c -> w_regs w !! cl_reg c = Some r ->
    (paths, inodes) = (w_paths w, f_inodes (w_files w)) \/ (paths, inodes) = (delete (cl_loc c) (w_paths w), f_inodes (w_files w)) \/
    (exists ino n, f_inodes (w_files w) !! ino = None /\ 0 <= n <= Length r /\ paths = <[cl_loc c := ino]> (w_paths w) /\ inodes = <[ino := zeros n]> (f_inodes (w_files w))) ->
    wstep w (CStart cid gen pid false) RErr
      (mkWorld (w_heap w) (w_regs w) (w_clients w) (mkFiles (f_writers (w_files w)) inodes) paths (w_offs w) false)
| ws_stop_not_mapped w cid erase os c r : w_dead w = false -> w_clients w !! cid = Some c -> w_regs w !! cl_reg c = Some r -> r_mapped r = false ->
    wstep w (CStop cid erase os) RErr w
| ws_stop w cid erase c r o w' : w_dead w = false -> w_clients w !! cid = Some c -> w_regs w !! cl_reg c = Some r -> r_mapped r = true ->
    stopped w cid c r erase = (o, w') -> wstep w (CStop cid erase true) o w'
(* munmap or close refused: the client is stopped, the file stays *)
| ws_stop_err w cid erase c r wr fs' : w_dead w = false -> w_clients w !! cid = Some c -> w_regs w !! cl_reg c = Some r -> r_mapped r = true ->
    cl_wr c = Some wr -> fs' = w_files w \/ fs' = unmap_writer (w_files w) wr ->
    wstep w (CStop cid erase false) RErr
      (mkWorld (w_heap w) (<[cl_reg c := set_mapped r false]> (w_regs w))
         (<[cid := mkClient (cl_loc c) (cl_cluster c) (cl_flag c) (cl_reg c) None]> (w_clients w)) fs' (w_paths w) (w_offs w) false)
| ws_update w mp op (mst : bool) m o fs' m' : w_dead w = false -> h_metrics (w_heap w) !! mp = Some m -> op_args (w_heap w) m op ->
    (if mst then must_m <$> run_op (w_files w) (w_heap w) m op else run_op (w_files w) (w_heap w) m op) = Some (o, fs', m') ->
    wstep w (CUpdate mp op mst) o
      (mkWorld (mkHeap (h_indoms (w_heap w)) (<[mp := m']> (h_metrics (w_heap w)))) (w_regs w) (w_clients w) fs'
         (w_paths w) (w_offs w) (is_fault o)).

(** Histories; a trace records the world before each call, the call and its outcome. *)
Inductive hist : world -> list (world * call * outcome) -> world -> Prop :=
| hist_nil w : hist w [] w
| hist_cons w c o w1 tr w' : wstep w c o w1 -> hist w1 tr w' -> hist w ((w, c, o) :: tr) w'.
Definition wnext (w w' : world) : Prop := exists c o, wstep w c o w'.
Definition reachable (w : world) : Prop := rtc wnext w_init w.
