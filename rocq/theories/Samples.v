(** The example programs of /repo/examples that drive the library from one goroutine. A program is a list of
    statements; it stops early if a statement fails, because the programs pass every error to log.Fatal or use the
    methods that panic. Left out: what is printed and the pauses.
    For http_counter see SamplesHttp.v, for download SamplesDl.v, for basic_histogram SamplesHist.v, for acme's forever() SamplesAcme.v. *)
From Verif Require Import Base Floats GoVal MetricType ByteWriter Hash Units Indom Metrics Registry Prog Client View Mmvdump World SyncView Parse.

(** [GNew mp made]: a constructor whose result is stored at address [mp], [None] if it returned an error;
    [GIndom] the same for a domain. [GCall f]: an API call with arguments computed from the current state; [None]:
    computing them fails, by a wrong type assertion or because a string does not parse. *)
Inductive gstmt :=
| GNew (mp : nat) (made : option metric)
| GIndom (ip : nat) (made : option indom)
| GCall (f : world -> option call).

Definition new_metric (w : world) (mp : nat) (m : metric) : world :=
  mkWorld (mkHeap (h_indoms (w_heap w)) (<[mp := m]> (h_metrics (w_heap w)))) (w_regs w) (w_clients w) (w_files w) (w_paths w) (w_offs w) false.
Definition new_domain (w : world) (ip : nat) (d : indom) : world :=
  mkWorld (mkHeap (<[ip := d]> (h_indoms (w_heap w))) (h_metrics (w_heap w))) (w_regs w) (w_clients w) (w_files w) (w_paths w) (w_offs w) false.

(** [exec w ss b w']: the statements [ss] take [w] to [w'] and all succeed ([b = true]), or one fails. *)
Inductive exec : world -> list gstmt -> bool -> world -> Prop :=
| ex_end w : exec w [] true w
| ex_new w mp m ss b w' : exec (new_metric w mp m) ss b w' -> exec w (GNew mp (Some m) :: ss) b w'
| ex_new_err w mp ss : exec w (GNew mp None :: ss) false w
| ex_indom w ip d ss b w' : exec (new_domain w ip d) ss b w' -> exec w (GIndom ip (Some d) :: ss) b w'
| ex_indom_err w ip ss : exec w (GIndom ip None :: ss) false w
| ex_call w f cl w1 ss b w' : f w = Some cl -> wstep w cl ROk w1 -> exec w1 ss b w' -> exec w (GCall f :: ss) b w'
| ex_call_err w f cl o w1 ss : f w = Some cl -> wstep w cl o w1 -> o <> ROk -> exec w (GCall f :: ss) false w1
| ex_args w f ss : f w = None -> exec w (GCall f :: ss) false w.

(** [ss] can run to its end, and no run of it fails or ends in a state without [Q]. *)
Definition surely (w : world) (ss : list gstmt) (Q : world -> Prop) : Prop :=
  (exists w', exec w ss true w') /\ forall b w', exec w ss b w' -> b = true /\ Q w'.

Definition do_call (c : call) : gstmt := GCall (fun _ => Some c).

(** NewPCPClient(name), /repo/client.go:122-124, when mmvFileLocation returns [loc]. *)
Definition new_client (name loc : gostring) : list gstmt := [do_call (CNewRegistry 0); do_call (CNewClient 0 name loc 0)].
(** Register and MustRegister, /repo/client.go:661-668; RegisterIndom and MustRegisterIndom, 671-680. *)
Definition register (mp : nat) : gstmt := do_call (CAddMetric 0 mp).
Definition register_indom (ip : nat) : gstmt := do_call (CAddIndom 0 ip).
(** RegisterString, /repo/client.go:683-685; a new domain is stored at [ip]. *)
Definition register_string (mp ip : nat) (s : gostring) (val : sarg) (t sem u : Z) : gstmt :=
  GCall (fun _ => '(name, indom, insts) ← parse_string asciiLN s; Some (CAddByString 0 mp ip name indom insts val t sem u)).
(** MustStart and MustStop, /repo/client.go:620-624, 654-658; no system call fails. *)
Definition must_start (gen pid : Z) : gstmt := do_call (CStart 0 gen pid true).
Definition must_stop (erase : bool) : gstmt := do_call (CStop 0 erase true).
(** The first [n] rounds of a loop. *)
Definition rounds (n : nat) (body : nat -> list gstmt) : list gstmt := concat (map body (seq 0 n)).

(** Val() and ValInstance(i) of the metric at [mp]. *)
Definition read_val (w : world) (mp : nat) : option goval := m ← h_metrics (w_heap w) !! mp; m_val m.
Definition read_inst (w : world) (mp : nat) (i : gostring) : option goval :=
  m ← h_metrics (w_heap w) !! mp;
  match m_body m with
  | BInst ip _ => d ← h_indoms (w_heap w) !! ip; o ← val_instance d m i; o
  | BSingle _ => None
  end.
(** v.(int32), v.(uint64) *)
Definition is_int32 (v : goval) : option Z := match v with VInt32 z => Some z | _ => None end.
Definition is_uint64 (v : goval) : option Z := match v with VUint64 z => Some z | _ => None end.

(** /repo/examples/singleton_counter/main.go:14-44; the loop of 40-43 has run [n] times. *)
Definition singleton_counter (loc : gostring) (gen pid : Z) (n : nat) : list gstmt :=
  [GNew 1 (NewPCPCounter 0 (str "counter") [str "A Simple Metric"])] ++ new_client (str "singletoncounter") loc ++
  [register 1; must_start gen pid] ++ rounds n (fun _ => [do_call (CUpdate 1 OCUp false)]).

(** /repo/examples/simple/main.go:11-37 *)
Definition simple (loc : gostring) (gen pid : Z) : list gstmt :=
  [GNew 1 (NewPCPSingletonMetric (VInt 42) (str "simple.counter") Int32Type CounterSemantics OneUnit
     [str "A Simple Metric"; str "This is a simple counter metric to demonstrate the speed API"])] ++
  new_client (str "simple") loc ++ [register 1; must_start gen pid].

(** /repo/examples/singleton_string/main.go:14-39 *)
Definition demo_name : gostring := str "this.is.a.simple.counter.metric.to.demonstrate.the.RegisterString.function".
Definition singleton_string (loc : gostring) (gen pid : Z) (n : nat) : list gstmt :=
  new_client (str "strings") loc ++
  [register_string 1 1 demo_name (AVal (VInt 10)) Int32Type CounterSemantics OneUnit; must_start gen pid] ++
  rounds n (fun _ => [GCall (fun w => v ← read_val w 1; z ← is_int32 v; Some (CUpdate 1 (OSet (VInt32 (to_signed 32 (z + 1)))) true))]).

(** /repo/examples/simple_string_metric/main.go:13-43 *)
Definition bat_names : list gostring :=
  [str "Batman"; str "Robin"; str "Nightwing"; str "Batgirl"; str "Red Robin"; str "Red Hood"].
Definition bat (i : nat) : gostring := nth (i mod length bat_names)%nat bat_names [].
Definition simple_string_metric (loc : gostring) (gen pid : Z) (n : nat) : list gstmt :=
  new_client (str "stringtest") loc ++
  [register_string 1 1 (str "bat.names") (AVal (VStr (bat 0))) StringType InstantSemantics OneUnit; must_start gen pid] ++
  rounds n (fun i => [do_call (CUpdate 1 (OSet (VStr (bat i))) true)]).

(** /repo/examples/instance_string/main.go:13-46 *)
Definition change (i : gostring) (f : Z -> Z) : gstmt :=
  GCall (fun w => v ← read_inst w 1 i; z ← is_uint64 v; Some (CUpdate 1 (OISet (VUint64 (to_unsigned 64 (f z))) i) true)).
Definition instance_string (loc : gostring) (gen pid : Z) (n : nat) : list gstmt :=
  new_client (str "strings") loc ++
  [register_string 1 1 (str "language[go, javascript, php].users")
     (AInst (<[str "go" := VInt 1]> (<[str "javascript" := VInt 100]> (<[str "php" := VInt 10]> ∅)))) Uint64Type CounterSemantics OneUnit;
   must_start gen pid] ++
  rounds n (fun _ => [change (str "go") (fun z => z * 2); change (str "javascript") (fun z => z + 10); change (str "php") (fun z => z + 1)]).

(** serial(), /repo/examples/acme/main.go:43-110; [o1] and [o2] are the orders in which the instances of the domain are visited. *)
Definition acme_names : list gostring := [str "Anvils"; str "Rockets"; str "Giant_Rubber_Bands"].
Definition acme_indom : option indom :=
  new_indom (str "Acme Products") acme_names [str "Acme products"; str "Most popular products produced by the Acme Corporation"].
Definition acme_zero : gmap gostring goval := <[str "Anvils" := VInt 0]> (<[str "Rockets" := VInt 0]> (<[str "Giant_Rubber_Bands" := VInt 0]> ∅)).
(* the line break and the two tabs of the raw string *)
Definition acme_long : gostring :=
  str "Monotonic increasing counter of products produced in the Acme Corporation" ++ [x0a; x09; x09] ++
  str " factory since starting the Acme production application.  Quality guaranteed.".
Definition acme_serial (loc : gostring) (gen pid : Z) (o1 o2 : list gostring) : list gstmt :=
  [GIndom 1 acme_indom;
   GNew 1 (d ← acme_indom; NewPCPInstanceMetric acme_zero (str "products.count") 1 d Uint64Type CounterSemantics OneUnit
     [str "Acme factory product throughput"; acme_long] o1);
   GNew 2 (d ← acme_indom; NewPCPInstanceMetric acme_zero (str "products.time") 1 d Uint64Type CounterSemantics MicrosecondUnit
     [str "Machine time spent producing Acme products"] o2)] ++
  new_client (str "acme") loc ++ [register_indom 1; register 1; register 2; must_start gen pid;
   do_call (CUpdate 1 (OISet (VInt 42) (str "Anvils")) false)].

(** /repo/examples/runtime/main.go:17-45, 47-142: [cgo], [gor] and [mem] are what the Go runtime reports in each round of the goroutine's loop;
    "Lookups" is not updated. [o1] and [o2]: as above. *)
Definition cpu_names : list gostring := [str "CGoCalls"; str "Goroutines"].
Definition mem_names : list gostring :=
  [str "Alloc"; str "TotalAlloc"; str "Sys"; str "Lookups"; str "Mallocs"; str "Frees"; str "HeapAlloc"; str "HeapSys"; str "HeapIdle";
   str "HeapInuse"; str "HeapReleased"; str "HeapObjects"; str "StackInuse"; str "StackSys"; str "MSpanInuse"; str "MSpanSys"; str "MCacheInuse";
   str "MCacheSys"; str "BuckHashSys"; str "GCSys"; str "OtherSys"; str "NextGC"; str "LastGC"; str "PauseTotalNs"; str "PauseNs"; str "PauseEnd"; str "NumGC"].
Definition mem_updated : list gostring :=
  [str "Alloc"; str "TotalAlloc"; str "Sys"; str "Mallocs"; str "Frees"; str "HeapAlloc"; str "HeapSys"; str "HeapIdle";
   str "HeapInuse"; str "HeapReleased"; str "HeapObjects"; str "StackInuse"; str "StackSys"; str "MSpanInuse"; str "MSpanSys"; str "MCacheInuse";
   str "MCacheSys"; str "BuckHashSys"; str "GCSys"; str "OtherSys"; str "NextGC"; str "LastGC"; str "PauseTotalNs"; str "PauseNs"; str "PauseEnd"; str "NumGC"].
Definition all_zero (l : list gostring) : gmap gostring goval := list_to_map (map (fun i => (i, VInt 0)) l).
Definition set_to (mp : nat) (v : goval) (i : gostring) : gstmt := do_call (CUpdate mp (OISet v i) true).
Definition runtime_round (cgo gor : nat -> Z) (mem : nat -> gostring -> Z) (k : nat) : list gstmt :=
  [set_to 1 (VInt64 (cgo k)) (str "CGoCalls"); set_to 1 (VInt (gor k)) (str "Goroutines")] ++ map (fun i => set_to 2 (VUint64 (mem k i)) i) mem_updated.
Definition runtime_stats (loc : gostring) (gen pid : Z) (o1 o2 : list gostring) (cgo gor : nat -> Z) (mem : nat -> gostring -> Z) (n : nat) : list gstmt :=
  [GIndom 1 (new_indom (str "CPU Metrics") cpu_names []);
   GNew 1 (d ← new_indom (str "CPU Metrics") cpu_names []; NewPCPInstanceMetric (all_zero cpu_names) (str "cpu") 1 d Int64Type CounterSemantics OneUnit [] o1);
   GIndom 2 (new_indom (str "Memory Metrics") mem_names []);
   GNew 2 (d ← new_indom (str "Memory Metrics") mem_names []; NewPCPInstanceMetric (all_zero mem_names) (str "mem") 2 d Uint64Type CounterSemantics OneUnit [] o2)] ++
  new_client (str "runtime") loc ++ [register 1; register 2; must_start gen pid] ++ rounds n (runtime_round cgo gor mem).
