(** Accesses to the two maps of a registry from several goroutines, with and without its locks: the registering
    methods (/repo/registry.go:89-132, 135-330) and Start (/repo/client.go:195-210). The Go runtime ends the process
    when it notices that a map is read while another goroutine writes it.
    RegConc.v has AddMetric and AddInstanceDomain access by access; they are used here as they are. *)
From Verif Require Import Base GoVal MetricType Indom Metrics Registry Locks RegConc.
Local Open Scope Z_scope.

(** r.instanceDomains, r.metrics *)
Inductive rmap := TDom | TMet.
Global Instance rmap_eq_dec : EqDecision rmap.
Proof. solve_decision. Defined.

(** [XDo p k]: run the method [p] to its end, then go on with [k]. [XGetD]: r.instanceDomains[n] without a lock.
    [XHeap]: follow pointers to domains and metrics, which are not changed once made. [XScan x k]: any number of
    accesses of range loops to the maps, the next one to [x], without a lock. *)
Inductive xprog :=
| XRet (o : outcome)
| XDo (p : rprog) (k : outcome -> xprog)
| XGetD (n : gostring) (k : option nat -> xprog)
| XHeap (k : heap -> xprog)
| XNewD (ip : nat) (d : indom) (k : xprog)
| XNewM (mp : nat) (m : metric) (k : xprog)
| XScan (x : rmap) (k : xprog)
| XMapped (k : xprog).                        (* r.mapped = true *)

(** HasMetric, HasInstanceDomain, /repo/registry.go:117-132, as calls of their own: RErr stands for false. *)
Definition as_bool (b : bool) : rprog := GRet (if b then ROk else RErr).
(** InstanceDomainCount and MetricCount, /repo/registry.go:89-102: len reads the map. *)
Definition g_len_dom : rprog := GRLock KDom (GHasD [] (fun _ => GRUnlock KDom (GRet ROk))).
Definition g_len_met : rprog := GRLock KMet (GHasM [] (fun _ => GRUnlock KMet (GRet ROk))).

(** AddMetric of a new metric. *)
Definition x_add_metric (mp : nat) (m : metric) : xprog := XNewM mp m (XHeap (fun hp => XDo (g_add_metric hp mp m) XRet)).

(** AddInstanceDomainByName, /repo/registry.go:223-239. *)
Definition x_by_name (ip : nat) (name : gostring) (instances : list gostring) (kok : xprog) : xprog :=
  XDo (g_has_indom name as_bool) (fun o => match o with
    | ROk => XRet RErr
    | _ => match new_indom name instances [] with
           | None => XRet RErr
           | Some d => XNewD ip d (XDo (g_add_indom ip d (GRet ROk) (GRet RErr)) (fun o => match o with ROk => kok | _ => XRet o end))
           end
    end).

(** addInstanceMetricByString from line 306 on, /repo/registry.go:306-318. *)
Definition x_instance_with (mp ip : nat) (name : gostring) (vals : gmap gostring goval) (t s u : Z) (order : list gostring) : xprog :=
  XHeap (fun hp => match h_indoms hp !! ip with
    | None => XRet RPanic
    | Some d => match NewPCPInstanceMetric vals name ip d t s u [] order with None => XRet RErr | Some m => x_add_metric mp m end
    end).
(** addInstanceMetricByString, /repo/registry.go:285-319; lines 302 and 303 look the domain up without a lock. *)
Definition x_instance (mp ip : nat) (name : gostring) (val : sarg) (iname : gostring) (instances : list gostring) (t s u : Z) (order : list gostring) : xprog :=
  match val with
  | AVal _ => XRet RErr
  | AInst vals =>
      XDo (g_has_indom iname as_bool) (fun o => match o with
        | ROk => XGetD iname (fun ip1 => match ip1 with
            | None => XRet RPanic
            | Some ip1 => XHeap (fun hp => match h_indoms hp !! ip1 with
                | None => XRet RPanic
                | Some d => if match_instances d instances
                            then XGetD iname (fun ip2 => match ip2 with None => XRet RPanic | Some ip2 => x_instance_with mp ip2 name vals t s u order end)
                            else XRet RErr
                end)
            end)
        | _ => x_by_name ip iname instances (x_instance_with mp ip name vals t s u order)
        end)
  end.
(** addSingletonMetricByString, /repo/registry.go:271-283. *)
Definition x_singleton (mp : nat) (name : gostring) (val : sarg) (t s u : Z) : xprog :=
  match NewPCPSingletonMetric (match val with AVal v => v | AInst _ => VOther end) name t s u [] with None => XRet RErr | Some m => x_add_metric mp m end.

(** Start, /repo/client.go:195-210: len of both maps under their locks, range over both (382, 478) without, in
    goroutines of its own; then r.mapped is set. What it writes to the file is left out. It asks for the lengths more
    than once (lines 180-192, 223-247), later ones also while it walks; those are [QLenD] and [QLenM] of further
    goroutines. *)
Definition x_start : xprog := XDo g_len_dom (fun _ => XDo g_len_met (fun _ => XScan TDom (XMapped (XRet ROk)))).

(** The calls; the string of AddMetricByString has been parsed ([None]: no instances). *)
Inductive xcall :=
| QHasM (n : gostring) | QHasD (n : gostring) | QLenM | QLenD
| QReg (c : rcall)
| QByName (ip : nat) (name : gostring) (instances : list gostring)
| QByString (mp ip : nat) (name iname : gostring) (instances : option (list gostring)) (val : sarg) (t s u : Z) (order : list gostring)
| QStart.
Definition x_body (c : xcall) : xprog :=
  match c with
  | QHasM n => XDo (g_has_metric n as_bool) XRet
  | QHasD n => XDo (g_has_indom n as_bool) XRet
  | QLenM => XDo g_len_met XRet
  | QLenD => XDo g_len_dom XRet
  | QReg c => XHeap (fun hp => XDo (g_body hp c) XRet)
  | QByName ip name l => x_by_name ip name l (XRet ROk)
  | QByString mp ip name iname (Some l) val t s u order => x_instance mp ip name val iname l t s u order
  | QByString mp ip name iname None val t s u order => x_singleton mp name val t s u
  | QStart => x_start
  end.

(** One step of goroutine [i] on heap, registry and locks. *)
Definition xst := (heap * registry * (rlk -> lk))%type.
Inductive xnext (i : nat) : xprog -> xst -> xprog -> xst -> Prop :=
| xn_do p k hp r f p' r' f' : gnext i p r f = Some (p', r', f') -> xnext i (XDo p k) (hp, r, f) (XDo p' k) (hp, r', f')
| xn_done o k s : xnext i (XDo (GRet o) k) s (k o) s
| xn_get n k hp r f : xnext i (XGetD n k) (hp, r, f) (k (r_indoms r !! n)) (hp, r, f)
| xn_heap k hp r f : xnext i (XHeap k) (hp, r, f) (k hp) (hp, r, f)
| xn_newd ip d k hp r f : xnext i (XNewD ip d k) (hp, r, f) k (mkHeap (<[ip := d]> (h_indoms hp)) (h_metrics hp), r, f)
| xn_newm mp m k hp r f : xnext i (XNewM mp m k) (hp, r, f) k (mkHeap (h_indoms hp) (<[mp := m]> (h_metrics hp)), r, f)
| xn_scan x y k s : xnext i (XScan x k) s (XScan y k) s
| xn_scanned x k s : xnext i (XScan x k) s k s
| xn_mapped k hp r f : xnext i (XMapped k) (hp, r, f) k
    (hp, mkReg (r_indoms r) (r_metrics r) (r_instanceCount r) (r_valueCount r) (r_stringcount r) true (r_version2 r), f).

(** Goroutines making such calls on one registry. *)
Record xmach := mkXM { xm_st : xst; xm_thr : list (thr xcall xprog outcome) }.
Inductive xstep : xmach -> xmach -> Prop :=
| xs_call s ts i d c l : ts !! i = Some (mkThr d None (c :: l)) -> xstep (mkXM s ts) (mkXM s (<[i := mkThr d (Some (c, x_body c)) l]> ts))
| xs_step s ts i d c p l p' s' : ts !! i = Some (mkThr d (Some (c, p)) l) -> xnext i p s p' s' ->
    xstep (mkXM s ts) (mkXM s' (<[i := mkThr d (Some (c, p')) l]> ts))
| xs_ret s ts i d c o l : ts !! i = Some (mkThr d (Some (c, XRet o)) l) -> xstep (mkXM s ts) (mkXM s (<[i := mkThr (d ++ [(c, o)]) None l]> ts)).
Definition xm_start (hp : heap) (r : registry) (css : list (list xcall)) : xmach := mkXM (hp, r, fun _ => LkR ∅) ((fun l => mkThr [] None l) <$> css).

(** The access to a map a program makes next: which map, and whether it writes. *)
Definition r_access (p : rprog) : option (rmap * bool) :=
  match p with
  | GHasM _ _ => Some (TMet, false) | GPutM _ _ _ => Some (TMet, true)
  | GHasD _ _ => Some (TDom, false) | GPutD _ _ _ => Some (TDom, true)
  | _ => None
  end.
Definition x_access (p : xprog) : option (rmap * bool) :=
  match p with XDo p _ => r_access p | XGetD _ _ => Some (TDom, false) | XScan x _ => Some (x, false) | _ => None end.
(** Goroutine [i], executing call [c], is about to make such an access. *)
Definition accesses (m : xmach) (i : nat) (c : xcall) (x : rmap) (wr : bool) : Prop :=
  exists d p l, xm_thr m !! i = Some (mkThr d (Some (c, p)) l) /\ x_access p = Some (x, wr).
