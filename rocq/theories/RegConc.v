(** AddMetric and AddInstanceDomain called from several goroutines: the accesses to the
    registry's fields one by one, and its two locks (/repo/registry.go:46-70, 117-220).
    Registry.v has the same methods as single steps. Start is not called meanwhile;
    accesses to one field are atomic and in order (where two of them race, Go promises
    less). *)
From Verif Require Import Base GoVal MetricType Indom Metrics Registry Locks.
Local Open Scope Z_scope.

(** r.indomlock, r.metricslock *)
Inductive rlk := KDom | KMet.
Global Instance rlk_eq_dec : EqDecision rlk.
Proof. solve_decision. Defined.
(** r.instanceCount, r.valueCount, r.stringcount *)
Inductive rcnt := NInst | NVal | NStr.
Global Instance rcnt_eq_dec : EqDecision rcnt.
Proof. solve_decision. Defined.

Definition cnt (c : rcnt) (r : registry) : Z := match c with NInst => r_instanceCount r | NVal => r_valueCount r | NStr => r_stringcount r end.
Definition set_cnt (c : rcnt) (z : Z) (r : registry) : registry :=
  match c with
  | NInst => mkReg (r_indoms r) (r_metrics r) z (r_valueCount r) (r_stringcount r) (r_mapped r) (r_version2 r)
  | NVal => mkReg (r_indoms r) (r_metrics r) (r_instanceCount r) z (r_stringcount r) (r_mapped r) (r_version2 r)
  | NStr => mkReg (r_indoms r) (r_metrics r) (r_instanceCount r) (r_valueCount r) z (r_mapped r) (r_version2 r)
  end.
Definition put_dom (n : gostring) (ip : nat) (r : registry) : registry :=
  mkReg (<[n := ip]> (r_indoms r)) (r_metrics r) (r_instanceCount r) (r_valueCount r) (r_stringcount r) (r_mapped r) (r_version2 r).
Definition put_met (n : gostring) (mp : nat) (r : registry) : registry :=
  mkReg (r_indoms r) (<[n := mp]> (r_metrics r)) (r_instanceCount r) (r_valueCount r) (r_stringcount r) (r_mapped r) (r_version2 r).
Definition set_v2 (r : registry) : registry :=
  mkReg (r_indoms r) (r_metrics r) (r_instanceCount r) (r_valueCount r) (r_stringcount r) (r_mapped r) true.

Inductive rprog :=
| GRet (o : outcome)
| GLock (x : rlk) (k : rprog) | GUnlock (x : rlk) (k : rprog)
| GRLock (x : rlk) (k : rprog) | GRUnlock (x : rlk) (k : rprog)
| GMapped (k : bool -> rprog)                 (* read r.mapped *)
| GHasM (n : gostring) (k : bool -> rprog)    (* n in r.metrics *)
| GHasD (n : gostring) (k : bool -> rprog)    (* n in r.instanceDomains *)
| GPutM (n : gostring) (mp : nat) (k : rprog) (* r.metrics[n] = mp *)
| GPutD (n : gostring) (ip : nat) (k : rprog) (* r.instanceDomains[n] = ip *)
| GAdd (c : rcnt) (z : Z) (k : rprog)         (* c += z: reads c, continues as [GSet c (c + z)] *)
| GSet (c : rcnt) (v : Z) (k : rprog)
| GV2 (k : bool -> rprog)                     (* read r.version2 *)
| GSetV2 (k : rprog).                         (* r.version2 = true *)

(** One step of goroutine [i]; [None]: it has to wait for a lock, or has returned. *)
Definition gnext (i : nat) (p : rprog) (r : registry) (f : rlk -> lk) : option (rprog * registry * (rlk -> lk)) :=
  match p with
  | GRet _ => None
  | GLock x k => match f x with LkR X => if decide (X = ∅) then Some (k, r, set_lock f x (LkW i)) else None | LkW _ => None end
  | GUnlock x k => Some (k, r, set_lock f x (LkR ∅))
  | GRLock x k => match f x with LkR X => Some (k, r, set_lock f x (LkR ({[i]} ∪ X))) | LkW _ => None end
  | GRUnlock x k => match f x with LkR X => Some (k, r, set_lock f x (LkR (X ∖ {[i]}))) | LkW _ => None end
  | GMapped k => Some (k (r_mapped r), r, f)
  | GHasM n k => Some (k (HasMetric r n), r, f)
  | GHasD n k => Some (k (HasInstanceDomain r n), r, f)
  | GPutM n mp k => Some (k, put_met n mp r, f)
  | GPutD n ip k => Some (k, put_dom n ip r, f)
  | GAdd c z k => Some (GSet c (cnt c r + z) k, r, f)
  | GSet c v k => Some (k, set_cnt c v r, f)
  | GV2 k => Some (k (r_version2 r), r, f)
  | GSetV2 k => Some (k, set_v2 r, f)
  end.

Definition g_text (s : gostring) (k : rprog) : rprog := if nonempty s then GAdd NStr 1 k else k.
(** [if long && !r.version2 { r.version2 = true }]; the loop over the instances repeats
    the assignment for every long name, here it is made once. *)
Definition g_v2 (long : bool) (k : rprog) : rprog := GV2 (fun b => if negb b && long then GSetV2 k else k).

(** HasMetric, HasInstanceDomain, /repo/registry.go:117-132. *)
Definition g_has_metric (n : gostring) (k : bool -> rprog) : rprog := GRLock KMet (GHasM n (fun b => GRUnlock KMet (k b))).
Definition g_has_indom (n : gostring) (k : bool -> rprog) : rprog := GRLock KDom (GHasD n (fun b => GRUnlock KDom (k b))).

(** AddInstanceDomain, /repo/registry.go:135-167; [kok]/[kerr]: what the caller does next. *)
Definition g_add_indom (ip : nat) (d : indom) (kok kerr : rprog) : rprog :=
  g_has_indom (id_name d) (fun b => if b then kerr else
    GLock KDom (GMapped (fun b => if b then GUnlock KDom kerr else
      GPutD (id_name d) ip (GAdd NInst (instance_count d) (g_v2 (has_long_instance d)
        (g_text (id_short d) (g_text (id_long d) (GUnlock KDom kok)))))))).

(** addMetric and its caller's lock, /repo/registry.go:169-193, 215-219. *)
Definition g_add_raw (mp : nat) (m : metric) (dom : option indom) : rprog :=
  let e := m_desc m in
  GLock KMet (GPutM (md_name e) mp (g_v2 (MaxV1NameLength <? zlen (md_name e)) (GAdd NVal (metric_values dom)
    (let k := g_text (md_short e) (g_text (md_long e) (GUnlock KMet (GRet ROk))) in
     if md_type e =? StringType then GAdd NStr (metric_values dom) k else k)))).

(** AddMetric, /repo/registry.go:196-220. *)
Definition g_add_metric (hp : heap) (mp : nat) (m : metric) : rprog :=
  GMapped (fun b => if b then GRet RErr else
    g_has_metric (md_name (m_desc m)) (fun b => if b then GRet RErr else
      match m_indom m with
      | None => g_add_raw mp m None
      | Some ip =>
          match h_indoms hp !! ip with
          | None => GRet RPanic
          | Some d => g_has_indom (id_name d) (fun b => if b then g_add_raw mp m (Some d) else g_add_indom ip d (g_add_raw mp m (Some d)) (GRet RErr))
          end
      end)).

(** Calls, by address of the object to add. *)
Inductive rcall := RegM (mp : nat) | RegD (ip : nat).
Definition g_body (hp : heap) (c : rcall) : rprog :=
  match c with
  | RegM mp => match h_metrics hp !! mp with Some m => g_add_metric hp mp m | None => GRet RPanic end
  | RegD ip => match h_indoms hp !! ip with Some d => g_add_indom ip d (GRet ROk) (GRet RErr) | None => GRet RPanic end
  end.

(** Goroutines making such calls on one registry. *)
Record rmach := mkRM { rm_reg : registry; rm_locks : rlk -> lk; rm_thr : list (thr rcall rprog outcome) }.

Inductive rstep (hp : heap) : rmach -> rmach -> Prop :=
| rs_call r f ts i d c l : ts !! i = Some (mkThr d None (c :: l)) ->
    rstep hp (mkRM r f ts) (mkRM r f (<[i := mkThr d (Some (c, g_body hp c)) l]> ts))
| rs_step r f ts i d c p l p' r' f' : ts !! i = Some (mkThr d (Some (c, p)) l) -> gnext i p r f = Some (p', r', f') ->
    rstep hp (mkRM r f ts) (mkRM r' f' (<[i := mkThr d (Some (c, p')) l]> ts))
| rs_ret r f ts i d c o l : ts !! i = Some (mkThr d (Some (c, GRet o)) l) ->
    rstep hp (mkRM r f ts) (mkRM r f (<[i := mkThr (d ++ [(c, o)]) None l]> ts)).

Definition rm_start (r : registry) (css : list (list rcall)) : rmach := mkRM r (fun _ => LkR ∅) ((fun l => mkThr [] None l) <$> css).
Definition rm_done (m : rmach) : Prop := forall i t, rm_thr m !! i = Some t -> t_cur t = None /\ t_todo t = [].

(** For concrete executions: goroutines take steps in the order of a list. *)
Definition rexec1 (hp : heap) (i : nat) (m : rmach) : option rmach :=
  match rm_thr m !! i with
  | Some (mkThr d None (c :: l)) => Some (mkRM (rm_reg m) (rm_locks m) (<[i := mkThr d (Some (c, g_body hp c)) l]> (rm_thr m)))
  | Some (mkThr d (Some (c, GRet o)) l) => Some (mkRM (rm_reg m) (rm_locks m) (<[i := mkThr (d ++ [(c, o)]) None l]> (rm_thr m)))
  | Some (mkThr d (Some (c, p)) l) =>
      match gnext i p (rm_reg m) (rm_locks m) with
      | Some (p', r', f') => Some (mkRM r' f' (<[i := mkThr d (Some (c, p')) l]> (rm_thr m)))
      | None => None
      end
  | _ => None
  end.
Fixpoint rexec (hp : heap) (sched : list nat) (m : rmach) : rmach :=
  match sched with [] => m | i :: l => rexec hp l (default m (rexec1 hp i m)) end.
