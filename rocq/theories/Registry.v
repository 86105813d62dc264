(** PCPRegistry: /repo/registry.go. Objects are referred to by pointers (nat) into
    heaps of instance domains and metrics. *)
From Verif Require Import Base GoVal MetricType Indom Metrics.

(** /repo/registry.go:46-70; the offset fields are recomputed by every Start and
    live in Client.v. *)
Record registry := mkReg {
  r_indoms : gmap gostring nat;
  r_metrics : gmap gostring nat;
  r_instanceCount : Z;
  r_valueCount : Z;
  r_stringcount : Z;
  r_mapped : bool;
  r_version2 : bool }.

(** NewPCPRegistry, /repo/registry.go:73-78. *)
Definition new_registry : registry := mkReg ∅ ∅ 0 0 0 false false.

(** Heaps of objects. *)
Record heap := mkHeap { h_indoms : gmap nat indom; h_metrics : gmap nat metric }.

(** Counts, /repo/registry.go:81-114. *)
Definition InstanceCount (r : registry) : Z := r_instanceCount r.
Definition InstanceDomainCount (r : registry) : Z := Z.of_nat (size (r_indoms r)).
Definition MetricCount (r : registry) : Z := Z.of_nat (size (r_metrics r)).
Definition ValuesCount (r : registry) : Z := r_valueCount r.
Definition StringCount (r : registry) : Z :=
  if r_version2 r then r_stringcount r + MetricCount r + InstanceCount r else r_stringcount r.

(** /repo/registry.go:117-132 *)
Definition HasInstanceDomain (r : registry) (n : gostring) : bool := bool_decide (is_Some (r_indoms r !! n)).
Definition HasMetric (r : registry) (n : gostring) : bool := bool_decide (is_Some (r_metrics r !! n)).

Definition b2z (b : bool) : Z := if b then 1 else 0.
Definition nonempty (s : gostring) : bool := bool_decide (s <> []).

(** Does any instance name need version 2 (/repo/registry.go:150-156)? *)
Definition has_long_instance (d : indom) : bool :=
  bool_decide (Exists (fun i => MaxV1NameLength < zlen i) (map_to_list (id_insts d)).*1).

(** AddInstanceDomain, /repo/registry.go:135-167. [None] = error (no effect). *)
Definition add_indom (r : registry) (ip : nat) (d : indom) : option registry :=
  if HasInstanceDomain r (id_name d) then None
  else if r_mapped r then None
  else Some (mkReg (<[id_name d := ip]> (r_indoms r)) (r_metrics r)
               (r_instanceCount r + instance_count d) (r_valueCount r)
               (r_stringcount r + b2z (nonempty (id_short d)) + b2z (nonempty (id_long d)))
               (r_mapped r) (r_version2 r || has_long_instance d)).

(** The instance domain of a metric, Indom(), /repo/metrics.go:594,1027. *)
Definition m_indom (m : metric) : option nat :=
  match m_body m with BSingle _ => None | BInst ip _ => Some ip end.

(** Number of values of a metric (/repo/registry.go:176-179). *)
Definition metric_values (dom : option indom) : Z :=
  match dom with Some d => instance_count d | None => 1 end.

(** addMetric, /repo/registry.go:169-193; [dom] is the object m.Indom() points to. *)
Definition add_metric_raw (r : registry) (mp : nat) (m : metric) (dom : option indom) : registry :=
  let n := metric_values dom in
  mkReg (r_indoms r) (<[md_name (m_desc m) := mp]> (r_metrics r))
    (r_instanceCount r) (r_valueCount r + n)
    (r_stringcount r + (if md_type (m_desc m) =? StringType then n else 0)
       + b2z (nonempty (md_short (m_desc m))) + b2z (nonempty (md_long (m_desc m))))
    (r_mapped r) (r_version2 r || (MaxV1NameLength <? zlen (md_name (m_desc m)))).

(** AddMetric, /repo/registry.go:196-220. Returns the registry afterwards and
    whether the call succeeded; [hp] resolves the domain pointer. *)
Definition add_metric (hp : heap) (r : registry) (mp : nat) (m : metric) : outcome * registry :=
  if r_mapped r then (RErr, r)
  else if HasMetric r (md_name (m_desc m)) then (RErr, r)
  else
    match m_indom m with
    | None => (ROk, add_metric_raw r mp m None)
    | Some ip =>
        match h_indoms hp !! ip with
        | None => (RPanic, r)
        | Some d =>
            if HasInstanceDomain r (id_name d) then (ROk, add_metric_raw r mp m (Some d))
            else match add_indom r ip d with
                 | None => (RErr, r)
                 | Some r' => (ROk, add_metric_raw r' mp m (Some d))
                 end
        end
    end.

(** AddInstanceDomainByName, /repo/registry.go:223-239: [ip] is the address of the
    newly created domain. *)
Definition add_indom_by_name (hp : heap) (r : registry) (ip : nat) (name : gostring) (instances : list gostring)
    : outcome * heap * registry :=
  if HasInstanceDomain r name then (RErr, hp, r)
  else match new_indom name instances [] with
       | None => (RErr, hp, r)
       | Some d =>
           match add_indom r ip d with
           | None => (RErr, hp, r)
           | Some r' => (ROk, mkHeap (<[ip := d]> (h_indoms hp)) (h_metrics hp), r')
           end
       end.

(** The value argument of AddMetricByString: a plain value or an Instances map
    (/repo/registry.go:287). *)
Inductive sarg := AVal (v : goval) | AInst (vals : gmap gostring goval).

(** addSingletonMetricByString, /repo/registry.go:271-283. [mp]: address of the new metric. *)
Definition add_singleton_by_string (hp : heap) (r : registry) (mp : nat) (name : gostring) (val : sarg)
    (t s u : Z) : outcome * heap * registry :=
  let v := match val with AVal v => v | AInst _ => VOther end in
  match NewPCPSingletonMetric v name t s u [] with
  | None => (RErr, hp, r)
  | Some m =>
      match add_metric hp r mp m with
      | (ROk, r') => (ROk, mkHeap (h_indoms hp) (<[mp := m]> (h_metrics hp)), r')
      | (o, r') => (o, hp, r')
      end
  end.

(** Second half of addInstanceMetricByString, /repo/registry.go:306-318. *)
Definition add_instance_with (hp : heap) (r : registry) (mp ip : nat) (name : gostring)
    (vals : gmap gostring goval) (t s u : Z) (order : list gostring) : outcome * heap * registry :=
  match h_indoms hp !! ip with
  | None => (RPanic, hp, r)
  | Some d =>
      match NewPCPInstanceMetric vals name ip d t s u [] order with
      | None => (RErr, hp, r)
      | Some m =>
          match add_metric hp r mp m with
          | (ROk, r') => (ROk, mkHeap (h_indoms hp) (<[mp := m]> (h_metrics hp)), r')
          | (o, r') => (o, hp, r')
          end
      end
  end.

(** addInstanceMetricByString, /repo/registry.go:285-319. *)
Definition add_instance_by_string (hp : heap) (r : registry) (mp ip : nat) (name : gostring) (val : sarg)
    (iname : gostring) (instances : list gostring) (t s u : Z) (order : list gostring)
    : outcome * heap * registry :=
  match val with
  | AVal _ => (RErr, hp, r)
  | AInst vals =>
      match r_indoms r !! iname with
      | None =>
          match add_indom_by_name hp r ip iname instances with
          | (ROk, hp', r') => add_instance_with hp' r' mp ip name vals t s u order
          | res => res
          end
      | Some ip' =>
          match h_indoms hp !! ip' with
          | None => (RPanic, hp, r)
          | Some d =>
              if match_instances d instances
              then add_instance_with hp r mp ip' name vals t s u order
              else (RErr, hp, r)
          end
      end
  end.
