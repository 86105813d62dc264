(** Instances and instance domains: /repo/instance.go, /repo/instance_domain.go. *)
From Verif Require Import Base Hash.

(** /repo/client.go:16-33 *)
Definition StringLength : Z := 256.
Definition MaxV1NameLength : Z := 63.

(** PCPInstanceDomain, /repo/instance_domain.go:25-30. The map from instance names
    to pcpInstance (/repo/instance.go:16-20) keeps the instance id; the mutable
    [offset] field of an instance lives in the world (Client.v, Lifecycle.v),
    because several metrics share it. *)
Record indom := mkIndom {
  id_id : Z;
  id_name : gostring;
  id_insts : gmap gostring Z;
  id_short : gostring;
  id_long : gostring }.

(** First and second optional description, /repo/instance_domain.go:45-54,
    /repo/metrics.go:492-500. *)
Definition desc_short (d : list gostring) : gostring := nth 0 d [].
Definition desc_long (d : list gostring) : gostring := nth 1 d [].

(** newpcpInstance, /repo/instance.go:27-31. *)
Definition inst_id (name : gostring) : Z := hash name 0.

(** The loop of /repo/instance_domain.go:58-64; [None] = error. *)
Fixpoint add_instances (m : gmap gostring Z) (l : list gostring) : option (gmap gostring Z) :=
  match l with
  | [] => Some m
  | i :: l => if StringLength <? zlen i then None else add_instances (<[i := inst_id i]> m) l
  end.

(** NewPCPInstanceDomain, /repo/instance_domain.go:36-72. *)
Definition new_indom (name : gostring) (instances : list gostring) (desc : list gostring) : option indom :=
  if bool_decide (name = []) then None
  else if 2 <? zlen desc then None
  else match add_instances ∅ instances with
       | None => None
       | Some m => Some (mkIndom (hash name PCPInstanceDomainBitLength) name m
                           (desc_short desc) (desc_long desc))
       end.

(** HasInstance / InstanceCount, /repo/instance_domain.go:75-90. *)
Definition has_instance (d : indom) (i : gostring) : bool := bool_decide (is_Some (id_insts d !! i)).
Definition instance_count (d : indom) : Z := Z.of_nat (size (id_insts d)).

(** MatchInstances, /repo/instance_domain.go:103-115. *)
Definition match_instances (d : indom) (ins : list gostring) : bool :=
  (zlen ins =? instance_count d) && forallb (has_instance d) ins.

(** /repo/speed.go:22 *)
Definition histogramInstances : list gostring :=
  [str "min"; str "max"; str "mean"; str "variance"; str "standard_deviation"].
