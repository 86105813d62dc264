(** C57: constructors.
    Specification vocabulary (NewFacts.v): [acceptable name desc]: the name has 1 to 256 bytes and there are at most two
    descriptions; [described m name desc t s u]: [m] has this name, type, semantics and unit, the first of [desc] as its
    short and the second as its long description; [no_closures m]: no file is attached to [m]. *)
From Verif Require Import Base BaseFacts Floats GoVal MetricType ByteWriter Hash Units Indom Metrics Registry Prog
  Client View RegInv World OpRuns RegFacts WorldInv MetricFacts VectorFacts NewFacts Example.

Theorem C57_domain name insts desc :
  (is_Some (new_indom name insts desc) <-> name <> [] /\ (length desc <= 2)%nat /\ Forall (fun i => zlen i <= 256) insts) /\
  forall d, new_indom name insts desc = Some d -> id_name d = name /\ (id_short d, id_long d) = texts_of desc /\ forall n, is_Some (id_insts d !! n) <-> n ∈ insts.
Proof. split; [apply new_indom_iff|apply new_indom_spec]. Qed.
Theorem C57_singleton v name t s u desc :
  (is_Some (NewPCPSingletonMetric v name t s u desc) <-> acceptable name desc /\ IsCompatible t v = true) /\
  forall m, NewPCPSingletonMetric v name t s u desc = Some m -> described m name desc t s u /\ m_kind m = MSingleton /\ m_val m = Some (resolve t v) /\ no_closures m.
Proof. split; [exact (new_single_iff v name t s u desc MSingleton)|exact (fun m => new_single_described v name t s u desc MSingleton m)]. Qed.
Theorem C57_counter v name desc :
  (is_Some (NewPCPCounter v name desc) <-> acceptable name desc) /\
  forall m, NewPCPCounter v name desc = Some m -> described m name desc Int64Type CounterSemantics OneUnit /\ m_kind m = MCounter /\ m_val m = Some (VInt64 v) /\ no_closures m.
Proof.
  split; [|exact (fun m => new_single_described (VInt64 v) name Int64Type CounterSemantics OneUnit desc MCounter m)].
  etransitivity; [exact (new_single_iff (VInt64 v) name Int64Type CounterSemantics OneUnit desc MCounter)|]. split; [tauto|]. intros H. split; [exact H|reflexivity].
Qed.
Theorem C57_gauge v name desc :
  (is_Some (NewPCPGauge v name desc) <-> acceptable name desc) /\
  forall m, NewPCPGauge v name desc = Some m -> described m name desc DoubleType InstantSemantics OneUnit /\ m_kind m = MGauge /\ m_val m = Some (VF64 v) /\ no_closures m.
Proof.
  split; [|exact (fun m => new_single_described (VF64 v) name DoubleType InstantSemantics OneUnit desc MGauge m)].
  etransitivity; [exact (new_single_iff (VF64 v) name DoubleType InstantSemantics OneUnit desc MGauge)|]. split; [tauto|]. intros H. split; [exact H|]. cbn [IsCompatible]. unfold isCompatibleFloat. by destruct (_ && _).
Qed.
(** A new timer is stopped and shows 0. *)
Theorem C57_timer name u desc :
  (is_Some (NewPCPTimer name u desc) <-> acceptable name desc) /\
  forall m, NewPCPTimer name u desc = Some m -> described m name desc DoubleType DiscreteSemantics u /\ (exists t0, m_kind m = MTimer false t0) /\ m_val m = Some (VF64 0) /\ no_closures m.
Proof.
  split; [etransitivity; [exact (new_single_iff (VF64 0) name DoubleType DiscreteSemantics u desc (MTimer false 0))|]; split; [tauto|]; intros H; split; [exact H|reflexivity]|].
  intros m H. destruct (new_single_described (VF64 0) name DoubleType DiscreteSemantics u desc (MTimer false 0) m H) as (H1 & H2 & H3 & H4). eauto.
Qed.
(** When an instance metric is created, and its values: C19. *)
Theorem C57_instance (vals : gmap gostring goval) name ip d t s u desc ord m : ord ≡ₚ (map_to_list (id_insts d)).*1 ->
  NewPCPInstanceMetric vals name ip d t s u desc ord = Some m -> described m name desc t s u /\ m_kind m = MInstance /\ m_indom m = Some ip /\ no_closures m.
Proof. intros Ho H. destruct (inst_metric_spec vals name ip d t s u desc MInstance ord Ho) as [_ S]. destruct (S m H) as (H1 & H2 & H3 & _ & H5). auto. Qed.
(** Vectors create a domain named after the metric, with the keys of the map as instances. *)
Theorem C57_counter_vector vals name desc ip keys ord : keys ≡ₚ (map_to_list vals).*1 -> ord ≡ₚ keys ->
  (is_Some (NewPCPCounterVector vals name desc ip keys ord) <-> acceptable name desc /\ forall i, is_Some (vals !! i) -> zlen i <= 256) /\
  forall d m, NewPCPCounterVector vals name desc ip keys ord = Some (d, m) ->
    id_name d = name ++ str ".indom" /\ id_short d = [] /\ id_long d = [] /\ dom (id_insts d) = dom vals /\
    described m name desc Int64Type CounterSemantics OneUnit /\ m_kind m = MCounterVector /\ m_indom m = Some ip /\ (forall i, val_at m (Some i) = VInt64 <$> vals !! i) /\ no_closures m.
Proof.
  intros HK HO. destruct (generate_spec (VInt64 <$> vals) name keys ip Int64Type CounterSemantics OneUnit desc MCounterVector ord) as [S1 S2]; [|exact HO|].
  { rewrite HK, map_to_list_fmap. rewrite <- list_fmap_compose. reflexivity. } split.
  - etransitivity; [exact S1|]. split; intros [A1 A2]; (split; [exact A1|]).
    + intros i [v Hv]. apply (A2 i (VInt64 v)). by rewrite lookup_fmap, Hv.
    + intros i v Hv. rewrite lookup_fmap in Hv. destruct (vals !! i) as [z|] eqn:E; [|discriminate]. injection Hv as <-. split; [apply A2; eauto|reflexivity].
  - intros d m H. destruct (S2 d m H) as (H1 & H2 & H3 & H4 & H5 & H6 & H7 & H8 & H9). split_and!; auto; [by rewrite H4, dom_fmap_L|].
    intros i. rewrite H8, lookup_fmap. by destruct (vals !! i).
Qed.
Theorem C57_gauge_vector vals name desc ip keys ord : keys ≡ₚ (map_to_list vals).*1 -> ord ≡ₚ keys ->
  (is_Some (NewPCPGaugeVector vals name desc ip keys ord) <-> acceptable name desc /\ forall i, is_Some (vals !! i) -> zlen i <= 256) /\
  forall d m, NewPCPGaugeVector vals name desc ip keys ord = Some (d, m) ->
    id_name d = name ++ str ".indom" /\ id_short d = [] /\ id_long d = [] /\ dom (id_insts d) = dom vals /\
    described m name desc DoubleType InstantSemantics OneUnit /\ m_kind m = MGaugeVector /\ m_indom m = Some ip /\ (forall i, val_at m (Some i) = VF64 <$> vals !! i) /\ no_closures m.
Proof.
  intros HK HO. destruct (generate_spec (VF64 <$> vals) name keys ip DoubleType InstantSemantics OneUnit desc MGaugeVector ord) as [S1 S2]; [|exact HO|].
  { rewrite HK, map_to_list_fmap. rewrite <- list_fmap_compose. reflexivity. } split.
  - etransitivity; [exact S1|]. split; intros [A1 A2]; (split; [exact A1|]).
    + intros i [v Hv]. apply (A2 i (VF64 v)). by rewrite lookup_fmap, Hv.
    + intros i v Hv. rewrite lookup_fmap in Hv. destruct (vals !! i) as [z|] eqn:E; [|discriminate]. injection Hv as <-. split; [apply A2; eauto|]. cbn [IsCompatible]. unfold isCompatibleFloat. by destruct (_ && _).
  - intros d m H. destruct (S2 d m H) as (H1 & H2 & H3 & H4 & H5 & H6 & H7 & H8 & H9). split_and!; auto; [by rewrite H4, dom_fmap_L|].
    intros i. rewrite H8, lookup_fmap. by destruct (vals !! i).
Qed.
(** When a histogram is created, and its parameters: C22. All its statistics start as 0. *)
Theorem C57_histogram name low high sig u desc ip ord p m : ord ≡ₚ (map_to_list (id_insts histogramIndom)).*1 ->
  NewPCPHistogram name low high sig u desc ip histogramIndom ord = Some (p, m) ->
  described m name desc DoubleType InstantSemantics u /\ m_kind m = MHistogram /\ m_indom m = Some ip /\ no_closures m /\
  forall i, val_at m (Some i) = if bool_decide (i ∈ [str "min"; str "max"; str "mean"; str "variance"; str "standard_deviation"]) then Some (VF64 0) else None.
Proof.
  intros Ho H. unfold NewPCPHistogram in H. destruct (high <? low); [discriminate|].
  destruct (inst_metric_spec (list_to_map ((fun i => (i, VF64 f64_zero)) <$> histogramInstances)) name ip histogramIndom DoubleType InstantSemantics u desc MHistogram ord Ho) as [_ S].
  destruct (new_desc name DoubleType InstantSemantics u desc) as [ds|]; [|discriminate]. simpl in S. destruct (new_inst_body _ ip histogramIndom ds MHistogram ord) as [m0|]; [|discriminate].
  injection H as _ <-. destruct (S m0 eq_refl) as (H1 & H2 & H3 & H4 & H5). split_and!; auto. intros i. rewrite H4. clear. case_bool_decide as Hi.
  - repeat (apply elem_of_cons in Hi as [->|Hi]; [vm_compute; reflexivity|]). by apply elem_of_nil in Hi.
  - rewrite !lookup_insert_ne, lookup_empty; [reflexivity|..]; intros <-; apply Hi; set_solver.
Qed.
Example C57_ex : acceptable (str "req.count") [str "requests served"] /\ texts_of [str "requests served"] = (str "requests served", []) /\ is_Some (NewPCPCounter 7 (str "req.count") [str "requests served"]) /\
  NewPCPCounter 7 [] [] = None /\ NewPCPTimer (str "t") SecondUnit [str "a"; str "b"; str "c"] = None /\ NewPCPSingletonMetric (VInt 1) (str "s") StringType DiscreteSemantics OneUnit [] = None /\
  is_Some (NewPCPCounterVector {[str "a" := 5; str "b" := 1]} (str "disk.io") [] 1 ex_ab ex_ab) /\
  is_Some (NewPCPHistogram (str "latency") 0 1000 3 MillisecondUnit [] 0 histogramIndom (map_to_list (id_insts histogramIndom)).*1) /\
  (fun d => (id_short d, id_long d, (map_to_list (id_insts d)).*1)) <$> new_indom (str "d") [str "x"; str "x"] [str "one"; str "two"] = Some (str "one", str "two", [str "x"]).
Proof.
  split; [unfold acceptable, zlen; vm_compute; intuition (try discriminate; try lia)|]. split; [reflexivity|]. split; [vm_compute; eauto|]. split; [reflexivity|]. split; [reflexivity|]. split; [reflexivity|].
  split; [vm_compute; eauto|]. split; [vm_compute; eauto|]. vm_compute. reflexivity.
Qed.

Print Assumptions C57_domain.
Print Assumptions C57_singleton.
Print Assumptions C57_counter.
Print Assumptions C57_gauge.
Print Assumptions C57_timer.
Print Assumptions C57_instance.
Print Assumptions C57_counter_vector.
Print Assumptions C57_gauge_vector.
Print Assumptions C57_histogram.
