(** C15, C51: methods of metrics called from several goroutines; C39: registration from
    several goroutines; C38: methods called while Start runs.
    Vocabulary: [cstep hp] is one step of one goroutine (taking or releasing a lock, one
    read or write of a field, one byte written to the mapping), [m_start s css] has one
    goroutine for each list of calls in [css] and all locks free, [m_done m] says all
    calls have returned; [t_done] are the calls of a goroutine that have returned, with
    their results (Locks.v, Conc.v). [shist w h w'] is the same calls one after the
    other, each one step of the world (ConcFacts.v). *)
From Verif Require Import Base BaseFacts Floats GoVal MetricType ByteWriter Hash Units Indom Metrics Registry Prog
  Client View RegInv World OpRuns RegFacts WorldInv Sync MetricFacts SyncLive OpFacts Life Example
  Locks LocksFacts LocksLive LocksExec Conc ConcRuns SyncApart ConcFacts ConcLive RegConc RegConcFacts RegConcLive RegConcAny ConcWitness StartRace StartRaceFacts StartRaceExec.
From stdpp Require Import relations.
Local Open Scope Z_scope.

(** ** C15 *)
(** [inc_amount mp c]: what a call of Inc, Up or Val of the counter adds; [sum_inc]: the sum. *)
Theorem C15_no_lost_increment w mp m0 v0 css m : reachable w -> w_dead w = false -> h_metrics (w_heap w) !! mp = Some m0 -> m_kind m0 = MCounter ->
  val_at m0 None = Some (VInt64 v0) -> live (w_files w) m0 -> (forall l c, l ∈ css -> c ∈ l -> is_Some (inc_amount mp c)) ->
  rtc (cstep (w_heap w)) (m_start (world_mem w) css) m -> m_done m ->
  (exists m', q_metrics (mc_mem m) !! mp = Some m' /\ val_at m' None = Some (VInt64 (to_signed 64 (v0 + sum_inc mp (concat css))))) /\
  forall i th c r, mc_thr m !! i = Some th -> (c, r) ∈ t_done th -> r.1 = ROk.
Proof. intros R. apply inc_sum, reachable_ok, R. Qed.
(** Without overflow the sum is exact. *)
Theorem C15_exact w mp m0 v0 css m : reachable w -> w_dead w = false -> h_metrics (w_heap w) !! mp = Some m0 -> m_kind m0 = MCounter ->
  val_at m0 None = Some (VInt64 v0) -> live (w_files w) m0 -> (forall l c, l ∈ css -> c ∈ l -> is_Some (inc_amount mp c)) ->
  - 2 ^ 63 <= v0 + sum_inc mp (concat css) < 2 ^ 63 ->
  rtc (cstep (w_heap w)) (m_start (world_mem w) css) m -> m_done m ->
  exists m', q_metrics (mc_mem m) !! mp = Some m' /\ val_at m' None = Some (VInt64 (v0 + sum_inc mp (concat css))).
Proof.
  intros R D Hm Hk Hv L Hc B H HD. destruct (C15_no_lost_increment w mp m0 v0 css m R D Hm Hk Hv L Hc H HD) as [(m' & H1 & H2) _]. exists m'. split; [exact H1|].
  rewrite to_signed_id in H2; [exact H2|lia|]. unfold in_signed. change (64 - 1) with 63. lia.
Qed.
(** All the calls do return: no execution deadlocks, faults or goes on forever. *)
Theorem C15_all_return w mp m0 css m : reachable w -> h_metrics (w_heap w) !! mp = Some m0 -> m_kind m0 = MCounter -> live (w_files w) m0 ->
  (forall l c, l ∈ css -> c ∈ l -> is_Some (inc_amount mp c)) -> rtc (cstep (w_heap w)) (m_start (world_mem w) css) m ->
  (exists m', rtc (cstep (w_heap w)) m m' /\ m_done m') /\ Acc (flip (cstep (w_heap w))) m.
Proof.
  intros R Hm Hk L Hc H. apply (metrics_complete w [mp] (apart_one _ _ _)) with (css := css).
  - intros mp' m' Hin Hm'. apply elem_of_list_singleton in Hin as ->. assert (m' = m0) as -> by congruence. exact L.
  - intros l c Hl Hcl. destruct (Hc l c Hl Hcl) as [z Hz]. eapply inc_ok; eauto.
  - exact H.
Qed.
Definition ex_calls (mp : nat) : list (list mcall) := [[MUpdate mp (OCInc 5) false; MVal mp None]; [MUpdate mp OCUp false; MUpdate mp (OCInc 3) true]; [MVal mp None]].
Example C15_ex : exists m, rtc (cstep (w_heap exs)) (m_start (world_mem exs) (ex_calls 1)) m /\ m_done m /\
  exists m', q_metrics (mc_mem m) !! 1%nat = Some m' /\ val_at m' None = Some (VInt64 16).
Proof.
  destruct (exs_metric 1 ex_counter) as (m0 & Hm & Ed & Ek & Ev & HL & HI); [apply ex_registered; vm_compute; reflexivity|rewrite exw_metric; reflexivity|].
  assert (forall l c, l ∈ ex_calls 1 -> c ∈ l -> is_Some (inc_amount 1 c)) as Hc.
  { intros l c. unfold ex_calls. repeat setoid_rewrite elem_of_cons. setoid_rewrite elem_of_nil. intros [-> | [-> | [-> | []]]]; repeat rewrite elem_of_cons; rewrite elem_of_nil; intros H; destruct_or! H; subst; try done; vm_compute; eauto. }
  destruct (C15_all_return exs 1 m0 (ex_calls 1) _ exs_reachable Hm Ek HL Hc (rtc_refl _ _)) as [(m & H1 & H2) _]. exists m. split; [exact H1|]. split; [exact H2|].
  apply (C15_exact exs 1 m0 7 (ex_calls 1) m exs_reachable eq_refl Hm Ek (Ev None) HL Hc); [split; vm_compute; [discriminate|reflexivity]|exact H1|exact H2].
Qed.
(** The lock matters: were Inc to take the read lock, an increment could be lost. *)
Definition lone_counter : mem := mkMem {[1%nat := ex_counter]} (mkFiles ∅ ∅).
Definition lone_heap : heap := mkHeap ∅ {[1%nat := ex_counter]}.
Definition lone_next (o : option nat) : mprog -> mem -> option (mprog * mem) := match o with Some mp => qnext mp | None => fun _ _ => None end.
Example C15_lock_needed : exists m, rtc (mstep mc_obj (fun _ => true) (mc_enter lone_heap) (fun o p s p' s' => lone_next o p s = Some (p', s')) mc_ret)
    (m_start lone_counter [[MUpdate 1 (OCInc 5) false]; [MUpdate 1 (OCInc 3) false]]) m /\ m_done m /\
  exists m', q_metrics (mc_mem m) !! 1%nat = Some m' /\ val_at m' None = Some (VInt64 10).
Proof.
  set (sched := [0; 0; 1; 1; 0; 0; 0; 0; 0; 0; 0; 1; 1; 1; 1; 1; 1; 1; 1; 1; 1]%nat).
  exists (exec mc_obj (fun _ => true) (mc_enter lone_heap) lone_next mc_ret sched (m_start lone_counter [[MUpdate 1 (OCInc 5) false]; [MUpdate 1 (OCInc 3) false]])).
  split; [apply exec_steps|]. split; [apply all_done_sound; vm_compute; reflexivity|]. eexists. split; vm_compute; reflexivity.
Qed.

(** ** C51 *)
(** [call_ok w mps c]: the call is one a Go program can make (the metric exists and has
    the method) on a metric of [mps], and a string value given fits its slot (see C13).
    [apart]: the slots of different metrics of [mps] do not overlap. *)
Theorem C51_linearizable w mps css m1 m : reachable w -> w_dead w = false -> apart (w_files w) (h_metrics (w_heap w)) mps ->
  (forall l c, l ∈ css -> c ∈ l -> call_ok w mps c) ->
  rtc (cstep (w_heap w)) (m_start (world_mem w) css) m1 -> rtc (cstep (w_heap w)) m1 m -> m_done m ->
  exists h h', shist w (h ++ h') (mem_world w (mc_mem m)) /\ (h ++ h').*1.*2 ≡ₚ concat css /\ length (mc_thr m) = length css /\
    (forall i th, mc_thr m1 !! i = Some th -> calls_of i h = t_done th) /\
    forall i th, mc_thr m !! i = Some th -> css !! i = Some (t_done th).*1 /\ calls_of i (h ++ h') = t_done th.
Proof. intros R. apply metrics_linear, reachable_ok, R. Qed.
(** The metrics of a started client, with metrics that were never started. *)
Theorem C51_started_apart w cid gen pid c r mps : reachable w -> synced w cid gen pid -> w_clients w !! cid = Some c -> w_regs w !! cl_reg c = Some r ->
  (forall mp m, mp ∈ mps -> h_metrics (w_heap w) !! mp = Some m -> registered r mp \/ no_closures m) -> apart (w_files w) (h_metrics (w_heap w)) mps.
Proof. intros R. apply apart_synced, reachable_ok, R. Qed.
Theorem C51_all_return w mps css m : reachable w -> apart (w_files w) (h_metrics (w_heap w)) mps ->
  (forall mp m, mp ∈ mps -> h_metrics (w_heap w) !! mp = Some m -> live (w_files w) m) -> (forall l c, l ∈ css -> c ∈ l -> call_ok w mps c) ->
  rtc (cstep (w_heap w)) (m_start (world_mem w) css) m ->
  (exists m', rtc (cstep (w_heap w)) m m' /\ m_done m') /\ Acc (flip (cstep (w_heap w))) m.
Proof. intros R A L. by apply metrics_complete with (mps := mps). Qed.
Definition ex_calls2 : list (list mcall) :=
  [[MUpdate 1 (OCInc 5) false; MUpdate 3 (OGSet 0x4000000000000000) false]; [MUpdate 2 (OSet (VStr (str "world"))) false; MVal 1 None]; [MVal 2 None; MUpdate 2 (OSet (VInt 3)) true; MUpdate 1 OCUp false]].
Example C51_ex : apart (w_files exs) (h_metrics (w_heap exs)) [1; 2; 3]%nat /\ (forall l c, l ∈ ex_calls2 -> c ∈ l -> call_ok exs [1; 2; 3]%nat c) /\
  exists m, rtc (cstep (w_heap exs)) (m_start (world_mem exs) ex_calls2) m /\ m_done m.
Proof.
  destruct (exs_metric 1 ex_counter) as (m1 & Hm1 & Ed1 & Ek1 & _ & HL1 & HI1); [apply ex_registered; vm_compute; reflexivity|rewrite exw_metric; reflexivity|].
  destruct (exs_metric 2 ex_string) as (m2 & Hm2 & Ed2 & Ek2 & _ & HL2 & HI2); [apply ex_registered; vm_compute; reflexivity|rewrite exw_metric; reflexivity|].
  destruct (exs_metric 3 ex_gauge) as (m3 & Hm3 & Ed3 & Ek3 & _ & HL3 & HI3); [apply ex_registered; vm_compute; reflexivity|rewrite exw_metric; reflexivity|].
  change (m_kind ex_counter) with MCounter in Ek1. change (m_kind ex_string) with MSingleton in Ek2. change (m_kind ex_gauge) with MGauge in Ek3.
  destruct (start_step exw 0 exc exr ex_gen ex_pid exs exw_reachable exw_client exw_reg exw_startable exs_step) as (_ & _ & Hr & wr & Hcl).
  assert (apart (w_files exs) (h_metrics (w_heap exs)) [1; 2; 3]%nat) as A.
  { eapply C51_started_apart; [exact exs_reachable|exact exs_synced|exact Hcl|exact Hr|]. intros mp m Hin _. left.
    repeat setoid_rewrite elem_of_cons in Hin. rewrite elem_of_nil in Hin. destruct Hin as [-> | [-> | [-> | []]]]; (apply ex_registered; vm_compute; reflexivity). }
  assert (forall l c, l ∈ ex_calls2 -> c ∈ l -> call_ok exs [1; 2; 3]%nat c) as Hc.
  { clear - Hm1 Ek1 Hm2 Ek2 Hm3 Ek3. generalize dependent exs. intros w Hm1 Hm2 Hm3 l c. unfold ex_calls2. repeat setoid_rewrite elem_of_cons. setoid_rewrite elem_of_nil.
    intros [-> | [-> | [-> | []]]]; repeat rewrite elem_of_cons; rewrite elem_of_nil; intros H; destruct_or! H; subst; try done; cbn [call_ok]; repeat rewrite elem_of_cons; (split; [tauto|]);
    first [ by eexists | eexists _, _; split; [eassumption|]; unfold prog_of; rewrite ?Ek1, ?Ek2, ?Ek3; split; [reflexivity|]; split; cbv; intuition discriminate ]. }
  split; [exact A|]. split; [exact Hc|]. refine (proj1 (C51_all_return exs [1; 2; 3]%nat ex_calls2 _ exs_reachable A _ Hc (rtc_refl _ _))).
  intros mp m Hin Hm. repeat setoid_rewrite elem_of_cons in Hin. rewrite elem_of_nil in Hin. destruct Hin as [-> | [-> | [-> | []]]].
  - rewrite Hm1 in Hm. injection Hm as <-. exact HL1.
  - rewrite Hm2 in Hm. injection Hm as <-. exact HL2.
  - rewrite Hm3 in Hm. injection Hm as <-. exact HL3.
Qed.

(** ** C39 *)
(** [rstep hp] is one step of one goroutine calling AddMetric or AddInstanceDomain: a lock
    operation or one access to a field of the registry (RegConc.v). *)

(** Two goroutines registering one name: both succeed, and the count is wrong. *)
Theorem C39_same_name_refuted : exists w r0 m m1 m2, reachable w /\ w_regs w !! 0%nat = Some r0 /\ r_mapped r0 = false /\
  h_metrics (w_heap w) !! 1%nat = Some m1 /\ h_metrics (w_heap w) !! 2%nat = Some m2 /\ md_name (m_desc m1) = md_name (m_desc m2) /\
  rtc (rstep (w_heap w)) (rm_start r0 [[RegM 1]; [RegM 2]]) m /\ rm_done m /\ cw_results m = [[ROk]; [ROk]] /\
  MetricCount (rm_reg m) = 1 /\ ValuesCount (rm_reg m) = 2 /\ spec_values (w_heap w) (rm_reg m) = 1.
Proof.
  destruct (cw_run_ok 0 [[RegM 1]; [RegM 2]]) as [H1 H2]; [vm_compute; reflexivity|]. eexists cw, _, _, _, _. split; [exact cw_reachable|]. split; [exact cw_reg|]. split; [reflexivity|].
  split; [vm_compute; reflexivity|]. split; [vm_compute; reflexivity|]. split; [vm_compute; reflexivity|]. split; [exact H1|]. split; [exact H2|]. split_and!; vm_compute; reflexivity.
Qed.
(** Two metrics of one new domain: its instances and texts counted twice. *)
Theorem C39_domain_counted_twice_refuted : exists w r0 m m3 m4, reachable w /\ w_regs w !! 0%nat = Some r0 /\ r_mapped r0 = false /\
  h_metrics (w_heap w) !! 3%nat = Some m3 /\ h_metrics (w_heap w) !! 4%nat = Some m4 /\ md_name (m_desc m3) <> md_name (m_desc m4) /\ m_indom m3 = m_indom m4 /\
  rtc (rstep (w_heap w)) (rm_start r0 [[RegM 3]; [RegM 4]]) m /\ rm_done m /\ cw_results m = [[ROk]; [ROk]] /\
  InstanceCount (rm_reg m) = 4 /\ spec_instances (w_heap w) (rm_reg m) = 2 /\ r_stringcount (rm_reg m) = 2 /\ spec_texts (w_heap w) (rm_reg m) = 1.
Proof.
  destruct (cw_run_ok 0 [[RegM 3]; [RegM 4]]) as [H1 H2]; [vm_compute; reflexivity|]. eexists cw, _, _, _, _. split; [exact cw_reachable|]. split; [exact cw_reg|]. split; [reflexivity|].
  split; [vm_compute; reflexivity|]. split; [vm_compute; reflexivity|]. split; [vm_compute; congruence|]. split; [vm_compute; reflexivity|]. split; [exact H1|]. split; [exact H2|]. split_and!; vm_compute; reflexivity.
Qed.
(** The same calls, another interleaving: one of them fails, which happens in no sequential order. *)
Theorem C39_spurious_error_refuted : exists w r0 m, reachable w /\ w_regs w !! 0%nat = Some r0 /\
  rtc (rstep (w_heap w)) (rm_start r0 [[RegM 3]; [RegM 4]]) m /\ rm_done m /\ cw_results m = [[ROk]; [RErr]] /\
  forall mp mp', (mp, mp') = (3, 4)%nat \/ (mp, mp') = (4, 3)%nat -> forall o o' w1 w2, wstep w (CAddMetric 0 mp) o w1 -> wstep w1 (CAddMetric 0 mp') o' w2 -> o = ROk /\ o' = ROk.
Proof.
  destruct (cw_run_ok 4 [[RegM 3]; [RegM 4]]) as [H1 H2]; [vm_compute; reflexivity|]. eexists cw, _, _. split; [exact cw_reachable|]. split; [exact cw_reg|]. split; [exact H1|]. split; [exact H2|].
  split; [vm_compute; reflexivity|]. intros mp mp' Hmp o o' w1 w2 S1 S2.
  inversion S1 as [| | | |? ? ? r m0 ? r' Hd Hr Hm Ha| | | | | | | | | | |]; subst. inversion S2 as [| | | |? ? ? r2 m2 ? r2' Hd2 Hr2 Hm2 Ha2| | | | | | | | | | |]; subst.
  rewrite cw_reg in Hr. injection Hr as <-. cbn [set_regs w_regs w_heap] in Hr2, Hm2, Ha2. rewrite lookup_insert in Hr2. injection Hr2 as <-.
  destruct Hmp as [[= -> ->] | [= -> ->]]; vm_compute in Hm; injection Hm as <-; vm_compute in Hm2; injection Hm2 as <-; vm_compute in Ha; injection Ha as <- <-; vm_compute in Ha2; injection Ha2 as <- _; done.
Qed.
(** Strings counted under two different locks: an increment is lost although the names differ. *)
Theorem C39_string_count_refuted : exists w r0 m, reachable w /\ w_regs w !! 0%nat = Some r0 /\ r_mapped r0 = false /\
  rtc (rstep (w_heap w)) (rm_start r0 [[RegD 1]; [RegM 5]]) m /\ rm_done m /\ cw_results m = [[ROk]; [ROk]] /\
  r_stringcount (rm_reg m) = 1 /\ spec_texts (w_heap w) (rm_reg m) = 2.
Proof.
  destruct (cw_run_ok 0 [[RegD 1]; [RegM 5]]) as [H1 H2]; [vm_compute; reflexivity|]. eexists cw, _, _. split; [exact cw_reachable|]. split; [exact cw_reg|]. split; [reflexivity|].
  split; [exact H1|]. split; [exact H2|]. split_and!; vm_compute; reflexivity.
Qed.
(** Otherwise ([separate]: different calls bring in different names, and strings are
    brought in by new domains only or by new metrics only) all interleavings give the
    result of the calls made one after the other, in whatever order. *)
Theorem C39_sequential_partial w rid r0 css m : reachable w -> w_dead w = false -> w_regs w !! rid = Some r0 ->
  (forall l c, l ∈ css -> c ∈ l -> has_object (w_heap w) c) -> separate (w_heap w) r0 (concat css) ->
  rtc (rstep (w_heap w)) (rm_start r0 css) m -> rm_done m ->
  exists res : rcall -> outcome,
    length (rm_thr m) = length css /\ (forall i th, rm_thr m !! i = Some th -> css !! i = Some (t_done th).*1 /\ Forall (fun x => x.2 = res x.1) (t_done th)) /\
    forall cs, cs ≡ₚ concat css -> exists tr, hist w tr (set_regs w (<[rid := rm_reg m]> (w_regs w))) /\ map (fun x => (x.1.2, x.2)) tr = map (fun c => (reg_call rid c, res c)) cs.
Proof. intros R. apply concurrent_registration, reachable_ok, R. Qed.
Theorem C39_counts_partial w rid r0 css m : reachable w -> w_dead w = false -> w_regs w !! rid = Some r0 ->
  (forall l c, l ∈ css -> c ∈ l -> has_object (w_heap w) c) -> separate (w_heap w) r0 (concat css) ->
  rtc (rstep (w_heap w)) (rm_start r0 css) m -> rm_done m -> let hp := w_heap w in let r := rm_reg m in
  InstanceCount r = spec_instances hp r /\ ValuesCount r = spec_values hp r /\ r_stringcount r = spec_texts hp r /\ (r_version2 r = true <-> spec_long hp r).
Proof.
  intros R D Hr Ho Sep H Dn hp r. destruct (C39_sequential_partial w rid r0 css m R D Hr Ho Sep H Dn) as (res & _ & _ & K). destruct (K _ (reflexivity _)) as (tr & Hh & _).
  assert (reachable (set_regs w (<[rid := rm_reg m]> (w_regs w)))) as R' by by eapply hist_reachable.
  pose proof (wo_regs _ (reachable_ok _ R') rid r (lookup_insert _ _ _)) as Ok. split_and!; [apply (ro_ic _ _ Ok)|apply (ro_vc _ _ Ok)|apply (ro_sc _ _ Ok)|apply (ro_v2 _ _ Ok)].
Qed.
(** What holds in every interleaving, whatever the names and texts. [log]: all calls with
    their outcomes; [brings hp c ip]: the call registers domain [ip], or a metric of it.
    Nothing is lost or replaced; what is added comes from a successful call; a successful
    call's name was free and is registered in the end; a failed call's name (or the name of
    its metric's domain) is taken in the end or the client is mapped; the values counted are
    those of the successful calls; the file format fits the names. *)
Theorem C39_every_interleaving w rid r0 css m : reachable w -> w_regs w !! rid = Some r0 -> (forall l c, l ∈ css -> c ∈ l -> has_object (w_heap w) c) ->
  rtc (rstep (w_heap w)) (rm_start r0 css) m -> rm_done m -> let hp := w_heap w in let r := rm_reg m in let log := concat (t_done <$> rm_thr m) in
  (length (rm_thr m) = length css /\ forall i th, rm_thr m !! i = Some th -> css !! i = Some (t_done th).*1) /\
  (r_mapped r = r_mapped r0 /\ r_metrics r0 ⊆ r_metrics r /\ r_indoms r0 ⊆ r_indoms r) /\
  (forall n mp, r_metrics r !! n = Some mp -> r_metrics r0 !! n = Some mp \/ (RegM mp, ROk) ∈ log /\ exists mt, h_metrics hp !! mp = Some mt /\ md_name (m_desc mt) = n) /\
  (forall n ip, r_indoms r !! n = Some ip -> r_indoms r0 !! n = Some ip \/ (exists c, (c, ROk) ∈ log /\ brings hp c ip) /\ exists d, h_indoms hp !! ip = Some d /\ id_name d = n) /\
  (forall mp mt o, (RegM mp, o) ∈ log -> h_metrics hp !! mp = Some mt -> let n := md_name (m_desc mt) in
    o = ROk /\ r_mapped r0 = false /\ r_metrics r0 !! n = None /\ is_Some (r_metrics r !! n) /\ (forall d, metric_dom hp mt = Some d -> is_Some (r_indoms r !! id_name d)) \/
    o = RErr /\ (r_mapped r0 = true \/ is_Some (r_metrics r !! n) \/ exists d, metric_dom hp mt = Some d /\ r_indoms r0 !! id_name d = None /\ is_Some (r_indoms r !! id_name d))) /\
  (forall ip d o, (RegD ip, o) ∈ log -> h_indoms hp !! ip = Some d ->
    o = ROk /\ r_mapped r0 = false /\ r_indoms r0 !! id_name d = None /\ is_Some (r_indoms r !! id_name d) \/
    o = RErr /\ (r_mapped r0 = true \/ is_Some (r_indoms r !! id_name d))) /\
  ValuesCount r = ValuesCount r0 + sumZ (map (fun y => match y with (RegM mp, ROk) => match h_metrics hp !! mp with Some mt => n_values hp mt | None => 0 end | _ => 0 end) log) /\
  (spec_long hp r -> r_version2 r = true).
Proof. intros R Hr. apply concurrent_always; [apply (wo_heap _ (reachable_ok _ R))|eapply (wo_regs _ (reachable_ok _ R)), Hr]. Qed.
(** With different metric names (domains and texts may be shared), values are counted right. *)
Theorem C39_values w rid r0 css m : reachable w -> w_regs w !! rid = Some r0 -> (forall l c, l ∈ css -> c ∈ l -> has_object (w_heap w) c) ->
  NoDup (omap (fun c => match c with RegM mp => (fun mt => md_name (m_desc mt)) <$> h_metrics (w_heap w) !! mp | RegD _ => None end) (concat css)) ->
  rtc (rstep (w_heap w)) (rm_start r0 css) m -> rm_done m -> ValuesCount (rm_reg m) = spec_values (w_heap w) (rm_reg m).
Proof. intros R Hr. apply concurrent_values; [apply (wo_heap _ (reachable_ok _ R))|eapply (wo_regs _ (reachable_ok _ R)), Hr]. Qed.
(** The racing calls of C39_domain_counted_twice_refuted: different metrics of one new domain. *)
Example C39_ex_race : exists m, (forall l c, l ∈ [[RegM 3]; [RegM 4]] -> c ∈ l -> has_object (w_heap cw) c) /\
  NoDup (omap (fun c => match c with RegM mp => (fun mt => md_name (m_desc mt)) <$> h_metrics (w_heap cw) !! mp | RegD _ => None end) (concat [[RegM 3]; [RegM 4]])) /\
  rtc (rstep (w_heap cw)) (rm_start new_registry [[RegM 3]; [RegM 4]]) m /\ rm_done m /\ concat (t_done <$> rm_thr m) = [(RegM 3, ROk); (RegM 4, ROk)] /\ ValuesCount (rm_reg m) = 4.
Proof.
  destruct (cw_run_ok 0 [[RegM 3]; [RegM 4]]) as [H1 H2]; [vm_compute; reflexivity|]. eexists. split; [|split; [|split; [exact H1|split; [exact H2|split; vm_compute; reflexivity]]]].
  - intros l c. repeat setoid_rewrite elem_of_cons. setoid_rewrite elem_of_nil. intros [-> | [-> | []]]; repeat rewrite elem_of_cons; rewrite elem_of_nil; intros H; destruct_or! H; subst; try done; cbn [has_object]; eexists; vm_compute; reflexivity.
  - apply (bool_decide_eq_true_1 _). vm_compute. reflexivity.
Qed.
(** No deadlock and no endless execution, whatever the names. *)
Theorem C39_all_return hp r css m : rtc (rstep hp) (rm_start r css) m -> (exists m', rtc (rstep hp) m m' /\ rm_done m') /\ Acc (flip (rstep hp)) m.
Proof. apply registration_completes. Qed.
Example C39_ex : exists m, (forall l c, l ∈ [[RegM 1; RegM 6]; [RegM 5]] -> c ∈ l -> has_object (w_heap cw) c) /\ separate (w_heap cw) new_registry (concat [[RegM 1; RegM 6]; [RegM 5]]) /\
  rtc (rstep (w_heap cw)) (rm_start new_registry [[RegM 1; RegM 6]; [RegM 5]]) m /\ rm_done m /\ cw_results m = [[ROk; ROk]; [ROk]] /\ MetricCount (rm_reg m) = 3 /\ InstanceDomainCount (rm_reg m) = 1.
Proof.
  destruct (cw_run_ok 3 [[RegM 1; RegM 6]; [RegM 5]]) as [H1 H2]; [vm_compute; reflexivity|]. eexists. split; [|split; [|split; [exact H1|split; [exact H2|split_and!; vm_compute; reflexivity]]]].
  - intros l c. repeat setoid_rewrite elem_of_cons. setoid_rewrite elem_of_nil. intros [-> | [-> | []]]; repeat rewrite elem_of_cons; rewrite elem_of_nil; intros H; destruct_or! H; subst; try done; cbn [has_object]; eexists; vm_compute; reflexivity.
  - split; [apply (bool_decide_eq_true_1 _); vm_compute; reflexivity|apply (bool_decide_eq_true_1 _); vm_compute; reflexivity|left].
    intros c ip d. cbn [concat app]. repeat setoid_rewrite elem_of_cons. setoid_rewrite elem_of_nil. intros [-> | [-> | [-> | []]]] H; vm_compute in H; try discriminate; injection H as <- <-; split; reflexivity.
Qed.

(** ** C38 *)
(** [race_step hp wr]: one step of a goroutine calling methods, or of one of Start's
    goroutines for a value, which reads the value, writes its bytes through writer [wr]
    and installs the update closure (StartRace.v). [starting]: Start is about to write the
    values [ks] to a new file. [shows b off v]: the bytes at [off] are those of [v]. *)
(** A counter is incremented between the read and the installing: the file keeps the old
    value, also after a later Set of the same value. *)
Theorem C38_lost_update_refuted : exists w fs wr x b ks css r1 r m c b', reachable w /\ starting (w_heap w) fs wr x b ks /\ ks !! 0%nat = Some ((1%nat, None), 0) /\
  css = [[MUpdate 1 (OCInc 5) false; MUpdate 1 (OCSet 6) false]] /\
  rtc (race_step (w_heap w) wr) (race_start (mkMem (h_metrics (w_heap w)) fs) css ks) r1 /\
  Forall (fun g => exists v, s_st g = SFin v) (rc_g r1) /\ map (fun t => (t_todo t, map (fun y => y.2.1) (t_done t))) (mc_thr (rc_m r1)) = [([MUpdate 1 (OCSet 6) false], [ROk])] /\
  rtc (race_step (w_heap w) wr) r1 r /\ race_done r /\ map (fun t => map (fun y => y.2.1) (t_done t)) (mc_thr (rc_m r)) = [[ROk; ROk]] /\
  q_metrics (mc_mem (rc_m r)) !! 1%nat = Some m /\ cell_at m None = Some c /\ c_val c = VInt64 6 /\
  f_inodes (q_files (mc_mem (rc_m r))) !! wr_inode x = Some b' /\ shows b' 0 (VInt64 1) /\ ~ shows b' 0 (VInt64 6).
Proof.
  set (css := [[MUpdate 1 (OCInc 5) false; MUpdate 1 (OCSet 6) false]]). set (s1 := [inl 0%nat] ++ replicate 6 (inr 0%nat) ++ concat (replicate 40 [inl 0; inl 1; inl 2]%nat) : list (nat + nat)).
  set (s2 := replicate 40 (inr 0%nat) : list (nat + nat)).
  assert (forall sched r, rtc (race_step (w_heap cw) 0) r (race_exec false (w_heap cw) 0 sched r)) as X.
  { intros sched r. eapply (rtc_subrel); [|apply race_exec_steps]. intros a b [H _]. exact H. }
  eexists cw, rw_files, 0%nat, (mkWriter 0 true), (zeros 96), rw_ks, css, (rw_run false css s1), (race_exec false (w_heap cw) 0 s2 (rw_run false css s1)), _, _, _.
  split; [exact cw_reachable|]. split; [exact rw_starting|]. split; [reflexivity|]. split; [reflexivity|]. split; [apply X|].
  split; [|split; [vm_compute; reflexivity|split; [apply X|split; [apply race_doneb_sound; vm_compute; reflexivity|split; [vm_compute; reflexivity|]]]]].
  - assert (forallb (fun g => match s_st g with SFin _ => true | _ => false end) (rc_g (rw_run false css s1)) = true) as F by (vm_compute; reflexivity).
    apply Forall_forall. intros g Hg. rewrite forallb_forall in F. specialize (F g). rewrite <- elem_of_list_In in F. specialize (F Hg). destruct (s_st g); [done|done|eauto].
  - split; [vm_compute; reflexivity|]. split; [vm_compute; reflexivity|]. split; [vm_compute; reflexivity|]. split; [vm_compute; reflexivity|]. split.
    + eexists. split; vm_compute; reflexivity.
    + intros (d & Hd & H). vm_compute in Hd. apply (inj Some) in Hd as <-. vm_compute in H. congruence.
Qed.
(** In every interleaving the slot ends up with one of two values: the current one, or the
    one Start read. It is never torn and never anything else. *)
Theorem C38_one_of_two_partial w fs wr x b0 ks css r : reachable w -> (forall mp m, h_metrics (w_heap w) !! mp = Some m -> body_fits (m_body m)) -> starting (w_heap w) fs wr x b0 ks ->
  (forall l c, l ∈ css -> c ∈ l -> call_fine (w_heap w) c) ->
  rtc (race_step (w_heap w) wr) (race_start (mkMem (h_metrics (w_heap w)) fs) css ks) r -> race_done r ->
  forall j key off, ks !! j = Some (key, off) -> exists m c v b, q_metrics (mc_mem (rc_m r)) !! key.1 = Some m /\ cell_at m key.2 = Some c /\
    rc_g r !! j = Some (mkSgo key off (SFin v)) /\ f_inodes (q_files (mc_mem (rc_m r))) !! wr_inode x = Some b /\ (shows b off (c_val c) \/ shows b off v).
Proof.
  intros R F Hs Hc H HD j key off Hj. destruct (race_result false (w_heap w) fs wr x b0 ks css r (wo_heap _ (reachable_ok _ R)) F Hs Hc) with (j := j) (key := key) (off := off) as (m & c & v & b & H1 & H2 & H3 & H4 & H5); auto.
  - eapply rtc_subrel; [|exact H]. intros a a' Ha. split; [exact Ha|]. discriminate.
  - exists m, c, v, b. split_and!; auto. tauto.
Qed.
(** If no call holds the metric's lock for writing while one of Start's goroutines is
    between the two accesses, the file holds the current values: the property. *)
Theorem C38_quiet_partial w fs wr x b0 ks css r : reachable w -> (forall mp m, h_metrics (w_heap w) !! mp = Some m -> body_fits (m_body m)) -> starting (w_heap w) fs wr x b0 ks ->
  (forall l c, l ∈ css -> c ∈ l -> call_fine (w_heap w) c) ->
  rtc (fun a a' => race_step (w_heap w) wr a a' /\ quiet a /\ quiet a') (race_start (mkMem (h_metrics (w_heap w)) fs) css ks) r -> race_done r ->
  forall j key off, ks !! j = Some (key, off) -> exists m c b, q_metrics (mc_mem (rc_m r)) !! key.1 = Some m /\ cell_at m key.2 = Some c /\
    f_inodes (q_files (mc_mem (rc_m r))) !! wr_inode x = Some b /\ shows b off (c_val c).
Proof.
  intros R F Hs Hc H HD j key off Hj. destruct (race_result true (w_heap w) fs wr x b0 ks css r (wo_heap _ (reachable_ok _ R)) F Hs Hc) with (j := j) (key := key) (off := off) as (m & c & v & b & H1 & H2 & H3 & H4 & H5); auto.
  - eapply rtc_subrel; [|exact H]. intros a a' [Ha Hq]. split; [exact Ha|]. auto.
  - exists m, c, b. split_and!; auto. destruct H5 as [H5|[H5 _]]; [exact H5|discriminate].
Qed.
Definition ex_calls3 : list (list mcall) := [[MUpdate 1 (OCInc 5) false; MUpdate 1 (OCSet 6) false]; [MUpdate 3 (OISet (VInt 9) (str "a")) false; MVal 1 None]].
Example C38_ex : (forall mp m, h_metrics (w_heap cw) !! mp = Some m -> body_fits (m_body m)) /\ starting (w_heap cw) rw_files 0 (mkWriter 0 true) (zeros 96) rw_ks /\
  (forall l c, l ∈ ex_calls3 -> c ∈ l -> call_fine (w_heap cw) c) /\
  exists r, rtc (fun a a' => race_step (w_heap cw) 0 a a' /\ quiet a /\ quiet a') (rw_start ex_calls3) r /\ race_done r /\ rw_seen r = (Some (VInt64 6), Some "006"%byte).
Proof.
  split; [intros mp m Hm; apply (cw_fresh mp m Hm)|]. split; [exact rw_starting|]. split.
  - intros l c. unfold ex_calls3. rewrite !elem_of_cons, elem_of_nil. intros [-> | [-> | []]]; rewrite !elem_of_cons, elem_of_nil; (intros [-> | [-> | []]]); cbn [call_fine].
    + eexists _, _. split; [vm_compute; reflexivity|]. split; [reflexivity|exact I].
    + eexists _, _. split; [vm_compute; reflexivity|]. split; [reflexivity|exact I].
    + eexists _, _. split; [vm_compute; reflexivity|]. split; [vm_compute; reflexivity|exact I].
    + eexists. vm_compute. reflexivity.
  - exists (rw_run true ex_calls3 (concat (replicate 60 [inl 0; inl 1; inl 2; inr 0; inr 1]%nat))). split; [|split; [apply race_doneb_sound; vm_compute; reflexivity|vm_compute; reflexivity]].
    eapply rtc_subrel; [|apply race_exec_steps]. intros a a' [H1 H2]. split; [exact H1|]. by apply H2.
Qed.

Print Assumptions C15_no_lost_increment.
Print Assumptions C15_exact.
Print Assumptions C15_all_return.
Print Assumptions C51_linearizable.
Print Assumptions C51_started_apart.
Print Assumptions C51_all_return.
Print Assumptions C39_same_name_refuted.
Print Assumptions C39_domain_counted_twice_refuted.
Print Assumptions C39_spurious_error_refuted.
Print Assumptions C39_string_count_refuted.
Print Assumptions C39_sequential_partial.
Print Assumptions C39_counts_partial.
Print Assumptions C39_every_interleaving.
Print Assumptions C39_values.
Print Assumptions C39_all_return.
Print Assumptions C38_lost_update_refuted.
Print Assumptions C38_one_of_two_partial.
Print Assumptions C38_quiet_partial.
