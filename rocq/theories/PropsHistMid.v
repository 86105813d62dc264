(** C69: the five values of a histogram while they are updated.
    Vocabulary: [complete_file], [cstep], [m_start], [call_ok], [mem_world] as in PropsMid.v. *)
From Verif Require Import Base BaseFacts Floats GoVal MetricType ByteWriter Hash Units Indom Metrics Registry Prog
  Client Mmvdump View RegInv World OpRuns RegFacts WorldInv Sync SyncView MetricFacts SyncLive OpFacts GaugeFacts VectorFacts Life Example
  Locks LocksExec Conc ConcRuns ConcFacts MidUpdate MidRun MidView PropsMid SamplesHist PropsHist.
From stdpp Require Import relations.
Local Open Scope Z_scope.

(** When Record or RecordN returns on a histogram of a started client it has succeeded if the library took the value, and the file is
    complete and shows the five statistics the library then reports. Missing: the same while the method runs. *)
Theorem C69_after_partial w cid gen pid c r mp m s mst o w' : reachable w -> synced w cid gen pid -> w_clients w !! cid = Some c -> w_regs w !! cl_reg c = Some r ->
  registered r mp -> h_metrics (w_heap w) !! mp = Some m -> m_kind m = MHistogram -> wstep w (CUpdate mp (OHRecord (Some s)) mst) o w' ->
  o = ROk /\ exists buf m' f, file_of w' c = Some buf /\ complete_file (w_heap w') c r gen pid buf /\ h_metrics (w_heap w') !! mp = Some m' /\
    shows_stats (Some s) f /\ forall i, i ∈ stat_names -> val_at m' (Some i) = Some (VF64 (f i)).
Proof.
  intros R Sy Hc Hr Reg Hm Hk St. pose proof (reachable_ok _ R) as W. pose proof (ho_metrics _ (wo_heap _ W) _ _ Hm) as Hok. pose proof (mo_kind _ _ Hok) as K. rewrite Hk in K.
  assert (phist (fun w cl => keeps w cid cl) w [(w, CUpdate mp (OHRecord (Some s)) mst, o)] w') as PH.
  { apply updates_keep. eapply ph_cons; [|exact St|apply ph_nil]. exists mp, (OHRecord (Some s)), mst. split; [done|exact I]. }
  destruct (keeps_hist _ _ _ _ _ _ _ _ W Sy Hc Hr PH) as (W' & Sy' & Hc' & Hr').
  destruct (synced_file _ _ _ _ W' Sy') as (c' & r' & buf & E1 & E2 & _ & Hf & _ & CF). assert (c' = c) as -> by congruence. assert (r' = r) as -> by congruence.
  inversion St as [| | | | | | | | | | | | | | |w0 mp0 op0 mst0 m0 o0 fs0 m' A1 A2 A3 A4]; subst. assert (m0 = m) as -> by congruence. clear A2. destruct A3 as (B1 & B2 & B3 & B4).
  pose proof (synced_live _ _ _ _ _ _ _ _ W Sy Hc Hr Reg Hm) as HL.
  assert (vec_like (w_heap w) 0 DoubleType m) as V. { split; [exact Hok|]. unfold m_indom. destruct (m_body m); [contradiction|]. destruct K as [K ->]. auto. }
  destruct (vec_body _ _ _ _ V) as [cells Hb].
  destruct (hist_update_live (w_heap w) histogramIndom (wo_hist _ W) (w_files w) m s V HL B3 B4) as (fs1 & m1 & E).
  { intros i. apply (SamplesRt.all_of (has_instance histogramIndom)). vm_compute. reflexivity. }
  assert (run_op (w_files w) (w_heap w) m (OHRecord (Some s)) = Some (ROk, fs1, m1)) as Hrun by (unfold run_op, with_dom; rewrite Hk, Hb, (wo_hist _ W); cbn; f_equal; exact E).
  assert (o = ROk /\ m' = m1) as [-> ->]. { rewrite Hrun in A4. destruct mst; injection A4 as <- <- <-; auto. }
  split; [done|]. pose proof (hist_update_ok (w_heap w) histogramIndom (wo_hist _ W) (w_files w) m s fs1 m1 V B3 B4 E) as G.
  exists buf, m1, (fun i => match val_at m1 (Some i) with Some (VF64 x) => x | _ => 0 end). split; [exact Hf|]. split; [exact CF|]. split; [cbn; apply lookup_insert|].
  assert (forall i z, stat_of s i = Some z -> same_double z (match val_at m1 (Some i) with Some (VF64 x) => x | _ => 0 end)) as Q.
  { intros i z Hz. destruct (G i z Hz) as (x & -> & Hs). destruct Hs as [->|[Hs|Hs]]; [by left|right; by left|right; by right]. }
  split; [cbn [shows_stats]; split_and!; apply Q; reflexivity|].
  intros i Hi. assert (exists z, stat_of s i = Some z) as [z Hz]; [|destruct (G i z Hz) as (x & -> & _); done].
  unfold stat_of. repeat (case_bool_decide; [eauto|]). exfalso. unfold stat_names in Hi. rewrite !elem_of_cons in Hi. rewrite elem_of_nil in Hi. tauto.
Qed.

(** It is not the case that a reader always sees the statistics of one recording, or even a minimum that is at most the maximum:
    while the first value, 5, is recorded the file shows the minimum 5 and the maximum 0. *)
Definition shows_stat (d : dump) (r : registry) (md : mdesc) (i : gostring) (v : Z) : Prop :=
  exists o x, du_values d !! o = Some x /\ res_value d x = Some (mkVV (want_metric (r_version2 r) md (Some histogramIndom)) (Some (want_inst (r_version2 r) histogramIndom (i, inst_id i))) (VF64 v)).
Definition five : hstats := mkStats 5 5 (f64_of_Z 5) 0.
Definition rec_five : mcall := MUpdate 7 (OHRecord (Some five)) false.
Definition rval2 (b : list byte) (o1 o2 : Z) : option (vvalue * vvalue) :=
  match rval b o1, rval b o2 with Some x, Some y => Some (x, y) | _, _ => None end.
Lemma rval2_shows w c r md i1 i2 v1 v2 b o1 o2 : file_of w c = Some b ->
  rval2 b o1 o2 = Some (mkVV (want_metric (r_version2 r) md (Some histogramIndom)) (Some (want_inst (r_version2 r) histogramIndom (i1, inst_id i1))) (VF64 v1),
                        mkVV (want_metric (r_version2 r) md (Some histogramIndom)) (Some (want_inst (r_version2 r) histogramIndom (i2, inst_id i2))) (VF64 v2)) ->
  exists buf d, file_of w c = Some buf /\ Dump buf = DOk d /\ shows_stat d r md i1 v1 /\ shows_stat d r md i2 v2.
Proof.
  unfold rval2, rval. intros Hf H. destruct (Dump b) as [d| | |] eqn:E; try discriminate. destruct (du_values d !! o1) as [x1|] eqn:E1; [|discriminate]. destruct (du_values d !! o2) as [x2|] eqn:E2; [|by destruct (res_value d x1)].
  destruct (res_value d x1) as [y1|] eqn:F1; [|discriminate]. destruct (res_value d x2) as [y2|] eqn:F2; [|discriminate]. injection H as -> ->.
  exists b, d. split; [exact Hf|]. split; [exact E|]. split; [by exists o1, x1|by exists o2, x2].
Qed.
Lemma exs_hist : exists m cells, h_metrics (w_heap exs) !! 7%nat = Some m /\ m_desc m = m_desc ex_hist.2 /\ m_kind m = MHistogram /\ live (w_files exs) m /\ vec_like (w_heap exs) 0 DoubleType m /\ m_body m = BInst 0 cells.
Proof.
  destruct (exs_metric 7 ex_hist.2) as (m' & Hm' & Ed & Ek & Ev & HL & HI); [apply ex_registered; vm_compute; reflexivity|rewrite exw_metric; reflexivity|].
  pose proof (reachable_ok _ exs_reachable) as W. pose proof (ho_metrics _ (wo_heap _ W) _ _ Hm') as Hok. assert (m_kind m' = MHistogram) as Hk by (rewrite Ek; reflexivity). pose proof (mo_kind _ _ Hok) as K. rewrite Hk in K.
  assert (vec_like (w_heap exs) 0 DoubleType m') as V. { split; [exact Hok|]. unfold m_indom. destruct (m_body m'); [contradiction|]. destruct K as [K ->]. auto. }
  destruct (vec_body _ _ _ _ V) as [cells Hb]. exists m', cells. auto 10.
Qed.
Theorem C69_together_refuted : exists w cid gen pid c r mp m s mm buf d lo hi, reachable w /\ synced w cid gen pid /\ w_clients w !! cid = Some c /\ w_regs w !! cl_reg c = Some r /\
  registered r mp /\ h_metrics (w_heap w) !! mp = Some m /\ m_kind m = MHistogram /\ hs_min s <= hs_max s /\ call_ok w [mp] (MUpdate mp (OHRecord (Some s)) false) /\
  rtc (cstep (w_heap w)) (m_start (world_mem w) [[MUpdate mp (OHRecord (Some s)) false]]) mm /\ file_of (mem_world w (mc_mem mm)) c = Some buf /\ Dump buf = DOk d /\
  shows_stat d r (m_desc m) (str "min") lo /\ shows_stat d r (m_desc m) (str "max") hi /\ f64_leb lo hi = false.
Proof.
  destruct exs_client as (c & Hc & Hl & Hr). destruct exs_hist as (m' & cells & Hm' & Ed & Ek & _ & _ & Hb).
  destruct (rval2_shows (mem_world exs (mc_mem (ex_at [[rec_five]] (replicate 12 0%nat)))) c (set_mapped exr true) (m_desc ex_hist.2) (str "min") (str "max") (f64_of_Z 5) 0
    (get [] (f_inodes (q_files (mc_mem (ex_at [[rec_five]] (replicate 12 0%nat)))) !! 0%nat)) 2152 2216) as (buf & d & Hf & Hd & S1 & S2).
  { eapply file_mem; [exact Hl|exact (proj1 exs_file)|]. apply get_some. vm_compute. reflexivity. }
  { vm_compute. reflexivity. }
  exists exs, 0%nat, ex_gen, ex_pid, c, (set_mapped exr true), 7%nat, m', five, (ex_at [[rec_five]] (replicate 12 0%nat)), buf, d, (f64_of_Z 5), 0. rewrite Ed.
  split_and!; [exact exs_reachable|exact exs_synced|exact Hc|exact Hr|apply reg_mapped, ex_registered; vm_compute; reflexivity|exact Hm'|exact Ek|cbv; discriminate| |apply ex_at_steps|exact Hf|exact Hd|exact S1|exact S2|vm_compute; reflexivity].
  split; [left|]. eexists m', _. split; [exact Hm'|]. split; [unfold prog_of; rewrite Ek, Hb, (wo_hist _ (reachable_ok _ exs_reachable)); reflexivity|]. split; vm_compute; intuition discriminate.
Qed.
(* the hypotheses of C69_after_partial hold for the same client and value *)
Example C69_ex : exists c r m w', w_clients exs !! 0%nat = Some c /\ w_regs exs !! cl_reg c = Some r /\ registered r 7 /\ h_metrics (w_heap exs) !! 7%nat = Some m /\ m_kind m = MHistogram /\
  wstep exs (CUpdate 7 (OHRecord (Some five)) false) ROk w'.
Proof.
  destruct exs_client as (c & Hc & Hl & Hr). destruct exs_hist as (m' & cells & Hm' & _ & Hk & HL & V & Hb). pose proof (reachable_ok _ exs_reachable) as W.
  destruct (hist_update_live (w_heap exs) histogramIndom (wo_hist _ W) (w_files exs) m' five V HL) as (fs1 & m1 & E); [vm_compute; intuition discriminate|vm_compute; intuition discriminate| |].
  { intros i. apply (SamplesRt.all_of (has_instance histogramIndom)). vm_compute. reflexivity. }
  assert (run_op (w_files exs) (w_heap exs) m' (OHRecord (Some five)) = Some (ROk, fs1, m1)) as Hrun by (unfold run_op, with_dom; rewrite Hk, Hb, (wo_hist _ W); cbn [fmap option_fmap option_map]; f_equal; exact E).
  eexists c, _, m', _. split_and!; [exact Hc|exact Hr|apply reg_mapped, ex_registered; vm_compute; reflexivity|exact Hm'|exact Hk|].
  eapply (ws_update exs 7 (OHRecord (Some five)) false m' ROk fs1 m1); [vm_compute; reflexivity|exact Hm'| |exact Hrun]. vm_compute. intuition discriminate.
Qed.

Print Assumptions C69_after_partial.
Print Assumptions C69_together_refuted.
