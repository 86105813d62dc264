(** C56: the text mmvdump prints for the file of a running client.
    Specification vocabulary: View.v ([want_view]: the registered contents), Layout.v ([want_hdr]), TextView.v
    ([text_of]: the text of a view, section by section; [inst_label]: how an instance is named beside a value). *)
From Verif Require Import Base BaseFacts Floats GoVal MetricType ByteWriter Hash Units Indom Metrics Registry Prog
  Client Mmvdump Ileave ProgProofs Exec Events StartEvents BufFacts Tiling StartGood StartLayout StartFinal StartDone
  View Sections StartView RegInv Update World OpRuns RegFacts WorldInv Sync StartLive FloatFacts ValueFacts MetricFacts SyncLive SyncView OpFacts
  Crash Life Layout Example Witness DumpText TextFacts TextView TextShow TextWitness.

(** The text is that of the registered contents, except that values of metrics whose instance domain has identifier 0
    are printed without their instance. *)
Theorem C56_text_partial w cid c r gen pid w1 tr w2 : reachable w -> w_clients w !! cid = Some c -> w_regs w !! cl_reg c = Some r -> startable (w_heap w) r ->
  wstep w (CStart cid gen pid true) ROk w1 -> phist (fun w cl => keeps w cid cl) w1 tr w2 ->
  exists r' buf d out, w_regs w2 !! cl_reg c = Some r' /\ file_of w2 c = Some buf /\ Dump buf = DOk d /\ du_header d = want_hdr (w_heap w2) c r' gen pid /\ Write d = WOk out /\
    forall f32 f64, text_of f32 f64 (fun v => if bool_decide (vm_indom (vv_metric v) = 0) then [] else inst_label v) d (want_view (w_heap w2) r') (flatten f32 f64 out).
Proof.
  intros R Hc Hr Hs St H. destruct (start_hist _ _ _ _ _ _ _ _ _ R Hc Hr Hs St H) as (W2 & S2 & Hr2 & wr & Hc2).
  destruct (synced_text _ _ _ _ W2 S2) as (c' & r' & buf & d & out & H1 & H2 & H3 & H4 & H5 & _ & H6 & H7). rewrite Hc2 in H1. injection H1 as <-.
  cbn [cl_reg] in H2. rewrite Hr2 in H2. injection H2 as <-.
  exists (set_mapped r true), buf, d, out. split; [exact Hr2|]. split; [exact H3|]. split; [exact H4|]. split; [exact H5|]. split; [exact H6|].
  intros f32 f64. apply H7. intros v _. unfold printed_label. destruct (Z.eqb_spec (vm_indom (vv_metric v)) 0) as [E|E]; [by rewrite bool_decide_true|by rewrite bool_decide_false].
Qed.
(** If no registered instance domain has identifier 0, the text names the instance of every value. *)
Theorem C56_text_instances w cid c r gen pid w1 tr w2 : reachable w -> w_clients w !! cid = Some c -> w_regs w !! cl_reg c = Some r -> startable (w_heap w) r ->
  wstep w (CStart cid gen pid true) ROk w1 -> phist (fun w cl => keeps w cid cl) w1 tr w2 ->
  (forall n, is_Some (r_indoms r !! n) -> hash n PCPInstanceDomainBitLength <> 0) ->
  exists r' buf d out, w_regs w2 !! cl_reg c = Some r' /\ file_of w2 c = Some buf /\ Dump buf = DOk d /\ Write d = WOk out /\
    forall f32 f64, text_of f32 f64 inst_label d (want_view (w_heap w2) r') (flatten f32 f64 out).
Proof.
  intros R Hc Hr Hs St H HN. destruct (start_hist _ _ _ _ _ _ _ _ _ R Hc Hr Hs St H) as (W2 & S2 & Hr2 & wr & Hc2).
  destruct (synced_text _ _ _ _ W2 S2) as (c' & r' & buf & d & out & H1 & H2 & H3 & H4 & H5 & _ & H6 & H7). rewrite Hc2 in H1. injection H1 as <-.
  cbn [cl_reg] in H2. rewrite Hr2 in H2. injection H2 as <-.
  exists (set_mapped r true), buf, d, out. split; [exact Hr2|]. split; [exact H3|]. split; [exact H4|]. split; [exact H6|].
  intros f32 f64. apply H7. intros v Hv. unfold printed_label. destruct (Z.eqb_spec (vm_indom (vv_metric v)) 0) as [E|E]; [|reflexivity].
  exfalso.
  destruct (want_value_dom _ _ _ (wo_heap _ W2) (wo_regs _ W2 _ _ Hr2) Hv) as [E1|(n & Hn & E1)]; [lia|]. apply (HN n Hn). lia.
Qed.
(** A domain named "xtdev" has identifier 0: the text then contains the two values of the metric, but not which instance each belongs to. *)
Theorem C56_instance_refuted : exists w c r w1 buf d out,
  reachable w /\ w_clients w !! 0%nat = Some c /\ w_regs w !! cl_reg c = Some r /\ startable (w_heap w) r /\ wstep w (CStart 0 ex_gen ex_pid true) ROk w1 /\
  file_of w1 c = Some buf /\ Dump buf = DOk d /\ Write d = WOk out /\ length (v_values (want_view (w_heap w1) r)) = 2%nat /\
  forall v, v ∈ v_values (want_view (w_heap w1) r) -> vv_inst v <> None /\ forall f32 f64, ~ exists p q, flatten f32 f64 out = p ++ inst_label v ++ q.
Proof.
  destruct (dump_text_ok _ _ zd_text_ok) as (buf & d & out & Hb & Hd & Ho & Ht). destruct zd_values as [HL HV]. exists zd_w, wit_sc, zd_r, zd_s, buf, d, out.
  split; [exact zd_reachable|]. split; [exact zd_client|]. split; [exact zd_reg|]. split; [exact zd_startable|]. split; [exact zd_step|].
  split; [exact Hb|]. split; [exact Hd|]. split; [exact Ho|]. split; [exact HL|]. intros v Hv. rewrite forallb_forall in HV. specialize (HV v (proj1 (elem_of_list_In _ _) Hv)). cbv beta in HV.
  destruct (vv_inst v) as [i|] eqn:Ei; [|discriminate HV]. split; [congruence|]. intros f32 f64 (p & q & E). rewrite Ht in E. rewrite E, occursb_ok in HV. discriminate HV.
Qed.
Example C56_ex : reachable exw /\ startable (w_heap exw) exr /\ wstep exw (CStart 0 ex_gen ex_pid true) ROk exs /\ phist (fun w cl => keeps w 0 cl) exs [] exs /\
  (forall n, is_Some (r_indoms exr !! n) -> hash n PCPInstanceDomainBitLength <> 0) /\ hash (str "xtdev") PCPInstanceDomainBitLength = 0.
Proof.
  split; [exact exw_reachable|]. split; [exact exw_startable|]. split; [exact exs_step|]. split; [constructor|]. split; [|vm_compute; reflexivity].
  intros n [ip Hn]. apply elem_of_map_to_list in Hn. assert (Forall (fun x => hash x.1 PCPInstanceDomainBitLength <> 0) (map_to_list (r_indoms exr))) as F.
  - apply (forallb_Forall _ (fun x => negb (hash x.1 PCPInstanceDomainBitLength =? 0))); [intros x E0; lia|]. vm_cast_no_check (eq_refl true).
  - rewrite Forall_forall in F. exact (F _ Hn).
Qed.

Print Assumptions C56_text_partial.
Print Assumptions C56_text_instances.
Print Assumptions C56_instance_refuted.
