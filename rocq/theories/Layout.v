(** The sections of a complete file as the table of contents describes them. *)
From Verif Require Import Base BaseFacts Floats GoVal MetricType ByteWriter Hash Units Indom Metrics Registry Prog
  Client Mmvdump Ileave ProgProofs Events StartEvents BufFacts Tiling StartGood StartLayout StartFinal StartDone
  View Sections StartView RegInv Update World OpRuns RegFacts WorldInv Sync FloatFacts ValueFacts MetricFacts SyncLive SyncView.

(** ** Specification *)
(** Bytes per record of a section, mmv(5). *)
Definition rec_len (ver t : Z) : Z :=
  if t =? 1 then 32 else if t =? 2 then (if ver =? 1 then 80 else 24) else if t =? 3 then (if ver =? 1 then 104 else 48)
  else if t =? 4 then 32 else if t =? 5 then 256 else 0.
(** (start, length) of the header, the table of contents and the sections it lists, in order. *)
Definition regions (d : dump) : list (Z * Z) :=
  (0, 40) :: (40, 16 * zlen (du_tocs d)) ::
  map (fun t => (tc_offset t, tc_count t * rec_len (hd_version (du_header d)) (tc_type t))) (du_tocs d).
(** Each non-empty region starts where the previous one ends, the last one ends at [len]. *)
Fixpoint adjacent (b : Z) (l : list (Z * Z)) (len : Z) : Prop :=
  match l with
  | [] => b = len
  | (o, n) :: l => 0 <= n /\ (0 < n -> o = b) /\ adjacent (b + n) l len
  end.
Definition laid_out (buf : list byte) : Prop :=
  exists d, Dump buf = DOk d /\ adjacent 0 (regions d) (zlen buf).

Lemma adjacent_app a : forall b l2 len m, adjacent b a m -> adjacent m l2 len -> adjacent b (a ++ l2) len.
Proof. induction a as [|[o n] a IH]; intros b l2 len m H1 H2; cbn in *; [by subst|]. destruct H1 as (A & B & C). eauto. Qed.

Lemma regions_ok k pl ad am buf : image k pl ad am buf -> plan_wf (k_reg k) pl -> plan_ranges (k_reg k) pl ->
  adjacent 0 (regions (want_dump k buf)) (zlen buf).
Proof.
  intros Him Hwf Hrg. rewrite (im_len _ _ _ _ _ Him). set (r := k_reg k).
  pose proof (counts_nonneg k pl Hwf) as (I1 & I2 & I3 & I4 & I5). fold r in I1, I2, I3, I4, I5.
  assert (zlen (du_tocs (want_dump k buf)) = tocCount r) as HT.
  { cbn [want_dump du_tocs]. unfold zlen. rewrite map_length.
    apply toc_entries_length; (apply (pf_guard _ _ (pw_fit _ _ Hwf)) || apply (plan_ic_idc _ _ (pw_fit _ _ Hwf))). }
  unfold regions. rewrite HT. change (hd_version (du_header (want_dump k buf))) with (if r_version2 r then 2 else 1).
  cbn [want_dump du_tocs]. fold r. cbn [adjacent]. split; [lia|]. split; [lia|].
  pose proof (tocCount_small k) as HS. fold r in HS.
  split; [lia|]. split; [lia|]. rewrite map_map. unfold toc_entries. rewrite !map_app.
  assert (InstanceLength r = rec_len (if r_version2 r then 2 else 1) 2) as E2 by (unfold InstanceLength; destruct (r_version2 r); reflexivity).
  assert (MetricLength r = rec_len (if r_version2 r then 2 else 1) 3) as E3 by (unfold MetricLength; destruct (r_version2 r); reflexivity).
  assert (rec_len (if r_version2 r then 2 else 1) 2 > 0 /\ rec_len (if r_version2 r then 2 else 1) 3 > 0) as [P2 P3] by (destruct (r_version2 r); split; reflexivity).
  eapply (adjacent_app _ _ _ _ (instanceoffset r)); [|eapply (adjacent_app _ _ _ _ (metricsoffset r)); [|eapply (adjacent_app _ _ _ _ (valuesoffset r)); [|eapply (adjacent_app _ _ _ _ (stringsoffset r))]]].
  - unfold instanceoffset, indomoffset, HeaderLength, TocLength, InstanceDomainLength. destruct (0 <? InstanceDomainCount r) eqn:E; cbn [map adjacent toc_of tc_offset tc_count tc_type fst snd];
      change (rec_len (if r_version2 r then 2 else 1) 1) with 32; lia.
  - unfold metricsoffset. rewrite E2. destruct (0 <? InstanceCount r) eqn:E; cbn [map adjacent toc_of tc_offset tc_count tc_type fst snd]; [|nia]. split; [nia|]. split; [lia|nia].
  - unfold valuesoffset. rewrite E3. cbn [map adjacent toc_of tc_offset tc_count tc_type fst snd]. split; [nia|]. split; [|nia]. destruct (MetricCount r =? 0) eqn:E; nia.
  - unfold stringsoffset. cbn [map adjacent toc_of tc_offset tc_count tc_type fst snd]. change (rec_len (if r_version2 r then 2 else 1) 4) with 32. unfold ValueLength.
    split; [lia|]. split; [|lia]. destruct (MetricCount r =? 0) eqn:E; [|lia]. assert (ValuesCount r = 0) as ->; [|lia].
    pose proof (pf_mets _ _ (pw_fit _ _ Hwf)) as F1. pose proof (pf_vc _ _ (pw_fit _ _ Hwf)) as F2. fold r in F1, F2.
    rewrite <- F2. destruct (pl_mets pl); [reflexivity|]. rewrite zlen_cons in F1. pose proof (zlen_nonneg l). lia.
  - unfold Length, stringsoffset, valuesoffset, metricsoffset, instanceoffset, indomoffset, HeaderLength, TocLength, InstanceDomainLength, ValueLength, StringLength.
    destruct (0 <? StringCount r) eqn:E; cbn [map adjacent toc_of tc_offset tc_count tc_type fst snd]; change (rec_len (if r_version2 r then 2 else 1) 5) with 256;
    unfold stringsoffset, valuesoffset, metricsoffset, instanceoffset, indomoffset, HeaderLength, TocLength, InstanceDomainLength, ValueLength; lia.
Qed.

Lemma synced_layout w cid gen pid : w_ok w -> synced w cid gen pid ->
  exists c r buf, w_clients w !! cid = Some c /\ w_regs w !! cl_reg c = Some r /\ file_of w c = Some buf /\ zlen buf = Length r /\ laid_out buf.
Proof.
  intros W (c & r & wr & ino & pl & ad & am & buf & Hc & Hr & Hmap & Hwr & Hpath & S). exists c, r, buf.
  pose proof (wo_heap _ W) as Hh. pose proof (wo_regs _ W _ _ Hr) as Hro. destruct S as [S1 S2 S3 S4 S5 S6 S7]. cbn in S1, S2.
  pose proof (plan_wf_ok _ _ _ Hh Hro S2 S1) as WF. pose proof (plan_ranges_ok _ _ _ Hh Hro S2 S1) as RG.
  split_and!; auto.
  - unfold file_of. rewrite Hpath. exact S5.
  - apply (im_len _ _ _ _ _ S3).
  - eexists. split; [eapply (dump_ok (start_cfg c r gen pid)); eauto|]. eapply regions_ok; eauto.
Qed.
