(** C01, C02, C03, C06, C46, C47: Start and the file it writes.
    Specification vocabulary: View.v ([shows]: resolving all offsets of a dump gives exactly
    the records of a view; [want_view]: what a registry should show), SyncView.v ([want_hdr],
    [complete_file], [file_of]), Layout.v ([laid_out]), Crash.v ([empty_dump], [start_partial]),
    RegInv.v ([startable]: texts fit their slots, each metric's domain is the registered one,
    no domain or not all of them empty, counts fit int32). [start_state] and [start_prog] are
    the initial configuration of the goroutine pool, [gstep] one step of any goroutine. *)
From Verif Require Import Base BaseFacts Floats GoVal MetricType ByteWriter Hash Units Indom Metrics Registry Prog
  Client Mmvdump Ileave ProgProofs Exec Events StartEvents BufFacts Tiling StartGood StartLayout StartFinal StartDone
  View Sections StartView RegInv Update World OpRuns RegFacts WorldInv Sync StartLive FloatFacts ValueFacts MetricFacts SyncLive SyncView
  Crash Life Layout Example Witness.

(** ** C01 *)
(** Whenever Start succeeds, the file at the client's location dumps to exactly the registry's contents. *)
Theorem C01_start_publishes w cid c r gen pid w' : reachable w -> w_clients w !! cid = Some c -> w_regs w !! cl_reg c = Some r ->
  startable (w_heap w) r -> wstep w (CStart cid gen pid true) ROk w' ->
  exists buf, file_of w' c = Some buf /\ complete_file (w_heap w) c r gen pid buf /\
    (forall mp m, h_metrics (w_heap w) !! mp = Some m -> exists m', h_metrics (w_heap w') !! mp = Some m' /\ forall n, val_at m' n = val_at m n).
Proof.
  intros R Hc Hr Hs St. pose proof (reachable_ok _ R) as W.
  inversion St as [| | | | | | | | |? ? ? ? c0 r0 wr ino s Hd Hc0 Hr0 Hw Hi SR| | | | | |]; subst. assert (c0 = c) as -> by congruence. assert (r0 = r) as -> by congruence.
  exists (g_buf s). split; [unfold file_of, started; cbn; rewrite lookup_insert; cbn; apply lookup_insert|]. destruct SR as (pl & Hp & Hrun & _). split.
  - apply (start_complete (w_heap w) c r gen pid pl (w_offs w)); auto; [apply W|apply (wo_regs _ W _ _ Hr)|by apply gsteps_rsteps].
  - intros mp m Hm. eexists. split; [unfold started; cbn [w_heap]; rewrite set_upds_lookup, Hm; reflexivity|].
    intros n. unfold val_at. rewrite cell_at_upds. destruct (cell_at m n); [|reflexivity]. cbn. by rewrite set_cell_val.
Qed.
(** The registry of Example.v: counter, string, gauge, timer, vectors, histogram and a string instance metric. *)
Example C01_ex : exists w', reachable exw /\ w_clients exw !! 0%nat = Some exc /\ w_regs exw !! cl_reg exc = Some exr /\ startable (w_heap exw) exr /\
  wstep exw (CStart 0 ex_gen ex_pid true) ROk w' /\ MetricCount exr = 8.
Proof. exists exs. split_and!; [exact exw_reachable|exact exw_client|exact exw_reg|exact exw_startable|exact exs_step|vm_compute; reflexivity]. Qed.

(** ** C02 *)
Theorem C02_no_panic w cid c r gen pid s : reachable w -> w_clients w !! cid = Some c -> w_regs w !! cl_reg c = Some r -> startable (w_heap w) r ->
  ~ start_panics (w_heap w) (w_offs w) (start_cfg c r gen pid) s.
Proof. intros R. apply (start_not_panics w cid), reachable_ok, R. Qed.
(** In every state reached by every schedule, Start is over or some goroutine can step. *)
Theorem C02_no_deadlock w cid c r gen pid pl x : reachable w -> w_clients w !! cid = Some c -> w_regs w !! cl_reg c = Some r -> startable (w_heap w) r ->
  plan_ok (w_heap w) r pl -> rtc (gstep (Length r)) (start_state r (w_offs w) ∅, start_prog (start_cfg c r gen pid) pl) x ->
  x.2 = PRet \/ exists y, gstep (Length r) x y.
Proof.
  intros R Hc Hr Hs Hp. pose proof (reachable_ok _ R) as W.
  apply (start_progress (w_heap w) (start_cfg c r gen pid) pl (w_offs w) (wo_heap _ W) (wo_regs _ W _ _ Hr) Hp Hs).
Qed.
(** Every execution is finite, with a bound depending on the registry only. *)
Theorem C02_terminates w cid c r gen pid pl : reachable w -> w_clients w !! cid = Some c -> w_regs w !! cl_reg c = Some r -> startable (w_heap w) r ->
  plan_ok (w_heap w) r pl -> exists n, forall i y,
    nsteps (gstep (Length r)) i (start_state r (w_offs w) ∅, start_prog (start_cfg c r gen pid) pl) y -> (i <= n)%nat.
Proof.
  intros R Hc Hr Hs Hp. pose proof (reachable_ok _ R) as W.
  apply (start_bounded (w_heap w) (start_cfg c r gen pid) pl (w_offs w) (wo_heap _ W) (wo_regs _ W _ _ Hr) Hp Hs).
Qed.
(** Hence Start succeeds when the system calls do. *)
Theorem C02_succeeds w cid c r gen pid wr ino : reachable w -> w_dead w = false -> w_clients w !! cid = Some c -> w_regs w !! cl_reg c = Some r ->
  startable (w_heap w) r -> f_writers (w_files w) !! wr = None -> f_inodes (w_files w) !! ino = None ->
  (exists w', wstep w (CStart cid gen pid true) ROk w') /\ forall o w', wstep w (CStart cid gen pid true) o w' -> o = ROk.
Proof.
  intros R Hd Hc Hr Hs Hw Hi. pose proof (reachable_ok _ R) as W. split.
  - destruct (start_possible w cid c r gen pid wr ino W Hd Hc Hr Hs Hw Hi) as (s & S & _). eauto.
  - intros o w' S. inversion S as [| | | | | | | | | |? ? ? ? c0 r0 ? s ? Hc0 Hr0 ? SP| | | | |]; subst; [reflexivity|]. exfalso.
    assert (c0 = c) as -> by congruence. assert (r0 = r) as -> by congruence. eapply (start_not_panics w cid); eauto.
Qed.
Example C02_ex : reachable exw /\ startable (w_heap exw) exr /\ plan_ok (w_heap exw) exr (std_plan (w_heap exw) exr) /\
  start_partial (w_heap exw) (w_offs exw) exk ex_gst /\ w_dead exw = false.
Proof.
  split; [exact exw_reachable|]. split; [exact exw_startable|]. split; [exact (std_plan_ok _ _ (wo_heap _ exw_ok) (wo_regs _ exw_ok _ _ exw_reg))|].
  split; [|exact exw_dead]. destruct ex_start_run as (pl & Hp & H & _). exists pl, PRet. split; [exact Hp|exact H].
Qed.

(** ** C03 *)
(** [s] is any state start() passes through: a reader of the file fails, sees an empty table of
    contents, or sees the complete final contents. ([gen], the Unix time in seconds, is not 0.) *)
Theorem C03_no_torn_file w cid c r gen pid s : reachable w -> w_clients w !! cid = Some c -> w_regs w !! cl_reg c = Some r -> startable (w_heap w) r ->
  gen mod 2 ^ 64 <> 0 -> start_partial (w_heap w) (w_offs w) (start_cfg c r gen pid) s ->
  Dump (g_buf s) = DErr \/ (exists d, Dump (g_buf s) = DOk d /\ empty_dump d) \/ complete_file (w_heap w) c r gen pid (g_buf s).
Proof. intros R. apply (crash_dump w cid), reachable_ok, R. Qed.
(** Before that NewMemoryMappedWriter fills the new file with zeros; none of its prefixes is accepted. *)
Theorem C03_zero_file n : Dump (zeros n) = DErr.
Proof. exact (dump_zeros n). Qed.
(** A schedule stopped half-way: the magic is there, the file is not accepted. *)
Definition ex_half : gst * prog := run (Length exr) (take 1000 (ex_sched 0)) (start_state exr (w_offs exw) ∅) (start_prog exk (std_plan (w_heap exw) exr)).
Lemma torn_check (b : list byte) : (bool_decide (take 3 b = str "MMV") && match Dump b with DErr => true | _ => false end) = true -> take 3 b = str "MMV" /\ Dump b = DErr.
Proof. intros H. apply andb_prop in H as [H1 H2]. split; [by apply bool_decide_eq_true in H1|by destruct (Dump b)]. Qed.
Example C03_ex : reachable exw /\ startable (w_heap exw) exr /\ ex_gen mod 2 ^ 64 <> 0 /\ start_partial (w_heap exw) (w_offs exw) exk ex_half.1 /\
  take 3 (g_buf ex_half.1) = str "MMV" /\ Dump (g_buf ex_half.1) = DErr.
Proof.
  split; [exact exw_reachable|]. split; [exact exw_startable|]. split; [vm_compute; congruence|]. split.
  - exists (std_plan (w_heap exw) exr), ex_half.2. split; [exact (std_plan_ok _ _ (wo_heap _ exw_ok) (wo_regs _ exw_ok _ _ exw_reg))|].
    unfold ex_half. rewrite <- surjective_pairing. apply run_steps.
  - apply torn_check. vm_cast_no_check (eq_refl true).
Qed.

(** ** C06 *)
Theorem C06_layout w cid c r gen pid w' : reachable w -> w_clients w !! cid = Some c -> w_regs w !! cl_reg c = Some r -> startable (w_heap w) r ->
  wstep w (CStart cid gen pid true) ROk w' -> exists buf, file_of w' c = Some buf /\ zlen buf = Length r /\ laid_out buf.
Proof.
  intros R Hc Hr Hs St. pose proof (reachable_ok _ R) as W.
  inversion St as [| | | | | | | | |? ? ? ? c0 r0 wr ino s Hd Hc0 Hr0 Hw Hi SR| | | | | |]; subst. assert (c0 = c) as -> by congruence. assert (r0 = r) as -> by congruence.
  pose proof (start_synced w cid gen pid c r wr ino s W Hc Hr Hw Hi Hs SR) as Sy. pose proof (wstep_ok _ _ _ _ W St) as W'.
  destruct (synced_layout _ _ _ _ W' Sy) as (c' & r' & buf & H1 & H2 & H3 & H4 & H5). unfold started in H1. cbn in H1. rewrite lookup_insert in H1. injection H1 as <-.
  cbn in H2. rewrite lookup_insert in H2. injection H2 as <-. exists buf. split_and!; auto.
Qed.
(** Length in closed form, version 1 and version 2. *)
Theorem C06_length r : Length r = 40 + 16 * (2 + (if 0 <? InstanceCount r then 2 else 0) + (if 0 <? StringCount r then 1 else 0))
  + 32 * InstanceDomainCount r + (if r_version2 r then 24 else 80) * InstanceCount r + (if r_version2 r then 48 else 104) * MetricCount r
  + 32 * ValuesCount r + 256 * StringCount r.
Proof.
  unfold Length, tocCount, InstanceLength, MetricLength, HeaderLength, TocLength, InstanceDomainLength, ValueLength, StringLength, Instance1Length, Instance2Length, Metric1Length, Metric2Length.
  destruct (r_version2 r); lia.
Qed.
Example C06_ex : exists buf, file_of exs exc = Some buf /\ zlen buf = Length exr /\ Length exr = zlen ex_buf.
Proof. exists ex_buf. destruct exs_file as [H1 H2]. split; [unfold file_of; change (cl_loc exc) with ex_loc; rewrite H1; exact H2|]. split; vm_compute; reflexivity. Qed.

(** ** C46 *)
(** A string value of 300 bytes is accepted and overwrites the value of another metric in the file. *)
Theorem C46_value_refuted : exists w c mp m x w' b b' d d', reachable w /\ w_clients w !! 0%nat = Some c /\ zlen x = 300 /\
  wstep w (CUpdate mp (OSet (VStr x)) false) ROk w' /\ h_metrics (w_heap w) !! mp = Some m /\ file_of w c = Some b /\ file_of w' c = Some b' /\
  Dump b = DOk d /\ Dump b' = DOk d' /\ other_changed (padded 64 (md_name (m_desc m))) d d'.
Proof.
  destruct (overflows_ok wit_s wit_sc wit_first (VStr (long_text 300)) eq_refl I wit_s_overflows) as (w' & m & b & b' & d & d' & H).
  exists wit_s, (mkClient ex_loc (hash (str "example") PCPClusterIDBitLength) ProcessFlag 0 (Some 0%nat)), wit_first, m, (long_text 300), w', b, b', d, d'.
  split; [exact wit_s_reachable|]. split; [apply lookup_insert|]. split; [vm_compute; reflexivity|exact H].
Qed.
(** A description of 300 bytes is accepted by the constructor and by the registry, and makes Start panic. *)
Theorem C46_description_refuted : exists w c r m s, reachable w /\ w_clients w !! 0%nat = Some c /\ w_regs w !! cl_reg c = Some r /\ reg_metrics (w_heap w) r = [m] /\ r_indoms r = ∅ /\
  md_name (m_desc m) = str "c" /\ zlen (md_short (m_desc m)) = 300 /\ md_long (m_desc m) = [] /\ md_type (m_desc m) = Int64Type /\ start_panics (w_heap w) (w_offs w) (start_cfg c r ex_gen ex_pid) s.
Proof.
  destruct wit_l_panics as [s H]. exists wit_l, (wit_client 0), wit_reg_l, wit_ctr, s. split; [exact wit_l_reachable|]. split; [reflexivity|]. split; [vm_compute; reflexivity|].
  split_and!; [vm_compute; reflexivity..|exact H].
Qed.
(** What does hold: metric and instance names beyond 256 bytes are always rejected, and a description
    or a value of at most 256 bytes stays in its slot ([C01_start_publishes], [C05_frame]).
    Missing: longer descriptions and string values, see the two counterexamples. *)
Theorem C46_names_partial w mp m ip d i : reachable w -> h_metrics (w_heap w) !! mp = Some m -> h_indoms (w_heap w) !! ip = Some d ->
  i ∈ dom (id_insts d) -> 1 <= zlen (md_name (m_desc m)) <= 256 /\ zlen i <= 256.
Proof.
  intros R Hm Hi Hin. pose proof (wo_heap _ (reachable_ok _ R)) as Hh. pose proof (mo_desc _ _ (ho_metrics _ Hh _ _ Hm)) as D. pose proof (ho_indoms _ Hh _ _ Hi) as I.
  apply elem_of_dom in Hin as [z Hz]. destruct (io_insts _ I _ _ Hz) as [_ Hl]. pose proof (do_name _ D). pose proof (do_len _ D). split; [|exact Hl].
  destruct (md_name (m_desc m)) as [|b l] eqn:E; [congruence|]. rewrite zlen_cons in *. pose proof (zlen_nonneg l). lia.
Qed.
Example C46_ex : reachable exs /\ (exists m, h_metrics (w_heap exs) !! 8%nat = Some m /\ md_name (m_desc m) = str "disk.state") /\ exists d, h_indoms (w_heap exs) !! 1%nat = Some d /\ str "a" ∈ dom (id_insts d).
Proof.
  split; [exact exs_reachable|]. split.
  - destruct (exs_metric 8 ex_inst) as (m & Hm & Ed & _); [apply ex_registered; vm_compute; reflexivity|rewrite exw_metric; reflexivity|]. exists m. split; [exact Hm|]. by rewrite Ed.
  - exists ex_cv.1. split; [vm_compute; reflexivity|]. apply elem_of_dom. vm_compute. eauto.
Qed.

(** ** C47 *)
(** With one domain and no instance in it, Start panics: the table of contents has one more entry than tocCount allows for. *)
Theorem C47_empty_domain_refuted : exists w c r d s, reachable w /\ w_clients w !! 0%nat = Some c /\ w_regs w !! cl_reg c = Some r /\
  reg_indoms (w_heap w) r = [d] /\ id_insts d = ∅ /\ id_short d = [] /\ id_long d = [] /\ r_metrics r = ∅ /\ start_panics (w_heap w) (w_offs w) (start_cfg c r ex_gen ex_pid) s.
Proof.
  destruct wit_d_panics as [s H]. exists wit_d, (wit_client 0), wit_reg_d, wit_dom, s. split; [exact wit_d_reachable|]. split; [reflexivity|]. split; [vm_compute; reflexivity|].
  split_and!; [vm_compute; reflexivity..|exact H].
Qed.
(** What does hold: empty domains are published properly next to a non-empty one. Missing: registries all of whose domains are empty. *)
Theorem C47_next_to_nonempty_partial w cid c r gen pid w' : reachable w -> w_clients w !! cid = Some c -> w_regs w !! cl_reg c = Some r ->
  startable (w_heap w) r -> wstep w (CStart cid gen pid true) ROk w' ->
  forall d, d ∈ reg_indoms (w_heap w) r -> id_insts d = ∅ ->
  exists buf du x, file_of w' c = Some buf /\ Dump buf = DOk du /\ x ∈ recs (du_indoms du) /\ res_indom du x = Some (want_indom d) /\ dd_count x = 0.
Proof.
  intros R Hc Hr Hs St d Hd He. destruct (C01_start_publishes _ _ _ _ _ _ _ R Hc Hr Hs St) as (buf & Hf & (du & HD & _ & HS) & _). exists buf, du.
  destruct HS as (H & _). cbn in H.
  assert (Some (want_indom d) ∈ map Some (map want_indom (reg_indoms (w_heap w) r))) as HI.
  { apply elem_of_list_fmap. exists (want_indom d). split; [reflexivity|]. apply elem_of_list_fmap. eauto. }
  rewrite <- H in HI. apply elem_of_list_fmap in HI as (x & E & Hx). exists x. split_and!; auto.
  unfold res_indom in E. destruct (res_text du (dd_short x)) as [a|]; [|discriminate]. destruct (res_text du (dd_long x)) as [b|]; [|discriminate]. cbn in E. injection E as _ E _ _.
  rewrite <- E. unfold instance_count. rewrite He. reflexivity.
Qed.
Example C47_ex : exists w', reachable wit_e /\ w_regs wit_e !! cl_reg (wit_client 0) = Some wit_er /\ startable (w_heap wit_e) wit_er /\ wstep wit_e (CStart 0 ex_gen ex_pid true) ROk w' /\ wit_dom ∈ reg_indoms (w_heap wit_e) wit_er /\ id_insts wit_dom = ∅.
Proof.
  destruct wit_e_starts as [s H]. eexists. split; [exact wit_e_reachable|]. split; [exact wit_er_eq|]. split; [exact wit_e_startable|]. split; [exact H|]. split; [|reflexivity].
  apply elem_of_list_In. vm_compute. auto.
Qed.

Print Assumptions C01_start_publishes.
Print Assumptions C02_no_panic.
Print Assumptions C02_no_deadlock.
Print Assumptions C02_terminates.
Print Assumptions C02_succeeds.
Print Assumptions C03_no_torn_file.
Print Assumptions C03_zero_file.
Print Assumptions C06_layout.
Print Assumptions C06_length.
Print Assumptions C46_value_refuted.
Print Assumptions C46_description_refuted.
Print Assumptions C46_names_partial.
Print Assumptions C47_empty_domain_refuted.
Print Assumptions C47_next_to_nonempty_partial.
