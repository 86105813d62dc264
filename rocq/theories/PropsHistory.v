(** C04, C05, C36, C37, C48, C49: what happens to files and clients after Start.
    Specification vocabulary: SyncView.v ([publishes w cid gen pid]: client [cid] is started and the
    file at its location dumps to exactly its registry with the current values; [value_slot]: the
    bytes of a dump's file holding one value), Life.v ([is_started]: life cycle read off the calls;
    [phist P]: a history all of whose calls satisfy [P]; [unshared]: no registry has two clients),
    OpRuns.v ([op_fits]: a string argument has at most 256 bytes), Sync.v ([keeps]: a call that does
    not start or stop the client, its file or its registry). *)
From Verif Require Import Base BaseFacts Floats GoVal MetricType ByteWriter Hash Units Indom Metrics Registry Prog
  Client Mmvdump Ileave ProgProofs Exec Events StartEvents BufFacts Tiling StartGood StartLayout StartFinal StartDone
  View Sections StartView RegInv Update World OpRuns RegFacts WorldInv Sync StartLive FloatFacts ValueFacts MetricFacts SyncLive SyncView OpFacts
  Crash Life Layout Example Witness.

(** ** C04 *)
Theorem C04_updates w cid c r gen pid w1 tr w2 : reachable w -> w_clients w !! cid = Some c -> w_regs w !! cl_reg c = Some r -> startable (w_heap w) r ->
  wstep w (CStart cid gen pid true) ROk w1 -> phist (fun _ cl => exists mp op mst, cl = CUpdate mp op mst /\ op_fits op) w1 tr w2 ->
  publishes w2 cid gen pid.
Proof.
  intros R Hc Hr Hs St H. destruct (start_hist _ _ _ _ _ _ _ _ _ R Hc Hr Hs St (updates_keep cid _ _ _ H)) as (W2 & S2 & _). by apply synced_file.
Qed.
(** More generally, whatever else the process does that leaves the client alone. *)
Theorem C04_any_calls w cid c r gen pid w1 tr w2 : reachable w -> w_clients w !! cid = Some c -> w_regs w !! cl_reg c = Some r -> startable (w_heap w) r ->
  wstep w (CStart cid gen pid true) ROk w1 -> phist (fun w cl => keeps w cid cl) w1 tr w2 -> publishes w2 cid gen pid.
Proof.
  intros R Hc Hr Hs St H. destruct (start_hist _ _ _ _ _ _ _ _ _ R Hc Hr Hs St H) as (W2 & S2 & _). by apply synced_file.
Qed.
(** No such update faults. *)
Theorem C04_no_fault w cid c r gen pid w1 tr w2 mp op mst o w3 : reachable w -> w_clients w !! cid = Some c -> w_regs w !! cl_reg c = Some r -> startable (w_heap w) r ->
  wstep w (CStart cid gen pid true) ROk w1 -> phist (fun w cl => keeps w cid cl) w1 tr w2 ->
  registered r mp -> op_fits op -> wstep w2 (CUpdate mp op mst) o w3 -> o <> RFault.
Proof.
  intros R Hc Hr Hs St H Hreg Hf Su. destruct (start_hist _ _ _ _ _ _ _ _ _ R Hc Hr Hs St H) as (W2 & S2 & Hr2 & wr & Hc2).
  eapply (update_no_fault w2 cid gen pid); eauto.
Qed.
Lemma exs_update : exists o w', wstep exs (CUpdate 1 (OCInc 5) false) o w' /\ phist (fun _ cl => exists mp op mst, cl = CUpdate mp op mst /\ op_fits op) exs [(exs, CUpdate 1 (OCInc 5) false, o)] w'.
Proof.
  destruct (exs_metric 1 ex_counter) as (m & Hm & Ed & Ek & _); [apply ex_registered; vm_compute; reflexivity|rewrite exw_metric; reflexivity|].
  destruct (counter_inc (w_files exs) m 5) as [[o fs'] m'] eqn:E.
  destruct (step_update exs 1 (OCInc 5) m o fs' m' eq_refl Hm) as (w' & S & _); [cbv; intuition discriminate|unfold run_op; rewrite Ek; cbn [m_kind ex_counter]; by f_equal|].
  exists o, w'. split; [exact S|]. econstructor; [|exact S|constructor]. eexists _, _, _. split; [reflexivity|exact I].
Qed.
Example C04_ex : exists o w', reachable exw /\ startable (w_heap exw) exr /\ wstep exw (CStart 0 ex_gen ex_pid true) ROk exs /\
  phist (fun _ cl => exists mp op mst, cl = CUpdate mp op mst /\ op_fits op) exs [(exs, CUpdate 1 (OCInc 5) false, o)] w' /\ registered exr 1.
Proof.
  destruct exs_update as (o & w' & S & H). exists o, w'. split; [exact exw_reachable|]. split; [exact exw_startable|]. split; [exact exs_step|]. split; [exact H|].
  apply ex_registered. vm_compute. reflexivity.
Qed.

(** ** C05 *)
(** Any byte changed lies in the slot of a value of the updated metric (of the named instance, if the call names one). *)
Theorem C05_frame w cid c r gen pid w1 tr w2 mp m op mst o w3 : reachable w -> w_clients w !! cid = Some c -> w_regs w !! cl_reg c = Some r -> startable (w_heap w) r ->
  wstep w (CStart cid gen pid true) ROk w1 -> phist (fun w cl => keeps w cid cl) w1 tr w2 ->
  registered r mp -> h_metrics (w_heap w2) !! mp = Some m -> wstep w2 (CUpdate mp op mst) o w3 -> op_fits op ->
  exists buf buf' d, file_of w2 c = Some buf /\ file_of w3 c = Some buf' /\ zlen buf' = zlen buf /\ Dump buf = DOk d /\
    forall j, buf !! j <> buf' !! j -> exists n lo hi, is_Some (cell_at m n) /\ op_target op n /\
      value_slot d (want_metric (r_version2 r) (m_desc m) (metric_dom (w_heap w2) m)) (want_n (w_heap w2) (r_version2 r) m n) lo hi /\
      lo <= Z.of_nat j < hi.
Proof.
  intros R Hc Hr Hs St H Hreg Hm Su Hf. destruct (start_hist _ _ _ _ _ _ _ _ _ R Hc Hr Hs St H) as (W2 & S2 & Hr2 & wr & Hc2).
  exact (update_frame w2 cid gen pid _ _ mp m op mst o w3 W2 S2 Hc2 Hr2 Hreg Hm Su Hf).
Qed.
(** An update of a metric that is not registered with the client changes nothing in its file. *)
Theorem C05_unregistered w cid c r gen pid w1 tr w2 mp op mst o w3 : reachable w -> w_clients w !! cid = Some c -> w_regs w !! cl_reg c = Some r -> startable (w_heap w) r ->
  wstep w (CStart cid gen pid true) ROk w1 -> phist (fun w cl => keeps w cid cl) w1 tr w2 ->
  ~ registered r mp -> wstep w2 (CUpdate mp op mst) o w3 -> file_of w3 c = file_of w2 c.
Proof.
  intros R Hc Hr Hs St H Hreg Su. destruct (start_hist _ _ _ _ _ _ _ _ _ R Hc Hr Hs St H) as (W2 & S2 & Hr2 & wr & Hc2).
  exact (update_other w2 cid gen pid _ _ mp op mst o w3 W2 S2 Hc2 Hr2 Hreg Su).
Qed.
Example C05_ex : exists o w' m, reachable exw /\ startable (w_heap exw) exr /\ wstep exw (CStart 0 ex_gen ex_pid true) ROk exs /\
  phist (fun w cl => keeps w 0 cl) exs [] exs /\ registered exr 1 /\ h_metrics (w_heap exs) !! 1%nat = Some m /\ wstep exs (CUpdate 1 (OCInc 5) false) o w' /\ op_fits (OCInc 5) /\
  ~ registered exr 77.
Proof.
  destruct exs_update as (o & w' & S & _). destruct (exs_metric 1 ex_counter) as (m & Hm & _); [apply ex_registered; vm_compute; reflexivity|rewrite exw_metric; reflexivity|].
  exists o, w', m. split; [exact exw_reachable|]. split; [exact exw_startable|]. split; [exact exs_step|]. split; [constructor|]. split; [apply ex_registered; vm_compute; reflexivity|].
  split; [exact Hm|]. split; [exact S|]. split; [exact I|]. intros [n Hn].
  assert (forallb (fun x => negb (Nat.eqb x.2 77)) (map_to_list (r_metrics exr)) = true) as F by (vm_compute; reflexivity).
  rewrite forallb_forall in F. apply elem_of_map_to_list, elem_of_list_In in Hn. specialize (F _ Hn). cbn in F. discriminate.
Qed.

(** ** C36 *)
(** Missing in the [_partial] theorems: two clients using one registry, see [C36_shared_refuted]. *)
Theorem C36_stop_partial tr w cid erase o w' c : hist w_init tr w -> unshared w -> w_clients w !! cid = Some c -> wstep w (CStop cid erase true) o w' ->
  (o = ROk <-> is_started cid tr = true /\ (erase = true -> is_Some (w_paths w !! cl_loc c))) /\ (o = ROk \/ o = RErr) /\ (is_started cid tr = false -> w' = w).
Proof. exact (stop_outcome tr w cid erase o w' c). Qed.
(** Stop keeps the file's contents, or removes it if asked to. *)
Theorem C36_stop_file w cid erase w' c : w_clients w !! cid = Some c -> wstep w (CStop cid erase true) ROk w' ->
  file_of w' c = if erase then None else file_of w c.
Proof. exact (stop_file w cid erase w' c). Qed.
Theorem C36_set_flag_partial tr w cid flag o w' c : hist w_init tr w -> unshared w -> w_clients w !! cid = Some c -> wstep w (CSetFlag cid flag) o w' ->
  (o = ROk <-> is_started cid tr = false) /\ (o = ROk \/ o = RErr) /\
  exists c', w_clients w' !! cid = Some c' /\ cl_flag c' = (if is_started cid tr then cl_flag c else flag) /\
    (is_started cid tr = true -> c' = c) /\ w_heap w' = w_heap w /\ w_regs w' = w_regs w /\ w_files w' = w_files w /\ w_paths w' = w_paths w.
Proof. exact (set_flag_outcome tr w cid flag o w' c). Qed.
(** The flag set last is the one a reader finds after the next Start. *)
Theorem C36_flag_effect w cid flag c r gen pid w1 w2 : reachable w -> w_clients w !! cid = Some c -> w_regs w !! cl_reg c = Some r -> startable (w_heap w) r ->
  wstep w (CSetFlag cid flag) ROk w1 -> wstep w1 (CStart cid gen pid true) ROk w2 ->
  exists buf d, file_of w2 c = Some buf /\ Dump buf = DOk d /\ hd_flag (du_header d) = to_signed 32 flag.
Proof.
  intros R Hc Hr Hs Sf St. inversion Sf as [| | | | | | | |? ? ? c0 r0 Hd Hc0 Hr0| | | | | | |]; subst. assert (c0 = c) as -> by congruence. assert (r0 = r) as -> by congruence.
  destruct (r_mapped r); [discriminate|].
  assert (reachable (mkWorld (w_heap w) (w_regs w) (<[cid := mkClient (cl_loc c) (cl_cluster c) flag (cl_reg c) (cl_wr c)]> (w_clients w)) (w_files w) (w_paths w) (w_offs w) false)) as R1
    by (eapply reachable_step; eauto).
  destruct (start_step _ _ _ _ _ _ _ R1 (lookup_insert _ _ _) Hr Hs St) as (W2 & S2 & Hr2 & wr & Hc2). cbn [cl_loc cl_cluster cl_flag cl_reg] in *.
  destruct (synced_file _ _ _ _ W2 S2) as (c' & r' & buf & A1 & A2 & _ & A3 & _ & (d & HD & HH & _)). assert (c' = mkClient (cl_loc c) (cl_cluster c) flag (cl_reg c) (Some wr)) as -> by congruence.
  exists buf, d. split; [exact A3|]. split; [exact HD|]. by rewrite HH.
Qed.
(** Two clients on one registry: after Start of one, Stop of the other panics and SetFlag on it fails, although it was never started. *)
Theorem C36_shared_refuted : exists tr w c', hist w_init tr w /\ w_clients w !! 1%nat = Some c' /\ is_started 0 tr = true /\ is_started 1 tr = false /\
  (forall o w', wstep w (CStop 1 false true) o w' -> o = RPanic) /\ (exists w', wstep w (CStop 1 false true) RPanic w') /\
  (forall flag o w', wstep w (CSetFlag 1 flag) o w' -> o = RErr).
Proof.
  destruct (start_possible wit2 0 (wit_client 0) new_registry 5 6 0 0 (reachable_ok _ wit2_reachable) eq_refl eq_refl eq_refl (new_startable _) eq_refl eq_refl) as (s & S & _).
  set (w := started wit2 0 (wit_client 0) new_registry 0 0 s) in *.
  eexists _, w, wit_client2. split; [eapply hist_snoc; [eapply hist_snoc; [exact wit1_hist|exact wit2_step]|exact S]|].
  assert (w_clients w !! 1%nat = Some wit_client2) as Hc by reflexivity. assert (w_regs w !! 0%nat = Some (set_mapped new_registry true)) as Hr by reflexivity.
  assert (w_dead w = false) as Hd0 by reflexivity.
  split; [exact Hc|]. split; [reflexivity|]. split; [reflexivity|]. clearbody w. split; [|split].
  - intros o w' H. inversion H as [| | | | | | | | | | | |? ? ? ? c0 r0 Hd Hc0 Hr0 Hm|? ? ? c0 r0 ? ? Hd Hc0 Hr0 Hm Hs| |]; subst; assert (c0 = wit_client2) as -> by congruence;
      cbn [cl_reg wit_client2] in Hr0; assert (r0 = set_mapped new_registry true) as -> by congruence; [discriminate|]. unfold stopped in Hs. cbn in Hs. by injection Hs as <- _.
  - eexists. eapply ws_stop; [exact Hd0|exact Hc|exact Hr|reflexivity|reflexivity].
  - intros flag o w' H. inversion H as [| | | | | | | |? ? ? c0 r0 Hd Hc0 Hr0| | | | | | |]; subst. assert (c0 = wit_client2) as -> by congruence.
    cbn [cl_reg wit_client2] in Hr0. assert (r0 = set_mapped new_registry true) as -> by congruence. reflexivity.
Qed.
(** A client that was started, stopped, and has its registry for itself. *)
Example C36_ex : exists tr w1 w2, hist w_init tr w1 /\ unshared w1 /\ is_started 0 tr = true /\ wstep w1 (CStop 0 false true) ROk w2 /\
  reachable wit1 /\ startable (w_heap wit1) new_registry /\ exists w3, wstep wit1 (CSetFlag 0 SentinelFlag) ROk w3.
Proof.
  destruct (start_possible wit1 0 (wit_client 0) new_registry 5 6 0 0 (reachable_ok _ wit1_reachable) eq_refl eq_refl eq_refl (new_startable _) eq_refl eq_refl) as (s & S & Sy).
  destruct (stop_possible _ 0 5 6 false Sy eq_refl) as (w2 & S2 & _). eexists _, _, w2. split; [eapply hist_snoc; [exact wit1_hist|exact S]|]. split; [|split; [reflexivity|]].
  - intros cid cid' c c' H1 H2 _. unfold started in H1, H2. cbn in H1, H2.
    apply lookup_insert_Some in H1 as [[<- _]|[_ H1]]; [|apply lookup_singleton_Some in H1 as [<- _]]; (apply lookup_insert_Some in H2 as [[<- _]|[_ H2]]; [|apply lookup_singleton_Some in H2 as [<- _]]); reflexivity.
  - split; [exact S2|]. split; [exact wit1_reachable|]. split; [apply new_startable|]. eexists. eapply (ws_set_flag wit1 0 SentinelFlag (wit_client 0) new_registry); reflexivity.
Qed.

(** ** C37 *)
(** Every Set that would change a published singleton metric faults once its client has been stopped. *)
Theorem C37_set_after_stop_refuted w cid c r gen pid w1 tr w2 erase w3 mp m cell v : reachable w -> w_clients w !! cid = Some c -> w_regs w !! cl_reg c = Some r ->
  startable (w_heap w) r -> wstep w (CStart cid gen pid true) ROk w1 -> phist (fun w cl => keeps w cid cl) w1 tr w2 -> wstep w2 (CStop cid erase true) ROk w3 ->
  registered r mp -> h_metrics (w_heap w2) !! mp = Some m -> m_kind m = MSingleton -> m_body m = BSingle cell ->
  wf_goval v -> IsCompatible (md_type (m_desc m)) v = true -> go_eqb (resolve (md_type (m_desc m)) v) (c_val cell) = false ->
  exists w4, wstep w3 (CUpdate mp (OSet v) false) RFault w4 /\ w_dead w4 = true.
Proof.
  intros R Hc Hr Hs St H Sp Hreg Hm Hk Hb Hv Hi Hne. destruct (start_hist _ _ _ _ _ _ _ _ _ R Hc Hr Hs St H) as (W2 & S2 & Hr2 & wr & Hc2).
  destruct (stopped_faults w2 cid gen pid _ _ erase w3 mp m cell v W2 S2 Hc2 Hr2 Sp Hreg Hm Hb Hv Hi Hne) as [Hm3 E].
  destruct (stop_unmapped _ _ _ _ Sp) as [Hd _].
  eexists. split; [eapply (ws_update w3 mp (OSet v) false m RFault); [exact Hd|exact Hm3|exact Hv|unfold run_op; rewrite Hk, E; reflexivity]|reflexivity].
Qed.
(** Concretely: the string metric of Example.v, set to "world" after Stop. *)
Theorem C37_concrete_refuted : exists w w', reachable w /\ is_Some (w_clients w !! 0%nat) /\ (forall c r, w_clients w !! 0%nat = Some c -> w_regs w !! cl_reg c = Some r -> r_mapped r = false) /\
  wstep w (CUpdate 2 (OSet (VStr (str "world"))) false) RFault w' /\ w_dead w' = true.
Proof.
  destruct (stop_possible exs 0 ex_gen ex_pid false exs_synced eq_refl) as (w3 & S3 & Hd3).
  destruct (exs_metric 2 ex_string) as (m & Hm & Ed & Ek & Ev & _ & HI); [apply ex_registered; vm_compute; reflexivity|rewrite exw_metric; reflexivity|].
  specialize (Ev None). unfold m_indom in HI. destruct (m_body m) as [cell|] eqn:Hb; [|discriminate].
  assert (c_val cell = VStr (str "hello")) as Hv. { rewrite !val_at_single in Ev. unfold m_val in Ev. rewrite Hb in Ev. cbn in Ev. by injection Ev. }
  destruct (C37_set_after_stop_refuted exw 0 exc exr ex_gen ex_pid exs [] exs false w3 2 m cell (VStr (str "world"))) as (w4 & H1 & H2).
  { exact exw_reachable. } { exact exw_client. } { exact exw_reg. } { exact exw_startable. } { exact exs_step. } { constructor. } { exact S3. }
  { apply ex_registered. vm_compute. reflexivity. } { exact Hm. } { by rewrite Ek. } { exact Hb. } { exact I. } { rewrite Ed. reflexivity. } { rewrite Ed, Hv. reflexivity. }
  exists w3, w4. split; [eapply reachable_step; [exact exs_reachable|exact S3]|]. 
  destruct (stop_unmapped _ _ _ _ S3) as (_ & c & r & Hc & Hr & Hmap). split; [eauto|]. split; [|auto].
  intros c' r' Hc' Hr'. assert (c' = c) as -> by congruence. assert (r' = r) as -> by congruence. exact Hmap.
Qed.
(** What does hold: a metric that was never published is plain memory, whatever clients do. Missing: all published metrics. *)
Theorem C37_unpublished_partial w mp m op mst o w' : reachable w -> h_metrics (w_heap w) !! mp = Some m -> no_closures m -> wstep w (CUpdate mp op mst) o w' ->
  o <> RFault /\ w_files w' = w_files w /\ w_dead w' = false /\ exists m', h_metrics (w_heap w') !! mp = Some m' /\ no_closures m'.
Proof. intros R. apply update_unmapped, reachable_ok, R. Qed.
Example C37_ex : exists o w', reachable wit_l /\ h_metrics (w_heap wit_l) !! 1%nat = Some wit_ctr /\ no_closures wit_ctr /\ wstep wit_l (CUpdate 1 (OCInc 3) false) o w' /\ o = ROk.
Proof.
  eexists ROk, _. split; [exact wit_l_reachable|]. split; [reflexivity|]. split; [|split; [|reflexivity]].
  - intros n c. destruct n; cbn; [discriminate|]. intros H. by injection H as <-.
  - eapply (ws_update wit_l 1 (OCInc 3) false wit_ctr ROk (w_files wit_l) (counter_inc (w_files wit_l) wit_ctr 3).2); [reflexivity|reflexivity|cbv; intuition discriminate|reflexivity].
Qed.

(** ** C48 *)
(** Stop, then any history at all, then Start: the new file shows the registry as it is then. *)
Theorem C48_restart w cid erase o w1 tr w2 c r gen pid w3 : reachable w -> wstep w (CStop cid erase true) o w1 -> hist w1 tr w2 ->
  w_clients w2 !! cid = Some c -> w_regs w2 !! cl_reg c = Some r -> startable (w_heap w2) r -> wstep w2 (CStart cid gen pid true) ROk w3 ->
  publishes w3 cid gen pid /\ exists buf, file_of w3 c = Some buf /\ complete_file (w_heap w2) c r gen pid buf.
Proof.
  intros R Sp H Hc Hr Hs St. assert (reachable w2) as R2 by (eapply hist_reachable; [exact H|]; eapply reachable_step; eauto).
  destruct (start_step _ _ _ _ _ _ _ R2 Hc Hr Hs St) as (W3 & S3 & _). split; [by apply synced_file|].
  inversion St as [| | | | | | | | |? ? ? ? c0 r0 wr ino s Hd Hc0 Hr0 Hw Hi SR| | | | | |]; subst. assert (c0 = c) as -> by congruence. assert (r0 = r) as -> by congruence.
  exists (g_buf s). split; [unfold file_of, started; cbn; rewrite lookup_insert; cbn; apply lookup_insert|]. destruct SR as (pl & Hp & Hrun & _).
  pose proof (reachable_ok _ R2) as W2. apply (start_complete (w_heap w2) c r gen pid pl (w_offs w2)); auto; [apply W2|apply (wo_regs _ W2 _ _ Hr)|by apply gsteps_rsteps].
Qed.
Example C48_ex : exists w1 tr w2 c r w3, reachable exs /\ wstep exs (CStop 0 true true) ROk w1 /\ hist w1 tr w2 /\ w_clients w2 !! 0%nat = Some c /\ w_regs w2 !! cl_reg c = Some r /\
  startable (w_heap w2) r /\ wstep w2 (CStart 0 7 8 true) ROk w3 /\ MetricCount r = 8.
Proof.
  destruct (restart_possible exs 0 ex_gen ex_pid true 7 8 exs_reachable exs_synced eq_refl) as (w1 & c & r & w2 & H1 & H2 & H3 & H4 & H5 & H6).
  exists w1, [], w1, c, (set_mapped r false), w2. split; [exact exs_reachable|]. split; [exact H1|]. split; [constructor|]. split; [exact H2|]. split; [exact H4|]. split; [exact H5|]. split; [exact H6|].
  destruct (start_step exw 0 exc exr ex_gen ex_pid exs exw_reachable exw_client exw_reg exw_startable exs_step) as (_ & _ & Hr & wr & Hc).
  destruct (step_clients _ _ _ _ _ _ H1 Hc) as (c' & Hc' & _ & E & _). assert (c' = c) as -> by congruence. cbn [cl_reg] in E. rewrite E, Hr in H3. injection H3 as <-. vm_compute. reflexivity.
Qed.

(** ** C49 *)
(** A started client's record, registry and file survive every call that concerns other clients only.
    Missing: clients sharing a registry, a file or (for Start) metrics, see [C49_shared_refuted]. *)
Theorem C49_independent_partial w cid c r gen pid w1 tr w2 cl o w3 : reachable w -> w_clients w !! cid = Some c -> w_regs w !! cl_reg c = Some r -> startable (w_heap w) r ->
  wstep w (CStart cid gen pid true) ROk w1 -> phist (fun w cl => keeps w cid cl) w1 tr w2 ->
  keeps w2 cid cl -> (forall mp op mst, cl = CUpdate mp op mst -> ~ registered r mp) -> wstep w2 cl o w3 ->
  w_clients w3 !! cid = w_clients w2 !! cid /\ w_regs w3 !! cl_reg c = w_regs w2 !! cl_reg c /\ file_of w3 c = file_of w2 c /\ publishes w3 cid gen pid.
Proof.
  intros R Hc Hr Hs St H K Hu S3. destruct (start_hist _ _ _ _ _ _ _ _ _ R Hc Hr Hs St H) as (W2 & S2 & Hr2 & wr & Hc2).
  destruct (other_frame w2 cid gen pid _ _ cl o w3 W2 S2 Hc2 Hr2 K Hu S3) as (A & B & C). cbn [cl_reg] in B. split; [congruence|]. split; [congruence|]. split; [exact C|].
  apply synced_file; [eapply wstep_ok; eauto|]. eapply synced_step; eauto.
Qed.
(** Two clients with different names on one registry: Stop of the second, never started, makes Stop of the first fail. *)
Theorem C49_shared_refuted : exists w c c' w', reachable w /\ w_clients w !! 0%nat = Some c /\ w_clients w !! 1%nat = Some c' /\ cl_loc c <> cl_loc c' /\
  (exists w0, wstep w (CStop 0 false true) ROk w0) /\ wstep w (CStop 1 false true) RPanic w' /\
  (forall o w0, wstep w' (CStop 0 false true) o w0 -> o = RErr).
Proof.
  destruct (start_possible wit2 0 (wit_client 0) new_registry 5 6 0 0 (reachable_ok _ wit2_reachable) eq_refl eq_refl eq_refl (new_startable _) eq_refl eq_refl) as (s & S & Sy).
  set (w := started wit2 0 (wit_client 0) new_registry 0 0 s) in *.
  assert (reachable w) as R by (eapply reachable_step; [exact wit2_reachable|exact S]).
  assert (w_clients w !! 1%nat = Some wit_client2) as Hc by reflexivity. assert (w_regs w !! 0%nat = Some (set_mapped new_registry true)) as Hr by reflexivity.
  assert (exists c, w_clients w !! 0%nat = Some c /\ cl_loc c = str "/tmp/mmv/one" /\ cl_reg c = 0%nat) as (c & Hc0 & Hl & Hreg) by (eexists; split; [reflexivity|split; reflexivity]).
  assert (w_dead w = false) as Hd0 by reflexivity. destruct (stop_possible w 0 5 6 false Sy Hd0) as (w0 & S0 & _). clearbody w.
  assert (wstep w (CStop 1 false true) RPanic (set_regs w (<[0%nat := set_mapped (set_mapped new_registry true) false]> (w_regs w)))) as S1 by (eapply ws_stop; [exact Hd0|exact Hc|exact Hr|reflexivity|reflexivity]).
  exists w, c, wit_client2, (set_regs w (<[0%nat := set_mapped (set_mapped new_registry true) false]> (w_regs w))).
  split; [exact R|]. split; [exact Hc0|]. split; [exact Hc|]. split; [rewrite Hl; vm_compute; congruence|]. split; [eauto|]. split; [exact S1|].
  intros o w3 H. inversion H as [| | | | | | | | | | | |? ? ? ? c0 r0 Hd Hc0' Hr0 Hm|? ? ? c0 r0 ? ? Hd Hc0' Hr0 Hm Hs|? ? ? ? ? ? ? Hd Hc0' Hr0 Hm|]; subst; try reflexivity.
  cbn in Hc0'. assert (c0 = c) as -> by congruence. cbn [set_regs w_regs] in Hr0. rewrite Hreg, lookup_insert in Hr0. injection Hr0 as <-. discriminate.
Qed.
(** Another client is created while the example client is running. *)
Example C49_ex : exists w3, reachable exw /\ startable (w_heap exw) exr /\ wstep exw (CStart 0 ex_gen ex_pid true) ROk exs /\ phist (fun w cl => keeps w 0 cl) exs [] exs /\
  keeps exs 0 (CNewClient 1 (str "two") (str "/tmp/mmv/two") 0) /\ wstep exs (CNewClient 1 (str "two") (str "/tmp/mmv/two") 0) ROk w3.
Proof.
  eexists. split; [exact exw_reachable|]. split; [exact exw_startable|]. split; [exact exs_step|]. split; [constructor|]. split; [intros c r _ _; exact I|].
  apply ws_new_client; [reflexivity|reflexivity|]. eexists. apply lookup_insert.
Qed.

Print Assumptions C04_updates.
Print Assumptions C04_any_calls.
Print Assumptions C04_no_fault.
Print Assumptions C05_frame.
Print Assumptions C05_unregistered.
Print Assumptions C36_stop_partial.
Print Assumptions C36_stop_file.
Print Assumptions C36_set_flag_partial.
Print Assumptions C36_flag_effect.
Print Assumptions C36_shared_refuted.
Print Assumptions C37_set_after_stop_refuted.
Print Assumptions C37_concrete_refuted.
Print Assumptions C37_unpublished_partial.
Print Assumptions C48_restart.
Print Assumptions C49_independent_partial.
Print Assumptions C49_shared_refuted.
