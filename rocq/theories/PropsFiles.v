(** C52-C55: printed names, and what Start does to files that were there before.
    Specification vocabulary: NamesFacts.v ([named T table i]: the name [table] gives the code [i], and
    "T(i)" if it gives none; the tables are the declared constants with their Go names), Files.v ([fstep]:
    NewMemoryMappedWriter one system call at a time; [FErr]: it returned an error, [FDone]: it succeeded),
    SyncView.v ([file_of w c]: contents of the file at the client's location; [publishes]). *)
From Verif Require Import Base BaseFacts Floats GoVal MetricType ByteWriter Hash Units Indom Metrics Registry Prog
  Client Mmvdump ProgProofs View RegInv World OpRuns RegFacts WorldInv Sync StartLive SyncView Life Example Witness
  DumpText Names NamesFacts Files FilesFacts.

(** ** C52 *)
(** Every value of every enumeration prints as its constant's name, or as its number if there is no such constant. *)
Theorem C52_names :
  (forall i, in_signed 32 i -> MetricType_String i = Some (named (str "MetricType") metric_type_names i)) /\
  (forall i, in_signed 32 i -> MetricSemantics_String i = Some (named (str "MetricSemantics") metric_semantics_names i)) /\
  (forall i, in_signed 64 i -> MMVFlag_String i = Some (named (str "MMVFlag") flag_names i)) /\
  (forall i, in_unsigned 32 i -> SpaceUnit_String i = Some (named (str "SpaceUnit") space_unit_names i)) /\
  (forall i, in_unsigned 32 i -> TimeUnit_String i = Some (named (str "TimeUnit") time_unit_names i)) /\
  (forall i, in_unsigned 32 i -> CountUnit_String i = Some (named (str "CountUnit") count_unit_names i)) /\
  (forall i, in_signed 32 i -> Semantics_String i = Some (named (str "Semantics") reader_semantics_names i)) /\
  (forall i, in_signed 32 i -> TocType_String i = Some (named (str "TocType") toc_type_names i)) /\
  (forall i, in_signed 32 i -> Type_String i = Some (named (str "Type") reader_type_names i)).
Proof.
  split_and!; intros i Hi; [apply metric_type_spec|apply metric_semantics_spec|apply flag_spec|apply space_unit_spec|apply time_unit_spec|by apply count_unit_spec
    |apply reader_semantics_spec|by apply toc_type_spec|apply reader_type_spec].
Qed.
(** Within an enumeration, different values print differently. *)
Theorem C52_distinct i j :
  (MetricType_String i = MetricType_String j -> i = j) /\ (MetricSemantics_String i = MetricSemantics_String j -> i = j) /\ (MMVFlag_String i = MMVFlag_String j -> i = j) /\
  (SpaceUnit_String i = SpaceUnit_String j -> i = j) /\ (TimeUnit_String i = TimeUnit_String j -> i = j) /\
  (in_unsigned 32 i -> in_unsigned 32 j -> CountUnit_String i = CountUnit_String j -> i = j) /\
  (Semantics_String i = Semantics_String j -> i = j) /\ (in_signed 32 i -> in_signed 32 j -> TocType_String i = TocType_String j -> i = j) /\ (Type_String i = Type_String j -> i = j).
Proof.
  rewrite !metric_type_spec, !metric_semantics_spec, !flag_spec, !space_unit_spec, !time_unit_spec, !reader_semantics_spec, !reader_type_spec.
  split_and!; [..|intros Hi Hj; rewrite !count_unit_spec by assumption| |intros Hi Hj; rewrite !toc_type_spec by assumption|]; intros E; apply (inj Some) in E;
    (eapply named_inj'; [|exact E]); vm_compute; reflexivity.
Qed.
(** Composed units: the printed form determines every dimension, and the scale of every dimension that is not 0. *)
Theorem C52_units w w' : in_unsigned 32 w -> in_unsigned 32 w' ->
  is_Some (metricUnit_String w) /\ (metricUnit_String w = metricUnit_String w' ->
    SpaceDim w = SpaceDim w' /\ TimeDim w = TimeDim w' /\ CountDim w = CountDim w' /\ SpaceScale w = SpaceScale w' /\ TimeScale w = TimeScale w' /\ CountScale w = CountScale w').
Proof. intros _ _. split; [rewrite unit_string_parts; eauto|apply unit_string_fields]. Qed.
(** The example of /repo/metrics_test.go:117, codes without a name, and the extreme codes. *)
Example C52_ex : (w ← mu_space 0 MegabyteUnit 1; w' ← mu_time w SecondUnit (-1); metricUnit_String w') = Some (str "MegabyteUnit^1SecondUnit^-1") /\
  metricUnit_String 0 = Some [] /\ MetricType_String 7 = Some (str "MetricType(7)") /\ MetricSemantics_String 2 = Some (str "MetricSemantics(2)") /\
  TocType_String (-2147483648) = Some (str "TocType(-2147483648)") /\ CountUnit_String 0 = Some (str "CountUnit(0)") /\ CountUnit_String OneUnit = Some (str "OneUnit") /\
  TimeUnit_String HourUnit = Some (str "HourUnit") /\ Type_String 255 = Some (str "UnknownType") /\ MMVFlag_String 3 = Some (str "MMVFlag(3)").
Proof. vm_compute. auto 20. Qed.

(** ** C53 *)
(** Whatever the outcome of a Start, files that were there keep their contents (under their old name, or without one), and other locations are left alone. *)
Theorem C53_start_frame w cid gen pid os o w' c : w_clients w !! cid = Some c -> wstep w (CStart cid gen pid os) o w' ->
  (forall ino b, f_inodes (w_files w) !! ino = Some b -> f_inodes (w_files w') !! ino = Some b) /\ (forall p, p <> cl_loc c -> w_paths w' !! p = w_paths w !! p).
Proof. exact (start_frame w cid gen pid os o w' c). Qed.
(** After a second Start of a client, nothing ever changes the file of the first one: whoever still has it open sees its last contents. *)
Theorem C53_replaced_file w cid c r gen pid w1 tr1 w2 c2 r2 gen2 pid2 w3 tr2 w4 ino : reachable w -> w_clients w !! cid = Some c -> w_regs w !! cl_reg c = Some r -> startable (w_heap w) r ->
  wstep w (CStart cid gen pid true) ROk w1 -> w_paths w1 !! cl_loc c = Some ino -> hist w1 tr1 w2 ->
  w_clients w2 !! cid = Some c2 -> w_regs w2 !! cl_reg c2 = Some r2 -> startable (w_heap w2) r2 -> wstep w2 (CStart cid gen2 pid2 true) ROk w3 -> hist w3 tr2 w4 ->
  f_inodes (w_files w4) !! ino = f_inodes (w_files w2) !! ino.
Proof. exact (old_file_frozen w cid c r gen pid w1 tr1 w2 c2 r2 gen2 pid2 w3 tr2 w4 ino). Qed.
(** After Stop nothing changes the contents of the stopped client's file. *)
Theorem C53_stopped_file w cid c r gen pid w1 tr1 w2 ino erase w3 tr2 w4 : reachable w -> w_clients w !! cid = Some c -> w_regs w !! cl_reg c = Some r -> startable (w_heap w) r ->
  wstep w (CStart cid gen pid true) ROk w1 -> phist (fun w cl => keeps w cid cl) w1 tr1 w2 -> w_paths w2 !! cl_loc c = Some ino ->
  wstep w2 (CStop cid erase true) ROk w3 -> hist w3 tr2 w4 -> f_inodes (w_files w4) !! ino = f_inodes (w_files w2) !! ino.
Proof.
  intros R Hc Hr Hs St H Hp Sp H2. destruct (start_hist _ _ _ _ _ _ _ _ _ R Hc Hr Hs St H) as (W2 & S2 & Hr2 & wr & Hc2).
  destruct S2 as (c' & r' & wr' & ino' & pl & ad & am & buf & Hc' & Hr' & Hmap & Hwr & Hpath & S). rewrite Hc2 in Hc'. injection Hc' as <-. cbn [cl_wr cl_loc] in *. injection Hwr as ->.
  assert (ino' = ino) as -> by congruence. eapply stopped_frozen; [exact W2|exact Hc2|reflexivity|exact (sy_writer _ _ _ _ _ _ _ _ _ S)|exact Sp|exact H2].
Qed.
(** The client of Example.v started, stopped and started again. *)
Example C53_ex : exists c1 w1 r1 w2, reachable exw /\ w_clients exw !! 0%nat = Some exc /\ w_regs exw !! cl_reg exc = Some exr /\ startable (w_heap exw) exr /\
  wstep exw (CStart 0 ex_gen ex_pid true) ROk exs /\ w_paths exs !! cl_loc exc = Some 0%nat /\ wstep exs (CStop 0 false true) ROk w1 /\
  w_clients w1 !! 0%nat = Some c1 /\ w_regs w1 !! cl_reg c1 = Some r1 /\ startable (w_heap w1) r1 /\ wstep w1 (CStart 0 (ex_gen + 1) ex_pid true) ROk w2.
Proof.
  destruct (restart_possible exs 0 ex_gen ex_pid false (ex_gen + 1) ex_pid exs_reachable exs_synced eq_refl) as (w1 & c & r & w2 & A1 & A2 & A3 & A4 & A5 & A6).
  exists c, w1, (set_mapped r false), w2. split; [exact exw_reachable|]. split; [exact exw_client|]. split; [exact exw_reg|]. split; [exact exw_startable|]. split; [exact exs_step|].
  split; [exact (proj1 exs_file)|]. split; [exact A1|]. split; [exact A2|]. split; [exact A4|]. split; [exact A5|exact A6].
Qed.

(** ** C54 *)
(** An error from Start changes no metric, registry or client; at the client's location there is the old file, none, or one full of zeros. *)
Theorem C54_failed_start w cid gen pid o w' c : w_clients w !! cid = Some c -> wstep w (CStart cid gen pid false) o w' ->
  o = RErr /\ w_heap w' = w_heap w /\ w_regs w' = w_regs w /\ w_clients w' = w_clients w /\ w_dead w' = false /\ f_writers (w_files w') = f_writers (w_files w) /\
  (w_paths w' = w_paths w /\ w_files w' = w_files w \/ file_of w' c = None \/ exists n, 0 <= n /\ file_of w' c = Some (zeros n)).
Proof. exact (failed_start w cid gen pid o w' c). Qed.
(** A reader refuses such a file. *)
Theorem C54_zeros_refused n : 0 <= n -> Dump (zeros n) = DErr.
Proof. exact (Dump_zeros n). Qed.
(** The same for a process that dies between two system calls of the file's creation, or in the middle of the write: [o'] is what is left. *)
Theorem C54_crash loc size o pc o' : 0 <= size -> rtc (fstep loc size) (FStat, o) (pc, o') ->
  (forall ino b, os_inodes o !! ino = Some b -> os_inodes o' !! ino = Some b) /\ (forall p, p <> loc -> os_paths o' !! p = os_paths o !! p) /\
  (o' = o \/ os_paths o' !! loc = None \/ exists ino n, os_paths o' !! loc = Some ino /\ os_inodes o !! ino = None /\ os_inodes o' !! ino = Some (zeros n) /\ 0 <= n <= size) /\
  (forall ino, pc = FDone ino -> os_paths o' !! loc = Some ino /\ os_inodes o !! ino = None /\ os_inodes o' !! ino = Some (zeros size)).
Proof.
  intros Hs R. destruct (creating_run _ _ _ _ _ Hs R) as [A B C D]. split; [exact A|]. split; [exact B|]. split.
  - destruct C as [->|[->|(ino & n & Hi & Hn & ->)]]; [auto|right; left; apply lookup_delete|]. right. right. exists ino, n. cbn [os_paths os_inodes]. rewrite !lookup_insert. auto.
  - intros ino ->. destruct D as [Hi ->]. cbn [os_paths os_inodes]. rewrite !lookup_insert. auto.
Qed.
(** The history model allows for a failing Start exactly what the sequence of system calls can do. *)
Theorem C54_calls w cid gen pid c r : w_clients w !! cid = Some c -> w_regs w !! cl_reg c = Some r -> w_dead w = false -> 0 <= Length r ->
  (forall w', f_writers (w_files w') = f_writers (w_files w) -> w_heap w' = w_heap w -> w_regs w' = w_regs w -> w_clients w' = w_clients w -> w_offs w' = w_offs w -> w_dead w' = false ->
     rtc (fstep (cl_loc c) (Length r)) (FStat, world_os w) (FErr, world_os w') -> wstep w (CStart cid gen pid false) RErr w') /\
  (forall o w', is_Some (w_paths w !! cl_loc c) -> wstep w (CStart cid gen pid false) o w' -> rtc (fstep (cl_loc c) (Length r)) (FStat, world_os w) (FErr, world_os w')).
Proof.
  intros Hc Hr Hd HL. split.
  - intros w' E1 E2 E3 E4 E5 E6 R. eapply failed_start_calls; eauto.
  - intros o w' Hp S. eapply failed_start_possible; eauto.
Qed.
(** After the failure Start can be called again, and then publishes everything. *)
Theorem C54_try_again w cid gen pid o w' c r gen' pid' : reachable w -> w_clients w !! cid = Some c -> w_regs w !! cl_reg c = Some r -> startable (w_heap w) r ->
  wstep w (CStart cid gen pid false) o w' ->
  (exists w2, wstep w' (CStart cid gen' pid' true) ROk w2) /\ forall o2 w2, wstep w' (CStart cid gen' pid' true) o2 w2 -> o2 = ROk -> publishes w2 cid gen' pid'.
Proof.
  intros R Hc Hr Hs S. assert (reachable w') as R' by (eapply reachable_step; eauto). destruct (failed_start _ _ _ _ _ _ _ Hc S) as (_ & E1 & E2 & E3 & E4 & _).
  assert (w_clients w' !! cid = Some c) as Hc' by congruence. assert (w_regs w' !! cl_reg c = Some r) as Hr' by congruence. assert (startable (w_heap w') r) as Hs' by congruence. split.
  - destruct (start_possible w' cid c r gen' pid' (fresh (dom (f_writers (w_files w')))) (fresh (dom (f_inodes (w_files w')))) (reachable_ok _ R') E4 Hc' Hr' Hs') as (s & St & _).
    + apply not_elem_of_dom, is_fresh.
    + apply not_elem_of_dom, is_fresh.
    + eauto.
  - intros o2 w2 St ->. destruct (start_step _ _ _ _ _ _ _ R' Hc' Hr' Hs' St) as (W2 & S2 & _). by apply synced_file.
Qed.
(** The failure in which the old file has been removed. *)
Lemma fail_removed w cid c r gen pid : w_dead w = false -> w_clients w !! cid = Some c -> w_regs w !! cl_reg c = Some r ->
  exists w', wstep w (CStart cid gen pid false) RErr w' /\ w_clients w' = w_clients w /\ w_regs w' = w_regs w /\ file_of w' c = None.
Proof.
  intros Hd Hc Hr. eexists. split; [eapply ws_start_err; [exact Hd|exact Hc|exact Hr|right; left; split; reflexivity]|]. cbn [w_clients w_regs].
  split; [reflexivity|]. split; [reflexivity|]. unfold file_of. cbn [w_paths]. rewrite lookup_delete. reflexivity.
Qed.
Lemma synced_parts w cid gen pid : synced w cid gen pid -> exists c r, w_clients w !! cid = Some c /\ w_regs w !! cl_reg c = Some r /\ r_mapped r = true /\ is_Some (w_paths w !! cl_loc c).
Proof. intros (c & r & wr & ino & pl & ad & am & buf & Hc & Hr & Hmap & Hwr & Hpath & _). exists c, r. eauto. Qed.
Lemma exs_dead : w_dead exs = false.
Proof. reflexivity. Qed.
Lemma exs_fail : exists c r w', w_clients exs !! 0%nat = Some c /\ w_regs exs !! cl_reg c = Some r /\ r_mapped r = true /\ is_Some (w_paths exs !! cl_loc c) /\
  wstep exs (CStart 0 ex_gen ex_pid false) RErr w' /\ w_clients w' = w_clients exs /\ w_regs w' = w_regs exs /\ file_of w' c = None.
Proof.
  destruct (synced_parts _ _ _ _ exs_synced) as (c & r & A & B & C & D). destruct (fail_removed exs 0 c r ex_gen ex_pid exs_dead A B) as (w' & E1 & E2 & E3 & E4).
  exists c, r, w'. exact (conj A (conj B (conj C (conj D (conj E1 (conj E2 (conj E3 E4))))))).
Qed.
(** The started client of Example.v; the second Start fails after removing the old file. *)
Example C54_ex : exists w' c, reachable exs /\ w_clients exs !! 0%nat = Some c /\ wstep exs (CStart 0 ex_gen ex_pid false) RErr w' /\ is_Some (w_paths exs !! cl_loc c) /\
  let o := mkOs {[str "/a" := 0%nat]} {[0%nat := str "old"]} in rtc (fstep (str "/a") 3) (FStat, o) (FDone 1, mkOs (<[str "/a" := 1%nat]> (os_paths o)) (<[1%nat := zeros 3]> (os_inodes o))).
Proof.
  destruct exs_fail as (c & r & w' & A & B & C & D & E & _). exists w', c. split; [exact exs_reachable|]. split; [exact A|]. split; [exact E|]. split; [exact D|].
  apply (create_possible (str "/a") 3 (mkOs {[str "/a" := 0%nat]} {[0%nat := str "old"]}) 1); [lia|reflexivity].
Qed.

(** ** C55 *)
(** False: the old file is removed before anything that can fail, so a failing second Start ends the publication, while the client still counts as started. *)
Theorem C55_failed_restart_refuted : exists w c r w', reachable w /\ publishes w 0 ex_gen ex_pid /\ wstep w (CStart 0 ex_gen ex_pid false) RErr w' /\
  w_clients w' !! 0%nat = Some c /\ w_regs w' !! cl_reg c = Some r /\ r_mapped r = true /\ file_of w' c = None.
Proof.
  destruct exs_fail as (c & r & w' & A & B & C & D & E & E1 & E2 & E3). exists exs, c, r, w'. split; [exact exs_reachable|]. split; [exact (synced_file _ _ _ _ exs_ok exs_synced)|]. split; [exact E|].
  rewrite E1, E2. split; [exact A|]. split; [exact B|]. split; [exact C|exact E3].
Qed.
(** What does hold: if the file is still there it is the published one and stays up to date, and in any case no update faults. Missing: the file itself. *)
Theorem C55_failed_restart_partial w0 cid c0 r0 gen pid w1 tr w gen' pid' o w' : reachable w0 -> w_clients w0 !! cid = Some c0 -> w_regs w0 !! cl_reg c0 = Some r0 -> startable (w_heap w0) r0 ->
  wstep w0 (CStart cid gen pid true) ROk w1 -> phist (fun w cl => keeps w cid cl) w1 tr w -> wstep w (CStart cid gen' pid' false) o w' ->
  (w_paths w' !! cl_loc c0 = w_paths w !! cl_loc c0 -> publishes w' cid gen pid) /\
  (forall r mp op mst o2 w2, w_regs w !! cl_reg c0 = Some r -> registered r mp -> op_fits op -> wstep w' (CUpdate mp op mst) o2 w2 -> o2 <> RFault).
Proof.
  intros R0 Hc0 Hr0 Hs0 St0 Hh St. destruct (start_hist _ _ _ _ _ _ _ _ _ R0 Hc0 Hr0 Hs0 St0 Hh) as (W & Sy & Hrg & wr & Hc).
  assert (reachable w1) as R1 by (eapply reachable_step; eauto).
  split.
  - intros Hp. apply synced_file; [eapply wstep_ok; eauto|]. destruct Sy as (c' & r' & wr' & ino & pl & ad & am & buf & Hc' & Hr' & Hmap & Hwr & Hpath & S).
    rewrite Hc in Hc'. injection Hc' as <-. cbn [cl_loc cl_reg cl_wr] in *.
    destruct (start_frame _ _ _ _ _ _ _ _ Hc St) as [F1 _]. destruct (failed_start _ _ _ _ _ _ _ Hc St) as (_ & E1 & E2 & E3 & _ & E4 & _).
    eexists _, r', wr', ino, pl, ad, am, buf. rewrite E2, E3. split; [exact Hc|]. cbn [cl_loc cl_reg cl_wr]. split; [exact Hr'|]. split; [exact Hmap|]. split; [exact Hwr|]. split; [congruence|].
    rewrite E1. destruct S as [A1 A2 A3 A4 A5 A6 A7]. split; auto. by rewrite E4.
  - intros r mp op mst o2 w2 Hr Hreg Hf Su. exact (failed_restart_updates _ _ _ _ _ _ _ _ _ _ _ _ _ _ _ W Sy Hc Hr St Hreg Hf Su).
Qed.
(** The started client of Example.v. *)
Example C55_ex : exists w', reachable exw /\ w_clients exw !! 0%nat = Some exc /\ w_regs exw !! cl_reg exc = Some exr /\ startable (w_heap exw) exr /\
  wstep exw (CStart 0 ex_gen ex_pid true) ROk exs /\ phist (fun w cl => keeps w 0 cl) exs [] exs /\ wstep exs (CStart 0 ex_gen ex_pid false) RErr w'.
Proof.
  destruct exs_fail as (c & r & w' & A & B & C & D & E & _). exists w'.
  split; [exact exw_reachable|]. split; [exact exw_client|]. split; [exact exw_reg|]. split; [exact exw_startable|]. split; [exact exs_step|]. split; [constructor|exact E].
Qed.

Print Assumptions C52_names.
Print Assumptions C52_distinct.
Print Assumptions C52_units.
Print Assumptions C53_start_frame.
Print Assumptions C53_replaced_file.
Print Assumptions C53_stopped_file.
Print Assumptions C54_failed_start.
Print Assumptions C54_zeros_refused.
Print Assumptions C54_crash.
Print Assumptions C54_calls.
Print Assumptions C54_try_again.
Print Assumptions C55_failed_restart_refuted.
Print Assumptions C55_failed_restart_partial.
