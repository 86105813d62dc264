(** C42, C43, C44, C45: the reader and its text form.
    Specification vocabulary: DumpSched.v ([dump_run data o]: some interleaving of the goroutines of
    Dump ends in [o]), DumpBad.v ([bad_input]: the inputs that can take the reader down; [orderly]: a
    dump or an error), DumpText.v ([Write]). *)
From Verif Require Import Base BaseFacts Floats GoVal MetricType ByteWriter Hash Units Indom Metrics Registry Prog
  Client Mmvdump Ileave ProgProofs Exec Events StartEvents BufFacts Tiling StartGood StartLayout StartFinal StartDone
  View Sections StartView RegInv Update World OpRuns RegFacts WorldInv Sync StartLive FloatFacts ValueFacts MetricFacts SyncLive SyncView OpFacts
  Crash Life Layout Example Witness DumpSched DumpFacts DumpSeq DumpTrunc DumpBad DumpRun DumpText TextFacts Golden.

(** ** Small inputs *)
Definition hdr_bytes (toc_count : Z) : list byte :=
  str "MMV" ++ [x00] ++ le_enc 4 1 ++ le_enc 8 7 ++ le_enc 8 7 ++ le_enc 4 toc_count ++ le_enc 4 0 ++ le_enc 4 0 ++ le_enc 4 0.
Definition toc_bytes (t n off : Z) : list byte := le_enc 4 t ++ le_enc 4 n ++ le_enc 8 off.

(** ** C42 *)
(** A negative number of table entries: make panics. *)
Theorem C42_toc_count_refuted o : dump_run (hdr_bytes (-1)) o -> o = DPanic.
Proof.
  intros R. apply no_tocs_run in R; [|reflexivity]. rewrite R. reflexivity.
Qed.
(** A negative number of records: wg.Add panics. *)
Theorem C42_count_refuted : dump_run (hdr_bytes 1 ++ toc_bytes 5 (-1) 56) DPanic.
Proof.
  eapply dr_crash; [reflexivity|vm_compute; congruence|reflexivity|].
  eapply count_panics; [apply elem_of_list_here|reflexivity|reflexivity].
Qed.
(** An entry of unknown type: Dump waits forever. *)
Theorem C42_unknown_type_refuted o : dump_run (hdr_bytes 1 ++ toc_bytes 6 0 56) o -> o = DHang.
Proof.
  intros R. set (data := hdr_bytes 1 ++ toc_bytes 6 0 56) in *.
  assert (exists h, dump_tocs data = Some (h, [mkToc 6 0 56])) as [h E] by (eexists; reflexivity).
  destruct (tocs_run _ _ _ _ E R) as [(ss & res & R1 & R2 & _)|[[R1 _]|(ss & res & _ & _ & _ & ->)]]; [| |done]; exfalso.
  - eapply unknown_never_returns; [|exact R1|exact R2]. exists (mkToc 6 0 56). split; [apply elem_of_list_here|reflexivity].
  - pose proof (stuck data (hd_version h) _ _ _ (ginv_init data (hd_version h) [mkToc 6 0 56])) as N. inversion R1 as [|? y ? S]; subst. eapply N; [|exact S].
    intros s Hs. apply elem_of_list_singleton in Hs as ->. right. reflexivity.
Qed.
(** An offset near 2^64: the bounds check wraps around and the index expression panics. *)
Theorem C42_offset_refuted : dump_run (hdr_bytes 1 ++ toc_bytes 4 1 (2 ^ 64 - 32)) DPanic.
Proof.
  eapply dr_crash; [reflexivity|vm_compute; congruence|reflexivity|].
  eapply (item_panics _ _ _ _ (2 ^ 64 - 32)); [apply elem_of_list_here|reflexivity|vm_compute; congruence|apply elem_of_list_here|vm_compute; reflexivity].
Qed.
(** What does hold: on every other input every execution ends in a dump or an error. Missing: the inputs [bad_input]. *)
Theorem C42_orderly_partial data o : zlen data < 2 ^ 63 -> ~ bad_input data -> dump_run data o -> orderly o.
Proof.
  intros HL N R. destruct o as [d| | |]; [right; eauto|by left|..]; exfalso; apply N, bad_input_exact; auto; eexists; (split; [exact R|]); intros [?|[? ?]]; done.
Qed.
(** The excluded inputs are exactly those on which some execution panics or blocks. *)
Theorem C42_exact data : zlen data < 2 ^ 63 -> (bad_input data <-> exists o, dump_run data o /\ ~ orderly o).
Proof. exact (bad_input_exact data). Qed.
(** On every input all executions are finite (or stop after finitely many steps waiting forever). *)
Theorem C42_finite data h tocs : readHeader data = Some h -> exists n, forall i y, nsteps (dstep data (hd_version h)) i (dinit tocs) y -> (i <= n)%nat.
Proof. intros _. exists (dweight (dinit tocs)). intros i y H. apply drun_bounded in H. lia. Qed.
(** On every input, whatever any goroutine has read so far lies inside the slice. *)
Theorem C42_in_bounds data h tocs ss res s o x : zlen data < 2 ^ 63 -> readHeader data = Some h -> 0 <= hd_toc h ->
  read_tocs data 40 (Z.to_nat (hd_toc h)) = Some tocs -> rtc (dstep data (hd_version h)) (dinit tocs) (DRun ss res) -> s ∈ ss ->
  (o, GStore x) ∈ s_pcs s \/ s_items s !! o = Some x -> 0 <= o /\ o + record_len (hd_version h) (tc_type (s_toc s)) <= zlen data.
Proof.
  intros HL Eh C Et R Hs H. rewrite <- record_len_eq. assert (dump_tocs data = Some (h, tocs)) as ED by (apply dump_tocs_eq; auto).
  pose proof (ginv_reach _ _ _ _ R) as I. cbn in I. pose proof (gi_sects _ _ _ _ _ I) as F. rewrite Forall_forall in F. specialize (F s Hs).
  assert (0 <= tc_offset (s_toc s) < 2 ^ 64) as HO.
  { eapply tocs_offset; [exact ED|]. rewrite <- (gi_tocs _ _ _ _ _ I). apply elem_of_list_fmap. eauto. }
  destruct (s_started s) eqn:Es.
  - assert (o ∈ sect_offs (hd_version h) (s_toc s) /\ rd data (hd_version h) (s_toc s) o = IOk x) as [A1 A2].
    { destruct H as [H|H]; [|by apply (si_items _ _ _ F Es)]. split.
      - destruct (si_known _ _ _ F Es) as (_ & _ & <-). apply elem_of_list_fmap. exists (o, GStore x). done.
      - pose proof (si_pcs _ _ _ F Es) as P. rewrite Forall_forall in P. apply (P _ H). }
    pose proof (item_offs_range _ _ _ _ HO A1) as Ho. split; [lia|]. eapply read_item_bounds; eauto.
  - pose proof (fresh_empty _ _ _ _ _ R s Hs Es) as [E1 E2]. rewrite E1, E2 in H. destruct H as [H|H]; [by apply elem_of_nil in H|by rewrite lookup_empty in H].
Qed.
(** The files of the test suite are good inputs and are read; a truncated one is good and rejected. *)
Example C42_ex : (exists d, dump_run test2 (DOk d)) /\ dump_run (take 700 test1) DErr /\ bad_input (hdr_bytes (-1)).
Proof.
  split; [|split].
  - destruct (Dump test2) as [d| | |] eqn:E; [|exfalso; vm_compute in E; discriminate..]. exists d. apply good_check_run; [vm_compute; reflexivity|exact E].
  - apply good_check_run; vm_compute; reflexivity.
  - eexists. split; [vm_compute; reflexivity|]. left. reflexivity.
Qed.

(** Which inputs are accepted. The header: 40 bytes, the tag, two equal generation numbers; anything else is an error. *)
Theorem C42_header data : (exists h, readHeader data = Some h) <-> header_ok data.
Proof. exact (header_iff data). Qed.
Theorem C42_bad_header data o : ~ header_ok data -> dump_run data o -> o = DErr.
Proof.
  intros N R. assert (readHeader data = None) as E by (destruct (readHeader data) eqn:E; [|done]; destruct N; apply C42_header; eauto).
  destruct R; congruence.
Qed.
(** The table of contents: 16 bytes per entry after the header. *)
Theorem C42_table data n tocs : 40 <= zlen data ->
  read_tocs data 40 n = Some tocs <-> 40 + 16 * Z.of_nat n <= zlen data /\ tocs = map (fun k => dec_toc data (40 + 16 * Z.of_nat k)) (seq 0 n).
Proof. intros H. apply read_tocs_iff. lia. Qed.
(** The records: Dump succeeds exactly if those of every entry lie in the file. *)
Theorem C42_accepts data h tocs : zlen data < 2 ^ 63 -> readHeader data = Some h -> 0 <= hd_toc h -> read_tocs data 40 (Z.to_nat (hd_toc h)) = Some tocs -> NoDup (map tc_type tocs) ->
  (exists d, dump_run data (DOk d)) <-> Forall (fits_entry (zlen data) (hd_version h)) tocs.
Proof. intros HL Eh C Et ND. apply accepts_iff; [done| |done]. by apply dump_tocs_eq. Qed.
(* a header alone is a file; a table of one entry needs its 16 bytes *)
Example C42_header_ex : header_ok (hdr_bytes 0) /\ dump_run (hdr_bytes 0) (DOk (mkDump (dec_header (hdr_bytes 0)) [] ∅ ∅ ∅ ∅ ∅)) /\ ~ header_ok (take 39 (hdr_bytes 0)) /\
  dump_run (hdr_bytes 1) DErr /\ fits_entry 744 1 (mkToc 4 2 680) /\ ~ fits_entry 743 1 (mkToc 4 2 680).
Proof.
  split; [|split; [|split; [|split; [|split]]]].
  - apply C42_header. eexists. reflexivity.
  - assert (DOk (mkDump (dec_header (hdr_bytes 0)) [] ∅ ∅ ∅ ∅ ∅) = Dump (hdr_bytes 0)) as -> by reflexivity. apply dump_is_run.
  - intros [H _]. vm_compute in H. done.
  - assert (DErr = Dump (hdr_bytes 1)) as -> by reflexivity. apply dump_is_run.
  - unfold fits_entry. cbn. lia.
  - unfold fits_entry. cbn. lia.
Qed.

(** ** C43 *)
(** The sequential reader [Dump] of Mmvdump.v is one of the interleavings, on every input. *)
Theorem C43_sequential data : dump_run data (Dump data).
Proof. exact (dump_is_run data). Qed.
(** At most one entry of each of the five types. *)
Definition one_per_type (tocs : list toc) : Prop := NoDup (map tc_type (filter (fun t => 1 <= tc_type t <= 5) tocs)).
Lemma one_per_type_known tocs : one_per_type tocs -> Forall (fun t => 1 <= tc_type t <= 5) tocs -> NoDup (map tc_type tocs).
Proof.
  intros H F. unfold one_per_type in H. assert (filter (fun t => 1 <= tc_type t <= 5) tocs = tocs) as E; [|by rewrite E in H].
  clear H. induction F as [|t l Ht _ IH]; [done|]. rewrite filter_cons_True by done. by rewrite IH.
Qed.
(** If one interleaving yields a dump, all yield this dump, which is the one of the sequential reader. *)
Theorem C43_same_dump data h tocs d o : readHeader data = Some h -> read_tocs data 40 (Z.to_nat (hd_toc h)) = Some tocs -> one_per_type tocs ->
  dump_run data (DOk d) -> dump_run data o -> o = DOk d /\ Dump data = DOk d.
Proof.
  intros Eh Et ND R1 R2. destruct (Z_lt_dec (hd_toc h) 0) as [C|C].
  - exfalso. inversion R1 as [| | |h' tocs' ss res E' C' T'| |]; subst. rewrite Eh in E'. injection E' as <-. lia.
  - assert (dump_tocs data = Some (h, tocs)) as ED by (apply dump_tocs_eq; split_and!; auto; lia).
    assert (NoDup (map tc_type tocs)) as ND'.
    { apply one_per_type_known; [exact ND|]. apply Forall_forall. intros t Ht. apply known_range. destruct (known_type (tc_type t)) eqn:K; [done|].
      exfalso. eapply unknown_type_not_orderly; [exact ED|exact Ht|exact K|exact R1|]. right. eauto. }
    pose proof (run_ok_seq _ _ _ _ ED ND' R1) as E. split; [|done]. eapply seq_ok_run; eauto.
Qed.
(** If the input cannot take the reader down, all interleavings end the same way. *)
Theorem C43_same_outcome data h tocs o o' : zlen data < 2 ^ 63 -> ~ bad_input data -> readHeader data = Some h -> read_tocs data 40 (Z.to_nat (hd_toc h)) = Some tocs -> one_per_type tocs ->
  dump_run data o -> dump_run data o' -> o' = o.
Proof.
  intros HL N Eh Et ND R1 R2. destruct (C42_orderly_partial _ _ HL N R1) as [->|[d ->]]; [|by destruct (C43_same_dump _ _ _ _ _ Eh Et ND R1 R2)].
  destruct (C42_orderly_partial _ _ HL N R2) as [->|[d' ->]]; [done|]. destruct (C43_same_dump _ _ _ _ _ Eh Et ND R2 R1). done.
Qed.
(** With two entries of one type the dump does depend on the interleaving: the section read last wins. *)
Definition twice : list byte := hdr_bytes 2 ++ toc_bytes 4 0 72 ++ toc_bytes 4 1 72 ++ zeros 32.
Theorem C43_one_per_type_needed : exists d d', dump_run twice (DOk d) /\ dump_run twice (DOk d') /\ du_values d = ∅ /\ du_values d' !! 72 = Some (mkDValue 0 0 0 0).
Proof.
  set (h := dec_header twice). set (ts := [mkToc 4 0 72; mkToc 4 1 72]). set (v := ItValue (mkDValue 0 0 0 0)).
  set (item := mkSect (mkToc 4 1 72) true [(72, GEnd)] {[72 := v]} false). set (none := mkSect (mkToc 4 0 72) true [] ∅ false).
  assert (forall res l1 l2, rtc (dstep twice 1) (DRun (l1 ++ new_sect (mkToc 4 1 72) :: l2) res) (DRun (l1 ++ item true :: l2) (<[4 := Some {[72 := v]}]> res)) /\
    rtc (dstep twice 1) (DRun (l1 ++ new_sect (mkToc 4 0 72) :: l2) res) (DRun (l1 ++ none true :: l2) (<[4 := Some ∅]> res))) as G.
  { intros res l1 l2. split.
    - eapply rtc_l; [apply (ds_start _ _ l1 (new_sect (mkToc 4 1 72)) l2); [reflexivity|reflexivity|vm_compute; congruence]|]. cbn [s_toc new_sect].
      change (map _ _) with [(72, GCheck)].
      eapply rtc_l; [eapply (ds_item _ _ l1 _ l2 _ [] _ _ []); [reflexivity|reflexivity|discriminate|reflexivity]|]. cbn [s_toc s_ret app s_err s_items].
      eapply rtc_l; [eapply (ds_item _ _ l1 _ l2 _ [] _ _ [] (GStore v)); [reflexivity|reflexivity|discriminate|vm_compute; reflexivity]|]. cbn [s_toc s_ret app s_err s_items].
      eapply rtc_l; [eapply (ds_item _ _ l1 _ l2 _ [] _ _ []); [reflexivity|reflexivity|discriminate|reflexivity]|]. cbn [s_toc s_ret app s_err s_items].
      eapply rtc_l; [eapply (ds_return _ _ l1 _ l2); [reflexivity|reflexivity|repeat constructor]|]. cbn [s_toc s_ret app s_err s_items s_pcs tc_type]. apply rtc_refl.
    - eapply rtc_l; [apply (ds_start _ _ l1 (new_sect (mkToc 4 0 72)) l2); [reflexivity|reflexivity|vm_compute; congruence]|]. cbn [s_toc new_sect].
      change (map _ _) with (@nil (Z * gpc)).
      eapply rtc_l; [eapply (ds_return _ _ l1 _ l2); [reflexivity|reflexivity|repeat constructor]|]. cbn [s_toc s_ret app s_err s_items s_pcs tc_type]. apply rtc_refl. }
  assert (forall res, rtc (dstep twice (hd_version h)) (dinit ts) (DRun [none true; item true] res) -> dump_run twice (dresult h ts res)) as D.
  { intros res R. eapply (dr_done twice h ts); [vm_compute; reflexivity|vm_compute; congruence|vm_compute; reflexivity|exact R|repeat constructor]. }
  change (hd_version h) with 1 in D.
  set (dump (res : gmap Z (option (gmap Z ditem))) := mkDump h ts (typed as_metric (res !! TocMetrics)) (typed as_value (res !! TocValues)) (typed as_instance (res !! TocInstances)) (typed as_indom (res !! TocIndoms)) (typed as_string (res !! TocStrings))).
  assert (forall m, dresult h ts (<[4 := Some m]> ∅) = DOk (dump (<[4 := Some m]> ∅))) as E by reflexivity.
  exists (dump (<[4 := Some ∅]> ∅)), (dump (<[4 := Some {[72 := v]}]> ∅)). split; [|split; [|split]].
  - rewrite <- E. apply D. rewrite <- (insert_insert (∅ : gmap Z (option (gmap Z ditem))) 4 (Some ∅) (Some {[72 := v]})). etransitivity; [exact (proj1 (G ∅ [new_sect (mkToc 4 0 72)] []))|]. exact (proj2 (G _ [] [item true])).
  - rewrite <- E. apply D. rewrite <- (insert_insert (∅ : gmap Z (option (gmap Z ditem))) 4 (Some {[72 := v]}) (Some ∅)). etransitivity; [exact (proj2 (G ∅ [] [new_sect (mkToc 4 1 72)]))|]. exact (proj1 (G _ [none true] [])).
  - change (omap as_value (∅ : gmap Z ditem) = ∅). apply omap_empty.
  - vm_compute. reflexivity.
Qed.
(** Some execution always exists. *)
Theorem C43_total data : exists o, dump_run data o.
Proof. exact (dump_run_total data). Qed.
(** Two values, the first beyond the file and the second wrapping around: one interleaving reports an
    error, another one panics. *)
Definition mixed : list byte := hdr_bytes 1 ++ toc_bytes 4 2 (2 ^ 64 - 48).
Theorem C43_error_or_panic_refuted : dump_run mixed DErr /\ dump_run mixed DPanic.
Proof.
  split.
  - change DErr with (dresult (dec_header mixed) [mkToc 4 2 (2 ^ 64 - 48)] (<[4 := None]> ∅)).
    eapply (dr_done mixed (dec_header mixed) [mkToc 4 2 (2 ^ 64 - 48)]); [vm_compute; reflexivity|vm_compute; congruence|vm_compute; reflexivity| |].
    + unfold dinit. cbn [map new_sect hd_version].
      eapply rtc_l; [apply (ds_start _ _ []); [reflexivity|reflexivity|vm_compute; congruence]|]. cbn [s_toc].
      change (map _ _) with [(2 ^ 64 - 48, GCheck); (2 ^ 64 - 16, GCheck)].
      eapply rtc_l; [eapply (ds_item _ _ [] _ [] _ []); [reflexivity|reflexivity|discriminate|reflexivity]|]. cbn [s_toc s_ret app].
      eapply rtc_l; [eapply (ds_item _ _ [] _ [] _ []); [reflexivity|reflexivity|discriminate|vm_compute; reflexivity]|]. cbn [s_toc s_ret app].
      eapply rtc_l; [eapply (ds_item _ _ [] _ [] _ []); [reflexivity|reflexivity|discriminate|reflexivity]|]. cbn [s_toc s_ret app].
      eapply rtc_l; [eapply (ds_item _ _ [] _ [] _ [_]); [reflexivity|reflexivity|discriminate|reflexivity]|]. cbn [s_toc s_ret app s_err].
      eapply rtc_l; [eapply (ds_return _ _ []); [reflexivity|reflexivity|repeat constructor]|]. cbn [s_toc s_ret app s_err s_items s_pcs tc_type].
      apply rtc_refl.
    + repeat constructor.
  - eapply (dr_crash mixed _ [mkToc 4 2 (2 ^ 64 - 48)]); [vm_compute; reflexivity|vm_compute; congruence|vm_compute; reflexivity|].
    eapply (item_panics _ _ _ _ (2 ^ 64 - 16)); [apply elem_of_list_here|reflexivity|vm_compute; congruence|apply elem_of_list_further, elem_of_list_here|vm_compute; reflexivity].
Qed.
Example C43_ex : exists d, dump_run test2 (DOk d) /\ good_check test2 = true /\ dump_run (take 700 test1) DErr /\ good_check (take 700 test1) = true.
Proof.
  destruct C42_ex as ([d R] & R2 & _). exists d. split; [exact R|]. split; [vm_compute; reflexivity|]. split; [exact R2|vm_compute; reflexivity].
Qed.

(** ** C44 *)
(** After Start and any calls that leave the client alone, every strict prefix of the file is rejected in every interleaving. *)
Theorem C44_truncated w cid c r gen pid w1 tr w2 : reachable w -> w_clients w !! cid = Some c -> w_regs w !! cl_reg c = Some r -> startable (w_heap w) r ->
  wstep w (CStart cid gen pid true) ROk w1 -> phist (fun w cl => keeps w cid cl) w1 tr w2 ->
  exists buf, file_of w2 c = Some buf /\ (exists d, dump_run buf (DOk d)) /\ forall n o, (n < length buf)%nat -> dump_run (take n buf) o -> o = DErr.
Proof.
  intros R Hc Hr Hs St H. destruct (start_hist _ _ _ _ _ _ _ _ _ R Hc Hr Hs St H) as (W2 & S2 & Hr2 & wr & Hc2).
  destruct (synced_complete _ _ _ _ W2 S2) as (c' & r' & buf & d & H1 & H2 & H3 & H4 & H5). rewrite Hc2 in H1. injection H1 as <-.
  exists buf. split; [exact H3|]. split.
  - exists d. destruct (dump_run_total buf) as [o Ro]. pose proof H5 as [HD _ _ HT _]. by rewrite <- (seq_ok_run _ _ _ _ _ (dump_inv_tocs _ _ HD) HT HD Ro).
  - intros n o Hn. by eapply truncated_run.
Qed.
Example C44_ex : reachable exw /\ startable (w_heap exw) exr /\ wstep exw (CStart 0 ex_gen ex_pid true) ROk exs /\ phist (fun w cl => keeps w 0 cl) exs [] exs.
Proof. split; [exact exw_reachable|]. split; [exact exw_startable|]. split; [exact exs_step|constructor]. Qed.

(** ** C45 *)
Theorem C45_write w cid c r gen pid w1 tr w2 : reachable w -> w_clients w !! cid = Some c -> w_regs w !! cl_reg c = Some r -> startable (w_heap w) r ->
  wstep w (CStart cid gen pid true) ROk w1 -> phist (fun w cl => keeps w cid cl) w1 tr w2 ->
  exists buf d out, file_of w2 c = Some buf /\ Dump buf = DOk d /\ Write d = WOk out.
Proof.
  intros R Hc Hr Hs St H. destruct (start_hist _ _ _ _ _ _ _ _ _ R Hc Hr Hs St H) as (W2 & S2 & Hr2 & wr & Hc2).
  destruct (synced_complete _ _ _ _ W2 S2) as (c' & r' & buf & d & H1 & H2 & H3 & H4 & H5). rewrite Hc2 in H1. injection H1 as <-.
  destruct (synced_file _ _ _ _ W2 S2) as (c1 & r1 & buf1 & A1 & A2 & A3 & A4 & A5 & (d1 & D1 & D2 & D3)). rewrite Hc2 in A1. injection A1 as <-.
  assert (buf1 = buf) as -> by congruence. assert (d1 = d) as -> by (pose proof (cf_dump _ _ H5); congruence).
  destruct (complete_write _ _ _ H5 D3 (want_inst_none _ _)) as [out Ho]. exists buf, d, out. split; [exact H3|]. split; [exact (cf_dump _ _ H5)|exact Ho].
Qed.
(** Without the assumption that the file is complete Write can panic: a metric of a version 2 file whose name is missing. *)
Theorem C45_needs_complete : exists data d, Dump data = DOk d /\ Write d = WPanic [PB (str "Version   = 2" ++ nl ++ str "Generated = 7" ++ nl ++ str "Toc Count = 1" ++ nl ++
  str "Cluster   = 0" ++ nl ++ str "Process   = 0" ++ nl ++ str "Flags     = 0x0" ++ nl ++ nl); PB (str "TOC[0], offset: 40, metric offset: 56 (1 entries)" ++ nl)].
Proof.
  exists (str "MMV" ++ [x00] ++ le_enc 4 2 ++ le_enc 8 7 ++ le_enc 8 7 ++ le_enc 4 1 ++ zeros 12 ++ toc_bytes 3 1 56 ++ zeros 48). eexists. split; [vm_compute; reflexivity|]. vm_compute. reflexivity.
Qed.
Example C45_ex : reachable exw /\ startable (w_heap exw) exr /\ wstep exw (CStart 0 ex_gen ex_pid true) ROk exs /\ phist (fun w cl => keeps w 0 cl) exs [] exs /\
  text_of test1 = Some golden1 /\ text_of test5 = Some golden5.
Proof. destruct C44_ex as (A & B & C & D). split; [exact A|]. split; [exact B|]. split; [exact C|]. split; [exact D|]. split; [exact golden1_ok|exact golden5_ok]. Qed.

Print Assumptions C42_toc_count_refuted.
Print Assumptions C42_count_refuted.
Print Assumptions C42_unknown_type_refuted.
Print Assumptions C42_offset_refuted.
Print Assumptions C42_orderly_partial.
Print Assumptions C42_exact.
Print Assumptions C42_finite.
Print Assumptions C42_in_bounds.
Print Assumptions C42_header.
Print Assumptions C42_bad_header.
Print Assumptions C42_table.
Print Assumptions C42_accepts.
Print Assumptions C43_sequential.
Print Assumptions C43_same_dump.
Print Assumptions C43_same_outcome.
Print Assumptions C43_one_per_type_needed.
Print Assumptions C43_total.
Print Assumptions C43_error_or_panic_refuted.
Print Assumptions C44_truncated.
Print Assumptions C45_write.
Print Assumptions C45_needs_complete.
