(** Bounds of the reads of Dump, and truncated files. *)
From Verif Require Import Base BaseFacts Floats GoVal MetricType ByteWriter Hash Units Indom Metrics Registry Prog
  Client Mmvdump Ileave ProgProofs Events StartEvents BufFacts Tiling StartGood StartLayout StartFinal StartDone
  View Sections StartView RegInv Update World OpRuns RegFacts WorldInv Sync FloatFacts ValueFacts MetricFacts SyncLive SyncView Layout
  DumpSched DumpFacts DumpSeq.

(** ** Bounds *)
Lemma u64_range off data : 0 <= u64 off data < 2 ^ 64.
Proof.
  unfold u64. pose proof (le_dec_range (sub off 8 data)) as H. split; [lia|]. eapply Z.lt_le_trans; [apply H|].
  change (2 ^ 64) with (256 ^ 8). apply Z.pow_le_mono_r; [lia|]. unfold sub. rewrite take_length. lia.
Qed.
Lemma read_tocs_spec data n : forall off tocs, 0 <= off -> read_tocs data off n = Some tocs ->
  length tocs = n /\ off + 16 * Z.of_nat n <= Z.max off (zlen data) /\ tocs = map (fun k => dec_toc data (off + 16 * Z.of_nat k)) (seq 0 n).
Proof.
  induction n as [|n IH]; intros off tocs Hoff H; cbn [read_tocs] in H.
  - injection H as <-. split_and!; [done|lia|done].
  - unfold DTocLength in H. destruct (zlen data <? off + 16) eqn:E; [done|]. destruct (read_tocs data (off + 16) n) as [l|] eqn:El; [|done]. injection H as <-.
    apply IH in El as (H1 & H2 & H3); [|lia]. split_and!; [cbn; lia|lia|]. cbn [seq map]. f_equal; [f_equal; lia|].
    rewrite H3, <- seq_shift, map_map. apply map_ext. intros k. f_equal. lia.
Qed.
Lemma read_tocs_conv data n : forall off, 0 <= off -> off + 16 * Z.of_nat n <= zlen data -> read_tocs data off n = Some (map (fun k => dec_toc data (off + 16 * Z.of_nat k)) (seq 0 n)).
Proof.
  induction n as [|n IH]; intros off Hoff H; cbn [read_tocs]; [done|]. unfold DTocLength. replace (zlen data <? off + 16) with false by lia.
  rewrite IH by lia. cbn [seq map]. f_equal. f_equal; [f_equal; lia|]. rewrite <- seq_shift, map_map. apply map_ext. intros k. f_equal. lia.
Qed.
Lemma tocs_offset data h tocs t : dump_tocs data = Some (h, tocs) -> t ∈ tocs -> 0 <= tc_offset t < 2 ^ 64.
Proof.
  unfold dump_tocs. destruct (readHeader data) as [h'|]; [|done]. destruct (hd_toc h' <? 0); [done|]. destruct (read_tocs _ _ _) as [l|] eqn:E; [|done]. intros [= -> ->] Ht.
  apply read_tocs_spec in E as (_ & _ & ->); [|unfold DHeaderLength; lia]. apply elem_of_list_fmap in Ht as (k & -> & _). apply u64_range.
Qed.

Lemma item_len_pos version t : 0 < item_len version t <= 256.
Proof.
  unfold item_len, d_inst_len, d_metric_len, DInstance1Length, DInstance2Length, DMetric1Length, DMetric2Length, DInstanceDomainLength, DValueLength, DStringLength.
  repeat case_match; lia.
Qed.
Lemma item_offs_range off len n o : 0 <= off < 2 ^ 64 -> o ∈ item_offs off len n -> 0 <= o < 2 ^ 64.
Proof.
  revert off. induction n as [|n IH]; intros off Ho H; cbn [item_offs] in H; [by apply elem_of_nil in H|]. apply elem_of_cons in H as [->|H]; [done|].
  eapply IH; [|exact H]. unfold to_unsigned. apply Z.mod_pos_bound. lia.
Qed.
(** Every item that is read lies inside the slice. *)
Lemma read_item_bounds data version t o x : zlen data < 2 ^ 63 -> 0 <= o < 2 ^ 64 -> read_item data version t o = IOk x -> o + item_len version t <= zlen data.
Proof.
  intros HL Ho. unfold read_item, read_at. pose proof (item_len_pos version t) as P. destruct (zlen data <? _) eqn:E1; [done|]. destruct (zlen data <=? o) eqn:E2; [done|]. intros _.
  unfold to_unsigned in E1. rewrite Z.mod_small in E1 by lia. lia.
Qed.
(** No item panics when the section ends before 2^64. *)
Lemma item_offs_nowrap off len n : 0 <= off -> 0 < len -> off + len * Z.of_nat n < 2 ^ 64 -> item_offs off len n = slots off len n.
Proof.
  revert off. induction n as [|n IH]; intros off H1 H2 H3; cbn [item_offs slots]; [done|]. f_equal. rewrite to_unsigned_id by (unfold in_unsigned; lia). apply IH; lia.
Qed.
Lemma nowrap_safe data version t : known_type (tc_type t) = true -> 0 <= tc_count t -> 0 <= tc_offset t ->
  tc_offset t + tc_count t * item_len version (tc_type t) < 2 ^ 64 -> sect_safe data version t.
Proof.
  intros K C O H. split_and!; auto. intros o Ho. unfold sect_offs in Ho. pose proof (item_len_pos version (tc_type t)) as P.
  rewrite item_offs_nowrap in Ho by lia. apply elem_slots in Ho as (k & Hk & ->). unfold rd, read_item, read_at.
  rewrite to_unsigned_id by (unfold in_unsigned; nia). destruct (zlen data <? _) eqn:E; [done|]. replace (zlen data <=? _) with false by lia. done.
Qed.

(** A run that panics, from one item that panics. *)
Lemma item_panics data version tocs t o : t ∈ tocs -> known_type (tc_type t) = true -> 0 <= tc_count t -> o ∈ sect_offs version t -> rd data version t o = IPanic ->
  rtc (dstep data version) (dinit tocs) DCrash.
Proof.
  intros Ht K C Ho E. apply elem_of_list_split in Ht as (a & b & ->). unfold dinit. rewrite map_app. cbn [map].
  eapply rtc_l; [apply ds_start; done|]. cbn [s_toc new_sect]. fold (sect_offs version t). apply elem_of_list_split in Ho as (p1 & p2 & Hp).
  eapply rtc_l; [eapply ds_item with (p := GCheck); [done|cbn [s_pcs]; rewrite Hp, map_app; reflexivity|done|reflexivity]|]. cbn [s_toc s_ret].
  apply rtc_once. eapply ds_panic with (p := GRead); [done|reflexivity|]. cbn. unfold rd in E. by rewrite E.
Qed.
Lemma count_panics data version tocs t : t ∈ tocs -> known_type (tc_type t) = true -> tc_count t < 0 -> rtc (dstep data version) (dinit tocs) DCrash.
Proof.
  intros Ht K C. apply elem_of_list_split in Ht as (a & b & ->). unfold dinit. rewrite map_app. cbn [map]. apply rtc_once, ds_negative; done.
Qed.
Lemma unknown_never_returns data version tocs ss res : (exists t, t ∈ tocs /\ known_type (tc_type t) = false) -> rtc (dstep data version) (dinit tocs) (DRun ss res) -> ~ all_returned ss.
Proof.
  intros (t & Ht & K) H A. pose proof (ginv_reach _ _ _ _ H) as I. cbn in I. rewrite <- (gi_tocs _ _ _ _ _ I) in Ht. apply elem_of_list_fmap in Ht as (s & -> & Hs).
  unfold all_returned in A. rewrite Forall_forall in A. pose proof (gi_sects _ _ _ _ _ I) as GI. rewrite Forall_forall in GI.
  destruct (sect_done _ _ s (GI s Hs) (A s Hs)) as (K' & _). congruence.
Qed.

(** ** Truncation *)
Lemma sub_take off n k (buf : list byte) : 0 <= off -> 0 <= n -> off + n <= Z.of_nat k -> sub off n (take k buf) = sub off n buf.
Proof.
  intros H1 H2 H3. unfold sub. rewrite skipn_firstn_comm, take_take. f_equal. lia.
Qed.
Lemma header_take k (buf : list byte) : 40 <= Z.of_nat k -> dec_header (take k buf) = dec_header buf.
Proof. intros H. unfold dec_header, u64, i32, u32. rewrite !sub_take by lia. done. Qed.
Lemma toc_take k (buf : list byte) off : 0 <= off -> off + 16 <= Z.of_nat k -> dec_toc (take k buf) off = dec_toc buf off.
Proof. intros H1 H. unfold dec_toc, u64, i32, u32. rewrite !sub_take by lia. done. Qed.

Lemma adjacent_last l : forall b len, adjacent b l len -> b <= len /\ (b < len -> exists o n, (o, n) ∈ l /\ 0 < n /\ o + n = len).
Proof.
  induction l as [|[o n] l IH]; intros b len H; cbn in H; [lia|]. destruct H as (H1 & H2 & H3). destruct (IH _ _ H3) as [A B]. split; [lia|]. intros Hlt.
  destruct (Z_lt_dec (b + n) len) as [C|C].
  - destruct (B C) as (o' & n' & I1 & I2). exists o', n'. split; [by right|done].
  - exists o, n. split; [by left|]. assert (0 < n) by lia. specialize (H2 ltac:(lia)). lia.
Qed.
Lemma adjacent_bounds l : forall b len, 0 <= b -> adjacent b l len -> forall o n, (o, n) ∈ l -> 0 <= n /\ (0 < n -> 0 <= o /\ o + n <= len).
Proof.
  induction l as [|[o n] l IH]; intros b len Hb H o' n' Hin; [by apply elem_of_nil in Hin|]. cbn in H. destruct H as (H1 & H2 & H3).
  apply elem_of_cons in Hin as [[= -> ->]|Hin]; [|eapply IH; [|exact H3|done]; lia].
  split; [done|]. intros P. specialize (H2 P). destruct (adjacent_last _ _ _ H3). lia.
Qed.

(** What the layout of a complete file says. *)
Record complete (buf : list byte) (d : dump) : Prop := {
  cf_dump : Dump buf = DOk d;
  cf_adj : adjacent 0 (regions d) (zlen buf);
  cf_ver : hd_version (du_header d) = 1 \/ hd_version (du_header d) = 2;
  cf_types : NoDup (map tc_type (du_tocs d));
  cf_size : zlen buf < 2 ^ 63 }.

Lemma dump_inv buf d : Dump buf = DOk d -> readHeader buf = Some (du_header d) /\ 0 <= hd_toc (du_header d) /\
  read_tocs buf DHeaderLength (Z.to_nat (hd_toc (du_header d))) = Some (du_tocs d).
Proof.
  unfold Dump. destruct (readHeader buf) as [h|]; [|done]. destruct (hd_toc h <? 0) eqn:E; [done|]. destruct (read_tocs _ _ _) as [tocs|] eqn:Et; [|done].
  set (c := readComponents _ _ _). clearbody c. destruct (co_panic c); [done|]. destruct (co_unknown c); [done|].
  destruct (co_metrics c); try done. destruct (co_values c); try done. destruct (co_instances c); try done.
  destruct (co_indoms c); try done. destruct (co_strings c); try done. intros [= <-]. cbn. split_and!; auto. lia.
Qed.
Lemma dump_inv_tocs buf d : Dump buf = DOk d -> dump_tocs buf = Some (du_header d, du_tocs d).
Proof.
  intros H. destruct (dump_inv _ _ H) as (H1 & H2 & H3). unfold dump_tocs. rewrite H1. replace (hd_toc (du_header d) <? 0) with false by lia. by rewrite H3.
Qed.
Lemma rec_len_item ver t : ver = 1 \/ ver = 2 -> known_type t = true -> rec_len ver t = item_len ver t.
Proof. intros [-> | ->] K; apply known_cases in K as [->|[->|[->|[->| ->]]]]; reflexivity. Qed.

Lemma truncated_run buf d n o : complete buf d -> (n < length buf)%nat -> dump_run (take n buf) o -> o = DErr.
Proof.
  intros [HD HA HV HT HS] Hn. set (p := take n buf). assert (zlen p = Z.of_nat n) as Hp by (unfold zlen, p; rewrite take_length; lia).
  destruct (dump_inv _ _ HD) as (Eh & Ec & Et). set (h := du_header d) in *. set (tocs := du_tocs d) in *.
  pose proof (dump_inv_tocs _ _ HD) as EDT. fold h tocs in EDT. destruct (seq_ok _ _ _ _ EDT HT HD) as [SO _]. rewrite Forall_forall in SO.
  apply read_tocs_spec in Et as (Tl & Tb & Te); [|unfold DHeaderLength; lia]. unfold DHeaderLength in *.
  assert (readHeader p = None \/ 40 <= Z.of_nat n /\ readHeader p = Some h) as HH.
  { unfold readHeader in *. unfold DHeaderLength in *. rewrite Hp. destruct (Z.of_nat n <? 40) eqn:E; [by left|right]. split; [lia|]. destruct (zlen buf <? 40) eqn:E2; [done|]. rewrite <- Eh. unfold p. rewrite header_take by lia. done. }
  destruct HH as [HH|[H40 HH]].
  { intros R. apply no_tocs_run in R; [|unfold dump_tocs; by rewrite HH]. unfold Dump in R. by rewrite HH in R. }
  assert (read_tocs p 40 (Z.to_nat (hd_toc h)) = None \/ 40 + 16 * zlen tocs <= Z.of_nat n /\ read_tocs p 40 (Z.to_nat (hd_toc h)) = Some tocs) as HTc.
  { destruct (Z_le_dec (40 + 16 * Z.of_nat (Z.to_nat (hd_toc h))) (Z.of_nat n)) as [L|L].
    - right. unfold zlen. rewrite Tl. split; [lia|]. rewrite read_tocs_conv by lia. f_equal. rewrite Te. apply map_ext_in. intros k Hk. apply in_seq in Hk. apply toc_take; lia.
    - left. destruct (read_tocs p 40 _) as [l|] eqn:E; [|done]. apply read_tocs_spec in E as (_ & E & _); lia. }
  destruct HTc as [HTc|[Hl HTc]].
  { intros R. assert (dump_tocs p = None) as N by (unfold dump_tocs, DHeaderLength; rewrite HH; case_match; [done|]; by rewrite HTc).
    apply no_tocs_run in R; [|done]. unfold Dump, DHeaderLength in R. rewrite HH, HTc in R. replace (hd_toc h <? 0) with false in R by lia. done. }
  assert (dump_tocs p = Some (h, tocs)) as EP by (unfold dump_tocs, DHeaderLength; rewrite HH; replace (hd_toc h <? 0) with false by lia; by rewrite HTc).
  assert (forall t, t ∈ tocs -> 0 < tc_count t -> tc_offset t + tc_count t * item_len (hd_version h) (tc_type t) <= zlen buf) as HB.
  { intros t Ht Hc. destruct (SO t Ht) as (K & _). rewrite <- rec_len_item by auto.
    destruct (adjacent_bounds _ 0 _ (Z.le_refl 0) HA (tc_offset t) (tc_count t * rec_len (hd_version h) (tc_type t))) as [_ B].
    - unfold regions. do 2 right. apply elem_of_list_fmap. eauto.
    - apply B. rewrite rec_len_item by auto. pose proof (item_len_pos (hd_version h) (tc_type t)). nia. }
  assert (Forall (sect_safe p (hd_version h)) tocs) as SF.
  { apply Forall_forall. intros t Ht. destruct (SO t Ht) as (K & C & _). pose proof (tocs_offset _ _ _ _ EP Ht) as O. apply nowrap_safe; [done|done|lia|].
    destruct (Z.eq_dec (tc_count t) 0) as [->|]; [lia|]. specialize (HB t Ht ltac:(lia)). lia. }
  intros R. destruct (safe_outcome _ _ _ _ EP SF R) as [->|[d' ->]]; [done|]. exfalso.
  pose proof (run_ok_seq _ _ _ _ EP HT R) as E. destruct (seq_ok _ _ _ _ EP HT E) as [F _]. rewrite Forall_forall in F.
  assert (zlen buf = Z.of_nat (length buf)) as Zl by done.
  destruct (adjacent_last _ _ _ HA) as [_ L]. destruct L as (o' & n' & Lin & Lp & Le); [lia|].
  unfold regions in Lin. apply elem_of_cons in Lin as [[= -> ->]|Lin]; [lia|]. apply elem_of_cons in Lin as [[= -> ->]|Lin]; [fold tocs in Le; lia|].
  apply elem_of_list_fmap in Lin as (t & [= -> ->] & Ht). fold tocs in Ht. fold h in Le, Lp. destruct (F t Ht) as (K & C & G).
  rewrite rec_len_item in Le, Lp by auto. pose proof (item_len_pos (hd_version h) (tc_type t)) as PI. set (len := item_len (hd_version h) (tc_type t)) in *.
  assert (0 < tc_count t) as Pc by nia. pose proof (HB t Ht Pc) as Hb. fold len in Hb.
  pose proof (tocs_offset _ _ _ _ EP Ht) as O.
  set (lo := tc_offset t + len * (tc_count t - 1)). destruct (G lo) as [x Ex].
  { unfold sect_offs. fold len. rewrite item_offs_nowrap by lia. apply elem_slots. exists (Z.to_nat (tc_count t - 1)). unfold lo. split; [lia|]. rewrite Z2Nat.id by lia. done. }
  apply read_item_bounds in Ex; [|lia|unfold lo; nia]. fold len in Ex. unfold lo in Ex. lia.
Qed.

Lemma toc_types_nodup r : NoDup (map tc_type (map toc_of (toc_entries r))).
Proof.
  unfold toc_entries, toc_of. rewrite !map_map. 
  destruct (0 <? InstanceDomainCount r), (0 <? InstanceCount r), (0 <? StringCount r); cbn [app map fst snd tc_type]; apply NoDup_ListNoDup; repeat constructor; cbn; lia.
Qed.

Lemma synced_complete w cid gen pid : w_ok w -> synced w cid gen pid ->
  exists c r buf d, w_clients w !! cid = Some c /\ w_regs w !! cl_reg c = Some r /\ file_of w c = Some buf /\ zlen buf = Length r /\ complete buf d.
Proof.
  intros W (c & r & wr & ino & pl & ad & am & buf & Hc & Hr & Hmap & Hwr & Hpath & S). exists c, r, buf.
  pose proof (wo_heap _ W) as Hh. pose proof (wo_regs _ W _ _ Hr) as Hro. destruct S as [S1 S2 S3 S4 S5 S6 S7]. cbn in S1, S2.
  pose proof (plan_wf_ok _ _ _ Hh Hro S2 S1) as WF. pose proof (plan_ranges_ok _ _ _ Hh Hro S2 S1) as RG.
  exists (want_dump (start_cfg c r gen pid) buf). split_and!; auto.
  - unfold file_of. rewrite Hpath. exact S5.
  - apply (im_len _ _ _ _ _ S3).
  - split.
    + eapply (dump_ok (start_cfg c r gen pid)); eauto.
    + eapply regions_ok; eauto.
    + cbn. destruct (r_version2 r); auto.
    + apply toc_types_nodup.
    + rewrite (im_len _ _ _ _ _ S3). eapply (Length_bound (start_cfg c r gen pid)); eauto.
Qed.
