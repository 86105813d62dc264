(** The file left by start() shows the registry: Dump succeeds and, with all offsets
    resolved, yields exactly the planned records. *)
From Verif Require Import Base BaseFacts Floats GoVal MetricType ByteWriter Hash Units Indom Metrics Registry Prog
  Client Mmvdump Ileave ProgProofs Events StartEvents BufFacts Tiling StartGood StartLayout StartFinal StartDone
  View Sections.

(** ** Value ranges *)
Definition mp_vals (m : mplan) : list (option gostring * goval) :=
  match m with
  | MPSingle _ _ v => [(None, v)]
  | MPInst _ _ _ _ vals => map (fun x => (Some x.1, x.2)) vals
  end.

Definition dom_range (x : nat * indom * list (gostring * Z)) : Prop := 0 <= id_id x.1.2 < 2 ^ 31.
Definition met_range (m : mplan) : Prop :=
  in_unsigned 32 (md_id (mp_desc m)) /\ in_signed 32 (md_type (mp_desc m)) /\ in_signed 32 (md_sem (mp_desc m)) /\
  in_unsigned 32 (md_unit (mp_desc m)) /\
  Forall (fun x => vtyped (md_type (mp_desc m)) x.2) (mp_vals m).

Definition counts_ok (r : registry) : Prop :=
  InstanceDomainCount r < 2 ^ 31 /\ InstanceCount r < 2 ^ 31 /\ MetricCount r < 2 ^ 31 /\
  ValuesCount r < 2 ^ 31 /\ StringCount r < 2 ^ 31.

Record plan_ranges (r : registry) (pl : plan) : Prop := {
  pr_counts : counts_ok r;
  pr_doms : Forall dom_range (pl_doms pl);
  pr_mets : Forall met_range (pl_mets pl);
  pr_links : forall mp d ip dom vals, MPInst mp d ip dom vals ∈ pl_mets pl ->
    id_id dom < 2 ^ 31 /\ 0 <= id_id dom /\
    exists insts, (ip, dom, insts) ∈ pl_doms pl /\ (forall x, x ∈ insts <-> id_insts dom !! x.1 = Some x.2) /\
      forall n, n ∈ vals.*1 -> is_Some (id_insts dom !! n) }.

(** ** Images *)
(** [buf] is the file for plan [pl] with slots assigned as in [ad] and [am]. *)
Record image (c : cfg) (pl : plan) (ad : list da) (am : list ma) (buf : list byte) : Prop := {
  im_das : Forall2 da_ok (pl_doms pl) ad;
  im_mas : Forall2 ma_ok (pl_mets pl) am;
  im_len : zlen buf = Length (k_reg c);
  im_jobs : holds_jobs buf (jobs (ev_start c pl ad am));
  im_slots : forall k, exists A, A ≡ₚ filter pos (allocs k (ev_start c pl ad am)) /\ chained (base (k_reg c) k) A (limit (k_reg c) k);
  im_tiles : exists R, R ≡ₚ map job_reg (jobs (ev_start c pl ad am)) /\ chained 0 R (Length (k_reg c));
  im_gets : forall i v v', EGet i v ∈ ev_start c pl ad am -> ESet i v' ∈ ev_start c pl ad am -> v = v' }.

Lemma start_image c pl upds ad am s : start_result c pl upds ad am s -> image c pl ad am (g_buf s).
Proof. intros []. split; auto. Qed.

(** Rows of a metric: instance name, value, slot. *)
Fixpoint rows_of (vals : list (gostring * goval)) (l : list va) : list (option gostring * goval * va) :=
  match vals with [] => [] | (n, v) :: vals => (Some n, v, hd va0 l) :: rows_of vals (tl l) end.
Definition rows (m : mplan) (a : ma) : list (option gostring * goval * va) :=
  match m with
  | MPSingle _ _ v => [(None, v, hd va0 (ma_vs a))]
  | MPInst _ _ _ _ vals => rows_of vals (ma_vs a)
  end.

Lemma rows_vals m a : map fst (rows m a) = mp_vals m.
Proof.
  destruct m as [mp d v|mp d ip dom vals]; cbn; [reflexivity|]. generalize (ma_vs a).
  induction vals as [|[n v] vals IH]; intros l; cbn; f_equal; auto.
Qed.

Lemma met_allocs_value v2 m a : allocs CValue (ev_met v2 m a) = map (fun x => (va_off x.2, 32)) (rows m a).
Proof.
  destruct m as [mp d v|mp d ip dom vals]; cbn [ev_met rows].
  - change (EAlloc CMetric (ma_off a) (mlen v2) :: ?l) with ([EAlloc CMetric (ma_off a) (mlen v2)] ++ l).
    rewrite !allocs_app, desc_allocs, v1_allocs_value by (discriminate || reflexivity). reflexivity.
  - change (EAlloc CMetric (ma_off a) (mlen v2) :: ?l) with ([EAlloc CMetric (ma_off a) (mlen v2)] ++ l).
    rewrite !allocs_app, desc_allocs by discriminate. cbn [app]. change (allocs CValue [EAlloc CMetric (ma_off a) (mlen v2)]) with (@nil (Z * Z)). cbn [app].
    generalize (ma_vs a). induction vals as [|[n v] vals IH]; intros l; cbn [ev_vals rows_of map]; [reflexivity|].
    rewrite allocs_app, v1_allocs_value by reflexivity. rewrite IH. reflexivity.
Qed.

(** The events of one row. *)
Definition row_key (m : mplan) (n : option gostring) : vkey :=
  match m with MPSingle mp _ _ | MPInst mp _ _ _ _ => (mp, n) end.
Lemma row_events v2 m a n v va : (n, v, va) ∈ rows m a -> exists get,
  (forall e, e ∈ ev_v1 (md_type (mp_desc m)) (row_key m n) (ma_off a) get v va -> e ∈ ev_met v2 m a) /\
  match m with
  | MPSingle _ _ _ => n = None
  | MPInst _ _ ip _ vals => exists n', n = Some n' /\ (n', v) ∈ vals /\ EGet (ip, n') (va_io va) ∈ get
  end.
Proof.
  destruct m as [mp d v0|mp d ip dom vals]; cbn [rows ev_met mp_desc row_key].
  - intros Hr. apply elem_of_list_singleton in Hr. simplify_eq. exists []. split; [|reflexivity].
    intros e He. right. apply elem_of_app. auto.
  - intros Hr. generalize dependent (ma_vs a). intros l Hr.
    assert (exists get, (forall e, e ∈ ev_v1 (md_type d) (mp, n) (ma_off a) get v va -> e ∈ ev_vals (md_type d) mp ip (ma_off a) vals l) /\
       exists n', n = Some n' /\ (n', v) ∈ vals /\ EGet (ip, n') (va_io va) ∈ get) as (get & H1 & H2).
    { revert l Hr. induction vals as [|[n1 v1] vals IH]; intros l Hr; cbn [rows_of] in Hr; [inversion Hr|].
      cbn [ev_vals]. apply elem_of_cons in Hr as [Hr|Hr].
      - simplify_eq. eexists. split.
        + intros e He. apply elem_of_app. left. exact He.
        + exists n1. split_and!; [reflexivity|left|apply elem_of_list_singleton; reflexivity].
      - destruct (IH _ Hr) as (get & H1 & n' & -> & H2 & H3). exists get. split.
        + intros e He. apply elem_of_app. right. auto.
        + exists n'. split_and!; auto. by right. }
    exists get. split; [|auto]. intros e He. right. apply elem_of_app. auto.
Qed.

Lemma zip_elem {A B} (f : A -> B -> list ev) l l' x a e : (x, a) ∈ zip l l' -> e ∈ f x a -> e ∈ concat (zip_with f l l').
Proof.
  revert l'. induction l as [|y l IH]; intros [|b l'] H He; try (inversion H; fail).
  cbn [zip_with concat] in *. apply elem_of_app. apply elem_of_cons in H as [H|H]; [simplify_eq; auto|]. right. eauto.
Qed.

Lemma content_le n x : content (Z.of_nat n) [le_enc n x] = le_enc n x.
Proof. apply content1_full. apply zlen_le_enc. Qed.

(** Instances of one domain with their offsets. *)
Fixpoint irows (ilen ioff : Z) (l : list (gostring * Z)) (ss : list Z) : list (gostring * Z * Z * Z) :=
  match l with [] => [] | (n, id) :: l => (n, id, ioff, hd 0 ss) :: irows ilen (ioff + ilen) l (tl ss) end.

Lemma irows_slots ilen l : forall ioff ss, map (fun x => x.1.2) (irows ilen ioff l ss) = slots ioff ilen (length l).
Proof. induction l as [|[n id] l IH]; intros; cbn; f_equal; auto. Qed.
Lemma irows_fst ilen l : forall ioff ss, map (fun x => x.1.1) (irows ilen ioff l ss) = l.
Proof. induction l as [|[n id] l IH]; intros; cbn; f_equal; auto. Qed.
Lemma irow_events v2 ip io ilen l n id o so : forall ioff ss, (n, id, o, so) ∈ irows ilen ioff l ss ->
  forall e, e ∈ ev_inst v2 ip n id io o so -> e ∈ ev_insts v2 ip io ilen ioff l ss.
Proof.
  induction l as [|[n1 id1] l IH]; intros ioff ss H e He; cbn [irows] in H; [inversion H|]. cbn [ev_insts].
  apply elem_of_app. apply elem_of_cons in H as [H|H]; [simplify_eq; auto|]. right. eauto.
Qed.

Section img.
  Context (c : cfg) (pl : plan) (ad : list da) (am : list ma) (buf : list byte).
  Context (Him : image c pl ad am buf) (Hwf : plan_wf (k_reg c) pl) (Hrg : plan_ranges (k_reg c) pl).
  Let r := k_reg c.
  Let v2 := r_version2 r.
  Let E := ev_start c pl ad am.

  Lemma job_at t lo w ds : EJob t lo w ds ∈ E -> sub lo w buf = content w ds.
  Proof.
    intros H. pose proof (im_jobs _ _ _ _ _ Him) as HJ. unfold holds_jobs in HJ. rewrite Forall_forall in HJ.
    apply (HJ (t, lo, w, ds)). unfold jobs. eapply omap_in; [exact H|reflexivity].
  Qed.
  Lemma job_bounds t lo w ds : EJob t lo w ds ∈ E -> 0 <= lo /\ 0 < w /\ lo + w <= Length r.
  Proof.
    intros H. destruct (im_tiles _ _ _ _ _ Him) as (R & HR & HC). apply chained_bounds in HC. rewrite HR in HC.
    rewrite Forall_map, Forall_forall in HC. specialize (HC (t, lo, w, ds)). unfold job_reg in HC. cbn [fst snd] in HC.
    apply HC. unfold jobs. eapply omap_in; [exact H|reflexivity].
  Qed.

  Lemma u32_at t lo x : EJob t lo 4 [le_enc 4 x] ∈ E -> u32 lo buf = x mod 2 ^ 32.
  Proof. intros H. unfold u32. rewrite (job_at _ _ _ _ H). change 4 with (Z.of_nat 4). rewrite content_le, le_dec_enc. reflexivity. Qed.
  Lemma i32_at t lo x : EJob t lo 4 [le_enc 4 x] ∈ E -> i32 lo buf = to_signed 32 x.
  Proof. intros H. unfold i32. rewrite (u32_at _ _ _ H). unfold to_signed. rewrite Z.mod_mod by lia. reflexivity. Qed.
  Lemma u64_at t lo x : EJob t lo 8 [le_enc 8 x] ∈ E -> u64 lo buf = x mod 2 ^ 64.
  Proof. intros H. unfold u64. rewrite (job_at _ _ _ _ H). change 8 with (Z.of_nat 8). rewrite content_le, le_dec_enc. reflexivity. Qed.

  Lemma dom_elem x a e : (x, a) ∈ zip (pl_doms pl) ad -> e ∈ ev_dom r x a -> e ∈ E.
  Proof. intros H He. unfold E. rewrite ev_start_app. apply elem_of_app; right. apply elem_of_app; left. eapply zip_elem; eauto. Qed.
  Lemma met_elem m a e : (m, a) ∈ zip (pl_mets pl) am -> e ∈ ev_met v2 m a -> e ∈ E.
  Proof. intros H He. unfold E. rewrite ev_start_app. apply elem_of_app; right. apply elem_of_app; right. eapply zip_elem; eauto. Qed.
  Lemma fix_elem e : e ∈ ev_fix c -> e ∈ E.
  Proof. intros He. unfold E. rewrite ev_start_app. apply elem_of_app; auto. Qed.

  Lemma Length_bound : 0 <= Length r < 2 ^ 63.
  Proof.
    destruct (pr_counts _ _ Hrg) as (H1 & H2 & H3 & H4 & H5).
    destruct (im_tiles _ _ _ _ _ Him) as (R & _ & HC). apply chained_le in HC. split; [exact HC|].
    fold r in H1, H2, H3, H4, H5.
    unfold Length, tocCount, InstanceLength, MetricLength, HeaderLength, TocLength, Instance1Length, Instance2Length, InstanceDomainLength,
      Metric1Length, Metric2Length, ValueLength, StringLength.
    destruct (0 <? InstanceCount r), (0 <? StringCount r), (r_version2 r); lia.
  Qed.

  Lemma off_id lo : 0 <= lo <= Length r -> lo mod 2 ^ 64 = lo.
  Proof. intros H. pose proof Length_bound. apply Z.mod_small. lia. Qed.

  (** *** Header and table of contents *)
  Definition want_header : header :=
    mkHeader (padded 4 (str "MMV")) (if v2 then 2 else 1) (k_gen c mod 2 ^ 64) (k_gen c mod 2 ^ 64)
      (tocCount r) (to_signed 32 (k_flag c)) (to_signed 32 (k_pid c)) (to_signed 32 (k_cluster c)).

  Lemma tocCount_small : 2 <= tocCount r <= 5.
  Proof. unfold tocCount. destruct (0 <? InstanceCount r), (0 <? StringCount r); lia. Qed.

  Lemma to_signed_idem x : to_signed 32 (to_signed 32 x) = to_signed 32 x.
  Proof. apply to_signed_id; [lia|]. apply to_signed_range. lia. Qed.

  Lemma header_ok : readHeader buf = Some want_header.
  Proof.
    pose proof tocCount_small as HT.
    assert (DHeaderLength <= zlen buf) as HL.
    { destruct (job_bounds None 36 4 [le_enc 4 (k_cluster c)]) as (_ & _ & H).
      { apply fix_elem. unfold ev_fix, ev_header. repeat (first [left|right]). }
      rewrite (im_len _ _ _ _ _ Him). unfold DHeaderLength. fold r. lia. }
    unfold readHeader. replace (zlen buf <? DHeaderLength) with false by lia.
    assert (dec_header buf = want_header) as ->.
    { unfold dec_header, want_header. f_equal.
      - rewrite (job_at None 0 4 [str "MMV"]); [reflexivity|]. apply fix_elem. right; left.
      - rewrite (i32_at None 4 (if v2 then 2 else 1)); [destruct v2; reflexivity|]. apply fix_elem. right; right; left.
      - apply (u64_at None 8 (k_gen c)). apply fix_elem. right; right; right; left.
      - unfold u64. rewrite (job_at None 16 8 [le_enc 8 0; le_enc 8 (k_gen c)]); [|apply fix_elem; left].
        change (content 8 [le_enc 8 0; le_enc 8 (k_gen c)]) with (content (Z.of_nat 8) [le_enc 8 (k_gen c)]).
        rewrite content_le, le_dec_enc. reflexivity.
      - rewrite (i32_at None 24 (to_signed 32 (tocCount r))).
        + rewrite to_signed_idem. apply to_signed_id; unfold in_signed; lia.
        + apply fix_elem. do 4 right; left.
      - rewrite (i32_at None 28 (to_signed 32 (k_flag c))); [apply to_signed_idem|]. apply fix_elem. do 5 right; left.
      - rewrite (i32_at None 32 (to_signed 32 (k_pid c))); [apply to_signed_idem|]. apply fix_elem. do 6 right; left.
      - apply (i32_at None 36 (k_cluster c)). apply fix_elem. do 7 right; left. }
    cbn [hd_magic want_header hd_g1 hd_g2]. rewrite bool_decide_true by reflexivity. rewrite Z.eqb_refl. reflexivity.
  Qed.

  Definition toc_of (x : Z * Z * Z) : toc := mkToc x.1.1 x.1.2 x.2.

  Lemma tocs_ok_gen l : forall p,
    (forall e, e ∈ ev_tocs p l -> e ∈ E) ->
    Forall (fun x => in_signed 32 x.1.1 /\ in_signed 32 x.1.2 /\ in_unsigned 64 x.2) l ->
    read_tocs buf p (length l) = Some (map toc_of l).
  Proof.
    induction l as [|[[x y] z] l IH]; intros p He HF; cbn [read_tocs length map]; [reflexivity|].
    inversion HF as [|? ? (H1 & H2 & H3) HF']; subst. cbn [fst snd] in H1, H2, H3. cbn [ev_tocs] in He.
    assert (EJob None p 4 [le_enc 4 x] ∈ E) as J1 by (apply He; left).
    assert (EJob None (p + 4) 4 [le_enc 4 (to_signed 32 y)] ∈ E) as J2 by (apply He; right; left).
    assert (EJob None (p + 8) 8 [le_enc 8 z] ∈ E) as J3 by (apply He; right; right; left).
    destruct (job_bounds _ _ _ _ J3) as (_ & _ & HB).
    replace (zlen buf <? p + DTocLength) with false.
    2: { rewrite (im_len _ _ _ _ _ Him). unfold DTocLength. fold r. symmetry. apply Z.ltb_ge. lia. }
    change (p + DTocLength) with (p + TocLength). rewrite IH; auto.
    2: { intros e H. apply He. do 3 right. exact H. }
    f_equal. f_equal. unfold dec_toc, toc_of. cbn [fst snd]. f_equal.
    - rewrite (i32_at _ _ _ J1). apply to_signed_id; [lia|auto].
    - rewrite (i32_at _ _ _ J2). rewrite to_signed_idem. apply to_signed_id; [lia|auto].
    - rewrite (u64_at _ _ _ J3). apply Z.mod_small. exact H3.
  Qed.

  Lemma bounds_chain : 40 <= indomoffset r /\ indomoffset r <= instanceoffset r /\ instanceoffset r <= metricsoffset r /\ metricsoffset r <= valuesoffset r /\
    valuesoffset r <= stringsoffset r /\ stringsoffset r <= Length r.
  Proof.
    assert (forall k, base r k <= limit r k) as H.
    { intros k. destruct (im_slots _ _ _ _ _ Him k) as (A & _ & HC). apply chained_le in HC. exact HC. }
    pose proof (H CIndom). pose proof (H CInstance). pose proof (H CMetric). pose proof (H CValue). pose proof (H CString).
    cbn [base limit] in *. split; [|lia]. unfold indomoffset. pose proof tocCount_small. unfold HeaderLength, TocLength. lia.
  Qed.

  Lemma counts_nonneg : 0 <= InstanceDomainCount r /\ 0 <= InstanceCount r /\ 0 <= MetricCount r /\ 0 <= ValuesCount r /\ 0 <= StringCount r.
  Proof.
    destruct (StringCount_ge _ _ (pw_fit _ _ Hwf)) as (H1 & H2 & H3). fold r in H1, H2, H3.
    split_and!; try lia.
    - apply IDC_nonneg.
    - pose proof (pf_mets _ _ (pw_fit _ _ Hwf)) as F. fold r in F. rewrite <- F. apply zlen_nonneg.
    - pose proof (pf_vc _ _ (pw_fit _ _ Hwf)) as F. fold r in F. rewrite <- F. apply sumZ_nonneg. apply Forall_true. apply mp_values_nonneg.
  Qed.

  Lemma tocs_ok : read_tocs buf DHeaderLength (Z.to_nat (tocCount r)) = Some (map toc_of (toc_entries r)).
  Proof.
    rewrite <- (toc_entries_length r) by (apply (pf_guard _ _ (pw_fit _ _ Hwf)) || apply (plan_ic_idc _ _ (pw_fit _ _ Hwf))).
    rewrite Nat2Z.id. apply tocs_ok_gen.
    - intros e He. apply fix_elem. change (ev_fix c) with ((EJob None 16 8 [le_enc 8 0; le_enc 8 (k_gen c)] :: ev_header c) ++ ev_tocs HeaderLength (toc_entries (k_reg c))).
      apply elem_of_app. right. exact He.
    - destruct (pr_counts _ _ Hrg) as (H1 & H2 & H3 & H4 & H5). fold r in H1, H2, H3, H4, H5.
      pose proof counts_nonneg as (I1 & I2 & I3 & I4 & I5). pose proof bounds_chain as (B0 & B1 & B2 & B3 & B4 & B5). pose proof Length_bound.
      unfold toc_entries. repeat (apply Forall_app; split).
      + destruct (0 <? InstanceDomainCount r); repeat constructor; cbn; unfold in_signed, in_unsigned; lia.
      + destruct (0 <? InstanceCount r); repeat constructor; cbn; unfold in_signed, in_unsigned; lia.
      + repeat constructor; cbn [fst snd]; unfold in_signed, in_unsigned; destruct (MetricCount r =? 0); lia.
      + repeat constructor; cbn [fst snd]; unfold in_signed, in_unsigned; destruct (MetricCount r =? 0); lia.
      + destruct (0 <? StringCount r); repeat constructor; cbn; unfold in_signed, in_unsigned; lia.
  Qed.

  Let ver := if v2 then 2 else 1.

  Definition want_dump : dump :=
    mkDump want_header (map toc_of (toc_entries r))
      (section (metricsoffset r) (MetricLength r) (Z.to_nat (MetricCount r)) (dec_metric ver buf))
      (section (valuesoffset r) ValueLength (Z.to_nat (ValuesCount r)) (dec_value buf))
      (section (instanceoffset r) (InstanceLength r) (Z.to_nat (InstanceCount r)) (dec_instance ver buf))
      (section (indomoffset r) InstanceDomainLength (Z.to_nat (InstanceDomainCount r)) (dec_indom buf))
      (section (stringsoffset r) StringLength (Z.to_nat (StringCount r)) (dec_string buf)).

  Lemma section_nil {A} b len n (dec : Z -> A) : n <= 0 -> section b len (Z.to_nat n) dec = ∅.
  Proof. intros H. replace (Z.to_nat n) with 0%nat by lia. reflexivity. Qed.

  Lemma comps_ok : readComponents buf (map toc_of (toc_entries r)) ver =
    mkComps (IOk (du_metrics want_dump)) (IOk (du_values want_dump)) (IOk (du_instances want_dump)) (IOk (du_indoms want_dump)) (IOk (du_strings want_dump)) false false.
  Proof.
    pose proof counts_nonneg as (I1 & I2 & I3 & I4 & I5). pose proof bounds_chain as (B0 & B1 & B2 & B3 & B4 & B5). pose proof Length_bound as HLB.
    pose proof (im_len _ _ _ _ _ Him) as HL. fold r in HL.
    assert (d_inst_len ver = InstanceLength r) as EI by (unfold ver, v2, InstanceLength; destruct (r_version2 r); reflexivity).
    assert (d_metric_len ver = MetricLength r) as EM by (unfold ver, v2, MetricLength; destruct (r_version2 r); reflexivity).
    assert (0 < InstanceLength r) as PI by (unfold InstanceLength, Instance1Length, Instance2Length; destruct (r_version2 r); lia).
    assert (0 < MetricLength r) as PM by (unfold MetricLength, Metric1Length, Metric2Length; destruct (r_version2 r); lia).
    assert (readItems (indomoffset r) (InstanceDomainCount r) DInstanceDomainLength (read_at DInstanceDomainLength dec_indom buf) = IOk (du_indoms want_dump)) as R1.
    { unfold instanceoffset, InstanceDomainLength in *. apply (read_items_ok dec_indom); unfold DInstanceDomainLength; lia. }
    assert (readItems (instanceoffset r) (InstanceCount r) (d_inst_len ver) (read_at (d_inst_len ver) (dec_instance ver) buf) = IOk (du_instances want_dump)) as R2.
    { rewrite EI. apply read_items_ok; try lia. unfold metricsoffset in B3; lia. }
    assert (readItems (if MetricCount r =? 0 then 0 else metricsoffset r) (MetricCount r) (d_metric_len ver) (read_at (d_metric_len ver) (dec_metric ver) buf) = IOk (du_metrics want_dump)) as R3.
    { rewrite EM. cbn [du_metrics want_dump]. destruct (MetricCount r =? 0) eqn:E0.
      - replace (MetricCount r) with 0 by lia. reflexivity.
      - apply read_items_ok; try lia. unfold valuesoffset in B4; lia. }
    assert (readItems (if MetricCount r =? 0 then 0 else valuesoffset r) (ValuesCount r) DValueLength (read_at DValueLength dec_value buf) = IOk (du_values want_dump)) as R4.
    { cbn [du_values want_dump]. destruct (MetricCount r =? 0) eqn:E0.
      - assert (pl_mets pl = []) as Em. { pose proof (pf_mets _ _ (pw_fit _ _ Hwf)) as F. fold r in F. destruct (pl_mets pl); auto. rewrite zlen_cons in F. pose proof (zlen_nonneg l). lia. }
        pose proof (pf_vc _ _ (pw_fit _ _ Hwf)) as F. rewrite Em in F. cbn in F. fold r in F. rewrite <- F. reflexivity.
      - unfold stringsoffset, ValueLength in *. apply (read_items_ok dec_value); unfold DValueLength; try lia. }
    assert (stringsoffset r + 256 * StringCount r = Length r) as ES.
    { unfold Length, stringsoffset, valuesoffset, metricsoffset, instanceoffset, indomoffset, StringLength. lia. }
    assert (readItems (stringsoffset r) (StringCount r) DStringLength (read_at DStringLength dec_string buf) = IOk (du_strings want_dump)) as R5.
    { apply (read_items_ok dec_string); unfold DStringLength; lia. }
    assert (InstanceDomainCount r <= 0 -> du_indoms want_dump = ∅) as N1 by (intros; apply section_nil; auto).
    assert (InstanceCount r <= 0 -> du_instances want_dump = ∅) as N2 by (intros; apply section_nil; auto).
    assert (StringCount r <= 0 -> du_strings want_dump = ∅) as N5 by (intros; apply section_nil; auto).
    generalize dependent (du_indoms want_dump). intros D1 R1 N1. generalize dependent (du_instances want_dump). intros D2 R2 N2.
    generalize dependent (du_metrics want_dump). intros D3 R3. generalize dependent (du_values want_dump). intros D4 R4.
    generalize dependent (du_strings want_dump). intros D5 R5 N5.
    clear Him Hwf Hrg B0 B1 B2 B3 B4 B5 HLB HL EI EM PI PM ES.
    unfold readComponents, toc_entries.
    assert (forall c, read_component buf ver c (mkToc 1 (InstanceDomainCount r) (indomoffset r)) =
      mkComps (co_metrics c) (co_values c) (co_instances c) (IOk D1) (co_strings c) (co_unknown c) (co_panic c || false)) as S1.
    { intros. unfold read_component. cbn [tc_type tc_count tc_offset]. rewrite R1. reflexivity. }
    assert (forall c, read_component buf ver c (mkToc 2 (InstanceCount r) (instanceoffset r)) =
      mkComps (co_metrics c) (co_values c) (IOk D2) (co_indoms c) (co_strings c) (co_unknown c) (co_panic c || false)) as S2.
    { intros. unfold read_component. cbn [tc_type tc_count tc_offset]. rewrite R2. reflexivity. }
    assert (forall c, read_component buf ver c (mkToc 3 (MetricCount r) (if MetricCount r =? 0 then 0 else metricsoffset r)) =
      mkComps (IOk D3) (co_values c) (co_instances c) (co_indoms c) (co_strings c) (co_unknown c) (co_panic c || false)) as S3.
    { intros. unfold read_component. cbn [tc_type tc_count tc_offset]. rewrite R3. reflexivity. }
    assert (forall c, read_component buf ver c (mkToc 4 (ValuesCount r) (if MetricCount r =? 0 then 0 else valuesoffset r)) =
      mkComps (co_metrics c) (IOk D4) (co_instances c) (co_indoms c) (co_strings c) (co_unknown c) (co_panic c || false)) as S4.
    { intros. unfold read_component. cbn [tc_type tc_count tc_offset]. rewrite R4. reflexivity. }
    assert (forall c, read_component buf ver c (mkToc 5 (StringCount r) (stringsoffset r)) =
      mkComps (co_metrics c) (co_values c) (co_instances c) (co_indoms c) (IOk D5) (co_unknown c) (co_panic c || false)) as S5.
    { intros. unfold read_component. cbn [tc_type tc_count tc_offset]. rewrite R5. reflexivity. }
    clear R1 R2 R3 R4 R5.
    rewrite !map_app, !foldl_app. unfold toc_of. cbn [fst snd map foldl].
    destruct (0 <? InstanceDomainCount r) eqn:C1, (0 <? InstanceCount r) eqn:C2, (0 <? StringCount r) eqn:C3; cbn [map foldl fst snd];
      rewrite ?S1, ?S2, ?S3, ?S4, ?S5; rewrite ?N1, ?N2, ?N5 by lia; reflexivity.
  Qed.

  Lemma dump_ok : Dump buf = DOk want_dump.
  Proof.
    unfold Dump. rewrite header_ok. cbn [hd_toc want_header hd_version]. pose proof tocCount_small.
    replace (tocCount r <? 0) with false by lia. rewrite tocs_ok. fold ver. rewrite comps_ok. reflexivity.
  Qed.

  (** *** Slots *)
  Definition len_of (k : chan) : Z :=
    match k with CString => 256 | CIndom => 32 | CMetric => MetricLength r | CValue => 32 | CInstance => InstanceLength r end.
  Definition count_of (k : chan) : Z :=
    match k with CString => StringCount r | CIndom => InstanceDomainCount r | CMetric => MetricCount r
               | CValue => ValuesCount r | CInstance => InstanceCount r end.

  Lemma len_pos k : 0 < len_of k.
  Proof using Type.
    destruct k; cbn [len_of]; try lia; unfold InstanceLength, MetricLength, Instance1Length, Instance2Length, Metric1Length, Metric2Length;
      destruct (r_version2 r); lia.
  Qed.

  Lemma limit_eq k : limit r k = base r k + len_of k * count_of k.
  Proof using Type.
    destruct k; cbn [base limit len_of count_of]; try reflexivity.
    unfold Length, stringsoffset, valuesoffset, metricsoffset, instanceoffset, indomoffset, StringLength. lia.
  Qed.

  Lemma count_nonneg k : 0 <= count_of k.
  Proof. pose proof counts_nonneg. destruct k; cbn; lia. Qed.

  Lemma alloc_len k : Forall (fun x => exists n, 0 <= n /\ x.2 = len_of k * n /\ (k <> CInstance -> n = 1)) (allocs k E).
  Proof using Type.
    assert (Forall (fun e => match e with EAlloc k _ x => exists n, 0 <= n /\ x = len_of k * n /\ (k <> CInstance -> n = 1) | _ => True end) E) as HF.
    { apply Forall_start; auto; intros; try (exists 1; cbn [len_of]; split_and!; [lia|fold r; lia|auto]; fail).
      exists n. cbn [len_of]. fold r. split_and!; auto. congruence. }
    apply Forall_forall. intros x Hx. apply elem_alloc in Hx. rewrite Forall_forall in HF. apply (HF _ Hx).
  Qed.

  Lemma slot_perm k : concat (map (fun x => slots x.1 (len_of k) (Z.to_nat (x.2 / len_of k))) (allocs k E)) ≡ₚ slots (base r k) (len_of k) (Z.to_nat (count_of k)).
  Proof.
    pose proof (len_pos k) as Hp. pose proof (count_nonneg k) as Hc. pose proof (alloc_len k) as HL.
    destruct (im_slots _ _ _ _ _ Him k) as (A & HA & HC). fold E in HA. fold r in HC.
    set (f := fun x : Z * Z => slots x.1 (len_of k) (Z.to_nat (x.2 / len_of k))).
    assert (concat (map f (allocs k E)) ≡ₚ concat (map f A)) as ->.
    { rewrite HA. clear -HL Hp. induction HL as [|x l (n & Hn & Hx & _) HL IH]; [constructor|].
      rewrite filter_cons. case_decide as Hd; cbn [map concat]; rewrite IH; [reflexivity|].
      unfold pos in Hd. unfold f at 1. assert (n = 0) as -> by nia. rewrite Hx, Z.mul_0_r, Z.div_0_l by lia. reflexivity. }
    rewrite (limit_eq k) in HC.
    assert (chained (base r k) (map (fun o => (o, len_of k)) (concat (map f A))) (base r k + len_of k * count_of k)) as HC'.
    { rewrite concat_map, map_map.
      apply (chained_refine (fun x => x) (fun x => map (fun o => (o, len_of k)) (f x))).
      - rewrite map_id. exact HC.
      - assert (Forall (fun x => exists n, 0 <= n /\ x.2 = len_of k * n /\ (k <> CInstance -> n = 1)) A) as HLA.
        { rewrite HA. apply Forall_forall. intros x Hx. apply elem_of_list_filter in Hx as [_ Hx]. rewrite Forall_forall in HL. auto. }
        eapply Forall_impl; [exact HLA|]. intros x (n & Hn & Hx & _). unfold f. rewrite Hx, Z.mul_comm, Z.div_mul by lia.
        rewrite (Z.mul_comm n). replace n with (Z.of_nat (Z.to_nat n)) at 2 by lia. apply slots_chained. exact Hp. }
    replace (concat (map f A)) with (map fst (map (fun o => (o, len_of k)) (concat (map f A)))) by (rewrite map_map; apply map_id).
    erewrite (chained_slots_count _ _ _ (len_of k) (Z.to_nat (count_of k)) Hp HC'); [reflexivity| |lia].
    apply Forall_forall. intros x Hx. apply elem_of_list_fmap in Hx as (o & -> & _). reflexivity.
  Qed.

  Lemma bSome {A B} (x : A) (f : A -> option B) : (Some x ≫= f) = f x. Proof using Type. reflexivity. Qed.

  Lemma slot_in k v n : k <> CInstance -> (v, n) ∈ allocs k E -> v ∈ slots (base r k) (len_of k) (Z.to_nat (count_of k)).
  Proof.
    intros Hk Hv. pose proof (len_pos k) as Hp. rewrite <- slot_perm. apply elem_of_list_In, in_concat.
    exists (slots v (len_of k) (Z.to_nat (n / len_of k))). split.
    - apply in_map_iff. exists (v, n). split; [reflexivity|]. by apply elem_of_list_In.
    - pose proof (alloc_len k) as HL. rewrite Forall_forall in HL. destruct (HL _ Hv) as (m & _ & Hx & H1). cbn in Hx.
      specialize (H1 Hk). subst. rewrite Z.mul_1_r, Z.div_same by lia. left. reflexivity.
  Qed.

  Lemma slot_perm1 k : k <> CInstance -> map fst (allocs k E) ≡ₚ slots (base r k) (len_of k) (Z.to_nat (count_of k)).
  Proof.
    intros Hk. pose proof (len_pos k) as Hp. rewrite <- slot_perm. pose proof (alloc_len k) as HL. apply reflexive_eq. clear -HL Hk Hp.
    induction HL as [|x l (n & _ & Hx & H1) HL IH]; [reflexivity|]. cbn [map concat]. rewrite (H1 Hk), Z.mul_1_r in Hx.
    rewrite Hx, Z.div_same by lia. cbn. f_equal. exact IH.
  Qed.

  Lemma slot_bounds k v : v ∈ slots (base r k) (len_of k) (Z.to_nat (count_of k)) -> base r k <= v /\ v + len_of k <= limit r k.
  Proof.
    intros H. apply elem_slots in H as (i & Hi & ->). pose proof (len_pos k). pose proof (count_nonneg k). rewrite limit_eq. nia.
  Qed.

  Lemma slot_range k v : v ∈ slots (base r k) (len_of k) (Z.to_nat (count_of k)) -> 40 <= v <= Length r.
  Proof.
    intros H. apply slot_bounds in H as [H1 H2]. pose proof bounds_chain. pose proof (len_pos k). destruct k; cbn [base limit] in *; lia.
  Qed.

  Notation D := want_dump.

  Lemma string_lookup so : (so, 256) ∈ allocs CString E -> du_strings D !! so = Some (sub so 256 buf) /\ 40 <= so <= Length r.
  Proof.
    intros H. apply slot_in in H; [|discriminate]. split.
    - cbn [du_strings want_dump]. rewrite section_lookup; [reflexivity|unfold StringLength; lia|exact H].
    - apply (slot_range CString), H.
  Qed.

  Lemma alloc_elem k v n : EAlloc k v n ∈ E -> (v, n) ∈ allocs k E.
  Proof using Type. intros H. eapply omap_in; [exact H|]. cbn. replace (chan_eqb k k) with true by (symmetry; apply chan_eqb_spec; auto). reflexivity. Qed.

  Lemma content_padded w s : zlen s <= w -> content w [s] = padded w s.
  Proof using Type. apply content1_pad. Qed.

  Lemma str_ok s so : EAlloc CString so 256 ∈ E -> EJob CS so 256 [s] ∈ E -> zlen s <= 256 ->
    string_at D (so mod 2 ^ 64) = Some (padded 256 s) /\ so mod 2 ^ 64 <> 0.
  Proof.
    intros HA HJ Hs. destruct (string_lookup so (alloc_elem _ _ _ HA)) as [H1 H2]. rewrite off_id by lia.
    split; [|lia]. transitivity (Some (sub so 256 buf)); [exact H1|]. rewrite (job_at _ _ _ _ HJ), content_padded by auto. reflexivity.
  Qed.

  Lemma text_ok s so : (s = [] -> so = 0) -> (forall e, e ∈ ev_str s so -> e ∈ E) -> zlen s <= 256 ->
    res_text D (so mod 2 ^ 64) = Some (text s).
  Proof.
    intros H0 He Hs. unfold res_text. destruct s as [|b s]; [rewrite H0 by auto; reflexivity|].
    assert (nonempty (b :: s) = true) as Hn by (apply bool_decide_true; discriminate).
    unfold ev_str in He. rewrite Hn in He.
    destruct (str_ok (b :: s) so) as [H1 H2]; [apply He; left|apply He; right; left|auto|].
    replace (so mod 2 ^ 64 =? 0) with false by lia. rewrite H1. reflexivity.
  Qed.

  (** *** Domains *)
  Lemma zip_in_l {A B} (x : A) (a : B) l l' : (x, a) ∈ zip l l' -> x ∈ l.
  Proof using Type. intros H. eapply elem_of_zip_l; eauto. Qed.
  Lemma zip_Forall2 {A B} (P : A -> B -> Prop) l l' x a : Forall2 P l l' -> (x, a) ∈ zip l l' -> P x a.
  Proof using Type.
    induction 1 as [|y b l l' HP HF IH]; cbn; intros H; [inversion H|]. apply elem_of_cons in H as [H|H]; [by simplify_eq|auto].
  Qed.

  Lemma dom_allocs k : k = CIndom \/ k = CInstance -> allocs k E = concat (zip_with (fun x a => allocs k (ev_dom r x a)) (pl_doms pl) ad).
  Proof using Type.
    intros Hk. unfold E. rewrite ev_start_app, !allocs_app, (proj1 (fix_none c)). cbn [app]. unfold ev_mets.
    replace (allocs k (concat (zip_with (ev_met (r_version2 (k_reg c))) (pl_mets pl) am))) with (@nil (Z * Z)).
    - rewrite app_nil_r. unfold ev_doms. fold r. clear. revert ad. induction (pl_doms pl) as [|x l IH]; intros [|a ad]; cbn [zip_with concat]; auto.
      rewrite allocs_app, IH. reflexivity.
    - clear -Hk. revert am. induction (pl_mets pl) as [|x l IH]; intros [|a am]; cbn [zip_with concat]; auto.
      rewrite allocs_app, <- IH, met_allocs_none by tauto. reflexivity.
  Qed.
  Lemma met_allocs k : k = CMetric \/ k = CValue -> allocs k E = concat (zip_with (fun x a => allocs k (ev_met v2 x a)) (pl_mets pl) am).
  Proof using Type.
    intros Hk. unfold E. rewrite ev_start_app, !allocs_app, (proj1 (fix_none c)). cbn [app]. unfold ev_doms.
    replace (allocs k (concat (zip_with (ev_dom (k_reg c)) (pl_doms pl) ad))) with (@nil (Z * Z)).
    - unfold ev_mets. fold r v2. clear. revert am. cbn [app]. induction (pl_mets pl) as [|x l IH]; intros [|a am]; cbn [zip_with concat]; auto.
      rewrite allocs_app, IH. reflexivity.
    - clear -Hk. revert ad. induction (pl_doms pl) as [|x l IH]; intros [|a ad]; cbn [zip_with concat]; auto.
      rewrite allocs_app, <- IH, dom_allocs_none by tauto. reflexivity.
  Qed.

  Definition zd := zip (pl_doms pl) ad.
  Definition zm := zip (pl_mets pl) am.

  Lemma concat_zip_single {A B C} (f : A -> B -> C) l l' : concat (zip_with (fun x a => [f x a]) l l') = map (fun p => f p.1 p.2) (zip l l').
  Proof using Type. revert l'. induction l; intros [|b l']; cbn; f_equal; auto. Qed.

  Lemma zw_ext {A B C} (f g : A -> B -> C) l l' : (forall x a, f x a = g x a) -> zip_with f l l' = zip_with g l l'.
  Proof using Type. intros H. revert l'. induction l; intros [|b l']; cbn; f_equal; auto. Qed.
  Lemma concat_zip {A B C} (f : A -> B -> list C) l l' : concat (zip_with f l l') = concat (map (fun p => f p.1 p.2) (zip l l')).
  Proof using Type. revert l'. induction l; intros [|b l']; cbn; f_equal; auto. Qed.
  Lemma zd_fst : map fst zd = pl_doms pl.
  Proof.
    unfold zd. pose proof (Forall2_length _ _ _ (im_das _ _ _ _ _ Him)) as H. revert H. generalize (pl_doms pl) as l. generalize ad.
    induction ad0; intros [|x l] H; cbn in *; try lia; f_equal; auto.
  Qed.
  Lemma zm_fst : map fst zm = pl_mets pl.
  Proof.
    unfold zm. pose proof (Forall2_length _ _ _ (im_mas _ _ _ _ _ Him)) as H. revert H. generalize (pl_mets pl) as l. generalize am.
    induction am0; intros [|x l] H; cbn in *; try lia; f_equal; auto.
  Qed.

  Lemma indom_slots : slots (indomoffset r) 32 (Z.to_nat (InstanceDomainCount r)) ≡ₚ map (fun p => da_off p.2) zd.
  Proof.
    rewrite <- (slot_perm1 CIndom) by discriminate. rewrite dom_allocs by auto. apply reflexive_eq.
    rewrite (zw_ext _ (fun x a => [(da_off a, 32)])) by (intros; apply dom_allocs_indom).
    rewrite (concat_zip_single (fun _ a => (da_off a, 32))), map_map. reflexivity.
  Qed.

  Lemma dom_insts x a : (x, a) ∈ zd -> zlen x.2 = instance_count x.1.2.
  Proof.
    intros H. apply zip_in_l in H. pose proof (pf_insts _ _ (pw_fit _ _ Hwf)) as F. rewrite Forall_forall in F. auto.
  Qed.

  Lemma inst_slots : slots (instanceoffset r) (InstanceLength r) (Z.to_nat (InstanceCount r)) ≡ₚ
    concat (map (fun p => slots (da_ioff p.2) (InstanceLength r) (length p.1.2)) zd).
  Proof.
    rewrite <- (slot_perm CInstance). rewrite dom_allocs by auto. apply reflexive_eq.
    rewrite (zw_ext _ (fun x a => [(da_ioff a, InstanceLength r * instance_count x.1.2)])) by (intros; apply dom_allocs_inst).
    rewrite (concat_zip_single (fun x a => (da_ioff a, InstanceLength r * instance_count x.1.2))), map_map. f_equal.
    apply map_ext_in. intros [x a] Hp. apply elem_of_list_In in Hp. cbn [fst snd].
    pose proof (len_pos CInstance) as HI. cbn [len_of] in *. f_equal. rewrite Z.mul_comm, Z.div_mul by lia.
    rewrite <- (dom_insts _ _ Hp). unfold zlen. lia.
  Qed.

  Lemma metric_slots : slots (metricsoffset r) (MetricLength r) (Z.to_nat (MetricCount r)) ≡ₚ map (fun p => ma_off p.2) zm.
  Proof.
    rewrite <- (slot_perm1 CMetric) by discriminate. rewrite met_allocs by auto. apply reflexive_eq.
    rewrite (zw_ext _ (fun x a => [(ma_off a, mlen v2)])) by (intros; apply met_allocs_metric).
    rewrite (concat_zip_single (fun _ a => (ma_off a, mlen v2))), map_map. reflexivity.
  Qed.

  Lemma value_slots : slots (valuesoffset r) 32 (Z.to_nat (ValuesCount r)) ≡ₚ concat (map (fun p => map (fun x => va_off x.2) (rows p.1 p.2)) zm).
  Proof.
    rewrite <- (slot_perm1 CValue) by discriminate. rewrite met_allocs by auto. apply reflexive_eq.
    rewrite (zw_ext _ (fun m a => map (fun x => (va_off x.2, 32)) (rows m a))) by (intros; apply met_allocs_value).
    rewrite concat_zip, concat_map, map_map. f_equal. apply map_ext. intros p. rewrite map_map. reflexivity.
  Qed.

  (** What the plan should show. *)
  Definition mp_dom (m : mplan) : option indom := match m with MPSingle _ _ _ => None | MPInst _ _ _ dom _ => Some dom end.
  Definition pv_metric (m : mplan) : vmetric := want_metric v2 (mp_desc m) (mp_dom m).
  Definition pv_insts (x : nat * indom * list (gostring * Z)) : list vinst := map (want_inst v2 x.1.2) x.2.
  Definition pv_value (m : mplan) (x : option gostring * goval) : vvalue :=
    mkVV (pv_metric m)
      (match x.1, mp_dom m with
       | Some n, Some dom => id ← id_insts dom !! n; Some (want_inst v2 dom (n, id))
       | _, _ => None
       end) (want_val x.2).
  Definition plan_view : view :=
    mkView (map (fun x => want_indom x.1.2) (pl_doms pl)) (concat (map pv_insts (pl_doms pl)))
      (map pv_metric (pl_mets pl)) (concat (map (fun m => map (pv_value m) (mp_vals m)) (pl_mets pl))).

  Lemma count_bound x a : (x, a) ∈ zd -> 0 <= instance_count x.1.2 < 2 ^ 31.
  Proof.
    intros H. split; [rewrite <- (dom_insts _ _ H); apply zlen_nonneg|].
    pose proof (pf_ic _ _ (pw_fit _ _ Hwf)) as F. fold r in F. destruct (pr_counts _ _ Hrg) as (_ & HI & _). fold r in HI.
    apply zip_in_l in H. pose proof (pf_insts _ _ (pw_fit _ _ Hwf)) as G.
    enough (instance_count x.1.2 <= sumZ (map (fun x => instance_count x.1.2) (pl_doms pl))) by lia. clear -H G.
    induction G as [|y l Hy G IH]; [inversion H|]. cbn. fold (sumZ (map (fun x0 => instance_count x0.1.2) l)).
    assert (0 <= sumZ (map (fun x0 => instance_count x0.1.2) l)).
    { apply sumZ_nonneg. eapply Forall_impl; [exact G|]. intros z Hz. cbn beta in Hz. rewrite <- Hz. apply zlen_nonneg. }
    pose proof (zlen_nonneg y.2). apply elem_of_cons in H as [->|H]; [lia|]. specialize (IH H). lia.
  Qed.

  Lemma dom_dec x a : (x, a) ∈ zd -> dec_indom buf (da_off a) =
    mkDIndom (id_id x.1.2) (instance_count x.1.2) (da_ioff a mod 2 ^ 64) (da_so a mod 2 ^ 64) (da_lo a mod 2 ^ 64).
  Proof.
    intros H. pose proof (count_bound _ _ H) as HC. pose proof (zip_in_l _ _ _ _ H) as Hx.
    pose proof (pr_doms _ _ Hrg) as HR. rewrite Forall_forall in HR. specialize (HR _ Hx). unfold dom_range in HR.
    assert (forall e, e ∈ ev_dom r x a -> e ∈ E) as HE by (intros; eapply dom_elem; eauto).
    unfold dec_indom. f_equal.
    - rewrite (u32_at CD _ (id_id x.1.2)) by (apply HE; do 2 right; left). apply Z.mod_small. lia.
    - rewrite (u32_at CD _ (to_signed 32 (instance_count x.1.2))) by (apply HE; do 3 right; left).
      rewrite to_signed_id by (unfold in_signed; lia). apply Z.mod_small. lia.
    - apply (u64_at CD). apply HE; do 4 right; left.
    - apply (u64_at CD). apply HE; do 5 right; left.
    - apply (u64_at CD). apply HE; do 6 right; left.
  Qed.

  Lemma dom_lookup x a : (x, a) ∈ zd -> du_indoms D !! (da_off a mod 2 ^ 64) = Some (dec_indom buf (da_off a)).
  Proof.
    intros H. assert (da_off a ∈ slots (indomoffset r) 32 (Z.to_nat (InstanceDomainCount r))) as HS.
    { rewrite indom_slots. apply elem_of_list_fmap. exists (x, a). auto. }
    rewrite off_id by (apply (slot_range CIndom), HS || (pose proof (slot_range CIndom _ HS); lia)).
    cbn [du_indoms want_dump]. apply section_lookup; [unfold InstanceDomainLength; lia|exact HS].
  Qed.

  Lemma dom_shows x a : (x, a) ∈ zd -> res_indom D (dec_indom buf (da_off a)) = Some (want_indom x.1.2).
  Proof.
    intros H. rewrite (dom_dec _ _ H). unfold res_indom. cbn [dd_short dd_long dd_serial dd_count].
    pose proof (zip_Forall2 _ _ _ _ _ (im_das _ _ _ _ _ Him) H) as [H1 H2].
    pose proof (pw_dsz _ _ Hwf) as HS. rewrite Forall_forall in HS. destruct (HS _ (zip_in_l _ _ _ _ H)) as (S1 & S2 & _).
    assert (forall e, e ∈ ev_dom r x a -> e ∈ E) as HE by (intros; eapply dom_elem; eauto).
    rewrite (text_ok (id_short x.1.2) (da_so a)); [|exact H1| |exact S1].
    2: { intros e He. apply HE. unfold ev_dom. rewrite !elem_of_app. tauto. }
    rewrite (text_ok (id_long x.1.2) (da_lo a)); [|exact H2| |exact S2].
    2: { intros e He. apply HE. unfold ev_dom. rewrite !elem_of_app. tauto. }
    reflexivity.
  Qed.

  Lemma ver_cases : (v2 = true /\ ver = 2) \/ (v2 = false /\ ver = 1).
  Proof using Type. unfold ver. destruct v2; auto. Qed.

  Lemma inst_shows x a n id o so : (x, a) ∈ zd -> (n, id, o, so) ∈ irows (InstanceLength r) (da_ioff a) x.2 (da_is a) ->
    du_instances D !! (o mod 2 ^ 64) = Some (dec_instance ver buf o) /\ o mod 2 ^ 64 <> 0 /\ o mod 2 ^ 64 = o /\
    res_inst D (dec_instance ver buf o) = Some (want_inst v2 x.1.2 (n, id)).
  Proof.
    intros H Hi.
    assert (o ∈ slots (instanceoffset r) (InstanceLength r) (Z.to_nat (InstanceCount r))) as HS.
    { rewrite inst_slots. apply elem_of_list_In, in_concat. eexists. split.
      - apply in_map_iff. exists (x, a). split; [reflexivity|]. by apply elem_of_list_In.
      - cbn [fst snd]. apply elem_of_list_In. rewrite <- (irows_slots _ _ _ (da_is a)). apply elem_of_list_fmap. exists (n, id, o, so). auto. }
    pose proof (slot_range CInstance _ HS) as HB. rewrite off_id by lia.
    assert (forall e, e ∈ ev_dom r x a -> e ∈ E) as HE by (intros; eapply dom_elem; eauto).
    assert (forall e, e ∈ ev_inst v2 x.1.1 n id (da_off a) o so -> e ∈ E) as HI.
    { intros e He. apply HE. unfold ev_dom. rewrite !elem_of_app. do 3 right. eapply irow_events; eauto. }
    assert (zlen n <= name_max v2) as HN.
    { pose proof (pw_dsz _ _ Hwf) as F. rewrite Forall_forall in F. destruct (F _ (zip_in_l _ _ _ _ H)) as (_ & _ & F3).
      rewrite Forall_forall in F3. apply (F3 (n, id)). rewrite <- (irows_fst (InstanceLength r) x.2 (da_ioff a) (da_is a)).
      apply elem_of_list_fmap. exists (n, id, o, so). auto. }
    split_and!; try lia.
    - cbn [du_instances want_dump]. apply section_lookup; [apply (len_pos CInstance)|exact HS].
    - unfold res_inst, dec_instance, want_inst. cbn [di_indom di_internal di_external di_padding fst snd].
      rewrite (u32_at CI (o + 8) 0) by (apply HI; do 2 right; left). change (negb (0 mod 2 ^ 32 =? 0)) with false. cbv iota.
      rewrite (u64_at CI o (da_off a)) by (apply HI; right; left).
      rewrite (dom_lookup _ _ H). rewrite bSome; cbn beta.
      rewrite (i32_at CI (o + 12) id) by (apply HI; do 3 right; left).
      rewrite (dom_dec _ _ H). cbn [dd_serial].
      unfold ev_inst, name_max, name_width in *. destruct ver_cases as [[Ev Ew]|[Ev Ew]]; rewrite ?Ev, ?Ew in *; cbn [Z.eqb Pos.eqb res_name].
      + rewrite (u64_at CI (o + 16) so) by (apply HI; do 5 right; left).
        destruct (str_ok n so) as [-> _]; [apply HI; do 4 right; left|apply HI; do 6 right; left|exact HN|]. reflexivity.
      + rewrite (job_at CI (o + 16) 64 [n]) by (apply HI; do 4 right; left).
        rewrite content_padded by (unfold MaxV1NameLength in HN; lia). reflexivity.
  Qed.

  Lemma met_rest_ok m a e iid (Hin : (m, a) ∈ zm) :
    iid = (match mp_dom m with Some i => Some (id_id i) | None => None end) ->
    e ∈ ev_desc v2 (mp_desc m) iid a -> e ∈ E.
  Proof using Him.
    intros -> He. eapply met_elem; [exact Hin|]. destruct m; cbn [ev_met mp_desc mp_dom] in *; right; apply elem_of_app; left; exact He.
  Qed.

  Lemma met_dec m a : (m, a) ∈ zm ->
    dec_metric ver buf (ma_off a) =
      mkDMetric (if v2 then NOffset (ma_no a mod 2 ^ 64) else NInline (padded 64 (md_name (mp_desc m))))
        (md_id (mp_desc m)) (md_type (mp_desc m)) (md_sem (mp_desc m)) (md_unit (mp_desc m))
        (match mp_dom m with Some i => id_id i | None => -1 end) 0 (ma_so a mod 2 ^ 64) (ma_lo a mod 2 ^ 64).
  Proof.
    intros H. pose proof (met_rest_ok m a) as HE0. set (iid := match mp_dom m with Some i => Some (id_id i) | None => None end) in *.
    assert (forall e, e ∈ ev_desc v2 (mp_desc m) iid a -> e ∈ E) as HE by (intros; eapply HE0; eauto). clear HE0.
    pose proof (zip_in_l _ _ _ _ H) as Hx.
    pose proof (pr_mets _ _ Hrg) as HR. rewrite Forall_forall in HR. destruct (HR _ Hx) as (R1 & R2 & R3 & R4 & _).
    assert (match iid with Some i => i | None => -1 end = match mp_dom m with Some i => id_id i | None => -1 end) as Hid
      by (unfold iid; destruct (mp_dom m); reflexivity).
    assert (in_signed 32 (match mp_dom m with Some i => id_id i | None => -1 end)) as RI.
    { destruct m as [|mp d ip dom vals]; cbn [mp_dom]; [unfold in_signed; lia|].
      destruct (pr_links _ _ Hrg _ _ _ _ _ Hx) as (L1 & L2 & _). unfold in_signed. lia. }
    assert (zlen (md_name (mp_desc m)) <= name_max v2) as HN.
    { pose proof (pw_msz _ _ Hwf) as F. rewrite Forall_forall in F. apply (F _ Hx). }
    assert (forall nm o, (forall e, e ∈ ev_rest (mp_desc m) iid o (ma_so a) (ma_lo a) -> e ∈ E) ->
      dec_metric_at nm buf o = mkDMetric nm (md_id (mp_desc m)) (md_type (mp_desc m)) (md_sem (mp_desc m)) (md_unit (mp_desc m))
        (match mp_dom m with Some i => id_id i | None => -1 end) 0 (ma_so a mod 2 ^ 64) (ma_lo a mod 2 ^ 64)) as HD.
    { intros nm o He. rewrite <- Hid in *. unfold dec_metric_at. f_equal.
      - rewrite (u32_at CM o (md_id (mp_desc m))) by (apply He; left). apply Z.mod_small. exact R1.
      - rewrite (i32_at CM _ (md_type (mp_desc m))) by (apply He; right; left). apply to_signed_id; [lia|auto].
      - rewrite (i32_at CM _ (md_sem (mp_desc m))) by (apply He; do 2 right; left). apply to_signed_id; [lia|auto].
      - rewrite (u32_at CM _ (md_unit (mp_desc m))) by (apply He; do 3 right; left). apply Z.mod_small. exact R4.
      - rewrite (i32_at CM _ (match iid with Some i => i | None => -1 end)) by (apply He; do 4 right; left). apply to_signed_id; [lia|auto].
      - rewrite (u32_at CM _ 0) by (apply He; do 5 right; left). reflexivity.
      - apply (u64_at CM). apply He; do 6 right; left.
      - apply (u64_at CM). apply He; do 7 right; left. }
    unfold dec_metric, ev_desc in *. destruct ver_cases as [[Ev Ew]|[Ev Ew]]; rewrite ?Ev, ?Ew in *; cbn [Z.eqb Pos.eqb].
    - rewrite HD. 2: { intros e He. apply HE. apply elem_of_app. right. exact He. }
      f_equal. f_equal. apply (u64_at CM). apply HE. right; left.
    - rewrite HD. 2: { intros e He. apply HE. right. exact He. }
      f_equal. f_equal. rewrite (job_at CM (ma_off a) 64 [md_name (mp_desc m)]) by (apply HE; left).
      apply content_padded. unfold name_max, MaxV1NameLength in HN. lia.
  Qed.

  Lemma met_shows m a : (m, a) ∈ zm ->
    du_metrics D !! (ma_off a mod 2 ^ 64) = Some (dec_metric ver buf (ma_off a)) /\
    dm_type (dec_metric ver buf (ma_off a)) = md_type (mp_desc m) /\
    res_metric D (dec_metric ver buf (ma_off a)) = Some (pv_metric m).
  Proof.
    intros H. pose proof (met_rest_ok m a) as HE0. set (iid := match mp_dom m with Some i => Some (id_id i) | None => None end) in *.
    assert (forall e, e ∈ ev_desc v2 (mp_desc m) iid a -> e ∈ E) as HE by (intros; eapply HE0; eauto). clear HE0.
    pose proof (zip_in_l _ _ _ _ H) as Hx.
    pose proof (pw_msz _ _ Hwf) as F. rewrite Forall_forall in F. destruct (F _ Hx) as (S1 & S2 & S3 & _). change (zlen (md_name (mp_desc m)) <= name_max v2) in S1.
    destruct (zip_Forall2 _ _ _ _ _ (im_mas _ _ _ _ _ Him) H) as (H1 & H2 & _).
    assert (ma_off a ∈ slots (metricsoffset r) (MetricLength r) (Z.to_nat (MetricCount r))) as HS.
    { rewrite metric_slots. apply elem_of_list_fmap. exists (m, a). auto. }
    split_and!.
    - rewrite off_id by (pose proof (slot_range CMetric _ HS); lia). cbn [du_metrics want_dump].
      apply section_lookup; [apply (len_pos CMetric)|exact HS].
    - rewrite (met_dec _ _ H). reflexivity.
    - rewrite (met_dec _ _ H). unfold res_metric. cbn [dm_name dm_short dm_long dm_item dm_type dm_sem dm_unit dm_indom dm_padding Z.eqb negb].
      assert (res_name D (if v2 then NOffset (ma_no a mod 2 ^ 64) else NInline (padded 64 (md_name (mp_desc m)))) =
        Some (padded (name_width v2) (md_name (mp_desc m)))) as ->.
      { unfold ev_desc, name_max, name_width in *. destruct ver_cases as [[Ev Ew]|[Ev Ew]]; rewrite ?Ev, ?Ew in *; cbn [res_name].
        - apply str_ok; [apply HE; left|apply HE; right; right; left|exact S1].
        - reflexivity. }
      assert (forall o e, e ∈ ev_str (md_short (mp_desc m)) (ma_so a) ++ ev_str (md_long (mp_desc m)) (ma_lo a) -> e ∈ ev_rest (mp_desc m) iid o (ma_so a) (ma_lo a)) as Hr.
      { intros o e He. unfold ev_rest. apply elem_of_app. right. exact He. }
      assert (forall e, e ∈ ev_str (md_short (mp_desc m)) (ma_so a) ++ ev_str (md_long (mp_desc m)) (ma_lo a) -> e ∈ E) as HT.
      { intros e He. apply HE. unfold ev_desc. destruct v2; [apply elem_of_app; right|right]; apply Hr; exact He. }
      rewrite (text_ok (md_short (mp_desc m)) (ma_so a)); [|exact H1| |exact S2].
      2: { intros e He. apply HT, elem_of_app. auto. }
      rewrite (text_ok (md_long (mp_desc m)) (ma_lo a)); [|exact H2| |exact S3].
      2: { intros e He. apply HT, elem_of_app. auto. }
      reflexivity.
  Qed.

  (** *** Values *)
  Lemma dec_pad (d : list byte) : zlen d <= 8 -> le_dec (content 8 [d]) = le_dec d.
  Proof. intros H. rewrite content1_pad by auto. rewrite le_dec_app. unfold zeros. rewrite le_dec_zeros. lia. Qed.

  Lemma val_dec t v off : vtyped t v -> t <> StringType -> EJob CV off 8 (upd_ds v).*2 ∈ E -> FixedVal (u64 off buf) t = Some v.
  Proof.
    intros Hv Ht HJ. unfold u64. rewrite (job_at _ _ _ _ HJ).
    destruct v as [z|z|z|z|z|z|z|z|s|]; cbn [vtyped] in Hv; try contradiction.
    all: destruct Hv as [-> Hz] || (subst; congruence).
    all: unfold Int32Type, Uint32Type, Int64Type, Uint64Type, FloatType, DoubleType, FixedVal; cbn [Z.eqb Pos.eqb].
    all: unfold upd_ds, val_bytes; change (([(false, ?d)]).*2) with [d].
    all: rewrite dec_pad by (rewrite zlen_le_enc; lia); rewrite le_dec_enc.
    all: unfold in_signed, in_unsigned in Hz.
    all: change (256 ^ Z.of_nat 4) with (2 ^ 32); change (256 ^ Z.of_nat 8) with (2 ^ 64).
    all: f_equal; f_equal.
    all: first
      [ apply Z.mod_small; lia
      | unfold to_unsigned; rewrite Z.mod_mod by lia; apply Z.mod_small; lia
      | change (z mod 2 ^ 32) with (to_unsigned 32 z); rewrite to_signed_unsigned by lia; apply to_signed_id; unfold in_signed; lia
      | change (z mod 2 ^ 64) with (to_unsigned 64 z); rewrite to_signed_unsigned by lia; apply to_signed_id; unfold in_signed; lia ].
  Qed.

  Lemma content_over s : zlen s <= 256 -> content 256 [zeros 256; s] = padded 256 s.
  Proof. intros H. unfold padded. rewrite <- content1_pad by auto. reflexivity. Qed.

  Lemma row_val m a n v va : (m, a) ∈ zm -> (n, v, va) ∈ rows m a -> val_ok (md_type (mp_desc m)) v /\ vtyped (md_type (mp_desc m)) v.
  Proof.
    intros H Hr. pose proof (zip_in_l _ _ _ _ H) as Hx.
    assert ((n, v) ∈ mp_vals m) as Hv. { rewrite <- (rows_vals m a). apply elem_of_list_fmap. exists (n, v, va). auto. }
    split.
    - pose proof (pw_msz _ _ Hwf) as F. rewrite Forall_forall in F. destruct (F _ Hx) as (_ & _ & _ & S4).
      destruct m as [mp d v0|mp d ip dom vals]; cbn [mp_vals mp_desc] in *.
      + apply elem_of_list_singleton in Hv. simplify_eq. exact S4.
      + apply elem_of_list_fmap in Hv as ([n' v'] & He & Hv). cbn in He. simplify_eq. rewrite Forall_forall in S4. apply (S4 _ Hv).
    - pose proof (pr_mets _ _ Hrg) as HR. rewrite Forall_forall in HR. destruct (HR _ Hx) as (_ & _ & _ & _ & R5).
      rewrite Forall_forall in R5. apply (R5 _ Hv).
  Qed.

  Lemma value_ok m a n v va : (m, a) ∈ zm -> (n, v, va) ∈ rows m a ->
    res_val D (md_type (mp_desc m)) (dec_value buf (va_off va)) = Some (want_val v).
  Proof.
    intros H Hr. destruct (row_val _ _ _ _ _ H Hr) as [V1 V2].
    destruct (row_events v2 _ _ _ _ _ Hr) as (get & HE & _).
    assert (forall e, e ∈ ev_val (md_type (mp_desc m)) v (va_off va) (va_so va) (row_key m n) -> e ∈ E) as HV.
    { intros e He. eapply met_elem; [exact H|]. apply HE. unfold ev_v1. right. apply elem_of_app. left. exact He. }
    unfold res_val, ev_val in *. unfold StringType in *. destruct (md_type (mp_desc m) =? 6) eqn:Et.
    - destruct v as [z|z|z|z|z|z|z|z|s|]; cbn [vtyped] in V2; try contradiction;
        try (exfalso; destruct V2 as [V2 _]; rewrite V2 in Et; discriminate).
      destruct V1 as [_ V1]. unfold dec_value. cbn [dv_val dv_extra]. unfold i64.
      rewrite (u64_at CV (va_off va) (StringLength - 1)) by (apply HV; left). change ((StringLength - 1) mod 2 ^ 64 =? 255) with true. cbv iota.
      rewrite (u64_at CV (va_off va + 8) (va_so va)) by (apply HV; do 2 right; left).
      destruct (string_lookup (va_so va)) as [L1 L2]. { apply alloc_elem. apply HV. right; left. }
      assert (to_unsigned 64 (to_signed 64 (va_so va mod 2 ^ 64)) = va_so va) as ->.
      { pose proof Length_bound. rewrite off_id by lia. rewrite to_signed_id by (unfold in_signed; lia). unfold to_unsigned. apply off_id. lia. }
      assert (string_at D (va_so va) = Some (padded 256 s)) as ->; [|reflexivity].
      transitivity (Some (sub (va_so va) 256 buf)); [exact L1|].
      rewrite (job_at CS (va_so va) 256 (upd_ds (VStr s)).*2) by (apply HV; do 3 right; left).
      change ((upd_ds (VStr s)).*2) with [zeros 256; s]. rewrite content_over by exact V1. reflexivity.
    - unfold dec_value. cbn [dv_val dv_extra].
      assert (i64 (va_off va + 8) buf = 0) as -> by (unfold i64, u64; rewrite (job_at CV (va_off va + 8) 8 []) by (apply HV; left); reflexivity).
      change (0 =? 0) with true. cbv iota. assert (want_val v = v) as ->.
      { destruct v; try reflexivity. cbn in V2. unfold StringType in V2. lia. }
      apply val_dec; auto; [unfold StringType; lia|]. apply HV. right; left.
  Qed.

  Lemma off_consistent ip n o dom insts aD id oI sI : EGet (ip, n) o ∈ E -> ((ip, dom, insts), aD) ∈ zd ->
    (n, id, oI, sI) ∈ irows (InstanceLength r) (da_ioff aD) insts (da_is aD) -> o = oI.
  Proof.
    intros HG HD HI. eapply (im_gets _ _ _ _ _ Him); [exact HG|]. eapply dom_elem; [exact HD|].
    unfold ev_dom. rewrite !elem_of_app. do 3 right. cbn [fst snd]. eapply irow_events; [exact HI|]. left.
  Qed.

  Lemma zip_find x : x ∈ pl_doms pl -> exists a, (x, a) ∈ zd.
  Proof.
    intros H. rewrite <- zd_fst in H. apply elem_of_list_fmap in H as ([y a] & -> & H). eauto.
  Qed.

  Lemma val_shows m a n v va : (m, a) ∈ zm -> (n, v, va) ∈ rows m a ->
    res_value D (dec_value buf (va_off va)) = Some (pv_value m (n, v)).
  Proof.
    intros H Hr. pose proof (value_ok _ _ _ _ _ H Hr) as HV.
    destruct (row_events v2 _ _ _ _ _ Hr) as (get & HE & Hget).
    assert (forall e, e ∈ ev_v1 (md_type (mp_desc m)) (row_key m n) (ma_off a) get v va -> e ∈ E) as HM.
    { intros e He. eapply met_elem; [exact H|]. apply HE, He. }
    destruct (met_shows _ _ H) as (M1 & M2 & M3).
    assert (dv_metric (dec_value buf (va_off va)) = ma_off a mod 2 ^ 64) as DM.
    { apply (u64_at CV). apply HM. unfold ev_v1. right. apply elem_of_app. right. left. }
    assert (dv_instance (dec_value buf (va_off va)) = va_io va mod 2 ^ 64) as DI.
    { apply (u64_at CV). apply HM. unfold ev_v1. right. apply elem_of_app. right. right. left. }
    unfold res_value. rewrite DM, DI, M1. rewrite bSome; cbn beta. rewrite M2, M3. rewrite bSome; cbn beta.
    unfold pv_value. cbn [fst snd].
    assert ((if va_io va mod 2 ^ 64 =? 0 then Some None
       else i ← du_instances D !! (va_io va mod 2 ^ 64); vi ← res_inst D i; Some (Some vi)) =
       Some (match n, mp_dom m with
       | Some n, Some dom => id ← id_insts dom !! n; Some (want_inst v2 dom (n, id))
       | _, _ => None
       end)) as ->.
    { destruct m as [mp d v0|mp d ip dom vals]; cbn [mp_dom mp_desc] in *.
      - subst n. cbn [rows] in Hr. apply elem_of_list_singleton in Hr. simplify_eq.
        destruct (zip_Forall2 _ _ _ _ _ (im_mas _ _ _ _ _ Him) H) as (_ & _ & Hs). cbn in Hs. rewrite Hs. reflexivity.
      - destruct Hget as (n' & -> & Hin & Hg). pose proof (zip_in_l _ _ _ _ H) as Hx.
        destruct (pr_links _ _ Hrg _ _ _ _ _ Hx) as (_ & _ & insts & L1 & L2 & L3).
        destruct (L3 n') as [id Hid]. { apply elem_of_list_fmap. exists (n', v). auto. }
        destruct (zip_find _ L1) as [aD HD].
        assert ((n', id) ∈ insts) as Hii by (apply L2; exact Hid).
        rewrite <- (irows_fst (InstanceLength r) insts (da_ioff aD) (da_is aD)) in Hii.
        apply elem_of_list_fmap in Hii as ([[[n1 id1] oI] sI] & Heq & Hii). cbn [fst snd] in Heq. simplify_eq.
        assert (va_io va = oI) as ->.
        { eapply off_consistent; [|exact HD|exact Hii]. apply HM. unfold ev_v1. right. apply elem_of_app. right. do 2 right. exact Hg. }
        destruct (inst_shows _ _ _ _ _ _ HD Hii) as (I1 & I2 & I3 & I4).
        apply Z.eqb_neq in I2. rewrite I2, I1. rewrite bSome; cbn beta. rewrite I4. rewrite bSome; cbn beta; cbn [fst snd].
        rewrite Hid. reflexivity. }
    rewrite bSome; cbn beta. rewrite HV. reflexivity.
  Qed.

  (** *** Everything *)
  Lemma concat_map_ext {A B} (f g : A -> list B) (l : list A) : (forall x, x ∈ l -> f x = g x) -> concat (map f l) = concat (map g l).
  Proof using Type. intros H. f_equal. apply map_ext_in. intros x Hx. apply H. by apply elem_of_list_In. Qed.

  Lemma concat_map_perm {A B} (f : A -> list B) (l l' : list A) : l ≡ₚ l' -> concat (map f l) ≡ₚ concat (map f l').
  Proof using Type.
    induction 1 as [|x l l' H IH|x y l|l1 l2 l3 H1 IH1 H2 IH2]; cbn; [reflexivity|by rewrite IH| |by rewrite IH1].
    rewrite !app_assoc. f_equiv. apply Permutation_app_comm.
  Qed.

  Lemma insts_map {B} (f : Z -> B) x a g :
    (forall n id o so, (n, id, o, so) ∈ irows (InstanceLength r) (da_ioff a) x.2 (da_is a) -> f o = g (n, id)) ->
    map f (slots (da_ioff a) (InstanceLength r) (length (x : nat * indom * list (gostring * Z)).2)) = map g x.2.
  Proof using Type.
    intros H. rewrite <- (irows_slots _ _ _ (da_is a)). rewrite map_map.
    rewrite <- (irows_fst (InstanceLength r) x.2 (da_ioff a) (da_is a)) at 2. rewrite map_map.
    apply map_ext_in. intros [[[n id] o] so] Hin. apply H with so. by apply elem_of_list_In.
  Qed.

  Lemma view_ok : shows D plan_view.
  Proof.
    unfold shows. cbn [du_indoms du_instances du_metrics du_values du_header want_dump hd_version want_header
      v_indoms v_insts v_metrics v_values plan_view].
    assert (d_inst_len (if v2 then 2 else 1) = InstanceLength r) as -> by (unfold v2, InstanceLength; destruct (r_version2 r); reflexivity).
    unfold recs.
    assert ((map_to_list (section (indomoffset r) InstanceDomainLength (Z.to_nat (InstanceDomainCount r)) (dec_indom buf))).*2 ≡ₚ
      map (fun p => dec_indom buf (da_off p.2)) zd) as HDm.
    { rewrite section_recs by (unfold InstanceDomainLength; lia).
      etransitivity; [apply Permutation_map, indom_slots|]. rewrite map_map. reflexivity. }
    split_and!.
    - etransitivity; [apply Permutation_map, HDm|]. apply reflexive_eq. rewrite map_map, <- zd_fst, !map_map.
      apply map_ext_in. intros [x a] Hp. apply elem_of_list_In in Hp. cbn [fst snd]. apply (dom_shows _ _ Hp).
    - rewrite section_recs by apply (len_pos CInstance). etransitivity; [apply Permutation_map, Permutation_map, inst_slots|].
      apply reflexive_eq. rewrite <- zd_fst, map_map, !concat_map, !map_map. apply concat_map_ext. intros [x a] Hp. cbn [fst snd].
      unfold pv_insts. rewrite map_map. apply insts_map. intros n id o so Hi. apply (inst_shows _ _ _ _ _ _ Hp Hi).
    - etransitivity; [apply concat_map_perm, HDm|]. apply reflexive_eq.
      rewrite <- zd_fst, concat_map, !map_map. apply concat_map_ext. intros [x a] Hp. cbn [fst snd].
      unfold dom_members, pv_insts. rewrite (dom_dec _ _ Hp). cbn [dd_offset dd_count]. rewrite map_map.
      rewrite <- (dom_insts _ _ Hp). unfold zlen. rewrite Nat2Z.id.
      destruct x as [[ip dom] insts]. cbn [fst snd] in *.
      erewrite <- (insts_map (fun o => i ← du_instances D !! o; res_inst D i) (ip, dom, insts) a).
      2: { intros n id o so Hi. destruct (inst_shows _ _ _ _ _ _ Hp Hi) as (I1 & I2 & I3 & I4). rewrite I3 in I1. rewrite I1. exact I4. }
      cbn [fst snd]. destruct insts as [|i0 insts]; [reflexivity|].
      assert (da_ioff a mod 2 ^ 64 = da_ioff a) as ->.
      { destruct i0 as [n id]. apply (inst_shows _ _ n id (da_ioff a) (hd 0 (da_is a)) Hp). cbn [snd irows]. left. }
      rewrite slots_seq, map_map. reflexivity.
    - rewrite section_recs by apply (len_pos CMetric). etransitivity; [apply Permutation_map, Permutation_map, metric_slots|].
      apply reflexive_eq. rewrite <- zm_fst, !map_map. apply map_ext_in. intros [m a] Hp. apply elem_of_list_In in Hp. cbn [fst snd].
      apply (met_shows _ _ Hp).
    - rewrite section_recs by (unfold ValueLength; lia). etransitivity; [apply Permutation_map, Permutation_map, value_slots|].
      apply reflexive_eq. rewrite <- zm_fst, !map_map, !concat_map, !map_map. apply concat_map_ext. intros [m a] Hp. cbn [fst snd].
      rewrite <- (rows_vals m a), !map_map. apply map_ext_in. intros [[n v] va] Hr. apply elem_of_list_In in Hr. cbn [fst snd].
      apply (val_shows _ _ _ _ _ Hp Hr).
  Qed.
End img.
