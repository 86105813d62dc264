(** What a reader can see of a file that start() has only partly written. *)
From Verif Require Import Base BaseFacts Floats GoVal MetricType ByteWriter Hash Units Indom Metrics Registry Prog
  Client Mmvdump Ileave ProgProofs Events StartEvents BufFacts Tiling StartGood StartLayout StartFinal StartDone
  View Sections StartView RegInv Update World OpRuns RegFacts WorldInv Sync FloatFacts ValueFacts MetricFacts SyncLive StartLive SyncView.

(** ** Specification *)
(** A dump with no entries in the table of contents and no records. *)
Definition empty_dump (d : dump) : Prop :=
  du_tocs d = [] /\ du_metrics d = ∅ /\ du_values d = ∅ /\ du_instances d = ∅ /\ du_indoms d = ∅ /\ du_strings d = ∅.

(** [s] is the state of the goroutine pool after some steps of start(). *)
Definition start_partial (hp : heap) (offs : gmap okey Z) (k : cfg) (s : gst) : Prop :=
  exists pl p, plan_ok hp (k_reg k) pl /\ rtc (gstep (Length (k_reg k))) (start_state (k_reg k) offs ∅, start_prog k pl) (s, p).

(** ** Byte stores *)
Lemma do_stores_const (i : nat) x l : forall buf, Forall (fun s : bstore => s.1 = Z.of_nat i -> s.2 = x) l -> buf !! i = Some x ->
  do_stores buf l !! i = Some x.
Proof.
  induction l as [|s l IH]; intros buf HF Hb; [exact Hb|]. inversion HF as [|? ? H1 H2]; subst. rewrite do_stores_cons. apply IH; [exact H2|].
  destruct (decide (s.1 = Z.of_nat i)) as [E|N].
  - rewrite do_store_same; [f_equal; auto|exact E|]. by eapply lookup_lt_Some.
  - by rewrite do_store_other.
Qed.

Lemma prefix_app {A} (p a b : list A) : p `prefix_of` a ++ b -> p `prefix_of` a \/ exists q, p = a ++ q /\ q `prefix_of` b.
Proof.
  intros [k E]. apply app_eq_inv in E as [(l & -> & E)|(l & -> & E)].
  - left. exists l. reflexivity.
  - right. exists l. split; [reflexivity|]. exists k. exact E.
Qed.
Lemma prefix_Forall {A} (P : A -> Prop) p l : p `prefix_of` l -> Forall P l -> Forall P p.
Proof. intros [k ->] H. apply Forall_app in H. tauto. Qed.
Lemma prefix_filter {A} (P : A -> Prop) `{forall x, Decision (P x)} p l : p `prefix_of` l -> filter P p `prefix_of` filter P l.
Proof. intros [k ->]. rewrite filter_app. by exists (filter P k). Qed.

Lemma stores_outside lo w off d : off + zlen d <= lo \/ lo + w <= off -> Forall (fun s => ~ inreg lo w s) (stores_of off d).
Proof. intros H. eapply Forall_impl; [apply stores_of_range|]. unfold inreg. cbn. lia. Qed.
Lemma stores_inside lo w off d : lo <= off -> off + zlen d <= lo + w -> filter (inreg lo w) (stores_of off d) = stores_of off d.
Proof.
  intros H1 H2. assert (Forall (inreg lo w) (stores_of off d)) as HF.
  { eapply Forall_impl; [apply stores_of_range|]. unfold inreg. cbn. lia. }
  induction HF as [|x l Hx HF IH]; [reflexivity|]. rewrite filter_cons_True by exact Hx. by rewrite IH.
Qed.
Lemma filter_outside lo w (l : list bstore) : Forall (fun s => ~ inreg lo w s) l -> filter (inreg lo w) l = [].
Proof. induction 1 as [|x l Hx _ IH]; [reflexivity|]. rewrite filter_cons_False by exact Hx. exact IH. Qed.

(** The stores of the header between 8 and 28: generation, zero, count of entries. *)
Definition hstores (g cnt : list byte) : list bstore := stores_of 8 g ++ stores_of 16 (zeros 8) ++ stores_of 24 cnt.

Lemma zeros_stores_val off n : Forall (fun s : bstore => s.2 = x00) (stores_of off (zeros n)).
Proof. unfold zeros. generalize (Z.to_nat n) as k. intros k. revert off. induction k as [|k IH]; intros off; cbn; constructor; auto. Qed.

Lemma header_prefix L g cnt P : 28 <= L -> zlen g = 8 -> zlen cnt = 4 -> P `prefix_of` hstores g cnt ->
  let b := do_stores (zeros L) P in
  sub 24 4 b = zeros 4 \/ (sub 8 8 b = g /\ sub 16 8 b = zeros 8).
Proof.
  intros HL Hg Hc HP b. assert (zlen (zeros L) = L) as HZ by (apply zlen_zeros; lia).
  assert (zlen (zeros 8) = 8) as HZ8 by reflexivity.
  apply prefix_app in HP as [HP|(Q & -> & HQ)].
  - left. unfold b. rewrite do_stores_outside; [apply sub_zeros; lia|lia|]. eapply prefix_Forall; [exact HP|]. apply stores_outside. lia.
  - right. assert (Forall (fun s : bstore => 16 <= s.1 /\ (s.1 < 24 -> s.2 = x00)) Q) as HF.
    { eapply prefix_Forall; [exact HQ|]. apply Forall_app. split.
      - eapply Forall_impl; [apply Forall_and; split; [apply stores_of_range|apply zeros_stores_val]|]. cbn. intros ? [? ?]. split; [lia|auto].
      - eapply Forall_impl; [apply stores_of_range|]. cbn. intros. lia. }
    unfold b. rewrite do_stores_app. split.
    + rewrite do_stores_outside; [|lia|eapply Forall_impl; [exact HF|unfold inreg; cbn; lia]].
      rewrite sub_write by lia. rewrite drop_ge; [apply app_nil_r|]. pose proof (sub_length 8 8 (zeros L)) as HS. unfold zlen in *. lia.
    + rewrite <- (sub_zeros 16 8 L) by lia. apply sub_ext; [lia|]. intros i Hi.
      assert (zeros L !! i = Some x00) as Ez. { apply lookup_replicate. split; [reflexivity|]. lia. }
      rewrite Ez. apply do_stores_const.
      * eapply Forall_impl; [exact HF|]. cbn. intros s [H1 H2] E. apply H2. lia.
      * apply do_stores_const; [|exact Ez]. eapply Forall_impl; [apply stores_of_range|]. cbn. intros s H E. lia.
Qed.

(** Overwriting zeros by [g] byte by byte: if the field already equals [g], what is left changes nothing. *)
Lemma last_prefix b1 g P : zlen g = 8 -> 24 <= zlen b1 -> sub 8 8 b1 = g -> P `prefix_of` stores_of 16 g ->
  sub 8 8 (do_stores b1 P) = sub 16 8 (do_stores b1 P) -> do_stores b1 P = do_stores b1 (stores_of 16 g).
Proof.
  intros Hg Hl H1 HP E. rewrite do_stores_outside in E; [|lia|eapply prefix_Forall; [exact HP|apply stores_outside; lia]]. rewrite H1 in E.
  assert (sub 16 8 (do_stores b1 (stores_of 16 g)) = g) as E2.
  { rewrite sub_write by lia. rewrite drop_ge; [apply app_nil_r|]. pose proof (sub_length 16 8 b1) as HS. unfold zlen in *. lia. }
  rewrite E in E2 at 2. clear E. apply list_eq. intros i.
  destruct (decide (16 <= Z.of_nat i < 24)) as [Hi|Hi].
  - assert (forall b : list byte, sub 16 8 b !! (i - 16)%nat = b !! i) as HS.
    { intros b. unfold sub. rewrite lookup_take by lia. rewrite lookup_drop. f_equal. lia. }
    rewrite <- !HS. by rewrite E2.
  - assert (forall l b, Forall (fun s : bstore => 16 <= s.1 < 24) l -> do_stores b l !! i = b !! i) as HO.
    { clear -Hi. induction l as [|s l IH]; intros b HF; [reflexivity|]. inversion HF; subst. rewrite do_stores_cons, IH by assumption.
      apply do_store_other. lia. }
    assert (Forall (fun s : bstore => 16 <= s.1 < 24) (stores_of 16 g)) as HF. { eapply Forall_impl; [apply stores_of_range|]. cbn. lia. }
    rewrite !HO; [reflexivity|exact HF|eapply prefix_Forall; eauto].
Qed.

(** ** Start *)
Lemma sumok_regions L tr E : sumok L tr E -> Forall (job_in L) (jobs E) -> Forall job_fits (jobs E) ->
  Forall (fun s => exists j, j ∈ jobs E /\ (job_reg j).1 <= s.1 < (job_reg j).1 + (job_reg j).2) (omap l_byte tr).
Proof.
  intros (_ & _ & _ & _ & _ & H) Hin Hf. destruct (H Hin) as [_ Hi]. apply ileave_perm_concat in Hi. rewrite Hi. apply Forall_forall. intros s Hs.
  apply elem_of_list_In, in_concat in Hs as (l & Hl & Hs). apply in_map_iff in Hl as (j & <- & Hj). apply elem_of_list_In in Hj, Hs.
  exists j. split; [exact Hj|]. rewrite Forall_forall in Hf. destruct (Hf _ Hj) as [_ Hw]. unfold job_stores in Hs.
  apply elem_of_list_In, in_concat in Hs as (l & Hl & Hs). apply in_map_iff in Hl as (d & <- & Hd). apply elem_of_list_In in Hd, Hs.
  rewrite Forall_forall in Hw. specialize (Hw _ Hd). pose proof (stores_of_range j.1.1.2 d) as HR. rewrite Forall_forall in HR. specialize (HR _ Hs).
  cbn in *. unfold job_reg. cbn. lia.
Qed.

Section crash.
  Context (hp : heap) (k : cfg) (pl : plan) (offs : gmap okey Z).
  Context (Hh : heap_ok hp) (Hr : reg_ok hp (k_reg k)) (Hp : plan_ok hp (k_reg k) pl) (Hs : startable hp (k_reg k)).
  Let L := Length (k_reg k).
  Let st0 := (start_state (k_reg k) offs ∅, start_prog k pl).
  Let g := le_enc 8 (k_gen k).

  Lemma crash_bytes x : rtc (rstep L) st0 x -> let b := g_buf x.1 in
    sub 24 4 b = zeros 4 \/ (sub 8 8 b = g /\ sub 16 8 b = zeros 8) \/ sub 8 8 b <> sub 16 8 b \/
    exists s, rtc (rstep L) x (s, PRet) /\ g_buf s = b.
  Proof using Hh Hr Hp Hs.
    intros R b. destruct (start_can_finish hp k pl offs Hh Hr Hp Hs x R) as [s R']. fold L in R'.
    pose proof (plan_wf_ok _ _ _ Hh Hr Hp Hs) as Hwf. pose proof (pw_fit _ _ Hwf) as Hf.
    assert (rtc (rstep L) st0 (s, PRet)) as RR by (etransitivity; eauto).
    pose proof (good_steps _ _ _ _ RR (good_start k pl offs ∅ Hf)) as (_ & _ & Hinv). cbn [fst snd] in Hinv.
    pose proof R as R0. pose proof R' as R1. apply rsteps_psteps in R0 as (t1 & Hps1 & Hac1). apply rsteps_psteps in R1 as (t2 & Hps2 & Hac2).
    unfold st0 in Hps1, Hac1. cbn [fst snd] in Hps1, Hac1, Hps2, Hac2.
    assert (acts (start_state (k_reg k) offs ∅) (t1 ++ t2) = Some s) as Hac by (rewrite acts_app, Hac1; exact Hac2).
    pose proof (psteps_trans _ _ _ _ _ _ Hps1 Hps2) as Hps. apply psteps_complete in Hps; [|by apply spn_start].
    apply sum_start in Hps as (_ & ad & am & trh & trt & trd & trm & tr1 & Had & Ham & Sh & St & Sd & Sm & Hil & Et & Hh0 & Hsum).
    pose proof (Forall2_length _ _ _ Had) as Hld. pose proof (Forall2_length _ _ _ Ham) as Hlm.
    destruct (start_tiles k pl ad am _ s Hf Hld Hlm Hsum) as (_ & _ & Htile).
    { right. exists offs, ∅. exact Hac. }
    { intros c Hc. specialize (Hinv c Hc). cbn [holds] in Hinv. destruct (g_ch s c); try done. eauto. }
    pose proof (fits_start k pl ad am Hwf) as Hfit.
    destruct (chained_in_bounds _ _ Hfit Htile) as (Hin & Hin' & Hdis).
    assert (40 <= L) as HL.
    { unfold jobs, ev_start, ev_header in Hin'. cbn [omap list_omap e_job app] in Hin'. rewrite Forall_forall in Hin'.
      specialize (Hin' (None, 36, 4, [le_enc 4 (k_cluster k)])). cbn in Hin'. apply Hin'. do 7 right. left. }
    (* the other goroutines stay out of the header *)
    set (E1 := ev_tocs HeaderLength (toc_entries (k_reg k))). set (E2 := concat (zip_with (ev_dom (k_reg k)) (pl_doms pl) ad)).
    set (E3 := concat (zip_with (ev_met (r_version2 (k_reg k))) (pl_mets pl) am)).
    fold E1 in St. fold E2 in Sd. fold E3 in Sm.
    assert (ev_start k pl ad am = (EJob None 16 8 [le_enc 8 0; g] :: ev_header k) ++ E1 ++ E2 ++ E3) as Es by reflexivity.
    set (E4 := E1 ++ E2 ++ E3) in *.
    assert (Forall (fun j => j.1.2 <= 0 \/ j.1.1.2 + j.1.2 <= 8 \/ 28 <= j.1.1.2) (jobs E4)) as Hout.
    { rewrite Es, jobs_app, map_app in Hdis. apply pairwise_app in Hdis as (_ & _ & HD). unfold ev_header in HD. cbn in HD.
      repeat (apply Forall_cons_1 in HD as [? HD]). rewrite Es, jobs_app in Hin'. apply Forall_app in Hin' as [_ Hin'].
      rewrite Forall_forall in Hin'. apply Forall_forall. intros j Hj. specialize (Hin' _ Hj).
      assert (job_reg j ∈ map job_reg (jobs E4)) as Hj' by (apply elem_of_list_fmap; eauto).
      repeat match goal with H : Forall _ (map job_reg (jobs E4)) |- _ => rewrite Forall_forall in H; specialize (H _ Hj') end.
      unfold disj, job_reg in *. cbn in *. lia. }
    assert (forall E tr, (forall j, j ∈ jobs E -> j ∈ jobs E4) -> sumok L tr E -> Forall (fun s => ~ inreg 8 20 s) (omap l_byte tr)) as Hnot.
    { intros E tr Hsub HS. rewrite Es, jobs_app in Hin. apply Forall_app in Hin as [_ Hin]. unfold fits in Hfit. rewrite Es, jobs_app in Hfit. apply Forall_app in Hfit as [_ Hfit].
      rewrite Forall_forall in Hin, Hfit, Hout.
      assert (Forall (job_in L) (jobs E)) as A1 by (apply Forall_forall; auto). assert (Forall job_fits (jobs E)) as A2 by (apply Forall_forall; auto).
      eapply Forall_impl; [apply (sumok_regions _ _ _ HS A1 A2)|]. cbn. intros s0 (j & Hj & Hs0). specialize (Hout _ (Hsub _ Hj)). unfold inreg, job_reg in *. cbn in *. lia. }
    assert (filter (inreg 8 20) (omap l_byte tr1) = hstores g (le_enc 4 (to_signed 32 (tocCount (k_reg k))))) as Hfil.
    { apply (ileave_omap l_byte) in Hil. cbn [map] in Hil. rewrite omap_app in Hil.
      rewrite (ileave_filter_one (inreg 8 20) [] _ _ _ Hil).
      - unfold writeHeaderBlock, w_str, w_i32, w_i64 in Hh0. cbn [ctr] in Hh0.
        destruct Hh0 as (q1 & -> & q2 & -> & q3 & -> & q4 & -> & q5 & -> & q6 & -> & q7 & -> & q8 & -> & -> & _).
        assert (forall off d, 0 <= off -> off + zlen d <= L -> omap l_byte (wlab L true off d) = stores_of off d) as HW.
        { intros. rewrite wlab_in by assumption. apply omap_lbyte_stores. }
        rewrite !omap_app, !filter_app.
        rewrite !HW; rewrite ?zlen_le_enc; try lia; [|change (zlen (str "MMV")) with 3; lia].
        rewrite (filter_outside 8 20 (stores_of 0 _)), (filter_outside 8 20 (stores_of 4 _)), (filter_outside 8 20 (stores_of 28 _)),
          (filter_outside 8 20 (stores_of 32 _)), (filter_outside 8 20 (stores_of 36 _));
          try (apply stores_outside; rewrite ?zlen_le_enc; first [change (zlen (str "MMV")) with 3|idtac]; lia).
        rewrite !stores_inside by (rewrite ?zlen_le_enc; lia). cbn [app omap list_omap filter list_filter]. rewrite ?app_nil_r. reflexivity.
      - constructor.
      - constructor; [|constructor; [|constructor]].
        + eapply Hnot; [|exact St]. intros j Hj. unfold E4. rewrite jobs_app. apply elem_of_app. left. exact Hj.
        + apply Forall_app. split; (eapply Hnot; [|eassumption]); intros j Hj; unfold E4; rewrite !jobs_app, !elem_of_app; tauto. }
    assert (forall t st, acts (start_state (k_reg k) offs ∅) t = Some st -> g_buf st = do_stores (zeros L) (omap l_byte t)) as Hbuf.
    { intros t st Ha. apply acts_buf in Ha. exact Ha. }
    assert (forall lo w P, 8 <= lo -> lo + w <= 28 -> sub lo w (do_stores (zeros L) P) = sub lo w (do_stores (zeros L) (filter (inreg 8 20) P))) as Hreg.
    { intros lo w P H1 H2. apply do_stores_region; [lia|]. rewrite list_filter_filter. apply list_filter_iff. intros s0. unfold inreg. lia. }
    set (cnt := le_enc 4 (to_signed 32 (tocCount (k_reg k)))) in *.
    assert (zlen g = 8) as Hg8 by apply zlen_le_enc. assert (zlen cnt = 4) as Hc4 by apply zlen_le_enc.
    apply app_eq_inv in Et as [(q & E & E')|(q & E & E')].
    - (* everything but the last write done *)
      assert (wlab L true 16 (le_enc 8 (k_gen k)) = (fun s => LByte s.1 s.2) <$> stores_of 16 g) as Hw.
      { apply wlab_in; [lia|]. fold g. lia. }
      rewrite Hw in E'. apply fmap_app_inv in E' as (P & Q & EP & EQ & EPQ).
      assert (g_buf x.1 = do_stores (do_stores (zeros L) (omap l_byte tr1)) P) as HB.
      { rewrite (Hbuf _ _ Hac1), E, omap_app, EP, omap_lbyte_stores. apply do_stores_app. }
      assert (g_buf s = do_stores (do_stores (zeros L) (omap l_byte tr1)) (stores_of 16 g)) as HB'.
      { rewrite (Hbuf _ _ Hac), omap_app, E, omap_app, EP, EQ, !omap_lbyte_stores, <- !app_assoc, EPQ. apply do_stores_app. }
      destruct (decide (sub 8 8 b = sub 16 8 b)) as [Eb|Nb]; [|tauto]. do 3 right. exists s. split; [exact R'|].
      unfold b. rewrite HB, HB'. symmetry. apply last_prefix; auto.
      + rewrite do_stores_length. rewrite zlen_zeros by lia. lia.
      + rewrite Hreg by lia. rewrite Hfil. unfold hstores. rewrite do_stores_app, do_stores_outside; [|lia|].
        * rewrite sub_write; [|lia|lia|rewrite zlen_zeros; lia]. rewrite drop_ge; [apply app_nil_r|].
          pose proof (sub_length 8 8 (zeros L)) as HS. rewrite zlen_zeros in HS by lia. unfold zlen in *. lia.
        * apply Forall_app. split; apply stores_outside; [change (zlen (zeros 8)) with 8|]; lia.
      + exists Q. exact EPQ.
      + unfold b in Eb. rewrite HB in Eb. exact Eb.
    - (* somewhere before *)
      assert (filter (inreg 8 20) (omap l_byte t1) `prefix_of` hstores g cnt) as HP.
      { rewrite <- Hfil, E, omap_app. apply prefix_filter. by exists (omap l_byte q). }
      pose proof (header_prefix L g cnt _ ltac:(lia) Hg8 Hc4 HP) as H. cbn zeta in H.
      rewrite <- !Hreg in H by lia. rewrite <- (Hbuf _ _ Hac1) in H. fold b in H. tauto.
  Qed.
End crash.

(** ** Reading *)
Lemma sub_neq_gen b : 24 <= zlen b -> sub 8 8 b <> sub 16 8 b -> u64 8 b <> u64 16 b.
Proof.
  intros HL HN E. apply HN. unfold u64 in E. apply le_dec_inj in E; [exact E|].
  pose proof (sub_length 8 8 b) as H1. pose proof (sub_length 16 8 b) as H2. unfold zlen in *. lia.
Qed.
Lemma dump_gen_neq b : u64 8 b <> u64 16 b -> Dump b = DErr.
Proof.
  intros HN. unfold Dump, readHeader. cbn [dec_header hd_g1 hd_g2]. apply Z.eqb_neq in HN. rewrite HN.
  destruct (_ <? _); [reflexivity|]. destruct (bool_decide _); reflexivity.
Qed.
Lemma dump_no_toc b : i32 24 b = 0 -> Dump b = DErr \/ exists d, Dump b = DOk d /\ empty_dump d.
Proof.
  intros HZ. unfold Dump. destruct (readHeader b) as [h|] eqn:E; [|auto]. right.
  assert (hd_toc h = 0) as Eh.
  { unfold readHeader in E. destruct (_ <? _); [discriminate|]. destruct (bool_decide _); [|discriminate]. destruct (_ =? _); [|discriminate].
    injection E as <-. exact HZ. }
  rewrite Eh. cbn. eexists. split; [reflexivity|]. split_and!; reflexivity.
Qed.

Lemma start_complete hp c r gen pid pl offs s : heap_ok hp -> reg_ok hp r -> plan_ok hp r pl -> startable hp r ->
  rtc (rstep (Length r)) (start_state r offs ∅, start_prog (start_cfg c r gen pid) pl) (s, PRet) ->
  zlen (g_buf s) = Length r /\ complete_file hp c r gen pid (g_buf s).
Proof.
  intros Hh Hr Hp Hs Hrun. pose proof (plan_wf_ok _ _ _ Hh Hr Hp Hs) as W. pose proof (plan_ranges_ok _ _ _ Hh Hr Hp Hs) as R.
  destruct (start_done (start_cfg c r gen pid) pl offs ∅ s W Hrun) as (ad & am & HR). split; [apply (sr_len _ _ _ _ _ _ HR)|].
  eexists. split; [eapply (dump_ok (start_cfg c r gen pid)); eauto using start_image|]. split; [unfold want_hdr; rewrite <- (sections_count _ _ Hr); reflexivity|].
  eapply shows_veq; [eapply (plan_view_want hp r pl Hr Hp Hs (start_cfg c r gen pid)); reflexivity|]. eapply view_ok; eauto using start_image.
Qed.

Lemma crash_dump w cid c r gen pid s : w_ok w -> w_clients w !! cid = Some c -> w_regs w !! cl_reg c = Some r -> startable (w_heap w) r ->
  gen mod 2 ^ 64 <> 0 -> start_partial (w_heap w) (w_offs w) (start_cfg c r gen pid) s ->
  Dump (g_buf s) = DErr \/ (exists d, Dump (g_buf s) = DOk d /\ empty_dump d) \/ complete_file (w_heap w) c r gen pid (g_buf s).
Proof.
  intros W Hc Hr Hst Hg (pl & p & Hp & R). set (k := start_cfg c r gen pid) in *. pose proof (wo_heap _ W) as Hh. pose proof (wo_regs _ W _ _ Hr) as Hro.
  apply gsteps_rsteps in R.
  assert (zlen (g_buf s) = Length r) as HL.
  { pose proof R as R0. apply rsteps_psteps in R0 as (t & _ & Ha). apply acts_buf in Ha. cbn [fst snd] in Ha. rewrite Ha, do_stores_length. cbn [start_state g_buf].
    destruct (start_can_finish (w_heap w) k pl (w_offs w) Hh Hro Hp Hst _ R) as [s' R'].
    destruct (start_complete (w_heap w) c r gen pid pl (w_offs w) s' Hh Hro Hp Hst) as [E _]; [etransitivity; eauto|].
    apply zlen_zeros. change (k_reg k) with r. rewrite <- E. apply zlen_nonneg. }
  assert (24 <= Length r) as HL24.
  { destruct (start_can_finish (w_heap w) k pl (w_offs w) Hh Hro Hp Hst _ R) as [s' R'].
    destruct (start_complete (w_heap w) c r gen pid pl (w_offs w) s' Hh Hro Hp Hst) as [E (d & Hd & _)]; [etransitivity; eauto|].
    unfold Dump, readHeader in Hd. destruct (zlen (g_buf s') <? DHeaderLength) eqn:El; [discriminate|]. unfold DHeaderLength in El. lia. }
  destruct (crash_bytes (w_heap w) k pl (w_offs w) Hh Hro Hp Hst (s, p) R) as [H|[[H1 H2]|[H|(s' & R' & E)]]]; cbn [fst] in *.
  - assert (i32 24 (g_buf s) = 0) as HZ. { unfold i32, u32. rewrite H. reflexivity. }
    destruct (dump_no_toc _ HZ) as [E|E]; auto.
  - left. apply dump_gen_neq. unfold u64. rewrite H1, H2. rewrite le_dec_enc. change (le_dec (zeros 8)) with 0. exact Hg.
  - left. apply dump_gen_neq. apply sub_neq_gen; [lia|exact H].
  - do 2 right. rewrite <- E. apply (start_complete (w_heap w) c r gen pid pl (w_offs w) s' Hh Hro Hp Hst). etransitivity; eauto.
Qed.

(** Before start() runs NewMemoryMappedWriter fills the file with zeros: no prefix of that is accepted. *)
Lemma dump_zeros n : Dump (zeros n) = DErr.
Proof.
  unfold Dump, readHeader. destruct (zlen (zeros n) <? DHeaderLength) eqn:E; [reflexivity|]. cbn [dec_header hd_magic].
  assert (40 <= n) as Hn. { unfold DHeaderLength in E. unfold zlen, zeros in E. rewrite replicate_length in E. lia. }
  rewrite sub_zeros by lia. reflexivity.
Qed.
