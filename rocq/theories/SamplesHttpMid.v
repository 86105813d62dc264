(** The example program of /repo/examples/http_counter: the file at any moment. *)
From Verif Require Import Base BaseFacts Floats GoVal MetricType ByteWriter Hash Units Indom Metrics Registry Prog
  Client Mmvdump View RegInv World OpRuns RegFacts WorldInv Sync SyncView ValueFacts MetricFacts SyncLive OpFacts Life
  Samples SamplesFacts SamplesRun SamplesView Locks LocksCut Conc ConcRuns ConcFacts ConcLive MidUpdate MidStep MidRun MidView MidPiece SamplesHttp.
From stdpp Require Import relations.
Local Open Scope Z_scope.

Definition next_count (A : Z) : Z := to_signed 64 (A + 1).
(** Where Up is, and what the counter is in memory; it was [A] when Up began. *)
Definition up_set (A : Z) : mprog := QSetVal None (VInt64 (next_count A)) q_ok.
Definition stage (A : Z) (p : mprog) (s : mem) : Prop := exists mm V, q_metrics s !! 1%nat = Some mm /\ val_at mm None = Some (VInt64 V) /\
  (V = A /\ (p = q_counter_inc Int64Type 1 \/ p = q_store None (VInt64 (next_count A)) q_ok \/
             p = QUpd None (fun u => match u with None => up_set A | Some cl => q_update cl (VInt64 (next_count A)) (up_set A) end) \/
             (exists wr off data, p = QWrite wr off data (up_set A) (QRet RErr None)) \/ p = up_set A)
   \/ (V = A \/ V = next_count A) /\ exists o, p = QRet o None).
Lemma stage_step A p s p' s' : stage A p s -> qnext 1 p s = Some (p', s') -> stage A p' s'.
Proof.
  intros (mm & V & Hm & Hv & [[-> [->|[->|[->|[(wr & off & data & ->)| ->]]]]]|[_ [o ->]]]) H.
  - change (q_counter_inc Int64Type 1) with (QVal None (fun x => q_int x (fun v => q_set Int64Type (VInt64 (to_signed 64 (v + 1))) q_ok))) in H. cbn [qnext] in H. rewrite Hm in H. cbn [mbind option_bind] in H.
    change (c_val <$> cell_at mm None) with (val_at mm None) in H. rewrite Hv in H. injection H as <- <-. exists mm, A. split; [exact Hm|]. split; [exact Hv|]. left. split; [done|]. right; left. reflexivity.
  - unfold q_store in H. cbn [qnext] in H. rewrite Hm in H. cbn [mbind option_bind] in H. change (c_val <$> cell_at mm None) with (val_at mm None) in H. rewrite Hv in H.
    assert (s' = s /\ (p' = q_ok \/ p' = QUpd None (fun u => match u with None => up_set A | Some cl => q_update cl (VInt64 (next_count A)) (up_set A) end))) as [-> E].
    { cbv beta in H. destruct (go_eqb (VInt64 (next_count A)) (VInt64 A)) in H; injection H as <- <-; auto. } clear H.
    exists mm, A. split; [exact Hm|]. split; [exact Hv|]. destruct E as [->| ->]; [right; split; [by left|by exists ROk]|]. left. split; [done|]. right; right; left. reflexivity.
  - cbn [qnext] in H. rewrite Hm in H. cbn [mbind option_bind] in H. injection H as <- <-. exists mm, A. split; [exact Hm|]. split; [exact Hv|]. left. split; [done|]. destruct (cell_at mm None ≫= c_upd) as [cl|]; [|auto].
    right; right; right; left. exists (cl_writer cl), (cl_off cl), (le_enc 8 (next_count A)). reflexivity.
  - cbn [qnext] in H. destruct (f_writers (q_files s) !! wr) as [x|]; [|discriminate]. cbn [mbind option_bind] in H. destruct (wr_live x); [|discriminate].
    destruct (f_inodes (q_files s) !! wr_inode x) as [buf|]; [|discriminate]. cbn [mbind option_bind] in H. destruct (zlen buf <? off + zlen data).
    { injection H as <- <-. exists mm, A. split; [exact Hm|]. split; [exact Hv|]. right. split; [by left|]. by eexists. }
    destruct data as [|b data]; [injection H as <- <-; exists mm, A; split; [exact Hm|]; split; [exact Hv|]; left; split; [done|]; auto|].
    destruct (off <? 0); injection H as <- <-; exists mm, A; (split; [exact Hm|]; split; [exact Hv|]); [right; split; [by left|]; by eexists|].
    left. split; [done|]. right; right; right; left. eauto.
  - unfold up_set in H. cbn [qnext] in H. rewrite Hm in H. cbn [mbind option_bind] in H. destruct (cell_at mm None) as [c|] eqn:Ec; [|discriminate]. injection H as <- <-.
    eexists _, (next_count A). cbn [upd_metric q_metrics]. rewrite lookup_insert. split; [reflexivity|]. split; [|right; split; [by right|by exists ROk]].
    unfold val_at, cell_at, put_cell in *. destruct (m_body mm) as [cc|]; [|discriminate]. reflexivity.
  - discriminate.
Qed.
Lemma stage_steps A x y : qsteps 1 x y -> stage A x.1 x.2 -> stage A y.1 y.2.
Proof. induction 1 as [x|x y z H _ IH]; intros S0; [done|]. apply IH. eapply stage_step; eauto. Qed.

Lemma answered_insert s f ts i t t' : ts !! i = Some t -> t_done t' = t_done t -> answered (mkMach s f (<[i := t']> ts)) = answered (mkMach s f ts).
Proof.
  intros Hi E. unfold answered. cbn [mc_thr]. rewrite list_fmap_insert, E. rewrite list_insert_id; [done|]. by rewrite list_lookup_fmap, Hi.
Qed.

Section mid.
  Context (loc : gostring) (gen pid n : Z) (w : world) (SV : serving loc gen pid n w) (css : list (list mcall)) (RQ : requests css).
  Definition count (m : machine) : Z := to_signed 64 (n + answered m).

  Lemma quiet_served m : rtc (cstep (w_heap w)) (m_start (world_mem w) css) m -> (forall i t, mc_thr m !! i = Some t -> t_cur t = None) ->
    serving loc gen pid (count m) (mem_world w (mc_mem m)) /\ forall i th c r, mc_thr m !! i = Some th -> (c, r) ∈ t_done th -> c = request /\ r.1 = ROk.
  Proof using SV RQ.
    intros H Q. destruct (quiet_done _ _ _ _ _ _ _ _ H Q) as (css' & m' & H' & D' & E1 & E2 & Sub).
    assert (requests css') as RQ'. { intros l c Hl Hc. destruct (Sub l c Hl Hc) as (l0 & H1 & H2). eapply RQ; eauto. }
    destruct (all_served _ _ _ _ _ SV css' m' RQ' H' D') as (S1 & _ & _ & S2). rewrite E1 in S1. unfold count. assert (answered m' = answered m) as <- by (unfold answered; by rewrite E2). split; [exact S1|].
    intros i th c r Hi Hc. assert ((t_done <$> mc_thr m') !! i = Some (t_done th)) as E by (rewrite E2, list_lookup_fmap, Hi; done). rewrite list_lookup_fmap in E.
    destruct (mc_thr m' !! i) as [t'|] eqn:E'; [|discriminate]. injection E as E. eapply S2; [exact E'|]. by rewrite E.
  Qed.

  Definition inv (m : machine) : Prop := (forall i t c, mc_thr m !! i = Some t -> c ∈ t_todo t -> c = request) /\
    ((forall i t, mc_thr m !! i = Some t -> t_cur t = None) \/
     exists i d p l, mc_thr m !! i = Some (mkThr d (Some (request, p)) l) /\ (forall j t, j <> i -> mc_thr m !! j = Some t -> t_cur t = None) /\
       mc_locks m (Some 1%nat) = LkW i /\ stage (count m) p (mc_mem m)).
  Lemma inv_step m m' : rtc (cstep (w_heap w)) (m_start (world_mem w) css) m -> inv m -> cstep (w_heap w) m m' -> inv m'.
  Proof using SV RQ.
    intros HR [IT IC] H. destruct (sv_metric _ _ _ _ _ SV) as (m0 & Hm & Hk & _ & _).
    assert (mc_enter (w_heap w) request = q_counter_inc Int64Type 1) as Ee.
    { cbn [mc_enter request]. rewrite Hm. cbn [mbind option_bind]. unfold prog_of. rewrite Hk. destruct SV as [_ (m1 & Hm1 & Ed & _)]. assert (m1 = m0) as -> by congruence. by rewrite Ed. }
    assert (forall i t, mc_thr m !! i = Some t -> t_cur t <> None -> exists d p l, t = mkThr d (Some (request, p)) l /\ (forall j t, j <> i -> mc_thr m !! j = Some t -> t_cur t = None) /\
       mc_locks m (Some 1%nat) = LkW i /\ stage (count m) p (mc_mem m)) as B.
    { intros i t Hi Hc. destruct IC as [Q|(i' & d & p & l & H1 & H2 & H3 & H4)]; [by rewrite (Q i t Hi) in Hc|]. destruct (decide (i = i')) as [->|N]; [|by rewrite (H2 i t N Hi) in Hc].
      rewrite H1 in Hi. injection Hi as <-. eauto 10. }
    unfold cstep in H. revert HR IT IC B. destruct H as [s f ts i d c l X1 X2 X3|s f ts i d c l X X1 X2 X3|s f ts i d c p l p' s' X1 X2|s f ts i d c p l r X1 X2 X3|s f ts i d c p l r X X1 X2 X3 X4]; unfold inv; cbn [mc_thr mc_mem mc_locks]; intros HR IT IC B;
      pose proof (lookup_lt_Some _ _ _ X1) as Lt.
    - assert (c = request) as -> by (eapply (IT i); [exact X1|left]). split.
      { intros j t c' Hj Hc. destruct (decide (j = i)) as [->|N]; [|rewrite list_lookup_insert_ne in Hj by done; eauto]. rewrite list_lookup_insert in Hj by done. injection Hj as <-. eapply (IT i); [exact X1|by right]. }
      destruct IC as [Q|(i' & d' & p' & l' & H1 & H2 & H3 & H4)]; [|change (mc_obj request) with (Some 1%nat) in X3; rewrite H3 in X3; discriminate].
      right. exists i, d, (q_counter_inc Int64Type 1), l. split; [rewrite list_lookup_insert by done; by rewrite Ee|]. split; [|split].
      + intros j t N Hj. rewrite list_lookup_insert_ne in Hj by done. eauto.
      + reflexivity.
      + unfold count. erewrite (answered_insert _ _ _ _ _ _ X1) by reflexivity. destruct (quiet_served _ HR Q) as [[_ (mm & Hmm & _ & _ & _ & Hv)] _]. cbn [mem_world w_heap h_metrics mc_mem] in Hmm.
        exists mm, (count (mkMach s f ts)). split_and!; [exact Hmm|by rewrite Hv|left; split; [reflexivity|by left]].
    - assert (c = request) as -> by (eapply (IT i); [exact X1|left]). discriminate.
    - destruct (B i _ X1) as (d' & p0 & l' & E & H2 & H3 & H4); [done|]. injection E as <- -> <- <-. split.
      { intros j t c' Hj Hc. destruct (decide (j = i)) as [->|N]; [|rewrite list_lookup_insert_ne in Hj by done; eauto]. rewrite list_lookup_insert in Hj by done. injection Hj as <-. eapply (IT i); [exact X1|done]. }
      right. exists i, d, p', l. split; [by rewrite list_lookup_insert|]. split; [|split].
      + intros j t N Hj. rewrite list_lookup_insert_ne in Hj by done. eauto.
      + exact H3.
      + unfold count. erewrite (answered_insert _ _ _ _ _ _ X1) by reflexivity. exact (stage_step _ _ _ _ _ H4 X2).
    - destruct (B i _ X1) as (d' & p0 & l' & E & H2 & H3 & H4); [done|]. injection E as <- -> <- <-. split.
      { intros j t c' Hj Hc. destruct (decide (j = i)) as [->|N]; [|rewrite list_lookup_insert_ne in Hj by done; eauto]. rewrite list_lookup_insert in Hj by done. injection Hj as <-. eapply (IT i); [exact X1|done]. }
      left. intros j t Hj. destruct (decide (j = i)) as [->|N]; [|rewrite list_lookup_insert_ne in Hj by done; eauto]. rewrite list_lookup_insert in Hj by done. by injection Hj as <-.
    - destruct (B i _ X1) as (d' & p0 & l' & E & H2 & H3 & H4); [done|]. injection E as <- -> <- <-. discriminate.
  Qed.
  Lemma inv_all m : rtc (cstep (w_heap w)) (m_start (world_mem w) css) m -> inv m.
  Proof using SV RQ.
    assert (forall a b, rtc (cstep (w_heap w)) a b -> rtc (cstep (w_heap w)) (m_start (world_mem w) css) a -> inv a -> inv b) as K.
    { induction 1 as [a|a b c Hs _ IH]; intros Ha I; [done|]. apply IH; [by eapply rtc_r|by eapply inv_step]. }
    intros H. apply (K _ _ H); [apply rtc_refl|]. split.
    - intros i t c Hi Hc. cbn in Hi. rewrite list_lookup_fmap in Hi. destruct (css !! i) as [l|] eqn:E; [|discriminate]. injection Hi as <-. cbn in Hc. eapply RQ; [by eapply elem_of_list_lookup_2|exact Hc].
    - left. intros i t Hi. cbn in Hi. rewrite list_lookup_fmap in Hi. destruct (css !! i) as [l|] eqn:E; [|discriminate]. by injection Hi as <-.
  Qed.

  Lemma half_same a u : half_written (VInt64 a) (VInt64 a) (VInt64 u) -> in_signed 64 a -> in_signed 64 u -> u = a.
  Proof using.
    intros H Ha Hu. inversion H as [j d d0 old new u' N1 N2 N3 B0 B1 HL B2| | |]; subst; [|done]. rewrite B0 in B1. apply (inj Some) in B1 as <-. rewrite take_drop, <- B0 in B2. change (Some (le_enc 8 u) = Some (le_enc 8 a)) in B2. apply (inj Some) in B2.
    apply (f_equal Base.le_dec) in B2. rewrite !le_dec_enc in B2. unfold in_signed in *. change (64 - 1) with 63 in *. change (256 ^ Z.of_nat 8) with (2 ^ 64) in B2.
    assert (2 ^ 64 = 2 * 2 ^ 63) as E by reflexivity. revert E B2 Ha Hu. generalize (2 ^ 63) as M. generalize (2 ^ 64) as M2. intros M2 M -> B2 Ha Hu.
    pose proof (Z.div_mod u (2 * M) ltac:(lia)). pose proof (Z.div_mod a (2 * M) ltac:(lia)). assert (u / (2 * M) = a / (2 * M)) by nia. nia.
  Qed.

  (** What the file shows at any moment. *)
  Lemma mid_shows m : rtc (cstep (w_heap w)) (m_start (world_mem w) css) m -> exists u,
    file_shows (mem_world w (mc_mem m)) loc (str "example") 1 (tocCount hc_r) gen pid (mkView [] [] [want_metric false (m_desc hc_m) None] [mkVV (want_metric false (m_desc hc_m) None) None (VInt64 u)]) /\
    half_written (VInt64 (count m)) (VInt64 (next_count (count m))) (VInt64 u) /\ in_signed 64 u.
  Proof using SV RQ.
    intros H. destruct (inv_all m H) as [_ IC]. pose proof SV as [[[R Dd] Sy [wr Hcl] Hr] (m0 & Hm0 & Ed & Hk & Hi & _)].
    assert (forall mp m1, mp ∈ [1%nat] -> h_metrics (w_heap w) !! mp = Some m1 -> registered (set_mapped hc_r true) mp \/ no_closures m1) as Hreg. { intros mp m1 Hin _. left. apply elem_of_list_singleton in Hin as ->. exact hc_registered. }
    destruct (mid_file w 0 gen pid _ _ [1%nat] css m (reachable_ok _ R) Sy Hcl Hr Hreg (reqs_ok _ _ _ _ _ SV css RQ) H) as (buf & G & Hf & _ & CF & SH).
    pose proof (g_stat _ _ (fr_good _ _ _ _ (frame_steps w [1%nat] (apart_one _ _ _) css (reqs_ok _ _ _ _ _ SV css RQ) m H)) 1%nat) as GS. rewrite Hm0 in GS. specialize (SH 1%nat).
    destruct (q_metrics (mc_mem m) !! 1%nat) as [mm|] eqn:Em; [|done]. destruct (G !! 1%nat) as [g|] eqn:Eg; [|done]. destruct GS as (G1 & G2 & G3 & _). rewrite Hk in G3.
    pose proof (to_signed_range 64 (n + answered m) ltac:(lia)) as RA. fold (count m) in RA. pose proof (to_signed_range 64 (count m + 1) ltac:(lia)) as RB. fold (next_count (count m)) in RB.
    assert (half_written (VInt64 (count m)) (VInt64 (next_count (count m))) (VInt64 (count m))) as HW0. { eapply (hw_num 0); try (intros []); reflexivity. }
    assert (exists u, val_at g None = Some (VInt64 u) /\ m_desc g = m_desc mm /\ m_kind g = m_kind mm /\ m_indom g = m_indom mm /\
      half_written (VInt64 (count m)) (VInt64 (next_count (count m))) (VInt64 u) /\ in_signed 64 u) as (u & Hu & D1 & D2 & D3 & HW & RU).
    { assert (forall V, V = count m \/ V = next_count (count m) -> half_written (VInt64 (count m)) (VInt64 (next_count (count m))) (VInt64 V) /\ in_signed 64 V) as VV.
      { intros V [->| ->]; [done|]. split; [apply hw_done|done]. }
      destruct SH as [->|(i & p & nn & c & new & u & (d & op & mst & l & U) & Hc & WS & HW & VT & ->)].
      - destruct IC as [Q|(i & d & p & l & H1 & H2 & H3 & (mm' & V & E1 & E2 & E3))].
        + destruct (quiet_served m H Q) as [[_ (mm' & Hmm & _ & _ & _ & Hv)] _]. cbn in Hmm. assert (mm' = mm) as -> by congruence. exists (count m). rewrite Hv. auto 10.
        + assert (mm' = mm) as -> by congruence. exists V. destruct (VV V) as [HW RU]; [destruct E3 as [[-> _]|[E3 _]]; auto|]. auto 10.
      - destruct IC as [Q|(i' & d' & p' & l' & H1 & H2 & H3 & ST)]; [by specialize (Q _ _ U)|]. destruct (decide (i = i')) as [->|N]; [|by specialize (H2 _ _ N U)].
        rewrite H1 in U. injection U as _ _ _ -> _. rewrite Hi in G2. unfold m_indom in G2. destruct (m_body mm) as [cc|] eqn:Eb; [|done].
        assert (nn = None /\ c = cc) as [-> ->]. { unfold cell_at in Hc. rewrite Eb in Hc. destruct nn; [done|]. by injection Hc as ->. }
        rewrite G1, Ed in VT. change (md_type (m_desc hc_m)) with Int64Type in VT. assert (exists z, u = VInt64 z /\ in_signed 64 z) as (z & -> & Rz).
        { destruct u; try contradiction; try discriminate VT; destruct VT as [Et Rz]; try discriminate Et. eauto. }
        assert (val_at mm None = Some (c_val cc)) as Hcv by (unfold val_at; rewrite Hc; done).
        exists z. unfold put_cell, val_at, cell_at, m_indom. rewrite Eb. cbn. split_and!; auto.
        destruct WS as (p2 & s2 & m2 & W1 & W2 & W3). pose proof (stage_steps _ _ _ W1 ST) as (m2' & V2 & F1 & F2 & F3). cbn [fst snd] in *. assert (m2' = m2) as -> by congruence. assert (new = VInt64 V2) as -> by congruence.
        destruct ST as (mm' & V & E1 & E2 & E3). assert (mm' = mm) as -> by congruence. assert (c_val cc = VInt64 V) as Ev by congruence. rewrite Ev in HW.
        assert (V2 = count m \/ V2 = next_count (count m)) as Y by (destruct F3 as [[-> _]|[F3 _]]; auto).
        destruct E3 as [[-> _]|[Y2 [o ->]]].
        + destruct Y as [->| ->]; [|done]. by rewrite (half_same _ _ HW RA Rz).
        + apply ret_steps in W1. injection W1 as _ E. subst s2. assert (V2 = V) as -> by congruence. destruct (VV V Y2) as [Q1 Q2]. by rewrite (half_same _ _ HW Q2 Rz). }
    exists u. split; [|done]. destruct CF as (dd & E1 & E2 & E3). unfold file_of in Hf. cbn [cl_loc mem_world w_paths w_files] in Hf. destruct (w_paths w !! loc) as [ino|] eqn:Ep; [|discriminate]. cbn in Hf.
    assert (map_to_list (r_metrics hc_r) = [(str "http.requests", 1%nat)]) as L1 by (vm_compute; reflexivity). assert (map_to_list (r_indoms hc_r) = []) as L2 by (vm_compute; reflexivity).
    assert (is_m (mkWorld (mkHeap (h_indoms (w_heap w)) G) ∅ ∅ (w_files w) ∅ ∅ false) 1 (m_desc hc_m) MCounter None (one (VInt64 u))) as M.
    { exists g. split; [exact Eg|]. rewrite D1, D2, D3, G1, G2, G3. split_and!; auto. intros [i|]; [|done]. unfold val_at, cell_at. rewrite G2, Hi in D3. unfold m_indom in D3. by destruct (m_body g). }
    destruct (values_single _ _ _ _ _ (VInt64 u) false _ M eq_refl Eg) as [V1 V2]. cbn [w_heap] in V1, V2.
    exists ino, buf, dd. split_and!; auto.
    - rewrite E2. unfold want_hdr. f_equal. unfold want_sections, spec_instances, spec_texts, reg_indoms, reg_metrics. cbn [set_mapped r_metrics r_indoms r_version2]. rewrite L1, L2. cbn. rewrite Eg. cbn.
      rewrite D1, G1, Ed. reflexivity.
    - eapply shows_veq; [|exact E3]. unfold want_view, reg_indoms, reg_metrics. cbn [set_mapped r_metrics r_indoms r_version2]. rewrite L1, L2. cbn. rewrite Eg. cbn. change (r_version2 hc_r) with false. rewrite V1, V2. split_and!; reflexivity.
  Qed.
End mid.
