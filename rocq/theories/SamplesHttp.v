(** The example program of /repo/examples/http_counter. *)
From Verif Require Import Base BaseFacts Floats GoVal MetricType ByteWriter Hash Units Indom Metrics Registry Prog
  Client Mmvdump Ileave ProgProofs Events StartEvents BufFacts Tiling StartGood StartLayout StartFinal StartDone
  View Sections StartView RegInv Update World OpRuns RegFacts WorldInv Sync SyncView FloatFacts ValueFacts MetricFacts SyncLive OpFacts HistFacts Life
  Parse NewFacts Example Samples SamplesFacts SamplesRun SamplesView Locks LocksCut Conc ConcRuns ConcFacts ConcLive MidSlot MidUpdate MidStep MidRun MidView MidPiece.
From stdpp Require Import relations.
Local Open Scope Z_scope.

(** /repo/examples/http_counter/server.go:14-33. The rest of main starts the server and waits
    for a key; os.Exit(0) at 44 does not run the deferred MustStop of 33, so the file
    stays as it is at that moment. *)
Definition http_counter (loc : gostring) (gen pid : Z) : list gstmt :=
  [GNew 1 (NewPCPCounter 0 (str "http.requests") [str "Number of Requests"])] ++ new_client (str "example") loc ++
  [register 1; must_start gen pid].
(** handleIncrement, /repo/examples/http_counter/server.go:47-50, without the answer. net/http runs one goroutine per
    connection, which handles the requests of the connection one after the other. *)
Definition request : mcall := MUpdate 1 OCUp false.

(** ** The counter after Start *)
Definition hc_m : metric := get no_metric (NewPCPCounter 0 (str "http.requests") [str "Number of Requests"]).
Definition hc_r : registry := (add_metric (w_heap (new_metric w_init 1 hc_m)) new_registry 1 hc_m).2.
Definition serving (loc : gostring) (gen pid : Z) (n : Z) (w : world) : Prop :=
  running w loc (hash (str "example") PCPClusterIDBitLength) hc_r gen pid /\ is_m w 1 (m_desc hc_m) MCounter None (one (VInt64 n)).
Lemma hc_runs loc gen pid : surely w_init (http_counter loc gen pid) (serving loc gen pid 0).
Proof.
  unfold http_counter. cbn [app]. change (NewPCPCounter 0 _ _) with (Some hc_m).
  eapply (s_new w_init 1 hc_m _ _ 100); [exact okw_init|reflexivity|reflexivity| |].
  { eapply (cr_counter _ _ 0 (str "http.requests") [str "Number of Requests"]); [cbv; intuition discriminate|reflexivity]. }
  intros O1. eapply s_client; [exact O1|reflexivity|reflexivity|]. intros O2.
  eapply s_register with (r := new_registry) (m := hc_m) (r' := hc_r); [exact O2|reflexivity|reflexivity|reflexivity|]. intros O3.
  eapply s_start with (r := hc_r); [exact O3|reflexivity|reflexivity|apply startableb_ok; vm_compute; reflexivity|].
  intros w1 RU Hi Hm. apply surely_nil. split; [exact RU|]. eapply is_m_ext; [apply (Hm 1%nat hc_m); reflexivity|]. intros [i|]; reflexivity.
Qed.
Lemma hc_registered : registered hc_r 1.
Proof. apply reg1; vm_compute; reflexivity. Qed.

(** ** Requests *)
Definition requests (css : list (list mcall)) : Prop := forall l c, l ∈ css -> c ∈ l -> c = request.
(** Requests answered so far. *)
Definition answered (m : machine) : Z := Z.of_nat (length (concat (t_done <$> mc_thr m))).

Section serve.
  Context (loc : gostring) (gen pid n : Z) (w : world) (SV : serving loc gen pid n w).
  Lemma sv_metric : exists m0, h_metrics (w_heap w) !! 1%nat = Some m0 /\ m_kind m0 = MCounter /\ val_at m0 None = Some (VInt64 n) /\ live (w_files w) m0.
  Proof using SV.
    destruct SV as [RU (m & Hm & _ & Hk & _ & Hv)]. exists m. split_and!; auto; [by rewrite Hv|]. eapply ru_live; [exact RU|exact hc_registered|exact Hm].
  Qed.
  Lemma reqs_inc css : requests css -> forall l c, l ∈ css -> c ∈ l -> is_Some (inc_amount 1 c).
  Proof using. intros H l c Hl Hc. rewrite (H l c Hl Hc). by eexists. Qed.
  Lemma reqs_sum cs : (forall c, c ∈ cs -> c = request) -> sum_inc 1 cs = Z.of_nat (length cs).
  Proof using.
    induction cs as [|c cs IH]; intros H; [done|]. change (sum_inc 1 (c :: cs)) with (default 0 (inc_amount 1 c) + sum_inc 1 cs). rewrite IH by (intros; apply H; by right).
    rewrite (H c) by left. change (default 0 (inc_amount 1 request)) with 1. cbn [length]. lia.
  Qed.
  Lemma reqs_concat css : requests css -> sum_inc 1 (concat css) = Z.of_nat (length (concat css)).
  Proof using.
    intros H. apply reqs_sum. intros c Hc. apply elem_of_list_In, in_concat in Hc as (l & H1 & H2). apply (H l c); by apply elem_of_list_In.
  Qed.
  Lemma reqs_ok css : requests css -> forall l c, l ∈ css -> c ∈ l -> call_ok w [1%nat] c.
  Proof using SV.
    intros H l c Hl Hc. destruct sv_metric as (m0 & Hm & Hk & _ & _). rewrite (H l c Hl Hc). eapply (inc_ok w 1 m0); eauto.
  Qed.

  (** After a history of requests the client is still running. *)
  Lemma hist_running h w' : shist w h w' -> Forall (fun x => x.1.2 = request) h -> w_dead w' = false -> running w' loc (hash (str "example") PCPClusterIDBitLength) hc_r gen pid.
  Proof using SV.
    destruct SV as [RU _]. clear SV. intros H. revert RU. induction H as [w|w h w1 i mp op mst o w2 H IH HS|w h w1 i mp nn m r H IH _ _]; intros RU F D; [done| |].
    - apply Forall_app in F as [F1 F2]. apply Forall_inv in F2. cbn in F2. injection F2 as -> -> ->.
      assert (w_dead w1 = false) as D1 by (inversion HS; done). destruct (IH RU F1 D1) as [[R _] Sy [wr Hc] Hr].
      inversion HS as [| | | | | | | | | | | | | | |w0 mp0 op0 mst0 m0 o0 fs0 m0' E1 E2 E3 E4]; subst. split.
      + split; [by eapply reachable_step|exact D].
      + eapply synced_step; [apply reachable_ok, R|exact Sy| |exact HS]. intros c0 r0 _ _. cbn. auto.
      + exists wr. exact Hc.
      + exact Hr.
    - apply Forall_app in F as [_ F2]. apply Forall_inv in F2. cbn in F2. discriminate.
  Qed.

  Lemma all_served css m : requests css -> rtc (cstep (w_heap w)) (m_start (world_mem w) css) m -> m_done m ->
    serving loc gen pid (to_signed 64 (n + answered m)) (mem_world w (mc_mem m)) /\ answered m = Z.of_nat (length (concat css)) /\ length (mc_thr m) = length css /\ forall i th c r, mc_thr m !! i = Some th -> (c, r) ∈ t_done th -> c = request /\ r.1 = ROk.
  Proof using SV.
    intros Hq Hst Hd. destruct sv_metric as (m0 & Hm & Hk & Hv & L). pose proof SV as [RU (m1 & Hm1 & Ed & _ & Ei & _)]. assert (m1 = m0) as -> by congruence. clear Hm1. pose proof (ru_ok _ _ _ _ _ _ RU) as [R D].
    destruct (inc_sum w 1 m0 n css m (reachable_ok _ R) D Hm Hk Hv L (reqs_inc css Hq) Hst Hd) as [(m' & Hm' & Hv') HR].
    destruct (metrics_linear w [1%nat] css m m (reachable_ok _ R) D (apart_one _ _ _) (reqs_ok css Hq) Hst (rtc_refl _ _) Hd) as (h & h' & SH & Pm & Len & _ & K2).
    assert (Forall (fun x => x.1.2 = request) (h ++ h')) as F.
    { apply Forall_forall. intros x Hx. assert (x.1.2 ∈ concat css) as Hc. { rewrite <- Pm. apply elem_of_list_fmap. exists x.1. split; [done|]. apply elem_of_list_fmap. by exists x. }
      apply elem_of_list_In, in_concat in Hc as (l & H1 & H2). apply (Hq l); by apply elem_of_list_In. }
    assert (Z.of_nat (length (concat css)) = answered m) as EN.
    { unfold answered. f_equal. assert (css = (fun t => (t_done t).*1) <$> mc_thr m) as ->.
      { apply list_eq. intros i. rewrite list_lookup_fmap. destruct (mc_thr m !! i) as [th|] eqn:E; [cbn; by apply K2|]. cbn. apply lookup_ge_None. apply lookup_ge_None in E. lia. }
      clear. induction (mc_thr m) as [|t ts IH]; [done|]. cbn. rewrite !app_length, fmap_length. f_equal. exact IH. }
    pose proof (hist_running _ _ SH F D) as RU'. split_and!; [|done|done|].
    - split; [exact RU'|]. exists m'. cbn [mem_world w_heap h_metrics]. split; [exact Hm'|].
      assert (m_desc m' = m_desc m0 /\ m_kind m' = m_kind m0 /\ m_indom m' = m_indom m0) as (E1 & E2 & E3).
      { pose proof (g_stat _ _ (fr_good _ _ _ _ (frame_steps w [1%nat] (apart_one _ _ _) css (reqs_ok css Hq) m Hst)) 1%nat) as G. rewrite Hm, Hm' in G. destruct G as (G1 & G2 & G3 & _). rewrite Hk in G3 |- *. auto. }
      split_and!; [congruence|congruence|congruence|]. intros [i|].
      + unfold val_at, cell_at. rewrite Ei in E3. unfold m_indom in E3. destruct (m_body m'); done.
      + rewrite Hv'. cbn. by rewrite reqs_concat, EN.
    - intros i th c r Hi Hc. split; [|by eapply HR]. destruct (K2 i th Hi) as [K3 _]. eapply (Hq _ c); [eapply elem_of_list_lookup_2; exact K3|]. apply elem_of_list_fmap. by exists (c, r).
  Qed.
End serve.

(** ** Exit in the middle of a request *)
Lemma one_byte loc gen pid w : serving loc gen pid 255 w -> exists m c wr off ino buf, h_metrics (w_heap w) !! 1%nat = Some m /\ cell_at m None = Some c /\ c_val c = VInt64 255 /\
  c_upd c = Some (mkClosure wr off) /\ f_writers (w_files w) !! wr = Some (mkWriter ino true) /\ f_inodes (w_files w) !! ino = Some buf /\ 0 <= off /\ off + 8 <= zlen buf /\
  forall w2, w_paths w2 = w_paths w -> w_files w2 = with_inode (w_files w) ino (do_store buf (off, x00)) ->
    file_shows w2 loc (str "example") 1 (tocCount hc_r) gen pid (mkView [] [] [want_metric false (m_desc hc_m) None] [mkVV (want_metric false (m_desc hc_m) None) None (VInt64 0)]).
Proof.
  intros [[[R _] Sy [wr0 Hcl] Hr] (m & Hm & Ed & Hk & Hi & Hv)]. destruct Sy as (c0 & r0 & wr & ino & pl & ad & am & buf & Hc' & Hr' & _ & Hwr & Hpath & S).
  rewrite Hcl in Hc'. injection Hc' as <-. cbn [cl_reg cl_wr cl_loc] in *. rewrite Hr in Hr'. injection Hr' as <-. injection Hwr as ->.
  pose proof (reachable_ok _ R) as W. pose proof (wo_heap _ W) as Hh. pose proof (wo_regs _ W _ _ Hr) as Hro.
  set (cl0 := mkClient loc (hash (str "example") PCPClusterIDBitLength) ProcessFlag 0 (Some wr)) in *. set (k := start_cfg cl0 (set_mapped hc_r true) gen pid) in *.
  assert (registered (k_reg k) 1) as Reg by exact hc_registered. change (reg_ok (w_heap w) (k_reg k)) in Hro.
  assert (exists c, cell_at m None = Some c /\ c_val c = VInt64 255) as (c & Hc & Hcv).
  { specialize (Hv None). unfold val_at in Hv. destruct (cell_at m None) as [c|] eqn:E; [|discriminate]. exists c. split; [done|]. cbn in Hv. by injection Hv. }
  assert (md_type (m_desc m) = Int64Type) as Et by (rewrite Ed; reflexivity).
  destruct (sync_poke _ _ _ _ _ _ _ _ _ _ _ _ _ Hh Hro S Reg Hm Hc) as (off & Hu & B1 & B2 & _ & _). rewrite Et in B2. change (slot_w Int64Type) with 8 in B2.
  exists m, c, wr, off, ino, buf. split_and!; auto; [exact (sy_writer _ _ _ _ _ _ _ _ _ S)|exact (sy_buf _ _ _ _ _ _ _ _ _ S)|].
  intros w2 Hp Hf2.
  destruct (sync_byte (w_heap w) (w_files w) _ wr ino pl ad am buf 1 m None c off [xff; x00; x00; x00; x00; x00; x00; x00] 0 x00 (VInt64 0) Hh Hro S Reg Hm Hc Hu) as (_ & _ & pl' & S').
  { rewrite Et, Hcv. cbv. intuition discriminate. }
  { rewrite Hcv. exact I. }
  { rewrite Hcv. reflexivity. }
  { cbn. lia. }
  { rewrite Et. cbv. intuition discriminate. }
  { exact I. }
  { reflexivity. }
  rewrite Z.add_0_r in S'. set (g := put_cell m None (mkCell (VInt64 0) (c_upd c))) in *.
  assert (heap_ok (upd_heap (w_heap w) 1 g)) as Hh'.
  { apply (heap_ok_metric (w_heap w) 1 g); [done|]. eapply put_cell_ok; [by apply (ho_metrics _ Hh 1%nat)|exact Hc|]. cbn [c_val]. rewrite Et. cbv. intuition discriminate. }
  assert (reg_ok (upd_heap (w_heap w) 1 g) (set_mapped hc_r true)) as Hro'.
  { eapply reg_ok_ext; [exact Hh| |exact Hro]. eapply upd_heap_ext; eauto using put_cell_desc, put_indom. }
  destruct (sync_complete _ _ _ _ _ _ _ _ _ _ _ _ Hh' Hro' S') as (_ & d & E1 & E2 & E3).
  exists ino, (do_store buf (off, x00)), d. split_and!; auto.
  - by rewrite Hp.
  - rewrite Hf2. cbn. apply lookup_insert.
  - rewrite E2. unfold want_hdr. rewrite <- (sections_count _ _ Hro'). reflexivity.
  - eapply shows_veq; [|exact E3]. unfold want_view, reg_indoms, reg_metrics. cbn [set_mapped r_metrics r_indoms r_version2].
    assert (map_to_list (r_metrics hc_r) = [(str "http.requests", 1%nat)]) as -> by (vm_compute; reflexivity). assert (map_to_list (r_indoms hc_r) = []) as -> by (vm_compute; reflexivity).
    assert (is_m (mkWorld (upd_heap (w_heap w) 1 g) ∅ ∅ (w_files w) ∅ ∅ false) 1 (m_desc hc_m) MCounter None (one (VInt64 0))) as M.
    { exists g. cbn [w_heap upd_heap h_metrics]. rewrite lookup_insert. unfold g, put_cell. split; [done|]. unfold m_indom in Hi. destruct (m_body m) as [cc|] eqn:Eb; [|done]. cbn. split_and!; auto. intros [i|]; done. }
    pose proof M as (g' & Hg' & _). cbn [w_heap upd_heap h_metrics] in Hg'. cbn [omap list_omap upd_heap h_metrics snd map concat app]. cbn. rewrite Hg'. cbn.
    destruct (values_single _ _ _ _ _ (VInt64 0) false _ M eq_refl Hg') as [V1 V2]. cbn [w_heap] in V1, V2. change (r_version2 hc_r) with false. fold (upd_heap (w_heap w) 1 g). rewrite V1, V2. split_and!; reflexivity.
Qed.

Lemma body_step w s f d p s' p' l : qnext 1 p s = Some (p', s') ->
  cstep (w_heap w) (mkMach s f [mkThr d (Some (request, p)) l]) (mkMach s' f [mkThr d (Some (request, p')) l]).
Proof. intros H. exact (ms_body mc_obj mc_rd (mc_enter (w_heap w)) _ mc_ret s f [mkThr d (Some (request, p)) l] 0 d request p l p' s' eq_refl H). Qed.
Lemma mid_request loc gen pid w k : serving loc gen pid 0 w -> k = 255%nat ->
  exists m, rtc (cstep (w_heap w)) (m_start (world_mem w) [replicate k request ++ [request]]) m /\ answered m = 255 /\
    (exists p, updating m 0 1 p) /\
    file_shows (mem_world w (mc_mem m)) loc (str "example") 1 (tocCount hc_r) gen pid (mkView [] [] [want_metric false (m_desc hc_m) None] [mkVV (want_metric false (m_desc hc_m) None) None (VInt64 0)]).
Proof.
  intros SV Ek. destruct (sv_metric _ _ _ _ _ SV) as (m0 & Hm & Hk & _ & L).
  assert (Ed : md_type (m_desc m0) = Int64Type). { destruct SV as [_ (m1 & Hm1 & Ed & _)]. assert (m1 = m0) as -> by congruence. by rewrite Ed. }
  assert (requests [replicate k request]) as Q1. { intros l c Hl Hc. apply elem_of_list_singleton in Hl as ->. by apply elem_of_replicate in Hc as [-> _]. }
  assert (requests [replicate k request ++ [request]]) as Q2. { intros l c Hl Hc. apply elem_of_list_singleton in Hl as ->. apply elem_of_app in Hc as [Hc|Hc]; [by apply elem_of_replicate in Hc as [-> _]|by apply elem_of_list_singleton in Hc]. }
  assert (forall mp' m', mp' ∈ [1%nat] -> h_metrics (w_heap w) !! mp' = Some m' -> live (w_files w) m') as LL. { intros mp' m' Hin Hm'. apply elem_of_list_singleton in Hin as ->. assert (m' = m0) as -> by congruence. exact L. }
  destruct (metrics_complete w [1%nat] (apart_one _ _ _) LL _ _ (reqs_ok _ _ _ _ _ SV _ Q1) (rtc_refl _ _)) as [(m1 & H1 & D1) _].
  destruct (all_served _ _ _ _ _ SV _ m1 Q1 H1 D1) as (SV1 & A1 & L1 & _).
  assert (answered m1 = 255) as A2. { rewrite A1. cbn [concat]. rewrite app_nil_r, replicate_length, Ek. reflexivity. }
  rewrite A2 in SV1. change (to_signed 64 (0 + 255)) with 255 in SV1. clear A1.
  destruct m1 as [s f ts]. cbn [mc_mem mc_thr] in *. destruct ts as [|[d cu td] [|? ?]]; try discriminate L1. destruct (D1 0%nat _ eq_refl) as [E1 E2]. cbn in E1, E2. subst cu td. clear L1.
  assert (rtc (cstep (w_heap w)) (m_start (world_mem w) [replicate k request ++ [request]]) (mkMach s f [mkThr d None [request]])) as H2.
  { pose proof (grow_all mc_obj mc_rd (mc_enter (w_heap w)) _ mc_ret (fun _ => [request]) _ _ H1) as H2. rewrite ext_start in H2. exact H2. }
  destruct (metrics_complete w [1%nat] (apart_one _ _ _) LL _ _ (reqs_ok _ _ _ _ _ SV _ Q2) H2) as [(m2 & H3 & D2) _].
  assert (exists f', cstep (w_heap w) (mkMach s f [mkThr d None [request]]) (mkMach s f' [mkThr d (Some (request, mc_enter (w_heap w) request)) []])) as (f' & H4).
  { apply rtc_inv in H3 as [<-|(m3 & H3 & _)]; [destruct (D2 0%nat _ eq_refl) as [_ X]; discriminate X|]. clear -H3.
    assert (forall i t, [mkThr (C := mcall) (P := mprog) d None [request]] !! i = Some t -> i = 0%nat /\ t = mkThr d None [request]) as K. { intros [|i] t Hi; [|done]. cbn in Hi. by injection Hi as <-. }
    inversion H3 as [s0 f0 ts i d0 c l X1 X2 X3|s0 f0 ts i d0 c l X X1 X2 X3|s0 f0 ts i d0 c p l p' s' X1 X2|s0 f0 ts i d0 c p l r X1 X2 X3|s0 f0 ts i d0 c p l r X X1 X2 X3 X4]; subst;
      destruct (K _ _ X1) as [-> X5]; try discriminate X5. 
    - injection X5 as -> -> ->. eexists. exact H3.
    - injection X5 as -> -> ->. discriminate X2. }
  destruct (one_byte _ _ _ _ SV1) as (m & c & wr & off & ino & buf & Gm & Gc & Gv & Gu & Gw & Gb & O1 & O2 & Sh). cbn [mem_world w_heap h_metrics w_files] in *.
  assert (mc_enter (w_heap w) request = q_counter_inc Int64Type 1) as Ee. { cbn [mc_enter request]. rewrite Hm. cbn [mbind option_bind]. unfold prog_of. rewrite Hk, Ed. reflexivity. }
  rewrite Ee in H4. set (q1 := q_set Int64Type (VInt64 256) q_ok) in *.
  assert (c_val <$> cell_at m None = Some (VInt64 255)) as Gcv by (rewrite Gc; cbn; by rewrite Gv).
  set (s' := mkMem (q_metrics s) (with_inode (q_files s) ino (do_store buf (off, x00)))).
  set (q2 := QUpd None (fun u => match u with None => QSetVal None (VInt64 256) q_ok | Some cl => q_update cl (VInt64 256) (QSetVal None (VInt64 256) q_ok) end)).
  set (q3 := q_update (mkClosure wr off) (VInt64 256) (QSetVal None (VInt64 256) q_ok)).
  assert (qnext 1 (q_counter_inc Int64Type 1) s = Some (q1, s)) as S1. { change (q_counter_inc Int64Type 1) with (QVal None (fun x => q_int x (fun v => q_set Int64Type (VInt64 (to_signed 64 (v + 1))) q_ok))). cbn [qnext]. rewrite Gm. cbn [mbind option_bind]. rewrite Gcv. reflexivity. }
  assert (qnext 1 q1 s = Some (q2, s)) as S2. { change q1 with (q_store None (VInt64 256) q_ok). unfold q_store. cbn [qnext]. rewrite Gm. cbn [mbind option_bind]. rewrite Gcv. reflexivity. }
  assert (qnext 1 q2 s = Some (q3, s)) as S3. { unfold q2. cbn [qnext]. rewrite Gm. cbn [mbind option_bind]. rewrite Gc. cbn [mbind option_bind]. rewrite Gu. reflexivity. }
  assert (exists q4, qnext 1 q3 s = Some (q4, s')) as (q4 & S4).
  { eexists. change q3 with (QWrite wr off [x00; x01; x00; x00; x00; x00; x00; x00] (QSetVal None (VInt64 256) q_ok) (QRet RErr None)). cbn [qnext]. rewrite Gw. cbn [mbind option_bind wr_live wr_inode]. rewrite Gb. cbn [mbind option_bind].
    change (zlen [x00; x01; x00; x00; x00; x00; x00; x00]) with 8. destruct (Z.ltb_spec (zlen buf) (off + 8)); [lia|]. destruct (Z.ltb_spec off 0); [lia|]. reflexivity. }
  exists (mkMach s' f' [mkThr d (Some (request, q4)) []]). split_and!.
  - eapply rtc_transitive; [exact H2|]. eapply rtc_l; [exact H4|]. eapply rtc_l; [exact (body_step w s f' d _ _ _ [] S1)|]. eapply rtc_l; [exact (body_step w s f' d _ _ _ [] S2)|].
    eapply rtc_l; [exact (body_step w s f' d _ _ _ [] S3)|]. eapply rtc_l; [exact (body_step w s f' d _ _ _ [] S4)|]. apply rtc_refl.
  - exact A2.
  - exists q4. by exists d, OCUp, false, [].
  - apply Sh; reflexivity.
Qed.
