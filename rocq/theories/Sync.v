(** A started client's file follows the registry through every later call. *)
From Verif Require Import Base BaseFacts Floats GoVal MetricType ByteWriter Hash Units Indom Metrics Registry Prog
  Client Mmvdump Ileave ProgProofs Events StartEvents BufFacts Tiling StartGood StartLayout StartFinal StartDone
  View Sections StartView RegInv Update World OpRuns RegFacts WorldInv.

(** ** Heaps that look the same to a registry *)
Definition vals_of (b : mbody) : goval + (nat * gmap gostring goval) :=
  match b with BSingle c => inl (c_val c) | BInst ip cells => inr (ip, c_val <$> cells) end.
Definition same_vals (m m' : metric) : Prop := m_desc m' = m_desc m /\ vals_of (m_body m') = vals_of (m_body m).

Definition registered (r : registry) (mp : nat) : Prop := exists n, r_metrics r !! n = Some mp.

Record hsim (r : registry) (hp hp' : heap) : Prop := {
  hs_ext : heap_ext hp hp';
  hs_m : forall mp m, registered r mp -> h_metrics hp !! mp = Some m -> exists m', h_metrics hp' !! mp = Some m' /\ same_vals m m' }.

Lemma same_vals_inst m m' ip cells : same_vals m m' -> m_body m = BInst ip cells ->
  exists cells', m_body m' = BInst ip cells' /\ forall n, c_val <$> cells' !! n = c_val <$> cells !! n.
Proof.
  intros [_ H] E. rewrite E in H. destruct (m_body m') as [c|ip' cells'] eqn:E'; cbn in H; [discriminate|]. injection H as -> H.
  exists cells'. split; [reflexivity|]. intros n. apply (f_equal (lookup n)) in H. rewrite !lookup_fmap in H. exact H.
Qed.
Lemma same_vals_single m m' c : same_vals m m' -> m_body m = BSingle c -> exists c', m_body m' = BSingle c' /\ c_val c' = c_val c.
Proof.
  intros [_ H] E. rewrite E in H. destruct (m_body m') as [c'|ip' cells'] eqn:E'; cbn in H; [|discriminate]. injection H as H. eauto.
Qed.

Lemma mplan_ok_sim r hp hp' mp p : hsim r hp hp' -> registered r mp -> mplan_ok hp mp p -> mplan_ok hp' mp p.
Proof.
  intros HS Hreg (m & Hm & H). destruct (hs_m _ _ _ HS _ _ Hreg Hm) as (m' & Hm' & SV). exists m'. split; [exact Hm'|].
  destruct SV as [SD SB]. assert (same_vals m m') as SV by (split; auto). destruct p as [mp' d v|mp' d ip dom vals].
  - destruct H as (-> & -> & c & Hb & ->). destruct (same_vals_single _ _ _ SV Hb) as (c' & Hb' & Hv). split_and!; auto. exists c'. auto.
  - destruct H as (-> & -> & cells & Hb & Hi & HP & HF). destruct (same_vals_inst _ _ _ _ SV Hb) as (cells' & Hb' & Hv). split_and!; auto.
    exists cells'. split_and!; auto.
    + apply (he_i _ _ (hs_ext _ _ _ HS)), Hi.
    + eapply Forall_impl; [exact HF|]. intros x (c & Hc & Hx). specialize (Hv x.1). rewrite Hc in Hv. cbn in Hv.
      destruct (cells' !! x.1) as [c'|] eqn:E; [|discriminate]. cbn in Hv. exists c'. split; [reflexivity|]. congruence.
Qed.

Lemma reg_mps r mp : mp ∈ (map_to_list (r_metrics r)).*2 <-> registered r mp.
Proof.
  split.
  - intros H. apply elem_of_list_fmap in H as ([n mp'] & -> & H). apply elem_of_map_to_list in H. exists n. exact H.
  - intros [n H]. apply elem_of_list_fmap. exists (n, mp). split; [reflexivity|]. by apply elem_of_map_to_list.
Qed.

Lemma plan_ok_sim r hp hp' pl : hsim r hp hp' -> plan_ok hp r pl -> plan_ok hp' r pl.
Proof.
  intros HS [(od & D1 & D2 & D3) (om & M1 & M2)]. split.
  - exists od. split_and!; auto. eapply Forall_impl; [exact D3|]. intros x [H1 H2]. split; [|exact H2]. apply (he_i _ _ (hs_ext _ _ _ HS)), H1.
  - exists om. split; [exact M1|]. assert (Forall (registered r) om) as HR.
    { apply Forall_forall. intros mp H. apply reg_mps. rewrite <- M1. exact H. }
    clear M1. induction M2 as [|mp p om' ps H M2 IH]; [constructor|]. inversion HR; subst. constructor; [|auto]. eapply mplan_ok_sim; eauto.
Qed.

Lemma reg_metrics_in hp r m : m ∈ reg_metrics hp r <-> exists mp, registered r mp /\ h_metrics hp !! mp = Some m.
Proof.
  unfold reg_metrics. rewrite elem_of_list_omap. split.
  - intros (mp & H1 & H2). apply reg_mps in H1. eauto.
  - intros (mp & H1 & H2). exists mp. split; [by apply reg_mps|exact H2].
Qed.

Lemma metric_body_fits m : body_fits (m_body m) <-> forall n c, cell_at m n = Some c -> val_fits (c_val c).
Proof.
  unfold body_fits, cell_at. destruct (m_body m) as [c|ip cells].
  - split; [intros H [i|] c0 E; congruence|]. intros H. by apply (H None).
  - split; [intros H [i|] c0 E; [eauto|congruence]|]. intros H n c. apply (H (Some n)).
Qed.

Lemma startable_sim r hp hp' : heap_ok hp -> reg_ok hp r -> hsim r hp hp' -> startable hp r -> startable hp' r.
Proof.
  intros Hh Hr HS [S1 S2 S3 S4 S5]. pose proof (reg_indoms_ext _ _ _ (hs_ext _ _ _ HS) Hr) as EI.
  assert (forall m', m' ∈ reg_metrics hp' r -> exists m, m ∈ reg_metrics hp r /\ same_vals m m') as G.
  { intros m' H. apply reg_metrics_in in H as (mp & [n Hn] & Hm'). destruct (ro_metrics _ _ Hr _ _ Hn) as (m & Hm & _).
    destruct (hs_m _ _ _ HS mp m) as (m2 & Hm2 & SV); [exists n; exact Hn|exact Hm|]. assert (m2 = m') as -> by congruence.
    exists m. split; [|exact SV]. apply reg_metrics_in. exists mp. split; [exists n; exact Hn|exact Hm]. }
  split; rewrite ?EI; auto.
  - rewrite Forall_forall in S3 |- *. intros m' H. destruct (G _ H) as (m & Hin & SV). destruct (S3 _ Hin) as (A & B & C).
    rewrite (proj1 SV). split_and!; auto. unfold body_fits in *. destruct (m_body m) as [c|ip cells] eqn:E.
    + destruct (same_vals_single _ _ _ SV E) as (c' & -> & ->). exact C.
    + destruct (same_vals_inst _ _ _ _ SV E) as (cells' & -> & Hv). intros n c Hc. specialize (Hv n). rewrite Hc in Hv.
      destruct (cells !! n) as [c0|] eqn:E0; [|discriminate]. cbn in Hv. injection Hv as ->. eauto.
  - rewrite Forall_forall in S4 |- *. intros m' H ip cells d Hb Hd. destruct (G _ H) as (m & Hin & SV).
    assert (exists cells0, m_body m = BInst ip cells0) as [cells0 Hb0].
    { destruct SV as [_ SV]. rewrite Hb in SV. destruct (m_body m); cbn in SV; [discriminate|]. injection SV as -> _. eauto. }
    apply reg_metrics_in in Hin as (mp & [n Hn] & Hm).
    assert (exists d0, h_indoms hp !! ip = Some d0) as [d0 Hd0].
    { pose proof (mo_body _ _ (ho_metrics _ Hh _ _ Hm)) as HB. rewrite Hb0 in HB. destruct HB as (d0 & Hd0 & _). eauto. }
    pose proof (he_i _ _ (hs_ext _ _ _ HS) _ _ Hd0) as Hd1. assert (d0 = d) as -> by congruence.
    eapply S4; eauto. apply reg_metrics_in. exists mp. split; [exists n; exact Hn|exact Hm].
Qed.

(** ** One update of a registered value *)
Lemma put_cell_id m n c : cell_at m n = Some c -> put_cell m n c = m.
Proof.
  unfold cell_at, put_cell. destruct m as [d k [c0|ip cells]]; cbn; destruct n as [i|]; try discriminate; intros H.
  - injection H as ->. reflexivity.
  - unfold with_body. cbn. rewrite insert_id by exact H. reflexivity.
Qed.

Lemma put_cell_desc m n c : m_desc (put_cell m n c) = m_desc m.
Proof. unfold put_cell. destruct (m_body m), n; reflexivity. Qed.

Lemma plan_row hp mp p m n c : metric_ok hp m -> h_metrics hp !! mp = Some m -> mplan_ok hp mp p -> cell_at m n = Some c ->
  (n, c_val c) ∈ mp_vals p.
Proof.
  intros Hok Hm (m' & Hm' & H) Hc. assert (m' = m) as -> by congruence. unfold cell_at in Hc. pose proof (mo_body _ _ Hok) as HB. destruct p as [mp' d v|mp' d ip dom0 vals].
  - destruct H as (-> & -> & c0 & Hb & ->). rewrite Hb in Hc. destruct n; [discriminate|]. injection Hc as ->. left.
  - destruct H as (-> & -> & cells & Hb & Hi & HP & HF). rewrite Hb in Hc, HB. destruct n as [i|]; [|discriminate].
    destruct HB as (d0 & Hd0 & HD & _). assert (d0 = dom0) as -> by congruence.
    assert (i ∈ vals.*1) as Hin.
    { rewrite HP. apply elem_of_dom_2 in Hc. rewrite HD in Hc. apply elem_of_dom in Hc as [x Hx]. apply elem_of_list_fmap. exists (i, x).
      split; [reflexivity|]. by apply elem_of_map_to_list. }
    apply elem_of_list_fmap in Hin as ([i' v] & -> & Hin). rewrite Forall_forall in HF. destruct (HF _ Hin) as (c' & Hc' & Hv). cbn [fst snd] in *.
    cbn [mp_vals]. apply elem_of_list_fmap. exists (i', v). split; [|exact Hin]. cbn. congruence.
Qed.

Definition upd_heap (hp : heap) (mp : nat) (m : metric) : heap := mkHeap (h_indoms hp) (<[mp := m]> (h_metrics hp)).

Lemma mplan_ok_other hp mp mp' m p : mp' <> mp -> mplan_ok hp mp' p -> mplan_ok (upd_heap hp mp m) mp' p.
Proof.
  intros N (m' & Hm' & H). exists m'. split; [cbn; rewrite lookup_insert_ne by congruence; exact Hm'|]. exact H.
Qed.

Lemma mplan_ok_set hp mp m p n c c' : h_metrics hp !! mp = Some m -> mplan_ok hp mp p -> cell_at m n = Some c ->
  mplan_ok (upd_heap hp mp (put_cell m n c')) mp (set_row p n (c_val c')).
Proof.
  intros Hm (m' & Hm' & H) Hc. assert (m' = m) as -> by congruence. exists (put_cell m n c'). split; [cbn; apply lookup_insert|].
  rewrite put_cell_desc. unfold cell_at, put_cell in *. destruct p as [mp' d v|mp' d ip dom0 vals]; cbn [set_row].
  - destruct H as (-> & -> & c0 & Hb & ->). rewrite Hb in *. destruct n; [discriminate|]. cbn. eauto.
  - destruct H as (-> & -> & cells & Hb & Hi & HP & HF). rewrite Hb in *. destruct n as [i|]; [|discriminate]. split_and!; auto.
    exists (<[i := c']> cells). cbn. split_and!; auto.
    + rewrite <- HP. apply reflexive_eq. clear. induction vals as [|[x v] l IH]; [reflexivity|]. cbn [map fmap list_fmap]. f_equal; [|exact IH].
      case_decide; reflexivity.
    + apply Forall_forall. intros x Hx. apply elem_of_list_fmap in Hx as ([y v] & -> & Hx). rewrite Forall_forall in HF.
      destruct (HF _ Hx) as (c0 & Hc0 & Hv). cbn [fst snd] in *. case_decide as E; cbn.
      * injection E as ->. rewrite lookup_insert. eauto.
      * rewrite lookup_insert_ne by congruence. eauto.
Qed.

Lemma plan_find hp r pl mp : plan_ok hp r pl -> registered r mp -> exists m1 p m2, pl_mets pl = m1 ++ p :: m2 /\ mplan_ok hp mp p.
Proof.
  intros [_ (om & M1 & M2)] Hreg. apply reg_mps in Hreg. rewrite <- M1 in Hreg. apply elem_of_list_split in Hreg as (o1 & o2 & ->).
  apply Forall2_app_inv_l in M2 as (m1 & l & _ & H & E). inversion H as [|? p ? m2 Hp _]; subst. exists m1, p, m2. rewrite E. auto.
Qed.

Lemma plan_ok_set hp r pl mp m n c c' m1 p m2 : reg_ok hp r -> plan_ok hp r pl -> h_metrics hp !! mp = Some m -> cell_at m n = Some c ->
  pl_mets pl = m1 ++ p :: m2 -> mplan_ok hp mp p ->
  plan_ok (upd_heap hp mp (put_cell m n c')) r (mkPlan (pl_doms pl) (m1 ++ set_row p n (c_val c') :: m2)).
Proof.
  intros Hr Hp Hm Hc Hsp Hpp. pose proof (plan_mps_NoDup _ _ _ Hr Hp) as ND. destruct Hp as [(od & D1 & D2 & D3) (om & M1 & M2)]. split.
  - exists od. split_and!; auto.
  - exists om. split; [exact M1|]. cbn [pl_mets]. rewrite Hsp in M2, ND. apply Forall2_app_inv_r in M2 as (o1 & o2' & F1 & F2 & ->).
    inversion F2 as [|x ? o2 ? Hx F3]; subst. rewrite map_app in ND. cbn [map] in ND. apply NoDup_app in ND as (_ & N1 & N2).
    apply NoDup_cons in N2 as [N2 _]. pose proof (mplan_p_mp _ _ _ Hx) as E1. pose proof (mplan_p_mp _ _ _ Hpp) as E2. assert (x = mp) as -> by congruence.
    assert (forall o l, Forall2 (mplan_ok hp) o l -> ~ (mp ∈ map p_mp l) -> Forall2 (mplan_ok (upd_heap hp mp (put_cell m n c'))) o l) as G.
    { induction 1 as [|y q o l Hy H IH]; intros N; [constructor|]. cbn in N. apply not_elem_of_cons in N as [N3 N4]. constructor; [|auto].
      apply mplan_ok_other; [|exact Hy]. pose proof (mplan_p_mp _ _ _ Hy). congruence. }
    apply Forall2_app; [|constructor].
    + apply G; [exact F1|]. intros H. apply (N1 _ H). rewrite <- E2. left.
    + eapply mplan_ok_set; eauto.
    + apply G; [exact F3|]. congruence.
Qed.

(** ** Synchronised registries *)
(** [buf], the contents of [ino], is the file of registry [k_reg k] over objects [hp];
    the closures of its values lead to the right slots through writer [wr]. *)
Record sync (hp : heap) (fs : files) (k : cfg) (wr ino : nat) (pl : plan) (ad : list da) (am : list ma) (buf : list byte) : Prop := {
  sy_start : startable hp (k_reg k);
  sy_plan : plan_ok hp (k_reg k) pl;
  sy_image : image k pl ad am buf;
  sy_writer : f_writers fs !! wr = Some (mkWriter ino true);
  sy_buf : f_inodes fs !! ino = Some buf;
  sy_upds : forall mp n o, EUpd (mp, n) o ∈ ev_start k pl ad am -> exists m c, h_metrics hp !! mp = Some m /\
    cell_at m n = Some c /\ c_upd c = Some (mkClosure wr o);
  sy_own : forall mp m n c cl, h_metrics hp !! mp = Some m -> cell_at m n = Some c -> c_upd c = Some cl -> cl_writer cl = wr ->
    registered (k_reg k) mp }.

Definition winj (fs : files) : Prop := forall wr wr' x x', f_writers fs !! wr = Some x -> f_writers fs !! wr' = Some x' ->
  wr_inode x = wr_inode x' -> wr = wr'.

Lemma plan_keys_NoDup hp r pl p : heap_ok hp -> reg_ok hp r -> plan_ok hp r pl -> p ∈ pl_mets pl -> NoDup (met_keys p).
Proof.
  intros Hh Hr Hp Hin. pose proof (plan_vkeys _ _ _ Hr Hp) as ND. apply elem_of_list_split in Hin as (m1 & m2 & E). rewrite E in ND.
  rewrite map_app in ND. cbn in ND. rewrite concat_app in ND. cbn in ND. apply NoDup_app in ND as (_ & _ & ND). apply NoDup_app in ND as (ND & _ & _). exact ND.
Qed.

(** Changing a metric nobody in [r] refers to, or only its kind and closures. *)
Lemma hsim_upd r hp mp m m' : h_metrics hp !! mp = Some m -> m_desc m' = m_desc m -> m_indom m' = m_indom m ->
  (registered r mp -> vals_of (m_body m') = vals_of (m_body m)) -> hsim r hp (upd_heap hp mp m').
Proof.
  intros Hm E1 E2 E3. split; [eapply upd_heap_ext; eauto|]. intros mp0 m0 Hreg H0. cbn. destruct (decide (mp = mp0)) as [<-|N].
  - rewrite lookup_insert. exists m'. assert (m0 = m) as -> by congruence. split; [reflexivity|]. split; auto.
  - rewrite lookup_insert_ne by exact N. exists m0. split; [exact H0|]. split; reflexivity.
Qed.

Lemma sync_store hp fs k wr ino pl ad am buf mp m n c v o fs1 c1 :
  heap_ok hp -> reg_ok hp (k_reg k) -> winj fs -> sync hp fs k wr ino pl ad am buf ->
  h_metrics hp !! mp = Some m -> cell_at m n = Some c -> vtyped (md_type (m_desc m)) v -> (registered (k_reg k) mp -> val_fits v) ->
  store_cell fs c v = (o, fs1, c1) ->
  (registered (k_reg k) mp -> o = ROk) /\ exists pl' buf', sync (upd_heap hp mp (put_cell m n c1)) fs1 k wr ino pl' ad am buf'.
Proof.
  intros Hh Hr Hw S Hm Hc Ht Hf Hs. set (r := k_reg k) in *.
  destruct (store_cell_spec _ _ _ _ _ _ Hs) as (S1 & S2 & S3 & S4 & S5).
  assert (sy_own' : forall mp0 m0 n0 c0 cl, h_metrics (upd_heap hp mp (put_cell m n c1)) !! mp0 = Some m0 -> cell_at m0 n0 = Some c0 ->
    c_upd c0 = Some cl -> cl_writer cl = wr -> registered r mp0).
  { intros mp0 m0 n0 c0 cl H1 H2 H3 H4. cbn in H1. apply lookup_insert_Some in H1 as [[<- <-]|[_ H1]]; [|eapply sy_own; eauto].
    rewrite (cell_at_put _ _ _ _ _ Hc) in H2. case_decide; simplify_eq; eapply sy_own; eauto; congruence. }
  assert (upd_keep : forall pl', (forall key o, EUpd key o ∈ ev_start k pl' ad am <-> EUpd key o ∈ ev_start k pl ad am) ->
    forall mp0 n0 o0, EUpd (mp0, n0) o0 ∈ ev_start k pl' ad am -> exists m0 c0, h_metrics (upd_heap hp mp (put_cell m n c1)) !! mp0 = Some m0 /\
    cell_at m0 n0 = Some c0 /\ c_upd c0 = Some (mkClosure wr o0)).
  { intros pl' HE mp0 n0 o0 H. apply HE in H. destruct (sy_upds _ _ _ _ _ _ _ _ _ S _ _ _ H) as (m0 & c0 & H1 & H2 & H3). cbn.
    destruct (decide (mp = mp0)) as [<-|N].
    - rewrite lookup_insert. assert (m0 = m) as -> by congruence. exists (put_cell m n c1). rewrite (cell_at_put _ _ _ _ _ Hc).
      case_decide as E; [subst n0|eauto]. exists c1. split_and!; auto. congruence.
    - rewrite lookup_insert_ne by exact N. eauto. }
  destruct (decide (mp ∈ (map_to_list (r_metrics r)).*2)) as [Hreg|Hreg]; rewrite reg_mps in Hreg.
  - (* a value of this registry *)
    specialize (Hf Hreg). destruct (plan_find _ _ _ _ (sy_plan _ _ _ _ _ _ _ _ _ S) Hreg) as (m1 & p & m2 & Hsp & Hpp).
    pose proof (plan_row _ _ _ _ _ _ (ho_metrics _ Hh _ _ Hm) Hm Hpp Hc) as Hrow.
    assert (p ∈ pl_mets pl) as Hin. { rewrite Hsp. apply elem_of_app. right. left. }
    pose proof (plan_keys_NoDup _ _ _ _ Hh Hr (sy_plan _ _ _ _ _ _ _ _ _ S) Hin) as HN.
    pose proof (mplan_p_mp _ _ _ Hpp) as Emp. destruct (mplan_mp _ _ _ _ Hm Hpp) as (Hd & _).
    pose proof (sy_start _ _ _ _ _ _ _ _ _ S) as St. pose proof (st_mets _ _ St) as Sm. rewrite Forall_forall in Sm.
    destruct (Sm m) as (_ & _ & Sf). { apply reg_metrics_in. eauto. }
    assert (val_fits (c_val c)) as Hfc by (eapply metric_body_fits; eauto).
    destruct (image_update k pl ad am buf m1 p m2 n (c_val c) v (sy_image _ _ _ _ _ _ _ _ _ S) Hsp HN Hrow) as (off & U1 & U2 & U3 & U4 & U5); auto.
    { rewrite Hd. eapply cell_typed; [apply (ho_metrics _ Hh _ _ Hm)|exact Hc]. }
    { rewrite Hd. exact Ht. }
    rewrite Emp in U1. destruct (sy_upds _ _ _ _ _ _ _ _ _ S _ _ _ U1) as (m0 & c0 & H1 & H2 & H3). assert (m0 = m) as -> by congruence.
    assert (c0 = c) as -> by congruence. clear H1 H2. unfold store_cell in Hs. destruct (go_eqb v (c_val c)).
    + injection Hs as <- <- <-. split; [auto|]. exists pl, buf. rewrite put_cell_id by exact Hc. replace (upd_heap hp mp m) with hp; [exact S|].
      unfold upd_heap. rewrite insert_id by exact Hm. destruct hp; reflexivity.
    + rewrite H3 in Hs. rewrite Hd in U3.
      rewrite (run_update_ok fs (mkClosure wr off) v (md_type (m_desc m)) (mkWriter ino true) buf) in Hs; auto;
        [|apply (sy_writer _ _ _ _ _ _ _ _ _ S)|apply (sy_buf _ _ _ _ _ _ _ _ _ S)].
      injection Hs as <- <- <-. split; [auto|]. exists (mkPlan (pl_doms pl) (m1 ++ set_row p n v :: m2)), (upd_buf buf off v).
      set (c1 := mkCell v _) in *.
      pose proof (plan_ok_set hp r pl mp m n c c1 m1 p m2 Hr (sy_plan _ _ _ _ _ _ _ _ _ S) Hm Hc Hsp Hpp) as HP.
      split; auto.
      * (* startable *)
        destruct St as [T1 T2 T3 T4 T5]. split; auto.
        -- rewrite Forall_forall in T3 |- *. intros x Hx. apply reg_metrics_in in Hx as (mp0 & R0 & Hx). cbn in Hx.
           apply lookup_insert_Some in Hx as [[<- <-]|[_ Hx]]; [|apply T3, reg_metrics_in; eauto].
           rewrite put_cell_desc. destruct (T3 m) as (A & B & C); [apply reg_metrics_in; eauto|]. split_and!; auto.
           apply metric_body_fits. intros n0 c2 H. rewrite (cell_at_put _ _ _ _ _ Hc) in H. case_decide; simplify_eq; [exact Hf|].
           eapply metric_body_fits; eauto.
        -- rewrite Forall_forall in T4 |- *. intros x Hx ip cells d Hb Hdd. apply reg_metrics_in in Hx as (mp0 & R0 & Hx). cbn in Hx.
           apply lookup_insert_Some in Hx as [[<- <-]|[_ Hx]]; [|eapply T4; [apply reg_metrics_in; eauto| |]; eauto].
           pose proof (put_indom m n c1) as E. unfold m_indom in E. rewrite Hb in E. destruct (m_body m) as [|ip0 cells0] eqn:Eb; [discriminate|].
           injection E as <-. eapply T4; [apply reg_metrics_in; eauto|exact Eb|exact Hdd].
      * cbn. apply (sy_writer _ _ _ _ _ _ _ _ _ S).
      * cbn. apply lookup_insert.
      * intros. eapply upd_keep; eauto.
  - (* somebody else's value *)
    split; [intros; contradiction|]. exists pl, buf.
    assert (hsim r hp (upd_heap hp mp (put_cell m n c1))) as HS.
    { eapply hsim_upd; eauto using put_cell_desc, put_indom. intros; contradiction. }
    destruct S as [T1 T2 T3 T4 T5 T6 T7]. split; auto.
    + eapply startable_sim; eauto.
    + eapply plan_ok_sim; eauto.
    + congruence.
    + rewrite S5; [exact T5|]. intros cl x Hcl Hx E. apply Hreg. eapply T7; eauto. all: eapply Hw; eauto.
    + intros. eapply upd_keep; eauto.
Qed.

Lemma sync_run P fs m o fs' m' : mrun P fs m o fs' m' -> forall hp k wr ino pl ad am buf mp,
  heap_ok hp -> reg_ok hp (k_reg k) -> winj fs -> sync hp fs k wr ino pl ad am buf -> h_metrics hp !! mp = Some m ->
  (registered (k_reg k) mp -> forall v, P v -> val_fits v) ->
  (registered (k_reg k) mp -> o <> RFault) /\ exists pl' buf', sync (upd_heap hp mp m') fs' k wr ino pl' ad am buf'.
Proof.
  induction 1 as [fs m o Ho|fs m kd o fs' m' H1 H2 H IH|fs m n c v fs1 c1 o fs' m' Hc Ht HP Hs H IH|fs m n c v o o' fs1 c1 Hc Ht HP Hs H1 H2 H3];
    intros hp k wr ino pl ad am buf mp Hh Hr Hw S Hm HF.
  - split; [auto|]. exists pl, buf. replace (upd_heap hp mp m) with hp; [exact S|]. unfold upd_heap. rewrite insert_id by exact Hm. destruct hp; reflexivity.
  - assert (metric_ok hp (with_kind m kd)) as Hk.
    { destruct (ho_metrics _ Hh _ _ Hm) as [A B C]. split; cbn; auto. destruct (m_kind m); try contradiction. destruct kd; try contradiction. exact C. }
    assert (hsim (k_reg k) hp (upd_heap hp mp (with_kind m kd))) as HS by (eapply hsim_upd; eauto).
    destruct (IH (upd_heap hp mp (with_kind m kd)) k wr ino pl ad am buf mp) as (A & pl' & buf' & B); auto.
    + by apply heap_ok_metric.
    + eapply reg_ok_ext; [exact Hh|apply HS|exact Hr].
    + destruct S as [T1 T2 T3 T4 T5 T6 T7]. split; auto.
      * eapply startable_sim; eauto.
      * eapply plan_ok_sim; eauto.
      * intros mp0 n0 o0 HE. destruct (T6 _ _ _ HE) as (m0 & c0 & K1 & K2 & K3). cbn. destruct (decide (mp = mp0)) as [<-|N].
        -- rewrite lookup_insert. assert (m0 = m) as -> by congruence. exists (with_kind m kd), c0. auto.
        -- rewrite lookup_insert_ne by exact N. eauto.
      * intros mp0 m0 n0 c0 cl K1 K2 K3 K4. cbn in K1. apply lookup_insert_Some in K1 as [[<- <-]|[_ K1]]; eauto.
    + cbn. apply lookup_insert.
    + split; [exact A|]. exists pl', buf'. unfold upd_heap in *. cbn in B. rewrite insert_insert in B. exact B.
  - destruct (sync_store _ _ _ _ _ _ _ _ _ _ _ _ _ _ _ _ _ Hh Hr Hw S Hm Hc Ht (fun R => HF R _ HP) Hs) as (_ & pl1 & buf1 & B1).
    destruct (store_cell_spec _ _ _ _ _ _ Hs) as (S1 & S2 & S3 & S4 & S5).
    assert (metric_ok hp (put_cell m n c1)) as Hk.
    { eapply put_cell_ok; eauto; [apply (ho_metrics _ Hh _ _ Hm)|]. destruct S2 as [-> | ->]; [eapply cell_typed; eauto; apply (ho_metrics _ Hh _ _ Hm)|exact Ht]. }
    destruct (IH (upd_heap hp mp (put_cell m n c1)) k wr ino pl1 ad am buf1 mp) as (A & pl' & buf' & B); auto.
    + by apply heap_ok_metric.
    + eapply reg_ok_ext; [exact Hh| |exact Hr]. eapply upd_heap_ext; eauto using put_cell_desc, put_indom.
    + unfold winj in *. rewrite S3. exact Hw.
    + cbn. apply lookup_insert.
    + split; [exact A|]. exists pl', buf'. unfold upd_heap in *. cbn in B. rewrite insert_insert in B. exact B.
  - destruct (sync_store _ _ _ _ _ _ _ _ _ _ _ _ _ _ _ _ _ Hh Hr Hw S Hm Hc Ht (fun R => HF R _ HP) Hs) as (A & pl1 & buf1 & B1).
    split; [|eauto]. intros R. specialize (A R). contradiction.
Qed.

(** ** Worlds *)
(** The file at client [cid]'s location shows its registry. *)
Definition synced (w : world) (cid : nat) (gen pid : Z) : Prop :=
  exists c r wr ino pl ad am buf, w_clients w !! cid = Some c /\ w_regs w !! cl_reg c = Some r /\ r_mapped r = true /\
    cl_wr c = Some wr /\ w_paths w !! cl_loc c = Some ino /\
    sync (w_heap w) (w_files w) (start_cfg c r gen pid) wr ino pl ad am buf.

(** Calls that leave client [cid] and its objects alone: other clients may be started and
    stopped if they use another file, another registry and (for Start) other metrics;
    stored strings must fit. Every registration call is allowed. *)
Definition keeps (w : world) (cid : nat) (cl : call) : Prop :=
  forall c r, w_clients w !! cid = Some c -> w_regs w !! cl_reg c = Some r ->
  match cl with
  | CUpdate mp op _ => registered r mp -> op_fits op
  | CStart cid' _ _ _ => forall c' r', w_clients w !! cid' = Some c' -> w_regs w !! cl_reg c' = Some r' ->
      cid' <> cid /\ cl_loc c' <> cl_loc c /\ cl_reg c' <> cl_reg c /\ forall mp, registered r mp -> ~ registered r' mp
  | CStop cid' _ _ => forall c', w_clients w !! cid' = Some c' -> cid' <> cid /\ cl_loc c' <> cl_loc c /\ cl_reg c' <> cl_reg c
  | _ => True
  end.

Lemma startable_mapped hp r b : startable hp r -> startable hp (set_mapped r b).
Proof. intros [A B C D E]. split; auto. Qed.
Lemma image_mapped k pl ad am buf b : image k pl ad am buf ->
  image (mkCfg (set_mapped (k_reg k) b) (k_flag k) (k_cluster k) (k_gen k) (k_pid k)) pl ad am buf.
Proof. intros [A B C D E F G]. split; auto. Qed.

Lemma sync_files hp hp' fs fs' k wr ino pl ad am buf : heap_ok hp -> reg_ok hp (k_reg k) -> sync hp fs k wr ino pl ad am buf -> hsim (k_reg k) hp hp' ->
  f_writers fs' !! wr = f_writers fs !! wr -> f_inodes fs' !! ino = f_inodes fs !! ino ->
  (forall mp m n c, h_metrics hp !! mp = Some m -> registered (k_reg k) mp -> cell_at m n = Some c ->
     exists m' c', h_metrics hp' !! mp = Some m' /\ cell_at m' n = Some c' /\ c_upd c' = c_upd c) ->
  (forall mp m' n c', h_metrics hp' !! mp = Some m' -> cell_at m' n = Some c' ->
     c_upd c' = None \/ (exists cl, c_upd c' = Some cl /\ cl_writer cl <> wr) \/
     exists m c, h_metrics hp !! mp = Some m /\ cell_at m n = Some c /\ c_upd c' = c_upd c) ->
  sync hp' fs' k wr ino pl ad am buf.
Proof.
  intros Hh Hr [T1 T2 T3 T4 T5 T6 T7] HS Hw Hi H1 H2. split; auto.
  - eapply startable_sim; eauto.
  - eapply plan_ok_sim; eauto.
  - congruence.
  - congruence.
  - intros mp n o HE. destruct (T6 _ _ _ HE) as (m & c & A & B & C). destruct (H1 mp m n c A) as (m' & c' & A' & B' & C'); [|exact B|].
    + eapply T7; eauto.
    + exists m', c'. split_and!; auto. congruence.
  - intros mp m n c cl A B C D. destruct (H2 _ _ _ _ A B) as [E|[(cl' & E & N)|(m0 & c0 & E1 & E2 & E3)]]; [congruence|congruence|].
    eapply T7; eauto. congruence.
Qed.

Lemma key_in_plan hp r pl mp n : plan_ok hp r pl -> (mp, n) ∈ concat (map met_keys (pl_mets pl)) ->
  registered r mp /\ exists m c, h_metrics hp !! mp = Some m /\ cell_at m n = Some c.
Proof.
  intros [_ (om & M1 & M2)] H. apply elem_of_list_In, in_concat in H as (l & Hl & H). apply in_map_iff in Hl as (p & <- & Hp).
  apply elem_of_list_In in Hp, H. apply elem_of_list_lookup in Hp as [i Hi]. destruct (Forall2_lookup_r _ _ _ _ _ M2 Hi) as (mp' & Ho & Hok).
  assert (registered r mp') as Hreg. { apply reg_mps. rewrite <- M1. apply elem_of_list_lookup. eauto. }
  destruct Hok as (m & Hm & Hok). destruct p as [mp0 d v|mp0 d ip dom0 vals]; cbn [met_keys] in H.
  - apply elem_of_list_singleton in H. injection H as -> ->. destruct Hok as (-> & _ & c & Hb & _). split; [exact Hreg|]. exists m, c. split; [exact Hm|].
    unfold cell_at. rewrite Hb. reflexivity.
  - apply elem_of_list_fmap in H as ([i0 v] & E & H). injection E as -> ->. destruct Hok as (-> & _ & cells & Hb & _ & _ & HF). split; [exact Hreg|].
    rewrite Forall_forall in HF. destruct (HF _ H) as (c & Hc & _). exists m, c. split; [exact Hm|]. unfold cell_at. rewrite Hb. exact Hc.
Qed.

Lemma hsim_upds r w u hp : heap_ok hp -> hsim r hp (set_upds w u hp).
Proof.
  intros Hh. split; [apply set_upds_ok, Hh|]. intros mp m _ Hm. rewrite set_upds_lookup, Hm. eexists. split; [reflexivity|].
  split; [reflexivity|]. cbn. destruct (m_body m) as [c|ip cells]; cbn; [by rewrite set_cell_val|]. do 2 f_equal. apply map_eq. intros i.
  rewrite !lookup_fmap, map_lookup_imap. destruct (cells !! i); cbn; [by rewrite set_cell_val|reflexivity].
Qed.

Lemma start_synced w cid gen pid c r wr ino s : w_ok w -> w_clients w !! cid = Some c -> w_regs w !! cl_reg c = Some r ->
  f_writers (w_files w) !! wr = None -> f_inodes (w_files w) !! ino = None -> startable (w_heap w) r ->
  start_run (w_heap w) (w_offs w) (start_cfg c r gen pid) s -> synced (started w cid c r wr ino s) cid gen pid.
Proof.
  intros W Hc Hr Hwr Hino Hst (pl & Hp & Hrun & _). set (k := start_cfg c r gen pid) in *. change (k_reg k) with r in *.
  pose proof (wo_heap _ W) as Hh. pose proof (wo_regs _ W _ _ Hr) as Hro.
  assert (rtc (rstep (Length (k_reg k))) (start_state (k_reg k) (w_offs w) ∅, start_prog k pl) (s, PRet)) as Hrun'.
  { eapply rtc_subrel; [|exact Hrun]. intros x y. apply gstep_rstep. }
  destruct (start_done k pl (w_offs w) ∅ s (plan_wf_ok _ _ _ Hh Hro Hp Hst) Hrun') as (ad & am & HR).
  exists (mkClient (cl_loc c) (cl_cluster c) (cl_flag c) (cl_reg c) (Some wr)), (set_mapped r true), wr, ino, pl, ad, am, (g_buf s).
  unfold started. cbn [w_clients w_regs w_paths w_heap w_files cl_reg cl_wr cl_loc]. rewrite !lookup_insert. split_and!; auto.
  pose proof (hsim_upds r wr (g_upd s) _ Hh) as HS.
  assert (KI : forall mp n o, g_upd s !! ((mp, n) : vkey) = Some o -> registered r mp /\ exists m c, h_metrics (w_heap w) !! mp = Some m /\ cell_at m n = Some c).
  { intros mp n o H. eapply (key_in_plan _ _ _ _ _ Hp). destruct (decide ((mp, n) ∈ concat (map met_keys (pl_mets pl)))) as [|N]; [assumption|].
    pose proof (sr_upds_other _ _ _ _ _ _ HR _ N) as E. rewrite lookup_empty in E. discriminate (eq_trans (eq_sym H) E). }
  split; cbn [f_writers f_inodes]; rewrite ?lookup_insert; auto.
  - apply startable_mapped. eapply startable_sim; eauto.
  - change (plan_ok (set_upds wr (g_upd s) (w_heap w)) r pl). eapply plan_ok_sim; eauto.
  - apply (image_mapped k _ _ _ _ true). eapply start_image; eauto.
  - intros mp n o HE. change (EUpd (mp, n) o ∈ ev_start k pl ad am) in HE. pose proof (sr_upds _ _ _ _ _ _ HR _ _ HE) as Hu.
    destruct (KI _ _ _ Hu) as (_ & m & c0 & Hm & Hc0). rewrite set_upds_lookup, Hm. cbn [fmap option_fmap option_map]. eexists _, _. split; [reflexivity|].
    rewrite cell_at_upds, Hc0. match goal with |- context [g_upd s !! ?x] => replace (g_upd s !! x) with (Some o) by exact (eq_sym Hu) end.
    cbn. split; reflexivity.
  - intros mp m n c0 cl H1 H2 H3 H4. rewrite set_upds_lookup in H1. destruct (h_metrics (w_heap w) !! mp) as [m0|] eqn:E0; [|discriminate]. cbn in H1.
    injection H1 as <-. rewrite cell_at_upds in H2. destruct (cell_at m0 n) as [c1|] eqn:E1; [|discriminate]. cbn in H2. injection H2 as <-.
    change (registered r mp). unfold set_cell_upd in H3. destruct (g_upd s !! (mp, n)) as [o|] eqn:Eu.
    + apply (KI _ _ _ Eu).
    + destruct (wo_closures _ W _ _ _ _ _ E0 E1 H3) as [x Hx]. congruence.
Qed.

Lemma sync_heap_only w k wr ino pl ad am buf hp' fs' : w_ok w -> reg_ok (w_heap w) (k_reg k) ->
  sync (w_heap w) (w_files w) k wr ino pl ad am buf -> heap_ext (w_heap w) hp' ->
  (forall mp m, h_metrics (w_heap w) !! mp = Some m -> h_metrics hp' !! mp = Some m) ->
  (forall mp m, h_metrics hp' !! mp = Some m -> h_metrics (w_heap w) !! mp = Some m \/ no_closures m) ->
  f_writers fs' !! wr = f_writers (w_files w) !! wr -> f_inodes fs' !! ino = f_inodes (w_files w) !! ino ->
  sync hp' fs' k wr ino pl ad am buf.
Proof.
  intros W Hr S He Ho Hn Hw Hi. eapply sync_files; [apply W|exact Hr|exact S| |exact Hw|exact Hi| |].
  - split; [exact He|]. intros mp m _ Hm. exists m. split; [auto|]. split; reflexivity.
  - intros mp m n c H1 _ H2. exists m, c. auto.
  - intros mp m n c H1 H2. destruct (Hn _ _ H1) as [H|H]; [right; right; exists m, c; auto|left; eauto].
Qed.

(** Everything else preserves it. *)
Theorem synced_step w cid gen pid cl o w' : w_ok w -> synced w cid gen pid -> keeps w cid cl -> wstep w cl o w' -> synced w' cid gen pid.
Proof.
  intros W (c & r & wr & ino & pl & ad & am & buf & Hc & Hr & Hmap & Hwr & Hpath & S) K H. specialize (K _ _ Hc Hr).
  pose proof (wo_regs _ W _ _ Hr) as Hro. set (k := start_cfg c r gen pid) in *.
  assert (forall hp' fs', heap_ext (w_heap w) hp' -> (forall mp m, h_metrics (w_heap w) !! mp = Some m -> h_metrics hp' !! mp = Some m) ->
    (forall mp m, h_metrics hp' !! mp = Some m -> h_metrics (w_heap w) !! mp = Some m \/ no_closures m) ->
    f_writers fs' !! wr = f_writers (w_files w) !! wr -> f_inodes fs' !! ino = f_inodes (w_files w) !! ino -> sync hp' fs' k wr ino pl ad am buf) as SH
    by (intros; eapply sync_heap_only; eauto).
  (* a registration call on registry [rid]: nothing happens to a mapped registry *)
  assert (REG : forall rid r0 o0 hp' r', w_regs w !! rid = Some r0 -> reg_next (w_heap w) r0 o0 hp' r' ->
    synced (mkWorld hp' (<[rid := r']> (w_regs w)) (w_clients w) (w_files w) (w_paths w) (w_offs w) false) cid gen pid).
  { intros rid r0 o0 hp' r' Hr0 N. exists c, r, wr, ino, pl, ad, am, buf. cbn [w_clients w_regs w_paths w_heap w_files]. split_and!; auto.
    - destruct (decide (rid = cl_reg c)) as [->|Hne]; [|by rewrite lookup_insert_ne]. assert (r0 = r) as -> by congruence.
      rewrite lookup_insert. f_equal. apply (rn_frozen _ _ _ _ _ N Hmap).
    - destruct N. apply SH; auto. }
  assert (KEEP : forall w', w_clients w' !! cid = Some c -> w_regs w' !! cl_reg c = Some r -> w_paths w' !! cl_loc c = Some ino ->
    sync (w_heap w') (w_files w') k wr ino pl ad am buf -> synced w' cid gen pid).
  { intros w0 H1 H2 H3 H4. exists c, r, wr, ino, pl, ad, am, buf. split_and!; auto. }
  assert (heap_ext (w_heap w) (w_heap w)) as HX by apply heap_ext_refl.
  destruct H as [w rid Hd Hr0|w cid' name loc rid Hd Hc0 Hr0|w ip name insts desc d Hd Hip Hn|w mp ip m new Hd Hmp Hip Hcr|w rid mp r0 m o r' Hd Hr0 Hm Ha
    |w rid ip r0 d Hd Hr0 Hip|w rid ip name insts r0 o hp' r' Hd Hr0 Hip Ha|w rid mp ip name indom insts val t s u ord r0 o hp' r' Hd Hr0 Hmp Hip Hv Hda Hord Ha
    |w cid' flag c0 r0 Hd Hc0 Hr0|w cid' gen' pid' c0 r0 wr' ino' s Hd Hc0 Hr0 Hwr0 Hino Hs|w cid' gen' pid' c0 r0 ino' s Hd Hc0 Hr0 Hino Hs|w cid' gen' pid' c0 r0 paths inodes Hd Hc0 Hr0 Hs
    |w cid' erase os c0 r0 Hd Hc0 Hr0 Hm|w cid' erase c0 r0 o w' Hd Hc0 Hr0 Hm Hs|w cid' erase c0 r0 wr' fs' Hd Hc0 Hr0 Hm Hwr0 Hfs|w mp op mst m o fs' m' Hd Hm Ha Hu].
  - apply KEEP; auto. cbn. rewrite lookup_insert_ne; congruence.
  - apply KEEP; auto. cbn. rewrite lookup_insert_ne; congruence.
  - apply KEEP; auto. cbn. apply SH; auto. by apply heap_ext_indom.
  - apply KEEP; auto. cbn. destruct (created_ok _ _ _ _ (wo_heap _ W) Hip Hcr) as (C1 & C2 & C3 & C4). apply SH; auto.
    + eapply heap_ext_trans; [exact C4|]. match type of C4 with heap_ext _ ?h => apply (heap_ext_metric h mp m) end. exact Hmp.
    + cbn. intros mp0 m0 H0. rewrite lookup_insert_ne; congruence.
    + cbn. intros mp0 m0 H0. apply lookup_insert_Some in H0 as [[<- <-]|[_ H0]]; auto.
  - rewrite set_regs_eq by exact Hd. eapply REG; [exact Hr0|]. eapply add_metric_next; [apply W|eapply wo_regs; eauto|exact Hm|exact Ha].
  - rewrite set_regs_eq by exact Hd. destruct (add_indom r0 ip d) as [r'|] eqn:E.
    + eapply REG; [exact Hr0|]. eapply add_indom_next; [apply W|eapply wo_regs; eauto|exact Hip|exact E].
    + apply KEEP; auto.
  - eapply REG; [exact Hr0|]. eapply add_indom_by_name_next; [apply W|eapply wo_regs; eauto|exact Hip|exact Ha].
  - eapply REG; [exact Hr0|]. eapply add_by_string_next; [apply W|eapply wo_regs; eauto|exact Hmp|exact Hip|exact Hv|exact Hda|exact Hord|exact Ha].
  - destruct (r_mapped r0) eqn:Em; [apply KEEP; auto|]. apply KEEP; auto. cbn. rewrite lookup_insert_ne; [exact Hc|]. intros ->.
    assert (c0 = c) as -> by congruence. congruence.
  - destruct (K _ _ Hc0 Hr0) as (K1 & K2 & K3 & K4). apply KEEP; cbn; [by rewrite lookup_insert_ne|by rewrite lookup_insert_ne|by rewrite lookup_insert_ne|].
    pose proof (hsim_upds r wr' (g_upd s) _ (wo_heap _ W)) as HS. assert (wr' <> wr) as Nwr. { intros ->. pose proof (sy_writer _ _ _ _ _ _ _ _ _ S). congruence. }
    assert (ino' <> ino) as Nino. { intros ->. pose proof (sy_buf _ _ _ _ _ _ _ _ _ S). congruence. }
    assert (KI : forall mp n o, g_upd s !! ((mp, n) : vkey) = Some o -> registered r0 mp).
    { intros mp n o H. destruct Hs as (pl0 & Hp0 & Hrun & _). apply (key_in_plan _ _ pl0 _ n Hp0).
      destruct (decide ((mp, n) ∈ concat (map met_keys (pl_mets pl0)))) as [|N]; [assumption|]. exfalso.
      assert (rtc (rstep (Length r0)) (start_state r0 (w_offs w) ∅, start_prog (start_cfg c0 r0 gen' pid') pl0) (s, PRet)) as Hrun'.
      { eapply rtc_subrel; [|exact Hrun]. intros x y. apply gstep_rstep. }
      pose proof (start_upds_other (start_cfg c0 r0 gen' pid') pl0 _ _ _ _ Hrun' _ N) as E. rewrite lookup_empty in E. discriminate (eq_trans (eq_sym H) E). }
    eapply sync_files; [apply W|exact Hro|exact S|exact HS| | | |]; cbn [f_writers f_inodes]; rewrite ?lookup_insert_ne by assumption; auto.
    + intros mp m n c1 H1 H2 H3. rewrite set_upds_lookup, H1. cbn [fmap option_fmap option_map]. eexists _, _. split; [reflexivity|]. rewrite cell_at_upds, H3.
      cbn [fmap option_fmap option_map]. split; [reflexivity|]. destruct (g_upd s !! (mp, n)) as [o1|] eqn:Eu; [|reflexivity].
      exfalso. apply (K4 mp H2). eauto.
    + intros mp m' n c' H1 H2. rewrite set_upds_lookup in H1. destruct (h_metrics (w_heap w) !! mp) as [m0|] eqn:E0; [|discriminate]. cbn in H1.
      injection H1 as <-. rewrite cell_at_upds in H2. destruct (cell_at m0 n) as [c1|] eqn:E1; [|discriminate]. cbn in H2. injection H2 as <-.
      destruct (g_upd s !! (mp, n)) as [o|] eqn:Eu.
      * right. left. eexists. split; [reflexivity|]. exact Nwr.
      * right. right. exists m0, c1. auto.
  - destruct (K _ _ Hc0 Hr0) as (K1 & K2 & K3 & K4). apply KEEP; cbn; auto; [by rewrite lookup_insert_ne|].
    apply SH; auto. cbn. rewrite lookup_insert_ne; [reflexivity|]. intros ->. pose proof (sy_buf _ _ _ _ _ _ _ _ _ S). congruence.
  - destruct (K _ _ Hc0 Hr0) as (K1 & K2 & K3 & K4).
    assert (paths !! cl_loc c = Some ino /\ inodes !! ino = f_inodes (w_files w) !! ino) as [G1 G2].
    { destruct Hs as [E|[E|(i & b & Hi & _ & -> & ->)]]; simplify_eq; auto.
      - split; [|reflexivity]. by rewrite lookup_delete_ne.
      - rewrite !lookup_insert_ne; auto. intros ->. pose proof (sy_buf _ _ _ _ _ _ _ _ _ S). congruence. }
    apply KEEP; cbn; auto.
  - apply KEEP; auto.
  - destruct (K _ Hc0) as (K1 & K2 & K3). unfold stopped in Hs.
    assert (forall wr', cl_wr c0 = Some wr' -> f_writers (unmap_writer (w_files w) wr') !! wr = f_writers (w_files w) !! wr) as U.
    { intros wr' E. unfold unmap_writer. destruct (f_writers (w_files w) !! wr') eqn:Ew; [|reflexivity]. cbn. rewrite lookup_insert_ne; [reflexivity|].
      intros ->. apply K1. eapply (wo_cinj _ W); eauto. }
    destruct (cl_wr c0) as [wr'|] eqn:Ewr.
    + destruct erase; injection Hs as <- <-; apply KEEP; cbn; auto; rewrite ?lookup_insert_ne, ?lookup_delete_ne by auto; auto;
        apply SH; auto; by rewrite unmap_inodes.
    + injection Hs as <- <-. apply KEEP; cbn; auto. by rewrite lookup_insert_ne.
  - destruct (K _ Hc0) as (K1 & K2 & K3).
    apply KEEP; cbn; auto; [by rewrite lookup_insert_ne|by rewrite lookup_insert_ne|]. destruct Hfs as [->| ->]; [apply SH; auto|]. apply SH; auto.
    + unfold unmap_writer. destruct (f_writers (w_files w) !! wr') eqn:Ew; [|reflexivity]. cbn. rewrite lookup_insert_ne; [reflexivity|].
      intros ->. apply K1. eapply (wo_cinj _ W); eauto.
    + by rewrite unmap_inodes.
  - pose proof (ho_metrics _ (wo_heap _ W) _ _ Hm) as Hmo. destruct (update_runs _ _ _ _ _ _ _ _ Hmo Ha Hu) as [R1 R2].
    assert (winj (w_files w)) as Hw by exact (wo_inj _ W).
    assert (exists pl' buf', sync (upd_heap (w_heap w) mp m') fs' k wr ino pl' ad am buf') as (pl' & buf' & S').
    { destruct (decide (mp ∈ (map_to_list (r_metrics r)).*2)) as [Hreg|Hreg]; rewrite reg_mps in Hreg.
      - eapply (sync_run _ _ _ _ _ _ (R2 (K Hreg))); eauto. apply W.
      - eapply (sync_run _ _ _ _ _ _ R1); eauto; [apply W|]. intros; contradiction. }
    exists c, r, wr, ino, pl', ad, am, buf'. cbn. split_and!; auto.
Qed.
