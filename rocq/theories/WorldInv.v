(** Invariants of all histories of API calls. *)
From Verif Require Import Base BaseFacts Floats GoVal MetricType ByteWriter Hash Units Indom Metrics Registry Prog
  Client ProgProofs View RegInv World OpRuns RegFacts.

Record w_ok (w : world) : Prop := {
  wo_heap : heap_ok (w_heap w);
  wo_hist : h_indoms (w_heap w) !! 0%nat = Some histogramIndom;
  wo_regs : forall rid r, w_regs w !! rid = Some r -> reg_ok (w_heap w) r;
  wo_closures : forall mp m n c cl, h_metrics (w_heap w) !! mp = Some m -> cell_at m n = Some c -> c_upd c = Some cl ->
    is_Some (f_writers (w_files w) !! cl_writer cl);
  wo_inodes : forall wr x, f_writers (w_files w) !! wr = Some x -> is_Some (f_inodes (w_files w) !! wr_inode x);
  wo_inj : forall wr wr' x x', f_writers (w_files w) !! wr = Some x -> f_writers (w_files w) !! wr' = Some x' ->
    wr_inode x = wr_inode x' -> wr = wr';
  wo_clients : forall cid c, w_clients w !! cid = Some c -> is_Some (w_regs w !! cl_reg c) /\
    forall wr, cl_wr c = Some wr -> exists x, f_writers (w_files w) !! wr = Some x /\ wr_live x = true;
  wo_cinj : forall cid cid' c c' wr, w_clients w !! cid = Some c -> w_clients w !! cid' = Some c' ->
    cl_wr c = Some wr -> cl_wr c' = Some wr -> cid = cid';
  wo_paths : forall p ino, w_paths w !! p = Some ino -> is_Some (f_inodes (w_files w) !! ino) }.

(** ** Stores *)
Lemma cell_at_put m n c c0 n' : cell_at m n = Some c0 ->
  cell_at (put_cell m n c) n' = if decide (n' = n) then Some c else cell_at m n'.
Proof.
  unfold cell_at, put_cell. destruct (m_body m) as [c1|ip cells] eqn:E; destruct n as [i|]; try discriminate; intros H; cbn.
  - destruct n' as [i'|]; case_decide; try congruence; try reflexivity.
  - destruct n' as [i'|]; case_decide; simplify_eq; rewrite ?lookup_insert, ?lookup_insert_ne by congruence; reflexivity.
Qed.

Lemma put_indom m n c : m_indom (put_cell m n c) = m_indom m.
Proof. unfold m_indom, put_cell. destruct (m_body m) eqn:E, n; cbn; rewrite ?E; reflexivity. Qed.

Lemma with_writer_frame fs w f o fs' : with_writer fs w f = (o, fs') -> f_writers fs' = f_writers fs /\
  (forall ino, is_Some (f_inodes fs' !! ino) <-> is_Some (f_inodes fs !! ino)) /\
  (forall ino, (forall x, f_writers fs !! w = Some x -> wr_inode x <> ino) -> f_inodes fs' !! ino = f_inodes fs !! ino).
Proof.
  unfold with_writer. destruct (f_writers fs !! w) as [wr|] eqn:Ew; [|intros; simplify_eq; split_and!; auto; tauto].
  destruct (wr_live wr); [|intros; simplify_eq; split_and!; auto; tauto].
  destruct (f_inodes fs !! wr_inode wr) as [buf|] eqn:Ei; [|intros; simplify_eq; split_and!; auto; tauto].
  assert (forall b, (forall ino, is_Some (<[wr_inode wr := b]> (f_inodes fs) !! ino) <-> is_Some (f_inodes fs !! ino)) /\
    (forall ino, (forall x, Some wr = Some x -> wr_inode x <> ino) -> <[wr_inode wr := b]> (f_inodes fs) !! ino = f_inodes fs !! ino)) as G.
  { intros b. split.
    - intros ino. destruct (decide (ino = wr_inode wr)) as [->|N]; [rewrite lookup_insert, Ei; split; eauto|rewrite lookup_insert_ne by congruence; tauto].
    - intros ino H. rewrite lookup_insert_ne; [reflexivity|]. apply H. reflexivity. }
  destruct (f buf) as [b p|b p|b]; intros; simplify_eq; cbn [f_writers f_inodes]; (split; [reflexivity|apply G]).
Qed.

Lemma run_update_frame fs cl v o fs' : run_update fs cl v = (o, fs') -> f_writers fs' = f_writers fs /\
  (forall ino, is_Some (f_inodes fs' !! ino) <-> is_Some (f_inodes fs !! ino)) /\
  (forall ino, (forall x, f_writers fs !! cl_writer cl = Some x -> wr_inode x <> ino) -> f_inodes fs' !! ino = f_inodes fs !! ino).
Proof.
  unfold run_update. destruct v; try apply with_writer_frame.
  destruct (with_writer fs (cl_writer cl) (fun b => bw_must_write b (zeros StringLength) (cl_off cl))) as [o1 fs1] eqn:E1.
  destruct (with_writer_frame _ _ _ _ _ E1) as (A1 & A2 & A3). destruct o1; intros H; simplify_eq; auto.
  destruct (with_writer_frame _ _ _ _ _ H) as (B1 & B2 & B3). split_and!.
  - congruence.
  - intros ino. rewrite B2, A2. reflexivity.
  - intros ino Hi. rewrite B3, A3; auto. intros x Hx. apply Hi. congruence.
Qed.

Lemma store_cell_spec fs c v o fs' c' : store_cell fs c v = (o, fs', c') ->
  c_upd c' = c_upd c /\ (c_val c' = c_val c \/ c_val c' = v) /\ f_writers fs' = f_writers fs /\
  (forall ino, is_Some (f_inodes fs' !! ino) <-> is_Some (f_inodes fs !! ino)) /\
  (forall ino, (forall cl x, c_upd c = Some cl -> f_writers fs !! cl_writer cl = Some x -> wr_inode x <> ino) -> f_inodes fs' !! ino = f_inodes fs !! ino).
Proof.
  unfold store_cell. destruct (go_eqb v (c_val c)); [intros; simplify_eq; split_and!; auto; tauto|].
  destruct (c_upd c) as [cl|] eqn:E.
  - destruct (run_update fs cl v) as [o1 fs1] eqn:E1. destruct (run_update_frame _ _ _ _ _ E1) as (A1 & A2 & A3).
    destruct o1; intros; simplify_eq; cbn; split_and!; auto; intros ino Hi; apply A3; intros x Hx; eapply Hi; eauto.
  - intros; simplify_eq; cbn; split_and!; auto; tauto.
Qed.

Lemma put_cell_ok hp m n c c' : metric_ok hp m -> cell_at m n = Some c -> vtyped (md_type (m_desc m)) (c_val c') -> metric_ok hp (put_cell m n c').
Proof.
  intros [H1 H2 H3] Hc Hv. unfold put_cell, cell_at in *. destruct (m_body m) as [c0|ip cells] eqn:E; destruct n as [i|]; try discriminate.
  - split; cbn; auto.
  - split; cbn; auto.
    destruct H2 as (d & Hd & K1 & K2). exists d. split_and!; auto.
    + rewrite dom_insert_L. rewrite <- K1. apply elem_of_dom_2 in Hc. set_solver.
    + intros n0 c0 H. apply lookup_insert_Some in H as [[<- <-]|[_ H]]; eauto.
Qed.

Lemma cell_typed hp m n c : metric_ok hp m -> cell_at m n = Some c -> vtyped (md_type (m_desc m)) (c_val c).
Proof.
  intros [H1 H2 H3] Hc. unfold cell_at in *. destruct (m_body m) as [c0|ip cells] eqn:E; destruct n as [i|]; simplify_eq; cbn in H2; auto.
  destruct H2 as (d & _ & _ & H). eauto.
Qed.

Lemma mrun_frame P hp fs m o fs' m' : mrun P fs m o fs' m' -> metric_ok hp m ->
  metric_ok hp m' /\ m_desc m' = m_desc m /\ m_indom m' = m_indom m /\
  (forall n, c_upd <$> cell_at m' n = c_upd <$> cell_at m n) /\ f_writers fs' = f_writers fs /\
  (forall ino, is_Some (f_inodes fs' !! ino) <-> is_Some (f_inodes fs !! ino)) /\
  (forall ino, (forall n c cl x, cell_at m n = Some c -> c_upd c = Some cl -> f_writers fs !! cl_writer cl = Some x -> wr_inode x <> ino) ->
     f_inodes fs' !! ino = f_inodes fs !! ino).
Proof.
  assert (forall m n c, m_desc (put_cell m n c) = m_desc m) as PD by (intros m0 [] c; unfold put_cell; destruct (m_body m0); reflexivity).
  assert (forall m n c c1, cell_at m n = Some c -> c_upd c1 = c_upd c -> forall n', c_upd <$> cell_at (put_cell m n c1) n' = c_upd <$> cell_at m n') as PU.
  { intros m0 n c c1 Hc Hu n'. rewrite (cell_at_put _ _ _ _ _ Hc). case_decide; [|reflexivity]. subst. rewrite Hc. cbn. congruence. }
  induction 1 as [fs m o Ho|fs m k o fs' m' H1 H2 H IH|fs m n c v fs1 c1 o fs' m' Hc Ht HP Hs H IH|fs m n c v o o' fs1 c1 Hc Ht HP Hs H1 H2 H3]; intros Hm.
  - split_and!; auto; tauto.
  - assert (metric_ok hp (with_kind m k)) as Hm2.
    { destruct Hm as [A B C]. split; cbn; auto. destruct (m_kind m); try contradiction. destruct k; try contradiction. exact C. }
    destruct (IH Hm2) as (A1 & A2 & A3 & A4 & A5 & A6 & A7). split_and!; auto.
  - destruct (store_cell_spec _ _ _ _ _ _ Hs) as (S1 & S2 & S3 & S4 & S5).
    assert (metric_ok hp (put_cell m n c1)) as Hm2.
    { eapply put_cell_ok; eauto. destruct S2 as [-> | ->]; [eapply cell_typed; eauto|exact Ht]. }
    destruct (IH Hm2) as (A1 & A2 & A3 & A4 & A5 & A6 & A7). rewrite PD in A2. rewrite put_indom in A3. split_and!; auto; try congruence.
    + intros n'. rewrite A4. eapply PU; eauto.
    + intros ino. rewrite A6, S4. reflexivity.
    + intros ino Hi. rewrite A7, S5; eauto. intros n' c' cl x Hc' Hcl Hx.
      pose proof (PU _ _ _ _ Hc S1 n') as E. rewrite Hc' in E. cbn in E. destruct (cell_at m n') as [c0|] eqn:E0; [|discriminate]. cbn in E.
      eapply Hi; [exact E0| |]; [|rewrite <- S3; exact Hx]. congruence.
  - destruct (store_cell_spec _ _ _ _ _ _ Hs) as (S1 & S2 & S3 & S4 & S5). rewrite PD, put_indom. split_and!; auto.
    + eapply put_cell_ok; eauto. destruct S2 as [-> | ->]; [eapply cell_typed; eauto|exact Ht].
    + eapply PU; eauto.
    + intros ino Hi. apply S5. eauto.
Qed.

(** ** Heaps after each kind of step *)
Lemma heap_ext_refl hp : heap_ext hp hp.
Proof. split; eauto 10. Qed.

Lemma heap_ext_indom hp ip d : h_indoms hp !! ip = None -> heap_ext hp (mkHeap (<[ip := d]> (h_indoms hp)) (h_metrics hp)).
Proof. intros H. split; cbn; [|eauto 10]. intros ip' d' H'. rewrite lookup_insert_ne; congruence. Qed.

Lemma heap_ext_metric hp mp m : h_metrics hp !! mp = None -> heap_ext hp (mkHeap (h_indoms hp) (<[mp := m]> (h_metrics hp))).
Proof. intros H. split; cbn; [auto|]. intros mp' m' H'. exists m'. rewrite lookup_insert_ne by congruence. auto. Qed.

Lemma heap_ext_trans h1 h2 h3 : heap_ext h1 h2 -> heap_ext h2 h3 -> heap_ext h1 h3.
Proof.
  intros [A B] [C D]. split; [auto|]. intros mp m H. destruct (B _ _ H) as (m' & H' & E1 & E2). destruct (D _ _ H') as (m2 & H2 & F1 & F2).
  exists m2. split_and!; congruence.
Qed.

Lemma heap_ok_indom hp ip d : heap_ok hp -> h_indoms hp !! ip = None -> indom_ok d -> heap_ok (mkHeap (<[ip := d]> (h_indoms hp)) (h_metrics hp)).
Proof.
  intros [A B] H Hd. split; cbn.
  - intros ip' d' H'. apply lookup_insert_Some in H' as [[<- <-]|[_ H']]; eauto.
  - intros mp m Hm. eapply metric_ok_ext; [|eauto]. intros ip' d' H'. cbn. rewrite lookup_insert_ne; congruence.
Qed.

Lemma heap_ok_metric hp mp m : heap_ok hp -> metric_ok hp m -> heap_ok (mkHeap (h_indoms hp) (<[mp := m]> (h_metrics hp))).
Proof.
  intros [A B] Hm. split; cbn; [exact A|]. intros mp' m' H'. apply lookup_insert_Some in H' as [[<- <-]|[_ H']].
  - eapply metric_ok_ext; [|exact Hm]. auto.
  - eapply metric_ok_ext; [|eauto]. auto.
Qed.

(** Constructors yield well-formed metrics without closures. *)
Definition no_closures (m : metric) : Prop := forall n c, cell_at m n = Some c -> c_upd c = None.

Lemma new_single_nc v d k m : new_single v d k = Some m -> no_closures m.
Proof. unfold new_single. destruct (IsCompatible _ _); [|discriminate]. intros H n c Hc. simplify_eq. destruct n; cbn in Hc; by simplify_eq. Qed.

Lemma new_inst_nc vals ip dom d k ord m : new_inst_body vals ip dom d k ord = Some m -> no_closures m.
Proof.
  unfold new_inst_body. destruct (_ =? _); [|discriminate]. destruct (init_vals _ _ _ _) as [cells|] eqn:E; [|discriminate].
  intros H n c Hc. simplify_eq. destruct n as [i|]; [|discriminate]. cbn in Hc. destruct (init_vals_spec _ _ _ _ _ E) as [_ H2]. rewrite H2 in Hc.
  case_decide; [|rewrite lookup_empty in Hc; discriminate]. destruct (vals !! i); cbn in Hc; by simplify_eq.
Qed.


Ltac ranges := unfold desc_args, in_signed, in_unsigned; cbv -[Z.le Z.lt]; lia.

Lemma created_ok hp ip m new : heap_ok hp -> h_indoms hp !! ip = None -> created hp ip m new ->
  let hp' := mkHeap (match new with Some d => <[ip := d]> (h_indoms hp) | None => h_indoms hp end) (h_metrics hp) in
  heap_ok hp' /\ metric_ok hp' m /\ no_closures m /\ heap_ext hp hp'.
Proof.
  intros Hh Hip Hc hp'.
  assert (desc_args Int64Type CounterSemantics OneUnit) as DA1 by ranges.
  assert (desc_args DoubleType InstantSemantics OneUnit) as DA2 by ranges.
  assert (forall u, in_unsigned 32 u -> desc_args DoubleType DiscreteSemantics u) as DA3 by (intros; split_and!; auto; ranges).
  assert (forall u, in_unsigned 32 u -> desc_args DoubleType InstantSemantics u) as DA4 by (intros; split_and!; auto; ranges).
  assert (new = None -> heap_ok hp' /\ heap_ext hp hp') as HN.
  { intros ->. unfold hp'. destruct hp as [hi hm]. cbn. split; [exact Hh|apply heap_ext_refl]. }
  assert (forall d, new = Some d -> indom_ok d -> heap_ok hp' /\ heap_ext hp hp') as HS.
  { intros d -> Hd. unfold hp'. split; [by apply heap_ok_indom|by apply heap_ext_indom]. }
  destruct Hc as [v name t s u desc m Hw Hda Hm|v name desc m Hw Hm|v name desc m Hw Hm|name u desc m Hu Hm|vals name ip' d t s u desc ord m Hw Hda Hd Hord Hm
    |vals name desc keys ord d m Hw Hk Hord Hm|vals name desc keys ord d m Hw Hk Hord Hm|name low high sig u desc d ord pars m Hu Hd Hord Hm].
  1-5,8: destruct HN as [HN1 HN2]; [reflexivity|]; split; [exact HN1|]; cut (metric_ok hp' m /\ no_closures m); [tauto|].
  - unfold NewPCPSingletonMetric in Hm. destruct (new_desc name t s u desc) as [d|] eqn:Ed; [|discriminate].
    destruct (new_desc_ok _ _ _ _ _ _ Hda Ed) as (D1 & D2 & D3 & _). split; [|by eapply new_single_nc].
    eapply new_single_ok; eauto. exact I.
  - unfold NewPCPCounter in Hm. destruct (new_desc _ _ _ _ desc) as [d|] eqn:Ed; [|discriminate].
    destruct (new_desc_ok _ _ _ _ _ _ DA1 Ed) as (D1 & D2 & D3 & _). split; [|by eapply new_single_nc].
    eapply new_single_ok; eauto; [exact Hw|exact D3].
  - unfold NewPCPGauge in Hm. destruct (new_desc _ _ _ _ desc) as [d|] eqn:Ed; [|discriminate].
    destruct (new_desc_ok _ _ _ _ _ _ DA2 Ed) as (D1 & D2 & D3 & _). split; [|by eapply new_single_nc].
    eapply new_single_ok; eauto; [exact Hw|exact D3].
  - unfold NewPCPTimer in Hm. destruct (new_desc _ _ _ _ desc) as [d|] eqn:Ed; [|discriminate].
    destruct (new_desc_ok _ _ _ _ _ _ (DA3 _ Hu) Ed) as (D1 & D2 & D3 & _). split; [|by eapply new_single_nc].
    eapply new_single_ok; eauto; [cbv; intuition discriminate|exact D3].
  - unfold NewPCPInstanceMetric in Hm. destruct (new_desc _ _ _ _ desc) as [dd|] eqn:Ed; [|discriminate].
    destruct (new_desc_ok _ _ _ _ _ _ Hda Ed) as (D1 & D2 & D3 & _). split; [|by eapply new_inst_nc].
    eapply new_inst_ok; eauto. exact I.
  - unfold NewPCPHistogram in Hm. destruct (high <? low); [discriminate|]. destruct (new_desc _ _ _ _ desc) as [dd|] eqn:Ed; [|discriminate].
    destruct (new_inst_body _ _ _ dd _ ord) as [m0|] eqn:Em; [|discriminate]. simplify_eq.
    destruct (new_desc_ok _ _ _ _ _ _ (DA4 _ Hu) Ed) as (D1 & D2 & D3 & _). split; [|by eapply new_inst_nc].
    eapply new_inst_ok; [exact D1| | |exact Hd|exact Hord|exact Em].
    + intros i v Hv. apply elem_of_list_to_map_2 in Hv. apply elem_of_list_fmap in Hv as (x & E & _). simplify_eq. cbv. intuition discriminate.
    + split; [exact D3|reflexivity].
  - unfold NewPCPCounterVector, generate_instance_metric in Hm. destruct (new_indom _ keys []) as [d0|] eqn:Ei; [|discriminate].
    destruct (new_desc _ _ _ _ desc) as [dd|] eqn:Ed; [|discriminate]. destruct (new_inst_body _ _ _ dd _ ord) as [m0|] eqn:Em; [|discriminate]. simplify_eq.
    destruct (new_indom_ok _ _ _ _ Ei) as (I1 & _). destruct (HS _ eq_refl I1) as [K1 K2]. split; [exact K1|]. split; [|split; [by eapply new_inst_nc|exact K2]].
    destruct (new_desc_ok _ _ _ _ _ _ DA1 Ed) as (D1 & D2 & D3 & _).
    eapply new_inst_ok; [exact D1| | | |exact Hord|exact Em].
    + intros i v Hv. rewrite lookup_fmap in Hv. destruct (vals !! i) as [z|] eqn:Ez; [|discriminate]. cbn in Hv. simplify_eq. apply (Hw _ _ Ez).
    + exact D3.
    + cbn. apply lookup_insert.
  - unfold NewPCPGaugeVector, generate_instance_metric in Hm. destruct (new_indom _ keys []) as [d0|] eqn:Ei; [|discriminate].
    destruct (new_desc _ _ _ _ desc) as [dd|] eqn:Ed; [|discriminate]. destruct (new_inst_body _ _ _ dd _ ord) as [m0|] eqn:Em; [|discriminate]. simplify_eq.
    destruct (new_indom_ok _ _ _ _ Ei) as (I1 & _). destruct (HS _ eq_refl I1) as [K1 K2]. split; [exact K1|]. split; [|split; [by eapply new_inst_nc|exact K2]].
    destruct (new_desc_ok _ _ _ _ _ _ DA2 Ed) as (D1 & D2 & D3 & _).
    eapply new_inst_ok; [exact D1| | | |exact Hord|exact Em].
    + intros i v Hv. rewrite lookup_fmap in Hv. destruct (vals !! i) as [z|] eqn:Ez; [|discriminate]. cbn in Hv. simplify_eq. apply (Hw _ _ Ez).
    + exact D3.
    + cbn. apply lookup_insert.
Qed.

(** ** Registration *)
Record reg_next (hp : heap) (r : registry) (o : outcome) (hp' : heap) (r' : registry) : Prop := {
  rn_heap : heap_ok hp';
  rn_ext : heap_ext hp hp';
  rn_reg : reg_ok hp' r';
  rn_mapped : r_mapped r' = r_mapped r;
  rn_frozen : r_mapped r = true -> r' = r /\ o <> ROk;
  rn_old : forall mp m, h_metrics hp !! mp = Some m -> h_metrics hp' !! mp = Some m;
  rn_new : forall mp m, h_metrics hp' !! mp = Some m -> h_metrics hp !! mp = Some m \/ no_closures m;
  rn_keep : r_metrics r ⊆ r_metrics r' /\ r_indoms r ⊆ r_indoms r';
  rn_o : o = ROk \/ o = RErr }.

Lemma reg_next_refl hp r : heap_ok hp -> reg_ok hp r -> reg_next hp r RErr hp r.
Proof. intros. split; auto using heap_ext_refl. Qed.

Lemma add_indom_next hp r ip d r' : heap_ok hp -> reg_ok hp r -> h_indoms hp !! ip = Some d -> add_indom r ip d = Some r' -> reg_next hp r ROk hp r'.
Proof.
  intros Hh Hr Hd H. destruct (add_indom_ok _ _ _ _ _ Hr Hd H) as (A1 & A2 & A3 & A4 & A5 & A6). split; auto using heap_ext_refl.
  - intros E. congruence.
  - rewrite A2, A5. split; [reflexivity|]. by apply insert_subseteq.
Qed.

Lemma add_metric_doms hp r mp m o r' : add_metric hp r mp m = (o, r') -> r_indoms r ⊆ r_indoms r'.
Proof.
  unfold add_metric. repeat case_match; intros; simplify_eq; cbn; auto.
  match goal with H : add_indom _ _ _ = Some _ |- _ => unfold add_indom in H end. repeat case_match; simplify_eq; cbn.
  apply insert_subseteq, not_has. congruence.
Qed.

Lemma add_metric_next hp r mp m o r' : heap_ok hp -> reg_ok hp r -> h_metrics hp !! mp = Some m -> add_metric hp r mp m = (o, r') -> reg_next hp r o hp r'.
Proof.
  intros Hh Hr Hm H. pose proof (add_metric_doms _ _ _ _ _ _ H) as HD. destruct (add_metric_ok _ _ _ _ _ _ Hr (ho_metrics _ Hh _ _ Hm) Hm H) as (A1 & A2 & A3).
  destruct A3 as [[-> ->]|(-> & A3 & A4 & A5)]; [by apply reg_next_refl|].
  split; auto using heap_ext_refl.
  - intros E. congruence.
  - rewrite A5. split; [|exact HD]. by apply insert_subseteq.
Qed.

Lemma add_metric_heap hp hp' r mp m : h_indoms hp' = h_indoms hp -> add_metric hp' r mp m = add_metric hp r mp m.
Proof. unfold add_metric. intros ->. reflexivity. Qed.

Lemma add_new_metric_next hp r mp m o r' : heap_ok hp -> reg_ok hp r -> h_metrics hp !! mp = None -> metric_ok hp m -> no_closures m ->
  add_metric hp r mp m = (o, r') ->
  reg_next hp r o (match o with ROk => mkHeap (h_indoms hp) (<[mp := m]> (h_metrics hp)) | _ => hp end) r'.
Proof.
  intros Hh Hr Hn Hm Hc H. set (hp' := mkHeap (h_indoms hp) (<[mp := m]> (h_metrics hp))).
  pose proof (heap_ok_metric _ mp _ Hh Hm) as Hh'. fold hp' in Hh'. pose proof (heap_ext_metric hp mp m Hn) as He. fold hp' in He.
  pose proof (reg_ok_ext _ _ _ Hh He Hr) as Hr'. rewrite <- (add_metric_heap hp hp') in H by reflexivity.
  assert (h_metrics hp' !! mp = Some m) as Hmp by apply lookup_insert.
  pose proof (add_metric_next _ _ _ _ _ _ Hh' Hr' Hmp H) as N. destruct (add_metric_ok _ _ _ _ _ _ Hr' (ho_metrics _ Hh' _ _ Hmp) Hmp H) as (_ & _ & A3).
  destruct A3 as [[-> ->]|(-> & _)]; [by apply reg_next_refl|].
  destruct N. split; auto.
  - intros mp' m' H'. unfold hp'. cbn. rewrite lookup_insert_ne; congruence.
  - intros mp' m' H'. unfold hp' in H'. cbn in H'. apply lookup_insert_Some in H' as [[<- <-]|[_ H']]; auto.
Qed.

Lemma add_indom_by_name_next hp r ip name insts o hp' r' : heap_ok hp -> reg_ok hp r -> h_indoms hp !! ip = None ->
  add_indom_by_name hp r ip name insts = (o, hp', r') -> reg_next hp r o hp' r' /\ h_metrics hp' = h_metrics hp /\
  (o = ROk -> exists d, new_indom name insts [] = Some d /\ h_indoms hp' !! ip = Some d /\ add_indom r ip d = Some r').
Proof.
  intros Hh Hr Hip. unfold add_indom_by_name.
  assert (forall rr, rr = (RErr, hp, r) -> rr = (o, hp', r') -> reg_next hp r o hp' r' /\ h_metrics hp' = h_metrics hp /\
    (o = ROk -> exists d, new_indom name insts [] = Some d /\ h_indoms hp' !! ip = Some d /\ add_indom r ip d = Some r')) as G.
  { intros rr E1 E2. simplify_eq. split; [by apply reg_next_refl|]. split; [reflexivity|discriminate]. }
  destruct (HasInstanceDomain r name); [by apply G|]. destruct (new_indom name insts []) as [d|] eqn:Ed; [|by apply G].
  destruct (add_indom r ip d) as [r1|] eqn:Ea; [|by apply G]. intros H. simplify_eq. clear G.
  destruct (new_indom_ok _ _ _ _ Ed) as (D1 & _).
  pose proof (heap_ok_indom _ ip _ Hh Hip D1) as Hh'. pose proof (heap_ext_indom hp ip d Hip) as He. pose proof (reg_ok_ext _ _ _ Hh He Hr) as Hr'.
  assert (h_indoms (mkHeap (<[ip := d]> (h_indoms hp)) (h_metrics hp)) !! ip = Some d) as Hd by apply lookup_insert.
  destruct (add_indom_next _ _ _ _ _ Hh' Hr' Hd Ea). split_and!; [split; auto|reflexivity|]. intros _. exists d. auto.
Qed.

Lemma reg_next_trans hp r o1 hp1 r1 o hp2 r2 : reg_next hp r o1 hp1 r1 -> reg_next hp1 r1 o hp2 r2 -> (o1 = ROk) -> reg_next hp r o hp2 r2.
Proof.
  intros [A1 A2 A3 A4 A5 A6 A7 A8 A9] [B1 B2 B3 B4 B5 B6 B7 B8 B9] Ho. split; auto.
  - by eapply heap_ext_trans.
  - congruence.
  - intros E. destruct (A5 E) as [_ N]. contradiction.
  - intros mp m H. destruct (B7 _ _ H) as [H'|]; eauto.
  - destruct A8, B8. split; etransitivity; eauto.
Qed.

Lemma add_instance_with_next hp r mp ip name vals t s u ord d o hp' r' : heap_ok hp -> reg_ok hp r -> h_metrics hp !! mp = None ->
  h_indoms hp !! ip = Some d -> ord ≡ₚ (map_to_list (id_insts d)).*1 -> desc_args t s u -> (forall i v, vals !! i = Some v -> wf_goval v) ->
  add_instance_with hp r mp ip name vals t s u ord = (o, hp', r') -> reg_next hp r o hp' r'.
Proof.
  intros Hh Hr Hn Hd Hord Hda Hw. unfold add_instance_with. rewrite Hd.
  destruct (NewPCPInstanceMetric vals name ip d t s u [] ord) as [m|] eqn:Em; [|intros; simplify_eq; by apply reg_next_refl].
  assert (metric_ok hp m /\ no_closures m) as [Hm Hc].
  { unfold NewPCPInstanceMetric in Em. destruct (new_desc _ _ _ _ []) as [dd|] eqn:Ed; [|discriminate].
    destruct (new_desc_ok _ _ _ _ _ _ Hda Ed) as (D1 & D2 & D3 & _). split; [|by eapply new_inst_nc].
    eapply new_inst_ok; eauto. exact I. }
  destruct (add_metric hp r mp m) as [o1 r1] eqn:Ea. pose proof (add_new_metric_next _ _ _ _ _ _ Hh Hr Hn Hm Hc Ea) as N.
  destruct o1; intros; simplify_eq; exact N.
Qed.

Lemma add_by_string_next hp r mp ip name indom insts val t s u ord o hp' r' : heap_ok hp -> reg_ok hp r ->
  h_metrics hp !! mp = None -> h_indoms hp !! ip = None -> wf_sarg val -> desc_args t s u -> by_string_ord hp r indom insts ord ->
  add_by_string hp r mp ip name indom insts val t s u ord = (o, hp', r') -> reg_next hp r o hp' r'.
Proof.
  intros Hh Hr Hn Hip Hw Hda Hord. unfold add_by_string. destruct insts as [l|].
  - cbn [by_string_ord] in Hord. unfold add_instance_by_string. destruct val as [v|vals]; [intros; simplify_eq; by apply reg_next_refl|]. cbn in Hw.
    destruct (r_indoms r !! indom) as [ip'|] eqn:Ei.
    + destruct (ro_indoms _ _ Hr _ _ Ei) as (d & Hd & Hnm). rewrite Hd. destruct (match_instances d l); [|intros; simplify_eq; by apply reg_next_refl].
      intros H. eapply add_instance_with_next; [exact Hh|exact Hr|exact Hn|exact Hd|apply Hord, Hd|exact Hda|exact Hw|exact H].
    + destruct (add_indom_by_name hp r ip indom l) as [[o1 hp1] r1] eqn:E1.
      destruct (add_indom_by_name_next _ _ _ _ _ _ _ _ Hh Hr Hip E1) as (N & K1 & K2).
      destruct o1; try (intros; simplify_eq; exact N). intros H. destruct (K2 eq_refl) as (d & D1 & D2 & D3).
      eapply reg_next_trans; [exact N| |reflexivity]. eapply add_instance_with_next; [exact (rn_heap _ _ _ _ _ N)|exact (rn_reg _ _ _ _ _ N)| |exact D2| | | |exact H]; auto.
      rewrite K1. exact Hn.
  - unfold add_singleton_by_string. set (v := match val with AVal v => v | AInst _ => VOther end).
    destruct (NewPCPSingletonMetric v name t s u []) as [m|] eqn:Em; [|intros; simplify_eq; by apply reg_next_refl].
    assert (metric_ok hp m /\ no_closures m) as [Hm Hc].
    { unfold NewPCPSingletonMetric in Em. destruct (new_desc _ _ _ _ []) as [dd|] eqn:Ed; [|discriminate].
      destruct (new_desc_ok _ _ _ _ _ _ Hda Ed) as (D1 & D2 & D3 & _). split; [|by eapply new_single_nc].
      eapply new_single_ok; eauto; [|exact I]. unfold v. destruct val; [exact Hw|exact I]. }
    destruct (add_metric hp r mp m) as [o1 r1] eqn:Ea. pose proof (add_new_metric_next _ _ _ _ _ _ Hh Hr Hn Hm Hc Ea) as N.
    destruct o1; intros; simplify_eq; exact N.
Qed.

(** ** Closures installed by Start *)
Lemma cell_at_upds w u mp m n : cell_at (with_body m (set_body_upd w u mp (m_body m))) n =
  set_cell_upd w (u !! (mp, n)) <$> cell_at m n.
Proof.
  unfold cell_at. cbn [m_body with_body]. destruct (m_body m) as [c|ip cells]; destruct n as [i|]; cbn; try reflexivity.
  rewrite map_lookup_imap. destruct (cells !! i); reflexivity.
Qed.

Lemma set_upds_lookup w u hp mp : h_metrics (set_upds w u hp) !! mp = (fun m => with_body m (set_body_upd w u mp (m_body m))) <$> (h_metrics hp !! mp).
Proof. unfold set_upds. cbn. rewrite map_lookup_imap. destruct (h_metrics hp !! mp); reflexivity. Qed.

Lemma set_cell_val w o c : c_val (set_cell_upd w o c) = c_val c.
Proof. destruct o; reflexivity. Qed.

Lemma upds_indom w u mp m : m_indom (with_body m (set_body_upd w u mp (m_body m))) = m_indom m.
Proof. unfold m_indom. cbn. destruct (m_body m); reflexivity. Qed.

Lemma upds_metric_ok w u mp hp hp' m : h_indoms hp' = h_indoms hp -> metric_ok hp m -> metric_ok hp' (with_body m (set_body_upd w u mp (m_body m))).
Proof.
  intros E [H1 H2 H3]. split; cbn; auto.
  - destruct (m_body m) as [c|ip cells]; cbn in *; [by rewrite set_cell_val|]. destruct H2 as (d & Hd & K1 & K2). exists d. rewrite E. split_and!; auto.
    + rewrite <- K1. apply set_eq. intros i. rewrite !elem_of_dom, map_lookup_imap. destruct (cells !! i); cbn; split; intros [? ?]; eauto; discriminate.
    + intros i c. rewrite map_lookup_imap. destruct (cells !! i) as [c0|] eqn:E0; cbn; [|discriminate]. intros; simplify_eq. rewrite set_cell_val. eauto.
  - destruct (m_kind m), (m_body m); cbn in *; auto.
Qed.

Lemma set_upds_ok w u hp : heap_ok hp -> heap_ok (set_upds w u hp) /\ heap_ext hp (set_upds w u hp).
Proof.
  intros [A B]. split; split.
  - exact A.
  - intros mp m H. rewrite set_upds_lookup in H. destruct (h_metrics hp !! mp) as [m0|] eqn:E; [|discriminate]. cbn in H. simplify_eq.
    eapply upds_metric_ok; [|eauto]. reflexivity.
  - auto.
  - intros mp m H. rewrite set_upds_lookup, H. eexists. split; [reflexivity|]. split; [reflexivity|]. apply upds_indom.
Qed.

Lemma reg_ok_mapped hp r b : reg_ok hp r -> reg_ok hp (set_mapped r b).
Proof. intros [A1 A2 A3 A4 A5 A6 A7]. split; auto. Qed.

(** ** The invariant *)
Lemma histogram_indom_ok : indom_ok histogramIndom.
Proof.
  split.
  - discriminate.
  - reflexivity.
  - intros n i H. unfold histogramIndom in H. cbn [id_insts] in H. apply elem_of_list_to_map_2 in H.
    apply elem_of_list_fmap in H as (x & E & Hx). injection E as -> ->. split; [reflexivity|].
    assert (Forall (fun y => zlen y <= 256) histogramInstances) as F by (repeat apply Forall_cons_2; try apply Forall_nil_2; vm_compute; discriminate).
    rewrite Forall_forall in F. by apply F.
Qed.

Lemma init_ok : w_ok w_init.
Proof.
  split; cbn; try (intros; rewrite ?lookup_empty in *; discriminate).
  - split; cbn.
    + intros ip d H. apply lookup_singleton_Some in H as [<- <-]. apply histogram_indom_ok.
    + intros mp m H. rewrite lookup_empty in H. discriminate.
  - apply lookup_singleton.
Qed.

(** Registration steps keep the invariant. *)
Lemma w_ok_reg w rid r o hp' r' dead : w_ok w -> w_regs w !! rid = Some r -> reg_next (w_heap w) r o hp' r' ->
  w_ok (mkWorld hp' (<[rid := r']> (w_regs w)) (w_clients w) (w_files w) (w_paths w) (w_offs w) dead).
Proof.
  intros W Hr N. destruct W as [W1 W2 W3 W4 W5 W6 W7 W8 W9]. split; cbn [w_heap w_regs w_clients w_files w_paths w_offs]; auto.
  - apply N.
  - apply (he_i _ _ (rn_ext _ _ _ _ _ N)), W2.
  - intros rid' r0 H. apply lookup_insert_Some in H as [[<- <-]|[_ H]]; [apply N|]. eapply reg_ok_ext; [exact W1|apply N|eauto].
  - intros mp m n c cl Hm Hc Hcl. destruct (rn_new _ _ _ _ _ N _ _ Hm) as [Hm'|Hno]; [eauto|]. rewrite (Hno _ _ Hc) in Hcl. discriminate.
  - intros cid c H. destruct (W7 _ _ H) as [K1 K2]. split; [|exact K2]. destruct (decide (cl_reg c = rid)) as [->|Hne].
    + rewrite lookup_insert. eauto.
    + rewrite lookup_insert_ne by congruence. exact K1.
Qed.

(** Steps that only change objects. *)
Lemma w_ok_heap w hp' dead : w_ok w -> heap_ok hp' -> heap_ext (w_heap w) hp' ->
  (forall mp m n c cl, h_metrics hp' !! mp = Some m -> cell_at m n = Some c -> c_upd c = Some cl -> is_Some (f_writers (w_files w) !! cl_writer cl)) ->
  w_ok (mkWorld hp' (w_regs w) (w_clients w) (w_files w) (w_paths w) (w_offs w) dead).
Proof.
  intros [W1 W2 W3 W4 W5 W6 W7 W8 W9] H1 H2 H3. split; cbn [w_heap w_regs w_clients w_files w_paths w_offs]; eauto.
  - apply (he_i _ _ H2), W2.
  - intros rid r H. eapply reg_ok_ext; [exact W1|exact H2|eauto].
Qed.

Lemma set_regs_eq w regs : w_dead w = false -> set_regs w regs = mkWorld (w_heap w) regs (w_clients w) (w_files w) (w_paths w) (w_offs w) false.
Proof. unfold set_regs. intros ->. reflexivity. Qed.

Lemma upd_heap_ext hp mp m m' : h_metrics hp !! mp = Some m -> m_desc m' = m_desc m -> m_indom m' = m_indom m ->
  heap_ext hp (mkHeap (h_indoms hp) (<[mp := m']> (h_metrics hp))).
Proof.
  intros H E1 E2. split; cbn; [auto|]. intros mp0 m0 H0. destruct (decide (mp = mp0)) as [<-|N].
  - rewrite lookup_insert. exists m'. simplify_eq. auto.
  - rewrite lookup_insert_ne by exact N. eauto.
Qed.

Lemma unmap_lookup fs wr wr' x : f_writers (unmap_writer fs wr) !! wr' = Some x ->
  exists y, f_writers fs !! wr' = Some y /\ wr_inode y = wr_inode x /\ (wr' <> wr -> y = x).
Proof.
  unfold unmap_writer. destruct (f_writers fs !! wr) as [y|] eqn:E; [|eauto]. cbn. intros H.
  apply lookup_insert_Some in H as [[<- <-]|[N H]]; [exists y; split; [exact E|split; [reflexivity|intros; contradiction]]|eauto].
Qed.
Lemma unmap_is fs wr wr' : is_Some (f_writers (unmap_writer fs wr) !! wr') <-> is_Some (f_writers fs !! wr').
Proof.
  unfold unmap_writer. destruct (f_writers fs !! wr) as [y|] eqn:E; [|reflexivity]. cbn. destruct (decide (wr = wr')) as [<-|N].
  - rewrite lookup_insert, E. split; eauto.
  - rewrite lookup_insert_ne by exact N. reflexivity.
Qed.
Lemma unmap_inodes fs wr : f_inodes (unmap_writer fs wr) = f_inodes fs.
Proof. unfold unmap_writer. destruct (f_writers fs !! wr); reflexivity. Qed.

Lemma w_ok_stop w cid c r fs' paths' dead : w_ok w -> w_clients w !! cid = Some c -> w_regs w !! cl_reg c = Some r ->
  fs' = w_files w \/ (exists wr, cl_wr c = Some wr /\ fs' = unmap_writer (w_files w) wr) ->
  (forall p ino, paths' !! p = Some ino -> w_paths w !! p = Some ino) ->
  w_ok (mkWorld (w_heap w) (<[cl_reg c := set_mapped r false]> (w_regs w))
         (<[cid := mkClient (cl_loc c) (cl_cluster c) (cl_flag c) (cl_reg c) None]> (w_clients w)) fs' paths' (w_offs w) dead).
Proof.
  intros [W1 W2 W3 W4 W5 W6 W7 W8 W9] Hc Hr Hfs Hpt.
  assert (f_inodes fs' = f_inodes (w_files w) /\ (forall wr', is_Some (f_writers fs' !! wr') <-> is_Some (f_writers (w_files w) !! wr')) /\
    (forall wr' x, f_writers fs' !! wr' = Some x -> exists y, f_writers (w_files w) !! wr' = Some y /\ wr_inode y = wr_inode x) /\
    (forall wr' x, f_writers (w_files w) !! wr' = Some x -> cl_wr c <> Some wr' -> f_writers fs' !! wr' = Some x)) as (F1 & F2 & F3 & F4).
  { destruct Hfs as [->|(wr & Hwr & ->)]; [split_and!; auto; try tauto; eauto|]. split_and!.
    - apply unmap_inodes.
    - intros; apply unmap_is.
    - intros wr' x H. destruct (unmap_lookup _ _ _ _ H) as (y & K1 & K2 & _). eauto.
    - intros wr' x H Hn. unfold unmap_writer. destruct (f_writers (w_files w) !! wr) eqn:E; [|exact H]. cbn. rewrite lookup_insert_ne; [exact H|congruence]. }
  split; cbn [w_heap w_regs w_clients w_files w_paths w_offs]; auto.
  - intros rid r0 H. apply lookup_insert_Some in H as [[<- <-]|[_ H]]; [|eauto]. apply reg_ok_mapped. eauto.
  - intros mp m n c0 cl H1 H2 H3. rewrite F2. eauto.
  - intros wr x H. destruct (F3 _ _ H) as (y & K1 & K2). rewrite F1, <- K2. eauto.
  - intros wr wr' x x' H H' E. destruct (F3 _ _ H) as (y & K1 & K2). destruct (F3 _ _ H') as (y' & K1' & K2'). eapply W6; eauto. congruence.
  - intros cid' c' H. apply lookup_insert_Some in H as [[<- <-]|[N H]]; cbn.
    + split; [|discriminate]. rewrite lookup_insert. eauto.
    + destruct (W7 _ _ H) as [K1 K2]. split.
      * destruct (decide (cl_reg c' = cl_reg c)) as [->|N2]; [rewrite lookup_insert; eauto|]. rewrite lookup_insert_ne by congruence. exact K1.
      * intros wr Hwr. destruct (K2 _ Hwr) as (x & Hx & Hl). exists x. split; [|exact Hl]. apply F4; [exact Hx|]. intros E. apply N. eauto.
  - intros cid1 cid2 c1 c2 wr H1 H2 E1 E2. apply lookup_insert_Some in H1 as [[<- <-]|[N1 H1]]; [discriminate|].
    apply lookup_insert_Some in H2 as [[<- <-]|[N2 H2]]; [discriminate|]. eauto.
  - intros p ino H. rewrite F1. eauto.
Qed.

Lemma w_ok_dead w b : w_ok w -> w_ok (mkWorld (w_heap w) (w_regs w) (w_clients w) (w_files w) (w_paths w) (w_offs w) b).
Proof. intros [W1 W2 W3 W4 W5 W6 W7 W8 W9]. split; auto. Qed.

Lemma w_ok_unmapped w rid r b dead : w_ok w -> w_regs w !! rid = Some r ->
  w_ok (mkWorld (w_heap w) (<[rid := set_mapped r b]> (w_regs w)) (w_clients w) (w_files w) (w_paths w) (w_offs w) dead).
Proof.
  intros [W1 W2 W3 W4 W5 W6 W7 W8 W9] Hr. split; cbn [w_heap w_regs w_clients w_files w_paths w_offs]; auto.
  - intros rid' r0 H. apply lookup_insert_Some in H as [[<- <-]|[_ H]]; [apply reg_ok_mapped; eauto|eauto].
  - intros cid c H. destruct (W7 _ _ H) as [K1 K2]. split; [|exact K2]. destruct (decide (cl_reg c = rid)) as [->|Hne].
    + rewrite lookup_insert. eauto.
    + rewrite lookup_insert_ne by congruence. exact K1.
Qed.

Theorem wstep_ok w c o w' : w_ok w -> wstep w c o w' -> w_ok w'.
Proof.
  intros W H. destruct H as [w rid Hd Hr|w cid name loc rid Hd Hc Hr|w ip name insts desc d Hd Hip Hn|w mp ip m new Hd Hmp Hip Hcr|w rid mp r m o r' Hd Hr Hm Ha
    |w rid ip r d Hd Hr Hip|w rid ip name insts r o hp' r' Hd Hr Hip Ha|w rid mp ip name indom insts val t s u ord r o hp' r' Hd Hr Hmp Hip Hv Hda Hord Ha
    |w cid flag c r Hd Hc Hr|w cid gen pid c r wr ino s Hd Hc Hr Hwr Hino Hs|w cid gen pid c r ino s Hd Hc Hr Hino Hs|w cid gen pid c r paths inodes Hd Hc Hr Hs
    |w cid erase os c r Hd Hc Hr Hm|w cid erase c r o w' Hd Hc Hr Hm Hs|w cid erase c r wr fs' Hd Hc Hr Hm Hwr Hfs|w mp op mst m o fs' m' Hd Hm Ha Hu].
  - rewrite set_regs_eq by exact Hd. destruct W as [W1 W2 W3 W4 W5 W6 W7 W8 W9]. split; cbn [w_heap w_regs w_clients w_files w_paths w_offs]; auto.
    + intros rid' r H. apply lookup_insert_Some in H as [[<- <-]|[_ H]]; [apply reg_ok_new|eauto].
    + intros cid c H. destruct (W7 _ _ H) as [[r K1] K2]. split; [|exact K2]. rewrite lookup_insert_ne by congruence. eauto.
  - destruct W as [W1 W2 W3 W4 W5 W6 W7 W8 W9]. split; cbn [w_heap w_regs w_clients w_files w_paths w_offs]; auto.
    + intros cid' c H. apply lookup_insert_Some in H as [[<- <-]|[_ H]]; [cbn; split; [exact Hr|discriminate]|eauto].
    + intros cid1 cid2 c1 c2 wr H1 H2 E1 E2. apply lookup_insert_Some in H1 as [[<- <-]|[N1 H1]]; [discriminate|].
      apply lookup_insert_Some in H2 as [[<- <-]|[N2 H2]]; [discriminate|]. eauto.
  - destruct (new_indom_ok _ _ _ _ Hn) as (D1 & _). apply w_ok_heap; auto.
    + apply heap_ok_indom; auto. apply W.
    + by apply heap_ext_indom.
    + intros mp m n c cl H. cbn in H. eapply wo_closures; eauto.
  - destruct (created_ok _ _ _ _ (wo_heap _ W) Hip Hcr) as (C1 & C2 & C3 & C4). set (hp1 := mkHeap _ (h_metrics (w_heap w))) in *.
    pose proof (heap_ok_metric _ mp _ C1 C2) as K. unfold hp1 in K at 1 2. cbn [h_indoms h_metrics] in K. apply w_ok_heap; auto.
    + eapply heap_ext_trans; [exact C4|]. apply (heap_ext_metric hp1 mp m). exact Hmp.
    + intros mp' m' n c cl H Hc Hcl. cbn in H. apply lookup_insert_Some in H as [[<- <-]|[_ H]]; [rewrite (C3 _ _ Hc) in Hcl; discriminate|].
      eapply wo_closures; eauto.
  - rewrite set_regs_eq by exact Hd. eapply w_ok_reg; [exact W|exact Hr|]. eapply add_metric_next; [apply W|eapply wo_regs; eauto|exact Hm|exact Ha].
  - rewrite set_regs_eq by exact Hd. destruct (add_indom r ip d) as [r'|] eqn:E.
    + eapply w_ok_reg; [exact W|exact Hr|]. eapply add_indom_next; [apply W|eapply wo_regs; eauto|exact Hip|exact E].
    + apply w_ok_dead, W.
  - eapply w_ok_reg; [exact W|exact Hr|]. eapply add_indom_by_name_next; [apply W|eapply wo_regs; eauto|exact Hip|exact Ha].
  - eapply w_ok_reg; [exact W|exact Hr|]. eapply add_by_string_next; [apply W|eapply wo_regs; eauto|exact Hmp|exact Hip|exact Hv|exact Hda|exact Hord|exact Ha].
  - destruct (r_mapped r); [apply w_ok_dead, W|]. destruct W as [W1 W2 W3 W4 W5 W6 W7 W8 W9]. split; cbn [w_heap w_regs w_clients w_files w_paths w_offs]; auto.
    + intros cid' c' H. apply lookup_insert_Some in H as [[<- <-]|[_ H]]; [cbn; eauto|eauto].
    + intros cid1 cid2 c1 c2 wr H1 H2 E1 E2. apply lookup_insert_Some in H1 as [[<- <-]|[N1 H1]]; apply lookup_insert_Some in H2 as [[<- <-]|[N2 H2]]; cbn in *; eauto.
  - unfold started. destruct (set_upds_ok wr (g_upd s) _ (wo_heap _ W)) as [U1 U2]. destruct W as [W1 W2 W3 W4 W5 W6 W7 W8 W9].
    split; cbn [w_heap w_regs w_clients w_files w_paths w_offs f_writers f_inodes]; auto.
    + intros rid r0 H. apply lookup_insert_Some in H as [[<- <-]|[_ H]]; eapply reg_ok_ext; [exact W1|exact U2|apply reg_ok_mapped; eauto|exact W1|exact U2|eauto].
    + intros mp m n c0 cl Hm Hc0 Hcl. rewrite set_upds_lookup in Hm. destruct (h_metrics (w_heap w) !! mp) as [m0|] eqn:E0; [|discriminate]. cbn in Hm. simplify_eq.
      rewrite cell_at_upds in Hc0. destruct (cell_at m0 n) as [c1|] eqn:E1; [|discriminate]. cbn in Hc0. simplify_eq.
      unfold set_cell_upd in Hcl. destruct (g_upd s !! (mp, n)); cbn in Hcl; simplify_eq; [rewrite lookup_insert; eauto|].
      destruct (W4 _ _ _ _ _ E0 E1 Hcl) as [x Hx]. rewrite lookup_insert_ne by congruence. eauto.
    + intros wr' x H. apply lookup_insert_Some in H as [[<- <-]|[_ H]]; cbn; [rewrite lookup_insert; eauto|].
      destruct (W5 _ _ H) as [b Hb]. rewrite lookup_insert_ne by congruence. eauto.
    + intros wr1 wr2 x1 x2 H1 H2 E. apply lookup_insert_Some in H1 as [[<- <-]|[N1 H1]]; apply lookup_insert_Some in H2 as [[<- <-]|[N2 H2]]; auto; cbn in E.
      * destruct (W5 _ _ H2) as [b Hb]. congruence.
      * destruct (W5 _ _ H1) as [b Hb]. congruence.
      * eauto.
    + intros cid' c' H. apply lookup_insert_Some in H as [[<- <-]|[_ H]]; cbn.
      * rewrite lookup_insert. split; [eauto|]. intros wr' E. simplify_eq. rewrite lookup_insert. eauto.
      * destruct (W7 _ _ H) as [K1 K2]. split.
        -- destruct (decide (cl_reg c' = cl_reg c)) as [->|N2]; [rewrite lookup_insert; eauto|]. rewrite lookup_insert_ne by congruence. exact K1.
        -- intros wr' Hwr'. destruct (K2 _ Hwr') as (x & Hx & Hl). exists x. rewrite lookup_insert_ne by congruence. auto.
    + intros cid1 cid2 c1 c2 wr' H1 H2 E1 E2. apply lookup_insert_Some in H1 as [[<- <-]|[N1 H1]]; apply lookup_insert_Some in H2 as [[<- <-]|[N2 H2]]; cbn in *; simplify_eq; auto.
      * destruct (W7 _ _ H2) as [_ K]. destruct (K _ E2) as (x & Hx & _). congruence.
      * destruct (W7 _ _ H1) as [_ K]. destruct (K _ E1) as (x & Hx & _). congruence.
      * eauto.
    + intros p ino' H. apply lookup_insert_Some in H as [[<- <-]|[_ H]]; [rewrite lookup_insert; eauto|].
      destruct (W9 _ _ H) as [b Hb]. rewrite lookup_insert_ne by congruence. eauto.
  - pose proof (wo_paths _ W) as W9. assert (forall i, is_Some (f_inodes (w_files w) !! i) -> is_Some (<[ino := g_buf s]> (f_inodes (w_files w)) !! i)) as K.
    { intros i [b Hb]. rewrite lookup_insert_ne by congruence. eauto. }
    destruct W as [W1 W2 W3 W4 W5 W6 W7 W8 _]. split; cbn [w_heap w_regs w_clients w_files w_paths w_offs f_writers f_inodes]; eauto.
    intros p i H. apply lookup_insert_Some in H as [[<- <-]|[_ H]]; [rewrite lookup_insert; eauto|eauto].
  - assert ((forall i, is_Some (f_inodes (w_files w) !! i) -> is_Some (inodes !! i)) /\ (forall p i, paths !! p = Some i -> is_Some (inodes !! i))) as [G1 G2].
    { pose proof (wo_paths _ W) as W9. destruct Hs as [E|[E|(ino & buf & Hino & _ & -> & ->)]]; simplify_eq.
      - auto.
      - split; [auto|]. intros p i H. apply lookup_delete_Some in H as [_ H]. eauto.
      - assert (forall i, is_Some (f_inodes (w_files w) !! i) -> is_Some (<[ino := zeros buf]> (f_inodes (w_files w)) !! i)) as K.
        { intros i [b Hb]. rewrite lookup_insert_ne by congruence. eauto. }
        split; [exact K|]. intros p i H. apply lookup_insert_Some in H as [[<- <-]|[_ H]]; [rewrite lookup_insert; eauto|eauto]. }
    destruct W as [W1 W2 W3 W4 W5 W6 W7 W8 W9]. split; cbn [w_heap w_regs w_clients w_files w_paths w_offs f_writers f_inodes]; eauto.
  - exact W.
  - unfold stopped in Hs. destruct (cl_wr c) as [wr|] eqn:Ewr.
    + destruct erase; injection Hs as <- <-; eapply w_ok_stop; eauto. intros p ino H. apply lookup_delete_Some in H as [_ H]. exact H.
    + injection Hs as <- <-. rewrite set_regs_eq by exact Hd. by apply w_ok_unmapped.
  - eapply w_ok_stop; eauto. destruct Hfs as [->| ->]; [auto|right; eauto].
  - destruct (update_runs _ _ _ _ _ _ _ _ (ho_metrics _ (wo_heap _ W) _ _ Hm) Ha Hu) as [R _].
    destruct (mrun_frame _ _ _ _ _ _ _ R (ho_metrics _ (wo_heap _ W) _ _ Hm)) as (F1 & F2 & F3 & F4 & F5 & F6 & F7).
    assert (heap_ext (w_heap w) (mkHeap (h_indoms (w_heap w)) (<[mp := m']> (h_metrics (w_heap w))))) as He by (eapply upd_heap_ext; eauto).
    destruct W as [W1 W2 W3 W4 W5 W6 W7 W8 W9]. split; cbn [w_heap w_regs w_clients w_files w_paths w_offs f_writers f_inodes]; auto.
    + by apply heap_ok_metric.
    + intros rid r H. eapply reg_ok_ext; [exact W1|exact He|eauto].
    + intros mp' m0 n c cl H Hc Hcl. rewrite F5. cbn in H. apply lookup_insert_Some in H as [[<- <-]|[_ H]]; [|eauto].
      pose proof (F4 n) as E. rewrite Hc in E. destruct (cell_at m n) as [c0|] eqn:E0; [|discriminate]. cbn in E. eapply W4; [exact Hm|exact E0|congruence].
    + intros wr x H. rewrite F5 in H. apply F6. eauto.
    + intros wr wr' x x' H H'. rewrite F5 in H, H'. eauto.
    + intros cid c H. rewrite F5. eauto.
    + intros p ino H. apply F6. eauto.
Qed.

Theorem reachable_ok w : reachable w -> w_ok w.
Proof.
  unfold reachable. intros H. pose proof init_ok as W. remember w_init as w0 eqn:E. clear E. induction H as [|w1 w2 w3 (c & o & S) _ IH]; [exact W|].
  apply IH. eapply wstep_ok; eauto.
Qed.
