(** What a Start during which metrics are registered leaves behind. *)
From Verif Require Import Base BaseFacts Floats GoVal MetricType ByteWriter Hash Units Indom Metrics Registry Prog
  Client Mmvdump Ileave ProgProofs Exec Events StartEvents BufFacts Tiling StartGood StartLayout StartFinal StartDone
  View Sections StartView RegInv Update World OpRuns RegFacts WorldInv Sync StartLive FloatFacts ValueFacts MetricFacts SyncLive SyncView
  Crash Life RegSteps DumpSched DumpSeq DumpTrunc StartGrow.

(** ** Registering makes the file longer *)
Definition grows (r r' : registry) : Prop :=
  r' = r \/ (InstanceDomainCount r <= InstanceDomainCount r' /\ r_instanceCount r <= r_instanceCount r' /\ MetricCount r <= MetricCount r' /\
    r_valueCount r <= r_valueCount r' /\ r_stringcount r <= r_stringcount r' /\ (r_version2 r = true -> r_version2 r' = true) /\
    InstanceDomainCount r + MetricCount r < InstanceDomainCount r' + MetricCount r').
Lemma grows_trans a b c : grows a b -> grows b c -> grows a c.
Proof. intros [->|(A1 & A2 & A3 & A4 & A5 & A6 & A7)] [->|(B1 & B2 & B3 & B4 & B5 & B6 & B7)]; [by left|right..]; split_and!; auto; lia. Qed.
Lemma b2z_nonneg b : 0 <= b2z b. Proof. destruct b; cbn; lia. Qed.
Lemma instance_count_nonneg d : 0 <= instance_count d. Proof. unfold instance_count. lia. Qed.

Lemma add_indom_grows r ip d r' : add_indom r ip d = Some r' -> grows r r'.
Proof.
  unfold add_indom. destruct (HasInstanceDomain r (id_name d)) eqn:E; [discriminate|]. destruct (r_mapped r); [discriminate|]. intros H. apply (inj Some) in H as <-.
  right. unfold InstanceDomainCount, MetricCount. cbn. apply not_has in E. rewrite map_size_insert_None by exact E.
  pose proof (instance_count_nonneg d). pose proof (b2z_nonneg (nonempty (id_short d))). pose proof (b2z_nonneg (nonempty (id_long d))).
  split_and!; try lia. intros ->. reflexivity.
Qed.
Lemma add_raw_grows r mp m dom : HasMetric r (md_name (m_desc m)) = false -> grows r (add_metric_raw r mp m dom).
Proof.
  intros E. right. unfold InstanceDomainCount, MetricCount, add_metric_raw. cbn. unfold HasMetric in E. apply bool_decide_eq_false, eq_None_not_Some in E. rewrite map_size_insert_None by exact E.
  pose proof (b2z_nonneg (nonempty (md_short (m_desc m)))). pose proof (b2z_nonneg (nonempty (md_long (m_desc m)))).
  assert (0 <= metric_values dom) by (destruct dom; cbn; [apply instance_count_nonneg|lia]).
  split_and!; try lia; [destruct (_ =? _); lia|]. intros ->. reflexivity.
Qed.
Lemma add_metric_grows hp r mp m o r' : add_metric hp r mp m = (o, r') -> grows r r'.
Proof.
  unfold add_metric. destruct (r_mapped r); [intros [= _ <-]; by left|]. destruct (HasMetric r (md_name (m_desc m))) eqn:E; [intros [= _ <-]; by left|].
  destruct (m_indom m) as [ip|]; [|intros H; apply (f_equal snd) in H; cbn [snd] in H; subst r'; by apply add_raw_grows].
  destruct (h_indoms hp !! ip) as [d|]; [|intros [= _ <-]; by left]. destruct (HasInstanceDomain r (id_name d)) eqn:E2; [intros H; apply (f_equal snd) in H; cbn [snd] in H; subst r'; by apply add_raw_grows|].
  destruct (add_indom r ip d) as [r1|] eqn:E3; [|intros [= _ <-]; by left]. intros H. apply (f_equal snd) in H. cbn [snd] in H. subst r'.
  eapply grows_trans; [by eapply add_indom_grows|]. apply add_raw_grows. unfold add_indom in E3. rewrite E2 in E3. destruct (r_mapped r); [discriminate|]. apply (inj Some) in E3 as <-. exact E.
Qed.
Lemma by_name_grows hp r ip n l o hp' r' : add_indom_by_name hp r ip n l = (o, hp', r') -> grows r r'.
Proof.
  unfold add_indom_by_name. repeat case_match; intros H'; apply (f_equal snd) in H'; cbn [snd] in H'; subst r'; try (by left). by eapply add_indom_grows.
Qed.
Lemma with_grows hp r mp ip name vals t s u ord o hp' r' : add_instance_with hp r mp ip name vals t s u ord = (o, hp', r') -> grows r r'.
Proof.
  unfold add_instance_with. destruct (h_indoms hp !! ip); [|intros H; apply (f_equal snd) in H; cbn in H; subst; by left].
  destruct (NewPCPInstanceMetric _ _ _ _ _ _ _ _ _) as [m|]; [|intros H; apply (f_equal snd) in H; cbn in H; subst; by left].
  destruct (add_metric hp r mp m) as [o1 r1] eqn:E. destruct o1; intros H; apply (f_equal snd) in H; cbn in H; subst; by eapply add_metric_grows.
Qed.
Lemma by_string_grows hp r mp ip name indom insts val t s u ord o hp' r' :
  add_by_string hp r mp ip name indom insts val t s u ord = (o, hp', r') -> grows r r'.
Proof.
  unfold add_by_string. destruct insts as [l|].
  - unfold add_instance_by_string. destruct val as [v|vals]; [intros H; apply (f_equal snd) in H; cbn in H; subst; by left|].
    destruct (r_indoms r !! indom) as [ip'|].
    + destruct (h_indoms hp !! ip') as [d|]; [|intros H; apply (f_equal snd) in H; cbn in H; subst; by left].
      destruct (match_instances d l); [apply with_grows|intros H; apply (f_equal snd) in H; cbn in H; subst; by left].
    + destruct (add_indom_by_name hp r ip indom l) as [[o1 hp1] r1] eqn:E1. pose proof (by_name_grows _ _ _ _ _ _ _ _ E1) as G.
      destruct o1; try (intros H; apply (f_equal snd) in H; cbn in H; subst; exact G). intros H. eapply grows_trans; [exact G|by eapply with_grows].
  - unfold add_singleton_by_string. destruct (NewPCPSingletonMetric _ _ _ _ _ _) as [m|]; [|intros H; apply (f_equal snd) in H; cbn in H; subst; by left].
    destruct (add_metric hp r mp m) as [o1 r1] eqn:E. destruct o1; intros H; apply (f_equal snd) in H; cbn in H; subst; by eapply add_metric_grows.
Qed.

Lemma grows_length r r' : 0 <= r_instanceCount r -> grows r r' -> r' = r \/ Length r < Length r'.
Proof.
  intros H0 [->|(A1 & A2 & A3 & A4 & A5 & A6 & A7)]; [by left|right].
  assert (0 <= MetricCount r) by (unfold MetricCount; lia).
  unfold Length, tocCount, StringCount, InstanceLength, MetricLength, ValuesCount, InstanceCount, HeaderLength, TocLength, Metric1Length, Metric2Length, ValueLength, Instance1Length, Instance2Length, InstanceDomainLength, StringLength.
  destruct (r_version2 r) eqn:V; [rewrite (A6 eq_refl)|destruct (r_version2 r')].
  all: repeat match goal with |- context[0 <? ?x] => destruct (Z.ltb_spec 0 x) end; lia.
Qed.

(** ** Steps beside Start *)
Lemma beside_step w c o w' : w_ok w -> wstep w c o w' -> registers c ->
  w_clients w' = w_clients w /\ w_files w' = w_files w /\ w_paths w' = w_paths w /\ w_offs w' = w_offs w /\
  (forall mp m, h_metrics (w_heap w) !! mp = Some m -> h_metrics (w_heap w') !! mp = Some m) /\
  (forall mp m, h_metrics (w_heap w') !! mp = Some m -> h_metrics (w_heap w) !! mp = Some m \/ no_closures m) /\
  forall rid r, w_regs w !! rid = Some r -> exists r', w_regs w' !! rid = Some r' /\ grows r r' /\ r_metrics r ⊆ r_metrics r' /\ r_mapped r' = r_mapped r.
Proof.
  intros W H C. pose proof (wo_heap _ W) as Hh.
  assert (forall r, exists r', Some r = Some r' /\ grows r r' /\ r_metrics r ⊆ r_metrics r' /\ r_mapped r' = r_mapped r) as Same by (intros r; exists r; split_and!; auto; by left).
  destruct H as [w rid Hd Hr|w cid name loc rid Hd Hc Hr|w ip name insts desc d Hd Hip Hn|w mp ip m new Hd Hmp Hip Hcr|w rid mp r m o r' Hd Hr Hm Ha
    |w rid ip r d Hd Hr Hip|w rid ip name insts r o hp' r' Hd Hr Hip Ha|w rid mp ip name indom insts val t s u ord r o hp' r' Hd Hr Hmp Hip Hv Hda Hord Ha
    |w cid flag c r Hd Hc Hr|w cid gen pid c r wr ino s Hd Hc Hr Hwr Hino Hs|w cid gen pid c r ino s Hd Hc Hr Hino Hs|w cid gen pid c r paths inodes Hd Hc Hr Hs
    |w cid erase os c r Hd Hc Hr Hm|w cid erase c r o w' Hd Hc Hr Hm Hs|w cid erase c r wr fs' Hd Hc Hr Hm Hwr Hfs|w mp op mst m o fs' m' Hd Hm Ha Hu]; try contradiction; cbn [w_clients w_files w_paths w_offs w_heap w_regs set_regs h_metrics].
  - split_and!; auto. intros rid r Hr. rewrite Hr. apply Same.
  - split_and!; auto.
    + intros mp' m' H. rewrite lookup_insert_ne; [exact H|congruence].
    + intros mp' m' H. apply lookup_insert_Some in H as [[<- <-]|[_ H]]; [|by left]. right. by destruct (created_ok _ _ _ _ Hh Hip Hcr) as (_ & _ & K & _).
    + intros rid r Hr. rewrite Hr. apply Same.
  - split_and!; auto. intros rid' r0 H0. destruct (decide (rid' = rid)) as [->|N]; [|rewrite lookup_insert_ne by congruence; rewrite H0; apply Same].
    rewrite lookup_insert. assert (r0 = r) as -> by congruence. exists r'. pose proof (add_metric_next _ _ _ _ _ _ Hh (wo_regs _ W _ _ Hr) Hm Ha) as RN.
    split_and!; auto; [by eapply add_metric_grows|apply RN|apply RN].
  - split_and!; auto. intros rid' r0 H0. destruct (add_indom r ip d) as [r'|] eqn:Ea; [|rewrite H0; apply Same].
    destruct (decide (rid' = rid)) as [->|N]; [|rewrite lookup_insert_ne by congruence; rewrite H0; apply Same].
    rewrite lookup_insert. assert (r0 = r) as -> by congruence. exists r'. pose proof (add_indom_next _ _ _ _ _ Hh (wo_regs _ W _ _ Hr) Hip Ea) as RN.
    split_and!; auto; [by eapply add_indom_grows|apply RN|apply RN].
  - destruct (add_indom_by_name_next _ _ _ _ _ _ _ _ Hh (wo_regs _ W _ _ Hr) Hip Ha) as (RN & _). split_and!; auto; [apply RN|apply RN|].
    intros rid' r0 H0. destruct (decide (rid' = rid)) as [->|N]; [|rewrite lookup_insert_ne by congruence; rewrite H0; apply Same].
    rewrite lookup_insert. assert (r0 = r) as -> by congruence. exists r'. split_and!; auto; [by eapply by_name_grows|apply RN|apply RN].
  - pose proof (add_by_string_next _ _ _ _ _ _ _ _ _ _ _ _ _ _ _ Hh (wo_regs _ W _ _ Hr) Hmp Hip Hv Hda Hord Ha) as RN. split_and!; auto; [apply RN|apply RN|].
    intros rid' r0 H0. destruct (decide (rid' = rid)) as [->|N]; [|rewrite lookup_insert_ne by congruence; rewrite H0; apply Same].
    rewrite lookup_insert. assert (r0 = r) as -> by congruence. exists r'. split_and!; auto; [by eapply by_string_grows|apply RN|apply RN].
Qed.

Lemma beside_ok w tr w' : w_ok w -> beside w tr w' ->
  w_ok w' /\ w_clients w' = w_clients w /\ w_files w' = w_files w /\ w_paths w' = w_paths w /\ w_offs w' = w_offs w /\
  (forall mp m, h_metrics (w_heap w) !! mp = Some m -> h_metrics (w_heap w') !! mp = Some m) /\
  (forall mp m, h_metrics (w_heap w') !! mp = Some m -> h_metrics (w_heap w) !! mp = Some m \/ no_closures m) /\
  forall rid r, w_regs w !! rid = Some r -> exists r', w_regs w' !! rid = Some r' /\ grows r r' /\ r_metrics r ⊆ r_metrics r' /\ r_mapped r' = r_mapped r.
Proof.
  intros W [H F]. revert W F. induction H as [w|w c o w1 tr w' S H IH]; intros W F.
  - split_and!; auto. intros rid r Hr. exists r. split_and!; auto. by left.
  - apply Forall_cons in F as [F1 F2]. cbn in F1. destruct (beside_step _ _ _ _ W S F1) as (A1 & A2 & A3 & A4 & A5 & A6 & A7).
    destruct (IH (wstep_ok _ _ _ _ W S) F2) as (B0 & B1 & B2 & B3 & B4 & B5 & B6 & B7). split_and!; auto; try congruence.
    + intros mp m Hm. destruct (B6 _ _ Hm) as [Hm'|]; auto.
    + intros rid r Hr. destruct (A7 _ _ Hr) as (r1 & Hr1 & G1 & K1 & M1). destruct (B7 _ _ Hr1) as (r2 & Hr2 & G2 & K2 & M2). exists r2. split_and!; auto; [by eapply grows_trans|by etransitivity|congruence].
Qed.

(** ** The world after start() *)
Lemma started_ok w cid c r wr ino s : w_ok w -> w_clients w !! cid = Some c -> w_regs w !! cl_reg c = Some r ->
  f_writers (w_files w) !! wr = None -> f_inodes (w_files w) !! ino = None -> w_ok (started w cid c r wr ino s).
Proof.
  intros W Hc Hr Hwr Hino.
  unfold started. destruct (set_upds_ok wr (g_upd s) _ (wo_heap _ W)) as [U1 U2]. destruct W as [W1 W2 W3 W4 W5 W6 W7 W8 W9].
    split; cbn [w_heap w_regs w_clients w_files w_paths w_offs f_writers f_inodes]; auto.
    + intros rid r0 H. apply lookup_insert_Some in H as [[<- <-]|[_ H]]; eapply reg_ok_ext; [exact W1|exact U2|apply reg_ok_mapped; eauto|exact W1|exact U2|eauto].
    + intros mp m n c0 cl Hm Hc0 Hcl. rewrite set_upds_lookup in Hm. destruct (h_metrics (w_heap w) !! mp) as [m0|] eqn:E0; [|discriminate]. cbn in Hm. simplify_eq.
      rewrite cell_at_upds in Hc0. destruct (cell_at m0 n) as [c1|] eqn:E1; [|discriminate]. cbn in Hc0. simplify_eq.
      unfold set_cell_upd in Hcl. destruct (g_upd s !! (mp, n)); cbn in Hcl; simplify_eq; [rewrite lookup_insert; eauto|].
      destruct (W4 _ _ _ _ _ E0 E1 Hcl) as [x Hx]. rewrite lookup_insert_ne by congruence. eauto.
    + intros wr' x H. apply lookup_insert_Some in H as [[<- <-]|[_ H]]; cbn; [rewrite lookup_insert; eauto|].
      destruct (W5 _ _ H) as [b Hb]. rewrite lookup_insert_ne by congruence. eauto.
    + intros wr1 wr2 x1 x2 H1 H2 E. apply lookup_insert_Some in H1 as [[<- <-]|[N1 H1]]; apply lookup_insert_Some in H2 as [[<- <-]|[N2 H2]]; auto; cbn in E.
      * destruct (W5 _ _ H2) as [b Hb]. congruence.
      * destruct (W5 _ _ H1) as [b Hb]. congruence.
      * eauto.
    + intros cid' c' H. apply lookup_insert_Some in H as [[<- <-]|[_ H]]; cbn.
      * rewrite lookup_insert. split; [eauto|]. intros wr' E. simplify_eq. rewrite lookup_insert. eauto.
      * destruct (W7 _ _ H) as [K1 K2]. split.
        -- destruct (decide (cl_reg c' = cl_reg c)) as [->|N2]; [rewrite lookup_insert; eauto|]. rewrite lookup_insert_ne by congruence. exact K1.
        -- intros wr' Hwr'. destruct (K2 _ Hwr') as (x & Hx & Hl). exists x. rewrite lookup_insert_ne by congruence. auto.
    + intros cid1 cid2 c1 c2 wr' H1 H2 E1 E2. apply lookup_insert_Some in H1 as [[<- <-]|[N1 H1]]; apply lookup_insert_Some in H2 as [[<- <-]|[N2 H2]]; cbn in *; simplify_eq; auto.
      * destruct (W7 _ _ H2) as [_ K]. destruct (K _ E2) as (x & Hx & _). congruence.
      * destruct (W7 _ _ H1) as [_ K]. destruct (K _ E1) as (x & Hx & _). congruence.
      * eauto.
    + intros p ino' H. apply lookup_insert_Some in H as [[<- <-]|[_ H]]; [rewrite lookup_insert; eauto|].
    destruct (W9 _ _ H) as [b Hb]. rewrite lookup_insert_ne by congruence. eauto.
Qed.
Lemma unmark w cid c r wr ino s : w_regs w !! cl_reg c = Some r ->
  set_regs (started w cid c r wr ino s) (w_regs w) =
  mkWorld (w_heap (started w cid c r wr ino s)) (<[cl_reg c := set_mapped (set_mapped r true) (r_mapped r)]> (w_regs (started w cid c r wr ino s)))
    (w_clients (started w cid c r wr ino s)) (w_files (started w cid c r wr ino s)) (w_paths (started w cid c r wr ino s)) (w_offs (started w cid c r wr ino s)) false.
Proof. intros Hr. unfold set_regs, started. cbn [w_regs w_heap w_clients w_files w_paths w_offs w_dead]. f_equal. rewrite insert_insert. destruct r. cbn. symmetry. by apply insert_id. Qed.
Lemma set_regs_file w regs c : file_of (set_regs w regs) c = file_of w c.
Proof. reflexivity. Qed.

Lemma Length_pos hp r : reg_ok hp r -> 40 <= Length r.
Proof.
  intros H.
  assert (forall m, 0 <= n_values hp m) as NV by (intros m; unfold n_values; destruct (metric_dom hp m); lia).
  assert (forall a b, 0 <= n_texts a b) as NT by (intros a b; unfold n_texts; repeat case_bool_decide; lia).
  assert (0 <= r_instanceCount r) by (rewrite (ro_ic _ _ H); apply sumZ_nonneg, Forall_true; intros d; lia).
  assert (0 <= r_valueCount r) by (rewrite (ro_vc _ _ H); apply sumZ_nonneg, Forall_true; apply NV).
  assert (0 <= r_stringcount r).
  { rewrite (ro_sc _ _ H). unfold spec_texts. apply Z.add_nonneg_nonneg; apply sumZ_nonneg, Forall_true; [intros d; apply NT|].
    intros m. specialize (NV m). specialize (NT (md_short (m_desc m)) (md_long (m_desc m))). destruct (_ =? _); lia. }
  assert (0 <= MetricCount r /\ 0 <= InstanceDomainCount r) by (unfold MetricCount, InstanceDomainCount; lia).
  unfold Length, tocCount, StringCount, InstanceLength, MetricLength, ValuesCount, InstanceCount, HeaderLength, TocLength, Metric1Length, Metric2Length, ValueLength, Instance1Length, Instance2Length, InstanceDomainLength, StringLength.
  destruct (r_version2 r); repeat match goal with |- context[0 <? ?x] => destruct (Z.ltb_spec 0 x) end; lia.
Qed.

Lemma beside_ext w tr w' : w_ok w -> beside w tr w' -> heap_ext (w_heap w) (w_heap w').
Proof.
  intros W [H _]. induction H as [w|w c o w1 tr w' S H IH]; [apply heap_ext_refl|].
  eapply heap_ext_trans; [by eapply step_heap_ext|]. apply IH. by eapply wstep_ok.
Qed.
Lemma beside_dead w tr w' : beside w tr w' -> w_dead w = false -> w_dead w' = false.
Proof.
  intros [H F]. induction H as [w|w c o w1 tr w' S H IH]; [done|]. apply Forall_cons in F as [F1 F2]. intros Hd. apply IH; [exact F2|].
  destruct S; try contradiction; cbn; try done.
Qed.
(** Updates do not look at the registries. *)
Definition with_regs (w : world) (regs : gmap nat registry) : world := mkWorld (w_heap w) regs (w_clients w) (w_files w) (w_paths w) (w_offs w) (w_dead w).
Lemma update_regs w mp op mst o w' regs : wstep w (CUpdate mp op mst) o w' -> wstep (with_regs w regs) (CUpdate mp op mst) o (with_regs w' regs).
Proof.
  intros H. inversion H as [| | | | | | | | | | | | | | |? ? ? ? m ? fs' m' Hd Hm Ha Hrun]; subst.
  exact (ws_update (with_regs w regs) mp op mst m o fs' m' Hd Hm Ha Hrun).
Qed.
(** Updates, with strings that fit for the metrics of [r]. *)
Definition updates (r : registry) (cl : call) : Prop :=
  match cl with CUpdate mp op _ => registered r mp -> op_fits op | _ => False end.
Lemma updates_regs r w tr w' regs cid c : phist (fun _ cl => updates r cl) w tr w' -> w_clients w !! cid = Some c -> regs !! cl_reg c = Some (set_mapped r true) ->
  w_clients w' = w_clients w /\ w_paths w' = w_paths w /\ exists tr', phist (fun w cl => keeps w cid cl) (with_regs w regs) tr' (with_regs w' regs).
Proof.
  intros H Hc Hr. induction H as [w|w cl o w1 tr w' P S H IH]; [split_and!; auto; eexists; constructor|].
  destruct cl as [| | | | | | | | | | |mp op mst]; try contradiction.
  assert (w_clients w1 = w_clients w /\ w_paths w1 = w_paths w) as [E1 E2] by (inversion S; subst; auto).
  destruct IH as (A1 & A2 & tr' & A3); [by rewrite E1|]. split_and!; [congruence|congruence|]. eexists. eapply ph_cons; [|by apply update_regs|exact A3].
  intros c' r' Hc' Hr'. cbn in Hc', Hr'. assert (c' = c) as -> by congruence. assert (r' = set_mapped r true) as -> by congruence. exact P.
Qed.

Section race.
  Context (w : world) (cid : nat) (gen pid : Z) (tr1 : list (world * call * outcome)) (w1 : world) (tr2 : list (world * call * outcome)) (w' : world) (c : client) (r r1 : registry).
  Context (W : w_ok w) (Hc : w_clients w !! cid = Some c) (Hr : w_regs w !! cl_reg c = Some r) (Hr1 : w_regs w1 !! cl_reg c = Some r1).
  Context (HR : start_race w cid gen pid tr1 w1 tr2 ROk w').

  Lemma race_parts : exists wr ino s w3 r3, w_ok w1 /\ w_ok w3 /\ beside w tr1 w1 /\ (r1 = r \/ Length r < Length r1) /\
    f_writers (w_files w1) !! wr = None /\ f_inodes (w_files w1) !! ino = None /\
    sized_run (Length r) (w_heap w1) (w_offs w1) (start_cfg c r1 gen pid) s /\
    beside (set_regs (started w1 cid c r1 wr ino s) (w_regs w1)) tr2 w3 /\
    w_regs w3 !! cl_reg c = Some r3 /\ w' = set_regs w3 (<[cl_reg c := set_mapped r3 true]> (w_regs w3)) /\ r_metrics r1 ⊆ r_metrics r3 /\
    w_clients w' !! cid = Some (mkClient (cl_loc c) (cl_cluster c) (cl_flag c) (cl_reg c) (Some wr)) /\
    w_paths w' !! cl_loc c = Some ino /\ w_files w' = mkFiles (<[wr := mkWriter ino true]> (f_writers (w_files w1))) (<[ino := g_buf s]> (f_inodes (w_files w1))) /\
    (forall mp m, h_metrics (w_heap w') !! mp = Some m -> h_metrics (set_upds wr (g_upd s) (w_heap w1)) !! mp = Some m \/ no_closures m) /\
    heap_ext (set_upds wr (g_upd s) (w_heap w1)) (w_heap w') /\
    (forall mp m, h_metrics (set_upds wr (g_upd s) (w_heap w1)) !! mp = Some m -> h_metrics (w_heap w') !! mp = Some m).
  Proof.
    inversion HR as [c' r' r1' wr ino s w3 r3 Hd Hc' Hr' B1 Hr1' Hwr Hino Rn B3 Hr3|]; subst.
    assert (c' = c) as -> by congruence. assert (r' = r) as -> by congruence. assert (r1' = r1) as -> by congruence.
    destruct (beside_ok _ _ _ W B1) as (W1 & C1 & F1 & P1 & O1 & M1 & N1 & R1). destruct (R1 _ _ Hr) as (r1' & E & G & K & Mp). assert (r1' = r1) as -> by congruence.
    assert (w_clients w1 !! cid = Some c) as Hc1 by congruence.
    assert (w_ok (set_regs (started w1 cid c r1 wr ino s) (w_regs w1))) as W2.
    { rewrite (unmark _ _ _ _ _ _ _ Hr1). apply w_ok_unmapped; [by apply started_ok|]. unfold started. cbn. apply lookup_insert. }
    destruct (beside_ok _ _ _ W2 B3) as (W3 & C3 & F3 & P3 & O3 & M3 & N3 & R3).
    destruct (R3 (cl_reg c) r1 Hr1) as (r3' & E3 & G3 & K3 & Mp3). assert (r3' = r3) as -> by congruence.
    exists wr, ino, s, w3, r3. split_and!; auto.
    - apply grows_length; [|exact G]. rewrite (ro_ic _ _ (wo_regs _ W _ _ Hr)). apply sumZ_nonneg, Forall_true. intros d. lia.
    - cbn. rewrite C3. unfold started. cbn. apply lookup_insert.
    - cbn. rewrite P3. unfold started. cbn. apply lookup_insert.
    - exact (beside_ext _ _ _ W2 B3).
  Qed.

  Lemma race_file : startable (w_heap w1) r1 -> exists b rest, file_of w' c = Some b /\ zlen b = Length r /\ zlen (b ++ rest) = Length r1 /\
    complete_file (w_heap w1) c r1 gen pid (b ++ rest).
  Proof.
    intros Hs. destruct race_parts as (wr & ino & s & w3 & r3 & W1 & W3 & B1 & G & Hwr & Hino & Rn & B3 & Hr3 & Ew & K3 & Cl & Pa & Fi & _ & _ & _).
    pose proof (wo_regs _ W1 _ _ Hr1) as Hro.
    assert (0 <= Length r <= Length r1) as Hn.
    { pose proof (Length_pos _ _ (wo_regs _ W _ _ Hr)). destruct G as [->|G]; lia. }
    destruct (short_start (Length r) (w_heap w1) (w_offs w1) (start_cfg c r1 gen pid) s) as (t & (pl & Hp & Rt & Nt) & P); auto; [apply W1|].
    destruct (start_complete (w_heap w1) c r1 gen pid pl (w_offs w1) t) as [Lt Ct]; auto; [apply W1|by apply gsteps_rsteps|].
    destruct P as (Eb & _ & _ & _ & _ & _). exists (g_buf s), (drop (Z.to_nat (Length r)) (g_buf t)). split.
    - unfold file_of. rewrite Pa. cbn. rewrite Fi. cbn. apply lookup_insert.
    - rewrite Eb. rewrite take_drop. split_and!; auto. unfold zlen in *. rewrite take_length. lia.
  Qed.

  Lemma race_registered : exists r', w_regs w' !! cl_reg c = Some r' /\ r_mapped r' = true /\ r_metrics r1 ⊆ r_metrics r'.
  Proof.
    destruct race_parts as (wr & ino & s & w3 & r3 & W1 & W3 & B1 & G & Hwr & Hino & Rn & B3 & Hr3 & Ew & K3 & Cl & Pa & Fi & _ & _ & _).
    exists (set_mapped r3 true). rewrite Ew. split; [apply lookup_insert|]. auto.
  Qed.

  Lemma race_late mp op mst o w'' : ~ registered r1 mp -> wstep w' (CUpdate mp op mst) o w'' -> file_of w'' c = file_of w' c.
  Proof.
    intros Hreg Hst. destruct race_parts as (wr & ino & s & w3 & r3 & W1 & W3 & B1 & G & Hwr & Hino & Rn & B3 & Hr3 & Ew & K3 & Cl & Pa & Fi & N & _ & _).
    assert (w_ok w') as W'. { rewrite Ew. apply (w_ok_unmapped w3 (cl_reg c) r3 true (w_dead w3) W3 Hr3). }
    inversion Hst as [| | | | | | | | | | | | | | |? ? ? ? m ? fs' m' Hd Hm Ha Hrun]; subst w''. pose proof (ho_metrics _ (wo_heap _ W') _ _ Hm) as Hok.
    destruct (update_runs _ _ _ _ _ _ _ _ Hok Ha Hrun) as [Ru _]. destruct (mrun_frame _ _ _ _ _ _ _ Ru Hok) as (_ & _ & _ & _ & _ & _ & F).
    unfold file_of. cbn. rewrite Pa. cbn. apply F. intros n c0 cl x Hx1 Hx2 Hx3 E. apply Hreg.
    destruct (N _ _ Hm) as [Hm1|Hm1]; [|rewrite (Hm1 _ _ Hx1) in Hx2; discriminate].
    assert (cl_writer cl = wr) as Ewr. { eapply (wo_inj _ W' _ _ x (mkWriter ino true)); [exact Hx3| |exact E]. rewrite Fi. cbn. apply lookup_insert. }
    rewrite set_upds_lookup in Hm1. destruct (h_metrics (w_heap w1) !! mp) as [m0|] eqn:E0; [|discriminate]. cbn in Hm1. apply (inj Some) in Hm1 as <-.
    rewrite cell_at_upds in Hx1. destruct (cell_at m0 n) as [c1|] eqn:E1; [|discriminate]. cbn in Hx1. apply (inj Some) in Hx1 as <-.
    destruct (g_upd s !! (mp, n)) as [off|] eqn:Eu.
    - destruct Rn as (pl & Hp & Rs & _). apply gsteps_rsteps in Rs. destruct (decide ((mp, n) ∈ concat (map met_keys (pl_mets pl)))) as [Hin|Hin].
      + apply elem_of_list_In, in_concat in Hin as (l & Hl & Hin). apply in_map_iff in Hl as (p & <- & Hp1). apply elem_of_list_In in Hp1, Hin.
        destruct (plan_met_in _ _ _ (wo_regs _ W1 _ _ Hr1) Hp _ Hp1) as (mp' & m9 & Hm' & Hreg' & _ & Hok'). destruct (mplan_mp _ _ _ _ Hm' Hok') as (_ & _ & _ & Hmq).
        assert (mp' = mp) as ->; [|eexists; exact Hreg']. destruct p as [mq d v|mq d ip dom0 vals]; cbn in Hin; destruct Hmq as [-> _].
        * apply elem_of_list_singleton in Hin. congruence.
        * apply elem_of_list_fmap in Hin as (y & Ey & _). congruence.
      + assert (g_upd s !! (mp, n) = None) as U by exact (uk_run _ _ _ _ Rs (uk_start _ pl) _ Hin). congruence.
    - cbn in Hx2. destruct (wo_closures _ W1 _ _ _ _ _ E0 E1 Hx2) as [y Hy]. congruence.
  Qed.

  (** Something was registered before start(): the reader refuses the file. *)
  Lemma race_refused b o : reachable w1 -> startable (w_heap w1) r1 -> r1 <> r -> file_of w' c = Some b -> dump_run b o -> o = DErr.
  Proof.
    intros Rw Hs Hne Hb Hd. destruct race_parts as (wr & ino & s & w3 & r3 & W1 & W3 & B1 & G & Hwr & Hino & Rn & B3 & Hr3 & Ew & K3 & Cl & Pa & Fi & _ & _ & _).
    pose proof (wo_regs _ W1 _ _ Hr1) as Hro. destruct G as [G|G]; [contradiction|]. pose proof (Length_pos _ _ (wo_regs _ W _ _ Hr)) as Hpos.
    destruct (short_start (Length r) (w_heap w1) (w_offs w1) (start_cfg c r1 gen pid) s) as (t & St & P); auto; [apply W1|cbn; lia|].
    destruct (beside_ok _ _ _ W B1) as (_ & C1 & _). assert (w_clients w1 !! cid = Some c) as Hc1 by congruence.
    assert (w_dead w1 = false) as Hd1. { eapply beside_dead; [exact B1|]. by inversion HR. }
    destruct (start_hist w1 cid c r1 gen pid (started w1 cid c r1 wr ino t) [] (started w1 cid c r1 wr ino t)) as (W2 & S2 & _); auto; [by apply ws_start|constructor|].
    destruct (synced_complete _ _ _ _ W2 S2) as (c' & r' & buf & d & H1 & H2 & H3 & H4 & H5).
    unfold started in H1. cbn in H1. rewrite lookup_insert in H1. apply (inj Some) in H1 as <-.
    assert (buf = g_buf t) as ->. { unfold file_of, started in H3. cbn in H3. rewrite lookup_insert in H3. cbn in H3. rewrite lookup_insert in H3. congruence. }
    assert (b = g_buf s) as ->. { unfold file_of in Hb. rewrite Pa in Hb. cbn in Hb. rewrite Fi in Hb. cbn in Hb. rewrite lookup_insert in Hb. congruence. }
    destruct P as (Eb & _). rewrite Eb in Hd. refine (truncated_run _ _ _ _ H5 _ Hd). unfold zlen in *. unfold started in H2. cbn in H2. rewrite lookup_insert in H2. apply (inj Some) in H2 as <-. cbn in H4. change (Length (set_mapped r1 true)) with (Length r1) in H4. lia.
  Qed.

  (** Nothing was registered before start(): the file shows the metrics of [r] and is kept up to date. *)
  Lemma race_kept tr w'' : startable (w_heap w1) r -> r1 = r -> phist (fun _ cl => updates r cl) w' tr w'' ->
    exists b, file_of w'' c = Some b /\ zlen b = Length r /\ complete_file (w_heap w'') c r gen pid b.
  Proof.
    intros Hs Heq H. destruct race_parts as (wr & ino & s & w3 & r3 & W1 & W3 & B1 & G & Hwr & Hino & Rn & B3 & Hr3 & Ew & K3 & Cl & Pa & Fi & N & X & Y). subst r1.
    assert (w_ok w') as W'. { rewrite Ew. apply (w_ok_unmapped w3 (cl_reg c) r3 true (w_dead w3) W3 Hr3). }
    destruct (beside_ok _ _ _ W B1) as (_ & C1 & _). assert (w_clients w1 !! cid = Some c) as Hc1 by congruence.
    pose proof (started_ok w1 cid c r wr ino s W1 Hc1 Hr1 Hwr Hino) as W2.
    assert (start_run (w_heap w1) (w_offs w1) (start_cfg c r gen pid) s) as St by exact Rn.
    destruct (start_synced w1 cid gen pid c r wr ino s W1 Hc1 Hr1 Hwr Hino Hs St) as (c2 & r2 & wr2 & ino2 & pl & ad & am & buf & Q1 & Q2 & Q3 & Q4 & Q5 & Q6).
    set (w4 := with_regs w' (<[cl_reg c := set_mapped r true]> (w_regs w1))).
    assert (w_clients w' = w_clients (started w1 cid c r wr ino s) /\ w_paths w' = w_paths (started w1 cid c r wr ino s) /\ w_files w' = w_files (started w1 cid c r wr ino s) /\ w_offs w' = w_offs (started w1 cid c r wr ino s)) as (E1 & E2 & E3 & E4).
    { assert (w_ok (set_regs (started w1 cid c r wr ino s) (w_regs w1))) as W2' by (rewrite (unmark _ _ _ _ _ _ _ Hr1); apply w_ok_unmapped; [exact W2|unfold started; cbn; apply lookup_insert]).
      rewrite Ew. destruct (beside_ok _ _ _ W2' B3) as (_ & A1 & A2 & A3 & A4 & _). split_and!; assumption. }
    assert (w_ok w4) as W4.
    { unfold w4, with_regs. rewrite E1, E2, E3, E4. apply (w_ok_heap (started w1 cid c r wr ino s)); auto; [apply W'|].
      intros mp m n c0 cl A1 A2 A3. rewrite <- E3. eapply (wo_closures _ W'); eauto. }
    assert (synced w4 cid gen pid) as S4.
    { exists c2, r2, wr2, ino2, pl, ad, am, buf. split_and!; [unfold w4; cbn; by rewrite E1|exact Q2|exact Q3|exact Q4|unfold w4; cbn; by rewrite E2|].
      unfold w4. cbn [w_heap w_files with_regs]. rewrite E3. eapply sync_files; [apply W2|apply (wo_regs _ W2 _ _ Q2)|exact Q6| |reflexivity|reflexivity| |].
      - split; [exact X|]. intros mp m _ Hm. exists m. split; [by apply Y|]. split; reflexivity.
      - intros mp m n c0 Hm _ Hc0. exists m, c0. split_and!; auto.
      - intros mp m n c0 Hm Hc0. destruct (N _ _ Hm) as [Hm1|Hm1]; [right; right; eauto|left; by eapply Hm1]. }
    destruct (updates_regs r w' tr w'' (<[cl_reg c := set_mapped r true]> (w_regs w1)) cid _ H Cl) as (U1 & U2 & tr' & U3); [apply lookup_insert|].
    destruct (synced_hist _ _ _ _ _ _ W4 S4 U3) as [W5 S5]. destruct (synced_file _ _ _ _ W5 S5) as (c5 & r5 & b & F1 & F2 & F3 & F4 & F5 & F6).
    cbn in F1. rewrite U1, Cl in F1. apply (inj Some) in F1 as <-. cbn in F2. rewrite lookup_insert in F2. apply (inj Some) in F2 as <-.
    exists b. split_and!; [exact F4|exact F5|]. destruct F6 as (d & D1 & D2 & D3). exists d. split_and!; [exact D1|exact D2|exact D3].
  Qed.
End race.

(** Without registrations in between this is the Start of World.v. *)
Lemma beside_nil w w' : beside w [] w' <-> w' = w.
Proof. split; [intros [H _]; by inversion H|intros ->; split; constructor]. Qed.
Lemma race_quiet w cid gen pid o w' : start_race w cid gen pid [] w [] o w' <-> wstep w (CStart cid gen pid true) o w'.
Proof.
  split.
  - intros H. inversion H as [c r r1 wr ino s w3 r3 Hd Hc Hr B1 Hr1 Hwr Hino Rn B3 Hr3|c r r1 ino s Hd Hc Hr B1 Hr1 Hino Rn _]; subst; assert (r1 = r) as -> by congruence.
    + apply beside_nil in B3 as ->. cbn in Hr3. assert (r3 = r) as -> by congruence.
      exact (ws_start w cid gen pid c r wr ino s Hd Hc Hr Hwr Hino Rn).
    + pose proof (ws_start_panic w cid gen pid c r ino s Hd Hc Hr Hino Rn) as S. exact S.
  - intros H. inversion H as [| | | | | | | | |? ? ? ? c r wr ino s Hd Hc Hr Hwr Hino Rn|? ? ? ? c r ino s Hd Hc Hr Hino Rn| | | | |]; subst.
    + pose proof (sr_ok w cid gen pid [] w [] c r r wr ino s _ r Hd Hc Hr (proj2 (beside_nil w w) eq_refl) Hr Hwr Hino Rn (proj2 (beside_nil _ _) eq_refl) Hr) as S. exact S.
    + pose proof (sr_panic w cid gen pid [] w [] c r r ino s Hd Hc Hr (proj2 (beside_nil w w) eq_refl) Hr Hino Rn eq_refl) as S. exact S.
Qed.
