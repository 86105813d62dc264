(** Facts about whole call histories: what happens to one metric (C14, C17, C18). *)
From Verif Require Import Base BaseFacts Floats GoVal MetricType ByteWriter Hash Units Indom Metrics Registry Prog
  Client Mmvdump Events BufFacts View RegInv Update World OpRuns RegFacts WorldInv Sync FloatFacts FlocqFacts FloatMono ValueFacts MetricFacts OpFacts GaugeFacts.

(** One call: a metric is changed by its own updates only. *)
Lemma wstep_metric w cl o w' mp m : w_ok w -> wstep w cl o w' -> h_metrics (w_heap w) !! mp = Some m ->
  exists m', h_metrics (w_heap w') !! mp = Some m' /\ m_desc m' = m_desc m /\ m_indom m' = m_indom m /\
    ((exists op mst, cl = CUpdate mp op mst /\ op_args (w_heap w) m op /\
        (if mst then must_m <$> run_op (w_files w) (w_heap w) m op else run_op (w_files w) (w_heap w) m op) = Some (o, w_files w', m')) \/
     ((forall op mst, cl <> CUpdate mp op mst) /\ m_kind m' = m_kind m /\ forall n, val_at m' n = val_at m n)).
Proof.
  intros W H Hmp.
  assert (SAME : forall w1, (forall op mst, cl <> CUpdate mp op mst) -> h_metrics (w_heap w1) !! mp = Some m -> w1 = w' ->
    exists m', h_metrics (w_heap w') !! mp = Some m' /\ m_desc m' = m_desc m /\ m_indom m' = m_indom m /\
    ((exists op mst, cl = CUpdate mp op mst /\ op_args (w_heap w) m op /\
        (if mst then must_m <$> run_op (w_files w) (w_heap w) m op else run_op (w_files w) (w_heap w) m op) = Some (o, w_files w', m')) \/
     ((forall op mst, cl <> CUpdate mp op mst) /\ m_kind m' = m_kind m /\ forall n, val_at m' n = val_at m n))).
  { intros w1 N E <-. exists m. split_and!; auto. }
  destruct H as [w rid Hd Hr0|w cid' name loc rid Hd Hc0 Hr0|w ip name insts desc d Hd Hip Hn|w mp0 ip m0 new Hd Hmp0 Hip Hcr|w rid mp0 r0 m0 o r' Hd Hr0 Hm Ha
    |w rid ip r0 d Hd Hr0 Hip|w rid ip name insts r0 o hp' r' Hd Hr0 Hip Ha|w rid mp0 ip name indom insts val t s u ord r0 o hp' r' Hd Hr0 Hmp0 Hip Hv Hda Hord Ha
    |w cid' flag c0 r0 Hd Hc0 Hr0|w cid' gen' pid' c0 r0 wr' ino' s Hd Hc0 Hr0 Hwr0 Hino Hs|w cid' gen' pid' c0 r0 ino' s Hd Hc0 Hr0 Hino Hs|w cid' gen' pid' c0 r0 paths inodes Hd Hc0 Hr0 Hs
    |w cid' erase os c0 r0 Hd Hc0 Hr0 Hm|w cid' erase c0 r0 o w' Hd Hc0 Hr0 Hm Hs|w cid' erase c0 r0 wr' fs' Hd Hc0 Hr0 Hm Hwr0 Hfs|w mp0 op mst m0 o fs' m' Hd Hm Ha Hu];
    try (eapply SAME; [discriminate| |reflexivity]; assumption).
  - eapply SAME; [discriminate| |reflexivity]. cbn. rewrite lookup_insert_ne; congruence.
  - eapply SAME; [discriminate| |reflexivity]. cbn. destruct (add_indom_by_name_next _ _ _ _ _ _ _ _ (wo_heap _ W) (wo_regs _ W _ _ Hr0) Hip Ha) as (N & _). by apply (rn_old _ _ _ _ _ N).
  - eapply SAME; [discriminate| |reflexivity]. cbn.
    pose proof (add_by_string_next _ _ _ _ _ _ _ _ _ _ _ _ _ _ _ (wo_heap _ W) (wo_regs _ W _ _ Hr0) Hmp0 Hip Hv Hda Hord Ha) as N. by apply (rn_old _ _ _ _ _ N).
  - unfold started. cbn [w_heap]. rewrite set_upds_lookup, Hmp. cbn. eexists. split; [reflexivity|]. split; [reflexivity|]. split; [apply upds_indom|]. right.
    split_and!; [discriminate|reflexivity|]. intros n. unfold val_at. rewrite cell_at_upds. destruct (cell_at m n); cbn; [|reflexivity]. by rewrite set_cell_val.
  - unfold stopped in Hs. repeat case_match; injection Hs as <- <-; (eapply SAME; [discriminate| |reflexivity]; assumption).
  - destruct (decide (mp0 = mp)) as [->|N].
    + assert (m0 = m) as -> by congruence. exists m'. cbn. rewrite lookup_insert.
      destruct (update_same _ _ _ _ _ _ _ _ (ho_metrics _ (wo_heap _ W) _ _ Hm) Ha Hu) as [_ A B]. split_and!; auto. left. eauto 10.
    + eapply SAME; [congruence| |reflexivity]. cbn. by rewrite lookup_insert_ne.
Qed.

Lemma hist_ok w tr w' : w_ok w -> hist w tr w' -> w_ok w'.
Proof. intros W H. induction H; eauto using wstep_ok. Qed.
Lemma hist_reachable w tr w' : reachable w -> hist w tr w' -> reachable w'.
Proof. intros R H. induction H as [|w c o w1 tr w' S H IH]; [exact R|]. apply IH. eapply rtc_r; [exact R|]. exists c, o. exact S. Qed.

(** ** Counters over histories (C14) *)
(** No addition of the history [tr] to the value of instance [n] of metric [mp] overflows int64. *)
Definition no_overflow (mp : nat) (n : option gostring) (tr : list (world * call * outcome)) : Prop :=
  Forall (fun '(w, c, _) => forall op mst, c = CUpdate mp op mst -> forall m v, h_metrics (w_heap w) !! mp = Some m ->
    val_at m n = Some (VInt64 v) -> v + inc_amount op < 2 ^ 63) tr.

Lemma kind_step w cl o w' mp m m' : w_ok w -> wstep w cl o w' -> h_metrics (w_heap w) !! mp = Some m -> h_metrics (w_heap w') !! mp = Some m' ->
  (forall s t, m_kind m <> MTimer s t) -> m_kind m' = m_kind m.
Proof.
  intros W H Hm Hm' Hk. destruct (wstep_metric _ _ _ _ _ _ W H Hm) as (m1 & H1 & _ & _ & [(op & mst & -> & Ha & Hr)|(_ & K & _)]); [|congruence].
  assert (m1 = m') as -> by congruence. pose proof (ho_metrics _ (wo_heap _ W) _ _ Hm) as Hok. destruct (update_runs _ _ _ _ _ _ _ _ Hok Ha Hr) as [R _].
  clear - R Hk. induction R; auto.
  - exfalso. destruct (m_kind m) as [| | |s t| | | |] eqn:E; try contradiction. by eapply Hk.
  - rewrite IHR; [unfold put_cell; destruct (m_body m), n; reflexivity|]. unfold put_cell. destruct (m_body m), n; exact Hk.
  - unfold put_cell. destruct (m_body m), n; reflexivity.
Qed.

Lemma counter_hist w tr w' mp m n v : w_ok w -> hist w tr w' -> h_metrics (w_heap w) !! mp = Some m ->
  (m_kind m = MCounter \/ m_kind m = MCounterVector) -> no_overflow mp n tr -> val_at m n = Some (VInt64 v) ->
  exists m' v', h_metrics (w_heap w') !! mp = Some m' /\ val_at m' n = Some (VInt64 v') /\ v <= v'.
Proof.
  intros W H. revert m v W. induction H as [w|w c o w1 tr w' S H IH]; intros m v W Hm Hk NO Hv; [exists m, v; split_and!; auto; lia|].
  inversion NO as [|? ? N1 N2]; subst. destruct (wstep_metric _ _ _ _ _ _ W S Hm) as (m1 & H1 & _ & _ & D).
  assert (m_kind m1 = m_kind m) as Ek. { eapply (kind_step w c o w1 mp m m1); eauto. intros s t E. destruct Hk; congruence. }
  rewrite <- Ek in Hk.
  assert (exists v1, val_at m1 n = Some (VInt64 v1) /\ v <= v1) as (v1 & Hv1 & L1).
  { destruct D as [(op & mst & -> & Ha & Hr)|(_ & _ & E)]; [|exists v; rewrite E; split; [exact Hv|lia]].
    destruct (counter_step (w_heap w) (w_files w) m op mst o (w_files w1) m1 n v) as (v1 & K1 & K2); auto.
    - apply (ho_metrics _ (wo_heap _ W) _ _ Hm).
    - by rewrite <- Ek.
    - by apply int_at_val.
    - eapply N1; eauto.
    - exists v1. split; [by apply int_at_val|exact K2]. }
  destruct (IH m1 v1) as (m2 & v2 & A & B & C); auto; [eapply wstep_ok; eauto|]. exists m2, v2. split_and!; auto. lia.
Qed.

(** ** Timers over histories (C17, C18) *)
(** What a sequence of successful calls on timer [mp] with unit [u] should give: the
    start time if running, and the total so far. *)
Definition timer_fold (u : Z) (mp : nat) (st : option Z * Z) (e : world * call * outcome) : option Z * Z :=
  match e with
  | (_, CUpdate mp' op _, ROk) =>
      if decide (mp' = mp) then
        match op, st.1 with
        | OTStart now, _ => (Some now, st.2)
        | OTReset, _ => (st.1, f64_zero)
        | OTStop now, Some t0 => (None, f64_add st.2 (timer_increment u (time_since now t0)))
        | _, _ => st
        end
      else st
  | _ => st
  end.

(** Same double up to the sign of zero. *)
Definition same_but_zero (a b : Z) : Prop := a = b \/ (exists s s', f64_val a = S754_zero s /\ f64_val b = S754_zero s').

Lemma same_but_zero_eqb a b : in_unsigned 64 a -> in_unsigned 64 b -> f64_eqb a b = true -> same_but_zero a b.
Proof.
  intros Ha Hb H. destruct (SFeqb_cases _ _ H) as [E|K]; [|by right]. left. apply decode_inj; auto. intros N. unfold f64_eqb in H. rewrite N in H. discriminate.
Qed.
Lemma same_but_zero_add a b c : same_but_zero a b -> same_but_zero (f64_add a c) (f64_add b c).
Proof.
  intros [->|(s & s' & Ea & Eb)]; [by left|]. unfold f64_add. rewrite Ea, Eb. destruct (f64_val c) as [sc|sc| |sc m e]; cbn; try (left; reflexivity).
  right. destruct s, s', sc; cbn; eexists _, _; split; vm_compute; reflexivity.
Qed.
Lemma same_but_zero_trans a b c : same_but_zero a b -> same_but_zero b c -> same_but_zero a c.
Proof. intros [->|(s & s' & H1 & H2)] [->|(t & t' & H3 & H4)]; [by left|right; eauto|right; eauto|right; eauto]. Qed.

Definition run_of (s : bool) (t : Z) : option Z := if s then Some t else None.

Lemma timer_one hp fs m op (mst : bool) o fs' m' s t v w mp : metric_ok hp m -> op_args hp m op -> m_kind m = MTimer s t -> m_val m = Some (VF64 v) ->
  (if mst then must_m <$> run_op fs hp m op else run_op fs hp m op) = Some (o, fs', m') ->
  exists s' t' v', m_kind m' = MTimer s' t' /\ m_val m' = Some (VF64 v') /\
    let st := timer_fold (md_unit (m_desc m)) mp (run_of s t, v) (w, CUpdate mp op mst, o) in
    run_of s' t' = st.1 /\ same_but_zero v' st.2 /\
    (v' = v \/ v' = st.2 \/ op = OTReset).
Proof.
  intros Hm Ha Hk Hv Hr.
  assert (exists o', run_op fs hp m op = Some (o', fs', m') /\ (o = ROk <-> o' = ROk)) as (o' & Hr' & Ho).
  { destruct mst; [|eexists; split; [exact Hr|tauto]]. destruct (run_op fs hp m op) as [r|]; [|discriminate]. injection Hr as Hr. apply must_m_spec in Hr as (o' & -> & E & _). eauto. }
  clear Hr. unfold run_op in Hr'. rewrite Hk in Hr'.
  destruct (timer_shape _ _ _ _ Hm Hk) as (Ht & [c Hb] & v0 & Hv0 & Hvr). assert (v0 = v) as -> by congruence. clear Hv0.
  assert (NOP : m' = m -> (o' <> ROk \/ (forall now, op <> OTStart now) /\ op <> OTReset /\ (forall now, op <> OTStop now)) -> exists s' t' v', m_kind m' = MTimer s' t' /\ m_val m' = Some (VF64 v') /\
    let st := timer_fold (md_unit (m_desc m)) mp (run_of s t, v) (w, CUpdate mp op mst, o) in
    run_of s' t' = st.1 /\ same_but_zero v' st.2 /\ (v' = v \/ v' = st.2 \/ op = OTReset)).
  { intros -> N. exists s, t, v. split_and!; auto. cbn zeta. assert (timer_fold (md_unit (m_desc m)) mp (run_of s t, v) (w, CUpdate mp op mst, o) = (run_of s t, v)) as ->.
    { unfold timer_fold. destruct o; try reflexivity. destruct N as [N|(N1 & N2 & N3)]; [exfalso; tauto|]. case_decide; [|reflexivity]. destruct op; try reflexivity; congruence. }
    split_and!; cbn; auto. by left. }
  destruct op; try discriminate; injection Hr' as Hr'.
  - (* Start *)
    rewrite (timer_start_iff _ _ _ _ _ Hk) in Hr'. destruct s; injection Hr' as <- <- <-; [apply NOP; [reflexivity|left; discriminate]|].
    exists true, now, v. split_and!; [reflexivity|exact Hv|]. cbn zeta. assert (o = ROk) as -> by tauto. cbn. rewrite decide_True by reflexivity. split_and!; auto. by left.
  - (* Reset *)
    destruct s.
    + rewrite (timer_reset_busy _ _ _ Hk) in Hr'. injection Hr' as <- <- <-. apply NOP; [reflexivity|left; discriminate].
    + destruct (timer_reset_spec _ _ _ _ Hm Hk _ _ _ Hr') as [(-> & K1 & x & K2 & K3)|[N ->]]; [|apply NOP; auto].
      exists false, t, x. split_and!; auto. cbn zeta. assert (o = ROk) as -> by tauto. cbn. rewrite decide_True by reflexivity. split_and!; auto.
      right. destruct (eqb_zero x) as [sx Ex]; [unfold f64_eqb in *; by rewrite SFeqb_sym|]. exists sx, false. split; [exact Ex|reflexivity].
  - (* Stop *)
    destruct (timer_stop fs m now) as [[[o1 fs1] m1] ret] eqn:Es. cbn in Hr'. injection Hr' as -> -> ->. destruct s.
    + pose proof (timer_stop_spec _ _ _ _ _ _ Hm Hk Hv _ _ _ _ Es) as K. cbn zeta in K.
      destruct K as [(-> & (t1 & K1) & _ & x & K2 & K3)|[N ->]]; [|apply NOP; auto].
      exists false, t1, x. split_and!; auto. cbn zeta. assert (o = ROk) as -> by tauto. cbn. rewrite decide_True by reflexivity. split_and!; auto.
      * destruct K3 as [->|[-> K3]]; [by left|]. apply same_but_zero_eqb; [exact Hvr|apply f64_add_range|]. unfold f64_eqb in *. by rewrite SFeqb_sym.
      * destruct K3 as [->|[-> _]]; auto.
    + rewrite (timer_stop_idle _ _ _ _ Hk) in Es. injection Es as <- <- <- _. apply NOP; [reflexivity|left; discriminate].
Qed.

Lemma timer_fold_other u mp st w c o : (forall op mst, c <> CUpdate mp op mst) -> timer_fold u mp st (w, c, o) = st.
Proof. intros N. destruct c; try reflexivity. cbn. destruct o; try reflexivity. case_decide; [subst|reflexivity]. exfalso. by eapply N. Qed.

Lemma fold_same u mp : forall tr a b st, same_but_zero a b ->
  (foldl (timer_fold u mp) (st, a) tr).1 = (foldl (timer_fold u mp) (st, b) tr).1 /\ same_but_zero (foldl (timer_fold u mp) (st, a) tr).2 (foldl (timer_fold u mp) (st, b) tr).2.
Proof.
  induction tr as [|[[w c] o] tr IH]; intros a b st H; [auto|]. cbn [foldl].
  assert (exists st' a' b', timer_fold u mp (st, a) (w, c, o) = (st', a') /\ timer_fold u mp (st, b) (w, c, o) = (st', b') /\ same_but_zero a' b') as (st' & a' & b' & -> & -> & H').
  { unfold timer_fold. destruct c; eauto 7. destruct o; eauto 7. case_decide; eauto 7. destruct op; cbn; eauto 7; [eexists _, _, _; split_and!; [reflexivity..|by left]|].
    destruct st as [t|]; [|eauto 7]. eexists _, _, _. split_and!; [reflexivity..|]. by apply same_but_zero_add. }
  apply IH, H'.
Qed.

Lemma timer_hist w tr w' mp m s t v : w_ok w -> hist w tr w' -> h_metrics (w_heap w) !! mp = Some m -> m_kind m = MTimer s t -> m_val m = Some (VF64 v) ->
  exists m' s' t' v', h_metrics (w_heap w') !! mp = Some m' /\ m_desc m' = m_desc m /\ m_kind m' = MTimer s' t' /\ m_val m' = Some (VF64 v') /\
    let st := foldl (timer_fold (md_unit (m_desc m)) mp) (run_of s t, v) tr in run_of s' t' = st.1 /\ same_but_zero v' st.2.
Proof.
  intros W H. revert m s t v W. induction H as [w|w c o w1 tr w' S H IH]; intros m s t v W Hm Hk Hv.
  { exists m, s, t, v. cbn. split_and!; auto. by left. }
  destruct (wstep_metric _ _ _ _ _ _ W S Hm) as (m1 & H1 & E1 & _ & D).
  assert (exists s1 t1 v1, m_kind m1 = MTimer s1 t1 /\ m_val m1 = Some (VF64 v1) /\
    let st := timer_fold (md_unit (m_desc m)) mp (run_of s t, v) (w, c, o) in run_of s1 t1 = st.1 /\ same_but_zero v1 st.2) as (s1 & t1 & v1 & K1 & K2 & K3 & K4).
  { destruct D as [(op & mst & -> & Ha & Hr)|(N & Ek & Ev)].
    - destruct (timer_one _ _ _ _ _ _ _ _ _ _ _ w mp (ho_metrics _ (wo_heap _ W) _ _ Hm) Ha Hk Hv Hr) as (s1 & t1 & v1 & A & B & C & D & _). exists s1, t1, v1. auto.
    - exists s, t, v. rewrite Ek, <- val_at_single, Ev, val_at_single. split_and!; auto. cbn zeta. rewrite timer_fold_other by exact N. split; [reflexivity|by left]. }
  destruct (IH m1 s1 t1 v1) as (m' & s' & t' & v' & A & B & C & D' & E & F); auto; [eapply wstep_ok; eauto|]. exists m', s', t', v'. split_and!; auto; [congruence|].
  cbn [foldl]. cbn zeta. rewrite E1 in E, F. destruct (timer_fold (md_unit (m_desc m)) mp (run_of s t, v) (w, c, o)) as [st tot] eqn:Est. cbn [fst snd] in K3, K4. rewrite <- K3.
  destruct (fold_same (md_unit (m_desc m)) mp tr v1 tot (run_of s1 t1) K4) as [G1 G2]. split; [congruence|]. by eapply same_but_zero_trans.
Qed.

(** *** Never decreasing between Resets *)
Lemma timer_increment_nneg u d : 0 <= d < 2 ^ 63 -> nneg (timer_increment u d).
Proof.
  intros Hd. assert (forall z, 0 <= z < 2 ^ 63 -> nneg (f64_of_Z z) /\ finite64 (f64_of_Z z)) as G by (intros z Hz; split; [apply nneg_of_Z|apply of_Z_finite]; lia).
  assert (forall unit, (unit = 1000000000 \/ unit = 60000000000 \/ unit = 3600000000000) -> nneg (dur_units d unit)) as GU.
  { intros unit HU. unfold dur_units. apply nneg_add; [apply f64_of_Z_range|apply (OpRuns.sf_encode_range F64); cbv; discriminate| |].
    - apply G. split; [apply Z.quot_pos; lia|]. apply Z.le_lt_trans with d; [|lia]. apply Z.quot_le_upper_bound; nia.
    - pose proof (Z.rem_bound_pos d unit ltac:(lia) ltac:(lia)). apply nneg_div; try apply f64_of_Z_range; try (apply G; lia).
      by apply R64_units. }
  assert (forall c, (c = f64_1em3 \/ c = f64_1em6) -> nneg (f64_mul (f64_of_Z d) c)) as GM.
  { intros c Hc. apply nneg_mul; try apply f64_of_Z_range; try (apply G; lia); destruct Hc as [-> | ->]; vm_compute; intuition discriminate. }
  unfold timer_increment. repeat (match goal with |- nneg (if ?b then _ else _) => destruct b end); auto; [apply G; lia|vm_compute; reflexivity].
Qed.

Lemma timer_increment_range u d : in_unsigned 64 (timer_increment u d).
Proof.
  unfold timer_increment. repeat (match goal with |- context [if ?b then _ else _] => destruct b end); try apply f64_of_Z_range; try apply f64_mul_range;
    try (unfold dur_units; apply f64_add_range). vm_compute. intuition discriminate.
Qed.
Lemma f64_range w mp m v : w_ok w -> h_metrics (w_heap w) !! mp = Some m -> m_val m = Some (VF64 v) -> in_unsigned 64 v.
Proof.
  intros W Hm Hv. pose proof (ho_metrics _ (wo_heap _ W) _ _ Hm) as Hok. rewrite <- val_at_single in Hv. unfold val_at in Hv. destruct (cell_at m None) as [c|] eqn:Ec; [|discriminate].
  injection Hv as Hv. pose proof (cell_typed _ _ _ _ Hok Ec) as T. rewrite Hv in T. cbn in T. destruct T; auto.
Qed.

(** The clock does not run backwards between Start and Stop of timer [mp]; no Reset. *)
Definition clock_forward (mp : nat) (tr : list (world * call * outcome)) : Prop :=
  Forall (fun '(w, c, _) => (forall now mst m t0, c = CUpdate mp (OTStop now) mst -> h_metrics (w_heap w) !! mp = Some m -> m_kind m = MTimer true t0 -> t0 <= now) /\
    forall mst, c <> CUpdate mp OTReset mst) tr.

Lemma f64_leb_refl x : nneg x -> f64_leb x x = true.
Proof.
  unfold nneg, f64_leb. destruct (f64_val x) as [s|s| |s m e]; cbn; try reflexivity; try discriminate.
  - destruct s; [discriminate|reflexivity].
  - destruct s; [discriminate|]. intros _. cbn. unfold SFleb. cbn. rewrite Z.compare_refl. by rewrite Pos.compare_refl.
Qed.

Lemma timer_mono w tr w' mp m s t v : w_ok w -> hist w tr w' -> h_metrics (w_heap w) !! mp = Some m -> m_kind m = MTimer s t -> m_val m = Some (VF64 v) ->
  nneg v -> clock_forward mp tr ->
  exists m' v', h_metrics (w_heap w') !! mp = Some m' /\ m_val m' = Some (VF64 v') /\ f64_leb v v' = true.
Proof.
  intros W H. revert m s t v W. induction H as [w|w c o w1 tr w' S H IH]; intros m s t v W Hm Hk Hv Nv CF.
  { exists m, v. split_and!; auto. by apply f64_leb_refl. }
  apply Forall_cons_1 in CF as [[C1 C2] CF']. destruct (wstep_metric _ _ _ _ _ _ W S Hm) as (m1 & H1 & E1 & _ & D).
  pose proof (ho_metrics _ (wo_heap _ W) _ _ Hm) as Hok. destruct (timer_shape _ _ _ _ Hok Hk) as (_ & _ & v0 & Hv0 & Hvr). assert (v0 = v) as -> by congruence. clear Hv0.
  assert (exists s1 t1 v1, m_kind m1 = MTimer s1 t1 /\ m_val m1 = Some (VF64 v1) /\ f64_leb v v1 = true /\ nneg v1) as (s1 & t1 & v1 & K1 & K2 & K3 & K4).
  { destruct D as [(op & mst & -> & Ha & Hr)|(N & Ek & Ev)].
    - destruct (timer_one _ _ _ _ _ _ _ _ _ _ _ w mp Hok Ha Hk Hv Hr) as (s1 & t1 & v1 & A & B & C & D & E). exists s1, t1, v1. split_and!; auto.
      all: destruct E as [->|[->|E]]; [auto using f64_leb_refl| |exfalso; subst op; by eapply C2].
      all: cbn; destruct o; auto using f64_leb_refl; rewrite decide_True by reflexivity; destruct op; cbn; auto using f64_leb_refl; try (exfalso; by eapply C2).
      all: destruct s; cbn; auto using f64_leb_refl.
      all: pose proof (C1 now mst m t eq_refl Hm Hk) as Hc; apply (nneg_add v _ Hvr); auto; try apply timer_increment_range; apply timer_increment_nneg; unfold time_since; lia.
    - exists s, t, v. rewrite Ek, <- val_at_single, Ev, val_at_single. split_and!; auto. by apply f64_leb_refl. }
  destruct (IH m1 s1 t1 v1) as (m' & v' & A & B & C); auto; [eapply wstep_ok; eauto|]. exists m', v'. split_and!; auto.
  assert (w_ok w') as W' by (eapply hist_ok; [|exact H]; eapply wstep_ok; eauto).
  eapply (f64_leb_trans v v1 v'); auto.
  - eapply (f64_range w1 mp m1); [exact (wstep_ok _ _ _ _ W S)|exact H1|exact K2].
  - by apply (f64_range w' mp m').
Qed.
