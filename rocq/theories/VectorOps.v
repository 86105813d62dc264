(** Set, Inc and Dec on one instance of a vector, as calls on a metric of the heap. *)
From Verif Require Import Base BaseFacts Floats GoVal MetricType ByteWriter Units Indom Metrics Registry Prog Client Mmvdump
  Ileave ProgProofs Exec Events StartEvents BufFacts Tiling StartGood StartLayout StartFinal StartDone View Sections StartView RegInv Update World OpRuns
  RegFacts WorldInv Sync StartLive FloatFacts ValueFacts MetricFacts SyncLive OpFacts GaugeFacts VectorFacts.

Section ops.
  Context (hp : heap) (fs : files) (m : metric) (ip : nat) (d : indom) (Hm : metric_ok hp m) (Hi : m_indom m = Some ip) (Hd : h_indoms hp !! ip = Some d).

  Lemma body_of : exists cells, m_body m = BInst ip cells.
  Proof using Hi. unfold m_indom in Hi. destruct (m_body m) as [c|ip' cells]; [discriminate|]. injection Hi as ->. eauto. Qed.
  Lemma with_dom_of f : with_dom hp m f = Some (f d).
  Proof using Hi Hd. destruct body_of as [cells Hb]. unfold with_dom. by rewrite Hb, Hd. Qed.
  Lemma gauge_vec : m_kind m = MGaugeVector -> vec_like hp ip DoubleType m.
  Proof using Hm Hi. intros Hk. pose proof (mo_kind _ _ Hm) as K. rewrite Hk in K. split; [exact Hm|split; [exact Hi|]]. destruct (m_body m); try contradiction; exact K. Qed.
  Lemma counter_vec : m_kind m = MCounterVector -> vec_like hp ip Int64Type m.
  Proof using Hm Hi. intros Hk. pose proof (mo_kind _ _ Hm) as K. rewrite Hk in K. split; [exact Hm|split; [exact Hi|]]. destruct (m_body m); try contradiction; exact K. Qed.

  Lemma gv_set_exact z i : m_kind m = MGaugeVector -> live fs m -> in_unsigned 64 z ->
    if has_instance d i then exists fs' m' x, gv_set fs d m z i = (ROk, fs', m') /\ val_at m' (Some i) = Some (VF64 x) /\ f64_same z x /\ forall n, n <> Some i -> val_at m' n = val_at m n
    else gv_set fs d m z i = (RErr, fs, m).
  Proof using Hm Hi Hd.
    intros Hk HL Hz. pose proof (gauge_vec Hk) as HV. destruct body_of as [cells Hb]. destruct (has_instance d i) eqn:E.
    - destruct (set_inst_f64_live hp ip d Hd fs m z i HV HL Hz E) as (fs' & m' & S & _). destruct (set_inst_f64 hp ip d Hd _ _ _ _ _ _ HV S) as (_ & (x & X1 & X2) & X3).
      exists fs', m', x. auto.
    - unfold gv_set. rewrite (set_inst_cases _ _ _ _ _ _ _ _ Hm Hb Hd). rewrite (has_cell _ _ _ _ _ _ Hm Hb Hd) in E. by destruct (cells !! i).
  Qed.
  Lemma gv_inc_exact z i : m_kind m = MGaugeVector -> live fs m ->
    if has_instance d i then exists v fs' m' x, val_at m (Some i) = Some (VF64 v) /\ gv_inc fs d m z i = (ROk, fs', m') /\ val_at m' (Some i) = Some (VF64 x) /\ f64_same (f64_add v z) x /\ forall n, n <> Some i -> val_at m' n = val_at m n
    else gv_inc fs d m z i = (RErr, fs, m).
  Proof using Hm Hi Hd.
    intros Hk HL. pose proof (gauge_vec Hk) as HV. destruct body_of as [cells Hb]. destruct (has_instance d i) eqn:E.
    - destruct (vec_f64 hp ip d Hd _ _ HV E) as (v & Hv & _). destruct (gv_inc_live hp ip d Hd fs m z i HV HL E) as (fs' & m' & S & _).
      destruct (gv_inc_ok hp ip d Hd _ _ _ _ _ _ _ HV Hv S) as ((x & X1 & X2) & X3). exists v, fs', m', x. auto.
    - unfold gv_inc. rewrite (val_inst _ _ _ _ _ Hm Hb Hd). by rewrite E.
  Qed.
  Lemma cv_set_exact z i : m_kind m = MCounterVector -> live fs m -> in_signed 64 z ->
    if has_instance d i then exists v, val_at m (Some i) = Some (VInt64 v) /\
      if z <? v then cv_set fs d m z i = (RErr, fs, m)
      else exists fs' m', cv_set fs d m z i = (ROk, fs', m') /\ val_at m' (Some i) = Some (VInt64 z) /\ forall n, n <> Some i -> val_at m' n = val_at m n
    else cv_set fs d m z i = (RErr, fs, m).
  Proof using Hm Hi Hd.
    intros Hk HL Hz. pose proof (counter_vec Hk) as HV. destruct body_of as [cells Hb]. unfold cv_set. rewrite (val_inst _ _ _ _ _ Hm Hb Hd). destruct (has_instance d i) eqn:E; [|done].
    destruct (vec_int hp ip d Hd _ _ HV E) as (v & Hv & _). exists v. split; [exact Hv|]. rewrite Hv. cbn [as_int64]. destruct (z <? v); [done|].
    destruct (set_inst_int_live hp ip d Hd fs m z i HV HL Hz E) as (fs' & m' & S & _). exists fs', m'. split; [exact S|].
    destruct (set_inst_int _ _ _ _ _ _ _ _ _ _ _ Hm Hb Hd (proj2 (proj2 HV)) S) as [[_ N]|(_ & S1 & S2)]; [congruence|auto].
  Qed.
  (** Inc(0) is accepted for every name. *)
  Lemma cv_inc_exact z i : m_kind m = MCounterVector -> live fs m ->
    if z <? 0 then cv_inc fs d m z i = (RErr, fs, m) else if z =? 0 then cv_inc fs d m z i = (ROk, fs, m) else
    if has_instance d i then exists v fs' m', val_at m (Some i) = Some (VInt64 v) /\ cv_inc fs d m z i = (ROk, fs', m') /\
      val_at m' (Some i) = Some (VInt64 (to_signed 64 (v + z))) /\ forall n, n <> Some i -> val_at m' n = val_at m n
    else cv_inc fs d m z i = (RErr, fs, m).
  Proof using Hm Hi Hd.
    intros Hk HL. pose proof (counter_vec Hk) as HV. destruct body_of as [cells Hb]. unfold cv_inc. destruct (z <? 0); [done|]. destruct (z =? 0); [done|].
    rewrite (val_inst _ _ _ _ _ Hm Hb Hd). destruct (has_instance d i) eqn:E; [|done].
    destruct (vec_int hp ip d Hd _ _ HV E) as (v & Hv & _). rewrite Hv. cbn [as_int64].
    destruct (set_inst_int_live hp ip d Hd fs m (to_signed 64 (v + z)) i HV HL) as (fs' & m' & S & _); [apply to_signed_range; lia|exact E|]. exists v, fs', m'. split; [done|]. split; [exact S|].
    destruct (set_inst_int _ _ _ _ _ _ _ _ _ _ _ Hm Hb Hd (proj2 (proj2 HV)) S) as [[_ N]|(_ & S1 & S2)]; [congruence|auto].
  Qed.
End ops.
