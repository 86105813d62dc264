(** Vectors and histograms (C19-C23). *)
From Verif Require Import Base BaseFacts Floats GoVal MetricType ByteWriter Hash Units Indom Metrics Registry Prog
  Client Mmvdump Events BufFacts View RegInv Update World OpRuns RegFacts WorldInv Sync FloatFacts FlocqFacts ValueFacts MetricFacts OpFacts GaugeFacts.

Section vec.
  Context (hp : heap) (m : metric) (ip : nat) (d : indom).
  Context (Hd : h_indoms hp !! ip = Some d).

  (** Metrics on the same domain and of the same type. *)
  Definition vec_like (t : Z) (m0 : metric) : Prop := metric_ok hp m0 /\ m_indom m0 = Some ip /\ md_type (m_desc m0) = t.

  Lemma vec_body t m0 : vec_like t m0 -> exists cells, m_body m0 = BInst ip cells.
  Proof. intros (_ & H & _). unfold m_indom in H. destruct (m_body m0) as [|ip0 cells]; [discriminate|]. injection H as ->. eauto. Qed.

  Lemma runs_like t fs m0 o fs' m' : vec_like t m0 -> mrun (fun _ => True) fs m0 o fs' m' -> vec_like t m'.
  Proof. intros (A & B & C) R. destruct (mrun_frame _ hp _ _ _ _ _ R A) as (F1 & F2 & F3 & _). unfold vec_like. rewrite F2, F3. auto. Qed.

  Lemma set_inst_f64 fs m0 z i fs' m' : vec_like DoubleType m0 -> m_set_instance fs d m0 (VF64 z) i = (ROk, fs', m') ->
    has_instance d i = true /\ (exists x, val_at m' (Some i) = Some (VF64 x) /\ f64_same z x) /\ forall n, n <> Some i -> val_at m' n = val_at m0 n.
  Proof using Hd.
    intros HV H. destruct (vec_body _ _ HV) as [cells Hb]. destruct HV as (Hm & _ & Ht).
    destruct (set_inst_ok _ _ _ _ _ _ Hm Hb Hd _ _ _ _ H) as (Hi & _ & (x & Hx & Hh & _) & Ho). split; [exact Hi|]. split; [|exact Ho].
    rewrite Ht in Hh. change (resolve DoubleType (VF64 z)) with (VF64 z) in Hh.
    destruct Hh as [->|Hh]; [exists z; split; [exact Hx|by left]|]. destruct x; try discriminate. eexists. split; [exact Hx|]. right. by left.
  Qed.
  Lemma set_inst_f64_live fs m0 z i : vec_like DoubleType m0 -> live fs m0 -> in_unsigned 64 z -> has_instance d i = true ->
    exists fs' m', m_set_instance fs d m0 (VF64 z) i = (ROk, fs', m') /\ vec_like DoubleType m' /\ live fs' m'.
  Proof using Hd.
    intros HV HL Hz Hi. destruct (vec_body _ _ HV) as [cells Hb]. pose proof HV as (Hm & _ & Ht).
    destruct (set_inst_live hp fs m0 ip cells d Hm Hb Hd (VF64 z) i HL) as (fs' & m' & E & L); [exact Hz|discriminate|exact Hi| |].
    - rewrite Ht. cbn. unfold isCompatibleFloat. by destruct (_ && _).
    - exists fs', m'. split_and!; auto. eapply (runs_like _ fs m0 ROk fs'); [exact HV|].
      assert (runs (fun _ => True) fs m0 (m_set_instance fs d m0 (VF64 z) i)) as R by (apply m_set_instance_runs; auto). by rewrite E in R.
  Qed.
  Lemma vec_f64 m0 i : vec_like DoubleType m0 -> has_instance d i = true -> exists z, val_at m0 (Some i) = Some (VF64 z) /\ in_unsigned 64 z.
  Proof using Hd.
    intros HV Hi. destruct (vec_body _ _ HV) as [cells Hb]. destruct HV as (Hm & _ & Ht). destruct (val_inst_some _ _ _ _ _ Hm Hb Hd i Hi) as (x & Hx & _).
    destruct (double_val _ _ _ _ Hm Ht Hx) as (z & -> & Hz). eauto.
  Qed.
  Lemma vec_int m0 i : vec_like Int64Type m0 -> has_instance d i = true -> exists z, val_at m0 (Some i) = Some (VInt64 z) /\ in_signed 64 z.
  Proof using Hd.
    intros HV Hi. destruct (vec_body _ _ HV) as [cells Hb]. destruct HV as (Hm & _ & Ht). destruct (val_inst_some _ _ _ _ _ Hm Hb Hd i Hi) as (x & Hx & Hty).
    rewrite Ht in Hty. destruct x; cbn in Hty; try contradiction; try (match type of Hty with _ /\ _ => destruct Hty as [Hty ?] end); try discriminate Hty; eauto.
  Qed.
  Lemma set_inst_int_live fs m0 z i : vec_like Int64Type m0 -> live fs m0 -> in_signed 64 z -> has_instance d i = true ->
    exists fs' m', m_set_instance fs d m0 (VInt64 z) i = (ROk, fs', m') /\ vec_like Int64Type m' /\ live fs' m'.
  Proof using Hd.
    intros HV HL Hz Hi. destruct (vec_body _ _ HV) as [cells Hb]. pose proof HV as (Hm & _ & Ht).
    destruct (set_inst_live hp fs m0 ip cells d Hm Hb Hd (VInt64 z) i HL) as (fs' & m' & E & L); [exact Hz|discriminate|exact Hi|by rewrite Ht|].
    exists fs', m'. split_and!; auto. eapply (runs_like _ fs m0 ROk fs'); [exact HV|].
    assert (runs (fun _ => True) fs m0 (m_set_instance fs d m0 (VInt64 z) i)) as R by (apply m_set_instance_runs; auto). by rewrite E in R.
  Qed.

  (** *** Gauge vectors *)
  Lemma gv_inc_ok fs m0 z i fs' m' v : vec_like DoubleType m0 -> val_at m0 (Some i) = Some (VF64 v) -> gv_inc fs d m0 z i = (ROk, fs', m') ->
    (exists x, val_at m' (Some i) = Some (VF64 x) /\ f64_same (f64_add v z) x) /\ forall n, n <> Some i -> val_at m' n = val_at m0 n.
  Proof using Hd.
    intros HV Hv. destruct (vec_body _ _ HV) as [cells Hb]. pose proof HV as (Hm & _ & Ht). unfold gv_inc. rewrite (val_inst _ _ _ _ _ Hm Hb Hd), Hv.
    destruct (has_instance d i); [|discriminate]. cbn [as_f64]. intros H. by apply set_inst_f64 in H as (_ & H).
  Qed.
  Lemma gv_inc_live fs m0 z i : vec_like DoubleType m0 -> live fs m0 -> has_instance d i = true ->
    exists fs' m', gv_inc fs d m0 z i = (ROk, fs', m') /\ vec_like DoubleType m' /\ live fs' m'.
  Proof using Hd.
    intros HV HL Hi. destruct (vec_body _ _ HV) as [cells Hb]. pose proof HV as (Hm & _ & Ht). unfold gv_inc. rewrite (val_inst _ _ _ _ _ Hm Hb Hd), Hi.
    destruct (vec_f64 _ _ HV Hi) as (v & -> & _). cbn [as_f64]. apply set_inst_f64_live; auto. apply f64_add_range.
  Qed.
  Lemma gv_inc_fail fs m0 z i o fs' m' : vec_like DoubleType m0 -> gv_inc fs d m0 z i = (o, fs', m') -> o <> ROk -> m' = m0.
  Proof using Hd.
    intros HV. destruct (vec_body _ _ HV) as [cells Hb]. pose proof HV as (Hm & _ & Ht). unfold gv_inc. rewrite (val_inst _ _ _ _ _ Hm Hb Hd).
    destruct (has_instance d i); [|intros; by simplify_eq]. destruct (as_f64 _); [|intros; by simplify_eq]. intros H N. eapply set_inst_fail; eauto.
  Qed.

  Lemma gv_set_all_spec fs z ord : vec_like DoubleType m -> live fs m -> in_unsigned 64 z -> ord_ok hp m ord ->
    exists fs' m', gv_set_all fs d m z ord = (ROk, fs', m') /\ forall i, has_instance d i = true -> exists x, val_at m' (Some i) = Some (VF64 x) /\ f64_same z x.
  Proof using Hd.
    intros HV HL Hz Ho. destruct (vec_body _ _ HV) as [cells Hb]. destruct (ord_NoDup _ _ _ _ _ _ Hb Hd Ho) as [ND Hin]. unfold gv_set_all.
    destruct (for_all_live (vec_like DoubleType) (fun fs m i => gv_set fs d m z i) ord) with (fs := fs) (m := m) as (fs' & m' & E); auto.
    { intros fs0 m0 i Hi HV0 HL0. apply set_inst_f64_live; auto. by apply Hin. }
    exists fs', m'. split; [exact E|]. intros i Hi.
    destruct (for_all_spec (vec_like DoubleType) (fun i _ b => exists x, b = Some (VF64 x) /\ f64_same z x) (fun fs m i => gv_set fs d m z i) ord) with (fs := fs) (m := m) (o := ROk) (fs' := fs') (m' := m')
      as (_ & _ & Q); auto.
    - intros fs0 m0 j o0 fs1 m1 HV0 H. assert (runs (fun _ => True) fs0 m0 (gv_set fs0 d m0 z j)) as R. { apply gv_set_runs; auto. apply HV0. }
      rewrite H in R. split; [eapply runs_like; eauto|]. destruct (vec_body _ _ HV0) as [cells0 Hb0]. unfold gv_set in H. destruct o0.
      + destruct (set_inst_f64 _ _ _ _ _ _ HV0 H) as (_ & K1 & K2). split_and!; auto. congruence.
      + assert (m1 = m0) as -> by (eapply set_inst_fail; [apply HV0|exact Hb0|exact Hd|exact H|discriminate]). split_and!; auto; congruence.
      + assert (m1 = m0) as -> by (eapply set_inst_fail; [apply HV0|exact Hb0|exact Hd|exact H|discriminate]). split_and!; auto; congruence.
      + assert (m1 = m0) as -> by (eapply set_inst_fail; [apply HV0|exact Hb0|exact Hd|exact H|discriminate]). split_and!; auto; congruence.
    - destruct (Q i) as [K|[K _]]; [by apply Hin|exact K|congruence].
  Qed.

  Lemma gv_inc_all_spec fs z ord : vec_like DoubleType m -> live fs m -> in_unsigned 64 z -> ord_ok hp m ord ->
    exists fs' m', gv_inc_all fs d m z ord = (ROk, fs', m') /\ forall i, has_instance d i = true ->
      exists v x, val_at m (Some i) = Some (VF64 v) /\ val_at m' (Some i) = Some (VF64 x) /\ f64_same (f64_add v z) x.
  Proof using Hd.
    intros HV HL Hz Ho. destruct (vec_body _ _ HV) as [cells Hb]. destruct (ord_NoDup _ _ _ _ _ _ Hb Hd Ho) as [ND Hin]. unfold gv_inc_all.
    destruct (for_all_live (vec_like DoubleType) (fun fs m i => gv_inc fs d m z i) ord) with (fs := fs) (m := m) as (fs' & m' & E); auto.
    { intros fs0 m0 i Hi HV0 HL0. apply gv_inc_live; auto. by apply Hin. }
    exists fs', m'. split; [exact E|]. intros i Hi. destruct (vec_f64 _ _ HV Hi) as (v & Hv & _).
    destruct (for_all_spec (vec_like DoubleType) (fun i a b => forall v, a = Some (VF64 v) -> exists x, b = Some (VF64 x) /\ f64_same (f64_add v z) x) (fun fs m i => gv_inc fs d m z i) ord) with (fs := fs) (m := m) (o := ROk) (fs' := fs') (m' := m')
      as (_ & _ & Q); auto.
    - intros fs0 m0 j o0 fs1 m1 HV0 H. assert (runs (fun _ => True) fs0 m0 (gv_inc fs0 d m0 z j)) as R. { apply gv_inc_runs; auto. apply HV0. }
      rewrite H in R. split; [eapply runs_like; eauto|]. destruct o0; try (assert (m1 = m0) as -> by (eapply gv_inc_fail; [exact HV0|exact H|discriminate]); split_and!; auto; congruence).
      assert (has_instance d j = true) as Hj. { unfold gv_inc in H. destruct (vec_body _ _ HV0) as [cells0 Hb0]. rewrite (val_inst _ _ _ _ _ (proj1 HV0) Hb0 Hd) in H. by destruct (has_instance d j). }
      destruct (vec_f64 _ _ HV0 Hj) as (v0 & Hv0 & _). destruct (gv_inc_ok _ _ _ _ _ _ _ HV0 Hv0 H) as [K1 K2]. split_and!; auto; [|congruence].
      intros _ v1 E1. rewrite Hv0 in E1. by injection E1 as <-.
    - destruct (Q i) as [K|[K _]]; [by apply Hin| |congruence]. destruct (K _ Hv) as (x & Hx & Hs). eauto.
  Qed.

  (** *** Counter vectors *)
  Lemma cv_inc_all_negative fs z ord i : z < 0 -> cv_inc_all fs d m z (i :: ord) = (RPanic, fs, m).
  Proof. intros Hz. unfold cv_inc_all. cbn [for_all]. unfold cv_inc at 1. by replace (z <? 0) with true by lia. Qed.
  Lemma cv_inc_all_spec fs z ord : vec_like Int64Type m -> live fs m -> 0 <= z -> ord_ok hp m ord ->
    exists fs' m', cv_inc_all fs d m z ord = (ROk, fs', m') /\ forall i, has_instance d i = true ->
      exists v, val_at m (Some i) = Some (VInt64 v) /\ val_at m' (Some i) = Some (VInt64 (to_signed 64 (v + z))).
  Proof using Hd.
    intros HV HL Hz Ho. destruct (vec_body _ _ HV) as [cells Hb]. destruct (ord_NoDup _ _ _ _ _ _ Hb Hd Ho) as [ND Hin]. unfold cv_inc_all.
    destruct (for_all_live (vec_like Int64Type) (fun fs m i => cv_inc fs d m z i) ord) with (fs := fs) (m := m) as (fs' & m' & E); auto.
    { intros fs0 m0 i Hi HV0 HL0. unfold cv_inc. replace (z <? 0) with false by lia. destruct (z =? 0); [eauto 6|]. destruct (vec_body _ _ HV0) as [cells0 Hb0].
      rewrite (val_inst _ _ _ _ _ (proj1 HV0) Hb0 Hd). apply Hin in Hi. rewrite Hi. destruct (vec_int _ _ HV0 Hi) as (v & -> & _). cbn [as_int64].
      apply set_inst_int_live; auto. apply to_signed_range. lia. }
    exists fs', m'. split; [exact E|]. intros i Hi. destruct (vec_int _ _ HV Hi) as (v & Hv & Hvr).
    destruct (for_all_spec (vec_like Int64Type) (fun i a b => forall v, in_signed 64 v -> a = Some (VInt64 v) -> b = Some (VInt64 (to_signed 64 (v + z)))) (fun fs m i => cv_inc fs d m z i) ord) with (fs := fs) (m := m) (o := ROk) (fs' := fs') (m' := m')
      as (_ & _ & Q); auto.
    - intros fs0 m0 j o0 fs1 m1 HV0 H. assert (runs (fun _ => True) fs0 m0 (cv_inc fs0 d m0 z j)) as R by (apply cv_inc_runs; auto).
      rewrite H in R. split; [eapply runs_like; eauto|]. destruct (vec_body _ _ HV0) as [cells0 Hb0]. pose proof HV0 as (Hm0 & _ & Ht0).
      destruct (cv_inc_le _ _ _ _ _ _ _ _ _ _ _ Hm0 Hb0 Hd Ht0 H) as (K1 & K2 & K3). split_and!; auto.
      intros E0 v0 Hr0 Hv0. destruct (K3 E0) as [[-> ->]|(_ & v1 & E1 & E2)].
      + rewrite Z.add_0_r, to_signed_id; auto; lia.
      + rewrite Hv0 in E1. by injection E1 as <-.
    - exists v. split; [exact Hv|]. destruct (Q i) as [K|[K _]]; [by apply Hin|auto|congruence].
  Qed.

  (** SetAll on a counter vector: every instance is left at its old value or at [z];
      it succeeds exactly if no instance is above [z]. *)
  Lemma cv_set_all_spec fs z ord o fs' m' : vec_like Int64Type m -> in_signed 64 z -> ord_ok hp m ord ->
    cv_set_all fs d m z ord = (o, fs', m') -> forall i, has_instance d i = true ->
      (val_at m' (Some i) = Some (VInt64 z) /\ exists v, val_at m (Some i) = Some (VInt64 v) /\ v <= z) \/ (o <> ROk /\ val_at m' (Some i) = val_at m (Some i)).
  Proof using Hd.
    intros HV Hz Ho E i Hi. destruct (vec_body _ _ HV) as [cells Hb]. destruct (ord_NoDup _ _ _ _ _ _ Hb Hd Ho) as [ND Hin]. unfold cv_set_all in E.
    destruct (for_all_spec (vec_like Int64Type) (fun i a b => b = Some (VInt64 z) /\ exists v, a = Some (VInt64 v) /\ v <= z) (fun fs m i => cv_set fs d m z i) ord) with (fs := fs) (m := m) (o := o) (fs' := fs') (m' := m')
      as (_ & _ & Q); auto.
    - intros fs0 m0 j o0 fs1 m1 HV0 H. assert (runs (fun _ => True) fs0 m0 (cv_set fs0 d m0 z j)) as R by (apply cv_set_runs; auto).
      rewrite H in R. split; [eapply runs_like; eauto|]. destruct (vec_body _ _ HV0) as [cells0 Hb0]. pose proof HV0 as (Hm0 & _ & Ht0).
      destruct (cv_set_le _ _ _ _ _ _ _ _ _ _ _ Hm0 Hb0 Hd Ht0 H) as (K1 & K2 & K3). split_and!; auto.
    - apply Q. by apply Hin.
  Qed.
  Lemma cv_set_all_live fs z ord : vec_like Int64Type m -> live fs m -> in_signed 64 z -> ord_ok hp m ord ->
    (forall i v, has_instance d i = true -> val_at m (Some i) = Some (VInt64 v) -> v <= z) ->
    exists fs' m', cv_set_all fs d m z ord = (ROk, fs', m').
  Proof using Hd.
    intros HV HL Hz Ho Hall. destruct (vec_body _ _ HV) as [cells Hb]. destruct (ord_NoDup _ _ _ _ _ _ Hb Hd Ho) as [ND Hin]. unfold cv_set_all.
    destruct (for_all_live (fun m0 => vec_like Int64Type m0 /\ forall i v, has_instance d i = true -> val_at m0 (Some i) = Some (VInt64 v) -> v <= z) (fun fs m i => cv_set fs d m z i) ord)
      with (fs := fs) (m := m) as (fs' & m' & E); auto; [|eauto].
    intros fs0 m0 i Hi [HV0 HA] HL0. unfold cv_set. destruct (vec_body _ _ HV0) as [cells0 Hb0]. rewrite (val_inst _ _ _ _ _ (proj1 HV0) Hb0 Hd). apply Hin in Hi. rewrite Hi.
    destruct (vec_int _ _ HV0 Hi) as (v & Hv & _). rewrite Hv. cbn [as_int64]. pose proof (HA _ _ Hi Hv). replace (z <? v) with false by lia.
    destruct (set_inst_int_live fs0 m0 z i HV0 HL0 Hz Hi) as (fs1 & m1 & E & V1 & L1). exists fs1, m1. split_and!; auto.
    intros j w Hj Hw. destruct (set_inst_int _ _ _ _ _ _ _ _ _ _ _ (proj1 HV0) Hb0 Hd (proj2 (proj2 HV0)) E) as [[_ N]|(_ & S1 & S2)]; [congruence|].
    destruct (decide (j = i)) as [->|N]; [rewrite S1 in Hw; injection Hw as <-; lia|]. rewrite S2 in Hw by congruence. eauto.
  Qed.
End vec.

(** ** Creating instance metrics *)
Lemma keys_in (d : indom) (ord : list gostring) (i : gostring) : ord ≡ₚ (map_to_list (id_insts d)).*1 -> i ∈ ord <-> is_Some (id_insts d !! i).
Proof.
  intros Ho. rewrite Ho, elem_of_list_fmap. split.
  - intros ([j z] & -> & K). apply elem_of_map_to_list in K. eauto.
  - intros [z K]. exists (i, z). split; [reflexivity|]. by apply elem_of_map_to_list.
Qed.

Lemma init_vals_some (t : Z) (vals : gmap gostring goval) (ord : list gostring) : (forall i : gostring, i ∈ ord -> exists v : goval, vals !! i = Some v /\ IsCompatible t v = true) ->
  forall acc, is_Some (init_vals t vals ord acc).
Proof.
  induction ord as [|x ord IH]; intros H acc; cbn [init_vals]; [eauto|]. destruct (H x) as (v & -> & ->); [left|]. apply IH. intros i Hi. apply H. by right.
Qed.

Lemma new_instance_iff (vals : gmap gostring goval) name ip d t s u desc ord : ord ≡ₚ (map_to_list (id_insts d)).*1 ->
  is_Some (NewPCPInstanceMetric vals name ip d t s u desc ord) <->
  (name <> [] /\ zlen name <= 256 /\ (length desc <= 2)%nat /\ dom vals = dom (id_insts d) /\ forall i v, vals !! i = Some v -> IsCompatible t v = true).
Proof.
  intros Ho. unfold NewPCPInstanceMetric, new_desc, new_inst_body. destruct (bool_decide_reflect (name = [])) as [->|Hn]; [split; [intros [? ?]; discriminate|tauto]|].
  unfold StringLength. destruct (256 <? zlen name) eqn:E1; [split; [intros [? ?]; discriminate|lia]|].
  destruct (2 <? zlen desc) eqn:E2; [split; [intros [? ?]; discriminate|unfold zlen in *; lia]|]. cbn [md_type].
  unfold instance_count. destruct (Z.of_nat (size vals) =? _) eqn:E3.
  - split.
    + destruct (init_vals _ _ _ _) as [cells|] eqn:E; [|intros [? ?]; discriminate]. intros _. destruct (init_vals_spec _ _ _ _ _ E) as [H1 H2]. rewrite Forall_forall in H1.
      assert (dom (id_insts d) ⊆ dom vals) as HS. { intros i Hi. apply elem_of_dom in Hi. apply (keys_in _ _ _ Ho) in Hi. destruct (H1 _ Hi) as (v & Hv & _). apply elem_of_dom. eauto. }
      assert (dom vals = dom (id_insts d)) as HE. { destruct (decide (dom vals ⊆ dom (id_insts d))) as [HS'|HS']; [by apply set_eq; split; [apply HS'|apply HS]|]. exfalso.
        pose proof (subset_size (dom (id_insts d)) (dom vals) (conj HS HS')) as HL. rewrite !size_dom in HL. lia. }
      split_and!; auto; [lia|unfold zlen in E2; lia|]. intros i v Hv. assert (i ∈ ord) as Hi. { apply (keys_in _ _ _ Ho). apply elem_of_dom. rewrite <- HE. apply elem_of_dom. eauto. }
      destruct (H1 _ Hi) as (v' & Hv' & Hc). congruence.
    + intros (_ & _ & _ & HE & HC). destruct (init_vals_some t vals ord) with (acc := (∅ : gmap gostring cell)) as [cells E]; [|rewrite E; eauto].
      intros i Hi. apply (keys_in _ _ _ Ho), elem_of_dom in Hi. rewrite <- HE in Hi. apply elem_of_dom in Hi as [v Hv]. eauto.
  - split; [intros [? ?]; discriminate|]. intros (_ & _ & _ & HE & _). exfalso. rewrite <- !(size_dom (D := gset gostring)), HE in E3. lia.
Qed.

Lemma new_instance_vals (vals : gmap gostring goval) name ip d t s u desc ord m : ord ≡ₚ (map_to_list (id_insts d)).*1 ->
  NewPCPInstanceMetric vals name ip d t s u desc ord = Some m ->
  (forall i, val_at m (Some i) = resolve t <$> vals !! i) /\ val_at m None = None /\ m_indom m = Some ip /\
  md_name (m_desc m) = name /\ md_type (m_desc m) = t /\ md_sem (m_desc m) = s /\ md_unit (m_desc m) = u.
Proof.
  intros Ho H. destruct (new_instance_iff vals name ip d t s u desc ord Ho) as [HI _]. rewrite H in HI. destruct (HI ltac:(eauto)) as (_ & _ & _ & HE & _).
  unfold NewPCPInstanceMetric, new_desc, new_inst_body in H. repeat (case_match; try discriminate). simplify_eq.
  match goal with E : init_vals _ _ _ _ = Some _ |- _ => destruct (init_vals_spec _ _ _ _ _ E) as [_ HSp] end. split_and!; try reflexivity.
  intros i. unfold val_at, cell_at. cbn. rewrite HSp. case_decide as Hi.
  - destruct (vals !! i); reflexivity.
  - rewrite lookup_empty. cbn. destruct (vals !! i) as [v|] eqn:Ev; [|reflexivity]. exfalso. apply Hi. apply (keys_in _ _ _ Ho), elem_of_dom. rewrite <- HE. apply elem_of_dom. eauto.
Qed.

(** ** Histograms *)
Lemma normalize_bounds low high sig : low <= high -> let '(l, h, s) := normalize low high sig in 0 <= l /\ l <= h /\ h <= 3600000000 /\ 1 <= s <= 5.
Proof. unfold normalize, HistogramMin, HistogramMax. intros H. repeat case_match; lia. Qed.
Lemma normalize_id low high sig : 0 <= low -> high <= 3600000000 -> low <= high -> 1 <= sig <= 5 -> normalize low high sig = (low, high, sig).
Proof. unfold normalize, HistogramMin, HistogramMax. intros. repeat case_match; f_equal; try f_equal; lia. Qed.

Section hist.
  Context (hp : heap) (d : indom) (Hd : h_indoms hp !! 0%nat = Some d).
  Let like := vec_like hp 0%nat DoubleType.

  Lemma hist_upd1_ok fs m i z fs' m' : like m -> in_unsigned 64 z -> hist_upd1 fs d m i z = (ROk, fs', m') ->
    like m' /\ (exists x, val_at m' (Some i) = Some (VF64 x) /\ f64_same z x) /\ forall n, n <> Some i -> val_at m' n = val_at m n.
  Proof using Hd.
    intros HV Hz H. assert (runs (fun _ => True) fs m (hist_upd1 fs d m i z)) as R by (apply hist_upd1_runs; auto; apply HV).
    rewrite H in R. split; [eapply runs_like; eauto|]. unfold hist_upd1 in H. destruct (vec_body _ _ _ _ HV) as [cells Hb]. rewrite Hb in H.
    destruct (cells !! i) as [c|] eqn:Ei; [|discriminate]. destruct (go_eqb (c_val c) (VF64 z)) eqn:E.
    - injection H as _ <-. split; [|auto]. unfold val_at, cell_at. rewrite Hb, Ei. cbn. destruct (c_val c); try discriminate. eexists. split; [reflexivity|].
      right. left. cbn in E. unfold f64_eqb in *. by rewrite SFeqb_sym.
    - by apply (set_inst_f64 hp _ _ Hd) in H as (_ & K1 & K2).
  Qed.
  Lemma hist_upd1_live fs m i z : like m -> live fs m -> in_unsigned 64 z -> has_instance d i = true ->
    exists fs' m', hist_upd1 fs d m i z = (ROk, fs', m') /\ like m' /\ live fs' m'.
  Proof using Hd.
    intros HV HL Hz Hi. destruct (vec_body _ _ _ _ HV) as [cells Hb]. unfold hist_upd1. rewrite Hb. rewrite (has_cell _ _ _ _ _ _ (proj1 HV) Hb Hd) in Hi.
    destruct (cells !! i) as [c|] eqn:Ei; [|discriminate]. destruct (go_eqb _ _); [eauto 6|]. eapply set_inst_f64_live; eauto.
    rewrite (has_cell _ _ _ _ _ _ (proj1 HV) Hb Hd), Ei. exact Hi.
  Qed.

  Definition stat_of (s : hstats) (i : gostring) : option Z :=
    if bool_decide (i = str "min") then Some (f64_of_Z (hs_min s))
    else if bool_decide (i = str "max") then Some (f64_of_Z (hs_max s))
    else if bool_decide (i = str "mean") then Some (hs_mean s)
    else if bool_decide (i = str "standard_deviation") then Some (hs_stddev s)
    else if bool_decide (i = str "variance") then Some (f64_mul (hs_stddev s) (hs_stddev s))
    else None.

  Lemma hist_update_ok fs m s fs' m' : like m -> in_unsigned 64 (hs_mean s) -> in_unsigned 64 (hs_stddev s) -> hist_update fs d m s = (ROk, fs', m') ->
    forall i z, stat_of s i = Some z -> exists x, val_at m' (Some i) = Some (VF64 x) /\ f64_same z x.
  Proof using Hd.
    intros HV R1 R2. unfold hist_update.
    assert (forall r f, mbind r f = (ROk, fs', m') -> exists fs1 m1, r = (ROk, fs1, m1) /\ f fs1 m1 = (ROk, fs', m')) as HB.
    { intros [[o1 fs1] m1] f. destruct o1; cbn; try discriminate. eauto. }
    intros H. apply HB in H as (fs1 & m1 & H1 & H). apply HB in H as (fs2 & m2 & H2 & H). apply HB in H as (fs3 & m3 & H3 & H). apply HB in H as (fs4 & m4 & H4 & H5). clear HB.
    apply hist_upd1_ok in H1 as (V1 & (x1 & X1 & S1) & F1); [|exact HV|apply f64_of_Z_range].
    apply hist_upd1_ok in H2 as (V2 & (x2 & X2 & S2) & F2); [|exact V1|apply f64_of_Z_range].
    apply hist_upd1_ok in H3 as (V3 & (x3 & X3 & S3) & F3); [|exact V2|exact R1].
    apply hist_upd1_ok in H4 as (V4 & (x4 & X4 & S4) & F4); [|exact V3|exact R2].
    apply hist_upd1_ok in H5 as (V5 & (x5 & X5 & S5) & F5); [|exact V4|apply f64_mul_range].
    intros i z. unfold stat_of. repeat case_bool_decide; intros E; try discriminate; injection E as <-; subst i.
    - exists x1. split; [|exact S1]. rewrite F5, F4, F3, F2 by (vm_compute; congruence). exact X1.
    - exists x2. split; [|exact S2]. rewrite F5, F4, F3 by (vm_compute; congruence). exact X2.
    - exists x3. split; [|exact S3]. rewrite F5, F4 by (vm_compute; congruence). exact X3.
    - exists x4. split; [|exact S4]. rewrite F5 by (vm_compute; congruence). exact X4.
    - exists x5. split; [exact X5|exact S5].
  Qed.
  Lemma hist_update_live fs m s : like m -> live fs m -> in_unsigned 64 (hs_mean s) -> in_unsigned 64 (hs_stddev s) ->
    (forall i, i ∈ histogramInstances -> has_instance d i = true) -> exists fs' m', hist_update fs d m s = (ROk, fs', m').
  Proof using Hd.
    intros HV HL R1 R2 HI. unfold hist_update.
    destruct (hist_upd1_live fs m (str "min") (f64_of_Z (hs_min s))) as (fs1 & m1 & -> & V1 & L1); [done|done|apply f64_of_Z_range|apply HI; by left|]. cbn [mbind].
    destruct (hist_upd1_live fs1 m1 (str "max") (f64_of_Z (hs_max s))) as (fs2 & m2 & -> & V2 & L2); [done|done|apply f64_of_Z_range|apply HI; right; by left|]. cbn [mbind].
    destruct (hist_upd1_live fs2 m2 (str "mean") (hs_mean s)) as (fs3 & m3 & -> & V3 & L3); [done|done|done|apply HI; do 2 right; by left|]. cbn [mbind].
    destruct (hist_upd1_live fs3 m3 (str "standard_deviation") (hs_stddev s)) as (fs4 & m4 & -> & V4 & L4); [done|done|done|apply HI; do 4 right; by left|]. cbn [mbind].
    destruct (hist_upd1_live fs4 m4 (str "variance") (f64_mul (hs_stddev s) (hs_stddev s))) as (fs5 & m5 & -> & V5 & L5); [done|done|apply f64_mul_range|apply HI; do 3 right; by left|]. eauto.
  Qed.
End hist.

(** Which arguments NewPCPHistogram accepts. *)
Lemma new_histogram_iff name low high sig u desc ip ord : ord ≡ₚ (map_to_list (id_insts histogramIndom)).*1 ->
  is_Some (NewPCPHistogram name low high sig u desc ip histogramIndom ord) <-> (low <= high /\ name <> [] /\ zlen name <= 256 /\ (length desc <= 2)%nat).
Proof.
  intros Ho. set (vals := list_to_map ((fun i => (i, VF64 f64_zero)) <$> histogramInstances) : gmap gostring goval).
  pose proof (new_instance_iff vals name ip histogramIndom DoubleType InstantSemantics u desc ord Ho) as H.
  assert (dom vals = dom (id_insts histogramIndom)) as HE by (apply (bool_decide_eq_true_1 _); vm_compute; reflexivity).
  assert (forall i v, vals !! i = Some v -> IsCompatible DoubleType v = true) as HC.
  { intros i v Hv. apply elem_of_list_to_map_2, elem_of_list_fmap in Hv as (? & [= _ ->] & _). vm_compute. reflexivity. }
  unfold NewPCPHistogram. destruct (high <? low) eqn:E; [split; [intros [? ?]; discriminate|lia]|].
  transitivity (is_Some (NewPCPInstanceMetric vals name ip histogramIndom DoubleType InstantSemantics u desc ord)).
  - unfold NewPCPInstanceMetric. fold vals. destruct (new_desc _ _ _ _ _) as [ds|]; [|split; intros [? ?]; discriminate].
    unfold new_inst_body. destruct (_ =? _); [|split; intros [? ?]; discriminate]. destruct (init_vals _ _ _ _); split; intros [? ?]; try discriminate; eauto.
  - rewrite H. intuition lia.
Qed.

(** Counters: exactly which calls succeed. *)
Section counter.
  Context (hp : heap) (m : metric) (v : Z) (fs : files) (Hm : metric_ok hp m) (Hk : m_kind m = MCounter) (Hv : m_val m = Some (VInt64 v)) (HL : live fs m).
  Lemma counter_set_int z : in_signed 64 z -> exists fs' m', m_set fs m (VInt64 z) = (ROk, fs', m') /\ m_val m' = Some (VInt64 z).
  Proof using Hm Hk HL.
    intros Hz. pose proof (mo_kind _ _ Hm) as K. rewrite Hk in K. destruct (m_body m) as [c|] eqn:Hb; [|contradiction].
    assert (IsCompatible (md_type (m_desc m)) (VInt64 z) = true) as Hc by (cbn in K; rewrite K; reflexivity).
    destruct (set_live fs m (VInt64 z) c Hb HL Hz) as (fs' & m' & E); [discriminate|]. rewrite Hc in E. exists fs', m'. split; [exact E|].
    destruct (set_ok _ _ _ _ _ E) as (_ & x & Hx & Hh & _). rewrite Hx. cbn in K. rewrite K in Hh. change (resolve Int64Type (VInt64 z)) with (VInt64 z) in Hh.
    destruct Hh as [->|Hh]; [reflexivity|]. destruct x; cbn in Hh; try discriminate Hh. apply Z.eqb_eq in Hh. by subst.
  Qed.
  Lemma counter_set_exact z : in_signed 64 z ->
    if z <? v then counter_set fs m z = (RErr, fs, m) else exists fs' m', counter_set fs m z = (ROk, fs', m') /\ m_val m' = Some (VInt64 z).
  Proof using Hm Hk Hv HL. intros Hz. unfold counter_set. rewrite Hv. cbn [as_int64]. destruct (z <? v); [reflexivity|]. by apply counter_set_int. Qed.
  Lemma counter_inc_exact z :
    if z <? 0 then counter_inc fs m z = (RErr, fs, m) else exists fs' m', counter_inc fs m z = (ROk, fs', m') /\ m_val m' = Some (VInt64 (to_signed 64 (v + z))).
  Proof using Hm Hk Hv HL.
    unfold counter_inc. destruct (z <? 0); [reflexivity|]. destruct (z =? 0) eqn:E.
    - apply Z.eqb_eq in E as ->. exists fs, m. split; [reflexivity|]. destruct (counter_int hp m None (VInt64 v) Hm (or_introl Hk)) as (z & [= <-] & Hz).
      { rewrite val_at_single. exact Hv. } rewrite Z.add_0_r, to_signed_id; [exact Hv|lia|exact Hz].
    - rewrite Hv. cbn [as_int64]. apply counter_set_int, to_signed_range. lia.
  Qed.
End counter.
