(** C14, C16, C21: the methods of the vectors, as calls ([run_op], World.v) on a metric of a reachable state.
    Vocabulary as in PropsMetrics.v; [has_instance d i]: the domain has an instance of this name. *)
From Verif Require Import Base BaseFacts Floats GoVal MetricType ByteWriter Hash Units Indom Metrics Registry Prog
  Client View RegInv World OpRuns RegFacts WorldInv Sync FloatFacts ValueFacts MetricFacts SyncLive OpFacts GaugeFacts VectorFacts VectorOps Example.

Section vectors.
  Context (w : world) (mp : nat) (m : metric) (ip : nat) (d : indom) (R : reachable w) (Hm : h_metrics (w_heap w) !! mp = Some m)
    (Hi : m_indom m = Some ip) (Hd : h_indoms (w_heap w) !! ip = Some d) (HL : live (w_files w) m).
  Let Hok : metric_ok (w_heap w) m := ho_metrics _ (wo_heap _ (reachable_ok _ R)) _ _ Hm.
  Notation run := (run_op (w_files w) (w_heap w) m).
  Notation unchanged := (Some (RErr, w_files w, m)).
  (** The call succeeds, the instance now has a value satisfying [P] and the others have the old one. *)
  Definition updates (op : mop) (i : gostring) (P : goval -> Prop) : Prop :=
    exists fs' m' x, run op = Some (ROk, fs', m') /\ val_at m' (Some i) = Some x /\ P x /\ forall n, n <> Some i -> val_at m' n = val_at m n.
  (** The double [z], up to the sign of zero and the payload of a NaN. *)
  Definition is_double (z : Z) (v : goval) : Prop := exists x, v = VF64 x /\ f64_same z x.

  (** ** C16 *)
  Theorem C16_vector_set z i : m_kind m = MGaugeVector -> in_unsigned 64 z ->
    if has_instance d i then updates (OWSet z i) i (is_double z) else run (OWSet z i) = unchanged.
  Proof using R Hm Hi Hd HL.
    intros Hk Hz. pose proof (gv_set_exact _ _ _ _ _ Hok Hi Hd z i Hk HL Hz) as H. unfold updates, is_double, run_op. rewrite Hk, (with_dom_of _ _ _ _ Hi Hd).
    destruct (has_instance d i); [|by rewrite H]. destruct H as (fs' & m' & x & -> & H2 & H3 & H4). exists fs', m', (VF64 x). split_and!; eauto.
  Qed.
  Theorem C16_vector_inc z i : m_kind m = MGaugeVector ->
    if has_instance d i then exists v, val_at m (Some i) = Some (VF64 v) /\ updates (OWInc z i) i (is_double (f64_add v z)) else run (OWInc z i) = unchanged.
  Proof using R Hm Hi Hd HL.
    intros Hk. pose proof (gv_inc_exact _ _ _ _ _ Hok Hi Hd z i Hk HL) as H. unfold updates, is_double, run_op. rewrite Hk, (with_dom_of _ _ _ _ Hi Hd).
    destruct (has_instance d i); [|by rewrite H]. destruct H as (v & fs' & m' & x & Hv & -> & H2 & H3 & H4). exists v. split; [exact Hv|]. exists fs', m', (VF64 x). split_and!; eauto.
  Qed.
  Theorem C16_vector_dec z i : m_kind m = MGaugeVector -> in_unsigned 64 z ->
    if has_instance d i then exists v, val_at m (Some i) = Some (VF64 v) /\ updates (OWDec z i) i (is_double (f64_sub v z)) else run (OWDec z i) = unchanged.
  Proof using R Hm Hi Hd HL.
    intros Hk Hz. pose proof (gv_inc_exact _ _ _ _ _ Hok Hi Hd (f64_neg z) i Hk HL) as H. unfold updates, is_double, run_op. rewrite Hk, (with_dom_of _ _ _ _ Hi Hd).
    destruct (has_instance d i); [|by rewrite H]. destruct H as (v & fs' & m' & x & Hv & -> & H2 & H3 & H4). rewrite dec_is_sub in H3 by done.
    exists v. split; [exact Hv|]. exists fs', m', (VF64 x). split_and!; eauto.
  Qed.

  (** ** C14 *)
  Theorem C14_vector_set z i : m_kind m = MCounterVector -> in_signed 64 z ->
    if has_instance d i then exists v, val_at m (Some i) = Some (VInt64 v) /\
      if z <? v then run (OVSet z i) = unchanged else updates (OVSet z i) i (eq (VInt64 z))
    else run (OVSet z i) = unchanged.
  Proof using R Hm Hi Hd HL.
    intros Hk Hz. pose proof (cv_set_exact _ _ _ _ _ Hok Hi Hd z i Hk HL Hz) as H. unfold updates, run_op. rewrite Hk, (with_dom_of _ _ _ _ Hi Hd).
    destruct (has_instance d i); [|by rewrite H]. destruct H as (v & Hv & H). exists v. split; [exact Hv|]. destruct (z <? v); [by rewrite H|].
    destruct H as (fs' & m' & -> & H2 & H3). exists fs', m', (VInt64 z). split_and!; auto.
  Qed.
  (** Inc(0) does nothing and succeeds even for a name the domain does not have. *)
  Theorem C14_vector_inc z i : m_kind m = MCounterVector ->
    if z <? 0 then run (OVInc z i) = unchanged else if z =? 0 then run (OVInc z i) = Some (ROk, w_files w, m) else
    if has_instance d i then exists v, val_at m (Some i) = Some (VInt64 v) /\ updates (OVInc z i) i (eq (VInt64 (to_signed 64 (v + z))))
    else run (OVInc z i) = unchanged.
  Proof using R Hm Hi Hd HL.
    intros Hk. pose proof (cv_inc_exact _ _ _ _ _ Hok Hi Hd z i Hk HL) as H. unfold updates, run_op. rewrite Hk, (with_dom_of _ _ _ _ Hi Hd).
    destruct (z <? 0); [by rewrite H|]. destruct (z =? 0); [by rewrite H|]. destruct (has_instance d i); [|by rewrite H].
    destruct H as (v & fs' & m' & Hv & -> & H2 & H3). exists v. split; [exact Hv|]. eexists fs', m', _. split_and!; eauto.
  Qed.
  (** Up adds one; for a name the domain does not have it panics and changes nothing. *)
  Theorem C14_vector_up i : m_kind m = MCounterVector ->
    if has_instance d i then exists v, val_at m (Some i) = Some (VInt64 v) /\ updates (OVUp i) i (eq (VInt64 (to_signed 64 (v + 1))))
    else run (OVUp i) = Some (RPanic, w_files w, m).
  Proof using R Hm Hi Hd HL.
    intros Hk. pose proof (cv_inc_exact _ _ _ _ _ Hok Hi Hd 1 i Hk HL) as H. unfold updates, run_op. rewrite Hk, (with_dom_of _ _ _ _ Hi Hd).
    change (1 <? 0) with false in H. change (1 =? 0) with false in H. cbv iota in H. destruct (has_instance d i); [|by rewrite H].
    destruct H as (v & fs' & m' & Hv & -> & H2 & H3). exists v. split; [exact Hv|]. eexists fs', m', _. split_and!; eauto.
  Qed.

  (** ** C21 *)
  Theorem C21_gauge_dec_all z ord : m_kind m = MGaugeVector -> in_unsigned 64 z -> ord_ok (w_heap w) m ord ->
    exists fs' m', run (OWDecAll z ord) = Some (ROk, fs', m') /\ forall i, has_instance d i = true ->
      exists v x, val_at m (Some i) = Some (VF64 v) /\ val_at m' (Some i) = Some (VF64 x) /\ f64_same (f64_sub v z) x.
  Proof using R Hm Hi Hd HL.
    intros Hk Hz Ho. destruct (gv_inc_all_spec (w_heap w) m ip d Hd (w_files w) (f64_neg z) ord) as (fs' & m' & E & H); auto; [by apply gauge_vec|by apply neg_val|].
    exists fs', m'. unfold run_op. rewrite Hk, (with_dom_of _ _ _ _ Hi Hd), E. split; [done|]. intros i Hin. destruct (H i Hin) as (v & x & H1 & H2 & H3).
    rewrite dec_is_sub in H3 by done. eauto.
  Qed.
  Theorem C21_counter_up_all ord : m_kind m = MCounterVector -> ord_ok (w_heap w) m ord ->
    exists fs' m', run (OVUpAll ord) = Some (ROk, fs', m') /\ forall i, has_instance d i = true ->
      exists v, val_at m (Some i) = Some (VInt64 v) /\ val_at m' (Some i) = Some (VInt64 (to_signed 64 (v + 1))).
  Proof using R Hm Hi Hd HL.
    intros Hk Ho. destruct (cv_inc_all_spec (w_heap w) m ip d Hd (w_files w) 1 ord) as (fs' & m' & E & H); auto; [by apply counter_vec|lia|].
    exists fs', m'. unfold run_op. by rewrite Hk, (with_dom_of _ _ _ _ Hi Hd), E.
  Qed.
End vectors.
(* the published vectors: a gauge vector with a = 1.5 and a counter vector with a = 5 *)
Example C16_vector_ex : exists m, h_metrics (w_heap exs) !! 6%nat = Some m /\ m_kind m = MGaugeVector /\ m_indom m = Some 2%nat /\ h_indoms (w_heap exs) !! 2%nat = Some ex_gv.1 /\
  live (w_files exs) m /\ has_instance ex_gv.1 (str "a") = true /\ has_instance ex_gv.1 (str "c") = false /\ val_at m (Some (str "a")) = Some (VF64 0x3FF8000000000000) /\
  f64_sub 0x3FF8000000000000 0x3FD0000000000000 = 0x3FF4000000000000.
Proof.
  destruct (exs_metric 6 ex_gv.2) as (m & Hm & Ed & Ek & Ev & HL & HI); [apply ex_registered; vm_compute; reflexivity|reflexivity|].
  exists m. rewrite Ev, Ek, HI. split_and!; auto; vm_compute; reflexivity.
Qed.
Example C14_vector_ex : exists m, h_metrics (w_heap exs) !! 5%nat = Some m /\ m_kind m = MCounterVector /\ m_indom m = Some 1%nat /\ h_indoms (w_heap exs) !! 1%nat = Some ex_cv.1 /\
  live (w_files exs) m /\ has_instance ex_cv.1 (str "a") = true /\ has_instance ex_cv.1 (str "c") = false /\ val_at m (Some (str "a")) = Some (VInt64 5).
Proof.
  destruct (exs_metric 5 ex_cv.2) as (m & Hm & Ed & Ek & Ev & HL & HI); [apply ex_registered; vm_compute; reflexivity|reflexivity|].
  exists m. rewrite Ev, Ek, HI. split_and!; auto; vm_compute; reflexivity.
Qed.

Print Assumptions C16_vector_set.
Print Assumptions C16_vector_inc.
Print Assumptions C16_vector_dec.
Print Assumptions C14_vector_set.
Print Assumptions C14_vector_inc.
Print Assumptions C14_vector_up.
Print Assumptions C21_gauge_dec_all.
Print Assumptions C21_counter_up_all.
