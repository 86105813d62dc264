(** Every update operation is a sequence of stores into single values. *)
From Verif Require Import Base BaseFacts Floats GoVal MetricType ByteWriter Hash Units Indom Metrics Registry Prog
  Client View RegInv World.

(** ** Single values *)
Definition cell_at (m : metric) (n : option gostring) : option cell :=
  match m_body m, n with
  | BSingle c, None => Some c
  | BInst _ cells, Some i => cells !! i
  | _, _ => None
  end.
Definition put_cell (m : metric) (n : option gostring) (c : cell) : metric :=
  match m_body m, n with
  | BSingle _, None => with_body m (BSingle c)
  | BInst ip cells, Some i => with_body m (BInst ip (<[i := c]> cells))
  | _, _ => m
  end.

Definition timer_kind (k : mkind) : Prop := match k with MTimer _ _ => True | _ => False end.

(** Runs: [P] holds of every value stored. *)
Inductive mrun (P : goval -> Prop) : files -> metric -> outcome -> files -> metric -> Prop :=
| mr_done fs m o : o <> RFault -> mrun P fs m o fs m
| mr_kind fs m k o fs' m' : timer_kind (m_kind m) -> timer_kind k ->
    mrun P fs (with_kind m k) o fs' m' -> mrun P fs m o fs' m'
| mr_store fs m n c v fs1 c1 o fs' m' : cell_at m n = Some c -> vtyped (md_type (m_desc m)) v -> P v ->
    store_cell fs c v = (ROk, fs1, c1) -> mrun P fs1 (put_cell m n c1) o fs' m' -> mrun P fs m o fs' m'
| mr_fail fs m n c v o o' fs1 c1 : cell_at m n = Some c -> vtyped (md_type (m_desc m)) v -> P v ->
    store_cell fs c v = (o, fs1, c1) -> o <> ROk -> o' <> ROk -> (o = RFault <-> o' = RFault) ->
    mrun P fs m o' fs1 (put_cell m n c1).

Lemma mrun_trans P fs m fs1 m1 o fs' m' : mrun P fs m ROk fs1 m1 -> mrun P fs1 m1 o fs' m' -> mrun P fs m o fs' m'.
Proof.
  remember ROk as o1 eqn:E. induction 1; intros H'; subst; auto; try contradiction.
  - eapply mr_kind; eauto.
  - eapply mr_store; eauto.
Qed.

Lemma mrun_must P fs m o fs' m' : mrun P fs m o fs' m' -> mrun P fs m (match o with RErr => RPanic | o => o end) fs' m'.
Proof.
  induction 1.
  - apply mr_done. destruct o; congruence.
  - eapply mr_kind; eauto.
  - eapply mr_store; eauto.
  - eapply mr_fail; eauto; destruct o'; try congruence; intuition congruence.
Qed.

Lemma must_m_run P fs m r : mrun P fs m r.1.1 r.1.2 r.2 -> mrun P fs m (must_m r).1.1 (must_m r).1.2 (must_m r).2.
Proof. destruct r as [[o fs'] m']. intros H. apply mrun_must in H. destruct o; exact H. Qed.

(** ** Ranges of floating point results *)
Lemma sf_encode_range f x : 0 <= f_width f -> in_unsigned (f_width f) (sf_encode f x).
Proof. intros H. unfold sf_encode, in_unsigned. apply to_unsigned_range, H. Qed.

Lemma f64_add_range x y : in_unsigned 64 (f64_add x y).
Proof. apply (sf_encode_range F64). cbv. discriminate. Qed.
Lemma f64_mul_range x y : in_unsigned 64 (f64_mul x y).
Proof. apply (sf_encode_range F64). cbv. discriminate. Qed.
Lemma f64_of_Z_range x : in_unsigned 64 (f64_of_Z x).
Proof. apply (sf_encode_range F64). cbv. discriminate. Qed.
Lemma f32_of_f64_range x : in_unsigned 32 (f32_of_f64 x).
Proof. apply (sf_encode_range F32). cbv. discriminate. Qed.

(** ** Resolution *)
Lemma resolve_typed t v : wf_goval v -> IsCompatible t v = true -> vtyped t (resolve t v).
Proof.
  unfold IsCompatible, resolve. destruct v; cbn [wf_goval]; intros Hw Hc; try discriminate.
  - unfold isCompatibleInt in Hc. cbn [resolveInt].
    destruct (t =? Int32Type) eqn:E1.
    { apply Z.eqb_eq in E1 as ->. cbn. split; [reflexivity|]. rewrite to_signed_id; unfold in_signed; [|lia|]; lia. }
    destruct (t =? Int64Type) eqn:E2.
    { apply Z.eqb_eq in E2 as ->. cbn. split; [reflexivity|exact Hw]. }
    destruct (t =? Uint32Type) eqn:E3.
    { apply Z.eqb_eq in E3 as ->. cbn. split; [reflexivity|]. apply to_unsigned_range. lia. }
    destruct (t =? Uint64Type) eqn:E4; [|discriminate].
    apply Z.eqb_eq in E4 as ->. cbn. split; [reflexivity|]. apply to_unsigned_range. lia.
  - apply Z.eqb_eq in Hc as ->. cbn. auto.
  - apply Z.eqb_eq in Hc as ->. cbn. auto.
  - unfold isCompatibleUint in Hc. cbn [resolveInt]. destruct (t =? Uint64Type) eqn:E.
    { apply Z.eqb_eq in E as ->. cbn. auto. }
    destruct (z <=? 4294967295); [|discriminate]. rewrite orb_false_r in Hc. apply Z.eqb_eq in Hc as ->. cbn.
    split; [reflexivity|]. apply to_unsigned_range. lia.
  - apply Z.eqb_eq in Hc as ->. cbn. auto.
  - apply Z.eqb_eq in Hc as ->. cbn. auto.
  - apply Z.eqb_eq in Hc as ->. cbn. auto.
  - unfold isCompatibleFloat in Hc. cbn [resolveInt resolveFloat]. destruct (t =? FloatType) eqn:E.
    + apply Z.eqb_eq in E as ->. cbn. split; [reflexivity|]. apply f32_of_f64_range.
    + assert (t = DoubleType) as ->.
      { destruct (_ && _) in Hc; [rewrite orb_false_l in Hc|]; by apply Z.eqb_eq. }
      cbn. auto.
  - apply Z.eqb_eq in Hc as ->. reflexivity.
Qed.

Lemma resolve_str t s : resolve t (VStr s) = VStr s.
Proof. reflexivity. Qed.

(** Strings an operation may store. *)
Definition op_fits (op : mop) : Prop :=
  match op with OSet (VStr s) | OISet (VStr s) _ => zlen s <= 256 | _ => True end.

Lemma resolve_fits t v : match v with VStr s => zlen s <= 256 | _ => True end -> val_fits (resolve t v).
Proof.
  unfold resolve. destruct v; cbn [resolveInt]; intros H; try exact H; cbn [resolveFloat val_fits]; auto;
    repeat (case_match; cbn; auto).
Qed.

(** ** The operations *)
Section ops.
  Context (P : goval -> Prop) (PI : forall z, P (VInt64 z)) (PF : forall z, P (VF64 z)).

  Lemma run_store fs m n c v (r : outcome * files * cell) :
    cell_at m n = Some c -> vtyped (md_type (m_desc m)) v -> P v -> store_cell fs c v = r ->
    mrun P fs m r.1.1 r.1.2 (put_cell m n r.2).
  Proof.
    intros Hc Ht HP Hs. destruct r as [[o fs1] c1]. cbn. destruct o.
    - eapply mr_store; eauto. apply mr_done. discriminate.
    - eapply mr_fail; eauto; try discriminate; tauto.
    - eapply mr_fail; eauto; try discriminate; tauto.
    - eapply mr_fail; eauto; try discriminate; tauto.
  Qed.

  Lemma done fs m o : o <> RFault -> mrun P fs m o fs m.
  Proof. apply mr_done. Qed.

  Definition runs (fs : files) (m : metric) (r : mres) : Prop := mrun P fs m r.1.1 r.1.2 r.2.

  Lemma m_set_runs fs m v : wf_goval v -> (IsCompatible (md_type (m_desc m)) v = true -> P (resolve (md_type (m_desc m)) v)) -> runs fs m (m_set fs m v).
  Proof.
    intros Hw HP. unfold runs, m_set. destruct (m_body m) as [c|ip cells] eqn:Hb; [|apply done; discriminate].
    unfold set_cell. destruct (IsCompatible _ v) eqn:Hc.
    - destruct (store_cell fs c _) as [[o fs1] c1] eqn:Hs. cbn.
      replace (with_body m (BSingle c1)) with (put_cell m None c1) by (unfold put_cell; rewrite Hb; reflexivity).
      eapply (run_store fs m None c _ (o, fs1, c1)); eauto using resolve_typed. unfold cell_at. rewrite Hb. reflexivity.
    - cbn. assert (with_body m (BSingle c) = m) as -> by (destruct m; cbn in *; subst; reflexivity). apply done. discriminate.
  Qed.

  Lemma m_set_instance_runs fs dom m v i : wf_goval v ->
    (IsCompatible (md_type (m_desc m)) v = true -> P (resolve (md_type (m_desc m)) v)) -> runs fs m (m_set_instance fs dom m v i).
  Proof.
    intros Hw HP. unfold runs, m_set_instance. destruct (m_body m) as [c|ip cells] eqn:Hb; [apply done; discriminate|].
    destruct (IsCompatible _ v) eqn:Hc; [|apply done; discriminate].
    destruct (has_instance dom i); [|apply done; discriminate].
    destruct (cells !! i) as [c|] eqn:Hi; [|apply done; discriminate].
    destruct (store_cell fs c _) as [[o fs1] c1] eqn:Hs. cbn.
    replace (with_body m (BInst ip (<[i := c1]> cells))) with (put_cell m (Some i) c1) by (unfold put_cell; rewrite Hb; reflexivity).
    eapply (run_store fs m (Some i) c _ (o, fs1, c1)); eauto using resolve_typed. unfold cell_at. rewrite Hb. exact Hi.
  Qed.

  Lemma int_ok t z : IsCompatible t (VInt64 z) = true -> P (resolve t (VInt64 z)).
  Proof using PI PF. intros _. apply PI. Qed.
  Lemma f64_ok m z : IsCompatible m (VF64 z) = true -> m = DoubleType -> P (resolve m (VF64 z)).
  Proof using PI PF. intros _ ->. apply PF. Qed.

  Lemma counter_set_runs fs m z : in_signed 64 z -> runs fs m (counter_set fs m z).
  Proof using PI PF.
    intros Hz. unfold counter_set. destruct (as_int64 _); [|apply done; discriminate]. destruct (_ <? _); [apply done; discriminate|].
    apply m_set_runs; [exact Hz|apply int_ok].
  Qed.
  Lemma counter_inc_runs fs m z : runs fs m (counter_inc fs m z).
  Proof using PI PF.
    unfold counter_inc. destruct (_ <? _); [apply done; discriminate|]. destruct (_ =? _); [apply done; discriminate|].
    destruct (as_int64 _); [|apply done; discriminate]. apply m_set_runs; [|apply int_ok]. apply to_signed_range. lia.
  Qed.
  Lemma gauge_set_runs fs m z : md_type (m_desc m) = DoubleType -> in_unsigned 64 z -> runs fs m (gauge_set fs m z).
  Proof using PI PF. intros Ht Hz. apply m_set_runs; [exact Hz|]. intros H. by apply f64_ok. Qed.
  Lemma gauge_inc_runs fs m z : md_type (m_desc m) = DoubleType -> runs fs m (gauge_inc fs m z).
  Proof using PI PF.
    intros Ht. unfold gauge_inc. destruct (f64_eqb _ _); [apply done; discriminate|]. destruct (as_f64 _); [|apply done; discriminate].
    apply m_set_runs; [apply f64_add_range|]. intros H. by apply f64_ok.
  Qed.
  Lemma timer_start_runs fs m now : runs fs m (timer_start fs m now).
  Proof.
    unfold timer_start. destruct (m_kind m) as [| | |[] s| | | |] eqn:Hk; try (apply done; discriminate).
    unfold runs. cbn. eapply mr_kind; [rewrite Hk; exact I| |apply done; discriminate]. exact I.
  Qed.
  Lemma timer_reset_runs fs m : md_type (m_desc m) = DoubleType -> runs fs m (timer_reset fs m).
  Proof using PI PF.
    intros Ht. unfold timer_reset. destruct (m_kind m) as [| | |[] s| | | |]; try (apply done; discriminate).
    apply m_set_runs; [cbv; intuition discriminate|]. intros H. by apply f64_ok.
  Qed.
  Lemma timer_stop_runs fs m now : md_type (m_desc m) = DoubleType -> runs fs m (timer_stop fs m now).1.
  Proof using PI PF.
    intros Ht. unfold timer_stop. destruct (m_kind m) as [| | |[] s| | | |] eqn:Hk; try (apply done; discriminate).
    destruct (as_f64 _); [|apply done; discriminate]. cbn zeta.
    set (v := VF64 _). assert (runs fs m (m_set fs m v)) as HR.
    { apply m_set_runs; [apply f64_add_range|]. intros H. by apply f64_ok. }
    unfold m_set in *. destruct (m_body m) as [c|] eqn:Hb; [|apply done; discriminate].
    destruct (set_cell _ fs c v) as [[o fs1] c1]. destruct o; try exact HR.
    unfold runs in *. cbn in *. eapply mrun_trans; [exact HR|]. eapply mr_kind; [cbn; rewrite Hk; exact I| |apply done; discriminate]. exact I.
  Qed.
  Lemma cv_set_runs fs dom m z i : in_signed 64 z -> runs fs m (cv_set fs dom m z i).
  Proof using PI PF.
    intros Hz. unfold cv_set. destruct (val_instance _ _ _); [|apply done; discriminate]. destruct (as_int64 _); [|apply done; discriminate].
    destruct (_ <? _); [apply done; discriminate|]. apply m_set_instance_runs; [exact Hz|apply int_ok].
  Qed.
  Lemma cv_inc_runs fs dom m z i : runs fs m (cv_inc fs dom m z i).
  Proof using PI PF.
    unfold cv_inc. destruct (_ <? _); [apply done; discriminate|]. destruct (_ =? _); [apply done; discriminate|].
    destruct (val_instance _ _ _); [|apply done; discriminate]. destruct (as_int64 _); [|apply done; discriminate].
    apply m_set_instance_runs; [|apply int_ok]. apply to_signed_range. lia.
  Qed.
  Lemma gv_set_runs fs dom m z i : md_type (m_desc m) = DoubleType -> in_unsigned 64 z -> runs fs m (gv_set fs dom m z i).
  Proof using PI PF. intros Ht Hz. apply m_set_instance_runs; [exact Hz|]. intros H. by apply f64_ok. Qed.
  Lemma gv_inc_runs fs dom m z i : md_type (m_desc m) = DoubleType -> runs fs m (gv_inc fs dom m z i).
  Proof using PI PF.
    intros Ht. unfold gv_inc. destruct (val_instance _ _ _); [|apply done; discriminate]. destruct (as_f64 _); [|apply done; discriminate].
    apply m_set_instance_runs; [apply f64_add_range|]. intros H. by apply f64_ok.
  Qed.

  Lemma mrun_desc fs m o fs' m' : mrun P fs m o fs' m' -> m_desc m' = m_desc m.
  Proof.
    assert (forall m n c, m_desc (put_cell m n c) = m_desc m) as G by (intros m0 [] c; unfold put_cell; destruct (m_body m0); reflexivity).
    induction 1; auto; etransitivity; eauto.
  Qed.

  Lemma for_all_runs (f : files -> metric -> gostring -> mres) t ord : (forall fs m i, md_type (m_desc m) = t -> runs fs m (f fs m i)) ->
    forall fs m, md_type (m_desc m) = t -> runs fs m (for_all f fs m ord).
  Proof.
    intros Hf. induction ord as [|i ord IH]; intros fs m Ht; cbn [for_all]; [apply done; discriminate|].
    pose proof (must_m_run _ _ _ _ (Hf fs m i Ht)) as H. unfold runs in *. destruct (must_m (f fs m i)) as [[o fs1] m1]. cbn in H.
    destruct o; try exact H. eapply mrun_trans; [exact H|]. apply IH. rewrite (mrun_desc _ _ _ _ _ H). exact Ht.
  Qed.

  Lemma hist_upd1_runs fs dom m i z : md_type (m_desc m) = DoubleType -> in_unsigned 64 z -> runs fs m (hist_upd1 fs dom m i z).
  Proof using PI PF.
    intros Ht Hz. unfold hist_upd1. destruct (m_body m); [apply done; discriminate|]. destruct (_ !! i); [|apply done; discriminate].
    destruct (go_eqb _ _); [apply done; discriminate|]. apply m_set_instance_runs; [exact Hz|]. intros H. by apply f64_ok.
  Qed.
  Lemma mbind_runs fs m r f t : md_type (m_desc m) = t -> runs fs m r -> (forall fs1 m1, md_type (m_desc m1) = t -> runs fs1 m1 (f fs1 m1)) -> runs fs m (mbind r f).
  Proof.
    intros Ht H Hf. unfold runs in *. destruct r as [[o fs1] m1]. destruct o; cbn in *; try exact H.
    eapply mrun_trans; [exact H|]. apply Hf. rewrite (mrun_desc _ _ _ _ _ H). exact Ht.
  Qed.
  Lemma hist_record_runs fs dom m res : md_type (m_desc m) = DoubleType ->
    match res with Some s => in_unsigned 64 (hs_mean s) /\ in_unsigned 64 (hs_stddev s) | None => True end ->
    runs fs m (hist_record fs dom m res).
  Proof using PI PF.
    intros Ht Hs. destruct res as [s|]; cbn [hist_record]; [|apply done; discriminate]. destruct Hs as [H1 H2]. unfold hist_update.
    repeat (eapply mbind_runs; [eassumption|apply hist_upd1_runs; auto using f64_of_Z_range|]; intros ? ? ?).
    apply hist_upd1_runs; auto using f64_mul_range.
  Qed.

  Lemma with_dom_runs hp fs m f r : (forall d, runs fs m (f d)) -> with_dom hp m f = Some r -> runs fs m r.
  Proof.
    intros Hf. unfold with_dom. destruct (m_body m); [discriminate|]. destruct (h_indoms hp !! _) as [d|]; cbn; [|discriminate].
    intros E. simplify_eq. apply Hf.
  Qed.

  Lemma run_op_runs fs hp m op r : kind_ok (m_kind m) (md_type (m_desc m)) (m_body m) -> op_args hp m op ->
    (forall v, (op = OSet v \/ exists i, op = OISet v i) -> IsCompatible (md_type (m_desc m)) v = true -> P (resolve (md_type (m_desc m)) v)) ->
    run_op fs hp m op = Some r -> runs fs m r.
  Proof using PI PF.
    intros Hk Ha HP. unfold run_op.
    assert (forall t, md_type (m_desc m) = t -> True) as _ by auto.
    destruct (m_kind m) eqn:Ek; destruct op; try discriminate; cbn [op_args] in Ha; cbn [kind_ok] in Hk;
      try (destruct (m_body m) eqn:Eb; [|contradiction]); try (destruct (m_body m) eqn:Eb; [contradiction|]); intros Hr;
      try (injection Hr as <-); try (eapply with_dom_runs; [|exact Hr]; intros dd).
    - apply m_set_runs; [exact Ha|]. apply HP. auto.
    - by apply counter_set_runs.
    - apply counter_inc_runs.
    - apply must_m_run, counter_inc_runs.
    - by apply gauge_set_runs.
    - by apply gauge_inc_runs.
    - by apply gauge_inc_runs.
    - apply timer_start_runs.
    - by apply timer_reset_runs.
    - by apply timer_stop_runs.
    - apply m_set_instance_runs; [exact Ha|]. apply HP. eauto.
    - by apply cv_set_runs.
    - apply cv_inc_runs.
    - apply must_m_run, cv_inc_runs.
    - apply for_all_runs with Int64Type; [|exact Hk]. intros. apply cv_set_runs, Ha.
    - apply for_all_runs with Int64Type; [|exact Hk]. intros. apply cv_inc_runs.
    - apply for_all_runs with Int64Type; [|exact Hk]. intros. apply cv_inc_runs.
    - by apply gv_set_runs.
    - by apply gv_inc_runs.
    - by apply gv_inc_runs.
    - apply for_all_runs with DoubleType; [|exact Hk]. intros. apply gv_set_runs; [assumption|apply Ha].
    - apply for_all_runs with DoubleType; [|exact Hk]. intros. by apply gv_inc_runs.
    - apply for_all_runs with DoubleType; [|exact Hk]. intros. by apply gv_inc_runs.
    - apply hist_record_runs; [apply Hk|]. destruct res; tauto.
  Qed.
End ops.

Lemma update_runs fs hp m op (mst : bool) o fs' m' : metric_ok hp m -> op_args hp m op ->
  (if mst then must_m <$> run_op fs hp m op else run_op fs hp m op) = Some (o, fs', m') ->
  mrun (fun _ => True) fs m o fs' m' /\ (op_fits op -> mrun val_fits fs m o fs' m').
Proof.
  intros Hm Ha Hr.
  assert (forall P : goval -> Prop, (forall z, P (VInt64 z)) -> (forall z, P (VF64 z)) ->
    (forall v, (op = OSet v \/ exists i, op = OISet v i) -> IsCompatible (md_type (m_desc m)) v = true -> P (resolve (md_type (m_desc m)) v)) ->
    mrun P fs m o fs' m') as G.
  { intros P P1 P2 P3. destruct mst.
    - destruct (run_op fs hp m op) as [r|] eqn:E; [|discriminate]. cbn in Hr. injection Hr as Hr.
      pose proof (run_op_runs P P1 P2 _ _ _ _ _ (mo_kind _ _ Hm) Ha P3 E) as H. apply must_m_run in H. rewrite Hr in H. exact H.
    - apply (run_op_runs P P1 P2 _ _ _ _ _ (mo_kind _ _ Hm) Ha P3 Hr). }
  split.
  - apply G; auto.
  - intros Hf. apply G; cbn; auto. intros v Hv _. apply resolve_fits. destruct Hv as [->|[i ->]]; destruct v; cbn in Hf; auto.
Qed.
