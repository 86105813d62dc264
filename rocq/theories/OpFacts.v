(** Facts about instance updates, counters, gauges, timers and vectors
    (C14, C16-C18, C20-C22), and about metrics in histories. *)
From Verif Require Import Base BaseFacts Floats GoVal MetricType ByteWriter Hash Units Indom Metrics Registry Prog
  Client Mmvdump Events BufFacts View RegInv Update World OpRuns RegFacts WorldInv Sync FloatFacts ValueFacts MetricFacts.

(** ** Values and cells *)
Lemma val_at_put m n c c0 n' : cell_at m n = Some c0 -> val_at (put_cell m n c) n' = if decide (n' = n) then Some (c_val c) else val_at m n'.
Proof. intros H. unfold val_at. rewrite (cell_at_put m n c c0) by exact H. case_decide; reflexivity. Qed.
Lemma val_at_single m : val_at m None = m_val m.
Proof. unfold val_at, cell_at, m_val. destruct (m_body m); reflexivity. Qed.
Lemma val_at_kind m k n : val_at (with_kind m k) n = val_at m n.
Proof. reflexivity. Qed.

Lemma has_cell hp m ip cells d i : metric_ok hp m -> m_body m = BInst ip cells -> h_indoms hp !! ip = Some d ->
  has_instance d i = bool_decide (is_Some (cells !! i)).
Proof.
  intros [_ Hb _] E Hd. rewrite E in Hb. cbn in Hb. destruct Hb as (d' & Hd' & HD & _). assert (d' = d) as -> by congruence.
  unfold has_instance. apply bool_decide_ext. rewrite <- !elem_of_dom, HD. reflexivity.
Qed.

(** ** SetInstance *)
Lemma set_inst_cases hp m ip cells d i v fs : metric_ok hp m -> m_body m = BInst ip cells -> h_indoms hp !! ip = Some d ->
  m_set_instance fs d m v i =
    match cells !! i with
    | Some c => if IsCompatible (md_type (m_desc m)) v then
        let '(o, fs', c') := store_cell fs c (resolve (md_type (m_desc m)) v) in (o, fs', put_cell m (Some i) c') else (RErr, fs, m)
    | None => (RErr, fs, m)
    end.
Proof.
  intros Hm Hb Hd. unfold m_set_instance. rewrite Hb, (has_cell _ _ _ _ _ _ Hm Hb Hd). destruct (cells !! i) as [c|] eqn:Ei.
  - rewrite bool_decide_eq_true_2 by eauto. unfold put_cell. rewrite Hb. reflexivity.
  - rewrite bool_decide_eq_false_2 by (intros [? ?]; discriminate). by destruct (IsCompatible _ v).
Qed.

Section inst.
  Context (hp : heap) (fs : files) (m : metric) (ip : nat) (cells : gmap gostring cell) (d : indom).
  Context (Hm : metric_ok hp m) (Hb : m_body m = BInst ip cells) (Hd : h_indoms hp !! ip = Some d).

  Lemma set_inst_ok v i fs' m' : m_set_instance fs d m v i = (ROk, fs', m') ->
    has_instance d i = true /\ IsCompatible (md_type (m_desc m)) v = true /\
    (exists x, val_at m' (Some i) = Some x /\ holds_val (resolve (md_type (m_desc m)) v) x /\
       (x <> resolve (md_type (m_desc m)) v -> val_at m (Some i) = Some x)) /\
    forall n, n <> Some i -> val_at m' n = val_at m n.
  Proof using Hm Hb Hd.
    rewrite (set_inst_cases _ _ _ _ _ _ _ _ Hm Hb Hd), (has_cell _ _ _ _ _ _ Hm Hb Hd). destruct (cells !! i) as [c|] eqn:Ei; [|discriminate].
    destruct (IsCompatible _ v); [|discriminate]. destruct (store_cell _ _ _) as [[o fs1] c1] eqn:Es. intros H. injection H as -> -> <-.
    assert (cell_at m (Some i) = Some c) as Hc by (unfold cell_at; by rewrite Hb). split_and!; auto.
    - exists (c_val c1). rewrite (val_at_put _ _ _ _ _ Hc), decide_True by reflexivity. split; [reflexivity|]. unfold holds_val, val_at. rewrite Hc. cbn.
      apply store_cases in Es as [[_ [(E & -> & ->)|[-> _]]]|[N _]]; [auto|auto|congruence]. split; [auto|congruence].
    - intros n Hn. rewrite (val_at_put _ _ _ _ _ Hc). by rewrite decide_False.
  Qed.

  Lemma set_inst_fail v i o fs' m' : m_set_instance fs d m v i = (o, fs', m') -> o <> ROk -> m' = m.
  Proof using Hm Hb Hd.
    rewrite (set_inst_cases _ _ _ _ _ _ _ _ Hm Hb Hd). destruct (cells !! i) as [c|] eqn:Ei; [|intros; by simplify_eq].
    destruct (IsCompatible _ v); [|intros; by simplify_eq]. destruct (store_cell _ _ _) as [[o1 fs1] c1] eqn:Es. intros H N. injection H as -> -> <-.
    apply store_cases in Es as [[-> _]|[_ ->]]; [congruence|]. apply put_cell_id. unfold cell_at. by rewrite Hb.
  Qed.

  Lemma set_inst_reject v i : has_instance d i = false \/ IsCompatible (md_type (m_desc m)) v = false -> m_set_instance fs d m v i = (RErr, fs, m).
  Proof using Hm Hb Hd.
    rewrite (set_inst_cases _ _ _ _ _ _ _ _ Hm Hb Hd), (has_cell _ _ _ _ _ _ Hm Hb Hd). destruct (cells !! i) as [c|]; [|reflexivity].
    intros [H| ->]; [|reflexivity]. rewrite bool_decide_eq_true_2 in H by eauto. discriminate.
  Qed.

  Lemma set_inst_err_files v i fs' m' : m_set_instance fs d m v i = (RErr, fs', m') -> (forall s, v = VStr s -> zlen s <= 256) -> fs' = fs.
  Proof using Hm Hb Hd.
    rewrite (set_inst_cases _ _ _ _ _ _ _ _ Hm Hb Hd). destruct (cells !! i) as [c|] eqn:Ei; [|intros; by simplify_eq].
    destruct (IsCompatible _ v); [|intros; by simplify_eq]. destruct (store_cell _ _ _) as [[o1 fs1] c1] eqn:Es. intros H N. injection H as -> -> <-.
    eapply store_err_files; [exact Es|]. apply resolve_fits. destruct v; auto.
  Qed.

  Lemma set_inst_live v i : live fs m -> wf_goval v -> (forall s, v = VStr s -> zlen s <= 256) ->
    has_instance d i = true -> IsCompatible (md_type (m_desc m)) v = true ->
    exists fs' m', m_set_instance fs d m v i = (ROk, fs', m') /\ live fs' m'.
  Proof using Hm Hb Hd.
    intros HL Hw Hf Hi Hc. rewrite (set_inst_cases _ _ _ _ _ _ _ _ Hm Hb Hd), Hc. rewrite (has_cell _ _ _ _ _ _ Hm Hb Hd) in Hi.
    destruct (cells !! i) as [c|] eqn:Ei; [|discriminate]. assert (cell_at m (Some i) = Some c) as Hca by (unfold cell_at; by rewrite Hb).
    destruct (store_live fs c (resolve (md_type (m_desc m)) v) (md_type (m_desc m))) as (fs' & c' & E).
    - by apply resolve_typed. - apply resolve_fits. destruct v; auto. - by apply (HL (Some i)).
    - rewrite E. eexists _, _. split; [reflexivity|]. eapply store_live_put; eauto.
  Qed.

  Lemma val_inst i : val_instance d m i = if has_instance d i then Some (val_at m (Some i)) else None.
  Proof using Hm Hb Hd. unfold val_instance, val_at, cell_at. rewrite Hb. reflexivity. Qed.
  Lemma val_inst_some i : has_instance d i = true -> exists x, val_at m (Some i) = Some x /\ vtyped (md_type (m_desc m)) x.
  Proof using Hm Hb Hd.
    intros H. rewrite (has_cell _ _ _ _ _ _ Hm Hb Hd) in H. apply bool_decide_eq_true in H as [c Hc]. exists (c_val c).
    assert (cell_at m (Some i) = Some c) as Hca by (unfold cell_at; by rewrite Hb). unfold val_at. rewrite Hca. split; [reflexivity|].
    eapply cell_typed; eauto.
  Qed.
End inst.

(** ** The shape of metrics *)
(** [m'] is a metric on the same domain after updates. *)
Record msame (hp : heap) (m m' : metric) : Prop := {
  ms_ok : metric_ok hp m'; ms_desc : m_desc m' = m_desc m; ms_indom : m_indom m' = m_indom m }.
Lemma msame_refl hp m : metric_ok hp m -> msame hp m m.
Proof. intros H. by split. Qed.

Lemma update_same fs hp m op (mst : bool) o fs' m' : metric_ok hp m -> op_args hp m op ->
  (if mst then must_m <$> run_op fs hp m op else run_op fs hp m op) = Some (o, fs', m') -> msame hp m m'.
Proof.
  intros Hm Ha H. destruct (update_runs _ _ _ _ _ _ _ _ Hm Ha H) as [R _]. destruct (mrun_frame _ hp _ _ _ _ _ R Hm) as (F1 & F2 & F3 & _). by split.
Qed.

(** ** Counters *)
Definition int_at (m : metric) (n : option gostring) : option Z := match val_at m n with Some (VInt64 z) => Some z | _ => None end.
Definition f64_at (m : metric) (n : option gostring) : option Z := match val_at m n with Some (VF64 z) => Some z | _ => None end.

Lemma int_at_val m n z : int_at m n = Some z <-> val_at m n = Some (VInt64 z).
Proof. unfold int_at. split; [destruct (val_at m n) as [[]|]; congruence|]. intros ->. reflexivity. Qed.
Lemma f64_at_val m n z : f64_at m n = Some z <-> val_at m n = Some (VF64 z).
Proof. unfold f64_at. split; [destruct (val_at m n) as [[]|]; congruence|]. intros ->. reflexivity. Qed.

Lemma counter_int hp m n x : metric_ok hp m -> (m_kind m = MCounter \/ m_kind m = MCounterVector) -> val_at m n = Some x ->
  exists z, x = VInt64 z /\ in_signed 64 z.
Proof.
  intros Hm Hk Hv. unfold val_at in Hv. destruct (cell_at m n) as [c|] eqn:Hc; [|discriminate]. injection Hv as <-. pose proof (cell_typed _ _ _ _ Hm Hc) as Ht.
  assert (md_type (m_desc m) = Int64Type) as E. { pose proof (mo_kind _ _ Hm) as K. destruct Hk as [Hk|Hk]; rewrite Hk in K; cbn in K; destruct (m_body m); tauto. }
  rewrite E in Ht. destruct (c_val c); cbn in Ht; try contradiction;
    try (match type of Ht with _ /\ _ => destruct Ht as [Ht ?] end); try discriminate Ht; eauto.
Qed.

Lemma int_val_range hp m n z : metric_ok hp m -> val_at m n = Some (VInt64 z) -> in_signed 64 z.
Proof.
  intros Hm Hv. unfold val_at in Hv. destruct (cell_at m n) as [c|] eqn:Hc; [|discriminate]. injection Hv as E. pose proof (cell_typed _ _ _ _ Hm Hc) as Ht.
  rewrite E in Ht. apply Ht.
Qed.

(** What a counter update may do to the value at [n]: nothing, or replace it by [z]. *)
Lemma m_set_int fs m z o fs' m' : md_type (m_desc m) = Int64Type -> m_set fs m (VInt64 z) = (o, fs', m') ->
  (m' = m /\ o <> ROk) \/ (o = ROk /\ m_val m' = Some (VInt64 z)).
Proof.
  intros Ht H. destruct o; try (left; split; [eapply set_fail; [exact H|discriminate]|discriminate]). right. split; [reflexivity|].
  destruct (set_ok _ _ _ _ _ H) as (_ & x & Hx & Hh & _). rewrite Ht in Hh. change (resolve Int64Type (VInt64 z)) with (VInt64 z) in Hh.
  destruct Hh as [->|Hh]; [exact Hx|]. destruct x; try discriminate. apply go_eqb_int in Hh as ->. exact Hx.
Qed.

Lemma set_inst_int hp fs m ip cells d z i o fs' m' : metric_ok hp m -> m_body m = BInst ip cells -> h_indoms hp !! ip = Some d ->
  md_type (m_desc m) = Int64Type -> m_set_instance fs d m (VInt64 z) i = (o, fs', m') ->
  (m' = m /\ o <> ROk) \/ (o = ROk /\ val_at m' (Some i) = Some (VInt64 z) /\ forall n, n <> Some i -> val_at m' n = val_at m n).
Proof.
  intros Hm Hb Hd Ht H. destruct o; try (left; split; [eapply set_inst_fail; eauto; discriminate|discriminate]). right. split; [reflexivity|].
  destruct (set_inst_ok _ _ _ _ _ _ Hm Hb Hd _ _ _ _ H) as (_ & _ & (x & Hx & Hh & _) & Ho). split; [|exact Ho]. rewrite Ht in Hh.
  change (resolve Int64Type (VInt64 z)) with (VInt64 z) in Hh.
  destruct Hh as [->|Hh]; [exact Hx|]. destruct x; try discriminate. apply go_eqb_int in Hh as ->. exact Hx.
Qed.

(** ** Loops over all instances *)
Lemma for_all_spec (P : metric -> Prop) (Q : gostring -> option goval -> option goval -> Prop) f ord :
  (forall fs m i o fs' m', P m -> f fs m i = (o, fs', m') -> P m' /\ (forall n, n <> Some i -> val_at m' n = val_at m n) /\
     (o = ROk -> Q i (val_at m (Some i)) (val_at m' (Some i))) /\ (o <> ROk -> m' = m)) ->
  NoDup ord -> forall fs m o fs' m', P m -> for_all f fs m ord = (o, fs', m') ->
  P m' /\ (forall n, (forall i, n = Some i -> i ∉ ord) -> val_at m' n = val_at m n) /\
  forall i, i ∈ ord -> Q i (val_at m (Some i)) (val_at m' (Some i)) \/ (o <> ROk /\ val_at m' (Some i) = val_at m (Some i)).
Proof.
  intros Hf. induction ord as [|i ord IH]; intros ND fs m o fs' m' HP; cbn [for_all].
  - intros; simplify_eq. split_and!; auto. intros i Hi. by apply elem_of_nil in Hi.
  - apply NoDup_cons in ND as [Hni ND]. destruct (f fs m i) as [[o1 fs1] m1] eqn:E. destruct (Hf _ _ _ _ _ _ HP E) as (P1 & F1 & Q1 & N1).
    assert (o1 <> ROk -> forall o2, o2 <> ROk -> (o2, fs1, m1) = (o, fs', m') ->
      P m' /\ (forall n, (forall i0, n = Some i0 -> i0 ∉ i :: ord) -> val_at m' n = val_at m n) /\
      forall i0, i0 ∈ i :: ord -> Q i0 (val_at m (Some i0)) (val_at m' (Some i0)) \/ (o <> ROk /\ val_at m' (Some i0) = val_at m (Some i0))) as G.
    { intros N o2 N2 H. injection H as <- <- <-. rewrite (N1 N) in *. split_and!; auto. }
    destruct o1; cbn [must_m]; try (apply G; discriminate). clear G. intros H. destruct (IH ND _ _ _ _ _ P1 H) as (P2 & F2 & Q2). split_and!; auto.
    + intros n Hn. rewrite F2 by (intros j E2; specialize (Hn j E2); set_solver). apply F1. intros ->. apply (Hn i eq_refl). set_solver.
    + intros j Hj. apply elem_of_cons in Hj as [->|Hj].
      * left. rewrite F2; [by apply Q1|]. intros j [= <-]. exact Hni.
      * destruct (Q2 _ Hj) as [K|K]; rewrite F1 in K by (intros [= ->]; contradiction); auto.
Qed.

Lemma for_all_live (P : metric -> Prop) f ord :
  (forall fs m i, i ∈ ord -> P m -> live fs m -> exists fs' m', f fs m i = (ROk, fs', m') /\ P m' /\ live fs' m') ->
  forall fs m, P m -> live fs m -> exists fs' m', for_all f fs m ord = (ROk, fs', m').
Proof.
  induction ord as [|i ord IH]; intros Hf fs m HP HL; cbn [for_all]; [eauto|].
  destruct (Hf fs m i) as (fs1 & m1 & E & P1 & L1); [left|exact HP|exact HL|]. rewrite E. cbn [must_m]. apply IH; auto.
  intros fs0 m0 j Hj. apply Hf. by right.
Qed.

Lemma ord_NoDup hp m ip cells d ord : m_body m = BInst ip cells -> h_indoms hp !! ip = Some d -> ord_ok hp m ord ->
  NoDup ord /\ forall i, i ∈ ord <-> has_instance d i = true.
Proof.
  intros Hb Hd Ho. pose proof (Ho _ _ _ Hb Hd) as E. split.
  - rewrite E. apply NoDup_fst_map_to_list.
  - intros i. rewrite E. unfold has_instance. rewrite bool_decide_eq_true, elem_of_list_fmap. split.
    + intros ([j z] & -> & K). apply elem_of_map_to_list in K. eauto.
    + intros [z K]. exists (i, z). split; [reflexivity|]. by apply elem_of_map_to_list.
Qed.

(** The amount an operation asks to add. *)
Definition inc_amount (op : mop) : Z :=
  match op with
  | OCInc z | OVInc z _ | OVIncAll z _ => Z.max 0 z
  | OCUp | OVUp _ | OVUpAll _ => 1
  | _ => 0
  end.

Definition int_le (a b : option goval) : Prop := forall z, a = Some (VInt64 z) -> exists z', b = Some (VInt64 z') /\ z <= z'.
Lemma int_le_refl a : int_le a a.
Proof. intros z ->. exists z. split; [reflexivity|lia]. Qed.

Lemma must_m_spec r o fs m : must_m r = (o, fs, m) -> exists o', r = (o', fs, m) /\ (o = ROk <-> o' = ROk) /\ o = match o' with RErr => RPanic | _ => o' end.
Proof. destruct r as [[o1 fs1] m1]. destruct o1; cbn; intros; simplify_eq; eexists; (split; [reflexivity|]); split; (split; congruence) || reflexivity. Qed.

Lemma cv_set_le hp fs m ip cells d z i o fs' m' : metric_ok hp m -> m_body m = BInst ip cells -> h_indoms hp !! ip = Some d ->
  md_type (m_desc m) = Int64Type -> cv_set fs d m z i = (o, fs', m') ->
  (forall n, n <> Some i -> val_at m' n = val_at m n) /\ (o <> ROk -> m' = m) /\
  (o = ROk -> val_at m' (Some i) = Some (VInt64 z) /\ exists v, val_at m (Some i) = Some (VInt64 v) /\ v <= z).
Proof.
  intros Hm Hb Hd Ht. unfold cv_set. rewrite (val_inst _ _ _ _ _ Hm Hb Hd). destruct (has_instance d i); [|intros; by simplify_eq].
  destruct (as_int64 _) as [v|] eqn:Ev; [|intros; by simplify_eq]. destruct (z <? v) eqn:E; [intros; by simplify_eq|].
  intros H. destruct (set_inst_int _ _ _ _ _ _ _ _ _ _ _ Hm Hb Hd Ht H) as [[-> N]|(-> & H1 & H2)]; [split_and!; auto; congruence|].
  split_and!; auto; [congruence|]. intros _. split; [exact H1|]. exists v. split; [|lia]. unfold as_int64 in Ev.
  destruct (val_at m (Some i)) as [[]|]; congruence.
Qed.
Lemma cv_inc_le hp fs m ip cells d z i o fs' m' : metric_ok hp m -> m_body m = BInst ip cells -> h_indoms hp !! ip = Some d ->
  md_type (m_desc m) = Int64Type -> cv_inc fs d m z i = (o, fs', m') ->
  (forall n, n <> Some i -> val_at m' n = val_at m n) /\ (o <> ROk -> m' = m) /\
  (o = ROk -> z = 0 /\ m' = m \/ 0 < z /\ exists v, val_at m (Some i) = Some (VInt64 v) /\ val_at m' (Some i) = Some (VInt64 (to_signed 64 (v + z)))).
Proof.
  intros Hm Hb Hd Ht. unfold cv_inc. destruct (z <? 0) eqn:Ez; [intros; by simplify_eq|]. destruct (z =? 0) eqn:Ez0.
  { intros; simplify_eq. split_and!; auto. intros _. left. split; [lia|reflexivity]. }
  rewrite (val_inst _ _ _ _ _ Hm Hb Hd). destruct (has_instance d i); [|intros; by simplify_eq].
  destruct (as_int64 _) as [v|] eqn:Ev; [|intros; by simplify_eq].
  intros H. destruct (set_inst_int _ _ _ _ _ _ _ _ _ _ _ Hm Hb Hd Ht H) as [[-> N]|(-> & H1 & H2)]; [split_and!; auto; congruence|].
  split_and!; auto; [congruence|]. intros _. right. split; [lia|]. exists v. split; [|exact H1]. unfold as_int64 in Ev.
  destruct (val_at m (Some i)) as [[]|]; congruence.
Qed.

Lemma to_signed_sum v z : in_signed 64 v -> 0 < z -> v + z < 2 ^ 63 -> to_signed 64 (v + z) = v + z.
Proof. intros Hv Hz H. apply to_signed_id; unfold in_signed in *; lia. Qed.

Lemma counter_set_le fs m z o fs' m' : md_type (m_desc m) = Int64Type -> counter_set fs m z = (o, fs', m') ->
  (o <> ROk -> m' = m) /\ (o = ROk -> m_val m' = Some (VInt64 z) /\ exists v, m_val m = Some (VInt64 v) /\ v <= z).
Proof.
  intros Ht. unfold counter_set. destruct (as_int64 _) as [v|] eqn:Ev; [|intros; by simplify_eq]. destruct (z <? v) eqn:E; [intros; by simplify_eq|].
  intros H. destruct (m_set_int _ _ _ _ _ _ Ht H) as [[-> N]|[-> H1]]; [split; congruence|]. split; [congruence|]. intros _. split; [exact H1|].
  exists v. split; [|lia]. unfold as_int64 in Ev. destruct (m_val m) as [[]|]; congruence.
Qed.
Lemma counter_inc_le fs m z o fs' m' : md_type (m_desc m) = Int64Type -> counter_inc fs m z = (o, fs', m') ->
  (o <> ROk -> m' = m) /\ (o = ROk -> z = 0 /\ m' = m \/ 0 < z /\ exists v, m_val m = Some (VInt64 v) /\ m_val m' = Some (VInt64 (to_signed 64 (v + z)))).
Proof.
  intros Ht. unfold counter_inc. destruct (z <? 0) eqn:Ez; [intros; by simplify_eq|]. destruct (z =? 0) eqn:Ez0.
  { intros; simplify_eq. split; auto. intros _. left. split; [lia|reflexivity]. }
  destruct (as_int64 _) as [v|] eqn:Ev; [|intros; by simplify_eq].
  intros H. destruct (m_set_int _ _ _ _ _ _ Ht H) as [[-> N]|[-> H1]]; [split; congruence|]. split; [congruence|]. intros _. right. split; [lia|].
  exists v. split; [|exact H1]. unfold as_int64 in Ev. destruct (m_val m) as [[]|]; congruence.
Qed.

(** No single update makes a counter smaller unless the sum overflows. *)
Lemma counter_step hp fs m op (mst : bool) o fs' m' n v :
  metric_ok hp m -> (m_kind m = MCounter \/ m_kind m = MCounterVector) -> op_args hp m op ->
  (if mst then must_m <$> run_op fs hp m op else run_op fs hp m op) = Some (o, fs', m') ->
  int_at m n = Some v -> v + inc_amount op < 2 ^ 63 -> exists v', int_at m' n = Some v' /\ v <= v'.
Proof.
  intros Hm Hk Ha Hr Hv Hov.
  assert (exists o', run_op fs hp m op = Some (o', fs', m')) as [o' Hr'].
  { destruct mst; [|eauto]. destruct (run_op fs hp m op) as [r|]; [|discriminate]. injection Hr as Hr. apply must_m_spec in Hr as (o' & -> & _). eauto. }
  clear Hr. rewrite int_at_val in Hv. setoid_rewrite int_at_val.
  assert (in_signed 64 v) as Hvr. { destruct (counter_int _ _ _ _ Hm Hk Hv) as (z & E & Hz). congruence. }
  assert (md_type (m_desc m) = Int64Type) as Ht. { pose proof (mo_kind _ _ Hm) as K. destruct Hk as [Hk|Hk]; rewrite Hk in K; cbn in K; destruct (m_body m); tauto. }
  destruct (m_body m) as [c|ip cells] eqn:Hb.
  - (* a counter *)
    destruct Hk as [Hk|Hk]; [|pose proof (mo_kind _ _ Hm) as K; rewrite Hk, Hb in K; contradiction].
    assert (n = None) as -> by (unfold val_at, cell_at in Hv; rewrite Hb in Hv; destruct n; [discriminate|reflexivity]).
    rewrite val_at_single in *. unfold run_op in Hr'. rewrite Hk in Hr'.
    assert (forall z, 0 <= z -> v + z < 2 ^ 63 -> counter_inc fs m z = (o', fs', m') -> exists v', m_val m' = Some (VInt64 v') /\ v <= v') as GI.
    { intros z Hz0 Hz H. destruct (counter_inc_le _ _ _ _ _ _ Ht H) as [N S]. destruct o'; try (rewrite N by discriminate; exists v; split; [exact Hv|lia]).
      destruct (S eq_refl) as [[_ ->]|(K & v0 & E0 & E1)]; [exists v; split; [exact Hv|lia]|]. rewrite Hv in E0. injection E0 as <-.
      rewrite to_signed_sum in E1 by auto. eexists. split; [exact E1|lia]. }
    destruct op; try discriminate; injection Hr' as Hr'; cbn [inc_amount] in Hov.
    + destruct (counter_set_le _ _ _ _ _ _ Ht Hr') as [N S]. destruct o'; try (rewrite N by discriminate; exists v; split; [exact Hv|lia]).
      destruct (S eq_refl) as (E & v0 & E0 & ?). eexists. split; [exact E|]. rewrite Hv in E0. injection E0 as <-. lia.
    + destruct (Z_le_gt_dec 0 z); [apply (GI z); auto; lia|]. unfold counter_inc in Hr'. replace (z <? 0) with true in Hr' by lia. injection Hr' as <- <- <-.
      exists v. split; [exact Hv|lia].
    + apply must_m_spec in Hr' as (o1 & E & _). destruct (counter_inc_le _ _ _ _ _ _ Ht E) as [N S]. destruct o1; try (rewrite N by discriminate; exists v; split; [exact Hv|lia]).
      destruct (S eq_refl) as [[? _]|(K & v0 & E0 & E1)]; [lia|]. rewrite Hv in E0. injection E0 as <-. rewrite to_signed_sum in E1 by auto. eexists. split; [exact E1|lia].
  - (* a vector *)
    destruct Hk as [Hk|Hk]; [pose proof (mo_kind _ _ Hm) as K; rewrite Hk, Hb in K; contradiction|].
    destruct n as [i0|]; [|unfold val_at, cell_at in Hv; rewrite Hb in Hv; discriminate].
    unfold run_op in Hr'. rewrite Hk in Hr'. unfold with_dom in Hr'. rewrite Hb in Hr'.
    destruct (h_indoms hp !! ip) as [d|] eqn:Hd; [|destruct op; discriminate]. cbn [fmap option_fmap option_map] in Hr'.
    set (P := fun m0 : metric => msame hp m m0).
    assert (forall m0, P m0 -> metric_ok hp m0 /\ exists cells0, m_body m0 = BInst ip cells0 /\ md_type (m_desc m0) = Int64Type) as HPP.
    { intros m0 [A B C]. split; [exact A|]. rewrite B. unfold m_indom in C. rewrite Hb in C. destruct (m_body m0) as [|ip0 cells0]; [discriminate|]. exists cells0. split; congruence. }
    assert (forall (f : files -> indom -> metric -> Z -> gostring -> mres) (fs0 : files) m0 z i o0 fs1 m1, (f = cv_set \/ f = cv_inc) -> in_signed 64 z -> P m0 -> f fs0 d m0 z i = (o0, fs1, m1) -> P m1) as HP'.
    { intros f fs0 m0 z i o0 fs1 m1 Hf Hz HP H. destruct (HPP _ HP) as (A & cells0 & B & C). pose proof HP as [Q1 Q2 Q3].
      assert (runs (fun _ => True) fs0 m0 (f fs0 d m0 z i)) as R by (destruct Hf as [-> | ->]; [apply cv_set_runs|apply cv_inc_runs]; auto).
      rewrite H in R. unfold runs in R. cbn [fst snd] in R. destruct (mrun_frame _ hp _ _ _ _ _ R A) as (F1 & F2 & F3 & _). split; [exact F1|congruence|congruence]. }
    assert (P m) as HPm by (apply msame_refl, Hm).
    assert (forall z, in_signed 64 z -> forall fs0 m0 i o0 fs1 m1, P m0 -> cv_set fs0 d m0 z i = (o0, fs1, m1) -> P m1 /\ (forall n, n <> Some i -> val_at m1 n = val_at m0 n) /\
       (o0 = ROk -> int_le (val_at m0 (Some i)) (val_at m1 (Some i))) /\ (o0 <> ROk -> m1 = m0)) as GS.
    { intros z Hz fs0 m0 i o0 fs1 m1 HP H. destruct (HPP _ HP) as (A & cells0 & B & C). destruct (cv_set_le _ _ _ _ _ _ _ _ _ _ _ A B Hd C H) as (K1 & K2 & K3).
      split; [eapply (HP' cv_set); eauto|]. split_and!; auto. intros E. destruct (K3 E) as (E1 & v0 & E0 & ?). intros z0 Ez0. exists z. split; [exact E1|].
      rewrite E0 in Ez0. injection Ez0 as <-. lia. }
    set (QI := fun z (_ : gostring) a b => forall v, a = Some (VInt64 v) -> v + z < 2 ^ 63 -> exists v', b = Some (VInt64 v') /\ v <= v').
    assert (forall z, in_signed 64 z -> forall fs0 m0 i o0 fs1 m1, P m0 -> cv_inc fs0 d m0 z i = (o0, fs1, m1) -> P m1 /\ (forall n, n <> Some i -> val_at m1 n = val_at m0 n) /\
       (o0 = ROk -> QI z i (val_at m0 (Some i)) (val_at m1 (Some i))) /\ (o0 <> ROk -> m1 = m0)) as GI.
    { intros z Hz fs0 m0 i o0 fs1 m1 HP H. destruct (HPP _ HP) as (A & cells0 & B & C). destruct (cv_inc_le _ _ _ _ _ _ _ _ _ _ _ A B Hd C H) as (K1 & K2 & K3).
      split; [eapply (HP' cv_inc); eauto|]. split_and!; auto. intros E v1 Ev1 Hov1. destruct (K3 E) as [[-> ->]|(Hz0 & v0 & E0 & E1)]; [exists v1; split; [exact Ev1|lia]|].
      rewrite Ev1 in E0. injection E0 as <-. eexists. split; [exact E1|]. rewrite to_signed_sum; auto; [lia|].
      eapply int_val_range; eauto. }
    assert (forall (Q : gostring -> option goval -> option goval -> Prop), Q i0 (val_at m (Some i0)) (val_at m' (Some i0)) \/ val_at m' (Some i0) = val_at m (Some i0) ->
      (Q i0 (val_at m (Some i0)) (val_at m' (Some i0)) -> exists v', val_at m' (Some i0) = Some (VInt64 v') /\ v <= v') ->
      exists v', val_at m' (Some i0) = Some (VInt64 v') /\ v <= v') as FIN.
    { intros Q [K|K] HQ; [auto|]. exists v. split; [congruence|lia]. }
    assert (forall (Q : gostring -> option goval -> option goval -> Prop) (f : files -> metric -> gostring -> mres) ord, NoDup ord -> (forall fs m i o fs' m', P m -> f fs m i = (o, fs', m') -> P m' /\ (forall n, n <> Some i -> val_at m' n = val_at m n) /\
       (o = ROk -> Q i (val_at m (Some i)) (val_at m' (Some i))) /\ (o <> ROk -> m' = m)) -> for_all f fs m ord = (o', fs', m') ->
       Q i0 (val_at m (Some i0)) (val_at m' (Some i0)) \/ val_at m' (Some i0) = val_at m (Some i0)) as GA.
    { intros Q f ord ND Hf H. destruct (for_all_spec P Q f ord Hf ND _ _ _ _ _ HPm H) as (_ & A & B). destruct (decide (i0 ∈ ord)) as [K|K].
      - destruct (B _ K) as [?|[_ ?]]; auto.
      - right. apply A. by intros ? [= <-]. }
    assert (forall (Q : gostring -> option goval -> option goval -> Prop) i o', (P m' /\ (forall n, n <> Some i -> val_at m' n = val_at m n) /\ (o' = ROk -> Q i (val_at m (Some i)) (val_at m' (Some i))) /\ (o' <> ROk -> m' = m)) ->
       Q i0 (val_at m (Some i0)) (val_at m' (Some i0)) \/ val_at m' (Some i0) = val_at m (Some i0)) as G1.
    { intros Q i o1 (_ & A & B & C). destruct (decide (i0 = i)) as [->|N]; [|right; apply A; congruence].
      destruct o1; [left; by apply B|right; by rewrite C..]. }
    assert (in_signed 64 1) as H1 by (unfold in_signed; lia).
    destruct op; try discriminate; injection Hr' as Hr'; cbn [inc_amount] in Hov; cbn [op_args] in Ha.
    + apply (FIN (fun _ => int_le)); [apply (G1 (fun _ => int_le) i o'); exact (GS z Ha _ _ _ _ _ _ HPm Hr')|]. intros K. by apply K.
    + apply (FIN (QI z)); [apply (G1 (QI z) i o'); exact (GI z Ha _ _ _ _ _ _ HPm Hr')|]. intros K. apply K; [exact Hv|lia].
    + apply must_m_spec in Hr' as (o1 & E & _). apply (FIN (QI 1)); [apply (G1 (QI 1) i o1); exact (GI 1 H1 _ _ _ _ _ _ HPm E)|]. intros K. apply K; [exact Hv|lia].
    + destruct Ha as [Hz Ho]. destruct (ord_NoDup _ _ _ _ _ _ Hb Hd Ho) as [ND _].
      apply (FIN (fun _ => int_le)); [eapply (GA (fun _ => int_le)); [exact ND| |exact Hr']; intros ? ? ? ? ? ? K1 K2; exact (GS z Hz _ _ _ _ _ _ K1 K2)|]. intros K. by apply K.
    + destruct Ha as [Hz Ho]. destruct (ord_NoDup _ _ _ _ _ _ Hb Hd Ho) as [ND _].
      apply (FIN (QI z)); [eapply (GA (QI z)); [exact ND| |exact Hr']; intros ? ? ? ? ? ? K1 K2; exact (GI z Hz _ _ _ _ _ _ K1 K2)|]. intros K. apply K; [exact Hv|lia].
    + destruct (ord_NoDup _ _ _ _ _ _ Hb Hd Ha) as [ND _].
      apply (FIN (QI 1)); [eapply (GA (QI 1)); [exact ND| |exact Hr']; intros ? ? ? ? ? ? K1 K2; exact (GI 1 H1 _ _ _ _ _ _ K1 K2)|]. intros K. apply K; [exact Hv|lia].
Qed.
