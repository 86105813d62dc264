(** Gauges, timers, vectors and histograms: single calls (C16-C18, C21, C22). *)
From Verif Require Import Base BaseFacts Floats GoVal MetricType ByteWriter Hash Units Indom Metrics Registry Prog
  Client Mmvdump Events BufFacts View RegInv Update World OpRuns RegFacts WorldInv Sync FloatFacts FlocqFacts ValueFacts MetricFacts OpFacts.

(** ** Doubles *)
(** [got] is the double [want]: same bits, equal in Go, or both NaN. *)
Definition f64_same (want got : Z) : Prop :=
  got = want \/ f64_eqb want got = true \/ (f64_val want = S754_nan /\ f64_val got = S754_nan).

Lemma f64_same_refl x : f64_same x x.
Proof. by left. Qed.

Lemma neg_val x : in_unsigned 64 x -> f64_val (f64_neg x) = SFopp (f64_val x) /\ in_unsigned 64 (f64_neg x).
Proof.
  intros Hx. unfold in_unsigned in *. unfold f64_neg.
  assert (forall lo, 0 <= lo < 2 ^ 63 -> lo / 2 ^ 63 = 0 /\ (lo + 2 ^ 63) / 2 ^ 63 = 1 /\ ((lo + 2 ^ 63) / 2 ^ 52) mod 2 ^ 11 = (lo / 2 ^ 52) mod 2 ^ 11 /\ (lo + 2 ^ 63) mod 2 ^ 52 = lo mod 2 ^ 52) as G.
  { intros lo Hlo. split_and!.
    - by apply Z.div_small.
    - replace (lo + 2 ^ 63) with (lo + 1 * 2 ^ 63) by lia. rewrite Z.div_add by lia. rewrite Z.div_small by lia. lia.
    - replace (lo + 2 ^ 63) with (lo + 2 ^ 11 * 2 ^ 52) by lia. rewrite Z.div_add by lia. replace (lo / 2 ^ 52 + 2 ^ 11) with (lo / 2 ^ 52 + 1 * 2 ^ 11) by lia.
      by rewrite Z.mod_add.
    - replace (lo + 2 ^ 63) with (lo + 2 ^ 11 * 2 ^ 52) by lia. by rewrite Z.mod_add. }
  assert (forall lo, 0 <= lo < 2 ^ 63 -> f64_val (lo + 2 ^ 63) = SFopp (f64_val lo)) as HN.
  { intros lo Hlo. destruct (G _ Hlo) as (G1 & G2 & G3 & G4). unfold f64_val, sf_decode. change (f_mw F64) with 52. change (f_ew F64) with 11. change (52 + 11) with 63.
    rewrite G1, G2, G3, G4. cbn [Z.eqb negb]. destruct (_ =? 0); [destruct (lo mod 2 ^ 52); reflexivity|]. destruct (_ =? _); [destruct (_ =? 0); reflexivity|].
    destruct (lo mod 2 ^ 52 + 2 ^ 52); reflexivity. }
  destruct (x <? 2 ^ 63) eqn:E.
  - split; [apply HN|]; lia.
  - split; [|lia]. assert (x = (x - 2 ^ 63) + 2 ^ 63) as E' by lia. rewrite E' at 2. rewrite HN by lia. destruct (f64_val (x - 2 ^ 63)) as [[]|[]| |[] ? ?]; reflexivity.
Qed.

Lemma SFsub_opp p e x y : SFadd p e x (SFopp y) = SFsub p e x y.
Proof.
  destruct x as [sx|sx| |sx mx ex], y as [sy|sy| |sy my ey]; try reflexivity; try (destruct sx, sy; reflexivity).
Qed.

Lemma dec_is_sub v d : in_unsigned 64 d -> f64_add v (f64_neg d) = f64_sub v d.
Proof. intros Hd. unfold f64_add, f64_sub. destruct (neg_val _ Hd) as [-> _]. by rewrite SFsub_opp. Qed.

Lemma eqb_zero d : f64_eqb d f64_zero = true -> exists s, f64_val d = S754_zero s.
Proof. unfold f64_eqb. change (f64_val f64_zero) with (S754_zero false). intros H. apply SFeqb_cases in H as [->|(s & _ & -> & _)]; eauto. Qed.

Lemma add_zero v d s : in_unsigned 64 v -> f64_val d = S754_zero s -> f64_same (f64_add v d) v.
Proof.
  intros Hv Hd. unfold f64_same, f64_eqb, f64_add. rewrite Hd. right. pose proof (f64_valid v Hv) as HV. destruct (f64_val v) as [sv|sv| |sv m e] eqn:Ev.
  - left. cbn [SFadd]. rewrite f64_encode_val by (destruct (Bool.eqb sv s); reflexivity). by destruct (Bool.eqb sv s).
  - left. cbn [SFadd]. rewrite f64_encode_val by reflexivity. by apply SFeqb_refl.
  - right. split; [|reflexivity]. reflexivity.
  - left. cbn [SFadd]. rewrite f64_encode_val by exact HV. by apply SFeqb_refl.
Qed.

(** ** Gauges *)
Lemma double_val hp m n x : metric_ok hp m -> md_type (m_desc m) = DoubleType -> val_at m n = Some x -> exists z, x = VF64 z /\ in_unsigned 64 z.
Proof.
  intros Hm E Hv. unfold val_at in Hv. destruct (cell_at m n) as [c|] eqn:Hc; [|discriminate]. injection Hv as <-. pose proof (cell_typed _ _ _ _ Hm Hc) as Ht.
  rewrite E in Ht. destruct (c_val c); cbn in Ht; try contradiction; try (match type of Ht with _ /\ _ => destruct Ht as [Ht ?] end); try discriminate Ht; eauto.
Qed.

Lemma set_f64 fs m z fs' m' : md_type (m_desc m) = DoubleType -> m_set fs m (VF64 z) = (ROk, fs', m') ->
  exists x, m_val m' = Some (VF64 x) /\ f64_same z x.
Proof.
  intros Ht H. destruct (set_ok _ _ _ _ _ H) as (_ & x & Hx & Hh & _). rewrite Ht in Hh. change (resolve DoubleType (VF64 z)) with (VF64 z) in Hh.
  destruct Hh as [->|Hh]; [exists z; split; [exact Hx|by left]|]. destruct x; try discriminate. eexists. split; [exact Hx|]. right. by left.
Qed.
Lemma set_f64_live fs m z c : m_body m = BSingle c -> md_type (m_desc m) = DoubleType -> live fs m -> in_unsigned 64 z ->
  exists fs' m' x, m_set fs m (VF64 z) = (ROk, fs', m') /\ m_val m' = Some (VF64 x) /\ f64_same z x.
Proof.
  intros Hb Ht HL Hz. destruct (set_live fs m (VF64 z) c Hb HL) as (fs' & m' & E); [exact Hz|discriminate|].
  assert (IsCompatible (md_type (m_desc m)) (VF64 z) = true) as Hc. { rewrite Ht. cbn. unfold isCompatibleFloat. by destruct (_ && _). }
  rewrite Hc in E. destruct (set_f64 _ _ _ _ _ Ht E) as (x & Hx & Hs). eauto 6.
Qed.

Section gauge.
  Context (hp : heap) (fs : files) (m : metric) (v : Z).
  Context (Hm : metric_ok hp m) (Hk : m_kind m = MGauge) (Hv : m_val m = Some (VF64 v)) (HL : live fs m).

  Lemma gauge_shape : md_type (m_desc m) = DoubleType /\ (exists c, m_body m = BSingle c) /\ in_unsigned 64 v.
  Proof using Hm Hk Hv.
    pose proof (mo_kind _ _ Hm) as K. rewrite Hk in K. destruct (m_body m) as [c|] eqn:Hb; [|contradiction]. cbn in K. split; [exact K|]. split; [eauto|].
    destruct (double_val hp m None (VF64 v) Hm K) as (z & E & Hz); [by rewrite val_at_single|]. by injection E as ->.
  Qed.

  Lemma gauge_set_ok z : in_unsigned 64 z -> exists fs' m' x, gauge_set fs m z = (ROk, fs', m') /\ m_val m' = Some (VF64 x) /\ f64_same z x.
  Proof using Hm Hk Hv HL. destruct gauge_shape as (Ht & [c Hb] & _). intros Hz. unfold gauge_set. by eapply set_f64_live. Qed.
  Lemma gauge_inc_ok d : in_unsigned 64 d -> exists fs' m' x, gauge_inc fs m d = (ROk, fs', m') /\ m_val m' = Some (VF64 x) /\ f64_same (f64_add v d) x.
  Proof using Hm Hk Hv HL.
    destruct gauge_shape as (Ht & [c Hb] & Hvr). intros Hd. unfold gauge_inc. destruct (f64_eqb d f64_zero) eqn:E.
    - apply eqb_zero in E as [s E]. eexists _, _, v. split; [reflexivity|]. split; [exact Hv|]. by eapply add_zero.
    - rewrite Hv. cbn [as_f64]. eapply set_f64_live; eauto. apply f64_add_range.
  Qed.
  Lemma gauge_inc_zero d : f64_eqb d f64_zero = true -> gauge_inc fs m d = (ROk, fs, m).
  Proof. intros E. unfold gauge_inc. by rewrite E. Qed.
  Lemma gauge_dec_ok d : in_unsigned 64 d -> exists fs' m' x, gauge_dec fs m d = (ROk, fs', m') /\ m_val m' = Some (VF64 x) /\ f64_same (f64_sub v d) x.
  Proof using Hm Hk Hv HL. intros Hd. unfold gauge_dec. rewrite <- dec_is_sub by exact Hd. apply gauge_inc_ok. by apply neg_val. Qed.
End gauge.

(** ** Timers *)
Lemma timer_start_iff fs m now s t0 : m_kind m = MTimer s t0 ->
  timer_start fs m now = if s then (RErr, fs, m) else (ROk, fs, with_kind m (MTimer true now)).
Proof. intros Hk. unfold timer_start. rewrite Hk. by destruct s. Qed.

Lemma timer_shape hp m s t0 : metric_ok hp m -> m_kind m = MTimer s t0 -> md_type (m_desc m) = DoubleType /\ (exists c, m_body m = BSingle c) /\
  exists v, m_val m = Some (VF64 v) /\ in_unsigned 64 v.
Proof.
  intros Hm Hk. pose proof (mo_kind _ _ Hm) as K. rewrite Hk in K. destruct (m_body m) as [c|] eqn:Hb; [|contradiction]. cbn in K. split; [exact K|]. split; [eauto|].
  destruct (double_val hp m None (c_val c) Hm K) as (z & E & Hz); [unfold val_at, cell_at; by rewrite Hb|]. exists z. unfold m_val. rewrite Hb, E. auto.
Qed.

Lemma timer_reset_spec hp fs m t0 : metric_ok hp m -> m_kind m = MTimer false t0 -> forall o fs' m', timer_reset fs m = (o, fs', m') ->
  (o = ROk /\ m_kind m' = MTimer false t0 /\ exists x, m_val m' = Some (VF64 x) /\ f64_eqb f64_zero x = true) \/ (o <> ROk /\ m' = m).
Proof.
  intros Hm Hk o fs' m'. destruct (timer_shape _ _ _ _ Hm Hk) as (Ht & [c Hb] & _). unfold timer_reset. rewrite Hk. intros H. destruct o.
  - left. split; [reflexivity|]. split.
    + unfold m_set in H. rewrite Hb in H. destruct (set_cell _ _ _ _) as [[o1 fs1] c1]. injection H as _ _ <-. exact Hk.
    + destruct (set_f64 _ _ _ _ _ Ht H) as (x & Hx & [->|[K|[K _]]]); [| |discriminate K]; eexists; (split; [exact Hx|]); [reflexivity|exact K].
  - right. split; [discriminate|]. eapply set_fail; [exact H|discriminate].
  - right. split; [discriminate|]. eapply set_fail; [exact H|discriminate].
  - right. split; [discriminate|]. eapply set_fail; [exact H|discriminate].
Qed.

Lemma timer_stop_spec hp fs m t0 now v : metric_ok hp m -> m_kind m = MTimer true t0 -> m_val m = Some (VF64 v) -> forall o fs' m' ret, timer_stop fs m now = (o, fs', m', ret) ->
  let sum := f64_add v (timer_increment (md_unit (m_desc m)) (time_since now t0)) in
  (o = ROk /\ (exists t1, m_kind m' = MTimer false t1) /\ ret = sum /\ exists x, m_val m' = Some (VF64 x) /\ (x = sum \/ x = v /\ f64_eqb sum x = true)) \/ (o <> ROk /\ m' = m).
Proof.
  intros Hm Hk Hv o fs' m' ret. destruct (timer_shape _ _ _ _ Hm Hk) as (Ht & [c Hb] & _). unfold timer_stop. rewrite Hk, Hv. cbn [as_f64]. cbn zeta.
  set (sum := f64_add _ _). destruct (m_set fs m (VF64 sum)) as [[o1 fs1] m1] eqn:E. destruct o1; intros H; injection H as <- <- <- <-.
  - left. split; [reflexivity|]. split; [cbn; eauto|]. split; [reflexivity|]. change (m_val (with_kind m1 (MTimer false t0))) with (m_val m1).
    destruct (set_ok _ _ _ _ _ E) as (_ & x & Hx & Hh & Ho). rewrite Ht in Hh, Ho. change (resolve DoubleType (VF64 sum)) with (VF64 sum) in *.
    destruct Hh as [->|Hh]; [exists sum; split; [exact Hx|]; by left|]. destruct x; try discriminate. eexists. split; [exact Hx|].
    destruct (decide (bits = sum)) as [|N]; [auto|]. right. split; [|exact Hh]. rewrite Hv in Ho. assert (VF64 bits <> VF64 sum) as N2 by congruence. specialize (Ho N2). congruence.
  - right. split; [discriminate|]. eapply set_fail; [exact E|discriminate].
  - right. split; [discriminate|]. eapply set_fail; [exact E|discriminate].
  - right. split; [discriminate|]. eapply set_fail; [exact E|discriminate].
Qed.

Lemma timer_stop_idle fs m now t0 : m_kind m = MTimer false t0 -> timer_stop fs m now = (RErr, fs, m, 0).
Proof. intros Hk. unfold timer_stop. by rewrite Hk. Qed.
Lemma timer_reset_busy fs m t0 : m_kind m = MTimer true t0 -> timer_reset fs m = (RErr, fs, m).
Proof. intros Hk. unfold timer_reset. by rewrite Hk. Qed.

Lemma timer_live hp fs m s t0 : metric_ok hp m -> m_kind m = MTimer s t0 -> live fs m ->
  (s = false -> (timer_reset fs m).1.1 = ROk) /\ (s = true -> forall now, (timer_stop fs m now).1.1.1 = ROk).
Proof.
  intros Hm Hk HL. destruct (timer_shape _ _ _ _ Hm Hk) as (Ht & [c Hb] & v & Hv & Hvr). split; intros ->.
  - unfold timer_reset. rewrite Hk. destruct (set_f64_live fs m f64_zero c Hb Ht HL) as (fs' & m' & x & -> & _); [cbv; intuition discriminate|reflexivity].
  - intros now. unfold timer_stop. rewrite Hk, Hv. cbn [as_f64]. cbn zeta.
    destruct (set_f64_live fs m (f64_add v (timer_increment (md_unit (m_desc m)) (time_since now t0))) c Hb Ht HL) as (fs' & m' & x & -> & _); [apply f64_add_range|reflexivity].
Qed.
