(** Rounding errors of the conversion of elapsed time to a timer's unit, and of the running total. *)
From Verif Require Import Base BaseFacts Floats FloatFacts FlocqFacts FloatMono GoVal MetricType Units Metrics OpRuns.
From Coq Require Import Reals Lra.
From Flocq Require Import Core.Core IEEE754.BinarySingleNaN Relative.
Open Scope Z_scope.

#[local] Existing Instances P64' M64'.

(** [x] is within relative error [e] of [r]. *)
Definition apx (e x r : R) : Prop := (Rabs (x - r) <= e * Rabs r)%R.
(** Half a unit in the last place: 2^-53. *)
Definition ulp2 : R := bpow radix2 (-53).
Lemma ulp2_val : ulp2 = (/ IZR (2 ^ 53))%R.
Proof. reflexivity. Qed.
Lemma ulp2_pos : (0 < ulp2)%R.
Proof. apply bpow_gt_0. Qed.
Lemma ulp2_small : (ulp2 <= / 1000000)%R.
Proof. rewrite ulp2_val. apply Rinv_le; [lra|]. apply IZR_le. by vm_compute. Qed.

Lemma apx_le e f x r : apx e x r -> (e <= f)%R -> apx f x r.
Proof. unfold apx. intros H L. eapply Rle_trans; [exact H|]. apply Rmult_le_compat_r; [apply Rabs_pos|exact L]. Qed.
Lemma apx_refl x : apx 0 x x.
Proof. unfold apx. replace (x - x)%R with 0%R by ring. rewrite Rabs_R0. lra. Qed.
Lemma apx_abs e x r : apx e x r -> (Rabs x <= (1 + e) * Rabs r)%R.
Proof. unfold apx. intros H. replace x with ((x - r) + r)%R at 1 by ring. eapply Rle_trans; [apply Rabs_triang|]. lra. Qed.
Lemma apx_abs_lo e x r : apx e x r -> ((1 - e) * Rabs r <= Rabs x)%R.
Proof. unfold apx. intros H. pose proof (Rabs_triang (r - x) x) as T. replace (r - x + x)%R with r in T by ring. rewrite (Rabs_minus_sym r x) in T. lra. Qed.
Lemma apx_trans e f x y r : (0 <= f)%R -> apx f x y -> apx e y r -> apx (e + f + e * f) x r.
Proof.
  intros Hf H1 H2. pose proof (apx_abs _ _ _ H2) as Ha. unfold apx in *. replace (x - r)%R with ((x - y) + (y - r))%R by ring. eapply Rle_trans; [apply Rabs_triang|].
  assert (f * Rabs y <= f * ((1 + e) * Rabs r))%R as K by (by apply Rmult_le_compat_l). lra.
Qed.
Lemma apx_mult e f x y r s : (0 <= f)%R -> apx e x r -> apx f y s -> apx (e + f + e * f) (x * y) (r * s).
Proof.
  intros Hf H1 H2. pose proof (apx_abs _ _ _ H1) as Ha. unfold apx in *. replace (x * y - r * s)%R with (x * (y - s) + (x - r) * s)%R by ring.
  eapply Rle_trans; [apply Rabs_triang|]. rewrite !Rabs_mult.
  assert (Rabs x * Rabs (y - s) <= ((1 + e) * Rabs r) * (f * Rabs s))%R as K1 by (apply Rmult_le_compat; auto using Rabs_pos).
  assert (Rabs (x - r) * Rabs s <= (e * Rabs r) * Rabs s)%R as K2 by (apply Rmult_le_compat_r; [apply Rabs_pos|assumption]). lra.
Qed.
Lemma apx_plus e x y r s : (0 <= r * s)%R -> apx e x r -> apx e y s -> apx e (x + y) (r + s).
Proof.
  intros Hs H1 H2. unfold apx in *. assert (Rabs (r + s) = Rabs r + Rabs s)%R as ->.
  { destruct (Rle_or_lt 0 r) as [Hr|Hr], (Rle_or_lt 0 s) as [H|H].
    - rewrite !Rabs_pos_eq; lra.
    - assert (r = 0)%R as -> by nra. rewrite Rabs_R0. rewrite !Rplus_0_l. reflexivity.
    - assert (s = 0)%R as -> by nra. rewrite Rabs_R0. rewrite !Rplus_0_r. reflexivity.
    - rewrite !Rabs_left; lra. }
  replace (x + y - (r + s))%R with ((x - r) + (y - s))%R by ring. eapply Rle_trans; [apply Rabs_triang|]. lra.
Qed.
Lemma apx_div e x r k : (0 < k)%R -> apx e x r -> apx e (x / k) (r / k).
Proof.
  intros Hk H. unfold apx in *. assert (0 < / k)%R as Hi by by apply Rinv_0_lt_compat.
  replace (x / k - r / k)%R with ((x - r) * / k)%R by (unfold Rdiv; ring). unfold Rdiv. rewrite !Rabs_mult, (Rabs_pos_eq (/ k)) by lra. rewrite <- Rmult_assoc.
  apply Rmult_le_compat_r; lra.
Qed.

(** Rounding: the only error of a single operation, as long as the result is 0 or not tiny. *)
Lemma rnd_apx r : r = 0%R \/ (bpow radix2 (-1000) <= Rabs r)%R -> apx ulp2 (rnd64 r) r.
Proof.
  intros [->|H].
  - unfold rnd64. rewrite round_0 by auto with typeclass_instances. unfold apx. rewrite Rminus_0_r, Rabs_R0. lra.
  - unfold apx, rnd64. pose proof (relative_error_N_FLT radix2 (-1074) 53 P64' (fun x => negb (Z.even x)) r) as K. unfold ulp2.
    replace (bpow radix2 (-53)) with (/ 2 * bpow radix2 (-53 + 1))%R by (rewrite bpow_plus; cbn [bpow radix_val radix2]; change (Z.pow_pos 2 1) with 2; lra).
    apply K. eapply Rle_trans; [|exact H]. apply bpow_le. lia.
Qed.
Lemma rnd_fits r : r = 0%R \/ (bpow radix2 (-1000) <= Rabs r)%R -> (Rabs r <= bpow radix2 1000)%R -> (Rabs (rnd64 r) < bpow radix2 1024)%R.
Proof.
  intros H L. pose proof (apx_abs _ _ _ (rnd_apx _ H)) as K. pose proof ulp2_pos. pose proof ulp2_small. eapply Rle_lt_trans; [exact K|].
  apply Rle_lt_trans with (bpow radix2 1 * bpow radix2 1000)%R; [|rewrite <- bpow_plus; apply bpow_lt; lia].
  apply Rmult_le_compat; try lra; [apply Rabs_pos|]. change (bpow radix2 1) with 2%R. lra.
Qed.

Lemma of_Z_apx z : Z.abs z <= 2 ^ 63 -> finite64 (f64_of_Z z) /\ apx ulp2 (R64 (f64_of_Z z)) (IZR z).
Proof.
  intros Hz. pose proof (binary_normalize_correct 53 1024 P64' M64' mode_NE z 0 false) as H. cbn zeta in H.
  assert (F2R (Float radix2 z 0) = IZR z) as E by (unfold F2R; cbn; apply Rmult_1_r). rewrite E in H.
  change (round radix2 (SpecFloat.fexp 53 1024) (round_mode mode_NE) (IZR z)) with (rnd64 (IZR z)) in H.
  assert (IZR z = 0%R \/ (bpow radix2 (-1000) <= Rabs (IZR z))%R) as Hb.
  { destruct (decide (z = 0)) as [->|N]; [by left|right]. rewrite <- abs_IZR. apply Rle_trans with 1%R; [change 1%R with (bpow radix2 0); apply bpow_le; lia|]. apply IZR_le. lia. }
  assert (Rabs (IZR z) <= bpow radix2 1000)%R as Hu.
  { apply Rle_trans with (bpow radix2 63); [|apply bpow_le; lia]. rewrite <- abs_IZR. change (bpow radix2 63) with (IZR (2 ^ 63)). by apply IZR_le. }
  rewrite Rlt_bool_true in H by (by apply rnd_fits). destruct H as (H1 & H2 & _). unfold finite64, R64. rewrite f64_of_Z_b, SF_B_finite, SF_B_R.
  split; [exact H2|]. rewrite H1. by apply rnd_apx.
Qed.

Lemma f64_add_apx x y e r : in_unsigned 64 x -> in_unsigned 64 y -> finite64 x -> finite64 y -> apx e (R64 x + R64 y) r -> (0 <= e <= / 2)%R ->
  r = 0%R \/ (bpow radix2 (-900) <= Rabs r)%R -> (Rabs r <= bpow radix2 900)%R -> finite64 (f64_add x y) /\ apx (e + ulp2 + e * ulp2) (R64 (f64_add x y)) r.
Proof.
  intros Hx Hy Fx Fy A He Hlo Hhi. set (s := (R64 x + R64 y)%R) in *.
  assert (s = 0%R \/ (bpow radix2 (-1000) <= Rabs s)%R) as S1.
  { destruct Hlo as [->|Hlo]; [left|right].
    - unfold apx in A. rewrite Rabs_R0, Rmult_0_r, Rminus_0_r in A. destruct (Req_dec s 0) as [|N]; [assumption|]. apply Rabs_pos_lt in N. lra.
    - pose proof (apx_abs_lo _ _ _ A) as L. apply Rle_trans with (/ 2 * bpow radix2 (-900))%R; [|eapply Rle_trans; [|exact L]].
      + change (/ 2)%R with (bpow radix2 (-1)). rewrite <- bpow_plus. apply bpow_le. lia.
      + apply Rmult_le_compat; try lra. apply bpow_ge_0. }
  assert (Rabs s <= bpow radix2 1000)%R as S2.
  { pose proof (apx_abs _ _ _ A) as L. eapply Rle_trans; [exact L|]. apply Rle_trans with (bpow radix2 1 * bpow radix2 900)%R; [|rewrite <- bpow_plus; apply bpow_le; lia].
    apply Rmult_le_compat; try lra; [apply Rabs_pos|]. change (bpow radix2 1) with 2%R. lra. }
  destruct (f64_add_correct x y Hx Hy Fx Fy (rnd_fits _ S1 S2)) as [F ->]. split; [exact F|].
  eapply (apx_trans e ulp2); [apply Rlt_le, ulp2_pos|by apply rnd_apx|exact A].
Qed.
Lemma f64_mul_apx x y e r : in_unsigned 64 x -> in_unsigned 64 y -> finite64 x -> finite64 y -> apx e (R64 x * R64 y) r -> (0 <= e <= / 2)%R ->
  r = 0%R \/ (bpow radix2 (-900) <= Rabs r)%R -> (Rabs r <= bpow radix2 900)%R -> finite64 (f64_mul x y) /\ apx (e + ulp2 + e * ulp2) (R64 (f64_mul x y)) r.
Proof.
  intros Hx Hy Fx Fy A He Hlo Hhi. set (s := (R64 x * R64 y)%R) in *.
  assert (s = 0%R \/ (bpow radix2 (-1000) <= Rabs s)%R) as S1.
  { destruct Hlo as [->|Hlo]; [left|right].
    - unfold apx in A. rewrite Rabs_R0, Rmult_0_r, Rminus_0_r in A. destruct (Req_dec s 0) as [|N]; [assumption|]. apply Rabs_pos_lt in N. lra.
    - pose proof (apx_abs_lo _ _ _ A) as L. apply Rle_trans with (/ 2 * bpow radix2 (-900))%R; [|eapply Rle_trans; [|exact L]].
      + change (/ 2)%R with (bpow radix2 (-1)). rewrite <- bpow_plus. apply bpow_le. lia.
      + apply Rmult_le_compat; try lra. apply bpow_ge_0. }
  assert (Rabs s <= bpow radix2 1000)%R as S2.
  { pose proof (apx_abs _ _ _ A) as L. eapply Rle_trans; [exact L|]. apply Rle_trans with (bpow radix2 1 * bpow radix2 900)%R; [|rewrite <- bpow_plus; apply bpow_le; lia].
    apply Rmult_le_compat; try lra; [apply Rabs_pos|]. change (bpow radix2 1) with 2%R. lra. }
  pose proof (Bmult_correct 53 1024 P64' M64' mode_NE (b64 x Hx) (b64 y Hy)) as H. rewrite !b64_R in H. fold s in H.
  change (round radix2 (SpecFloat.fexp 53 1024) (round_mode mode_NE) s) with (rnd64 s) in H. rewrite Rlt_bool_true in H by (by apply rnd_fits). destruct H as (H1 & H2 & _).
  rewrite (b64_fin _ _ Fx), (b64_fin _ _ Fy) in H2. unfold finite64, R64. rewrite (f64_mul_b _ _ Hx Hy), SF_B_finite, SF_B_R. split; [exact H2|]. rewrite H1.
  eapply (apx_trans e ulp2); [apply Rlt_le, ulp2_pos|by apply rnd_apx|exact A].
Qed.
Lemma f64_div_apx x y e r : in_unsigned 64 x -> in_unsigned 64 y -> finite64 x -> R64 y <> 0%R -> apx e (R64 x / R64 y) r -> (0 <= e <= / 2)%R ->
  r = 0%R \/ (bpow radix2 (-900) <= Rabs r)%R -> (Rabs r <= bpow radix2 900)%R -> finite64 (f64_div x y) /\ apx (e + ulp2 + e * ulp2) (R64 (f64_div x y)) r.
Proof.
  intros Hx Hy Fx Ny A He Hlo Hhi. set (s := (R64 x / R64 y)%R) in *.
  assert (s = 0%R \/ (bpow radix2 (-1000) <= Rabs s)%R) as S1.
  { destruct Hlo as [->|Hlo]; [left|right].
    - unfold apx in A. rewrite Rabs_R0, Rmult_0_r, Rminus_0_r in A. destruct (Req_dec s 0) as [|N]; [assumption|]. apply Rabs_pos_lt in N. lra.
    - pose proof (apx_abs_lo _ _ _ A) as L. apply Rle_trans with (/ 2 * bpow radix2 (-900))%R; [|eapply Rle_trans; [|exact L]].
      + change (/ 2)%R with (bpow radix2 (-1)). rewrite <- bpow_plus. apply bpow_le. lia.
      + apply Rmult_le_compat; try lra. apply bpow_ge_0. }
  assert (Rabs s <= bpow radix2 1000)%R as S2.
  { pose proof (apx_abs _ _ _ A) as L. eapply Rle_trans; [exact L|]. apply Rle_trans with (bpow radix2 1 * bpow radix2 900)%R; [|rewrite <- bpow_plus; apply bpow_le; lia].
    apply Rmult_le_compat; try lra; [apply Rabs_pos|]. change (bpow radix2 1) with 2%R. lra. }
  pose proof (Bdiv_correct 53 1024 P64' M64' mode_NE (b64 x Hx) (b64 y Hy)) as H. rewrite !b64_R in H. specialize (H Ny). fold s in H.
  change (round radix2 (SpecFloat.fexp 53 1024) (round_mode mode_NE) s) with (rnd64 s) in H. rewrite Rlt_bool_true in H by (by apply rnd_fits). destruct H as (H1 & H2 & _).
  rewrite (b64_fin _ _ Fx) in H2. unfold finite64, R64. rewrite (f64_div_b _ _ Hx Hy), SF_B_finite, SF_B_R. split; [exact H2|]. rewrite H1.
  eapply (apx_trans e ulp2); [apply Rlt_le, ulp2_pos|by apply rnd_apx|exact A].
Qed.

(** ** Conversion of elapsed nanoseconds *)
(** Nanoseconds per unit. *)
Definition ns_per : list (Z * Z) :=
  [(NanosecondUnit, 1); (MicrosecondUnit, 1000); (MillisecondUnit, 1000000); (SecondUnit, 1000000000); (MinuteUnit, 60 * 1000000000); (HourUnit, 60 * 60 * 1000000000)].

(** Reals between 2^-60 and 2^70. *)
Lemma between_ok r : r = 0%R \/ (bpow radix2 (-60) <= Rabs r)%R -> (Rabs r <= bpow radix2 70)%R ->
  (r = 0%R \/ (bpow radix2 (-900) <= Rabs r)%R) /\ (Rabs r <= bpow radix2 900)%R.
Proof.
  intros [->|H] L; (split; [|eapply Rle_trans; [exact L|apply bpow_le; lia]]); [by left|right]. eapply Rle_trans; [|exact H]. apply bpow_le. lia.
Qed.
Lemma quot_ok z k : Z.abs z <= 2 ^ 63 -> 1 <= k <= 2 ^ 60 -> ((IZR z / IZR k)%R = 0%R \/ (bpow radix2 (-60) <= Rabs (IZR z / IZR k))%R) /\ (Rabs (IZR z / IZR k) <= bpow radix2 70)%R.
Proof.
  intros Hz Hk. assert (0 < IZR k)%R as Hk' by (apply IZR_lt; lia). assert (Rabs (IZR z / IZR k) = IZR (Z.abs z) * / IZR k)%R as E.
  { unfold Rdiv. rewrite Rabs_mult, <- abs_IZR. f_equal. apply Rabs_pos_eq, Rlt_le, Rinv_0_lt_compat, Hk'. }
  split.
  - destruct (decide (z = 0)) as [->|N]; [left; unfold Rdiv; apply Rmult_0_l|right]. rewrite E. change (bpow radix2 (-60)) with (/ IZR (2 ^ 60))%R.
    rewrite <- (Rmult_1_l (/ IZR (2 ^ 60))). apply Rmult_le_compat; [lra| |apply IZR_le; lia|apply Rinv_le; [exact Hk'|apply IZR_le; lia]].
    apply Rlt_le, Rinv_0_lt_compat, IZR_lt. by vm_compute.
  - rewrite E. apply Rle_trans with (IZR (2 ^ 63) * 1)%R.
    + apply Rmult_le_compat; [apply IZR_le; lia|apply Rlt_le, Rinv_0_lt_compat, Hk'|by apply IZR_le|]. rewrite <- Rinv_1. apply Rinv_le; [lra|apply IZR_le; lia].
    + rewrite Rmult_1_r. change (IZR (2 ^ 63)) with (bpow radix2 63). apply bpow_le. lia.
Qed.

Lemma R64_exact x (s : bool) m e z : f64_val x = S754_finite s m e -> cond_Zopp s (Zpos m) = z * 2 ^ (- e) -> e <= 0 -> R64 x = IZR z.
Proof.
  intros E H He. unfold R64. rewrite E. cbn [SF2R]. rewrite H. unfold F2R. cbn [Fnum Fexp]. rewrite mult_IZR.
  change 2 with (radix_val radix2). rewrite IZR_Zpower by lia. rewrite Rmult_assoc, <- bpow_plus. replace (- e + e) with 0 by lia. cbn [bpow]. apply Rmult_1_r.
Qed.

Lemma dur_units_apx d k : Z.abs d <= 2 ^ 63 -> k = 1000000000 \/ k = 60000000000 \/ k = 3600000000000 ->
  finite64 (dur_units d k) /\ apx (4 * ulp2)%R (R64 (dur_units d k)) (IZR d / IZR k)%R.
Proof.
  intros Hd Hk. assert (R64 (f64_of_Z k) = IZR k) as Ek.
  { destruct Hk as [->|[-> | ->]]; (eapply R64_exact; [vm_compute; reflexivity|vm_compute; reflexivity|vm_compute; discriminate]). }
  assert (1 <= k <= 2 ^ 60) as Hk1 by lia. assert (0 < IZR k)%R as Hk' by (apply IZR_lt; lia). pose proof ulp2_pos as U0. pose proof ulp2_small as U1.
  assert (Z.abs (Z.quot d k) <= 2 ^ 63) as Hq. { rewrite <- Z.quot_abs by lia. rewrite Z.quot_div_nonneg by lia. rewrite (Z.abs_eq k) by lia. etransitivity; [apply Z.div_le_upper_bound with (q := Z.abs d); nia|lia]. }
  assert (Z.abs (Z.rem d k) <= 2 ^ 63) as Hr. { pose proof (Z.rem_bound_abs d k ltac:(lia)). lia. }
  destruct (of_Z_apx _ Hq) as [F1 A1]. destruct (of_Z_apx _ Hr) as [F2 A2]. unfold dur_units.
  destruct (quot_ok _ k Hr Hk1) as [Q1 Q2]. destruct (between_ok _ Q1 Q2) as [B1 B2].
  destruct (f64_div_apx (f64_of_Z (Z.rem d k)) (f64_of_Z k) ulp2 (IZR (Z.rem d k) / IZR k)%R) as [F3 A3]; try apply OpRuns.f64_of_Z_range; try assumption; try (rewrite Ek; lra); [rewrite Ek; by apply apx_div|lra|].
  destruct (quot_ok d k Hd Hk1) as [Q3 Q4]. destruct (between_ok _ Q3 Q4) as [B3 B4].
  assert (IZR (Z.quot d k) + IZR (Z.rem d k) / IZR k = IZR d / IZR k)%R as Es.
  { pose proof (Z.quot_rem d k ltac:(lia)) as E. apply (f_equal IZR) in E. rewrite plus_IZR, mult_IZR in E. apply (Rmult_eq_reg_r (IZR k)); [|lra]. field_simplify; lra. }
  destruct (f64_add_apx (f64_of_Z (Z.quot d k)) (f64_div (f64_of_Z (Z.rem d k)) (f64_of_Z k)) (ulp2 + ulp2 + ulp2 * ulp2)%R (IZR d / IZR k)%R) as [F4 A4]; try assumption.
  - apply OpRuns.f64_of_Z_range.
  - apply (OpRuns.sf_encode_range F64); cbv; discriminate.
  - rewrite <- Es. apply apx_plus; [|eapply apx_le; [exact A1|nra]|exact A3].
    unfold Rdiv. rewrite <- Rmult_assoc, <- mult_IZR. apply Rmult_le_pos; [|apply Rlt_le, Rinv_0_lt_compat, Hk']. apply IZR_le.
    destruct (Z_le_gt_dec 0 d) as [P|P].
    + apply Z.mul_nonneg_nonneg; [apply Z.quot_pos; lia|]. apply Z.rem_nonneg; lia.
    + apply Z.mul_nonpos_nonpos; [|apply Z.rem_nonpos; lia]. pose proof (Z.quot_opp_l d k ltac:(lia)). pose proof (Z.quot_pos (- d) k ltac:(lia) ltac:(lia)). lia.
  - split; nra.
  - split; [exact F4|]. eapply apx_le; [exact A4|]. nra.
Qed.

Lemma scaled_apx d c k : Z.abs d <= 2 ^ 63 -> in_unsigned 64 c -> finite64 c -> 1 <= k <= 2 ^ 60 -> apx ulp2 (R64 c) (/ IZR k)%R ->
  finite64 (f64_mul (f64_of_Z d) c) /\ apx (4 * ulp2)%R (R64 (f64_mul (f64_of_Z d) c)) (IZR d / IZR k)%R.
Proof.
  intros Hd Hc Fc Hk Ac. pose proof ulp2_pos as U0. pose proof ulp2_small as U1. destruct (of_Z_apx _ Hd) as [F1 A1].
  destruct (quot_ok d k Hd Hk) as [Q3 Q4]. destruct (between_ok _ Q3 Q4) as [B3 B4].
  destruct (f64_mul_apx (f64_of_Z d) c (ulp2 + ulp2 + ulp2 * ulp2)%R (IZR d / IZR k)%R) as [F A]; try assumption; [apply OpRuns.f64_of_Z_range| |split; nra|].
  - unfold Rdiv. apply apx_mult; auto. lra.
  - split; [exact F|]. eapply apx_le; [exact A|]. nra.
Qed.

Lemma const_apx x m e k : f64_val x = S754_finite false m e -> 0 < k -> e <= 0 -> Z.abs (Zpos m * k - 2 ^ (- e)) * 2 ^ 53 <= 2 ^ (- e) -> apx ulp2 (R64 x) (/ IZR k)%R.
Proof.
  intros E Hk He H. unfold R64. rewrite E. cbn [SF2R cond_Zopp]. unfold F2R. cbn [Fnum Fexp]. set (p := 2 ^ (- e)) in *. assert (0 < p) as Hp by (apply Z.pow_pos_nonneg; lia).
  assert (bpow radix2 e = / IZR p)%R as ->.
  { unfold p. change 2 with (radix_val radix2). rewrite IZR_Zpower by lia. rewrite <- bpow_opp. f_equal. lia. }
  unfold apx. rewrite ulp2_val. assert (0 < IZR p)%R as Hp' by by apply IZR_lt. assert (0 < IZR k)%R as Hk' by by apply IZR_lt. assert (0 < IZR (2 ^ 53))%R as H53 by (apply IZR_lt; by vm_compute).
  replace (IZR (Z.pos m) * / IZR p - / IZR k)%R with (IZR (Z.pos m * k - p) * / (IZR p * IZR k))%R by (rewrite minus_IZR, mult_IZR; field; lra).
  rewrite Rabs_mult, <- abs_IZR, (Rabs_pos_eq (/ IZR k)), (Rabs_pos_eq (/ (IZR p * IZR k))) by (apply Rlt_le, Rinv_0_lt_compat; nra).
  apply (Rmult_le_reg_r (IZR p * IZR k * IZR (2 ^ 53))); [apply Rmult_lt_0_compat; nra|].
  replace (IZR (Z.abs (Z.pos m * k - p)) * / (IZR p * IZR k) * (IZR p * IZR k * IZR (2 ^ 53)))%R with (IZR (Z.abs (Z.pos m * k - p)) * IZR (2 ^ 53))%R by (field; lra).
  replace (/ IZR (2 ^ 53) * / IZR k * (IZR p * IZR k * IZR (2 ^ 53)))%R with (IZR p) by (field; lra). rewrite <- mult_IZR. by apply IZR_le.
Qed.

(** The increment of a Stop is the elapsed time in the timer's unit, to within 2^-51 of itself. *)
Lemma timer_increment_apx u k d : (u, k) ∈ ns_per -> in_signed 64 d -> finite64 (timer_increment u d) /\ apx (4 * ulp2)%R (R64 (timer_increment u d)) (IZR d / IZR k)%R.
Proof.
  intros H [Hd1 Hd2]. assert (Z.abs d <= 2 ^ 63) as Hd by (change (2 ^ (64 - 1)) with (2 ^ 63) in *; lia). pose proof ulp2_pos as U0.
  unfold ns_per in H. repeat (rewrite elem_of_cons in H). rewrite elem_of_nil in H.
  destruct H as [E|[E|[E|[E|[E|[E|[]]]]]]]; injection E as -> ->.
  - change (timer_increment NanosecondUnit d) with (f64_of_Z d). destruct (of_Z_apx d Hd) as [F A]. split; [exact F|]. unfold Rdiv. rewrite Rinv_1, Rmult_1_r. eapply apx_le; [exact A|lra].
  - change (timer_increment MicrosecondUnit d) with (f64_mul (f64_of_Z d) f64_1em3). apply scaled_apx; [assumption|by vm_compute|by vm_compute|lia|].
    eapply const_apx; [vm_compute; reflexivity|lia|vm_compute; discriminate|vm_compute; discriminate].
  - change (timer_increment MillisecondUnit d) with (f64_mul (f64_of_Z d) f64_1em6). apply scaled_apx; [assumption|by vm_compute|by vm_compute|lia|].
    eapply const_apx; [vm_compute; reflexivity|lia|vm_compute; discriminate|vm_compute; discriminate].
  - change (timer_increment SecondUnit d) with (dur_units d 1000000000). apply dur_units_apx; auto.
  - change (timer_increment MinuteUnit d) with (dur_units d 60000000000). apply dur_units_apx; auto.
  - change (timer_increment HourUnit d) with (dur_units d 3600000000000). apply dur_units_apx; auto.
Qed.
