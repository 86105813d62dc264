(** How exact the numbers of the download example are. *)
From Verif Require Import Base BaseFacts Floats GoVal Units Metrics OpRuns FloatFacts FlocqFacts FloatMono FloatErr HistFacts SamplesDl.
From Coq Require Import Reals Psatz.
From Flocq Require Import Core.Core IEEE754.BinarySingleNaN.
Local Open Scope Z_scope.

Lemma apx_inv e y s : (0 <= e <= / 2)%R -> s <> 0%R -> apx e y s -> y <> 0%R /\ apx (2 * e) (/ y) (/ s).
Proof.
  intros He Hs A. pose proof (apx_abs_lo _ _ _ A) as L. assert (0 < Rabs s)%R as Ps by (by apply Rabs_pos_lt). assert (0 < Rabs y)%R as Py by nra.
  assert (y <> 0%R) as Hy by (intros ->; rewrite Rabs_R0 in Py; lra). split; [exact Hy|]. unfold apx in *.
  replace (/ y - / s)%R with ((s - y) * (/ y * / s))%R by (field; auto). rewrite Rabs_mult, Rabs_minus_sym, Rabs_mult, !Rabs_inv.
  assert (/ Rabs y <= 2 * / Rabs s)%R as K.
  { apply (Rmult_le_reg_r (Rabs y * Rabs s)); [nra|]. replace (/ Rabs y * (Rabs y * Rabs s))%R with (Rabs s) by (field; lra). replace (2 * / Rabs s * (Rabs y * Rabs s))%R with (2 * Rabs y)%R by (field; lra). nra. }
  assert (0 < / Rabs s)%R as Pi by (by apply Rinv_0_lt_compat). assert (0 <= / Rabs y)%R as Pj by (apply Rlt_le; by apply Rinv_0_lt_compat).
  apply Rle_trans with (e * Rabs s * (/ Rabs y * / Rabs s))%R; [apply Rmult_le_compat_r; [nra|exact A]|].
  replace (e * Rabs s * (/ Rabs y * / Rabs s))%R with (e * / Rabs y)%R by (field; lra). replace (2 * e * / Rabs s)%R with (e * (2 * / Rabs s))%R by ring. apply Rmult_le_compat_l; lra.
Qed.
Lemma quot_big z k : Z.abs z <= 2 ^ 93 -> 1 <= k <= 2 ^ 93 -> ((IZR z / IZR k)%R = 0%R \/ (bpow radix2 (-900) <= Rabs (IZR z / IZR k))%R) /\ (Rabs (IZR z / IZR k) <= bpow radix2 900)%R.
Proof.
  intros Hz Hk. assert (0 < IZR k)%R as Hk' by (apply IZR_lt; lia). assert (Rabs (IZR z / IZR k) = IZR (Z.abs z) * / IZR k)%R as E.
  { unfold Rdiv. rewrite Rabs_mult, <- abs_IZR. f_equal. apply Rabs_pos_eq, Rlt_le, Rinv_0_lt_compat, Hk'. }
  split.
  - destruct (decide (z = 0)) as [->|N]; [left; unfold Rdiv; apply Rmult_0_l|right]. rewrite E. apply Rle_trans with (bpow radix2 (-93)); [apply bpow_le; lia|]. change (bpow radix2 (-93)) with (/ IZR (2 ^ 93))%R.
    rewrite <- (Rmult_1_l (/ IZR (2 ^ 93))). apply Rmult_le_compat; [lra| |apply IZR_le; lia|apply Rinv_le; [exact Hk'|apply IZR_le; lia]].
    apply Rlt_le, Rinv_0_lt_compat, IZR_lt. by vm_compute.
  - rewrite E. apply Rle_trans with (IZR (2 ^ 93) * 1)%R.
    + apply Rmult_le_compat; [apply IZR_le; lia|apply Rlt_le, Rinv_0_lt_compat, Hk'|by apply IZR_le|]. rewrite <- Rinv_1. apply Rinv_le; [lra|apply IZR_le; lia].
    + rewrite Rmult_1_r. change (IZR (2 ^ 93)) with (bpow radix2 93). apply bpow_le. lia.
Qed.

Lemma same_real a b : same_but_zero a b -> R64 a = R64 b /\ (finite64 b -> finite64 a).
Proof. intros [->|(s & s' & Ea & Eb)]; [auto|]. unfold R64, finite64. rewrite Ea, Eb. auto. Qed.

(** Seconds and megabytes per second. *)
Definition dl_ns (d : download) : Z := dl_stop d - dl_start d.
Lemma elapsed_apx d : dl_ok d -> finite64 (elapsed d) /\ apx (4 * ulp2)%R (R64 (elapsed d)) (IZR (dl_ns d) / IZR 1000000000)%R.
Proof.
  intros OK. unfold dl_ok in OK. fold (dl_ns d) in *. assert (Z.abs (dl_ns d) <= 2 ^ 63) as B by (unfold dl_ns; lia). destruct (dur_units_apx (dl_ns d) 1000000000 B ltac:(auto)) as [F A].
  unfold elapsed. cbn zeta. fold (dl_ns d). destruct (f64_eqb (dur_units (dl_ns d) 1000000000) f64_zero) eqn:E; [|auto].
  apply GaugeFacts.eqb_zero in E as [s E]. split; [reflexivity|]. replace (R64 f64_zero) with (R64 (dur_units (dl_ns d) 1000000000)); [exact A|]. unfold R64. rewrite E. reflexivity.
Qed.
Lemma speed_apx d : dl_ok d -> 0 <= dl_bytes d < 2 ^ 63 -> 0 < dl_ns d ->
  finite64 (mb_per_s (dl_bytes d) (elapsed d)) /\ apx (16 * ulp2)%R (R64 (mb_per_s (dl_bytes d) (elapsed d))) (IZR (dl_bytes d) / IZR 1048576 / (IZR (dl_ns d) / IZR 1000000000))%R.
Proof.
  intros OK Hn Hd. destruct (elapsed_apx d OK) as [Fe Ae]. pose proof (elapsed_nnz d) as [Re _]. set (e := elapsed d) in *. clearbody e. unfold dl_ok in OK.
  assert (dl_ns d < 2 ^ 63) as Hd' by (unfold dl_ns; lia). set (n := dl_bytes d) in *. set (x := dl_ns d) in *. clearbody n x. clear OK d.
  pose proof ulp2_pos as U0. pose proof ulp2_small as U1.
  assert (R64 (f64_of_Z 1048576) = IZR 1048576) as Ek by (eapply R64_exact; [vm_compute; reflexivity|vm_compute; reflexivity|vm_compute; discriminate]).
  assert (finite64 (f64_of_Z 1048576)) as Fk by (vm_compute; reflexivity). assert (in_unsigned 64 (f64_of_Z 1048576)) as Rk by apply OpRuns.f64_of_Z_range.
  assert (0 < IZR x)%R as Px by (by apply IZR_lt).
  assert (IZR 1048576 * (IZR x / IZR 1000000000) = IZR (1048576 * x) / IZR 1000000000)%R as Eq by (rewrite mult_IZR; field).
  destruct (quot_big (1048576 * x) 1000000000 ltac:(lia) ltac:(lia)) as [Q1 Q2].
  assert (apx (4 * ulp2) (R64 (f64_of_Z 1048576) * R64 e) (IZR (1048576 * x) / IZR 1000000000)) as A1.
  { rewrite Ek, <- Eq. replace (4 * ulp2)%R with (0 + 4 * ulp2 + 0 * (4 * ulp2))%R by ring. apply apx_mult; [lra|apply apx_refl|exact Ae]. }
  assert (0 <= 4 * ulp2 <= / 2)%R as B4 by lra.
  destruct (f64_mul_apx _ _ _ _ Rk Re Fk Fe A1 B4 Q1 Q2) as [Fp Ap]. assert (in_unsigned 64 (f64_mul (f64_of_Z 1048576) e)) as Rp by apply OpRuns.f64_mul_range.
  unfold mb_per_s. set (p := f64_mul (f64_of_Z 1048576) e) in *. clearbody p. rewrite <- Eq in Ap.
  apply (apx_le _ (6 * ulp2)) in Ap; [|nra]. assert (0 <= 6 * ulp2 <= / 2)%R as B6 by lra.
  assert (IZR 1048576 * (IZR x / IZR 1000000000) <> 0)%R as Nz by (apply Rgt_not_eq; apply Rmult_lt_0_compat; [lra|]; apply Rdiv_lt_0_compat; lra).
  destruct (apx_inv _ _ _ B6 Nz Ap) as [Np Ai]. destruct (of_Z_apx n ltac:(lia)) as [Fn An].
  assert (IZR n / IZR 1048576 / (IZR x / IZR 1000000000) = IZR (n * 1000000000) / IZR (1048576 * x))%R as Er by (rewrite !mult_IZR; field; lra).
  destruct (quot_big (n * 1000000000) (1048576 * x) ltac:(lia) ltac:(lia)) as [Q3 Q4]. rewrite <- Er in Q3, Q4.
  assert (apx (14 * ulp2) (R64 (f64_of_Z n) / R64 p) (IZR n / IZR 1048576 / (IZR x / IZR 1000000000))) as A2.
  { eapply apx_le; [replace (IZR n / IZR 1048576 / (IZR x / IZR 1000000000))%R with (IZR n * / (IZR 1048576 * (IZR x / IZR 1000000000)))%R by (field; lra); apply (apx_mult ulp2 (2 * (6 * ulp2))); [lra|exact An|exact Ai]|nra]. }
  assert (0 <= 14 * ulp2 <= / 2)%R as B14 by lra.
  destruct (f64_div_apx _ _ _ _ (OpRuns.f64_of_Z_range n) Rp Fn Np A2 B14 Q3 Q4) as [Fr Ar]. split; [exact Fr|]. eapply apx_le; [exact Ar|]. nra.
Qed.
