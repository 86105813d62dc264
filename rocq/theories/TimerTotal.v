(** The value of a timer after any history, against the exact number of elapsed nanoseconds. *)
From Verif Require Import Base BaseFacts Floats FloatFacts FlocqFacts FloatMono FloatErr GoVal MetricType Units Indom Metrics Registry Prog Client World OpRuns RegFacts WorldInv Sync MetricFacts GaugeFacts HistFacts.
From Coq Require Import Reals Lra.
From Flocq Require Import Core.Core.
Open Scope Z_scope.

(** Exact specification: start time if running, and the nanoseconds between Start and Stop summed since the last Reset. *)
Definition timer_ns (mp : nat) (st : option Z * Z) (e : world * call * outcome) : option Z * Z :=
  match e with
  | (_, CUpdate mp' op _, ROk) =>
      if decide (mp' = mp) then
        match op, st.1 with
        | OTStart now, _ => (Some now, st.2)
        | OTReset, _ => (st.1, 0)
        | OTStop now, Some t0 => (None, st.2 + (now - t0))
        | _, _ => st
        end
      else st
  | _ => st
  end.
(** Elapsed nanoseconds of a timer that is stopped and 0 before [tr]. *)
Definition elapsed_ns (mp : nat) (tr : list (world * call * outcome)) : Z := (foldl (timer_ns mp) (None, 0) tr).2.
(** The clock readings of the calls on timer [mp]. *)
Definition clock_of (mp : nat) (e : world * call * outcome) : list Z :=
  match e with
  | (_, CUpdate mp' (OTStart now) _, _) | (_, CUpdate mp' (OTStop now) _, _) => if decide (mp' = mp) then [now] else []
  | _ => []
  end.
Definition clocks (mp : nat) (tr : list (world * call * outcome)) : list Z := concat (map (clock_of mp) tr).

Definition running (st : option Z) : list Z := match st with Some t => [t] | None => [] end.

(** Within [n] roundings of the exact total. *)
Definition close (n : nat) (k v T : Z) : Prop :=
  in_unsigned 64 v /\ finite64 v /\ 0 <= T <= Z.of_nat n * 2 ^ 63 /\ apx (IZR (Z.of_nat n) * (2 * ulp2)) (R64 v) (IZR T / IZR k).

Lemma small_e n : Z.of_nat n <= 2 ^ 50 -> (0 <= IZR (Z.of_nat n) * (2 * ulp2) <= / 4)%R.
Proof.
  intros H. rewrite ulp2_val. assert (0 <= IZR (Z.of_nat n) <= IZR (2 ^ 50))%R as [A B] by (split; apply IZR_le; lia).
  assert (2 * / IZR (2 ^ 53) = / 4 * / IZR (2 ^ 50))%R as ->. { change (2 ^ 53) with (8 * 2 ^ 50). rewrite mult_IZR. field. apply Rgt_not_eq, IZR_lt. by vm_compute. }
  assert (0 < IZR (2 ^ 50))%R as P by (apply IZR_lt; by vm_compute). assert (0 < / IZR (2 ^ 50))%R as Pi by by apply Rinv_0_lt_compat. split.
  - apply Rmult_le_pos; [exact A|]. lra.
  - replace (/ 4)%R with (IZR (2 ^ 50) * (/ 4 * / IZR (2 ^ 50)))%R at 2 by (field; lra). apply Rmult_le_compat_r; lra.
Qed.
Lemma close_step n k v T : close n k v T -> close (S n) k v T.
Proof.
  intros (H1 & H2 & H3 & H4). split_and!; try assumption; [lia|lia|]. eapply apx_le; [exact H4|]. apply Rmult_le_compat_r; [pose proof ulp2_pos; lra|]. apply IZR_le. lia.
Qed.
Lemma close_zero n k v (s : bool) : in_unsigned 64 v -> f64_val v = S754_zero s -> close n k v 0.
Proof.
  intros Hv E. split_and!; auto; [unfold finite64; by rewrite E|lia|lia|]. unfold R64. rewrite E. cbn. unfold apx, Rdiv. rewrite Rmult_0_l, Rabs_R0, Rminus_0_r, Rabs_R0. lra.
Qed.
Lemma close_same n k v v' T : in_unsigned 64 v' -> same_but_zero v' v -> close n k v T -> close n k v' T.
Proof.
  intros Hv' [->|(s & s' & E1 & E2)]; [auto|]. intros (H1 & H2 & H3 & H4). split_and!; auto; [unfold finite64; by rewrite E1|lia|lia|]. unfold R64 in *. rewrite E2 in H4. rewrite E1. exact H4.
Qed.
Lemma units_bound u k : (u, k) ∈ ns_per -> 1 <= k <= 2 ^ 60.
Proof. intros H. unfold ns_per in H. repeat (rewrite elem_of_cons in H). rewrite elem_of_nil in H. destruct H as [E|[E|[E|[E|[E|[E|[]]]]]]]; injection E as -> ->; lia. Qed.

Lemma close_add n u k v T d : (u, k) ∈ ns_per -> Z.of_nat n <= 2 ^ 50 -> (2 <= n)%nat -> 0 <= d < 2 ^ 63 -> close n k v T -> close (S n) k (f64_add v (timer_increment u d)) (T + d).
Proof.
  intros Hu Hn Hn2 Hd (H1 & H2 & H3 & H4). pose proof (units_bound _ _ Hu) as Hk. assert (0 < IZR k)%R as Hk' by (apply IZR_lt; lia).
  assert (in_signed 64 d) as Hd' by (split; change (2 ^ (64 - 1)) with (2 ^ 63); lia).
  destruct (timer_increment_apx u k d Hu Hd') as [F A]. pose proof ulp2_pos as U0. pose proof (small_e n Hn) as [E0 E1].
  assert (0 < / IZR k)%R as Hik by by apply Rinv_0_lt_compat.
  assert (IZR (T + d) / IZR k = IZR T / IZR k + IZR d / IZR k)%R as Es by (rewrite plus_IZR; unfold Rdiv; ring).
  destruct (f64_add_apx v (timer_increment u d) (IZR (Z.of_nat n) * (2 * ulp2))%R (IZR (T + d) / IZR k)%R) as [F' A']; auto.
  - apply timer_increment_range.
  - rewrite Es. apply apx_plus; [|exact H4|eapply apx_le; [exact A|]].
    + apply Rmult_le_pos; (apply Rmult_le_pos; [apply IZR_le; lia|lra]).
    + assert (2 <= IZR (Z.of_nat n))%R as K by (apply IZR_le; lia). nra.
  - split; [exact E0|lra].
  - destruct (decide (T + d = 0)) as [->|N]; [left; unfold Rdiv; ring|right]. rewrite Rabs_pos_eq by (apply Rmult_le_pos; [apply IZR_le; lia|lra]).
    apply Rle_trans with (bpow radix2 (-60)); [apply bpow_le; lia|]. change (bpow radix2 (-60)) with (/ IZR (2 ^ 60))%R. rewrite <- (Rmult_1_l (/ IZR (2 ^ 60))).
    apply Rmult_le_compat; [lra| |apply IZR_le; lia|apply Rinv_le; [exact Hk'|apply IZR_le; lia]]. apply Rlt_le, Rinv_0_lt_compat, IZR_lt. by vm_compute.
  - rewrite Rabs_pos_eq by (apply Rmult_le_pos; [apply IZR_le; lia|lra]). apply Rle_trans with (IZR (2 ^ 200) * 1)%R.
    + apply Rmult_le_compat; [apply IZR_le; lia|lra|apply IZR_le; lia|]. rewrite <- Rinv_1. apply Rinv_le; [lra|apply IZR_le; lia].
    + rewrite Rmult_1_r. change (IZR (2 ^ 200)) with (bpow radix2 200). apply bpow_le. lia.
  - split_and!; auto; [apply f64_add_range|lia|lia|]. eapply apx_le; [exact A'|]. rewrite Nat2Z.inj_succ, succ_IZR. nra.
Qed.

(** The float fold of HistFacts.v stays close to the exact fold. *)
Lemma fold_close u k mp lo : (u, k) ∈ ns_per -> forall tr n st v T, (2 <= n)%nat -> Z.of_nat (n + length tr) <= 2 ^ 50 -> close n k v T ->
  StronglySorted Z.le (running st ++ clocks mp tr) -> Forall (fun t => lo <= t < lo + 2 ^ 63) (running st ++ clocks mp tr) ->
  let a := foldl (timer_fold u mp) (st, v) tr in let b := foldl (timer_ns mp) (st, T) tr in a.1 = b.1 /\ close (n + length tr) k a.2 b.2.
Proof.
  intros Hu. induction tr as [|e tr IH]; intros n st v T Hn HL HC HS HR; cbn [foldl length] in *.
  { rewrite Nat.add_0_r. auto. }
  replace (n + S (length tr))%nat with (S n + length tr)%nat in * by lia.
  assert (forall st' v' T', timer_fold u mp (st, v) e = (st', v') -> timer_ns mp (st, T) e = (st', T') -> close (S n) k v' T' ->
    StronglySorted Z.le (running st' ++ clocks mp tr) -> Forall (fun t => lo <= t < lo + 2 ^ 63) (running st' ++ clocks mp tr) ->
    let a := foldl (timer_fold u mp) (timer_fold u mp (st, v) e) tr in let b := foldl (timer_ns mp) (timer_ns mp (st, T) e) tr in a.1 = b.1 /\ close (S n + length tr) k a.2 b.2) as G.
  { intros st' v' T' -> -> C S R. apply IH; auto. }
  unfold clocks in *. cbn [map concat] in HS, HR. rewrite app_assoc in HS, HR.
  assert (StronglySorted Z.le (running st ++ concat (map (clock_of mp) tr)) /\ Forall (fun t => lo <= t < lo + 2 ^ 63) (running st ++ concat (map (clock_of mp) tr))) as [S1 R1].
  { split.
    - clear -HS. rewrite <- app_assoc in HS. revert HS. generalize (concat (map (clock_of mp) tr)). intros l HS. destruct st as [t|]; cbn [running app] in *.
      + apply StronglySorted_inv in HS as [A B]. apply Forall_app in B as [_ B]. constructor; [|exact B]. by apply StronglySorted_app_inv_r in A.
      + by apply StronglySorted_app_inv_r in HS.
    - apply Forall_app in HR as [A B]. apply Forall_app in A as [A _]. apply Forall_app. auto. }
  destruct e as [[w c] o]. destruct c; try (eapply G; [reflexivity|reflexivity|by apply close_step|exact S1|exact R1]).
  destruct o; try (eapply G; [reflexivity|reflexivity|by apply close_step|exact S1|exact R1]).
  cbn [timer_fold timer_ns] in *. destruct (decide (mp0 = mp)) as [->|N].
  2:{ cbn [fst snd] in *. eapply (G st v T); [reflexivity|reflexivity|by apply close_step|exact S1|exact R1]. }
  cbn [fst snd] in *.
  destruct op; try (eapply G; [reflexivity|reflexivity|by apply close_step|exact S1|exact R1]).
  - (* Start *) cbn [clock_of] in HS, HR. rewrite decide_True in HS, HR by reflexivity. eapply G; [reflexivity|reflexivity|by apply close_step| |].
    + rewrite <- app_assoc in HS. by apply StronglySorted_app_inv_r in HS.
    + rewrite <- app_assoc in HR. by apply Forall_app in HR as [_ HR].
  - (* Reset *) eapply G; [reflexivity|reflexivity|apply (close_zero _ _ _ false); [by vm_compute|reflexivity]|exact S1|exact R1].
  - (* Stop *) destruct st as [t0|]; [|eapply G; [reflexivity|reflexivity|by apply close_step|exact S1|exact R1]].
    cbn [clock_of running app] in HS, HR. rewrite decide_True in HS, HR by reflexivity. cbn [app] in HS, HR.
    apply StronglySorted_inv in HS as [HS1 HS2]. apply Forall_cons_1 in HS2 as [Hle _]. apply Forall_cons_1 in HR as [R0 HR]. apply Forall_cons_1 in HR as [R2 HR].
    eapply G; [reflexivity|reflexivity| |apply StronglySorted_inv in HS1 as [HS1 _]; exact HS1|exact HR].
    assert (time_since now t0 = now - t0) as -> by (unfold time_since; lia). apply close_add; auto; lia.
Qed.

Lemma timer_total w tr w' mp m t v k : w_ok w -> hist w tr w' -> h_metrics (w_heap w) !! mp = Some m -> m_kind m = MTimer false t -> m_val m = Some (VF64 v) ->
  same_but_zero v f64_zero -> (md_unit (m_desc m), k) ∈ ns_per -> Z.of_nat (length tr) < 2 ^ 49 ->
  StronglySorted Z.le (clocks mp tr) -> (exists lo, Forall (fun t => lo <= t < lo + 2 ^ 63) (clocks mp tr)) ->
  exists m' v', h_metrics (w_heap w') !! mp = Some m' /\ m_val m' = Some (VF64 v') /\ finite64 v' /\
    (Rabs (R64 v' - IZR (elapsed_ns mp tr) / IZR k) <= IZR (Z.of_nat (length tr) + 2) * bpow radix2 (-52) * (IZR (elapsed_ns mp tr) / IZR k))%R.
Proof.
  intros W H Hm Hk Hv Hz Hu HL HS [lo HR]. destruct (timer_hist w tr w' mp m false t v W H Hm Hk Hv) as (m' & s' & t' & v' & Hm' & Ed & Hk' & Hv' & E1 & E2).
  cbn [run_of] in *. exists m', v'. split; [exact Hm'|]. split; [exact Hv'|].
  assert (in_unsigned 64 v) as Hvr by (by eapply (f64_range w mp m)). assert (in_unsigned 64 v') as Hvr' by (eapply (f64_range w' mp m'); eauto; by eapply hist_ok).
  destruct (fold_close (md_unit (m_desc m)) k mp lo Hu tr 2 None v 0) as [F1 F2]; [lia|lia| |exact HS|exact HR|].
  { apply (close_same _ _ f64_zero); [exact Hvr|exact Hz|]. apply (close_zero _ _ _ false); [by vm_compute|reflexivity]. }
  destruct (close_same _ _ _ v' _ Hvr' E2 F2) as (_ & F & HT & A). split; [exact F|]. unfold apx in A.
  pose proof (units_bound _ _ Hu) as Hkb. assert (0 < / IZR k)%R as Hik by (apply Rinv_0_lt_compat, IZR_lt; lia).
  rewrite (Rabs_pos_eq (IZR _ / IZR k)) in A by (apply Rmult_le_pos; [apply IZR_le; lia|lra]).
  replace (2 * ulp2)%R with (bpow radix2 (-52)) in A by (unfold ulp2; change (-52) with (1 + -53); rewrite bpow_plus; reflexivity).
  replace (Z.of_nat (length tr) + 2) with (Z.of_nat (2 + length tr)) by lia. exact A.
Qed.
