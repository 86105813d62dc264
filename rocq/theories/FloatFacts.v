(** Decoded doubles, the range test of isCompatibleFloat, and sign manipulation. *)
From Verif Require Import Base BaseFacts Floats.

(** Shape of decoded finite doubles. *)
Lemma decode_shape x s m e : in_unsigned 64 x -> f64_val x = S754_finite s m e ->
  (e = -1074 /\ Zpos m < 2 ^ 52) \/ (2 ^ 52 <= Zpos m < 2 ^ 53 /\ -1074 <= e <= 971).
Proof.
  intros Hx. unfold f64_val, sf_decode, in_unsigned in *. change (f_mw F64) with 52. change (f_ew F64) with 11. change (f_emin F64) with (-1074).
  pose proof (Z.mod_pos_bound x (2 ^ 52) ltac:(lia)) as Hm. pose proof (Z.mod_pos_bound (x / 2 ^ 52) (2 ^ 11) ltac:(lia)) as He.
  generalize dependent (x mod 2 ^ 52). generalize dependent ((x / 2 ^ 52) mod 2 ^ 11). intros ex He mx Hm.
  destruct (ex =? 0) eqn:E1.
  - destruct mx as [|p|p]; try discriminate. intros H. injection H as <- <- <-. left. lia.
  - destruct (ex =? 2 ^ 11 - 1) eqn:E2; [destruct (mx =? 0); discriminate|].
    destruct (mx + 2 ^ 52) as [|p|p] eqn:Ep; try lia. intros H. injection H as <- <- <-. right.
    change (2 ^ 11) with 2048 in *. lia.
Qed.

(** ** Magnitude *)
(** The double with bits [x] is finite and its magnitude is at most [n], exactly: the
    value is [m * 2^e] and everything is scaled by [2^1074], the finest double step. *)
Definition f64_abs_le (x n : Z) : Prop :=
  match f64_val x with
  | S754_zero _ => 0 <= n
  | S754_finite _ m e => Zpos m * 2 ^ (e + 1074) <= n * 2 ^ 1074
  | S754_infinity _ | S754_nan => False
  end.

(** The largest finite float32. *)
Definition MaxFloat32 : Z := (2 ^ 24 - 1) * 2 ^ 104.

Lemma pos_cmp m e : (e = -1074 /\ Zpos m < 2 ^ 52) \/ (2 ^ 52 <= Zpos m < 2 ^ 53 /\ -1074 <= e <= 971) ->
  match e ?= 75 with Lt => True | Gt => False | Eq => Zpos m <= (2 ^ 24 - 1) * 2 ^ 29 end <->
  Zpos m * 2 ^ (e + 1074) <= MaxFloat32 * 2 ^ 1074.
Proof.
  intros H. unfold MaxFloat32. replace ((2 ^ 24 - 1) * 2 ^ 104 * 2 ^ 1074) with ((2 ^ 24 - 1) * 2 ^ 29 * 2 ^ (75 + 1074)).
  2: { rewrite <- !Z.mul_assoc, <- !Z.pow_add_r by lia. reflexivity. }
  assert (0 < 2 ^ (e + 1074)) as Hp by (apply Z.pow_pos_nonneg; lia).
  destruct (Z.compare_spec e 75) as [->|L|G].
  - split; intros; [apply Z.mul_le_mono_nonneg_r; [lia|assumption]|]. apply Z.mul_le_mono_pos_r in H0; [exact H0|exact Hp].
  - split; [|tauto]. intros _. replace (75 + 1074) with ((e + 1074) + (75 - e)) by lia. rewrite (Z.pow_add_r 2 (e + 1074) (75 - e)) by lia.
    rewrite (Z.mul_comm (2 ^ (e + 1074))), Z.mul_assoc. apply Z.mul_le_mono_nonneg_r; [lia|].
    assert (2 ^ 1 <= 2 ^ (75 - e)) by (apply Z.pow_le_mono_r; lia). nia.
  - split; [tauto|]. intros Hc. exfalso. destruct H as [[-> _]|[Hm _]]; [lia|].
    replace (e + 1074) with ((75 + 1074) + (e - 75)) in Hc by lia. rewrite (Z.pow_add_r 2 (75 + 1074) (e - 75)) in Hc by lia.
    rewrite (Z.mul_comm (2 ^ (75 + 1074))), Z.mul_assoc in Hc. apply Z.mul_le_mono_pos_r in Hc; [|apply Z.pow_pos_nonneg; lia].
    assert (2 ^ 1 <= 2 ^ (e - 75)) by (apply Z.pow_le_mono_r; lia). nia.
Qed.

Lemma max_val : f64_val max_float32_bits = S754_finite false 9007198717870080 75.
Proof. reflexivity. Qed.
Lemma neg_max_val : f64_val neg_max_float32_bits = S754_finite true 9007198717870080 75.
Proof. reflexivity. Qed.

Lemma float32_range x : in_unsigned 64 x ->
  f64_leb neg_max_float32_bits x && f64_leb x max_float32_bits = true <-> f64_abs_le x MaxFloat32.
Proof.
  intros Hx. unfold f64_leb, f64_abs_le. rewrite max_val, neg_max_val. destruct (f64_val x) as [s|s| |s m e] eqn:E.
  - split; [intros _; unfold MaxFloat32; lia|]. intros _. reflexivity.
  - split; [|tauto]. destruct s; cbn; discriminate.
  - split; [|tauto]. cbn. discriminate.
  - pose proof (pos_cmp m e (decode_shape _ _ _ _ Hx E)) as Hc. change ((2 ^ 24 - 1) * 2 ^ 29) with 9007198717870080 in Hc.
    rewrite <- Hc. clear Hc E Hx. generalize 9007198717870080%positive as M. intros M. unfold SFleb. cbn [SFcompare]. destruct s.
    + rewrite andb_true_r. rewrite (Z.compare_antisym e 75). destruct (e ?= 75) eqn:Ee; cbn [CompOpp]; [|tauto|split; [discriminate|tauto]].
      change (Pos.compare_cont Eq M m) with (Pos.compare M m).
      destruct (Pos.compare_spec M m); split; intros; first [lia|discriminate|reflexivity].
    + rewrite andb_true_l. destruct (e ?= 75) eqn:Ee; [|tauto|split; [discriminate|tauto]].
      change (Pos.compare_cont Eq m M) with (Pos.compare m M).
      destruct (Pos.compare_spec m M); split; intros; first [lia|discriminate|reflexivity].
Qed.

(** ** Equality *)
Lemma SFeqb_refl v : v <> S754_nan -> SFeqb v v = true.
Proof.
  unfold SFeqb. destruct v as [s|s| |s m e]; cbn; try done; [by destruct s|]. intros _.
  rewrite Z.compare_refl. change (Pos.compare_cont Eq m m) with (Pos.compare m m). rewrite Pos.compare_refl. by destruct s.
Qed.
Lemma SFeqb_nan_l v : SFeqb S754_nan v = false.
Proof. reflexivity. Qed.
Lemma SFeqb_finite s m e s' m' e' : SFeqb (S754_finite s m e) (S754_finite s' m' e') = true -> s = s' /\ m = m' /\ e = e'.
Proof.
  unfold SFeqb. cbn. destruct s, s'; try discriminate; destruct (Z.compare_spec e e') as [->| |]; try discriminate;
    change (Pos.compare_cont Eq m m') with (Pos.compare m m'); destruct (Pos.compare_spec m m') as [->| |]; try discriminate; auto.
Qed.
Lemma SFeqb_cases v w : SFeqb v w = true -> v = w \/ (exists s s', v = S754_zero s /\ w = S754_zero s').
Proof.
  destruct v as [s|s| |s m e], w as [s'|s'| |s' m' e']; intros H; try discriminate; try (destruct s; discriminate); try (destruct s'; discriminate).
  - right. eauto.
  - left. destruct s, s'; try discriminate; reflexivity.
  - left. apply SFeqb_finite in H as (-> & -> & ->). reflexivity.
Qed.

(** Bits are determined by the decoded value, except for NaNs. *)
Lemma decode_inj x y : in_unsigned 64 x -> in_unsigned 64 y -> f64_val x = f64_val y -> f64_val x <> S754_nan -> x = y.
Proof.
  intros Hx Hy. unfold f64_val, sf_decode, in_unsigned in *. change (f_mw F64) with 52. change (f_ew F64) with 11. change (f_emin F64) with (-1074).
  change (52 + 11) with 63.
  assert (forall z, 0 <= z < 2 ^ 64 -> exists s ex mx, z = s * 2 ^ 63 + ex * 2 ^ 52 + mx /\ (s = 0 \/ s = 1) /\ 0 <= ex < 2 ^ 11 /\ 0 <= mx < 2 ^ 52 /\
    z / 2 ^ 63 = s /\ (z / 2 ^ 52) mod 2 ^ 11 = ex /\ z mod 2 ^ 52 = mx) as D.
  { intros z Hz. exists (z / 2 ^ 63), ((z / 2 ^ 52) mod 2 ^ 11), (z mod 2 ^ 52).
    pose proof (Z.mod_pos_bound z (2 ^ 52) ltac:(lia)). pose proof (Z.mod_pos_bound (z / 2 ^ 52) (2 ^ 11) ltac:(lia)).
    pose proof (Z.div_mod z (2 ^ 52) ltac:(lia)). pose proof (Z.div_mod (z / 2 ^ 52) (2 ^ 11) ltac:(lia)).
    assert (z / 2 ^ 52 / 2 ^ 11 = z / 2 ^ 63) as E by (rewrite Z.div_div by lia; reflexivity).
    assert (0 <= z / 2 ^ 63 <= 1). { split; [apply Z.div_pos; lia|]. assert (z / 2 ^ 63 < 2); [apply Z.div_lt_upper_bound; lia|lia]. }
    rewrite E in *. split_and!; try lia. }
  destruct (D _ Hx) as (s & ex & mx & Ex & Hs & He & Hm & -> & -> & ->). destruct (D _ Hy) as (s' & ex' & mx' & Ey & Hs' & He' & Hm' & -> & -> & ->).
  change (2 ^ 11) with 2048 in *.
  destruct (ex =? 0) eqn:E1, (ex' =? 0) eqn:E1'.
  - destruct mx as [|p|p], mx' as [|p'|p']; try lia; try discriminate; intros H; injection H; intros; subst; destruct Hs, Hs'; subst; try discriminate; lia.
  - destruct (ex' =? 2048 - 1) eqn:E2'.
    + destruct (mx' =? 0), mx; try discriminate; try lia.
    + destruct (mx' + 2 ^ 52) as [|p|p] eqn:Ep; try lia. destruct mx as [|q|q]; try discriminate; try lia. intros H. injection H. intros; subst. lia.
  - destruct (ex =? 2048 - 1) eqn:E2.
    + destruct (mx =? 0), mx'; try discriminate; try lia.
    + destruct (mx + 2 ^ 52) as [|p|p] eqn:Ep; try lia. destruct mx' as [|q|q]; try discriminate; try lia. intros H. injection H. intros; subst. lia.
  - destruct (ex =? 2048 - 1) eqn:E2, (ex' =? 2048 - 1) eqn:E2'.
    + destruct (mx =? 0) eqn:E3, (mx' =? 0) eqn:E3'; try discriminate; [|intros _ H; done]. intros H _. injection H. intros; subst. destruct Hs, Hs'; subst; try discriminate; lia.
    + destruct (mx =? 0), (mx' + 2 ^ 52) as [|p|p] eqn:Ep; try lia; discriminate.
    + destruct (mx' =? 0), (mx + 2 ^ 52) as [|p|p] eqn:Ep; try lia; discriminate.
    + destruct (mx + 2 ^ 52) as [|p|p] eqn:Ep; try lia. destruct (mx' + 2 ^ 52) as [|p'|p'] eqn:Ep'; try lia.
      intros H _. injection H. intros; subst. destruct Hs, Hs'; subst; try discriminate; lia.
Qed.
