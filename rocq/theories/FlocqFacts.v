(** The model's floats against real arithmetic, through Flocq. This file and the
    theorems that use it depend on the standard library's axioms for real numbers. *)
From Verif Require Import Base BaseFacts Floats FloatFacts.
From Coq Require Import Reals Lra.
From Flocq Require Import Core.Core IEEE754.BinarySingleNaN.
Open Scope Z_scope.

(** ** The standard library's rounding is Flocq's *)
Section eqv.
Context (prec emax : Z) (Hprec : FLX.Prec_gt_0 prec) (Hmax : Prec_lt_emax prec emax).
Lemma round_ne_eqv s m l : round_nearest_even m l = choice_mode mode_NE s m l.
Proof. case l; [reflexivity|intro c]. case c; [|reflexivity..]. now simpl; unfold Round.cond_incr; case Z.even. Qed.
Lemma round_aux_eqv sx mx ex lx : SpecFloat.binary_round_aux prec emax sx mx ex lx = BinarySingleNaN.binary_round_aux prec emax mode_NE sx mx ex lx.
Proof.
  unfold SpecFloat.binary_round_aux, BinarySingleNaN.binary_round_aux. set (x := shr_fexp _ _ _ _ _). case x; intros a b; simpl.
  now rewrite (round_ne_eqv sx).
Qed.
Lemma round_eqv s m e : SpecFloat.binary_round prec emax s m e = BinarySingleNaN.binary_round prec emax mode_NE s m e.
Proof. unfold SpecFloat.binary_round, BinarySingleNaN.binary_round, shl_align_fexp. set (x := shl_align _ _ _). case x as [a b]. apply round_aux_eqv. Qed.
Lemma normalize_eqv m e z : SpecFloat.binary_normalize prec emax m e z = B2SF (BinarySingleNaN.binary_normalize prec emax Hprec Hmax mode_NE m e z).
Proof. case m as [|p|p]; [reflexivity|..]; simpl; rewrite B2SF_SF2B; apply round_eqv. Qed.
Lemma add_eqv (x y : binary_float prec emax) : SFadd prec emax (B2SF x) (B2SF y) = B2SF (Bplus mode_NE x y).
Proof.
  case x as [sx|sx| |sx mx ex Bx]; case y as [sy|sy| |sy my ey By]; [now (trivial || simpl; case Bool.eqb)..|]. apply normalize_eqv.
Qed.
Lemma sub_eqv (x y : binary_float prec emax) : SFsub prec emax (B2SF x) (B2SF y) = B2SF (Bminus mode_NE x y).
Proof.
  case x as [sx|sx| |sx mx ex Bx]; case y as [sy|sy| |sy my ey By]; [now (trivial || simpl; case Bool.eqb)..|].
  simpl. unfold Zminus. rewrite <- cond_Zopp_negb. apply normalize_eqv.
Qed.
Lemma mul_eqv (x y : binary_float prec emax) : SFmul prec emax (B2SF x) (B2SF y) = B2SF (Bmult mode_NE x y).
Proof.
  case x as [sx|sx| |sx mx ex Bx]; case y as [sy|sy| |sy my ey By]; [now trivial..|]. simpl. rewrite B2SF_SF2B. apply round_aux_eqv.
Qed.
End eqv.

Local Instance P64 : FLX.Prec_gt_0 53 := eq_refl _.
Local Instance M64 : Prec_lt_emax 53 1024 := eq_refl _.
Local Instance P32 : FLX.Prec_gt_0 24 := eq_refl _.
Local Instance M32 : Prec_lt_emax 24 128 := eq_refl _.

(** ** Decoded doubles are valid *)
Lemma digits_of (m : positive) (d : Z) : 0 < d -> 2 ^ (d - 1) <= Zpos m < 2 ^ d -> Zpos (SpecFloat.digits2_pos m) = d.
Proof.
  intros Hd H. change (SpecFloat.digits2_pos m) with (Digits.digits2_pos m). rewrite Digits.Zpos_digits2_pos. apply Digits.Zdigits_unique.
  rewrite Z.abs_eq by lia. change (radix_val radix2) with 2. exact H.
Qed.
Lemma digits_le (m : positive) (d : Z) : 0 <= d -> Zpos m < 2 ^ d -> Zpos (SpecFloat.digits2_pos m) <= d.
Proof.
  intros Hd H. change (SpecFloat.digits2_pos m) with (Digits.digits2_pos m). rewrite Digits.Zpos_digits2_pos.
  apply Digits.Zdigits_le_Zpower. rewrite Z.abs_eq by lia. exact H.
Qed.

Lemma f64_valid x : in_unsigned 64 x -> SpecFloat.valid_binary 53 1024 (f64_val x) = true.
Proof.
  intros Hx. destruct (f64_val x) as [s|s| |s m e] eqn:E; try reflexivity. pose proof (decode_shape _ _ _ _ Hx E) as H.
  cbn [SpecFloat.valid_binary]. unfold SpecFloat.bounded, SpecFloat.canonical_mantissa, SpecFloat.fexp, SpecFloat.emin.
  apply andb_true_intro. split; [|apply Z.leb_le; lia]. apply Zeq_is_eq_bool. destruct H as [[-> H]|[H1 H2]].
  - pose proof (digits_le m 52 ltac:(lia) H). lia.
  - rewrite (digits_of m 53) by (lia || exact H1). lia.
Qed.

Definition b64 (x : Z) (Hx : in_unsigned 64 x) : binary_float 53 1024 := SF2B (f64_val x) (f64_valid x Hx).
Lemma b64_SF x Hx : B2SF (b64 x Hx) = f64_val x.
Proof. apply B2SF_SF2B. Qed.

(** ** Encoding is the inverse of decoding *)
Ltac dm := Z.div_mod_to_equations; lia.

Lemma valid_shape prec emax s m e : 0 < prec -> SpecFloat.valid_binary prec emax (S754_finite s m e) = true ->
  (e = 3 - emax - prec /\ Zpos m < 2 ^ (prec - 1)) \/ (2 ^ (prec - 1) <= Zpos m < 2 ^ prec /\ 3 - emax - prec <= e <= emax - prec).
Proof.
  intros Hp H. cbn [SpecFloat.valid_binary] in H. unfold SpecFloat.bounded, SpecFloat.canonical_mantissa, SpecFloat.fexp, SpecFloat.emin in H.
  apply andb_prop in H as [H1 H2]. apply Zeq_bool_eq in H1. apply Z.leb_le in H2.
  change (SpecFloat.digits2_pos m) with (Digits.digits2_pos m) in H1. rewrite Digits.Zpos_digits2_pos in H1.
  pose proof (Digits.Zdigits_correct radix2 (Zpos m)) as [D1 D2]. rewrite Z.abs_eq in D1, D2 by lia.
  pose proof (Digits.Zdigits_gt_0 radix2 (Zpos m) ltac:(lia)) as D3.
  set (d := Digits.Zdigits radix2 (Zpos m)) in *. change (Zpower radix2 (d - 1)) with (2 ^ (d - 1)) in D1. change (Zpower radix2 d) with (2 ^ d) in D2.
  destruct (Z.eq_dec d prec) as [->|N].
  - right. split; [lia|]. lia.
  - left. assert (d < prec) by lia. split; [lia|]. assert (2 ^ d <= 2 ^ (prec - 1)) by (apply Z.pow_le_mono_r; lia). lia.
Qed.

Lemma decode_norm mw ew (s m e : Z) : 0 < mw -> 0 < ew -> 0 <= m < 2 ^ mw -> 0 <= e < 2 ^ ew -> (s = 0 \/ s = 1) ->
  let x := s * 2 ^ (mw + ew) + e * 2 ^ mw + m in x / 2 ^ (mw + ew) = s /\ (x / 2 ^ mw) mod 2 ^ ew = e /\ x mod 2 ^ mw = m /\ 0 <= x < 2 ^ (1 + ew + mw).
Proof.
  intros H1 H2 Hm He Hs x. assert (2 ^ (mw + ew) = 2 ^ ew * 2 ^ mw) as E by (rewrite <- Z.pow_add_r by lia; f_equal; lia).
  assert (x / 2 ^ mw = s * 2 ^ ew + e) as D. { unfold x. rewrite E. symmetry. apply (Z.div_unique_pos _ _ _ m); [lia|]. lia. }
  split_and!.
  - rewrite E. rewrite Z.mul_comm, <- Z.div_div by first [apply Z.pow_nonzero; lia|apply Z.pow_pos_nonneg; lia]. rewrite D.
    symmetry. apply (Z.div_unique_pos _ _ _ e); [lia|]. lia.
  - rewrite D. symmetry. apply (Z.mod_unique_pos _ _ s); [lia|]. lia.
  - symmetry. apply (Z.mod_unique_pos _ _ (s * 2 ^ ew + e)); [lia|]. unfold x. rewrite E. lia.
  - unfold x. rewrite E. destruct Hs; subst s; nia.
  - unfold x. rewrite E. replace (1 + ew + mw) with (1 + (mw + ew)) by lia. rewrite (Z.pow_add_r 2 1), E by lia. destruct Hs; subst s; nia.
Qed.

Lemma decode_encode f v : (f = F32 \/ f = F64) -> SpecFloat.valid_binary (f_prec f) (f_emax f) v = true -> sf_decode f (sf_encode f v) = v.
Proof.
  intros Hf Hv.
  assert (0 < f_mw f /\ 1 < f_ew f /\ 3 - f_emax f - f_prec f = f_emin f /\ f_prec f = f_mw f + 1 /\ f_emax f = 2 ^ (f_ew f - 1)) as (G1 & G2 & G3 & G4 & G5).
  { destruct Hf as [-> | ->]; repeat split. }
  assert (2 <= 2 ^ (f_ew f - 1)) as G6. { replace 2 with (2 ^ 1) by reflexivity. apply Z.pow_le_mono_r; lia. }
  assert (2 ^ f_ew f = 2 * 2 ^ (f_ew f - 1)) as G7 by (rewrite <- Z.pow_succ_r by lia; f_equal; lia).
  assert (0 < 2 ^ f_mw f) as G8 by (apply Z.pow_pos_nonneg; lia).
  assert (1 < 2 ^ f_mw f) as G9. { assert (2 ^ 1 <= 2 ^ f_mw f) by (apply Z.pow_le_mono_r; lia). lia. }
  assert (forall s m e, 0 <= m < 2 ^ f_mw f -> 0 <= e < 2 ^ f_ew f ->
    sf_decode f (to_unsigned (f_width f) ((if s : bool then 2 ^ (f_mw f + f_ew f) else 0) + e * 2 ^ f_mw f + m)) =
    if e =? 0 then match m with Zpos p => S754_finite s p (f_emin f) | _ => S754_zero s end
    else if e =? 2 ^ f_ew f - 1 then (if m =? 0 then S754_infinity s else S754_nan)
    else match m + 2 ^ f_mw f with Zpos p => S754_finite s p (e + f_emin f - 1) | _ => S754_nan end) as DEC.
  { intros s m e Hm He. destruct (decode_norm (f_mw f) (f_ew f) (if s then 1 else 0) m e) as (D1 & D2 & D3 & D4); auto; try lia; [destruct s; auto|].
    replace ((if s then 2 ^ (f_mw f + f_ew f) else 0) + e * 2 ^ f_mw f + m) with ((if s then 1 else 0) * 2 ^ (f_mw f + f_ew f) + e * 2 ^ f_mw f + m) by (destruct s; lia).
    rewrite to_unsigned_id by exact D4. unfold sf_decode. rewrite D1, D2, D3. destruct s; reflexivity. }
  destruct v as [s|s| |s m e]; unfold sf_encode; cbv zeta.
  - specialize (DEC s 0 0 ltac:(lia) ltac:(lia)). rewrite Z.mul_0_l, !Z.add_0_r in DEC. exact DEC.
  - specialize (DEC s 0 (2 ^ f_ew f - 1) ltac:(lia) ltac:(lia)). rewrite Z.add_0_r in DEC. rewrite DEC.
    replace (2 ^ f_ew f - 1 =? 0) with false by lia. rewrite Z.eqb_refl. reflexivity.
  - specialize (DEC false (2 ^ (f_mw f - 1)) (2 ^ f_ew f - 1)). cbv iota in DEC. rewrite Z.add_0_l in DEC. rewrite DEC; [| |lia].
    + replace (2 ^ f_ew f - 1 =? 0) with false by lia. rewrite Z.eqb_refl. replace (2 ^ (f_mw f - 1) =? 0) with false; [reflexivity|].
      symmetry. apply Z.eqb_neq. apply Z.pow_nonzero; lia.
    + split; [apply Z.pow_nonneg; lia|]. apply Z.pow_lt_mono_r; lia.
  - apply valid_shape in Hv; [|lia]. rewrite G3 in Hv. replace (f_prec f - 1) with (f_mw f) in Hv by lia. destruct Hv as [[-> Hm]|[Hm He]].
    + replace (Zpos m <? 2 ^ f_mw f) with true by lia. specialize (DEC s (Zpos m) 0 ltac:(lia) ltac:(lia)). rewrite Z.mul_0_l, Z.add_0_r in DEC. exact DEC.
    + replace (Zpos m <? 2 ^ f_mw f) with false by lia. rewrite G4, Z.pow_add_r in Hm by lia. change (2 ^ 1) with 2 in Hm.
      rewrite (DEC s (Zpos m - 2 ^ f_mw f) (e - f_emin f + 1)) by lia.
      replace (e - f_emin f + 1 =? 0) with false by lia. replace (e - f_emin f + 1 =? 2 ^ f_ew f - 1) with false by lia.
      replace (Zpos m - 2 ^ f_mw f + 2 ^ f_mw f) with (Zpos m) by lia. f_equal. lia.
Qed.

Lemma f64_encode_val v : SpecFloat.valid_binary 53 1024 v = true -> f64_val (sf_encode F64 v) = v.
Proof. intros H. apply (decode_encode F64); auto. Qed.
Lemma f32_encode_val v : SpecFloat.valid_binary 24 128 v = true -> f32_val (sf_encode F32 v) = v.
Proof. intros H. apply (decode_encode F32); auto. Qed.

(** ** Meaning of the operations *)
(** Real value of a double / float32 given by its bits (0 for non-finite ones). *)
Definition R64 (x : Z) : R := SF2R radix2 (f64_val x).
Definition R32 (x : Z) : R := SF2R radix2 (f32_val x).
Definition finite64 (x : Z) : Prop := is_finite_SF (f64_val x) = true.
Definition finite32 (x : Z) : Prop := is_finite_SF (f32_val x) = true.
(** IEEE-754 round to nearest, ties to even, to binary64 / binary32 (unbounded exponent above). *)
Definition rnd64 (x : R) : R := round radix2 (FLT_exp (-1074) 53) ZnearestE x.
Definition rnd32 (x : R) : R := round radix2 (FLT_exp (-149) 24) ZnearestE x.

Lemma b64_R x Hx : B2R (b64 x Hx) = R64 x.
Proof. apply B2R_SF2B. Qed.
Lemma b64_fin x Hx : finite64 x -> is_finite (b64 x Hx) = true.
Proof. intros H. unfold b64. rewrite is_finite_SF2B. exact H. Qed.

Lemma f64_add_b x y Hx Hy : f64_val (f64_add x y) = B2SF (Bplus mode_NE (b64 x Hx) (b64 y Hy)).
Proof.
  unfold f64_add. rewrite <- (b64_SF x Hx), <- (b64_SF y Hy). rewrite (add_eqv 53 1024 P64 M64). apply f64_encode_val. apply valid_binary_B2SF.
Qed.
Lemma f64_sub_b x y Hx Hy : f64_val (f64_sub x y) = B2SF (Bminus mode_NE (b64 x Hx) (b64 y Hy)).
Proof.
  unfold f64_sub. rewrite <- (b64_SF x Hx), <- (b64_SF y Hy). rewrite (sub_eqv 53 1024 P64 M64). apply f64_encode_val. apply valid_binary_B2SF.
Qed.

Lemma SF_B_finite (b : binary_float 53 1024) : is_finite_SF (B2SF b) = is_finite b.
Proof. destruct b; reflexivity. Qed.
Lemma SF_B_R (b : binary_float 53 1024) : SF2R radix2 (B2SF b) = B2R b.
Proof. destruct b; reflexivity. Qed.

Lemma f64_add_correct x y : in_unsigned 64 x -> in_unsigned 64 y -> finite64 x -> finite64 y ->
  (Rabs (rnd64 (R64 x + R64 y)) < bpow radix2 1024)%R -> finite64 (f64_add x y) /\ R64 (f64_add x y) = rnd64 (R64 x + R64 y).
Proof.
  intros Hx Hy Fx Fy HB. pose proof (Bplus_correct 53 1024 P64 M64 mode_NE (b64 x Hx) (b64 y Hy) (b64_fin _ _ Fx) (b64_fin _ _ Fy)) as H.
  rewrite !b64_R in H. change (round radix2 (SpecFloat.fexp 53 1024) (round_mode mode_NE) (R64 x + R64 y)) with (rnd64 (R64 x + R64 y)) in H.
  rewrite Rlt_bool_true in H by exact HB. destruct H as (H1 & H2 & _). unfold finite64, R64 at 1. rewrite (f64_add_b _ _ Hx Hy), SF_B_finite, SF_B_R. auto.
Qed.

Lemma f64_sub_correct x y : in_unsigned 64 x -> in_unsigned 64 y -> finite64 x -> finite64 y ->
  (Rabs (rnd64 (R64 x - R64 y)) < bpow radix2 1024)%R -> finite64 (f64_sub x y) /\ R64 (f64_sub x y) = rnd64 (R64 x - R64 y).
Proof.
  intros Hx Hy Fx Fy HB. pose proof (Bminus_correct 53 1024 P64 M64 mode_NE (b64 x Hx) (b64 y Hy) (b64_fin _ _ Fx) (b64_fin _ _ Fy)) as H.
  rewrite !b64_R in H. change (round radix2 (SpecFloat.fexp 53 1024) (round_mode mode_NE) (R64 x - R64 y)) with (rnd64 (R64 x - R64 y)) in H.
  rewrite Rlt_bool_true in H by exact HB. destruct H as (H1 & H2 & _). unfold finite64, R64 at 1. rewrite (f64_sub_b _ _ Hx Hy), SF_B_finite, SF_B_R. auto.
Qed.

(** ** Narrowing *)
Lemma max32_R : IZR MaxFloat32 = F2R (Float radix2 (2 ^ 24 - 1) 104).
Proof. unfold F2R. cbn [Fnum Fexp]. unfold MaxFloat32. rewrite mult_IZR. f_equal. Qed.

Lemma max32_format : generic_format radix2 (FLT_exp (-149) 24) (IZR MaxFloat32).
Proof.
  rewrite max32_R. apply generic_format_FLT. exists (Float radix2 (2 ^ 24 - 1) 104); cbn; [reflexivity|lia|lia].
Qed.

Lemma abs_le_R x n : in_unsigned 64 x -> 0 <= n -> f64_abs_le x n -> finite64 x /\ (Rabs (R64 x) <= IZR n)%R.
Proof.
  intros Hx Hn. unfold f64_abs_le, finite64, R64. destruct (f64_val x) as [s|s| |s m e] eqn:E; try contradiction.
  - intros _. split; [reflexivity|]. cbn. rewrite Rabs_R0. apply IZR_le. exact Hn.
  - intros H. split; [reflexivity|]. cbn [SF2R]. rewrite <- F2R_Zabs, abs_cond_Zopp. cbn [Z.abs]. unfold F2R. cbn [Fnum Fexp].
    pose proof (decode_shape _ _ _ _ Hx E) as Hs.
    apply (Rmult_le_reg_r (bpow radix2 1074)); [apply bpow_gt_0|]. rewrite Rmult_assoc, <- bpow_plus.
    change (bpow radix2 1074) with (IZR (2 ^ 1074)). rewrite <- (IZR_Zpower radix2 (e + 1074)) by lia. rewrite <- !mult_IZR. apply IZR_le. exact H.
Qed.

Lemma narrow_correct x : in_unsigned 64 x -> f64_abs_le x MaxFloat32 ->
  finite32 (f32_of_f64 x) /\ R32 (f32_of_f64 x) = rnd32 (R64 x).
Proof.
  intros Hx Hle. destruct (abs_le_R x MaxFloat32 Hx ltac:(vm_compute; discriminate) Hle) as [Fx Hb].
  unfold f32_of_f64, finite64, finite32, R32, R64 in *. destruct (f64_val x) as [s|s| |s m e] eqn:E; try contradiction; try discriminate.
  - cbn [sf_narrow]. rewrite f32_encode_val by reflexivity. split; [reflexivity|]. cbn. unfold rnd32. rewrite round_0; auto with typeclass_instances.
  - cbn [sf_narrow]. pose proof (binary_round_correct 24 128 P32 M32 mode_NE s m e) as [V H]. rewrite (round_eqv 24 128 s m e).
    rewrite f32_encode_val by exact V. cbv zeta in H. change (SpecFloat.fexp 24 128) with (FLT_exp (-149) 24) in H.
    cbn [SF2R] in *. change (round radix2 (FLT_exp (-149) 24) (round_mode mode_NE) (F2R (Float radix2 (cond_Zopp s (Zpos m)) e))) with
      (rnd32 (F2R (Float radix2 (cond_Zopp s (Zpos m)) e))) in H.
    rewrite Rlt_bool_true in H; [tauto|].
    apply Rle_lt_trans with (IZR MaxFloat32).
    + unfold rnd32. apply abs_round_le_generic; auto with typeclass_instances. apply max32_format.
    + change (bpow radix2 128) with (IZR (2 ^ 128)). apply IZR_lt. reflexivity.
Qed.
