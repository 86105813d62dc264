(** Non-negative doubles under the arithmetic of timers. *)
From Verif Require Import Base BaseFacts Floats FloatFacts FlocqFacts.
From Coq Require Import Reals Lra.
From Flocq Require Import Core.Core IEEE754.BinarySingleNaN.
Open Scope Z_scope.

Local Instance P64' : FLX.Prec_gt_0 53 := eq_refl _.
Local Instance M64' : Prec_lt_emax 53 1024 := eq_refl _.
Local Notation bf := (binary_float 53 1024).

Lemma div_eqv (x y : bf) : SFdiv 53 1024 (B2SF x) (B2SF y) = B2SF (Bdiv mode_NE x y).
Proof.
  case x as [sx|sx| |sx mx ex Bx]; case y as [sy|sy| |sy my ey By]; [now trivial..|]. cbn [B2SF SFdiv]. unfold Bdiv. rewrite B2SF_SF2B.
  destruct (SFdiv_core_binary 53 1024 (Z.pos mx) ex (Z.pos my) ey) as [[mz ez] lz]. apply round_aux_eqv.
Qed.

Definition bnn (b : bf) : Prop := SFleb (S754_zero false) (B2SF b) = true.
(** Not negative and not NaN. *)
Definition nneg (x : Z) : Prop := f64_leb f64_zero x = true.

Lemma nneg_b x Hx : nneg x <-> bnn (b64 x Hx).
Proof. unfold nneg, bnn, f64_leb. rewrite b64_SF. reflexivity. Qed.

Lemma fin_bnn (b : bf) : is_finite b = true -> (0 <= B2R b)%R -> bnn b.
Proof.
  intros F H. unfold bnn. change (S754_zero false) with (B2SF (B754_zero false : bf)). change (Bleb (B754_zero false : bf) b = true).
  rewrite Bleb_correct by auto. apply Rle_bool_true. exact H.
Qed.
Lemma bnn_R (b : bf) : bnn b -> (0 <= B2R b)%R.
Proof.
  intros H. destruct (is_finite b) eqn:F; [|destruct b; try discriminate; cbn; lra].
  unfold bnn in H. change (S754_zero false) with (B2SF (B754_zero false : bf)) in H. change (Bleb (B754_zero false : bf) b = true) in H.
  rewrite Bleb_correct in H by auto. destruct (Rle_bool_spec (B2R (B754_zero false : bf)) (B2R b)); [assumption|discriminate].
Qed.
Lemma bnn_sign (b : bf) : bnn b -> (exists s, b = B754_zero s) \/ Bsign b = false.
Proof. destruct b as [s|s| |s m e H]; cbn; [eauto| | |]; unfold bnn; cbn; try (destruct s); try discriminate; auto. Qed.

Notation rn := (round radix2 (SpecFloat.fexp 53 1024) (round_mode mode_NE)).
Local Instance V64 : Valid_exp (SpecFloat.fexp 53 1024) := fexp_correct 53 1024 P64'.
Lemma rn_pos r : (0 <= r)%R -> (0 <= rn r)%R.
Proof. intros H. rewrite <- (round_0 radix2 (SpecFloat.fexp 53 1024) (round_mode mode_NE)). apply round_le; auto with typeclass_instances. Qed.

Lemma inf_bnn (b : bf) : B2SF b = binary_overflow 53 1024 mode_NE false -> bnn b.
Proof. unfold bnn. intros ->. reflexivity. Qed.

Lemma plus_le (x y : bf) : bnn x -> bnn y -> SFleb (B2SF x) (B2SF (Bplus mode_NE x y)) = true /\ bnn (Bplus mode_NE x y).
Proof.
  intros Hx Hy. destruct (is_finite x) eqn:Fx.
  2:{ destruct x as [|sx| |]; try discriminate. destruct sx; [discriminate|]. destruct y as [|sy| |]; try discriminate; try (split; reflexivity).
      destruct sy; [discriminate|]. split; reflexivity. }
  destruct (is_finite y) eqn:Fy.
  2:{ destruct y as [|sy| |]; try discriminate. destruct sy; [discriminate|]. destruct x as [sx| | |sx mx ex Bx]; try discriminate; [split; reflexivity|].
      destruct sx; [discriminate|]. split; reflexivity. }
  pose proof (bnn_R _ Hx) as Rx. pose proof (bnn_R _ Hy) as Ry. pose proof (Bplus_correct 53 1024 P64' M64' mode_NE x y Fx Fy) as H.
  destruct (Rlt_bool _ _).
  - destruct H as (H1 & H2 & _). assert (B2R x <= B2R (Bplus mode_NE x y))%R as HL.
    { rewrite H1. rewrite <- (round_generic radix2 (SpecFloat.fexp 53 1024) (round_mode mode_NE) (B2R x)) at 1 by (apply generic_format_B2R).
      apply round_le; auto with typeclass_instances. lra. }
    split; [|apply fin_bnn; auto; lra]. change (Bleb x (Bplus mode_NE x y) = true). rewrite Bleb_correct by auto. by apply Rle_bool_true.
  - destruct H as [H E]. destruct x as [sx| | |sx mx ex Bx]; try discriminate; destruct y as [sy| | |sy my ey By]; try discriminate;
      try (destruct sx; [discriminate|]); try (destruct sy; [discriminate|]); try (cbn in H; destruct (Bool.eqb _ _); discriminate); try discriminate H.
    split; [|by apply inf_bnn]. rewrite H. reflexivity.
Qed.

Lemma mult_nn (x y : bf) : bnn x -> bnn y -> is_finite y = true -> is_finite x = true -> bnn (Bmult mode_NE x y).
Proof.
  intros Hx Hy Fy Fx. pose proof (bnn_R _ Hx) as Rx. pose proof (bnn_R _ Hy) as Ry. pose proof (Bmult_correct 53 1024 P64' M64' mode_NE x y) as H.
  destruct (Rlt_bool _ _).
  - destruct H as (H1 & H2 & _). apply fin_bnn; [rewrite H2, Fx, Fy; reflexivity|]. rewrite H1. apply rn_pos. by apply Rmult_le_pos.
  - destruct (bnn_sign _ Hx) as [[s ->]|Sx]; [destruct y; discriminate|]. destruct (bnn_sign _ Hy) as [[s ->]|Sy]; [destruct x; discriminate|].
    rewrite Sx, Sy in H. by apply inf_bnn.
Qed.
Lemma div_nn (x y : bf) : bnn x -> bnn y -> is_finite x = true -> B2R y <> 0%R -> bnn (Bdiv mode_NE x y).
Proof.
  intros Hx Hy Fx Ny. pose proof (bnn_R _ Hx) as Rx. pose proof (bnn_R _ Hy) as Ry. pose proof (Bdiv_correct 53 1024 P64' M64' mode_NE x y Ny) as H.
  destruct (Rlt_bool _ _).
  - destruct H as (H1 & H2 & _). apply fin_bnn; [congruence|]. rewrite H1. apply rn_pos. apply Rmult_le_pos; [exact Rx|]. apply Rlt_le, Rinv_0_lt_compat. lra.
  - destruct (bnn_sign _ Hx) as [[s ->]|Sx]; [destruct y; try discriminate; cbn in Ny; lra|]. destruct (bnn_sign _ Hy) as [[s ->]|Sy]; [cbn in Ny; lra|].
    rewrite Sx, Sy in H. by apply inf_bnn.
Qed.
Lemma norm_nn z : 0 <= z -> bnn (BinarySingleNaN.binary_normalize 53 1024 P64' M64' mode_NE z 0 false).
Proof.
  intros Hz. pose proof (binary_normalize_correct 53 1024 P64' M64' mode_NE z 0 false) as H. cbn zeta in H.
  assert (0 <= F2R (Float radix2 z 0))%R as HR. { unfold F2R. cbn. rewrite Rmult_1_r. by apply IZR_le. }
  destruct (Rlt_bool _ _).
  - destruct H as (H1 & H2 & _). apply fin_bnn; [exact H2|]. rewrite H1. by apply rn_pos.
  - rewrite Rlt_bool_false in H by exact HR. by apply inf_bnn.
Qed.

(** ** On bits *)
Lemma f64_of_Z_b z : f64_val (f64_of_Z z) = B2SF (BinarySingleNaN.binary_normalize 53 1024 P64' M64' mode_NE z 0 false).
Proof. unfold f64_of_Z. rewrite (normalize_eqv 53 1024 P64' M64'). apply f64_encode_val, valid_binary_B2SF. Qed.
Lemma f64_mul_b x y Hx Hy : f64_val (f64_mul x y) = B2SF (Bmult mode_NE (b64 x Hx) (b64 y Hy)).
Proof.
  unfold f64_mul. rewrite <- (b64_SF x Hx), <- (b64_SF y Hy). rewrite (mul_eqv 53 1024 P64' M64'). apply f64_encode_val. apply valid_binary_B2SF.
Qed.
Lemma f64_div_b x y Hx Hy : f64_val (f64_div x y) = B2SF (Bdiv mode_NE (b64 x Hx) (b64 y Hy)).
Proof.
  unfold f64_div. rewrite <- (b64_SF x Hx), <- (b64_SF y Hy). rewrite div_eqv. apply f64_encode_val. apply valid_binary_B2SF.
Qed.

Lemma nneg_add x y : in_unsigned 64 x -> in_unsigned 64 y -> nneg x -> nneg y -> f64_leb x (f64_add x y) = true /\ nneg (f64_add x y).
Proof.
  intros Hx Hy Nx Ny. apply (nneg_b x Hx) in Nx. apply (nneg_b y Hy) in Ny. unfold nneg, f64_leb. rewrite (f64_add_b x y Hx Hy), <- (b64_SF x Hx). by apply plus_le.
Qed.
Lemma nneg_of_Z z : 0 <= z -> nneg (f64_of_Z z).
Proof. intros H. unfold nneg, f64_leb. rewrite f64_of_Z_b. by apply norm_nn. Qed.
Lemma nneg_mul x y : in_unsigned 64 x -> in_unsigned 64 y -> nneg x -> nneg y -> finite64 x -> finite64 y -> nneg (f64_mul x y).
Proof.
  intros Hx Hy Nx Ny Fx Fy. apply (nneg_b x Hx) in Nx. apply (nneg_b y Hy) in Ny. unfold nneg, f64_leb. rewrite (f64_mul_b x y Hx Hy).
  apply mult_nn; auto using b64_fin.
Qed.
Lemma nneg_div x y : in_unsigned 64 x -> in_unsigned 64 y -> nneg x -> nneg y -> finite64 x -> R64 y <> 0%R -> nneg (f64_div x y).
Proof.
  intros Hx Hy Nx Ny Fx Fy. apply (nneg_b x Hx) in Nx. apply (nneg_b y Hy) in Ny. unfold nneg, f64_leb. rewrite (f64_div_b x y Hx Hy).
  apply div_nn; auto using b64_fin. by rewrite b64_R.
Qed.

Lemma of_Z_finite z : Z.abs z <= 2 ^ 63 -> finite64 (f64_of_Z z).
Proof.
  intros Hz. unfold finite64. rewrite f64_of_Z_b, SF_B_finite. pose proof (binary_normalize_correct 53 1024 P64' M64' mode_NE z 0 false) as H. cbn zeta in H.
  rewrite Rlt_bool_true in H; [tauto|]. apply Rle_lt_trans with (bpow radix2 63); [|apply bpow_lt; lia].
  apply abs_round_le_generic; auto with typeclass_instances.
  - apply generic_format_bpow. vm_compute. discriminate.
  - unfold F2R. cbn [Fnum Fexp bpow]. rewrite Rmult_1_r, <- abs_IZR. change (bpow radix2 63) with (IZR (2 ^ 63)). by apply IZR_le.
Qed.

Lemma R64_units u : u = 1000000000 \/ u = 60000000000 \/ u = 3600000000000 -> R64 (f64_of_Z u) <> 0%R.
Proof.
  assert (forall x m e, f64_val x = S754_finite false m e -> R64 x <> 0%R) as G.
  { intros x m e E. unfold R64. rewrite E. cbn. apply Rgt_not_eq, F2R_gt_0. reflexivity. }
  intros [->|[-> | ->]]; eapply G; vm_compute; reflexivity.
Qed.

Lemma f64_leb_trans x y z : in_unsigned 64 x -> in_unsigned 64 y -> in_unsigned 64 z -> f64_leb x y = true -> f64_leb y z = true -> f64_leb x z = true.
Proof.
  intros Hx Hy Hz. unfold f64_leb. rewrite <- (b64_SF x Hx), <- (b64_SF y Hy), <- (b64_SF z Hz).
  generalize (b64 x Hx) (b64 y Hy) (b64 z Hz). clear. intros a b c H1 H2.
  destruct (is_finite a && is_finite b && is_finite c) eqn:F.
  - apply andb_prop in F as [F Fc]. apply andb_prop in F as [Fa Fb]. change (Bleb a b = true) in H1. change (Bleb b c = true) in H2. change (Bleb a c = true).
    rewrite Bleb_correct in * by auto. apply Rle_bool_true. destruct (Rle_bool_spec (B2R a) (B2R b)); [|discriminate]. destruct (Rle_bool_spec (B2R b) (B2R c)); [|discriminate]. lra.
  - destruct a as [[]|[]| |[]], b as [[]|[]| |[]]; try discriminate H1; destruct c as [[]|[]| |[]]; try discriminate H2; try discriminate F; reflexivity.
Qed.
