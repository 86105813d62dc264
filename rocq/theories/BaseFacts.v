(** Facts about Base.v. *)
From Verif Require Import Base.

Lemma byteZ_range b : 0 <= byteZ b < 256.
Proof. unfold byteZ. pose proof (Byte.to_N_bounded b). lia. Qed.

Lemma zbyte_byteZ b : zbyte (byteZ b) = b.
Proof.
  unfold zbyte. pose proof (byteZ_range b). rewrite Z.mod_small by lia.
  unfold byteZ. rewrite N2Z.id, Byte.of_to_N. reflexivity.
Qed.

Lemma byteZ_zbyte z : byteZ (zbyte z) = z mod 256.
Proof.
  unfold zbyte. destruct (Byte.of_N (Z.to_N (z mod 256))) eqn:E.
  - apply Byte.to_of_N in E. unfold byteZ. rewrite E.
    pose proof (Z.mod_pos_bound z 256 ltac:(lia)). lia.
  - exfalso. apply Byte.of_N_None_iff in E.
    pose proof (Z.mod_pos_bound z 256 ltac:(lia)). lia.
Qed.

Lemma byteZ_inj a b : byteZ a = byteZ b -> a = b.
Proof. intros E. rewrite <- (zbyte_byteZ a), <- (zbyte_byteZ b). congruence. Qed.

Lemma zbyte_mod z : zbyte (z mod 256) = zbyte z.
Proof. unfold zbyte. rewrite Z.mod_mod by lia. reflexivity. Qed.

Lemma le_enc_length n z : length (le_enc n z) = n.
Proof. revert z; induction n; simpl; intros; auto. Qed.

Lemma le_dec_range l : 0 <= le_dec l < 256 ^ Z.of_nat (length l).
Proof.
  induction l as [|b l IH]; cbn [le_dec length].
  - simpl. lia.
  - pose proof (byteZ_range b). rewrite Nat2Z.inj_succ, Z.pow_succ_r by lia. lia.
Qed.

Lemma le_dec_enc n z : le_dec (le_enc n z) = z mod 256 ^ Z.of_nat n.
Proof.
  revert z; induction n as [|n IH]; intros z; cbn [le_enc le_dec].
  - simpl. rewrite Z.mod_1_r. reflexivity.
  - rewrite IH, byteZ_zbyte, Nat2Z.inj_succ, Z.pow_succ_r by lia.
    rewrite (Z.rem_mul_r z 256) by lia. reflexivity.
Qed.

Lemma le_enc_dec l : le_enc (length l) (le_dec l) = l.
Proof.
  induction l as [|b l IH]; cbn [le_enc le_dec length]; [reflexivity|].
  pose proof (byteZ_range b).
  f_equal.
  - rewrite <- (zbyte_mod (byteZ b + 256 * le_dec l)).
    rewrite (Z.mul_comm 256), Z_mod_plus_full, zbyte_mod. apply zbyte_byteZ.
  - replace ((byteZ b + 256 * le_dec l) / 256) with (le_dec l) by lia. exact IH.
Qed.

Lemma le_dec_inj l1 l2 : length l1 = length l2 -> le_dec l1 = le_dec l2 -> l1 = l2.
Proof.
  intros E1 E2. rewrite <- (le_enc_dec l1), <- (le_enc_dec l2). congruence.
Qed.

Lemma le_dec_app l1 l2 :
  le_dec (l1 ++ l2) = le_dec l1 + 256 ^ Z.of_nat (length l1) * le_dec l2.
Proof.
  induction l1 as [|b l IH]; cbn [app le_dec length]; [rewrite Z.pow_0_r; lia|].
  rewrite IH, Nat2Z.inj_succ, Z.pow_succ_r by lia. lia.
Qed.

Lemma le_dec_zeros n : le_dec (replicate n x00) = 0.
Proof. induction n; cbn [replicate le_dec]; [reflexivity|]. rewrite IHn. reflexivity. Qed.

Lemma to_unsigned_range w z : 0 <= w -> 0 <= to_unsigned w z < 2 ^ w.
Proof. intros. unfold to_unsigned. apply Z.mod_pos_bound. apply Z.pow_pos_nonneg; lia. Qed.

Lemma to_unsigned_id w z : in_unsigned w z -> to_unsigned w z = z.
Proof. intros. unfold to_unsigned. apply Z.mod_small. exact H. Qed.

Lemma pow2_split w : 0 < w -> 2 ^ w = 2 * 2 ^ (w - 1).
Proof. intros. rewrite <- Z.pow_succ_r by lia. f_equal. lia. Qed.

Lemma to_signed_range w z : 0 < w -> in_signed w (to_signed w z).
Proof.
  intros. unfold in_signed, to_signed.
  pose proof (pow2_split w H). pose proof (Z.pow_pos_nonneg 2 (w-1) ltac:(lia) ltac:(lia)).
  pose proof (Z.mod_pos_bound z (2^w) ltac:(lia)).
  destruct (_ <? _) eqn:?; lia.
Qed.

Lemma to_signed_id w z : 0 < w -> in_signed w z -> to_signed w z = z.
Proof.
  unfold in_signed, to_signed. intros.
  pose proof (pow2_split w H).
  destruct (Z_lt_le_dec z 0).
  - replace (z mod 2^w) with (z + 2^w).
    + destruct (_ <? _) eqn:?; lia.
    + apply Z.mod_unique with (-1); lia.
  - rewrite Z.mod_small by lia. destruct (_ <? _) eqn:?; lia.
Qed.

Lemma to_signed_unsigned w z : 0 < w -> to_signed w (to_unsigned w z) = to_signed w z.
Proof.
  intros. unfold to_signed, to_unsigned. rewrite Z.mod_mod; [reflexivity|].
  pose proof (Z.pow_pos_nonneg 2 w ltac:(lia) ltac:(lia)). lia.
Qed.

Lemma to_unsigned_signed w z : 0 < w -> to_unsigned w (to_signed w z) = to_unsigned w z.
Proof.
  intros. unfold to_signed, to_unsigned.
  pose proof (Z.pow_pos_nonneg 2 w ltac:(lia) ltac:(lia)).
  destruct (_ <? _).
  - rewrite Z.mod_mod; lia.
  - rewrite <- (Z_mod_plus_full (z mod 2^w - 2^w) 1 (2^w)).
    replace (z mod 2^w - 2^w + 1 * 2^w) with (z mod 2^w) by lia. rewrite Z.mod_mod; lia.
Qed.

Lemma zlen_nonneg {A} (l : list A) : 0 <= zlen l.
Proof. unfold zlen. lia. Qed.

Lemma zlen_app {A} (l1 l2 : list A) : zlen (l1 ++ l2) = zlen l1 + zlen l2.
Proof. unfold zlen. rewrite app_length. lia. Qed.

Lemma zlen_cons {A} (x : A) l : zlen (x :: l) = 1 + zlen l.
Proof. unfold zlen. cbn [length]. lia. Qed.

Lemma zlen_nil {A} : zlen (@nil A) = 0.
Proof. reflexivity. Qed.

Lemma zlen_zeros n : 0 <= n -> zlen (zeros n) = n.
Proof. intros. unfold zlen, zeros. rewrite replicate_length. lia. Qed.

Lemma zlen_le_enc n z : zlen (le_enc n z) = Z.of_nat n.
Proof. unfold zlen. rewrite le_enc_length. reflexivity. Qed.

Lemma zlen_map {A B} (f : A -> B) l : zlen (map f l) = zlen l.
Proof. unfold zlen. rewrite map_length. reflexivity. Qed.

(** A small solver for permutations of lists built from cons and append. *)
Ltac perm_norm := repeat (rewrite <- app_assoc || rewrite <- app_comm_cons || rewrite app_nil_r || rewrite app_nil_l).
Lemma perm_rot_cons {A} (x : A) l r : r ++ [x] ≡ₚ l -> x :: r ≡ₚ l.
Proof. intros <-. rewrite Permutation_app_comm. reflexivity. Qed.
Lemma perm_rot_app {A} (a : list A) l r : r ++ a ≡ₚ l -> a ++ r ≡ₚ l.
Proof. intros <-. rewrite Permutation_app_comm. reflexivity. Qed.
Lemma perm_rot_cons_r {A} (x : A) l r : l ≡ₚ r ++ [x] -> l ≡ₚ x :: r.
Proof. intros ->. rewrite Permutation_app_comm. reflexivity. Qed.
Lemma perm_rot_app_r {A} (a : list A) l r : l ≡ₚ r ++ a -> l ≡ₚ a ++ r.
Proof. intros ->. rewrite Permutation_app_comm. reflexivity. Qed.
Lemma perm_single_app {A} (x : A) l : [x] ++ l ≡ₚ x :: l.
Proof. reflexivity. Qed.
Ltac perm_rot_r :=
  lazymatch goal with
  | |- _ ≡ₚ _ :: _ => apply perm_rot_cons_r
  | |- _ ≡ₚ _ ++ _ => apply perm_rot_app_r
  end; perm_norm.
Ltac perm_head := first [apply Permutation_cons; [reflexivity|] | apply Permutation_app_head].
Ltac perm_find n :=
  first [perm_head | lazymatch n with S ?m => perm_rot_r; perm_find m end].
Ltac perm_loop :=
  perm_norm;
  first [reflexivity | perm_find 60%nat; perm_loop].
Ltac perm := perm_loop.
