(** The decoder of Utf8.v inverts the encoding of code points (RFC 3629, section 3; Go's
    utf8.EncodeRune): a check of the model. *)
From Verif Require Import Base BaseFacts Utf8 Utf8Facts.
Local Open Scope Z_scope.

Definition encode (c : Z) : list byte :=
  if c <? 128 then [zbyte c]
  else if c <? 2048 then [zbyte (192 + c / 64); zbyte (128 + c mod 64)]
  else if c <? 65536 then [zbyte (224 + c / 4096); zbyte (128 + (c / 64) mod 64); zbyte (128 + c mod 64)]
  else [zbyte (240 + c / 262144); zbyte (128 + (c / 4096) mod 64); zbyte (128 + (c / 64) mod 64); zbyte (128 + c mod 64)].
(** Unicode scalar values: no surrogates. *)
Definition scalar (c : Z) : Prop := 0 <= c < 55296 \/ 57344 <= c < 1114112.

Lemma byteZ_small z : 0 <= z < 256 -> byteZ (zbyte z) = z.
Proof. intros H. rewrite byteZ_zbyte. by apply Z.mod_small. Qed.
Lemma decode_encode c l : scalar c -> decode1 (encode c ++ l) = Some (c, length (encode c)).
Proof.
  intros Hc. unfold encode, scalar in *.
  destruct (c <? 128) eqn:E1; [|destruct (c <? 2048) eqn:E2; [|destruct (c <? 65536) eqn:E3]]; cbn [app decode1 length]; cbn zeta; unfold cont; rewrite !byteZ_small by (Z.div_mod_to_equations; lia).
  - by rewrite E1.
  - repeat match goal with |- context [?a <? ?b] => first [replace (a <? b) with true by (symmetry; Z.div_mod_to_equations; lia) | replace (a <? b) with false by (symmetry; Z.div_mod_to_equations; lia)] end. cbn [orb].
    replace (192 + c / 64 =? 224) with false by (symmetry; Z.div_mod_to_equations; lia). replace (192 + c / 64 =? 240) with false by (symmetry; Z.div_mod_to_equations; lia).
    replace (192 + c / 64 =? 237) with false by (symmetry; Z.div_mod_to_equations; lia). replace (192 + c / 64 =? 244) with false by (symmetry; Z.div_mod_to_equations; lia).
    replace ((128 <=? 128 + c mod 64) && (128 + c mod 64 <=? 191)) with true by (symmetry; apply andb_true_iff; Z.div_mod_to_equations; lia). do 2 f_equal. Z.div_mod_to_equations; lia.
  - set (a := c / 4096). set (b := (c / 64) mod 64). set (d := c mod 64). assert (c = a * 4096 + b * 64 + d /\ 0 <= b < 64 /\ 0 <= d < 64 /\ 0 <= a < 16) as (Ec & Hb & Hd & Ha) by (unfold a, b, d; Z.div_mod_to_equations; lia). clearbody a b d.
    replace (224 + a <? 128) with false by lia. replace (224 + a <? 194) with false by lia. replace (244 <? 224 + a) with false by lia. cbn [orb]. replace (224 + a <? 224) with false by lia. replace (224 + a <? 240) with true by lia.
    replace (224 + a =? 240) with false by lia. replace (224 + a =? 244) with false by lia.
    replace ((224 + a) mod 16) with a by (Z.div_mod_to_equations; lia). replace ((128 + b) mod 64) with b by (Z.div_mod_to_equations; lia). replace ((128 + d) mod 64) with d by (Z.div_mod_to_equations; lia).
    destruct (224 + a =? 224) eqn:F1, (224 + a =? 237) eqn:F2; try lia; match goal with |- context [if ?x then _ else _] => replace x with true by (symmetry; rewrite !andb_true_iff; lia) end; do 2 f_equal; lia.
  - set (a := c / 262144). set (b := (c / 4096) mod 64). set (d := (c / 64) mod 64). set (e := c mod 64). assert (c = a * 262144 + b * 4096 + d * 64 + e /\ 0 <= b < 64 /\ 0 <= d < 64 /\ 0 <= e < 64 /\ 0 <= a < 5) as (Ec & Hb & Hd & He & Ha) by (unfold a, b, d, e; Z.div_mod_to_equations; lia). clearbody a b d e.
    replace (240 + a <? 128) with false by lia. replace (240 + a <? 194) with false by lia. replace (244 <? 240 + a) with false by lia. cbn [orb]. replace (240 + a <? 224) with false by lia. replace (240 + a <? 240) with false by lia.
    replace (240 + a =? 224) with false by lia. replace (240 + a =? 237) with false by lia.
    replace ((240 + a) mod 8) with a by (Z.div_mod_to_equations; lia). replace ((128 + b) mod 64) with b by (Z.div_mod_to_equations; lia). replace ((128 + d) mod 64) with d by (Z.div_mod_to_equations; lia). replace ((128 + e) mod 64) with e by (Z.div_mod_to_equations; lia).
    destruct (240 + a =? 240) eqn:F1, (240 + a =? 244) eqn:F2; try lia; match goal with |- context [if ?x then _ else _] => replace x with true by (symmetry; rewrite !andb_true_iff; lia) end; do 2 f_equal; lia.
Qed.
(** The decoder takes nothing else for a code point: what it decodes to more than one byte
    is the encoding of a scalar value. *)
Lemma decode_only l c k : decode1 l = Some (c, k) -> (1 < k)%nat -> scalar c /\ take k l = encode c.
Proof.
  destruct l as [|b0 l]; cbn [decode1]; [done|]. cbn zeta. intros H Hk. pose proof (byteZ_range b0) as R0. unfold cont in H.
  assert (forall b z, byteZ b = z -> b = zbyte z) as I. { intros b z <-. by rewrite zbyte_byteZ. }
  destruct (byteZ b0 <? 128) eqn:E1; [injection H as _ <-; lia|]. destruct ((byteZ b0 <? 194) || (244 <? byteZ b0)) eqn:E2; [injection H as _ <-; lia|]. apply orb_false_iff in E2 as [E2 E2'].
  destruct l as [|b1 l]; [injection H as _ <-; lia|]. pose proof (byteZ_range b1) as R1. destruct (byteZ b0 <? 224) eqn:E3.
  - destruct (_ && _) eqn:E4 in H; [|injection H as _ <-; lia]. injection H as <- <-. apply andb_true_iff in E4 as [E4 E5].
    assert (128 <= byteZ b1 <= 191) as B1. { repeat case_match; lia. } clear E4 E5. set (x := byteZ b0) in *. set (y := byteZ b1) in *.
    assert (x mod 32 = x - 192) as -> by (Z.div_mod_to_equations; lia). assert (y mod 64 = y - 128) as -> by (Z.div_mod_to_equations; lia).
    split; [unfold scalar; lia|]. unfold encode. replace (_ <? 128) with false by lia. replace (_ <? 2048) with true by lia. cbn [take]. f_equal; [|f_equal]; apply I; fold x y; Z.div_mod_to_equations; lia.
  - destruct l as [|b2 l]; [injection H as _ <-; lia|]. pose proof (byteZ_range b2) as R2. destruct (byteZ b0 <? 240) eqn:E6.
    + destruct (_ && _) eqn:E4 in H; [|injection H as _ <-; lia]. injection H as <- <-. rewrite !andb_true_iff in E4. destruct E4 as [[E4 E5] [E7 E8]].
      set (x := byteZ b0) in *. set (y := byteZ b1) in *. set (z := byteZ b2) in *.
      assert (128 <= y <= 191 /\ (x = 224 -> 160 <= y) /\ (x = 237 -> y <= 159)) as (B1 & B2 & B3). { destruct (x =? 224) eqn:F1, (x =? 237) eqn:F2, (x =? 240) eqn:F3, (x =? 244) eqn:F4; lia. } clear E4 E5.
      assert (x mod 16 = x - 224) as -> by (Z.div_mod_to_equations; lia). assert (y mod 64 = y - 128) as -> by (Z.div_mod_to_equations; lia). assert (z mod 64 = z - 128) as -> by (Z.div_mod_to_equations; lia).
      split; [unfold scalar; destruct (decide (x = 237)), (decide (x < 237)); lia|]. unfold encode. replace (_ <? 128) with false by lia. replace (_ <? 2048) with false by lia. replace (_ <? 65536) with true by lia. cbn [take].
      f_equal; [|f_equal; [|f_equal]]; apply I; fold x y z; Z.div_mod_to_equations; lia.
    + destruct l as [|b3 l]; [injection H as _ <-; lia|]. pose proof (byteZ_range b3) as R3. destruct (_ && _) eqn:E4 in H; [|injection H as _ <-; lia]. injection H as <- <-. rewrite !andb_true_iff in E4. destruct E4 as [[[E4 E5] [E7 E8]] [E9 E10]].
      set (x := byteZ b0) in *. set (y := byteZ b1) in *. set (z := byteZ b2) in *. set (t := byteZ b3) in *.
      assert (128 <= y <= 191 /\ (x = 240 -> 144 <= y) /\ (x = 244 -> y <= 143)) as (B1 & B2 & B3). { destruct (x =? 224) eqn:F1, (x =? 237) eqn:F2, (x =? 240) eqn:F3, (x =? 244) eqn:F4; lia. } clear E4 E5.
      assert (x mod 8 = x - 240) as -> by (Z.div_mod_to_equations; lia). assert (y mod 64 = y - 128) as -> by (Z.div_mod_to_equations; lia). assert (z mod 64 = z - 128) as -> by (Z.div_mod_to_equations; lia). assert (t mod 64 = t - 128) as -> by (Z.div_mod_to_equations; lia).
      split; [unfold scalar; lia|]. unfold encode. replace (_ <? 128) with false by lia. replace (_ <? 2048) with false by lia. replace (_ <? 65536) with false by lia. cbn [take].
      f_equal; [|f_equal; [|f_equal; [|f_equal]]]; apply I; fold x y z t; Z.div_mod_to_equations; lia.
Qed.
