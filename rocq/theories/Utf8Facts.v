(** Facts about the decoding of strings: nothing is lost, ASCII bytes stand for
    themselves, and a string can be cut at an ASCII byte. *)
From Verif Require Import Base BaseFacts Utf8.

Lemma byteZ_bounds b : 0 <= byteZ b < 256.
Proof. unfold byteZ. destruct b; vm_compute; split; congruence. Qed.

Lemma decode1_width l r k : decode1 l = Some (r, k) -> (1 <= k <= length l)%nat.
Proof.
  destruct l as [|b0 l]; cbn -[byteZ cont Z.ltb Z.eqb]; [done|]. intros H.
  repeat (case_match; simplify_eq); cbn [length]; lia.
Qed.

Lemma decode1_some b l : exists r k, decode1 (b :: l) = Some (r, k).
Proof. cbn -[byteZ cont Z.ltb Z.eqb]. repeat case_match; eauto. Qed.

Lemma utf8_fuel_ge n l : (length l <= n)%nat -> utf8_fuel n l = utf8 l.
Proof.
  unfold utf8. remember (length l) as m eqn:Hm. revert n l Hm. induction (lt_wf m) as [m _ IH]; intros n l Hm Hn.
  destruct l as [|b l].
  { cbn in Hm. subst m. destruct n; done. }
  destruct n as [|n]; [cbn in Hm; lia|]. destruct m as [|m]; [done|].
  destruct (decode1_some b l) as (r & k & E). pose proof (decode1_width _ _ _ E) as Hk.
  cbn [utf8_fuel]. rewrite E. f_equal.
  assert (length (drop k (b :: l)) < S m)%nat as Hlt by (rewrite drop_length; lia).
  rewrite (IH _ Hlt n _ eq_refl) by lia. symmetry. apply (IH _ Hlt m _ eq_refl). lia.
Qed.

Lemma utf8_nil : utf8 [] = [].
Proof. done. Qed.

Lemma utf8_step l r k : decode1 l = Some (r, k) -> utf8 l = (r, take k l) :: utf8 (drop k l).
Proof.
  intros E. pose proof (decode1_width _ _ _ E) as Hk. unfold utf8 at 1. destruct l as [|b l]; [done|].
  cbn [length utf8_fuel]. rewrite E. f_equal. apply utf8_fuel_ge. rewrite drop_length. cbn [length] in *. lia.
Qed.

Lemma untok_app a b : untok (a ++ b) = untok a ++ untok b.
Proof. unfold untok. by rewrite map_app, concat_app. Qed.

Lemma untok_cons t b : untok (t :: b) = snd t ++ untok b.
Proof. done. Qed.

Lemma untok_utf8 l : untok (utf8 l) = l.
Proof.
  remember (length l) as m eqn:Hm. revert l Hm. induction (lt_wf m) as [m _ IH]; intros l Hm.
  destruct l as [|b l]; [done|]. destruct (decode1_some b l) as (r & k & E). pose proof (decode1_width _ _ _ E) as Hk.
  rewrite (utf8_step _ _ _ E), untok_cons. cbn [snd].
  rewrite (IH (length (drop k (b :: l)))); [apply take_drop|rewrite drop_length; lia|done].
Qed.

Lemma utf8_ascii c l : byteZ c < 128 -> utf8 (c :: l) = (byteZ c, [c]) :: utf8 l.
Proof.
  intros H. rewrite (utf8_step (c :: l) (byteZ c) 1); [done|]. cbn -[byteZ Z.ltb].
  destruct (Z.ltb_spec (byteZ c) 128); [done|lia].
Qed.

(** An ASCII byte after a string does not change how the string is decoded. *)
Lemma decode1_app_ascii a c b : a <> [] -> byteZ c < 128 -> decode1 (a ++ c :: b) = decode1 a.
Proof.
  intros Ha Hc.
  assert (forall lo hi, 128 <= lo -> cont lo hi c = false) as HC.
  { intros lo hi Hlo. unfold cont. destruct (Z.leb_spec lo (byteZ c)); [lia|done]. }
  assert (forall x y z w : Z, 128 <= x -> 128 <= y -> 128 <= z ->
    cont (if w =? 224 then x else if w =? 240 then y else z) (if w =? 237 then 159 else if w =? 244 then 143 else 191) c = false) as HD.
  { intros. apply HC. repeat case_match; lia. }
  destruct a as [|a0 a]; [done|]. cbn [app].
  destruct a as [|a1 a]; cbn [app]; unfold decode1.
  { repeat rewrite HD by lia. cbn [andb]. repeat case_match; congruence. }
  destruct a as [|a2 a]; cbn [app].
  { repeat rewrite HC by lia. rewrite ?andb_false_r. cbn [andb]. repeat case_match; congruence. }
  destruct a as [|a3 a]; cbn [app]; [|done].
  repeat rewrite HC by lia. rewrite ?andb_false_r. repeat case_match; congruence.
Qed.

Lemma utf8_app_ascii a c b : byteZ c < 128 -> utf8 (a ++ c :: b) = utf8 a ++ (byteZ c, [c]) :: utf8 b.
Proof.
  intros Hc. remember (length a) as m eqn:Hm. revert a Hm. induction (lt_wf m) as [m _ IH]; intros a Hm.
  destruct a as [|x a]; [by apply utf8_ascii|].
  destruct (decode1_some x a) as (r & k & E). pose proof (decode1_width _ _ _ E) as Hk.
  rewrite (utf8_step _ _ _ E), (utf8_step ((x :: a) ++ c :: b) r k).
  2:{ rewrite decode1_app_ascii; done. }
  rewrite take_app_le, drop_app_le by lia.
  rewrite (IH (length (drop k (x :: a)))); [done|rewrite drop_length; lia|done].
Qed.

(** A token is an ASCII byte or made of bytes from 128 on. *)
Definition tok_ok (t : tok) : Prop :=
  (fst t < 128 /\ exists c, snd t = [c] /\ byteZ c = fst t) \/
  (128 <= fst t /\ snd t <> [] /\ Forall (fun b => 128 <= byteZ b) (snd t)).

Lemma decode1_ok l r k : decode1 l = Some (r, k) -> tok_ok (r, take k l).
Proof.
  destruct l as [|b0 l]; [done|]. intros H. unfold tok_ok. cbn [fst snd].
  pose proof (byteZ_bounds b0) as B0. unfold decode1 in H.
  destruct (Z.ltb_spec (byteZ b0) 128) as [L|L].
  { simplify_eq. left. split; [done|]. exists b0. done. }
  right.
  assert (forall lo hi b, cont lo hi b = true -> lo <= byteZ b <= hi) as HC.
  { intros lo hi b E. unfold cont in E. apply andb_true_iff in E as [E1 E2]. lia. }
  destruct ((byteZ b0 <? 194) || (244 <? byteZ b0)) eqn:E0.
  { simplify_eq. split; [lia|]. split; [done|]. cbn [take]. by repeat constructor. }
  apply orb_false_iff in E0 as [E0 E0'].
  set (lo := if byteZ b0 =? 224 then 160 else if byteZ b0 =? 240 then 144 else 128) in *.
  set (hi := if byteZ b0 =? 237 then 159 else if byteZ b0 =? 244 then 143 else 191) in *.
  assert (hi <= 191) as Hhi by (unfold hi; repeat case_match; lia).
  assert (128 <= lo) as Hlo by (unfold lo; repeat case_match; lia).
  assert (byteZ b0 = 224 -> lo = 160) as Hlo2 by (intros E; unfold lo; rewrite E; done).
  assert (byteZ b0 = 240 -> lo = 144) as Hlo3 by (intros E; unfold lo; rewrite E; done).
  clearbody lo hi.
  assert (65533 < 128 \/ 128 <= 65533 /\ take 1 (b0 :: l) <> [] /\ Forall (fun b => 128 <= byteZ b) (take 1 (b0 :: l))) as BAD.
  { right. split; [lia|]. split; [done|]. by repeat constructor. }
  assert (forall X : Prop, (65533 = r /\ 1%nat = k -> X) -> Some (65533, 1%nat) = Some (r, k) -> X) as BADD.
  { intros X HX E. apply HX. by simplify_eq. }
  assert (Some (65533, 1%nat) = Some (r, k) -> 128 <= r /\ take k (b0 :: l) <> [] /\ Forall (fun b => 128 <= byteZ b) (take k (b0 :: l))) as BB.
  { intros E. injection E as <- <-. destruct BAD as [?|BAD]; [lia|done]. }
  destruct l as [|b1 l]; [by apply BB|].
  destruct (Z.ltb_spec (byteZ b0) 224) as [L1|L1].
  { destruct (cont lo hi b1) eqn:C1; [|by apply BB]. apply HC in C1. injection H as <- <-.
    split; [lia|]. split; [done|]. cbn [take]. repeat constructor; lia. }
  destruct l as [|b2 l]; [by apply BB|].
  destruct (Z.ltb_spec (byteZ b0) 240) as [L2|L2].
  { destruct (cont lo hi b1 && cont 128 191 b2) eqn:C1; [|by apply BB]. apply andb_true_iff in C1 as [C1 C2]. apply HC in C1, C2. injection H as <- <-.
    split.
    { destruct (decide (byteZ b0 = 224)) as [E|E]; [specialize (Hlo2 E)|]; lia. }
    split; [done|]. cbn [take]. repeat constructor; lia. }
  destruct l as [|b3 l]; [by apply BB|].
  destruct (cont lo hi b1 && cont 128 191 b2 && cont 128 191 b3) eqn:C1; [|by apply BB].
  apply andb_true_iff in C1 as [C1 C3]. apply andb_true_iff in C1 as [C1 C2]. apply HC in C1, C2, C3. injection H as <- <-.
  split.
  { destruct (decide (byteZ b0 = 240)) as [E|E]; [specialize (Hlo3 E)|]; lia. }
  split; [done|]. cbn [take]. repeat constructor; lia.
Qed.

Lemma utf8_ok l : Forall tok_ok (utf8 l).
Proof.
  remember (length l) as m eqn:Hm. revert l Hm. induction (lt_wf m) as [m _ IH]; intros l Hm.
  destruct l as [|b l]; [constructor|]. destruct (decode1_some b l) as (r & k & E). pose proof (decode1_width _ _ _ E) as Hk.
  rewrite (utf8_step _ _ _ E). constructor; [by eapply decode1_ok|].
  eapply IH; [|reflexivity]. rewrite drop_length. lia.
Qed.

(** ** Lists of tokens that come from a string *)

Definition wtoks (l : list tok) : Prop := utf8 (untok l) = l.

Lemma wtoks_utf8 b : wtoks (utf8 b).
Proof. unfold wtoks. by rewrite untok_utf8. Qed.

Lemma wtoks_ok l : wtoks l -> Forall tok_ok l.
Proof. intros <-. apply utf8_ok. Qed.

Lemma tok_ok_nonempty t : tok_ok t -> snd t <> [].
Proof. intros [(_ & c & -> & _)|(_ & H & _)]; done. Qed.

Lemma wtoks_tail t l : wtoks (t :: l) -> wtoks l.
Proof.
  unfold wtoks. intros H. rewrite untok_cons in H. remember (snd t ++ untok l) as y eqn:Hy.
  destruct y as [|b x]; [done|].
  destruct (decode1_some b x) as (r & k & E). rewrite (utf8_step _ _ _ E) in H. injection H as H1 H3.
  assert (drop k (b :: x) = untok l) as H5.
  { pose proof (take_drop k (b :: x)) as T. rewrite Hy in T at 3. rewrite <- H1 in T. cbn [snd] in T. by apply app_inv_head in T. }
  by rewrite H5 in H3.
Qed.

Lemma wtoks_suffix a b : wtoks (a ++ b) -> wtoks b.
Proof. induction a as [|t a IH]; [done|]. intros H. apply IH. by eapply wtoks_tail. Qed.

Lemma tok_ascii t : tok_ok t -> fst t < 128 -> exists c, t = (byteZ c, [c]) /\ byteZ c < 128.
Proof. destruct t as [r b]. cbn. intros [(H & c & E & E2)|(H & _)] L; [|cbn in H; lia]. exists c. cbn in *. by subst. Qed.

Lemma wtoks_prefix a t b : wtoks (a ++ t :: b) -> fst t < 128 -> wtoks a.
Proof.
  intros H L. assert (wtoks b) as Hb by (eapply wtoks_tail; by eapply wtoks_suffix).
  destruct (tok_ascii t) as (c & -> & Lc); [|done|].
  { apply wtoks_ok, Forall_app in H as [_ H]. by inversion H. }
  unfold wtoks in *. rewrite untok_app, untok_cons in H. cbn [snd app] in H. rewrite utf8_app_ascii, Hb in H by done.
  by apply app_inv_tail in H.
Qed.

Lemma untok_nonempty l : wtoks l -> l <> [] -> untok l <> [].
Proof. intros H Hl E. apply Hl. rewrite <- H, E. done. Qed.
