(** Composed units: what is recorded, as bit fields of the 32-bit word. *)
From Verif Require Import Base BaseFacts Units MmvPcp.

(** ** Specification: the PMAPI word (pmapi.h): from the top, three signed 4-bit
    dimensions (space, time, count) and three 4-bit scales. *)
Definition bits (w lo n : Z) : Z := (w / 2 ^ lo) mod 2 ^ n.
Definition s4 (x : Z) : Z := if x <? 8 then x else x - 16.
Definition dim_pos (c : ucomp) : Z := match c with CSpace => 28 | CTime => 24 | CCount => 20 end.
Definition scale_pos (c : ucomp) : Z := match c with CSpace => 16 | CTime => 12 | CCount => 8 end.
Definition word_dim (w : Z) (c : ucomp) : Z := s4 (bits w (dim_pos c) 4).
Definition word_scale (w : Z) (c : ucomp) : Z := bits w (scale_pos c) 4.

(** ** Programs composing a unit *)

(** One request: component, scale (0 = byte, nanosecond, one), dimension. *)
Record ureq := mkReq { q_comp : ucomp; q_scale : Z; q_dim : Z }.
Definition scale_ok (c : ucomp) (s : Z) : Prop :=
  match c with CSpace => 0 <= s <= 6 | CTime => 0 <= s <= 5 | CCount => s = 0 end.
Definition dim_ok (d : Z) : Prop := -8 <= d <= 7.
Definition req_ok (q : ureq) : Prop := scale_ok (q_comp q) (q_scale q) /\ dim_ok (q_dim q).

(** The exported constant of a component and scale. *)
Definition unit_const (c : ucomp) (s : Z) : Z :=
  match c with CSpace => SpaceUnit s | CTime => TimeUnit s | CCount => OneUnit end.

(** What a program starts from: NewMetricUnit() or an exported constant. *)
Inductive ustart := FromNew | FromConst (c : ucomp) (s : Z).
Definition start_ok (st : ustart) : Prop := match st with FromNew => True | FromConst c s => scale_ok c s end.
Definition start_unit (h : uheap) (p : nat) (st : ustart) : uheap * munit :=
  match st with
  | FromNew => u_new h p
  | FromConst CSpace s => (h, USpace (SpaceUnit s))
  | FromConst CTime s => (h, UTime (TimeUnit s))
  | FromConst CCount _ => (h, UCount OneUnit)
  end.

(** [u.Space(...).Time(...)...]; [p] is the address the first step may allocate. *)
Fixpoint u_chain (h : uheap) (p : nat) (u : munit) (qs : list ureq) : option (uheap * munit) :=
  match qs with
  | [] => Some (h, u)
  | q :: qs => match u_add h p u (q_comp q) (unit_const (q_comp q) (q_scale q)) (q_dim q) with
               | None => None
               | Some (h', u') => u_chain h' p u' qs
               end
  end.
(** The word such a program ends with; [None] = panic. *)
Definition composed (h : uheap) (p : nat) (st : ustart) (qs : list ureq) : option Z :=
  let '(h0, u0) := start_unit h p st in
  match u_chain h0 p u0 qs with None => None | Some (h', u') => u_pmapi h' u' end.
(** Everything the program asked for: a constant has dimension 1. *)
Definition asked (st : ustart) (qs : list ureq) : list ureq :=
  match st with FromNew => qs | FromConst c s => mkReq c s 1 :: qs end.

(** ** Words *)
Definition contrib (q : ureq) : Z :=
  Z.lor (unit_const (q_comp q) (q_scale q)) (to_unsigned 32 (Z.shiftl (dim_nibble (q_dim q)) (comp_shift (q_comp q)))).
Definition word_of (qs : list ureq) : Z := foldr (fun q w => Z.lor (contrib q) w) 0 qs.

Lemma word_of_app a b : word_of (a ++ b) = Z.lor (word_of a) (word_of b).
Proof.
  induction a as [|q a IH]; [done|]. change (Z.lor (contrib q) (word_of (a ++ b)) = Z.lor (Z.lor (contrib q) (word_of a)) (word_of b)).
  rewrite IH. by rewrite Z.lor_assoc.
Qed.
Lemma word_of_perm a b : a ≡ₚ b -> word_of a = word_of b.
Proof.
  unfold word_of. induction 1 as [|q a b _ IH|q q' a|a b c _ IH1 _ IH2]; cbn [foldr]; [done|by rewrite IH| |by rewrite IH1].
  rewrite !Z.lor_assoc. f_equal. apply Z.lor_comm.
Qed.

Lemma u_chain_ptr qs : forall h p q r, h !! q = Some r -> Forall (fun x => dim_ok (q_dim x)) qs ->
  exists h', u_chain h p (UPtr q) qs = Some (h', UPtr q) /\ h' !! q = Some (Z.lor r (word_of qs)).
Proof.
  induction qs as [|x qs IH]; intros h p q r H Hd; cbn [u_chain].
  - exists h. cbn. by rewrite Z.lor_0_r.
  - inversion Hd as [|? ? A1 A2]; subst. unfold u_add. rewrite H. unfold unit_or, dim_ok in *.
    replace ((q_dim x <? -8) || (7 <? q_dim x)) with false by (symmetry; apply orb_false_iff; lia).
    edestruct (IH (<[q := Z.lor (Z.lor r (unit_const (q_comp x) (q_scale x)))
       (to_unsigned 32 (Z.shiftl (dim_nibble (q_dim x)) (comp_shift (q_comp x))))]> h) p q) as (h' & B1 & B2);
      [apply lookup_insert|exact A2|].
    exists h'. split; [destruct (q_comp x); exact B1|]. rewrite B2. f_equal. cbn [word_of foldr]. fold (word_of qs).
    unfold contrib. by rewrite !Z.lor_assoc.
Qed.

Lemma const_contrib c s : scale_ok c s -> contrib (mkReq c s 1) = unit_const c s.
Proof.
  intros H. destruct c; cbn [scale_ok] in H.
  - assert (s = 0 \/ s = 1 \/ s = 2 \/ s = 3 \/ s = 4 \/ s = 5 \/ s = 6) as Hs by lia.
    destruct Hs as [->|[->|[->|[->|[->|[->| ->]]]]]]; vm_compute; reflexivity.
  - assert (s = 0 \/ s = 1 \/ s = 2 \/ s = 3 \/ s = 4 \/ s = 5) as Hs by lia.
    destruct Hs as [->|[->|[->|[->|[->| ->]]]]]; vm_compute; reflexivity.
  - subst. vm_compute. reflexivity.
Qed.

Lemma composed_word h p st qs : start_ok st -> Forall (fun x => dim_ok (q_dim x)) qs ->
  NoDup (map q_comp (asked st qs)) -> composed h p st qs = Some (word_of (asked st qs)).
Proof.
  intros Hst Hd Hn. unfold composed. destruct st as [|c s]; cbn [start_unit u_new].
  - destruct (u_chain_ptr qs (<[p := 0]> h) p p 0) as (h' & A1 & A2); [apply lookup_insert|exact Hd|].
    rewrite A1. cbn [u_pmapi]. rewrite A2. by rewrite Z.lor_0_l.
  - cbn [asked]. cbn [word_of foldr]. fold (word_of qs). rewrite (const_contrib c s Hst).
    cbn [asked map q_comp] in Hn. apply NoDup_cons in Hn as [N1 N2].
    destruct qs as [|x qs].
    + destruct c; cbn [word_of foldr]; rewrite Z.lor_0_r; reflexivity.
    + inversion Hd as [|? ? A1 A2]; subst. unfold dim_ok in A1.
      assert (q_comp x <> c) as Hc by (intros E0; apply N1; rewrite <- E0; left).
      set (r := Z.lor (Z.lor (unit_const c s) (unit_const (q_comp x) (q_scale x)))
                  (to_unsigned 32 (Z.shiftl (dim_nibble (q_dim x)) (comp_shift (q_comp x))))).
      destruct (u_chain_ptr qs (<[p := r]> h) p p r) as (h' & B1 & B2); [apply lookup_insert|exact A2|].
      assert (u_chain h p (match c with CSpace => USpace (SpaceUnit s) | CTime => UTime (TimeUnit s) | CCount => UCount OneUnit end) (x :: qs)
              = Some (h', UPtr p)) as E.
      { cbn [u_chain]. rewrite <- B1. unfold u_add, unit_or.
        replace ((q_dim x <? -8) || (7 <? q_dim x)) with false by (symmetry; apply orb_false_iff; lia).
        destruct c, (q_comp x); try done; reflexivity. }
      destruct c; rewrite E; cbn [u_pmapi]; rewrite B2; f_equal; unfold r; cbn [word_of foldr]; fold (word_of qs);
        unfold contrib; by rewrite !Z.lor_assoc.
Qed.

(** ** Fields of words *)
Lemma bits_land w k : 0 <= k -> bits w k 4 = Z.land (Z.shiftr w k) 15.
Proof. intros H. unfold bits. rewrite Z.shiftr_div_pow2 by lia. change 15 with (Z.ones 4). by rewrite Z.land_ones by lia. Qed.
Lemma bits_lor a b k : 0 <= k -> bits (Z.lor a b) k 4 = Z.lor (bits a k 4) (bits b k 4).
Proof. intros H. rewrite !bits_land by done. by rewrite Z.shiftr_lor, Z.land_lor_distr_l. Qed.

Definition comp_eqb (a b : ucomp) : bool :=
  match a, b with CSpace, CSpace | CTime, CTime | CCount, CCount => true | _, _ => false end.
Lemma comp_eqb_spec a b : comp_eqb a b = true <-> a = b.
Proof. destruct a, b; cbn; split; congruence. Qed.

Definition contrib_check (c : ucomp) (s d : Z) (c' : ucomp) : bool :=
  let w := contrib (mkReq c s d) in
  (bits w (dim_pos c') 4 =? (if comp_eqb c c' then Z.lor (d mod 16) 1 else 0)) &&
  (bits w (scale_pos c') 4 =? (if comp_eqb c c' then s else 0)) && (0 <=? w) && (w <? 2 ^ 32).
Lemma contrib_all :
  forallb (fun c => forallb (fun s => forallb (fun d => forallb (contrib_check c s d) [CSpace; CTime; CCount])
     [-8;-7;-6;-5;-4;-3;-2;-1;0;1;2;3;4;5;6;7])
     (match c with CSpace => [0;1;2;3;4;5;6] | CTime => [0;1;2;3;4;5] | CCount => [0] end)) [CSpace; CTime; CCount] = true.
Proof. vm_compute. reflexivity. Qed.
Lemma contrib_fields q c : req_ok q ->
  bits (contrib q) (dim_pos c) 4 = (if comp_eqb (q_comp q) c then Z.lor (q_dim q mod 16) 1 else 0) /\
  bits (contrib q) (scale_pos c) 4 = (if comp_eqb (q_comp q) c then q_scale q else 0) /\ 0 <= contrib q < 2 ^ 32.
Proof.
  intros [Hs Hd]. pose proof contrib_all as H. rewrite forallb_forall in H. specialize (H (q_comp q)).
  rewrite forallb_forall in H. assert (In (q_comp q) [CSpace; CTime; CCount]) as I1 by (destruct (q_comp q); cbn; tauto).
  specialize (H I1 (q_scale q)). rewrite forallb_forall in H.
  assert (In (q_scale q) (match q_comp q with CSpace => [0;1;2;3;4;5;6] | CTime => [0;1;2;3;4;5] | CCount => [0] end)) as I2
    by (destruct (q_comp q); cbn [scale_ok] in Hs; cbn; lia).
  specialize (H I2 (q_dim q)). rewrite forallb_forall in H.
  assert (In (q_dim q) [-8;-7;-6;-5;-4;-3;-2;-1;0;1;2;3;4;5;6;7]) as I3 by (unfold dim_ok in Hd; cbn; lia).
  specialize (H I3 c). assert (In c [CSpace; CTime; CCount]) as I4 by (destruct c; cbn; tauto). specialize (H I4).
  unfold contrib_check in H. destruct q as [qc qs qd]; cbn [q_comp q_scale q_dim] in *.
  rewrite !andb_true_iff, !Z.eqb_eq in H. lia.
Qed.

Lemma word_absent qs c : Forall req_ok qs -> ~ c ∈ map q_comp qs ->
  bits (word_of qs) (dim_pos c) 4 = 0 /\ bits (word_of qs) (scale_pos c) 4 = 0.
Proof.
  induction 1 as [|q qs Hq _ IH]; intros Hn.
  - cbn [word_of foldr]. unfold bits. rewrite !Z.div_0_l by (destruct c; cbn; lia). split; reflexivity.
  - cbn [word_of foldr]. fold (word_of qs). rewrite !bits_lor by (destruct c; cbn; lia).
    destruct (contrib_fields q c Hq) as (A1 & A2 & _). rewrite A1, A2.
    assert (comp_eqb (q_comp q) c = false) as -> by
      (apply not_true_iff_false; rewrite comp_eqb_spec; intros E; apply Hn; cbn; rewrite E; left).
    destruct IH as [B1 B2]; [intros HH; apply Hn; cbn; right; exact HH|]. rewrite B1, B2. split; reflexivity.
Qed.
Lemma word_present qs q : Forall req_ok qs -> NoDup (map q_comp qs) -> q ∈ qs ->
  bits (word_of qs) (dim_pos (q_comp q)) 4 = Z.lor (q_dim q mod 16) 1 /\
  bits (word_of qs) (scale_pos (q_comp q)) 4 = q_scale q.
Proof.
  induction 1 as [|x qs Hx Hall IH]; intros Hn Hin; [by apply elem_of_nil in Hin|].
  cbn [map] in Hn. apply NoDup_cons in Hn as [N1 N2].
  cbn [word_of foldr]. fold (word_of qs). rewrite !bits_lor by (destruct (q_comp q); cbn; lia).
  apply elem_of_cons in Hin as [->|Hin].
  - destruct (word_absent qs (q_comp x) Hall N1) as [B1 B2]. rewrite B1, B2, !Z.lor_0_r.
    destruct (contrib_fields x (q_comp x) Hx) as (A1 & A2 & _). rewrite A1, A2.
    assert (comp_eqb (q_comp x) (q_comp x) = true) as -> by (by apply comp_eqb_spec). done.
  - destruct (IH N2 Hin) as [B1 B2]. rewrite B1, B2.
    destruct (contrib_fields x (q_comp q) Hx) as (A1 & A2 & _). rewrite A1, A2.
    assert (comp_eqb (q_comp x) (q_comp q) = false) as ->.
    { apply not_true_iff_false. rewrite comp_eqb_spec. intros E. apply N1. rewrite E.
      apply elem_of_list_fmap. exists q. done. }
    by rewrite !Z.lor_0_l.
Qed.

Lemma lor_range a b n : 0 <= n -> 0 <= a < 2 ^ n -> 0 <= b < 2 ^ n -> 0 <= Z.lor a b < 2 ^ n.
Proof.
  intros Hn [A1 A2] [B1 B2]. assert (0 <= Z.lor a b) by (by apply Z.lor_nonneg). split; [done|].
  assert (Z.shiftr (Z.lor a b) n = 0) as E.
  { rewrite Z.shiftr_lor, !Z.shiftr_div_pow2 by done. rewrite !Z.div_small by done. done. }
  rewrite Z.shiftr_div_pow2 in E by done. apply Z.div_small_iff in E; lia.
Qed.
Lemma word_range qs : Forall req_ok qs -> in_unsigned 32 (word_of qs).
Proof.
  induction 1 as [|q qs Hq _ IH]; [vm_compute; intuition congruence|].
  cbn [word_of foldr]. fold (word_of qs). apply lor_range; [lia| |exact IH]. by destruct (contrib_fields q CSpace Hq) as (_ & _ & ?).
Qed.

Lemma nibble_dim d : dim_ok d -> s4 (Z.lor (d mod 16) 1) = if Z.even d then d + 1 else d.
Proof.
  intros H. unfold dim_ok in H.
  assert (d = -8 \/ d = -7 \/ d = -6 \/ d = -5 \/ d = -4 \/ d = -3 \/ d = -2 \/ d = -1 \/ d = 0 \/ d = 1 \/ d = 2 \/ d = 3
     \/ d = 4 \/ d = 5 \/ d = 6 \/ d = 7) as Hd by lia.
  repeat (destruct Hd as [->|Hd]; [vm_compute; reflexivity|]). subst. vm_compute. reflexivity.
Qed.

(** ** The accessors of both packages read these fields *)
Lemma top_nibble w : 0 <= w < 2 ^ 32 -> Z.shiftr (to_signed 32 w) 28 = s4 (w / 2 ^ 28).
Proof.
  intros H. unfold to_signed, s4. rewrite Z.mod_small by lia. rewrite Z.shiftr_div_pow2 by lia.
  change (2 ^ 32) with (16 * 2 ^ 28) in *. change (2 ^ (32 - 1)) with (8 * 2 ^ 28) in *.
  destruct (w <? 8 * 2 ^ 28) eqn:E.
  - apply Z.ltb_lt in E. assert (w / 2 ^ 28 < 8) by (apply Z.div_lt_upper_bound; lia).
    destruct (Z.ltb_spec (w / 2 ^ 28) 8); [done|lia].
  - apply Z.ltb_ge in E. assert (8 <= w / 2 ^ 28) by (apply Z.div_le_lower_bound; lia).
    destruct (Z.ltb_spec (w / 2 ^ 28) 8); [lia|].
    replace (w - 16 * 2 ^ 28) with (w + (-16) * 2 ^ 28) by lia. rewrite Z.div_add by lia. lia.
Qed.
Lemma shl_nibble w k : 0 <= k <= 28 -> 0 <= w < 2 ^ 32 ->
  Z.shiftr (to_signed 32 (to_unsigned 32 (Z.shiftl w k))) 28 = s4 (bits w (28 - k) 4).
Proof.
  intros Hk H. rewrite top_nibble by (apply to_unsigned_range; lia). f_equal. unfold to_unsigned, bits.
  rewrite Z.shiftl_mul_pow2 by lia. set (a := 2 ^ (28 - k)).
  assert (2 ^ 32 = 2 ^ k * a * 16) as E by (unfold a; rewrite <- Z.pow_add_r by lia; replace (k + (28 - k)) with 28 by lia; reflexivity).
  assert (2 ^ 28 = 2 ^ k * a) as E2 by (unfold a; rewrite <- Z.pow_add_r by lia; f_equal; lia).
  assert (0 < 2 ^ k) by (apply Z.pow_pos_nonneg; lia). assert (0 < a) by (apply Z.pow_pos_nonneg; lia).
  rewrite E, E2. replace (2 ^ k * a * 16) with (2 ^ k * (a * 16)) by ring. rewrite (Z.mul_comm w), Z.mul_mod_distr_l by lia.
  rewrite Z.div_mul_cancel_l by lia. change (2 ^ 4) with 16.
  pose proof (Z.div_mod w (a * 16) ltac:(nia)) as D. pose proof (Z.mod_pos_bound w (a * 16) ltac:(nia)) as B.
  set (r := w mod (a * 16)) in *. set (q := w / (a * 16)) in *.
  replace w with (r + 16 * q * a) by (rewrite D; ring). rewrite Z.div_add by lia.
  replace (r / a + 16 * q) with (r / a + q * 16) by ring. rewrite Z.mod_add by lia.
  symmetry. apply Z.mod_small. split; [apply Z.div_pos; lia|]. apply Z.div_lt_upper_bound; lia.
Qed.
Lemma s4_small x : 0 <= x < 16 -> to_signed 8 (s4 x) = s4 x.
Proof. intros H. apply to_signed_id; [lia|]. unfold s4, in_signed. destruct (x <? 8) eqn:E; lia. Qed.
Lemma bits4_range w k : 0 <= bits w k 4 < 16.
Proof. unfold bits. change (2 ^ 4) with 16. apply Z.mod_pos_bound. lia. Qed.
Lemma shift0 w : 0 <= w < 2 ^ 32 -> to_unsigned 32 (Z.shiftl w 0) = w.
Proof. intros H. rewrite Z.shiftl_0_r. apply Z.mod_small. done. Qed.

Lemma reader_dims w : in_unsigned 32 w ->
  DSpaceDim w = word_dim w CSpace /\ DTimeDim w = word_dim w CTime /\ DCountDim w = word_dim w CCount.
Proof.
  intros H. unfold in_unsigned in H. unfold DSpaceDim, DTimeDim, DCountDim, word_dim, dim_pos.
  rewrite (shl_nibble w 4), (shl_nibble w 8) by lia.
  pose proof (shl_nibble w 0 ltac:(lia) H) as E. rewrite shift0 in E by done. rewrite E.
  change (28 - 0) with 28. change (28 - 4) with 24. change (28 - 8) with 20.
  rewrite !s4_small by apply bits4_range. done.
Qed.
Lemma reader_scales w : DSpaceScale w = word_scale w CSpace /\ DTimeScale w = word_scale w CTime /\ DCountScale w = word_scale w CCount.
Proof. unfold word_scale, scale_pos. rewrite !bits_land by lia. done. Qed.
Lemma to_signed_mod z : to_signed 32 (to_unsigned 32 z) = to_signed 32 z.
Proof. apply to_signed_unsigned. lia. Qed.
Lemma writer_dims w : in_unsigned 32 w ->
  SpaceDim w = word_dim w CSpace /\ TimeDim w = word_dim w CTime /\ CountDim w = word_dim w CCount.
Proof.
  intros H. unfold in_unsigned in H. unfold SpaceDim, TimeDim, CountDim, word_dim, dim_pos.
  rewrite <- (to_signed_mod (Z.shiftl w 4)), <- (to_signed_mod (Z.shiftl w 8)).
  rewrite (shl_nibble w 4), (shl_nibble w 8) by lia.
  pose proof (shl_nibble w 0 ltac:(lia) H) as E. rewrite shift0 in E by done. rewrite E. done.
Qed.

(** ** Aliasing *)
Lemma u_add_frame h p u c w d h' u' : u_add h p u c w d = Some (h', u') ->
  (match u with UPtr q => u' = UPtr q | _ => u' = UPtr p end) /\
  forall v, v <> u' -> u_pmapi h' v = u_pmapi h v.
Proof.
  unfold u_add. intros H.
  assert (forall q r, h' = <[q := r]> h -> u' = UPtr q -> forall v, v <> u' -> u_pmapi h' v = u_pmapi h v) as F.
  { intros q r -> -> v Hv. destruct v; cbn [u_pmapi]; auto. apply (lookup_insert_ne h); congruence. }
  destruct u as [b|b|b|q].
  1-3: destruct c; try discriminate; destruct (unit_or _ _ _ _) as [r|]; try discriminate;
    injection H as <- <-; (split; [done|by eapply F]).
  destruct (h !! q) as [r|]; [|by destruct c]. destruct (unit_or _ _ _ _) as [r'|]; [|by destruct c].
  assert (h' = <[q := r']> h /\ u' = UPtr q) as [-> ->] by (destruct c; injection H as <- <-; done).
  split; [done|]. by eapply F.
Qed.
Lemma u_add_panic h p u c w d : ~ dim_ok d -> u_add h p u c w d = None.
Proof.
  intros Hd. unfold u_add. assert (forall r, unit_or r w d (comp_shift c) = None) as E.
  { intros r. unfold unit_or, dim_ok in *. replace ((d <? -8) || (7 <? d)) with true; [done|].
    symmetry. apply orb_true_iff. lia. }
  destruct u; destruct c; rewrite ?E; try done; by destruct (h !! p0); rewrite ?E.
Qed.
