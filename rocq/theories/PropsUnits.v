(** C24, C25, C50: units, and the codes shared by writer and reader. *)
From Verif Require Import Base BaseFacts MetricType Units Metrics MmvPcp UnitFacts.

(** ** C24 *)

(** The claim as stated: each component asked for has the dimension asked for. *)
Definition records_dimensions : Prop := forall h p st qs w,
  start_ok st -> Forall req_ok qs -> NoDup (map q_comp (asked st qs)) -> composed h p st qs = Some w ->
  forall q, q ∈ asked st qs -> word_dim w (q_comp q) = q_dim q.

(** It is false: the constants carry dimension 1 themselves and the requested
    dimension is or-ed on top of it, so [NewMetricUnit().Space(ByteUnit, 2)] is byte^3. *)
Theorem C24_dimensions_refuted :
  (composed ∅ 7 FromNew [mkReq CSpace 0 2] = Some 0x30000000 /\ word_dim 0x30000000 CSpace = 3) /\ ~ records_dimensions.
Proof.
  assert (composed ∅ 7 FromNew [mkReq CSpace 0 2] = Some 0x30000000 /\ word_dim 0x30000000 CSpace = 3) as [E1 E2] by (split; vm_compute; reflexivity).
  split; [auto|]. intros H. specialize (H ∅ 7%nat FromNew [mkReq CSpace 0 2] 0x30000000 I ltac:(repeat constructor; cbn; lia) ltac:(cbn; apply NoDup_singleton) E1 (mkReq CSpace 0 2)
    ltac:(left)). change (word_dim 0x30000000 CSpace = 2) in H. rewrite E2 in H. discriminate H.
Qed.

(** Exactly what happens for every composition in which no component is repeated: it
    does not panic, every scale is the one asked for, every dimension asked for is
    recorded with its lowest bit set, and a component not asked for has dimension 0. *)
Theorem C24_recorded h p st qs : start_ok st -> Forall req_ok qs -> NoDup (map q_comp (asked st qs)) ->
  exists w, composed h p st qs = Some w /\ in_unsigned 32 w /\
    (forall q, q ∈ asked st qs -> word_scale w (q_comp q) = q_scale q /\
       word_dim w (q_comp q) = if Z.even (q_dim q) then q_dim q + 1 else q_dim q) /\
    (forall c, ~ c ∈ map q_comp (asked st qs) -> word_dim w c = 0).
Proof.
  intros Hs Hq Hn. exists (word_of (asked st qs)).
  assert (Forall (fun x => dim_ok (q_dim x)) qs) as Hd by (eapply Forall_impl; [exact Hq|intros x [_ ?]; done]).
  assert (Forall req_ok (asked st qs)) as Ha.
  { destruct st; cbn [asked]; [done|]. constructor; [|done]. split; [done|]. cbn. unfold dim_ok. lia. }
  split; [by apply composed_word|]. split; [by apply word_range|]. split.
  - intros q Hin. destruct (word_present _ q Ha Hn Hin) as [A1 A2]. unfold word_scale, word_dim. rewrite A1, A2.
    split; [done|]. apply nibble_dim. rewrite Forall_forall in Ha. by destruct (Ha q Hin).
  - intros c Hc. destruct (word_absent _ c Ha Hc) as [A1 _]. unfold word_dim. rewrite A1. done.
Qed.

(** With odd dimensions (all that ordinary units use) the claim holds. *)
Theorem C24_dimensions_partial h p st qs : start_ok st -> Forall req_ok qs -> NoDup (map q_comp (asked st qs)) ->
  Forall (fun q => Z.odd (q_dim q) = true) qs ->
  exists w, composed h p st qs = Some w /\
    (forall q, q ∈ asked st qs -> word_scale w (q_comp q) = q_scale q /\ word_dim w (q_comp q) = q_dim q) /\
    (forall c, ~ c ∈ map q_comp (asked st qs) -> word_dim w c = 0).
Proof.
  intros Hs Hq Hn Ho. destruct (C24_recorded h p st qs Hs Hq Hn) as (w & A1 & _ & A2 & A3).
  exists w. split; [done|]. split; [|done]. intros q Hin. destruct (A2 q Hin) as [B1 B2]. split; [done|].
  rewrite B2. assert (Z.odd (q_dim q) = true) as O.
  { rewrite Forall_forall in Ho. destruct st; cbn [asked] in Hin; [by apply Ho|].
    apply elem_of_cons in Hin as [->|Hin]; [done|by apply Ho]. }
  rewrite <- Z.negb_odd, O. done.
Qed.

(** The order of composition does not matter, for all dimensions. *)
Theorem C24_order h h' p p' st st' qs qs' : start_ok st -> start_ok st' -> Forall req_ok qs -> Forall req_ok qs' ->
  NoDup (map q_comp (asked st qs)) -> asked st qs ≡ₚ asked st' qs' -> composed h p st qs = composed h' p' st' qs'.
Proof.
  intros S1 S2 Q1 Q2 N P. rewrite !composed_word; try done.
  - f_equal. by apply word_of_perm.
  - eapply Forall_impl; [exact Q2|intros x [_ ?]; done].
  - by rewrite <- P.
  - eapply Forall_impl; [exact Q1|intros x [_ ?]; done].
Qed.

(** A dimension outside [-8,7] panics, whatever the unit. *)
Theorem C24_panic h p u c w d : ~ (-8 <= d <= 7) -> u_add h p u c w d = None.
Proof. apply u_add_panic. Qed.

(** Kilobytes per second, composed in both orders: dimensions 1, -1, 0; scales 1 and 3. *)
Example C24_example :
  let a := [mkReq CSpace 1 1; mkReq CTime 3 (-1)] in
  composed ∅ 7 FromNew a = Some 520171520 /\
  composed ∅ 7 (FromConst CSpace 1) [mkReq CTime 3 (-1)] = Some 520171520 /\
  Forall req_ok a /\ NoDup (map q_comp a) /\ Forall (fun q => Z.odd (q_dim q) = true) a /\
  map (word_dim 520171520) [CSpace; CTime; CCount] = [1; -1; 0] /\
  map (word_scale 520171520) [CSpace; CTime; CCount] = [1; 3; 0].
Proof.
  cbn zeta. split; [vm_compute; reflexivity|]. split; [vm_compute; reflexivity|].
  split; [repeat constructor; cbn; lia|].
  split; [cbn; constructor; [intros H; apply elem_of_list_singleton in H; discriminate|apply NoDup_singleton]|].
  split; [repeat constructor|]. split; vm_compute; reflexivity.
Qed.

(** ** C25 *)
Definition composing_preserves : Prop := forall h p u c w d h' u' v x,
  h !! p = None -> u_add h p u c w d = Some (h', u') -> u_pmapi h v = Some x -> u_pmapi h' v = Some x.

(** False: a composed unit is a pointer which Space, Time and Count modify in place.
    Here [b := NewMetricUnit().Space(ByteUnit,1)] turns into bytes per second when
    [b.Time(SecondUnit,-1)] is computed from it. *)
Theorem C25_aliasing_refuted :
  (exists h1 h2, u_add (<[0%nat := 0]> ∅) 1 (UPtr 0) CSpace ByteUnit 1 = Some (h1, UPtr 0) /\ u_pmapi h1 (UPtr 0) = Some ByteUnit /\
     u_add h1 1 (UPtr 0) CTime SecondUnit (-1) = Some (h2, UPtr 0) /\ u_pmapi h2 (UPtr 0) = Some 0x1F003000) /\ ~ composing_preserves.
Proof.
  set (h1 := <[0%nat := ByteUnit]> (<[0%nat := 0]> (∅ : uheap))). set (h2 := <[0%nat := 0x1F003000]> h1).
  assert (u_add h1 1 (UPtr 0) CTime SecondUnit (-1) = Some (h2, UPtr 0)) as E by (vm_compute; reflexivity).
  split; [exists h1, h2; split_and!; vm_compute; reflexivity|].
  intros H. specialize (H h1 1%nat (UPtr 0) CTime SecondUnit (-1) h2 (UPtr 0) (UPtr 0) ByteUnit ltac:(reflexivity) E ltac:(reflexivity)). vm_compute in H. discriminate H.
Qed.

(** What does hold: only the receiver itself can change, and a unit derived from an
    exported constant is new, so then nothing obtained earlier changes. *)
Theorem C25_preserves_partial h p u c w d h' u' v x : h !! p = None ->
  u_add h p u c w d = Some (h', u') -> u_pmapi h v = Some x ->
  v <> u \/ (forall q, u <> UPtr q) -> u_pmapi h' v = Some x.
Proof.
  intros Hp H Hv Hu. destruct (u_add_frame _ _ _ _ _ _ _ _ H) as [A1 A2]. rewrite A2; [done|].
  intros ->. destruct u as [b|b|b|q]; rewrite A1 in Hv; cbn [u_pmapi] in Hv; try congruence.
  destruct Hu as [Hu|Hu]; [congruence|by apply (Hu q)].
Qed.
(** Derived from a constant, the result is a new object. *)
Theorem C25_fresh_partial h p u c w d h' u' : (forall q, u <> UPtr q) -> h !! p = None ->
  u_add h p u c w d = Some (h', u') -> u_pmapi h u' = None.
Proof.
  intros Hu Hp H. destruct (u_add_frame _ _ _ _ _ _ _ _ H) as [A1 _].
  destruct u as [b|b|b|q]; try (rewrite A1; exact Hp). by destruct (Hu q).
Qed.
(** Two different rates built from one constant: the first is unaffected. *)
Example C25_example :
  let h1 := <[3%nat := 520105984]> (∅ : uheap) in let h2 := <[4%nat := 520110080]> h1 in
  u_add ∅ 3 (USpace ByteUnit) CTime SecondUnit (-1) = Some (h1, UPtr 3) /\
  u_add h1 4 (USpace ByteUnit) CTime MinuteUnit (-1) = Some (h2, UPtr 4) /\
  u_pmapi h1 (UPtr 3) = Some 520105984 /\ u_pmapi h2 (UPtr 3) = Some 520105984 /\ UPtr 3 <> USpace ByteUnit.
Proof. cbn zeta. split_and!; try (vm_compute; reflexivity). discriminate. Qed.

(** ** C50 *)

(** The numeric types agree. *)
Theorem C50_types :
  [Int32Type; Uint32Type; Int64Type; Uint64Type; FloatType; DoubleType; StringType] =
  [DInt32Type; DUint32Type; DInt64Type; DUint64Type; DFloatType; DDoubleType; DStringType].
Proof. reflexivity. Qed.

(** The unit constants agree. *)
Theorem C50_unit_constants : (forall i, SpaceUnit i = DSpaceUnit i) /\ (forall i, TimeUnit i = DTimeUnit i) /\ OneUnit = DOneUnit.
Proof. split; [|split]; reflexivity. Qed.

(** On every 32-bit unit word the reader's accessors give the fields of the PMAPI word. *)
Theorem C50_reader_fields w : in_unsigned 32 w ->
  DSpaceDim w = word_dim w CSpace /\ DTimeDim w = word_dim w CTime /\ DCountDim w = word_dim w CCount /\
  DSpaceScale w = word_scale w CSpace /\ DTimeScale w = word_scale w CTime /\ DCountScale w = word_scale w CCount.
Proof. intros H. destruct (reader_dims w H) as (?&?&?). destruct (reader_scales w) as (?&?&?). done. Qed.

(** And so do the writer's own: both packages read a unit word the same way. *)
Theorem C50_same_dimensions w : in_unsigned 32 w ->
  SpaceDim w = DSpaceDim w /\ TimeDim w = DTimeDim w /\ CountDim w = DCountDim w /\
  (SpaceDim w <> 0 -> SpaceScale w = Some (SpaceUnit (DSpaceScale w))) /\
  (TimeDim w <> 0 -> TimeScale w = Some (TimeUnit (DTimeScale w))).
Proof.
  intros H. destruct (reader_dims w H) as (R1&R2&R3). destruct (writer_dims w H) as (W1&W2&W3).
  rewrite R1, R2, R3, <- W1, <- W2, <- W3. split_and!; try done.
  - intros Hd. unfold SpaceScale. rewrite (proj2 (Z.eqb_neq _ _) Hd). done.
  - intros Hd. unfold TimeScale. rewrite (proj2 (Z.eqb_neq _ _) Hd). done.
Qed.

(** Hence what a composition asks for (odd dimensions) is what the reader reports. *)
Theorem C50_composed h p st qs w : start_ok st -> Forall req_ok qs -> NoDup (map q_comp (asked st qs)) ->
  Forall (fun q => Z.odd (q_dim q) = true) qs -> composed h p st qs = Some w ->
  forall q, q ∈ asked st qs ->
    (match q_comp q with CSpace => DSpaceDim w | CTime => DTimeDim w | CCount => DCountDim w end) = q_dim q /\
    (match q_comp q with CSpace => DSpaceScale w | CTime => DTimeScale w | CCount => DCountScale w end) = q_scale q.
Proof.
  intros Hs Hq Hn Ho Hw q Hin.
  destruct (C24_dimensions_partial h p st qs Hs Hq Hn Ho) as (w1 & A1 & A2 & _).
  destruct (C24_recorded h p st qs Hs Hq Hn) as (w2 & B1 & B2 & _).
  assert (w1 = w) as -> by congruence. assert (w2 = w) as -> by congruence.
  destruct (C50_reader_fields w B2) as (R1&R2&R3&R4&R5&R6). destruct (A2 q Hin) as [C1 C2].
  destruct (q_comp q); rewrite ?R1, ?R2, ?R3, ?R4, ?R5, ?R6; done.
Qed.

(** The semantics do not agree: all of the reader's constants are 0 (the first line
    of the const block is [= 0], not [= iota]), so no published counter, instant or
    discrete metric has the reader's constant of that name. *)
Theorem C50_semantics_refuted :
  ~ (CounterSemantics = DCounterSemantics) /\ ~ (InstantSemantics = DInstantSemantics) /\
  ~ (DiscreteSemantics = DDiscreteSemantics).
Proof. vm_compute. split_and!; discriminate. Qed.

(** Only the absence of semantics is understood. *)
Theorem C50_no_semantics_partial : NoSemantics = DNoSemantics.
Proof. reflexivity. Qed.

(** The word of C24_example through the reader. *)
Example C50_example : in_unsigned 32 520171520 /\
  (DSpaceDim 520171520, DTimeDim 520171520, DCountDim 520171520) = (1, -1, 0) /\
  (DSpaceScale 520171520, DTimeScale 520171520) = (1, 3) /\ SpaceDim 520171520 = 1.
Proof. unfold in_unsigned. split; [lia|]. vm_compute. done. Qed.

Print Assumptions C24_dimensions_refuted.
Print Assumptions C24_recorded.
Print Assumptions C24_dimensions_partial.
Print Assumptions C24_order.
Print Assumptions C24_panic.
Print Assumptions C25_aliasing_refuted.
Print Assumptions C25_preserves_partial.
Print Assumptions C25_fresh_partial.
Print Assumptions C50_types.
Print Assumptions C50_unit_constants.
Print Assumptions C50_reader_fields.
Print Assumptions C50_same_dimensions.
Print Assumptions C50_composed.
Print Assumptions C50_semantics_refuted.
Print Assumptions C50_no_semantics_partial.
