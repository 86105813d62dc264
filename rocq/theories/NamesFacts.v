From Coq Require Import DecimalString DecimalZ.
From Verif Require Import Base BaseFacts Units UnitFacts DumpText Names.

(** ** Specification: a table of names, other codes in parentheses *)
Definition named (T : gostring) (table : list (Z * gostring)) (i : Z) : gostring :=
  match list_find (fun x : Z * gostring => x.1 = i) table with
  | Some (_, (_, n)) => n
  | None => T ++ str "(" ++ dec i ++ str ")"
  end.

(** ** Decimal numbers *)
Lemma dec_inj a b : dec a = dec b -> a = b.
Proof.
  unfold dec, str. intros H. apply (f_equal String.string_of_list_byte) in H. rewrite !String.string_of_list_byte_of_string in H.
  apply (f_equal NilZero.int_of_string) in H.
  assert (forall z, NilZero.int_of_string (NilZero.string_of_int (Z.to_int z)) = Some (Z.to_int z)) as G.
  { intros z. apply NilZero.isi; destruct z; cbn; try discriminate; intros E; pose proof (f_equal Z.of_int E) as E'.
    - injection E as E. apply (f_equal Pos.of_uint) in E. rewrite DecimalPos.Unsigned.of_to in E. discriminate E.
    - injection E as E. apply (f_equal Pos.of_uint) in E. rewrite DecimalPos.Unsigned.of_to in E. discriminate E. }
  rewrite !G in H. injection H as H. apply (f_equal Z.of_int) in H. by rewrite !DecimalZ.of_to in H.
Qed.

Definition paren : byte := x28.
Lemma unnamed_inj T i j : T ++ str "(" ++ dec i ++ str ")" = T ++ str "(" ++ dec j ++ str ")" -> i = j.
Proof.
  intros H. apply app_inv_head in H. apply (app_inv_head (str "(")) in H. apply app_inv_tail in H. by apply dec_inj.
Qed.
Lemma named_inj T table i j : NoDup table.*1 -> NoDup table.*2 -> Forall (fun x : Z * gostring => paren ∉ x.2) table ->
  named T table i = named T table j -> i = j.
Proof.
  intros N1 N2 F. unfold named.
  assert (forall k p, paren ∈ T ++ str "(" ++ dec k ++ p) as P.
  { intros k p. apply elem_of_app. right. left. }
  destruct (list_find _ table) as [[a [i' n]]|] eqn:E1; destruct (list_find (fun x : Z * gostring => x.1 = j) table) as [[b [j' n']]|] eqn:E2.
  - apply list_find_Some in E1 as (A1 & A2 & _). apply list_find_Some in E2 as (B1 & B2 & _). cbn in *. subst. intros <-.
    assert (table.*2 !! a = Some n) as HA by (rewrite list_lookup_fmap; rewrite A1; reflexivity).
    assert (table.*2 !! b = Some n) as HB by (rewrite list_lookup_fmap; rewrite B1; reflexivity).
    pose proof (NoDup_lookup _ _ _ _ N2 HA HB) as ->. congruence.
  - apply list_find_Some in E1 as (A1 & A2 & _). intros ->. rewrite Forall_lookup in F. exfalso. apply (F _ _ A1). cbn. apply P.
  - apply list_find_Some in E2 as (A1 & A2 & _). intros <-. rewrite Forall_lookup in F. exfalso. apply (F _ _ A1). cbn. apply P.
  - apply unnamed_inj.
Qed.

Definition table_ok (table : list (Z * gostring)) : bool :=
  bool_decide (NoDup table.*1) && bool_decide (NoDup table.*2) && bool_decide (Forall (fun x : Z * gostring => paren ∉ x.2) table).
Lemma named_inj' T table i j : table_ok table = true -> named T table i = named T table j -> i = j.
Proof.
  unfold table_ok. rewrite !andb_true_iff, !bool_decide_eq_true. intros [[? ?] ?]. by apply named_inj.
Qed.

Definition metric_type_names : list (Z * gostring) := [(0, str "Int32Type"); (1, str "Uint32Type"); (2, str "Int64Type"); (3, str "Uint64Type");
  (4, str "FloatType"); (5, str "DoubleType"); (6, str "StringType")].
Definition metric_semantics_names : list (Z * gostring) := [(0, str "NoSemantics"); (1, str "CounterSemantics"); (3, str "InstantSemantics"); (4, str "DiscreteSemantics")].
Definition flag_names : list (Z * gostring) := [(1, str "NoPrefixFlag"); (2, str "ProcessFlag"); (4, str "SentinelFlag")].
Definition space_unit_names : list (Z * gostring) := [(ByteUnit, str "ByteUnit"); (KilobyteUnit, str "KilobyteUnit"); (MegabyteUnit, str "MegabyteUnit");
  (GigabyteUnit, str "GigabyteUnit"); (TerabyteUnit, str "TerabyteUnit"); (PetabyteUnit, str "PetabyteUnit"); (ExabyteUnit, str "ExabyteUnit")].
Definition time_unit_names : list (Z * gostring) := [(NanosecondUnit, str "NanosecondUnit"); (MicrosecondUnit, str "MicrosecondUnit"); (MillisecondUnit, str "MillisecondUnit");
  (SecondUnit, str "SecondUnit"); (MinuteUnit, str "MinuteUnit"); (HourUnit, str "HourUnit")].
Definition count_unit_names : list (Z * gostring) := [(OneUnit, str "OneUnit")].
Definition reader_semantics_names : list (Z * gostring) := [(0, str "NoSemantics")].
Definition toc_type_names : list (Z * gostring) := [(1, str "TocIndoms"); (2, str "TocInstances"); (3, str "TocMetrics"); (4, str "TocValues"); (5, str "TocStrings")].
Definition reader_type_names : list (Z * gostring) := [(-1, str "NoSupportType"); (0, str "Int32Type"); (1, str "Uint32Type"); (2, str "Int64Type"); (3, str "Uint64Type");
  (4, str "FloatType"); (5, str "DoubleType"); (6, str "StringType"); (255, str "UnknownType")].

Lemma named_cons T i k n t : named T ((k, n) :: t) i = if i =? k then n else named T t i.
Proof.
  unfold named. cbn. unfold decide. destruct (Z.eqb_spec i k) as [->|N].
  - destruct (_ : Decision (k = k)) as [|X]; [reflexivity|destruct (X eq_refl)].
  - destruct (_ : Decision (k = i)) as [->|X]; [destruct (N eq_refl)|]. destruct (list_find _ t) as [[? [? ?]]|]; reflexivity.
Qed.
Lemma named_nil T i : named T [] i = T ++ str "(" ++ dec i ++ str ")".
Proof. reflexivity. Qed.

Ltac walk := rewrite ?named_cons, ?named_nil; repeat match goal with |- context [?i =? ?k] => destruct (Z.eqb_spec i k); [subst; reflexivity|] end.
Lemma metric_type_spec i : MetricType_String i = Some (named (str "MetricType") metric_type_names i).
Proof. unfold MetricType_String, metric_type_names. change (zlen MetricType_index - 1) with 7. walk. destruct ((i <? 0) || (7 <=? i)) eqn:E; [reflexivity|]. apply orb_false_iff in E as [E1 E2]. apply Z.ltb_ge in E1. apply Z.leb_gt in E2. lia. Qed.
Lemma metric_semantics_spec i : MetricSemantics_String i = Some (named (str "MetricSemantics") metric_semantics_names i).
Proof.
  unfold MetricSemantics_String, metric_semantics_names. walk.
  destruct ((0 <=? i) && (i <=? 1)) eqn:E; [apply andb_true_iff in E as [E1 E2]; apply Z.leb_le in E1, E2; lia|].
  destruct ((3 <=? i) && (i <=? 4)) eqn:E'; [apply andb_true_iff in E' as [E1 E2]; apply Z.leb_le in E1, E2; lia|]. reflexivity.
Qed.
Lemma flag_spec i : MMVFlag_String i = Some (named (str "MMVFlag") flag_names i).
Proof.
  unfold MMVFlag_String, flag_names. walk.
  destruct ((1 <=? i) && (i <=? 2)) eqn:E; [apply andb_true_iff in E as [E1 E2]; apply Z.leb_le in E1, E2; lia|]. reflexivity.
Qed.
Lemma space_unit_spec i : SpaceUnit_String i = Some (named (str "SpaceUnit") space_unit_names i).
Proof. unfold SpaceUnit_String, space_unit_names. rewrite ?named_cons, ?named_nil. unfold unnamed.
  change ByteUnit with 268435456. change KilobyteUnit with 268500992. change MegabyteUnit with 268566528. change GigabyteUnit with 268632064.
  change TerabyteUnit with 268697600. change PetabyteUnit with 268763136. change ExabyteUnit with 268828672.
  repeat (destruct (i =? _); [reflexivity|]). reflexivity. Qed.
Lemma time_unit_spec i : TimeUnit_String i = Some (named (str "TimeUnit") time_unit_names i).
Proof. unfold TimeUnit_String, time_unit_names. rewrite ?named_cons, ?named_nil. unfold unnamed.
  change NanosecondUnit with 16777216. change MicrosecondUnit with 16781312. change MillisecondUnit with 16785408. change SecondUnit with 16789504.
  change MinuteUnit with 16793600. change HourUnit with 16797696.
  repeat (destruct (i =? _); [reflexivity|]). reflexivity. Qed.
Lemma count_unit_spec i : in_unsigned 32 i -> CountUnit_String i = Some (named (str "CountUnit") count_unit_names i).
Proof.
  intros Hi. unfold CountUnit_String, count_unit_names. rewrite named_cons, named_nil. change OneUnit with 1048576. change (zlen CountUnit_index - 1) with 1.
  assert (to_unsigned 32 (to_unsigned 32 (i - 1048576) + 1048576) = i) as E.
  { unfold to_unsigned, in_unsigned in *. rewrite Zplus_mod_idemp_l. replace (i - 1048576 + 1048576) with i by lia. apply Z.mod_small. exact Hi. }
  cbn zeta. rewrite E. destruct (Z.eqb_spec i 1048576) as [->|N]; [reflexivity|].
  destruct (Z.leb_spec 1 (to_unsigned 32 (i - 1048576))) as [_|L]; [reflexivity|]. exfalso. apply N. rewrite <- E.
  assert (0 <= to_unsigned 32 (i - 1048576)) by (apply Z.mod_pos_bound; reflexivity). replace (to_unsigned 32 (i - 1048576)) with 0 by lia. reflexivity.
Qed.
Lemma reader_semantics_spec i : Semantics_String i = Some (named (str "Semantics") reader_semantics_names i).
Proof. unfold Semantics_String, reader_semantics_names. change (zlen Semantics_index - 1) with 1. walk. destruct ((i <? 0) || (1 <=? i)) eqn:E; [reflexivity|]. apply orb_false_iff in E as [E1 E2]. apply Z.ltb_ge in E1. apply Z.leb_gt in E2. lia. Qed.
Lemma toc_type_spec i : in_signed 32 i -> TocType_String i = Some (named (str "TocType") toc_type_names i).
Proof.
  intros Hi. unfold TocType_String, toc_type_names. change (zlen TocType_index - 1) with 5. cbn zeta.
  walk. assert (to_signed 32 (to_signed 32 (i - 1) + 1) = i /\ ((to_signed 32 (i - 1) <? 0) || (5 <=? to_signed 32 (i - 1)) = true)) as [-> ->]; [|reflexivity].
  unfold in_signed in Hi. change (2 ^ (32 - 1)) with 2147483648 in Hi. destruct (decide (i = -2147483648)) as [->|N']; [split; reflexivity|].
  assert (forall z, -2147483648 <= z < 2147483648 -> to_signed 32 z = z) as G by (intros z Hz; apply to_signed_id; unfold in_signed; change (2 ^ (32 - 1)) with 2147483648; lia).
  rewrite (G (i - 1)) by lia. replace (i - 1 + 1) with i by lia. rewrite G by lia. split; [reflexivity|]. apply orb_true_iff. rewrite Z.ltb_lt, Z.leb_le. lia.
Qed.
Lemma reader_type_spec i : Type_String i = Some (named (str "Type") reader_type_names i).
Proof.
  unfold Type_String, reader_type_names. walk.
  destruct ((-1 <=? i) && (i <=? 6)) eqn:E; [apply andb_true_iff in E as [E1 E2]; apply Z.leb_le in E1, E2; lia|]. reflexivity.
Qed.
(** The text dump's names (DumpText.v) are these. *)
Lemma dump_type_string i : type_string i = named (str "Type") reader_type_names i.
Proof. unfold type_string, reader_type_names. rewrite ?named_cons, ?named_nil. repeat (destruct (i =? _); [reflexivity|]). reflexivity. Qed.
Lemma dump_sem_string i : sem_string i = named (str "Semantics") reader_semantics_names i.
Proof. unfold sem_string, reader_semantics_names. rewrite ?named_cons, ?named_nil. repeat (destruct (i =? _); [reflexivity|]). reflexivity. Qed.

(** ** Composed units *)
Definition caret : byte := x5e.
Lemma split_first (x : byte) a a' b b' : x ∉ a -> x ∉ a' -> a ++ x :: b = a' ++ x :: b' -> a = a' /\ b = b'.
Proof.
  revert a'. induction a as [|y a IH]; intros [|y' a'] H H' E; cbn in E.
  - injection E as E. auto.
  - injection E as E _. exfalso. apply H'. rewrite E. left.
  - injection E as E _. exfalso. apply H. rewrite <- E. left.
  - injection E as <- E. destruct (IH a') as [-> ->]; auto; intros K; [apply H|apply H']; by right.
Qed.
Definition dims : list Z := [-8;-7;-6;-5;-4;-3;-2;-1;0;1;2;3;4;5;6;7].
Lemma in_dims d : -8 <= d <= 7 -> d ∈ dims.
Proof. intros H. unfold dims. repeat (rewrite elem_of_cons). lia. Qed.
Lemma dec_cancel d d' r r' : -8 <= d <= 7 -> -8 <= d' <= 7 -> dec d ++ r = dec d' ++ r' -> d = d' /\ r = r'.
Proof.
  intros H H' E. pose proof (in_dims _ H) as I. pose proof (in_dims _ H') as I'. unfold dims in I, I'.
  repeat (rewrite elem_of_cons in I). rewrite elem_of_nil in I. repeat (rewrite elem_of_cons in I'). rewrite elem_of_nil in I'.
  clear H H'. repeat destruct I as [->|I]; try contradiction; repeat destruct I' as [->|I']; try contradiction; vm_compute in E; injection E; intros; subst; auto; discriminate.
Qed.

(** A unit's printed form as a list of named parts. *)
Definition show (l : list (gostring * Z)) : gostring := concat ((fun x : gostring * Z => x.1 ++ str "^" ++ dec x.2) <$> l).
Lemma show_inj l l' : Forall (fun x : gostring * Z => caret ∉ x.1 /\ -8 <= x.2 <= 7) l -> Forall (fun x : gostring * Z => caret ∉ x.1 /\ -8 <= x.2 <= 7) l' -> show l = show l' -> l = l'.
Proof.
  intros F. revert l'. induction F as [|[n d] l [H1 H2] F IH]; intros l' F'; destruct F' as [|[n' d'] l' [H1' H2'] F']; unfold show; cbn; intros E.
  - reflexivity.
  - destruct n'; discriminate E.
  - destruct n; discriminate E.
  - cbn [fst snd] in *. rewrite <- !app_assoc in E. cbn in E. apply (split_first caret) in E as [-> E]; auto. apply dec_cancel in E as [-> E]; auto.
    f_equal. by apply IH.
Qed.
Lemma signed_nibble z : -8 <= Z.shiftr (to_signed 32 z) 28 <= 7.
Proof.
  assert (-2147483648 <= to_signed 32 z < 2147483648) as H.
  { pose proof (to_signed_range 32 z) as R. unfold in_signed in R. change (2 ^ (32 - 1)) with 2147483648 in R. apply R. lia. }
  rewrite Z.shiftr_div_pow2 by lia. change (2 ^ 28) with 268435456.
  split; [apply Z.div_le_lower_bound; lia|apply Z.lt_succ_r, Z.div_lt_upper_bound; lia].
Qed.
Definition space_part (w : Z) : option (gostring * Z) := if SpaceDim w =? 0 then None else Some (named (str "SpaceUnit") space_unit_names (SpaceUnit (Z.land (Z.shiftr w 16) 15)), SpaceDim w).
Definition time_part (w : Z) : option (gostring * Z) := if TimeDim w =? 0 then None else Some (named (str "TimeUnit") time_unit_names (TimeUnit (Z.land (Z.shiftr w 12) 15)), TimeDim w).
Definition count_part (w : Z) : option (gostring * Z) := if CountDim w =? 0 then None else Some (str "OneUnit", CountDim w).
Definition parts (w : Z) : list (gostring * Z) := option_list (space_part w) ++ option_list (time_part w) ++ option_list (count_part w).

Lemma nibble_bound w k : 0 <= Z.land (Z.shiftr w k) 15 <= 15.
Proof. change 15 with (Z.ones 4). rewrite Z.land_ones by lia. change (2 ^ 4) with 16. pose proof (Z.mod_pos_bound (Z.shiftr w k) 16). change (Z.ones 4) with 15. lia. Qed.
Lemma count_scale_one w : CountDim w <> 0 -> CountScale w = Some OneUnit.
Proof.
  intros H. unfold CountScale. destruct (Z.eqb_spec (CountDim w) 0) as [|_]; [contradiction|]. f_equal. pose proof (nibble_bound w 8) as B.
  replace (Z.shiftr (Z.land (Z.shiftr w 8) 15) 8) with 0; [reflexivity|]. rewrite Z.shiftr_div_pow2 by lia. symmetry. apply Z.div_small. change (2 ^ 8) with 256. lia.
Qed.
Lemma unit_string_parts w : metricUnit_String w = Some (show (parts w)).
Proof.
  unfold metricUnit_String, unit_part, parts, space_part, time_part, count_part, show.
  destruct (Z.eqb_spec (CountDim w) 0) as [C|C].
  - destruct (Z.eqb_spec (SpaceDim w) 0) as [A|A], (Z.eqb_spec (TimeDim w) 0) as [B|B]; unfold SpaceScale, TimeScale.
    all: try (rewrite (proj2 (Z.eqb_neq _ _) A)); try (rewrite (proj2 (Z.eqb_neq _ _) B)).
    all: cbn [mbind option_bind option_list app fmap list_fmap concat fst snd]; rewrite ?space_unit_spec, ?time_unit_spec; cbn [mbind option_bind].
    all: cbn -[named dec str SpaceUnit TimeUnit SpaceDim TimeDim CountDim]; unfold SpaceUnit, TimeUnit; rewrite ?app_nil_r, <- ?app_assoc; reflexivity.
  - rewrite (count_scale_one _ C). destruct (Z.eqb_spec (SpaceDim w) 0) as [A|A], (Z.eqb_spec (TimeDim w) 0) as [B|B]; unfold SpaceScale, TimeScale.
    all: try (rewrite (proj2 (Z.eqb_neq _ _) A)); try (rewrite (proj2 (Z.eqb_neq _ _) B)).
    all: cbn [mbind option_bind option_list app fmap list_fmap concat fst snd]; rewrite ?space_unit_spec, ?time_unit_spec; cbn [mbind option_bind].
    all: change (CountUnit_String OneUnit) with (Some (str "OneUnit")); cbn [mbind option_bind].
    all: cbn -[named dec str SpaceUnit TimeUnit SpaceDim TimeDim CountDim]; unfold SpaceUnit, TimeUnit; rewrite ?app_nil_r, <- ?app_assoc; reflexivity.
Qed.
Definition nibbles : list Z := [0;1;2;3;4;5;6;7;8;9;10;11;12;13;14;15].
Lemma in_nibbles k : 0 <= k <= 15 -> k ∈ nibbles.
Proof. intros H. unfold nibbles. repeat (rewrite elem_of_cons). lia. Qed.
Lemma all_nibbles (P : Z -> Prop) `{forall k, Decision (P k)} : forallb (fun k => bool_decide (P k)) nibbles = true -> forall k, 0 <= k <= 15 -> P k.
Proof. intros F k Hk. rewrite forallb_forall in F. apply (bool_decide_eq_true_1 (P k)), F, elem_of_list_In, in_nibbles, Hk. Qed.
Lemma space_names_ok k : 0 <= k <= 15 -> caret ∉ named (str "SpaceUnit") space_unit_names (SpaceUnit k) /\
  named (str "SpaceUnit") space_unit_names (SpaceUnit k) ∉ (str "OneUnit" :: ((fun j => named (str "TimeUnit") time_unit_names (TimeUnit j)) <$> nibbles)).
Proof. revert k. match goal with |- forall k, _ -> @?P k => apply (all_nibbles P) end. vm_compute. reflexivity. Qed.
Lemma time_names_ok k : 0 <= k <= 15 -> caret ∉ named (str "TimeUnit") time_unit_names (TimeUnit k) /\
  named (str "TimeUnit") time_unit_names (TimeUnit k) <> str "OneUnit".
Proof. revert k. match goal with |- forall k, _ -> @?P k => apply (all_nibbles P) end. vm_compute. reflexivity. Qed.
Lemma parts_ok w : Forall (fun x : gostring * Z => caret ∉ x.1 /\ -8 <= x.2 <= 7) (parts w).
Proof.
  unfold parts, space_part, time_part, count_part. apply Forall_app. split; [|apply Forall_app; split].
  - destruct (SpaceDim w =? 0); cbn; constructor; [|constructor]. cbn [fst snd]. split; [apply space_names_ok, nibble_bound|apply signed_nibble].
  - destruct (TimeDim w =? 0); cbn; constructor; [|constructor]. cbn [fst snd]. split; [apply time_names_ok, nibble_bound|apply signed_nibble].
  - destruct (CountDim w =? 0); cbn; constructor; [|constructor]. cbn [fst snd]. split; [|apply signed_nibble]. apply (bool_decide_eq_true_1 (caret ∉ str "OneUnit")). reflexivity.
Qed.
Lemma parts_inj w w' : parts w = parts w' -> space_part w = space_part w' /\ time_part w = time_part w' /\ count_part w = count_part w'.
Proof.
  unfold parts. intros E.
  assert (forall v n d, space_part v = Some (n, d) -> n ∉ (str "OneUnit" :: ((fun j => named (str "TimeUnit") time_unit_names (TimeUnit j)) <$> nibbles))) as S1.
  { intros v n d. unfold space_part. destruct (SpaceDim v =? 0); [discriminate|]. intros H. injection H as <- _. apply space_names_ok, nibble_bound. }
  assert (forall v n d, time_part v = Some (n, d) -> n ∈ ((fun j => named (str "TimeUnit") time_unit_names (TimeUnit j)) <$> nibbles) /\ n <> str "OneUnit") as T1.
  { intros v n d. unfold time_part. destruct (TimeDim v =? 0); [discriminate|]. intros H. injection H as <- _. split; [|apply time_names_ok, nibble_bound].
    apply elem_of_list_fmap. eexists. split; [reflexivity|]. apply in_nibbles, nibble_bound. }
  assert (forall v n d, count_part v = Some (n, d) -> n = str "OneUnit") as C1.
  { intros v n d. unfold count_part. destruct (CountDim v =? 0); [discriminate|]. intros H. by injection H as <- _. }
  destruct (space_part w) as [[n1 d1]|] eqn:A1, (space_part w') as [[n2 d2]|] eqn:A2; destruct (time_part w) as [[n3 d3]|] eqn:A3, (time_part w') as [[n4 d4]|] eqn:A4;
    destruct (count_part w) as [[n5 d5]|] eqn:A5, (count_part w') as [[n6 d6]|] eqn:A6; cbn in E; try discriminate E;
    repeat match goal with
    | H : space_part _ = Some _ |- _ => apply S1 in H
    | H : time_part _ = Some _ |- _ => apply T1 in H as [? ?]
    | H : count_part _ = Some _ |- _ => apply C1 in H
    end; simplify_eq; auto; exfalso;
    repeat match goal with H : ?x ∉ _ :: _ |- _ => rewrite not_elem_of_cons in H; destruct H end; contradiction.
Qed.
Lemma unit_string_inj w w' : metricUnit_String w = metricUnit_String w' -> space_part w = space_part w' /\ time_part w = time_part w' /\ count_part w = count_part w'.
Proof.
  rewrite !unit_string_parts. intros E. apply (inj Some) in E. apply parts_inj, show_inj; auto using parts_ok.
Qed.
Lemma unit_string_fields w w' : metricUnit_String w = metricUnit_String w' ->
  SpaceDim w = SpaceDim w' /\ TimeDim w = TimeDim w' /\ CountDim w = CountDim w' /\ SpaceScale w = SpaceScale w' /\ TimeScale w = TimeScale w' /\ CountScale w = CountScale w'.
Proof.
  intros E. destruct (unit_string_inj _ _ E) as (A & B & C). unfold space_part, time_part, count_part in *.
  assert (SpaceDim w = SpaceDim w' /\ SpaceScale w = SpaceScale w') as [E1 E2].
  { unfold SpaceScale. destruct (Z.eqb_spec (SpaceDim w) 0), (Z.eqb_spec (SpaceDim w') 0); try discriminate A; [split; congruence|]. injection A as A1 A2. split; [exact A2|].
    f_equal. apply named_inj' in A1; [exact A1|vm_compute; reflexivity]. }
  assert (TimeDim w = TimeDim w' /\ TimeScale w = TimeScale w') as [E3 E4].
  { unfold TimeScale. destruct (Z.eqb_spec (TimeDim w) 0), (Z.eqb_spec (TimeDim w') 0); try discriminate B; [split; congruence|]. injection B as A1 A2. split; [exact A2|].
    f_equal. apply named_inj' in A1; [exact A1|vm_compute; reflexivity]. }
  assert (CountDim w = CountDim w' /\ CountScale w = CountScale w') as [E5 E6].
  { destruct (Z.eqb_spec (CountDim w) 0) as [H|H], (Z.eqb_spec (CountDim w') 0) as [H'|H']; try discriminate C.
    - unfold CountScale. rewrite H, H'. auto.
    - injection C as A2. rewrite !count_scale_one by assumption. auto. }
  auto 10.
Qed.
