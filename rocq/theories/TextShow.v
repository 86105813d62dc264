(** The text of a complete file is the specified text of its contents. *)
From Verif Require Import Base BaseFacts Floats GoVal MetricType ByteWriter Hash Units Indom Metrics Registry Prog
  Client Mmvdump Ileave ProgProofs Events StartEvents BufFacts Tiling StartGood StartLayout StartFinal StartDone
  View Sections StartView RegInv Update World OpRuns RegFacts WorldInv Sync FloatFacts ValueFacts MetricFacts SyncLive SyncView Layout
  DumpSched DumpFacts DumpSeq DumpTrunc DumpText UnitFacts Names NamesFacts TextFacts TextView.

(** ** Units *)
Lemma unit_text_ok u : in_unsigned 32 u -> unit_string u = unit_text u.
Proof.
  intros H. destruct (writer_dims u H) as (E1 & E2 & E3). destruct (reader_scales u) as (S1 & S2 & S3).
  unfold unit_string. change (d_space_dim u) with (SpaceDim u). change (d_time_dim u) with (TimeDim u). change (d_count_dim u) with (CountDim u).
  change (d_space_scale u) with (MmvPcp.DSpaceScale u). change (d_time_scale u) with (MmvPcp.DTimeScale u). change (d_count_scale u) with (MmvPcp.DCountScale u).
  rewrite E1, E2, E3, S1, S2, S3. unfold unit_text, dim_parts. cbn [map]. unfold dim_part. cbn [fst snd].
  unfold dim_string, dim_suffix, space_names, time_names, count_names.
  assert (forall (u0 : nat) (l : list (list byte)) (f : list byte), exists a, (match l !! u0 with Some n => n ++ f | None => str "<invalid>" end : list byte) = a) as G by (intros; eexists; reflexivity).
  destruct (G (Z.to_nat (word_scale u CSpace)) [str "B"; str "KiB"; str "MiB"; str "GiB"; str "TiB"; str "PiB"; str "EiB"] (if 1 <? Z.abs (word_dim u CSpace) then str "^" ++ dec (word_dim u CSpace) else [])) as [a ->].
  destruct (G (Z.to_nat (word_scale u CTime)) [str "nsec"; str "usec"; str "msec"; str "sec"; str "min"; str "hr"] (if 1 <? Z.abs (word_dim u CTime) then str "^" ++ dec (word_dim u CTime) else [])) as [b ->].
  destruct (G (Z.to_nat (word_scale u CCount)) [str "count"] (if 1 <? Z.abs (word_dim u CCount) then str "^" ++ dec (word_dim u CCount) else [])) as [c ->].
  generalize (word_dim u CSpace) (word_dim u CTime) (word_dim u CCount). intros x y z.
  rewrite !filter_cons, !filter_nil. cbn [fst].
  clear H E1 E2 E3 S1 S2 S3 G. generalize (str " / "). intros sl.
  assert (forall t (p q : list (Z * list byte)), (if decide (0 < t) then p else q) = if 0 <? t then p else q) as K1 by (intros t p q; destruct (decide (0 < t)), (Z.ltb_spec 0 t); (reflexivity || lia)).
  assert (forall t (p q : list (Z * list byte)), (if decide (t < 0) then p else q) = if t <? 0 then p else q) as K2 by (intros t p q; destruct (decide (t < 0)), (Z.ltb_spec t 0); (reflexivity || lia)).
  rewrite !K1, !K2. generalize (0 <? x) (0 <? y) (0 <? z) (x <? 0) (y <? 0) (z <? 0). clear.
  intros [] [] [] [] [] []; cbn [map concat snd app orb]; rewrite ?app_nil_r, <- ?app_assoc; reflexivity.
Qed.

(** ** Printing *)
Section prints.
Context (f32 f64 : Z -> list byte).
Definition prints (r : wres) (t : list byte) : Prop := exists o, r = WOk o /\ flatten f32 f64 o = t.

Lemma prints_say b : prints (say b) b.
Proof. eexists. split; [reflexivity|]. apply app_nil_r. Qed.
Lemma prints_ok : prints (WOk []) [].
Proof. eexists. split; reflexivity. Qed.
Lemma prints_then a b s t : prints a s -> prints b t -> prints (a ;;; b) (s ++ t).
Proof. intros (x & -> & <-) (y & -> & <-). eexists. split; [reflexivity|]. unfold flatten. by rewrite map_app, concat_app. Qed.
Lemma prints_nil {A} (x : option A) k a t : x = Some a -> prints (k a) t -> prints (with_nil x k) t.
Proof. intros -> H. exact H. Qed.
Lemma prints_val v : prints (write_val v) (val_text f32 f64 v).
Proof. destruct v; eexists; (split; [reflexivity|]); apply app_nil_r. Qed.
Lemma prints_eq r s t : prints r s -> s = t -> prints r t.
Proof. by intros ? <-. Qed.

Section text.
Context (d : dump).
Context (HNi : forall o x, du_instances d !! o = Some x -> name_fits d (di_external x)).
Context (HNm : forall o x, du_metrics d !! o = Some x -> name_fits d (dm_name x)).
Context (HU : forall o x, du_metrics d !! o = Some x -> in_unsigned 32 (dm_unit x)).

Lemma text_prints label o t : res_text d o = Some t -> prints (write_text d label o) (help_text label t).
Proof.
  unfold res_text, write_text. destruct (o =? 0); [intros [= <-]; apply prints_say|]. unfold string_at. destruct (du_strings d !! o) eqn:E; [|done].
  intros [= <-]. eapply prints_nil; [reflexivity|apply prints_say].
Qed.
Lemma inst_prints o y x : du_instances d !! o = Some y -> res_inst d y = Some x -> prints (writeInstance d o) (inst_text o x).
Proof.
  intros E R. unfold res_inst in R. destruct (negb (di_padding y =? 0)); [done|]. destruct (du_indoms d !! di_indom y) as [dom|] eqn:Ed; [|done].
  destruct (res_name d (di_external y)) as [n|] eqn:En; [|done]. cbn in R. injection R as <-.
  eapply prints_nil; [exact E|]. eapply prints_nil; [apply name_ok; eauto|]. eapply prints_nil; [exact Ed|]. apply prints_say.
Qed.
Lemma indom_prints o y x : du_indoms d !! o = Some y -> res_indom d y = Some x -> prints (writeInstanceDomain d o) (indom_text o (dd_offset y) x).
Proof.
  intros E R. unfold res_indom in R. destruct (res_text d (dd_short y)) as [a|] eqn:Ea; [|done]. destruct (res_text d (dd_long y)) as [b|] eqn:Eb; [|done]. cbn in R. injection R as <-.
  eapply prints_nil; [exact E|]. unfold indom_text, helps. cbn [vd_serial vd_count vd_short vd_long].
  eapply prints_eq; [apply prints_then; [apply prints_say|]; apply prints_then; eapply text_prints; eauto|]. by rewrite <- !app_assoc.
Qed.
Lemma metric_res' y x : res_metric d y = Some x -> exists n a b, res_name d (dm_name y) = Some n /\ res_text d (dm_short y) = Some a /\ res_text d (dm_long y) = Some b /\
  dm_padding y = 0 /\ x = mkVM n (dm_item y) (dm_type y) (dm_sem y) (dm_unit y) (dm_indom y) a b.
Proof.
  intros R. unfold res_metric in R. destruct (dm_padding y =? 0) eqn:P; [|done]. cbn [negb] in R. destruct (res_name d (dm_name y)) as [n|] eqn:En; [|done]. cbn in R.
  destruct (res_text d (dm_short y)) as [a|] eqn:Ea; [|done]. cbn in R. destruct (res_text d (dm_long y)) as [b|] eqn:Eb; [|done]. cbn in R. injection R as <-.
  exists n, a, b. split_and!; auto. lia.
Qed.
Lemma metric_prints o y x : du_metrics d !! o = Some y -> res_metric d y = Some x -> prints (writeMetric d o) (metric_text o x).
Proof.
  intros E R. destruct (metric_res' _ _ R) as (n & a & b & En & Ea & Eb & Ep & ->). eapply prints_nil; [exact E|]. eapply prints_nil; [apply name_ok; eauto|].
  unfold metric_text, helps. cbn [vm_item vm_name vm_type vm_sem vm_unit vm_indom vm_short vm_long].
  eapply prints_eq; [repeat (apply prints_then; [apply prints_say|]); apply prints_then; eapply text_prints; eauto|].
  rewrite Ep, dump_type_string, dump_sem_string, unit_text_ok by eauto. change (hex 0) with (str "0"). change (str "), pad=0x0") with (str "), pad=0x" ++ str "0").
  destruct (Z.eqb_spec (dm_indom y) (-1)) as [->|N].
  - rewrite bool_decide_eq_true_2 by reflexivity. by rewrite <- !app_assoc.
  - rewrite bool_decide_eq_false_2 by exact N. by rewrite <- !app_assoc.
Qed.
(** The label mmvdump prints: none if the id of the domain is 0. *)
Definition printed_label (x : vvalue) : list byte := if vm_indom (vv_metric x) =? 0 then [] else inst_label x.
Lemma value_prints o y x : du_values d !! o = Some y -> res_value d y = Some x -> (vv_inst x = None <-> vm_indom (vv_metric x) = -1) ->
  prints (writeValue d o) (value_text f32 f64 printed_label o x).
Proof.
  intros E R HI. unfold res_value in R.
  destruct (du_metrics d !! dv_metric y) as [m|] eqn:Em; [|done]. cbn in R. destruct (res_metric d m) as [vm|] eqn:Evm; [|done]. cbn in R.
  destruct (if dv_instance y =? 0 then _ else _) as [i|] eqn:Ei; [|done]. cbn in R. destruct (res_val d (dm_type m) y) as [v|] eqn:Ev; [|done]. cbn in R. injection R as <-.
  destruct (metric_res' _ _ Evm) as (n & a & b & En & Ea & Eb & Ep & ->). cbn in HI.
  eapply prints_nil; [exact E|]. eapply prints_nil; [exact Em|]. eapply prints_nil; [apply name_ok; eauto|].
  unfold value_text, printed_label. cbn [vv_metric vm_item vm_name vv_val vm_indom].
  assert ((if dm_type m =? 6 then s ← du_strings d !! to_unsigned 64 (dv_extra y); Some (VStr s) else FixedVal (dv_val y) (dm_type m)) = Some v) as Ev'.
  { unfold res_val, string_at in Ev. destruct (dm_type m =? 6); [by destruct (dv_val y =? 255)|by destruct (dv_extra y =? 0)]. }
  rewrite Ev'. 
  match goal with |- prints (_ ;;; (?q ;;; _)) _ => assert (prints q (if dm_indom m =? 0 then [] else inst_label (mkVV (mkVM n (dm_item m) (dm_type m) (dm_sem m) (dm_unit m) (dm_indom m) a b) i v))) as P end.
  2: { eapply prints_eq; [apply prints_then; [apply prints_say|]; apply prints_then; [exact P|apply prints_then; [apply prints_say|apply prints_then; [apply prints_val|apply prints_say]]]|].
    by rewrite <- !app_assoc. }
  destruct (Z.eqb_spec (dm_indom m) 0) as [E0|E0]; [rewrite andb_false_r; apply prints_ok|]. unfold inst_label. cbn [vv_inst].
  destruct (Z.eqb_spec (dm_indom m) (-1)) as [E1|E1].
  - cbn. apply HI in E1 as ->. apply prints_ok.
  - cbn [negb andb]. destruct i as [i|]; [|exfalso; apply E1, HI; reflexivity]. destruct (dv_instance y =? 0); [done|].
    destruct (du_instances d !! dv_instance y) as [ins|] eqn:Eins; [|done]. cbn in Ei. destruct (res_inst d ins) as [vi|] eqn:Evi; [|done]. cbn in Ei. injection Ei as <-.
    unfold res_inst in Evi. destruct (negb (di_padding ins =? 0)); [done|]. destruct (du_indoms d !! di_indom ins); [|done]. cbn in Evi. destruct (res_name d (di_external ins)) as [iname|] eqn:Ein; [|done].
    cbn in Evi. injection Evi as <-. eapply prints_nil; [reflexivity|]. eapply prints_nil; [apply name_ok; eauto|]. cbn [vi_id vi_name]. apply prints_say.
Qed.
Lemma string_prints o x : du_strings d !! o = Some x -> prints (writeString d o) (string_text o x).
Proof. intros E. eapply prints_nil; [exact E|]. apply prints_say. Qed.

(** ** Sections *)
Lemma items_prints {B} (f : Z -> wres) (g : Z -> B -> list byte) len (rs : list (Z * B)) : forall b, 0 <= b -> 0 < len -> b + len * Z.of_nat (length rs) < 2 ^ 64 ->
  rs.*1 = slots b len (length rs) -> (forall o x, (o, x) ∈ rs -> prints (f o) (g o x)) ->
  prints (write_items (Some f) b len (length rs)) (concat (map (fun x => g x.1 x.2) rs)).
Proof using Type.
  clear HNi HNm HU.
  induction rs as [|[o x] rs IH]; intros b Hb Hl HL HS HP; cbn [write_items length map concat]; [apply prints_ok|].
  cbn [length slots fmap list_fmap fst] in HS. injection HS as -> HS. cbn [fst snd].
  apply prints_then; [cbn; apply HP; left|]. cbn [length] in HL. rewrite to_unsigned_id by (unfold in_unsigned; lia). apply IH; [lia|lia|lia|exact HS|].
  intros o' x' H. apply HP. by right.
Qed.

Definition sec_prints (t : toc) (s : tsection) : Prop := forall k,
  (kind_of d (tc_type t) k).1.1 = sc_kind s /\ tc_offset t = sc_offset s /\ tc_count t = zlen (sc_items s) /\
  prints (write_items (kind_of d (tc_type t) k).2 (tc_offset t) (kind_of d (tc_type t) k).1.2 (Z.to_nat (tc_count t))) (concat (sc_items s)).
Lemma sections_prints tocs secs : Forall2 sec_prints tocs secs -> forall i k,
  prints (write_sections d (Z.of_nat i) (40 + 16 * Z.of_nat i) k tocs) (concat (imap (fun j => section_text (i + j)) secs)).
Proof using Type.
  clear HNi HNm HU.
  induction 1 as [|t s tocs secs H _ IH]; intros i k; cbn [write_sections imap concat]; [apply prints_ok|].
  destruct (H k) as (E1 & E2 & E3 & P).
  rewrite (imap_ext _ (fun j => section_text (S i + j)) secs) by (intros; cbn -[section_text]; f_equal; lia).
  specialize (IH (S i) (kind_of d (tc_type t) k)). replace (Z.of_nat (S i)) with (Z.of_nat i + 1) in IH by lia.
  replace (40 + 16 * (Z.of_nat i + 1)) with (40 + 16 * Z.of_nat i + DTocLength) in IH by (unfold DTocLength; lia).
  eapply prints_eq; [apply prints_then; [apply prints_say|]; apply prints_then; [exact P|]; apply prints_then; [apply prints_say|exact IH]|].
  rewrite Nat.add_0_r. unfold section_text at 2. rewrite E1, E2, E3. by rewrite <- !app_assoc.
Qed.
End text.
End prints.

(** ** Records in the order of the file *)
Lemma rows {A B} (res : A -> option B) (l : list B) b len n (dc : Z -> A) : 0 < len -> map res (recs (section b len n dc)) ≡ₚ map Some l ->
  exists rs : list (Z * B), length rs = n /\ rs.*1 = slots b len n /\ rs.*2 ≡ₚ l /\
    forall o x, (o, x) ∈ rs -> exists y, section b len n dc !! o = Some y /\ res y = Some x.
Proof.
  intros Hl H. unfold recs in H. rewrite section_recs in H by exact Hl. rewrite map_map in H.
  apply Permutation_map_inv in H as (l' & E & HP). assert (length (slots b len n) = length l') as EL by (apply (f_equal length) in E; by rewrite !map_length in E).
  exists (zip (slots b len n) l'). split; [rewrite zip_with_length, EL, Nat.min_id, <- EL; apply slots_length|].
  split; [apply fst_zip; lia|]. split; [rewrite snd_zip by lia; by symmetry|].
  intros o x Hx. exists (dc o). apply elem_of_lookup_zip_with in Hx as (i & o' & x' & [= <- <-] & L1 & L2).
  split; [apply section_lookup; [exact Hl|]; by eapply elem_of_list_lookup_2|].
  assert (map (fun o => res (dc o)) (slots b len n) !! i = map Some l' !! i) as K by (by rewrite E). rewrite !list_lookup_fmap, L1, L2 in K. cbn in K. by injection K.
Qed.
Lemma placed_slots {B} b len (rs : list (Z * B)) n : length rs = n -> rs.*1 = slots b len n -> placed b len rs.
Proof. intros <- H. unfold placed. by rewrite H, slots_seq. Qed.

Section whole.
Context (f32 f64 : Z -> list byte).
Lemma sec_rows {B} d ty n off kind len (f : Z -> wres) (g : Z -> B -> list byte) (rs : list (Z * B)) :
  (forall k, kind_of d ty k = (kind, len, Some f)) -> n = zlen rs -> 0 <= off -> 0 < len -> off + len * zlen rs < 2 ^ 64 ->
  placed off len rs -> (forall o x, (o, x) ∈ rs -> prints f32 f64 (f o) (g o x)) ->
  sec_prints f32 f64 d (mkToc ty n off) (mkSec kind off (map (fun x => g x.1 x.2) rs)).
Proof.
  intros HK -> H0 Hl HL HP HF k. rewrite HK. cbn [fst snd sc_kind sc_offset sc_items tc_offset tc_count tc_type]. split; [reflexivity|]. split; [reflexivity|].
  split; [unfold zlen; by rewrite map_length|]. unfold zlen in *. rewrite Nat2Z.id. eapply items_prints; [exact H0|exact Hl|exact HL| |exact HF]. unfold placed in HP. by rewrite HP, slots_seq.
Qed.

Context (k : cfg) (pl : plan) (ad : list da) (am : list ma) (buf : list byte) (V : view) (label : vvalue -> list byte).
Context (Him : image k pl ad am buf) (Hwf : plan_wf (k_reg k) pl) (Hrg : plan_ranges (k_reg k) pl).
Let r := k_reg k.
Let D := want_dump k buf.
Context (HS : shows D V).
Context (HI : forall v, v ∈ v_values V -> (vv_inst v = None <-> vm_indom (vv_metric v) = -1)).
Context (HL : forall v, v ∈ v_values V -> label v = printed_label v).

Lemma want_fits : (forall o x, du_instances D !! o = Some x -> name_fits D (di_external x)) /\ (forall o x, du_metrics D !! o = Some x -> name_fits D (dm_name x) /\ in_unsigned 32 (dm_unit x)).
Proof.
  assert (forall {A} b len n (dc : Z -> A) o x, section b len n dc !! o = Some x -> x = dc o) as G.
  { intros A b len n dc o x H. unfold section in H. apply elem_of_list_to_map_2, elem_of_list_fmap in H as (o' & [= -> ->] & _). reflexivity. }
  split; intros o x H; apply G in H; subst x.
  - unfold dec_instance, name_fits. cbn [di_external D want_dump du_header want_header hd_version]. destruct (r_version2 (k_reg k)); cbn; congruence.
  - assert (forall nm o, in_unsigned 32 (dm_unit (dec_metric_at nm buf o))) as U.
    { intros nm o'. unfold dec_metric_at. cbn [dm_unit]. unfold u32, in_unsigned. pose proof (le_dec_range (sub (o' + 12) 4 buf)) as HR. split; [lia|]. eapply Z.lt_le_trans; [apply HR|].
      change (2 ^ 32) with (256 ^ 4). apply Z.pow_le_mono_r; [lia|]. unfold sub. rewrite take_length. lia. }
    unfold dec_metric, name_fits. cbn [D want_dump du_header want_header hd_version]. destruct (r_version2 (k_reg k)); cbn [Z.eqb Pos.eqb]; (split; [cbn; congruence|apply U]).
Qed.

Lemma sec_unless {B} (rs : list B) n x sec : n = zlen rs -> sec_prints f32 f64 D (toc_of x) sec ->
  Forall2 (sec_prints f32 f64 D) (map toc_of (if 0 <? n then [x] else [])) (unless_empty rs sec).
Proof using Type.
  clear HS HI HL. intros -> H. destruct rs as [|y rs]; [constructor|]. rewrite zlen_cons. pose proof (zlen_nonneg rs). replace (0 <? 1 + zlen rs) with true by lia.
  cbn. constructor; [exact H|constructor].
Qed.
Lemma placed_nil {B} o len (rs : list (Z * B)) : zlen rs = 0 -> placed o len rs.
Proof using Type. clear -rs. destruct rs; [reflexivity|]. rewrite zlen_cons. pose proof (zlen_nonneg rs). lia. Qed.

Lemma want_text : exists out, Write D = WOk out /\ text_of f32 f64 label D V (flatten f32 f64 out).
Proof.
  pose proof (counts_nonneg k pl Hwf) as (I1 & I2 & I3 & I4 & I5). fold r in I1, I2, I3, I4, I5.
  pose proof (bounds_chain k pl ad am buf Him) as (B0 & B1 & B2 & B3 & B4 & B5). fold r in B0, B1, B2, B3, B4, B5.
  pose proof (Length_bound k pl ad am buf Him Hrg) as HB. fold r in HB.
  assert (stringsoffset r + 256 * StringCount r = Length r) as BL.
  { unfold Length, stringsoffset, valuesoffset, metricsoffset, instanceoffset, indomoffset, StringLength. lia. }
  assert (stringsoffset r = valuesoffset r + 32 * ValuesCount r) as BS by reflexivity.
  assert (valuesoffset r = metricsoffset r + MetricLength r * MetricCount r) as BV by reflexivity.
  assert (metricsoffset r = instanceoffset r + InstanceLength r * InstanceCount r) as BM by reflexivity.
  assert (instanceoffset r = indomoffset r + 32 * InstanceDomainCount r) as BI by reflexivity.
  assert (MetricCount r = 0 -> ValuesCount r = 0) as V0.
  { intros E. pose proof (pf_mets _ _ (pw_fit _ _ Hwf)) as F1. pose proof (pf_vc _ _ (pw_fit _ _ Hwf)) as F2. fold r in F1, F2.
    rewrite <- F2. destruct (pl_mets pl); [reflexivity|]. rewrite zlen_cons in F1. pose proof (zlen_nonneg l). lia. }
  assert (0 < InstanceLength r /\ InstanceLength r = if hd_version (du_header D) =? 1 then 80 else 24) as [LI EI].
  { unfold InstanceLength. cbn [D want_dump du_header want_header hd_version]. fold r. destruct (r_version2 r); split; reflexivity. }
  assert (0 < MetricLength r /\ MetricLength r = if hd_version (du_header D) =? 1 then 104 else 48) as [LM EM].
  { unfold MetricLength. cbn [D want_dump du_header want_header hd_version]. fold r. destruct (r_version2 r); split; reflexivity. }
  destruct want_fits as [FI FM].
  pose proof HS as (S1 & S2 & _ & S4 & S5).
  destruct (rows _ _ (indomoffset r) 32 (Z.to_nat (InstanceDomainCount r)) (dec_indom buf) ltac:(lia) S1) as (ds0 & Nd & Pd & Vd & Fd).
  destruct (rows _ _ (instanceoffset r) (InstanceLength r) (Z.to_nat (InstanceCount r)) (dec_instance (if r_version2 r then 2 else 1) buf) LI S2) as (is & Ni & Pi & Vi & Fi).
  destruct (rows _ _ (metricsoffset r) (MetricLength r) (Z.to_nat (MetricCount r)) (dec_metric (if r_version2 r then 2 else 1) buf) LM S4) as (ms & Nm & Pm & Vm & Fm).
  destruct (rows _ _ (valuesoffset r) 32 (Z.to_nat (ValuesCount r)) (dec_value buf) ltac:(lia) S5) as (vs & Nv & Pv & Vv & Fv).
  change (forall o x, (o, x) ∈ ds0 -> exists y, du_indoms D !! o = Some y /\ res_indom D y = Some x) in Fd.
  change (forall o x, (o, x) ∈ is -> exists y, du_instances D !! o = Some y /\ res_inst D y = Some x) in Fi.
  change (forall o x, (o, x) ∈ ms -> exists y, du_metrics D !! o = Some y /\ res_metric D y = Some x) in Fm.
  change (forall o x, (o, x) ∈ vs -> exists y, du_values D !! o = Some y /\ res_value D y = Some x) in Fv.
  assert (exists st : Z -> Z, forall o y, du_indoms D !! o = Some y -> st o = dd_offset y) as [st Hst].
  { exists (fun o => match du_indoms D !! o with Some y => dd_offset y | None => 0 end). by intros o y ->. }
  set (ds := map (fun x : Z * vindom => (x.1, (st x.1, x.2))) ds0).
  set (ss := map (fun o => (o, dec_string buf o)) (slots (stringsoffset r) 256 (Z.to_nat (StringCount r)))).
  assert (forall o s x, (o, (s, x)) ∈ ds -> exists y, du_indoms D !! o = Some y /\ dd_offset y = s /\ res_indom D y = Some x) as Fd'.
  { intros o s x H. apply elem_of_list_fmap in H as ([o' x'] & E & H). cbn [fst snd] in E. injection E as Ea Eb Ec. destruct (Fd _ _ H) as (y & E1 & E2). exists y. rewrite Ea, Eb, Ec. rewrite (Hst _ _ E1). auto. }
  assert (forall o x, (o, x) ∈ ss <-> du_strings D !! o = Some x) as Fs.
  { intros o x. change (du_strings D) with (section (stringsoffset r) 256 (Z.to_nat (StringCount r)) (dec_string buf)). unfold section. fold ss. apply elem_of_list_to_map.
    unfold ss. rewrite <- list_fmap_compose. change (NoDup (map (fun x => x) (slots (stringsoffset r) 256 (Z.to_nat (StringCount r))))). rewrite map_id. apply slots_NoDup. lia. }
  assert (ds.*1 = ds0.*1) as Eds by (unfold ds; rewrite <- list_fmap_compose; reflexivity).
  assert (ds.*2.*2 = ds0.*2) as Eds2 by (unfold ds; rewrite <- !list_fmap_compose; reflexivity).
  assert (InstanceDomainCount r = zlen ds) as Cd by (unfold zlen, ds; rewrite map_length, Nd; lia).
  assert (InstanceCount r = zlen is) as Ci by (unfold zlen; rewrite Ni; lia).
  assert (MetricCount r = zlen ms) as Cm by (unfold zlen; rewrite Nm; lia).
  assert (ValuesCount r = zlen vs) as Cv by (unfold zlen; rewrite Nv; lia).
  assert (StringCount r = zlen ss) as Cs by (unfold zlen, ss; rewrite map_length, slots_length; lia).
  assert (placed (indomoffset r) 32 ds) as Qd by (eapply placed_slots; [unfold ds; rewrite map_length; exact Nd|by rewrite Eds]).
  assert (placed (instanceoffset r) (InstanceLength r) is) as Qi by (eapply placed_slots; eauto).
  assert (placed (if MetricCount r =? 0 then 0 else metricsoffset r) (MetricLength r) ms) as Qm.
  { destruct (Z.eqb_spec (MetricCount r) 0); [apply placed_nil; lia|eapply placed_slots; eauto]. }
  assert (placed (if MetricCount r =? 0 then 0 else valuesoffset r) 32 vs) as Qv.
  { destruct (Z.eqb_spec (MetricCount r) 0) as [E|E]; [apply placed_nil; rewrite <- Cv; auto|eapply placed_slots; eauto]. }
  assert (placed (stringsoffset r) 256 ss) as Qs.
  { eapply placed_slots; [unfold ss; rewrite map_length; apply slots_length|]. unfold ss. rewrite <- list_fmap_compose. change (map (fun x => x) (slots (stringsoffset r) 256 (Z.to_nat (StringCount r))) = slots (stringsoffset r) 256 (Z.to_nat (StringCount r))). apply map_id. }
  set (secs := unless_empty ds (mkSec (str "indoms") (indomoffset r) (map (fun x => indom_text x.1 x.2.1 x.2.2) ds))
       ++ unless_empty is (mkSec (str "instances") (instanceoffset r) (map (fun x => inst_text x.1 x.2) is))
       ++ [mkSec (str "metric") (if MetricCount r =? 0 then 0 else metricsoffset r) (map (fun x => metric_text x.1 x.2) ms)]
       ++ [mkSec (str "values") (if MetricCount r =? 0 then 0 else valuesoffset r) (map (fun x => value_text f32 f64 label x.1 x.2) vs)]
       ++ unless_empty ss (mkSec (str "strings") (stringsoffset r) (map (fun x => string_text x.1 x.2) ss))).
  assert (Forall2 (sec_prints f32 f64 D) (map toc_of (toc_entries r)) secs) as HF.
  { unfold toc_entries, secs. rewrite !map_app. repeat apply Forall2_app.
    - apply sec_unless; [exact Cd|]. unfold toc_of. cbn [fst snd]. apply (sec_rows D 1 _ _ _ 32 (writeInstanceDomain D) (fun o x => indom_text o x.1 x.2)); [reflexivity|exact Cd|lia|lia|lia|exact Qd|].
      intros o [s x] H. destruct (Fd' _ _ _ H) as (y & E1 & <- & E2). cbn [fst snd]. eapply indom_prints; eauto.
    - apply sec_unless; [exact Ci|]. unfold toc_of. cbn [fst snd]. apply (sec_rows D 2 _ _ _ (InstanceLength r) (writeInstance D) inst_text); [|exact Ci|lia|lia|lia|exact Qi|].
      { intros kk. unfold kind_of, w_inst_len. cbn [Z.eqb TocInstances Pos.eqb]. rewrite EI. reflexivity. }
      intros o x H. destruct (Fi _ _ H) as (y & E1 & E2). eapply inst_prints; eauto.
    - cbn [map]. constructor; [|constructor]. unfold toc_of. cbn [fst snd]. apply (sec_rows D 3 _ _ _ (MetricLength r) (writeMetric D) metric_text); [|exact Cm|destruct (MetricCount r =? 0); lia|lia| |exact Qm|].
      { intros kk. unfold kind_of, w_metric_len. cbn [Z.eqb TocInstances TocIndoms TocMetrics Pos.eqb]. rewrite EM. reflexivity. }
      { destruct (Z.eqb_spec (MetricCount r) 0); lia. }
      intros o x H. destruct (Fm _ _ H) as (y & E1 & E2). eapply metric_prints; eauto; intros; by eapply FM.
    - cbn [map]. constructor; [|constructor]. unfold toc_of. cbn [fst snd]. apply (sec_rows D 4 _ _ _ 32 (writeValue D) (value_text f32 f64 label)); [reflexivity|exact Cv|destruct (MetricCount r =? 0); lia|lia| |exact Qv|].
      { destruct (Z.eqb_spec (MetricCount r) 0); lia. }
      intros o x H. destruct (Fv _ _ H) as (y & E1 & E2). assert (x ∈ v_values V) as Hx by (rewrite <- Vv; apply elem_of_list_fmap; exists (o, x); auto).
      unfold value_text. rewrite (HL _ Hx). eapply value_prints; eauto; intros; by eapply FM.
    - apply sec_unless; [exact Cs|]. unfold toc_of. cbn [fst snd]. apply (sec_rows D 5 _ _ _ 256 (writeString D) string_text); [reflexivity|exact Cs|lia|lia|lia|exact Qs|].
      intros o x H. apply Fs in H. by apply string_prints. }
  assert (prints f32 f64 (Write D) (header_text (du_header D) ++ sections_text secs)) as (out & E & T).
  { unfold Write. apply prints_then; [|exact (sections_prints f32 f64 D _ _ HF 0 ([], 0, None))]. eapply prints_eq; [apply prints_say|reflexivity]. }
  exists out. split; [exact E|]. rewrite T. exists ds, is, ms, vs, ss. do 5 eexists. split; [reflexivity|]. rewrite Eds2, <- EI, <- EM. split_and!; auto.
Qed.
End whole.

(** A value has an instance exactly if its metric has a domain. *)
Lemma want_inst_dom hp r v : heap_ok hp -> reg_ok hp r -> v ∈ v_values (want_view hp r) -> (vv_inst v = None <-> vm_indom (vv_metric v) = -1).
Proof.
  intros Hh Hr H. split; [by apply (want_inst_none hp r)|]. cbn in H. apply elem_of_list_In, in_concat in H as (l & Hl & Hv). apply in_map_iff in Hl as (m & <- & Hm).
  unfold want_values, metric_dom in Hv. destruct (m_body m) as [c|ip cells]; [destruct Hv as [<-|[]]; reflexivity|]. destruct (h_indoms hp !! ip) as [i|] eqn:Ei; [|destruct Hv].
  apply elem_of_list_In, elem_of_list_omap in Hv as (y & _ & Hy). destruct (cells !! y.1); [|done]. cbn in Hy. injection Hy as <-. cbn. intros E. exfalso.
  pose proof (io_id _ (ho_indoms _ Hh _ _ Ei)) as Hid. rewrite Hid in E. destruct (hash_range (id_name i) 22 ltac:(lia)) as [HR _]. unfold PCPInstanceDomainBitLength in E. lia.
Qed.

Lemma synced_text w cid gen pid : w_ok w -> synced w cid gen pid ->
  exists c r buf d out, w_clients w !! cid = Some c /\ w_regs w !! cl_reg c = Some r /\ file_of w c = Some buf /\ Dump buf = DOk d /\
    du_header d = want_hdr (w_heap w) c r gen pid /\ shows d (want_view (w_heap w) r) /\ Write d = WOk out /\
    forall f32 f64 label, (forall v, v ∈ v_values (want_view (w_heap w) r) -> label v = printed_label v) -> text_of f32 f64 label d (want_view (w_heap w) r) (flatten f32 f64 out).
Proof.
  intros W (c & r & wr & ino & pl & ad & am & buf & Hc & Hr & Hmap & Hwr & Hpath & S). exists c, r, buf, (want_dump (start_cfg c r gen pid) buf).
  pose proof (wo_heap _ W) as Hh. pose proof (wo_regs _ W _ _ Hr) as Hro. destruct S as [S1 S2 S3 S4 S5 S6 S7]. cbn in S1, S2.
  pose proof (plan_wf_ok _ _ _ Hh Hro S2 S1) as WF. pose proof (plan_ranges_ok _ _ _ Hh Hro S2 S1) as RG.
  assert (shows (want_dump (start_cfg c r gen pid) buf) (want_view (w_heap w) r)) as SH.
  { eapply shows_veq; [eapply (plan_view_want _ _ _ Hro S2 S1 (start_cfg c r gen pid)); reflexivity|]. eapply view_ok; eauto. }
  assert (forall f32 f64 label, (forall v, v ∈ v_values (want_view (w_heap w) r) -> label v = printed_label v) -> exists out, Write (want_dump (start_cfg c r gen pid) buf) = WOk out /\
    text_of f32 f64 label (want_dump (start_cfg c r gen pid) buf) (want_view (w_heap w) r) (flatten f32 f64 out)) as T.
  { intros f32 f64 label HL. eapply (want_text f32 f64 (start_cfg c r gen pid)); eauto. intros v Hv. eapply want_inst_dom; eauto. }
  destruct (T (fun _ => []) (fun _ => []) printed_label ltac:(auto)) as (out & Ho & _). exists out. split_and!; auto.
  - unfold file_of. rewrite Hpath. exact S5.
  - eapply (dump_ok (start_cfg c r gen pid)); eauto.
  - unfold want_hdr. rewrite <- (sections_count _ _ Hro). reflexivity.
  - intros f32 f64 label HL. destruct (T f32 f64 label HL) as (out' & Ho' & H). rewrite Ho in Ho'. injection Ho' as <-. exact H.
Qed.

(** The domain of a registered value is that of a registered domain name. *)
Lemma want_value_dom hp r v : heap_ok hp -> reg_ok hp r -> v ∈ v_values (want_view hp r) ->
  vm_indom (vv_metric v) = -1 \/ exists n, is_Some (r_indoms r !! n) /\ vm_indom (vv_metric v) = hash n PCPInstanceDomainBitLength.
Proof.
  intros Hh Hr H. cbn in H. apply elem_of_list_In, in_concat in H as (l & Hl & Hv). apply in_map_iff in Hl as (m & <- & Hm).
  unfold want_values, metric_dom in Hv. destruct (m_body m) as [c|ip cells] eqn:Eb; [destruct Hv as [<-|[]]; by left|]. destruct (h_indoms hp !! ip) as [i|] eqn:Ei; [|destruct Hv].
  apply elem_of_list_In, elem_of_list_omap in Hv as (y & _ & Hy). destruct (cells !! y.1); [|done]. cbn in Hy. injection Hy as <-. cbn. right.
  exists (id_name i). split; [|exact (io_id _ (ho_indoms _ Hh _ _ Ei))].
  apply elem_of_list_In in Hm. unfold reg_metrics in Hm. apply elem_of_list_omap in Hm as (mp & Hmp & Em). apply elem_of_list_fmap in Hmp as ([n mp'] & -> & Hmp). apply elem_of_map_to_list in Hmp.
  eapply (ro_doms _ _ Hr); eauto. unfold metric_dom. by rewrite Eb.
Qed.
