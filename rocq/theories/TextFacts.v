(** The text form of a complete file. *)
From Verif Require Import Base BaseFacts Floats GoVal MetricType ByteWriter Hash Units Indom Metrics Registry Prog
  Client Mmvdump Ileave ProgProofs Events StartEvents BufFacts Tiling StartGood StartLayout StartFinal StartDone
  View Sections StartView RegInv Update World OpRuns RegFacts WorldInv Sync FloatFacts ValueFacts MetricFacts SyncLive SyncView Layout
  DumpSched DumpFacts DumpSeq DumpTrunc DumpText.

Definition fine (r : wres) : Prop := exists o, r = WOk o.
Lemma fine_say b : fine (say b).
Proof. eexists; reflexivity. Qed.
Lemma fine_then a b : fine a -> fine b -> fine (a ;;; b).
Proof. intros [x ->] [y ->]. eexists; reflexivity. Qed.
Lemma fine_nil {A} (x : option A) k a : x = Some a -> fine (k a) -> fine (with_nil x k).
Proof. intros -> H. exact H. Qed.
Lemma fine_val v : fine (write_val v).
Proof. destruct v; eexists; reflexivity. Qed.

Lemma shows_rec {A B} (f : A -> option B) (m : gmap Z A) (l : list B) o x : map f (recs m) ≡ₚ map Some l -> m !! o = Some x -> exists y, f x = Some y /\ y ∈ l.
Proof.
  intros H E. assert (x ∈ recs m) as Hx by (unfold recs; apply elem_of_list_fmap; exists (o, x); split; [done|]; by apply elem_of_map_to_list).
  assert (f x ∈ map Some l) as Hf by (rewrite <- H; apply elem_of_list_fmap; eauto). apply elem_of_list_fmap in Hf as (y & E1 & E2). eauto.
Qed.

Section text.
Context (d : dump) (V : view).
Context (HV : hd_version (du_header d) = 1 \/ hd_version (du_header d) = 2).
Context (HS : shows d V).
(** Values without instance belong to metrics without domain. *)
Context (HI : forall v, v ∈ v_values V -> vv_inst v = None -> vm_indom (vv_metric v) = -1).
(** The form of the names fits the version. *)
Definition name_fits (n : nameref) : Prop := match n with NInline _ => hd_version (du_header d) = 1 | NOffset _ => hd_version (du_header d) <> 1 end.
Context (HNi : forall o x, du_instances d !! o = Some x -> name_fits (di_external x)).
Context (HNm : forall o x, du_metrics d !! o = Some x -> name_fits (dm_name x)).

Lemma name_ok n b : name_fits n -> res_name d n = Some b -> name_of d n = Some b.
Proof. unfold name_of. destruct n; cbn; intros H; [rewrite H; done|]. by destruct (Z.eqb_spec (hd_version (du_header d)) 1). Qed.
Lemma text_fine label o t : res_text d o = Some t -> fine (write_text d label o).
Proof.
  unfold res_text, write_text. destruct (o =? 0); [intros; apply fine_say|]. unfold string_at. destruct (du_strings d !! o) eqn:E; [|done]. intros _. apply fine_say.
Qed.

Lemma instance_fine o x : du_instances d !! o = Some x -> fine (writeInstance d o).
Proof.
  intros E. destruct HS as (_ & S & _). destruct (shows_rec _ _ _ _ _ S E) as (y & Ey & _). unfold res_inst in Ey.
  destruct (negb (di_padding x =? 0)); [done|].
  destruct (du_indoms d !! di_indom x) as [dom|] eqn:Ed; [|done]. destruct (res_name d (di_external x)) as [n|] eqn:En; [|done].
  eapply fine_nil; [exact E|]. eapply fine_nil; [apply name_ok; eauto|]. eapply fine_nil; [exact Ed|]. apply fine_say.
Qed.
Lemma indom_fine o x : du_indoms d !! o = Some x -> fine (writeInstanceDomain d o).
Proof.
  intros E. destruct HS as (S & _). destruct (shows_rec _ _ _ _ _ S E) as (y & Ey & _). unfold res_indom in Ey.
  destruct (res_text d (dd_short x)) as [a|] eqn:Ea; [|done]. destruct (res_text d (dd_long x)) as [b|] eqn:Eb; [|done].
  eapply fine_nil; [exact E|]. apply fine_then; [apply fine_say|]. apply fine_then; eapply text_fine; eauto.
Qed.
Lemma metric_res o x : du_metrics d !! o = Some x -> exists n a b, res_name d (dm_name x) = Some n /\ res_text d (dm_short x) = Some a /\ res_text d (dm_long x) = Some b.
Proof.
  intros E. destruct HS as (_ & _ & _ & S & _). destruct (shows_rec _ _ _ _ _ S E) as (y & Ey & _). unfold res_metric in Ey.
  destruct (negb (dm_padding x =? 0)); [done|].
  destruct (res_name d (dm_name x)) as [n|] eqn:En; [|done]. cbn in Ey. destruct (res_text d (dm_short x)) as [a|] eqn:Ea; [|done]. cbn in Ey. destruct (res_text d (dm_long x)) as [b|] eqn:Eb; [|done]. eauto 10.
Qed.
Lemma metric_fine o x : du_metrics d !! o = Some x -> fine (writeMetric d o).
Proof.
  intros E. destruct (metric_res _ _ E) as (n & a & b & En & Ea & Eb). eapply fine_nil; [exact E|]. eapply fine_nil; [apply name_ok; eauto|].
  repeat (apply fine_then; [apply fine_say|]). apply fine_then; eapply text_fine; eauto.
Qed.
Lemma value_fine o x : du_values d !! o = Some x -> fine (writeValue d o).
Proof.
  intros E. destruct HS as (_ & _ & _ & _ & S). destruct (shows_rec _ _ _ _ _ S E) as (y & Ey & Hy). unfold res_value in Ey.
  destruct (du_metrics d !! dv_metric x) as [m|] eqn:Em; [|done]. cbn in Ey. destruct (res_metric d m) as [vm|] eqn:Evm; [|done]. cbn in Ey.
  destruct (if dv_instance x =? 0 then _ else _) as [i|] eqn:Ei; [|done]. cbn in Ey. destruct (res_val d (dm_type m) x) as [v|] eqn:Ev; [|done]. cbn in Ey. injection Ey as <-.
  destruct (metric_res _ _ Em) as (n & a & b & En & _). eapply fine_nil; [exact E|]. eapply fine_nil; [exact Em|]. eapply fine_nil; [apply name_ok; eauto|].
  apply fine_then; [apply fine_say|]. assert ((if dm_type m =? 6 then s ← du_strings d !! to_unsigned 64 (dv_extra x); Some (VStr s) else FixedVal (dv_val x) (dm_type m)) = Some v) as Ev'.
  { unfold res_val, string_at in Ev. destruct (dm_type m =? 6); [by destruct (dv_val x =? 255)|by destruct (dv_extra x =? 0)]. }
  destruct (if dm_type m =? 6 then _ else _) as [g|] eqn:Eg; [|by rewrite Ev' in Eg]. apply fine_then; [|apply fine_then; [apply fine_say|apply fine_then; [apply fine_val|apply fine_say]]].
  destruct (negb (dm_indom m =? -1) && negb (dm_indom m =? 0)) eqn:Ed; [|eexists; reflexivity]. apply andb_prop in Ed as [Ed _]. apply negb_true_iff, Z.eqb_neq in Ed.
  destruct (dv_instance x =? 0) eqn:E0.
  - injection Ei as <-. exfalso. apply Ed. specialize (HI _ Hy eq_refl). cbn in HI. unfold res_metric in Evm.
    destruct (negb (dm_padding m =? 0)); [done|].
    destruct (res_name d (dm_name m)); [|done]. cbn in Evm. destruct (res_text d (dm_short m)); [|done]. cbn in Evm. destruct (res_text d (dm_long m)); [|done]. cbn in Evm. injection Evm as <-. exact HI.
  - destruct (du_instances d !! dv_instance x) as [ins|] eqn:Eins; [|done]. cbn in Ei. eapply fine_nil; [reflexivity|]. 
    destruct (res_inst d ins) as [vi|] eqn:Evi; [|done]. unfold res_inst in Evi. destruct (negb (di_padding ins =? 0)); [done|]. destruct (du_indoms d !! di_indom ins); [|done]. cbn in Evi. destruct (res_name d (di_external ins)) as [iname|] eqn:Ein; [|done].
    eapply fine_nil; [apply name_ok; eauto|]. apply fine_say.
Qed.
Lemma string_fine o x : du_strings d !! o = Some x -> fine (writeString d o).
Proof. intros E. eapply fine_nil; [exact E|]. apply fine_say. Qed.

Lemma items_fine f size n : forall off, (forall o, o ∈ item_offs off size n -> fine (f o)) -> fine (write_items (Some f) off size n).
Proof.
  induction n as [|n IH]; intros off H; cbn [write_items]; [eexists; reflexivity|]. apply fine_then; [apply H; by left|]. apply IH. intros o Ho. apply H. by right.
Qed.
Lemma inst_len_eq : w_inst_len d = d_inst_len (hd_version (du_header d)).
Proof. unfold w_inst_len, d_inst_len. destruct HV as [-> | ->]; reflexivity. Qed.
Lemma metric_len_eq : w_metric_len d = d_metric_len (hd_version (du_header d)).
Proof. unfold w_metric_len, d_metric_len. destruct HV as [-> | ->]; reflexivity. Qed.

Lemma section_fine data t k : dump_spec data (du_header d) (du_tocs d) d -> sect_ok data (hd_version (du_header d)) t -> t ∈ du_tocs d ->
  fine (write_items (kind_of d (tc_type t) k).2 (tc_offset t) (kind_of d (tc_type t) k).1.2 (Z.to_nat (tc_count t))).
Proof.
  intros SP (K & C & G) Ht. 
  assert (forall o, o ∈ sect_offs (hd_version (du_header d)) t -> rd data (hd_version (du_header d)) t o = IOk (dec_item (hd_version (du_header d)) (tc_type t) data o)) as GV.
  { intros o Ho. destruct (G o Ho) as [x Ex]. rewrite Ex. unfold rd, read_item, read_at in Ex. repeat case_match; congruence. }
  unfold sect_offs in *. unfold kind_of. apply known_cases in K as [K|[K|[K|[K|K]]]]; rewrite K in *; cbn [Z.eqb TocInstances TocIndoms TocMetrics TocValues TocStrings Pos.eqb fst snd];
    rewrite ?inst_len_eq, ?metric_len_eq; apply items_fine; intros o Ho.
  - eapply instance_fine. apply (dsp_instances _ _ _ _ SP). exists t. eexists. split; [exact Ht|]. split; [exact K|]. split; [unfold sect_offs; rewrite K; exact Ho|]. split; [apply GV, Ho|reflexivity].
  - eapply indom_fine. apply (dsp_indoms _ _ _ _ SP). exists t. eexists. split; [exact Ht|]. split; [exact K|]. split; [unfold sect_offs; rewrite K; exact Ho|]. split; [apply GV, Ho|reflexivity].
  - eapply metric_fine. apply (dsp_metrics _ _ _ _ SP). exists t. eexists. split; [exact Ht|]. split; [exact K|]. split; [unfold sect_offs; rewrite K; exact Ho|]. split; [apply GV, Ho|reflexivity].
  - eapply value_fine. apply (dsp_values _ _ _ _ SP). exists t. eexists. split; [exact Ht|]. split; [exact K|]. split; [unfold sect_offs; rewrite K; exact Ho|]. split; [apply GV, Ho|reflexivity].
  - eapply string_fine. apply (dsp_strings _ _ _ _ SP). exists t. eexists. split; [exact Ht|]. split; [exact K|]. split; [unfold sect_offs; rewrite K; exact Ho|]. split; [apply GV, Ho|reflexivity].
Qed.
Lemma sections_fine data tocs : dump_spec data (du_header d) (du_tocs d) d -> Forall (sect_ok data (hd_version (du_header d))) (du_tocs d) ->
  (forall t, t ∈ tocs -> t ∈ du_tocs d) -> forall ti toff k, fine (write_sections d ti toff k tocs).
Proof.
  intros SP F. rewrite Forall_forall in F. induction tocs as [|t tocs IH]; intros Hin ti toff k; cbn [write_sections]; [eexists; reflexivity|].
  assert (t ∈ du_tocs d) as Ht by (apply Hin; by left). apply fine_then; [apply fine_say|]. apply fine_then; [eapply section_fine; eauto|]. apply fine_then; [apply fine_say|].
  apply IH. intros t' Ht'. apply Hin. by right.
Qed.
Lemma write_fine data : dump_spec data (du_header d) (du_tocs d) d -> Forall (sect_ok data (hd_version (du_header d))) (du_tocs d) -> fine (Write d).
Proof. intros SP F. unfold Write. apply fine_then; [apply fine_say|]. eapply sections_fine; eauto. Qed.
End text.

Lemma want_inst_none hp r v : v ∈ v_values (want_view hp r) -> vv_inst v = None -> vm_indom (vv_metric v) = -1.
Proof.
  cbn. intros H E. apply elem_of_list_In, in_concat in H as (l & Hl & Hv). apply in_map_iff in Hl as (m & <- & Hm). unfold want_values, metric_dom in Hv.
  destruct (m_body m) as [c|ip cells]; [destruct Hv as [<-|[]]; reflexivity|]. destruct (h_indoms hp !! ip) as [i|]; [|destruct Hv].
  apply elem_of_list_In, elem_of_list_omap in Hv as (y & _ & Hy). destruct (cells !! y.1); [|done]. cbn in Hy. injection Hy as <-. done.
Qed.
Lemma names_fit_spec data d : dump_spec data (du_header d) (du_tocs d) d ->
  (forall o x, du_instances d !! o = Some x -> name_fits d (di_external x)) /\ (forall o x, du_metrics d !! o = Some x -> name_fits d (dm_name x)).
Proof.
  intros SP. assert (forall t o it, rd data (hd_version (du_header d)) t o = IOk it -> it = dec_item (hd_version (du_header d)) (tc_type t) data o) as GV.
  { intros t o it Ex. unfold rd, read_item, read_at in Ex. repeat case_match; congruence. }
  split; intros o x E.
  - apply (dsp_instances _ _ _ _ SP) in E as (t & it & _ & K & _ & R & A). rewrite (GV _ _ _ R), K in A. cbn in A. injection A as <-. cbn. unfold name_fits.
    by destruct (Z.eqb_spec (hd_version (du_header d)) 1).
  - apply (dsp_metrics _ _ _ _ SP) in E as (t & it & _ & K & _ & R & A). rewrite (GV _ _ _ R), K in A. cbn in A. injection A as <-. unfold dec_metric, name_fits.
    by destruct (Z.eqb_spec (hd_version (du_header d)) 1).
Qed.
Lemma complete_write buf d V : complete buf d -> shows d V -> (forall v, v ∈ v_values V -> vv_inst v = None -> vm_indom (vv_metric v) = -1) -> fine (Write d).
Proof.
  intros [HD HA HV HT HS] SH HI. pose proof (dump_inv_tocs _ _ HD) as EDT. destruct (seq_ok _ _ _ _ EDT HT HD) as [SO SP].
  destruct (names_fit_spec _ _ SP). eapply write_fine; eauto.
Qed.
