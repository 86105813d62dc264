(** The sequential reader of Mmvdump.v against the schedules of DumpSched.v. *)
From Verif Require Import Base BaseFacts Floats GoVal Mmvdump DumpSched DumpFacts.

Lemma read_at_dec {A B} len (dec : list byte -> Z -> A) (dec' : list byte -> Z -> B) data o :
  read_at len dec data o = match read_at len dec' data o with IOk _ => IOk (dec data o) | IErr => IErr | IPanic => IPanic end.
Proof. unfold read_at. by repeat case_match. Qed.

Section seq.
Context (data : list byte) (version : Z).

(** One result variable. *)
Record slot {A} (ty len : Z) (dec : list byte -> Z -> A) (as_x : ditem -> option A) (proj : comps -> ires (gmap Z A)) : Prop := {
  sl_len : item_len version ty = len;
  sl_as : forall o, as_x (dec_item version ty data o) = Some (dec data o);
  sl_init : proj no_comps = IOk ∅;
  sl_step : forall c t, proj (read_component data version c t) =
    if tc_type t =? ty then readItems (tc_offset t) (tc_count t) len (read_at len dec data) else proj c }.
Lemma slot_instances : slot TocInstances (d_inst_len version) (dec_instance version) as_instance co_instances.
Proof. split; try done. intros c t. unfold read_component. by repeat (case_match; [reflexivity|]). Qed.
Ltac slot_tac := split; try done; intros c [ty cnt off]; unfold read_component; cbn [tc_type tc_count tc_offset];
  repeat match goal with |- context [ty =? ?k] => destruct (Z.eqb_spec ty k) as [->|]; [reflexivity|] end; reflexivity.
Lemma slot_indoms : slot TocIndoms DInstanceDomainLength dec_indom as_indom co_indoms.
Proof. slot_tac. Qed.
Lemma slot_metrics : slot TocMetrics (d_metric_len version) (dec_metric version) as_metric co_metrics.
Proof. slot_tac. Qed.
Lemma slot_values : slot TocValues DValueLength dec_value as_value co_values.
Proof. slot_tac. Qed.
Lemma slot_strings : slot TocStrings DStringLength dec_string as_string co_strings.
Proof. slot_tac. Qed.

Context {A : Type} (ty len : Z) (dec : list byte -> Z -> A) (as_x : ditem -> option A) (proj : comps -> ires (gmap Z A)).
Context (SL : slot ty len dec as_x proj).

Lemma fold_other tocs : forall c, (forall t, t ∈ tocs -> tc_type t <> ty) -> proj (foldl (read_component data version) c tocs) = proj c.
Proof.
  induction tocs as [|t tocs IH]; intros c H; [done|]. cbn [foldl]. rewrite IH by (intros; apply H; by right). rewrite (sl_step _ _ _ _ _ SL).
  destruct (tc_type t =? ty) eqn:E; [|done]. apply Z.eqb_eq in E. destruct (H t); [by left|done].
Qed.
Lemma fold_this tocs : forall c t, NoDup (map tc_type tocs) -> t ∈ tocs -> tc_type t = ty ->
  proj (foldl (read_component data version) c tocs) = readItems (tc_offset t) (tc_count t) len (read_at len dec data).
Proof.
  induction tocs as [|t' tocs IH]; intros c t ND Ht Hty; [by apply elem_of_nil in Ht|]. cbn [foldl map] in *. apply NoDup_cons in ND as [N1 N2].
  apply elem_of_cons in Ht as [->|Ht]; [|by apply IH].
  rewrite fold_other.
  - rewrite (sl_step _ _ _ _ _ SL). rewrite (proj2 (Z.eqb_eq _ _) Hty). done.
  - intros t Ht E. apply N1. rewrite Hty, <- E. apply elem_of_list_fmap. eauto.
Qed.
Lemma rd_slot t o : tc_type t = ty -> read_at len dec data o = match rd data version t o with IOk _ => IOk (dec data o) | IErr => IErr | IPanic => IPanic end.
Proof. intros <-. unfold rd, read_item. rewrite (sl_len _ _ _ _ _ SL). apply read_at_dec. Qed.
Lemma rd_val t o it : tc_type t = ty -> rd data version t o = IOk it -> it = dec_item version ty data o.
Proof. intros <-. unfold rd, read_item, read_at. repeat case_match; congruence. Qed.
Lemma offs_slot t : tc_type t = ty -> sect_offs version t = item_offs (tc_offset t) len (Z.to_nat (tc_count t)).
Proof. intros <-. unfold sect_offs. by rewrite (sl_len _ _ _ _ _ SL). Qed.

Lemma find_type (tocs : list toc) : {t | t ∈ tocs /\ tc_type t = ty} + {forall t, t ∈ tocs -> tc_type t <> ty}.
Proof.
  induction tocs as [|t tocs [[t' [H1 H2]]|H]].
  - right. intros t Ht. by apply elem_of_nil in Ht.
  - left. exists t'. split; [by right|done].
  - destruct (decide (tc_type t = ty)); [left; exists t; split; [by left|done]|]. right. intros t' Ht'. apply elem_of_cons in Ht' as [->|?]; auto.
Qed.
Lemma type_unique (tocs : list toc) t t' : NoDup (map tc_type tocs) -> t ∈ tocs -> t' ∈ tocs -> tc_type t = tc_type t' -> t = t'.
Proof.
  induction tocs as [|a tocs IH]; intros ND H1 H2 E; [by apply elem_of_nil in H1|]. cbn [map] in ND. apply NoDup_cons in ND as [N1 N2].
  apply elem_of_cons in H1 as [->|H1].
  - apply elem_of_cons in H2 as [->|H2]; [done|]. destruct N1. rewrite E. apply elem_of_list_fmap. eauto.
  - apply elem_of_cons in H2 as [->|H2]; [|auto]. destruct N1. rewrite <- E. apply elem_of_list_fmap. eauto.
Qed.

Lemma slot_ok tocs m : NoDup (map tc_type tocs) -> proj (readComponents data tocs version) = IOk m ->
  tmap data version tocs ty as_x m /\ forall t, t ∈ tocs -> tc_type t = ty -> 0 <= tc_count t /\ forall o, o ∈ sect_offs version t -> exists x, rd data version t o = IOk x.
Proof.
  intros ND H. unfold readComponents in H. destruct (find_type tocs) as [(t & Ht & Hty)|HN].
  - rewrite (fold_this tocs no_comps t ND Ht Hty) in H. unfold readItems in H. destruct (tc_count t <? 0) eqn:Ec; [discriminate|]. apply Z.ltb_ge in Ec.
    apply read_items_n_spec in H as [F H]. rewrite <- offs_slot in F, H by done. rewrite Forall_forall in F.
    assert (forall o, o ∈ sect_offs version t -> exists x, rd data version t o = IOk x) as G.
    { intros o Ho. destruct (F o Ho) as [x E]. rewrite (rd_slot t o Hty) in E. destruct (rd data version t o); try discriminate. eauto. }
    split.
    + intros o x. rewrite H, lookup_empty. split.
      * intros [[Ho E]|[_ ?]]; [|done]. destruct (G o Ho) as [it Eit]. exists t, it. split_and!; auto. rewrite (rd_val t o it Hty Eit), (sl_as _ _ _ _ _ SL).
        rewrite (rd_slot t o Hty), Eit in E. congruence.
      * intros (t' & it & T1 & T2 & T3 & T4 & T5). assert (t' = t) as -> by (apply (type_unique tocs); auto; congruence). left. split; [done|].
        rewrite (rd_slot t o Hty), T4. rewrite (rd_val t o it Hty T4), (sl_as _ _ _ _ _ SL) in T5. congruence.
    + intros t' T1 T2. assert (t' = t) as -> by (apply (type_unique tocs); auto; congruence). auto.
  - rewrite fold_other, (sl_init _ _ _ _ _ SL) in H by done. injection H as <-. split; [|intros t T1 T2; by destruct (HN t T1)].
    intros o x. rewrite lookup_empty. split; [done|]. intros (t & it & T1 & T2 & _). by destruct (HN t T1).
Qed.
Lemma slot_conv tocs : NoDup (map tc_type tocs) -> (forall t, t ∈ tocs -> sect_ok data version t) -> exists m, proj (readComponents data tocs version) = IOk m.
Proof.
  intros ND H. unfold readComponents. destruct (find_type tocs) as [(t & Ht & Hty)|HN].
  - rewrite (fold_this tocs no_comps t ND Ht Hty). destruct (H t Ht) as (_ & C & G). unfold readItems. replace (tc_count t <? 0) with false by lia.
    apply read_items_n_conv. rewrite <- offs_slot by done. apply Forall_forall. intros o Ho. destruct (G o Ho) as [it E]. rewrite (rd_slot t o Hty), E. eauto.
  - rewrite fold_other, (sl_init _ _ _ _ _ SL) by done. eauto.
Qed.
End seq.

(** Panics and unknown types of the sequential reader. *)
Section flags.
Context (data : list byte) (version : Z).
Lemma unknown_flag tocs : forall c, co_unknown (foldl (read_component data version) c tocs) = false ->
  co_unknown c = false /\ Forall (fun t => known_type (tc_type t) = true) tocs.
Proof.
  induction tocs as [|t tocs IH]; intros c H; [auto|]. cbn [foldl] in H. apply IH in H as [H1 H2].
  assert (co_unknown c = false /\ known_type (tc_type t) = true) as [? ?]; [|auto].
  clear -H1. unfold read_component in H1. unfold known_type.
  destruct (tc_type t =? TocInstances) eqn:E1; [done|]. destruct (tc_type t =? TocIndoms) eqn:E2; [done|]. destruct (tc_type t =? TocMetrics) eqn:E3; [done|].
  destruct (tc_type t =? TocValues) eqn:E4; [done|]. destruct (tc_type t =? TocStrings) eqn:E5; done.
Qed.
Lemma unknown_flag_conv tocs : forall c, co_unknown c = false -> Forall (fun t => known_type (tc_type t) = true) tocs -> co_unknown (foldl (read_component data version) c tocs) = false.
Proof.
  induction tocs as [|t tocs IH]; intros c H F; [auto|]. cbn [foldl]. apply Forall_cons_1 in F as [F1 F2]. apply IH; [|done].
  unfold known_type in F1. unfold read_component.
  destruct (tc_type t =? TocInstances) eqn:E1; [done|]. destruct (tc_type t =? TocIndoms) eqn:E2; [done|]. destruct (tc_type t =? TocMetrics) eqn:E3; [done|].
  destruct (tc_type t =? TocValues) eqn:E4; [done|]. destruct (tc_type t =? TocStrings) eqn:E5; done.
Qed.
Lemma read_items_safe {A} len (dec : list byte -> Z -> A) t : item_len version (tc_type t) = len -> sect_safe data version t ->
  is_ipanic (readItems (tc_offset t) (tc_count t) len (read_at len dec data)) = false.
Proof.
  intros El (_ & C & G). unfold readItems. replace (tc_count t <? 0) with false by lia.
  pose proof (read_items_n_err (read_at len dec data) len (Z.to_nat (tc_count t)) (tc_offset t) ∅) as P.
  destruct (read_items_n _ _ _ _ _) eqn:E; try done. destruct P; [|done]. intros o Ho Ep.
  apply (G o); [unfold sect_offs; by rewrite El|]. unfold rd, read_item. rewrite El. rewrite (read_at_dec _ _ dec), Ep. done.
Qed.
Lemma panic_flag tocs : forall c, co_panic c = false -> Forall (sect_safe data version) tocs -> co_panic (foldl (read_component data version) c tocs) = false.
Proof.
  induction tocs as [|t tocs IH]; intros c H F; [auto|]. cbn [foldl]. apply Forall_cons_1 in F as [F1 F2]. apply IH; [|done].
  unfold read_component.
  destruct (tc_type t =? TocInstances) eqn:E1; [|destruct (tc_type t =? TocIndoms) eqn:E2; [|destruct (tc_type t =? TocMetrics) eqn:E3; [|destruct (tc_type t =? TocValues) eqn:E4; [|destruct (tc_type t =? TocStrings) eqn:E5; [|done]]]]];
    cbn [co_panic]; rewrite H; cbn [orb]; (apply read_items_safe; [|done]); unfold item_len; by rewrite ?E1, ?E2, ?E3, ?E4.
Qed.
End flags.

Definition dump_tocs (data : list byte) : option (header * list toc) :=
  match readHeader data with
  | Some h => if hd_toc h <? 0 then None else
      match read_tocs data DHeaderLength (Z.to_nat (hd_toc h)) with Some tocs => Some (h, tocs) | None => None end
  | None => None
  end.

(** The sequential reader succeeds exactly when every item is readable. *)
Lemma seq_ok data h tocs d : dump_tocs data = Some (h, tocs) -> NoDup (map tc_type tocs) -> Dump data = DOk d ->
  Forall (sect_ok data (hd_version h)) tocs /\ dump_spec data h tocs d.
Proof.
  unfold dump_tocs, Dump. destruct (readHeader data) as [h'|] eqn:Eh; [|done]. destruct (hd_toc h' <? 0) eqn:Ec; [done|].
  destruct (read_tocs data DHeaderLength (Z.to_nat (hd_toc h'))) as [tocs'|] eqn:Et; [|done]. intros [= -> ->] ND.
  set (c := readComponents data tocs (hd_version h)). destruct (co_panic c) eqn:Ep; [done|]. destruct (co_unknown c) eqn:Eu; [done|].
  destruct (co_metrics c) eqn:E1; try done. destruct (co_values c) eqn:E2; try done. destruct (co_instances c) eqn:E3; try done.
  destruct (co_indoms c) eqn:E4; try done. destruct (co_strings c) eqn:E5; try done. intros [= <-].
  apply (slot_ok _ _ _ _ _ _ _ (slot_metrics data _)) in E1 as [M1 O1]; [|done].
  apply (slot_ok _ _ _ _ _ _ _ (slot_values data _)) in E2 as [M2 O2]; [|done].
  apply (slot_ok _ _ _ _ _ _ _ (slot_instances data _)) in E3 as [M3 O3]; [|done].
  apply (slot_ok _ _ _ _ _ _ _ (slot_indoms data _)) in E4 as [M4 O4]; [|done].
  apply (slot_ok _ _ _ _ _ _ _ (slot_strings data _)) in E5 as [M5 O5]; [|done].
  apply unknown_flag in Eu as [_ K]. rewrite Forall_forall in K. split; [|split; done].
  apply Forall_forall. intros t Ht. specialize (K t Ht). split; [done|]. apply known_cases in K as [K|[K|[K|[K|K]]]]; auto.
Qed.
Lemma seq_conv data h tocs : dump_tocs data = Some (h, tocs) -> NoDup (map tc_type tocs) -> Forall (sect_ok data (hd_version h)) tocs -> exists d, Dump data = DOk d.
Proof.
  unfold dump_tocs, Dump. destruct (readHeader data) as [h'|] eqn:Eh; [|done]. destruct (hd_toc h' <? 0) eqn:Ec; [done|].
  destruct (read_tocs data DHeaderLength (Z.to_nat (hd_toc h'))) as [tocs'|] eqn:Et; [|done]. intros [= -> ->] ND F.
  set (c := readComponents data tocs (hd_version h)).
  assert (co_panic c = false) as -> by (apply panic_flag; [done|]; eapply Forall_impl; [done|apply sect_ok_safe]).
  assert (co_unknown c = false) as -> by (apply unknown_flag_conv; [done|]; eapply Forall_impl; [done|]; by intros t (? & _)).
  rewrite Forall_forall in F.
  destruct (slot_conv _ _ _ _ _ _ _ (slot_metrics data _) tocs ND F) as [m1 E1]. destruct (slot_conv _ _ _ _ _ _ _ (slot_values data _) tocs ND F) as [m2 E2].
  destruct (slot_conv _ _ _ _ _ _ _ (slot_instances data _) tocs ND F) as [m3 E3]. destruct (slot_conv _ _ _ _ _ _ _ (slot_indoms data _) tocs ND F) as [m4 E4].
  destruct (slot_conv _ _ _ _ _ _ _ (slot_strings data _) tocs ND F) as [m5 E5]. fold c in E1, E2, E3, E4, E5. rewrite E1, E2, E3, E4, E5. eauto.
Qed.
Lemma seq_safe data h tocs : dump_tocs data = Some (h, tocs) -> Forall (sect_safe data (hd_version h)) tocs -> Dump data = DErr \/ exists d, Dump data = DOk d.
Proof.
  unfold dump_tocs, Dump. destruct (readHeader data) as [h'|] eqn:Eh; [|done]. destruct (hd_toc h' <? 0) eqn:Ec; [done|].
  destruct (read_tocs data DHeaderLength (Z.to_nat (hd_toc h'))) as [tocs'|] eqn:Et; [|done]. intros [= -> ->] F.
  set (c := readComponents data tocs (hd_version h)).
  assert (co_panic c = false) as -> by (by apply panic_flag).
  assert (co_unknown c = false) as -> by (apply unknown_flag_conv; [done|]; eapply Forall_impl; [done|]; by intros t (? & _)).
  destruct (co_metrics c), (co_values c), (co_instances c), (co_indoms c), (co_strings c); eauto.
Qed.

(** ** All schedules *)
Lemma tocs_run data h tocs o : dump_tocs data = Some (h, tocs) -> dump_run data o ->
  (exists ss res, rtc (dstep data (hd_version h)) (dinit tocs) (DRun ss res) /\ all_returned ss /\ o = dresult h tocs res) \/
  (rtc (dstep data (hd_version h)) (dinit tocs) DCrash /\ o = DPanic) \/
  (exists ss res, rtc (dstep data (hd_version h)) (dinit tocs) (DRun ss res) /\ ~ all_returned ss /\ (forall x, ~ dstep data (hd_version h) (DRun ss res) x) /\ o = DHang).
Proof.
  unfold dump_tocs. intros H R.
  destruct R as [E|h' E C|h' E C Et|h' tocs' ss res E C Et HR A|h' tocs' E C Et HR|h' tocs' ss res E C Et HR A HN]; rewrite E in H; [done| | | | |].
  - by rewrite (proj2 (Z.ltb_lt _ _) C) in H.
  - rewrite (proj2 (Z.ltb_ge _ _) C), Et in H. done.
  - rewrite (proj2 (Z.ltb_ge _ _) C), Et in H. injection H as -> ->. left. eauto.
  - rewrite (proj2 (Z.ltb_ge _ _) C), Et in H. injection H as -> ->. right; left. eauto.
  - rewrite (proj2 (Z.ltb_ge _ _) C), Et in H. injection H as -> ->. right; right. exists ss, res. auto.
Qed.
Lemma no_tocs_run data o : dump_tocs data = None -> dump_run data o -> o = Dump data.
Proof.
  unfold dump_tocs, Dump. intros H R.
  destruct R as [E|h' E C|h' E C Et|h' tocs' ss res E C Et HR A|h' tocs' E C Et HR|h' tocs' ss res E C Et HR A HN]; rewrite E in *; [done|rewrite (proj2 (Z.ltb_lt _ _) C) in *; done|..];
    rewrite (proj2 (Z.ltb_ge _ _) C), Et in *; try discriminate; done.
Qed.
Lemma run_ok_seq data h tocs d : dump_tocs data = Some (h, tocs) -> NoDup (map tc_type tocs) -> dump_run data (DOk d) -> Dump data = DOk d.
Proof.
  intros H ND R. destruct (tocs_run _ _ _ _ H R) as [(ss & res & R1 & R2 & R3)|[[_ ?]|(? & ? & _ & _ & _ & ?)]]; try discriminate.
  pose proof (run_done _ _ _ _ _ R1 R2 ND) as D. rewrite <- R3 in D. destruct D as [F S]. destruct (seq_conv _ _ _ H ND F) as [d' E].
  destruct (seq_ok _ _ _ _ H ND E) as [_ S']. by rewrite (dump_spec_unique _ _ _ _ _ S S').
Qed.
Lemma seq_ok_run data h tocs d o : dump_tocs data = Some (h, tocs) -> NoDup (map tc_type tocs) -> Dump data = DOk d -> dump_run data o -> o = DOk d.
Proof.
  intros H ND E R. destruct (seq_ok _ _ _ _ H ND E) as [F S].
  destruct (tocs_run _ _ _ _ H R) as [(ss & res & R1 & R2 & ->)|[[R1 _]|(ss & res & R1 & R2 & R3 & ->)]].
  - pose proof (run_done _ _ _ _ _ R1 R2 ND) as D. destruct (dresult h tocs res) as [d'| | |]; try done.
    + destruct D as [_ S']. by rewrite (dump_spec_unique _ _ _ _ _ S S').
    + destruct D as (t & o & T1 & T2 & T3). rewrite Forall_forall in F. destruct (F t T1) as (_ & _ & G). destruct (G o T2) as [x Ex]. congruence.
  - exfalso. eapply no_crash; [|exact R1]. eapply Forall_impl; [done|apply sect_ok_safe].
  - exfalso. destruct (no_hang data (hd_version h) tocs ss res) as [y Hy]; auto; [|by apply (R3 y)]. eapply Forall_impl; [done|]. by intros t (? & _).
Qed.
Lemma safe_run data h tocs o : dump_tocs data = Some (h, tocs) -> NoDup (map tc_type tocs) -> Forall (sect_safe data (hd_version h)) tocs -> dump_run data o -> o = Dump data.
Proof.
  intros H ND F R. destruct (seq_safe _ _ _ H F) as [E|[d E]]; [|rewrite E; by eapply seq_ok_run].
  destruct (tocs_run _ _ _ _ H R) as [(ss & res & R1 & R2 & Ho)|[[R1 _]|(ss & res & R1 & R2 & R3 & ->)]].
  - destruct o as [d| | |]; [|congruence|by pose proof (run_done _ _ _ _ _ R1 R2 ND) as D; rewrite <- Ho in D..]. symmetry. by eapply run_ok_seq.
  - exfalso. by eapply no_crash.
  - exfalso. destruct (no_hang data (hd_version h) tocs ss res) as [y Hy]; auto; [|by apply (R3 y)]. eapply Forall_impl; [done|]. by intros t (? & _).
Qed.
(** Without the assumption on types the outcome is still a dump or an error. *)
Lemma safe_outcome data h tocs o : dump_tocs data = Some (h, tocs) -> Forall (sect_safe data (hd_version h)) tocs -> dump_run data o -> o = DErr \/ exists d, o = DOk d.
Proof.
  intros H F R. destruct (tocs_run _ _ _ _ H R) as [(ss & res & R1 & R2 & ->)|[[R1 _]|(ss & res & R1 & R2 & R3 & ->)]].
  - unfold dresult. case_match; eauto.
  - exfalso. by eapply no_crash.
  - exfalso. destruct (no_hang data (hd_version h) tocs ss res) as [y Hy]; auto; [|by apply (R3 y)]. eapply Forall_impl; [done|]. by intros t (? & _).
Qed.
