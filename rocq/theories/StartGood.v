(** The start() program follows the wait group and channel disciplines. *)
From Verif Require Import Base BaseFacts Floats GoVal MetricType ByteWriter Hash Units Indom Metrics Registry Prog
  Client Ileave ProgProofs Events StartEvents BufFacts Tiling.

Definition dom_strings (x : nat * indom * list (gostring * Z)) : Z :=
  b2z (nonempty (id_short x.1.2)) + b2z (nonempty (id_long x.1.2)).
Definition mp_values (m : mplan) : Z :=
  match m with MPSingle _ _ _ => 1 | MPInst _ _ _ _ vals => zlen vals end.
Definition mp_strings (m : mplan) : Z :=
  (if md_type (mp_desc m) =? StringType then mp_values m else 0)
  + b2z (nonempty (md_short (mp_desc m))) + b2z (nonempty (md_long (mp_desc m))).

(** The counters of the registry describe the plan. *)
Record plan_fit (r : registry) (pl : plan) : Prop := {
  pf_doms : zlen (pl_doms pl) = InstanceDomainCount r;
  pf_insts : Forall (fun x => zlen x.2 = instance_count x.1.2) (pl_doms pl);
  pf_ic : sumZ (map (fun x => instance_count x.1.2) (pl_doms pl)) = InstanceCount r;
  pf_mets : zlen (pl_mets pl) = MetricCount r;
  pf_vals : Forall (fun m => match m with MPSingle _ _ _ => True | MPInst _ _ _ dom vals => zlen vals = instance_count dom end) (pl_mets pl);
  pf_vc : sumZ (map mp_values (pl_mets pl)) = ValuesCount r;
  pf_sc : sumZ (map dom_strings (pl_doms pl)) + sumZ (map mp_strings (pl_mets pl)) = r_stringcount r;
  pf_guard : 0 < InstanceDomainCount r -> 0 < InstanceCount r }.

Definition av (r : registry) (c : chan) : bool :=
  match c with
  | CInstance | CIndom => 0 <? InstanceDomainCount r
  | CMetric | CValue => 0 <? MetricCount r
  | CString => 0 <? StringCount r
  end.

Lemma instance_progs_length v2 ip io ilen l : forall ioff, length (instance_progs v2 ip io ilen ioff l) = length l.
Proof. induction l as [|[n id] l IH]; intros; cbn; auto. Qed.

Lemma toc_progs_length l : forall pos, length (toc_progs pos l) = length l.
Proof. induction l as [|[[a b] c] l IH]; intros; cbn; auto. Qed.

Lemma toc_entries_length r : (0 < InstanceDomainCount r -> 0 < InstanceCount r) ->
  (0 < InstanceCount r -> 0 < InstanceDomainCount r) ->
  Z.of_nat (length (toc_entries r)) = tocCount r.
Proof.
  intros H1 H2. unfold toc_entries, tocCount. rewrite !app_length. cbn [length].
  destruct (0 <? InstanceDomainCount r) eqn:E1, (0 <? InstanceCount r) eqn:E2, (0 <? StringCount r); cbn [length]; lia.
Qed.

(** ** Wait groups *)

Ltac spn_tac :=
  repeat first [ apply spn_write | apply spn_put | apply spn_setoff | apply spn_setupd
               | apply spn_take; intros ? | apply spn_getoff; intros ? | apply spn_ret ].

Lemma spn_opt_string s k j : (forall so, spn (k so) j) -> spn (opt_string s k) j.
Proof. intros H. unfold opt_string, alloc, w_str. destruct (nonempty s); [spn_tac|]; apply H. Qed.

Lemma spn_update off v k j : spn k j -> spn (update_prog off v k) j.
Proof. intros H. unfold update_prog. destruct v; cbn; spn_tac; exact H. Qed.

Lemma spn_value t v off key : spn (writeValue t v off key) 0.
Proof.
  unfold writeValue, alloc, w_i64. destruct (t =? StringType); spn_tac; apply spn_update; spn_tac.
Qed.

Lemma spn_desc v2 d iid off : spn (writeMetricDesc v2 d iid off) 0.
Proof.
  unfold writeMetricDesc, alloc, w_i64, w_i32, w_str.
  destruct v2; spn_tac; apply spn_opt_string; intros so; apply spn_opt_string; intros lo; spn_tac.
Qed.

Lemma spn_inst v2 ip n id io off : spn (writeInstance v2 ip n id io off) 0.
Proof. unfold writeInstance, alloc, w_i64, w_i32, w_str. destruct v2; spn_tac. Qed.

Lemma spn_insts v2 ip io ilen l : forall ioff, Forall (fun c => spn c 0) (instance_progs v2 ip io ilen ioff l).
Proof. induction l as [|[n id] l IH]; intros; cbn; constructor; auto. apply spn_inst. Qed.

Lemma spn_dom r ip d insts : zlen insts = instance_count d -> spn (writeInstanceDomain r ip d insts) 0.
Proof.
  intros H. unfold writeInstanceDomain, alloc, w_i64, w_i32. spn_tac.
  eapply spn_wg; [constructor| |cbn|apply spn_ret].
  - spn_tac. apply spn_gos; [apply spn_insts|].
    apply spn_opt_string; intros so; apply spn_opt_string; intros lo; spn_tac.
  - rewrite instance_progs_length. unfold zlen in H. lia.
Qed.

Lemma spn_vals t mp ip doff vals : spn (instance_values t mp ip doff vals) (length vals).
Proof.
  induction vals as [|[n v] vals IH]; cbn; [spn_tac|]. unfold alloc, w_i64. spn_tac.
  apply spn_go; [apply spn_value|]. spn_tac. exact IH.
Qed.

Lemma spn_metric v2 m : match m with MPSingle _ _ _ => True | MPInst _ _ _ dom vals => zlen vals = instance_count dom end ->
  spn (writeMetric v2 m) 0.
Proof.
  destruct m as [mp d v|mp d ip dom vals]; cbn [writeMetric]; intros H.
  - unfold writeSingletonMetric. eapply (spn_wg _ _ _ _ 2); [constructor| |reflexivity|apply spn_ret].
    unfold alloc, w_i64. spn_tac. apply spn_go; [apply spn_desc|]. spn_tac. apply spn_go; [apply spn_value|]. spn_tac.
  - unfold writeInstanceMetric. eapply (spn_wg _ _ _ _ (S (length vals))); [constructor| | |apply spn_ret].
    + spn_tac. apply spn_go; [apply spn_desc|]. apply spn_vals.
    + unfold zlen in H. cbn. lia.
Qed.

Lemma sumZ_nonneg {A} (f : A -> Z) l : Forall (fun x => 0 <= f x) l -> 0 <= sumZ (map f l).
Proof. induction 1; cbn [sumZ map]; lia. Qed.

Lemma sumZ_in {A} (f : A -> Z) l x : Forall (fun x => 0 <= f x) l -> x ∈ l -> f x <= sumZ (map f l).
Proof.
  induction 1 as [|y l Hy HF IH]; [set_solver|]. cbn [sumZ map]. intros [->|Hin]%elem_of_cons.
  - pose proof (sumZ_nonneg f l HF). lia.
  - specialize (IH Hin). lia.
Qed.

Lemma plan_ic_idc r pl : plan_fit r pl -> 0 < InstanceCount r -> 0 < InstanceDomainCount r.
Proof.
  intros [Hd _ Hic _ _ _ _ _] H. rewrite <- Hd. destruct (pl_doms pl); cbn in *; [lia|]. unfold zlen; cbn. lia.
Qed.

Lemma spn_start c pl : plan_fit (k_reg c) pl -> spn (start_prog c pl) 0.
Proof.
  intros Hf. pose proof (plan_ic_idc _ _ Hf) as Hic. destruct Hf as [Hd Hi _ Hm Hv _ _ Hg].
  unfold start_prog. eapply (spn_wg _ _ _ _ 3); [constructor| |reflexivity|].
  2: { unfold w_i64. spn_tac. }
  apply spn_go; [unfold writeHeaderBlock, w_str, w_i32, w_i64; spn_tac|].
  apply spn_go.
  { unfold writeTocBlock. eapply spn_wg; [constructor| | |apply spn_ret].
    - apply spn_gos; [|apply spn_ret]. clear. generalize HeaderLength (toc_entries (k_reg c)).
      intros pos l. revert pos; induction l as [|[[a b] e] l IH]; intros; cbn; constructor; auto.
      unfold writeSingleToc, w_i32, w_i64. spn_tac.
    - cbn [length]. rewrite toc_progs_length, <- toc_entries_length by auto. lia. }
  apply spn_go; [|apply spn_ret].
  unfold writeInstanceDomains. eapply spn_wg; [constructor| | |].
  - apply spn_gos; [|apply spn_ret]. apply Forall_fmap. eapply Forall_impl; [exact Hi|].
    intros [[ip d] insts] H. cbn in *. apply spn_dom. exact H.
  - cbn. rewrite fmap_length. unfold zlen in Hd. lia.
  - unfold writeMetrics. eapply spn_wg; [constructor| | |apply spn_ret].
    + apply spn_gos; [|apply spn_ret]. apply Forall_fmap. eapply Forall_impl; [exact Hv|].
      intros m H. apply spn_metric. exact H.
    + cbn. rewrite fmap_length. unfold zlen in Hm. lia.
Qed.

(** ** Channels *)

Section disc.
Variable a : chan -> bool.

Lemma disc_w m off d k : (forall c, holds c k = 0%nat) -> disc a k -> disc a (PWrite m off d k).
Proof. apply disc_write. Qed.

Lemma disc_alloc c n k : a c = true -> (forall v c', holds c' (k v) = 0%nat) -> (forall v, disc a (k v)) -> disc a (alloc c n k).
Proof.
  intros Hc H1 H2. unfold alloc. apply disc_take; [auto| |].
  - intros v c'. cbn. destruct (decide (c' = c)); reflexivity.
  - intros v. apply disc_put; auto.
Qed.

Lemma holds_opt_string c s k : (forall so, holds c (k so) = 0%nat) -> holds c (opt_string s k) = 0%nat.
Proof. intros H. unfold opt_string. destruct (nonempty s); [reflexivity|apply H]. Qed.

Lemma disc_opt_string s k : (nonempty s = true -> a CString = true) ->
  (forall so c', holds c' (k so) = 0%nat) -> (forall so, disc a (k so)) -> disc a (opt_string s k).
Proof.
  intros Hc H1 H2. unfold opt_string, w_str. destruct (nonempty s); [|apply H2].
  apply disc_alloc; [auto| |].
  - reflexivity.
  - intros v. apply disc_write; auto.
Qed.

Lemma holds_update c off v k : holds c k = 0%nat -> holds c (update_prog off v k) = 0%nat.
Proof. intros H. unfold update_prog. destruct v; cbn; auto. Qed.

Lemma disc_update off v k : (forall c, holds c k = 0%nat) -> disc a k -> disc a (update_prog off v k).
Proof. intros H1 H2. unfold update_prog. destruct v; cbn; auto; repeat apply disc_write; auto. Qed.

Lemma holds_value c t v off key : holds c (writeValue t v off key) = 0%nat.
Proof. unfold writeValue. destruct (t =? StringType); [reflexivity|]. apply holds_update. reflexivity. Qed.

Lemma disc_value t v off key : (t =? StringType = true -> a CString = true) -> disc a (writeValue t v off key).
Proof.
  intros H. unfold writeValue, w_i64. destruct (t =? StringType).
  - apply disc_write; [reflexivity|]. apply disc_alloc; [auto|reflexivity|].
    intros so. apply disc_write; [intros; apply holds_update; reflexivity|].
    apply disc_update; [reflexivity|]. apply disc_setupd; [reflexivity|apply disc_ret].
  - apply disc_update; [reflexivity|]. apply disc_setupd; [reflexivity|apply disc_ret].
Qed.

Lemma disc_desc v2 d iid off : a CMetric = true -> (v2 = true \/ nonempty (md_short d) = true \/ nonempty (md_long d) = true -> a CString = true) ->
  disc a (writeMetricDesc v2 d iid off).
Proof.
  intros Hm Hs. unfold writeMetricDesc, w_i64, w_i32, w_str.
  assert (forall o, disc a (PWrite true o (le_enc 4 (md_id d))
    (PWrite true (o + 4) (le_enc 4 (md_type d))
    (PWrite true (o + 8) (le_enc 4 (md_sem d))
    (PWrite true (o + 12) (le_enc 4 (md_unit d))
    (PWrite true (o + 16) (le_enc 4 (match iid with Some i => i | None => -1 end))
    (PWrite true (o + 20) (le_enc 4 0)
    (opt_string (md_short d) (fun so =>
     opt_string (md_long d) (fun lo =>
     PWrite true (o + 24) (le_enc 8 so) (PWrite true (o + 32) (le_enc 8 lo) PRet))))))))))) as Hrest.
  { intros o. repeat (apply disc_write; [try reflexivity|]).
    - intros c. apply holds_opt_string. intros. apply holds_opt_string. reflexivity.
    - apply disc_opt_string; [tauto|intros; apply holds_opt_string; reflexivity|]. intros so.
      apply disc_opt_string; [tauto|reflexivity|]. intros lo.
      repeat (apply disc_write; [try reflexivity|]). apply disc_ret. }
  destruct v2; cbn zeta.
  - apply disc_put; [auto|reflexivity|]. apply disc_alloc; [tauto|reflexivity|]. intros no.
    do 2 (apply disc_write; [reflexivity|]). apply Hrest.
  - apply disc_put; [auto|reflexivity|]. apply disc_write; [reflexivity|]. apply Hrest.
Qed.

Lemma holds_desc c v2 d iid off : holds c (writeMetricDesc v2 d iid off) = if decide (c = CMetric) then 1%nat else 0%nat.
Proof. unfold writeMetricDesc. destruct v2; reflexivity. Qed.

Lemma disc_inst v2 ip n id io off : (v2 = true -> a CString = true) -> disc a (writeInstance v2 ip n id io off).
Proof.
  intros H. unfold writeInstance, w_i64, w_i32, w_str. apply disc_setoff; [reflexivity|].
  repeat (apply disc_write; [try reflexivity; destruct v2; reflexivity|]). destruct v2.
  - apply disc_alloc; [auto|reflexivity|]. intros so. repeat (apply disc_write; [reflexivity|]). apply disc_ret.
  - apply disc_write; [reflexivity|apply disc_ret].
Qed.

Lemma holds_insts c v2 ip io ilen l : forall ioff, sum_list (map (holds c) (instance_progs v2 ip io ilen ioff l)) = 0%nat.
Proof. induction l as [|[n id] l IH]; intros; cbn; auto. Qed.

Lemma disc_dom r ip d insts : a CIndom = true -> a CInstance = true ->
  (r_version2 r = true -> insts <> [] -> a CString = true) ->
  (nonempty (id_short d) = true \/ nonempty (id_long d) = true -> a CString = true) ->
  disc a (writeInstanceDomain r ip d insts).
Proof.
  intros H1 H2 H3 H4. unfold writeInstanceDomain, w_i64, w_i32. cbn zeta.
  apply disc_alloc; [auto|reflexivity|]. intros off.
  apply disc_alloc; [auto|reflexivity|]. intros ioff.
  assert (forall c', holds c' (opt_string (id_short d) (fun so =>
     opt_string (id_long d) (fun lo =>
     PWrite true (off + 16) (le_enc 8 so) (PWrite true (off + 24) (le_enc 8 lo) PRet)))) = 0%nat) as Hh.
  { intros. apply holds_opt_string. intros. apply holds_opt_string. reflexivity. }
  apply disc_wg; [constructor| |reflexivity|apply disc_ret].
  repeat (apply disc_write; [try reflexivity; intros c'; rewrite holds_gos, holds_insts, Hh; reflexivity|]).
  apply disc_gos.
  - assert (r_version2 r = true -> insts <> [] -> a CString = true) as H5 by auto. clear - H5. revert ioff.
    induction insts as [|[n id] l IH]; intros; cbn; constructor.
    + apply disc_inst. intros Hv. apply H5; auto.
    + apply IH. auto.
  - apply disc_opt_string; [tauto|intros; apply holds_opt_string; reflexivity|]. intros so.
    apply disc_opt_string; [tauto|reflexivity|]. intros lo.
    repeat (apply disc_write; [try reflexivity|]). apply disc_ret.
Qed.

Lemma holds_vals c t mp ip doff vals : holds c (instance_values t mp ip doff vals) = 0%nat.
Proof. destruct vals as [|[n v] vals]; reflexivity. Qed.

Lemma disc_vals t mp ip doff vals : a CValue = true -> (t =? StringType = true -> vals <> [] -> a CString = true) ->
  disc a (instance_values t mp ip doff vals).
Proof.
  intros H1. induction vals as [|[n v] vals IH]; intros H2; cbn [instance_values]; [apply disc_ret|].
  apply disc_alloc; [auto| |]; unfold w_i64.
  - intros off c'. cbn. rewrite holds_value. reflexivity.
  - intros off. apply disc_go; [apply disc_value; auto|].
    apply disc_write; [reflexivity|]. apply disc_getoff; [reflexivity|]. intros io.
    apply disc_write; [intros; apply holds_vals|]. apply IH. auto.
Qed.

Lemma disc_metric v2 m : a CMetric = true -> a CValue = true ->
  (v2 = true \/ nonempty (md_short (mp_desc m)) = true \/ nonempty (md_long (mp_desc m)) = true -> a CString = true) ->
  (md_type (mp_desc m) =? StringType = true -> 0 < mp_values m -> a CString = true) ->
  disc a (writeMetric v2 m).
Proof.
  intros H1 H2 H3 H4. destruct m as [mp d v|mp d ip dom vals]; cbn [writeMetric mp_desc mp_values] in *.
  - unfold writeSingletonMetric. apply disc_wg; [constructor| |reflexivity|apply disc_ret].
    apply disc_take; [auto| |].
    + intros doff c'. cbn [holds alloc]. rewrite holds_desc. destruct (decide _); reflexivity.
    + intros doff. apply disc_go; [apply disc_desc; auto|]. apply disc_alloc; [auto| |].
      * intros off c'. cbn [holds w_i64]. rewrite holds_value. reflexivity.
      * intros off. apply disc_go; [apply disc_value; intros; apply H4; auto; lia|].
        unfold w_i64. repeat (apply disc_write; [reflexivity|]). apply disc_ret.
  - unfold writeInstanceMetric. apply disc_wg; [constructor| |reflexivity|apply disc_ret].
    apply disc_take; [auto| |].
    + intros doff c'. cbn [holds]. rewrite holds_desc, holds_vals. destruct (decide _); reflexivity.
    + intros doff. apply disc_go; [apply disc_desc; auto|]. apply disc_vals; auto. intros Ht Hv. apply H4; auto.
      destruct vals; [congruence|]. unfold zlen. cbn. lia.
Qed.
End disc.

Lemma Forall_holds0 {A} c (f : A -> prog) l : (forall x, holds c (f x) = 0%nat) -> sum_list (map (holds c) (f <$> l)) = 0%nat.
Proof. intros H. induction l; cbn; [auto|]. rewrite H. auto. Qed.

Lemma b2z_nonneg b : 0 <= b2z b. Proof. destruct b; cbn; lia. Qed.
Lemma dom_strings_nonneg x : 0 <= dom_strings x.
Proof. unfold dom_strings. pose proof (b2z_nonneg (nonempty (id_short x.1.2))). pose proof (b2z_nonneg (nonempty (id_long x.1.2))). lia. Qed.
Lemma mp_values_nonneg m : 0 <= mp_values m.
Proof. destruct m; cbn; [lia|]. apply zlen_nonneg. Qed.
Lemma mp_strings_nonneg m : 0 <= mp_strings m.
Proof.
  unfold mp_strings. pose proof (b2z_nonneg (nonempty (md_short (mp_desc m)))). pose proof (b2z_nonneg (nonempty (md_long (mp_desc m)))).
  pose proof (mp_values_nonneg m). destruct (_ =? _); lia.
Qed.
Lemma instance_count_nonneg d : 0 <= instance_count d.
Proof. unfold instance_count. lia. Qed.

Lemma StringCount_ge r pl : plan_fit r pl -> 0 <= r_stringcount r /\ r_stringcount r <= StringCount r /\ 0 <= InstanceCount r.
Proof.
  intros Hf. destruct Hf as [Hd _ Hic Hm _ _ Hs _].
  assert (0 <= sumZ (map dom_strings (pl_doms pl))) by (apply sumZ_nonneg, Forall_true, dom_strings_nonneg).
  assert (0 <= sumZ (map mp_strings (pl_mets pl))) by (apply sumZ_nonneg, Forall_true, mp_strings_nonneg).
  assert (0 <= InstanceCount r).
  { rewrite <- Hic. apply (sumZ_nonneg (fun x : nat * indom * list (gostring * Z) => instance_count x.1.2)), Forall_true. intros; apply instance_count_nonneg. }
  unfold StringCount, MetricCount. destruct (r_version2 r); lia.
Qed.

Lemma disc_start c pl : plan_fit (k_reg c) pl -> disc (av (k_reg c)) (start_prog c pl).
Proof.
  intros Hf. pose proof (StringCount_ge _ _ Hf) as (Hs1 & Hs2 & Hic0).
  destruct Hf as [Hd Hi Hic Hm Hv Hvc Hsc Hg].
  set (r := k_reg c) in *.
  unfold start_prog. apply disc_wg; [constructor| |reflexivity|].
  2: { apply disc_write; [reflexivity|apply disc_ret]. }
  apply disc_go. { unfold writeHeaderBlock, w_str, w_i32, w_i64. repeat (apply disc_write; [reflexivity|]). apply disc_ret. }
  apply disc_go.
  { unfold writeTocBlock. apply disc_wg; [constructor| |reflexivity|apply disc_ret]. apply disc_gos; [|apply disc_ret].
    clear. fold r. generalize HeaderLength (toc_entries r).
    intros pos l. revert pos; induction l as [|[[x b] e] l IH]; intros; cbn; constructor; auto.
    unfold writeSingleToc, w_i32, w_i64. repeat (apply disc_write; [reflexivity|]). apply disc_ret. }
  apply disc_go; [|apply disc_ret].
  unfold writeInstanceDomains. apply disc_wg; [constructor| | |].
  - apply disc_gos; [|apply disc_ret]. apply Forall_fmap. apply Forall_forall. intros [[ip d] insts] Hin. cbn.
    assert (0 < InstanceDomainCount r) as Hpos.
    { rewrite <- Hd. unfold zlen. destruct (pl_doms pl); [set_solver|]. cbn. lia. }
    rewrite Forall_forall in Hi. specialize (Hi _ Hin). cbn in Hi.
    assert (dom_strings (ip, d, insts) <= sumZ (map dom_strings (pl_doms pl))) as Hds.
    { apply sumZ_in; auto. apply Forall_true, dom_strings_nonneg. }
    assert (0 <= sumZ (map mp_strings (pl_mets pl))) by (apply sumZ_nonneg, Forall_true, mp_strings_nonneg).
    assert (instance_count d <= InstanceCount r) as Hdi.
    { rewrite <- Hic. apply (sumZ_in (fun x : nat * indom * list (gostring * Z) => instance_count x.1.2) _ (ip, d, insts)); auto.
      apply Forall_true. intros; apply instance_count_nonneg. }
    apply disc_dom; cbn [av]; try lia.
    + intros Hv2 Hne. assert (0 < zlen insts) by (destruct insts; [congruence|]; rewrite zlen_cons; pose proof (zlen_nonneg insts); lia).
      unfold StringCount, MetricCount. unfold r in *. rewrite Hv2. lia.
    + intros Hne. change (dom_strings (ip, d, insts)) with (b2z (nonempty (id_short d)) + b2z (nonempty (id_long d))) in Hds.
      assert (0 < b2z (nonempty (id_short d)) + b2z (nonempty (id_long d))); [|lia].
      destruct (nonempty (id_short d)), (nonempty (id_long d)); cbn; destruct Hne; try discriminate; lia.
  - intros c'. unfold writeMetrics. cbn [holds map sum_list]. rewrite holds_gos. rewrite Forall_holds0; [reflexivity|].
    intros m. destruct m; reflexivity.
  - unfold writeMetrics. apply disc_wg; [constructor| |reflexivity|apply disc_ret].
    apply disc_gos; [|apply disc_ret]. apply Forall_fmap. apply Forall_forall. intros m Hin. cbn.
    assert (0 < MetricCount r) as Hpos.
    { rewrite <- Hm. unfold zlen. destruct (pl_mets pl); [set_solver|]. cbn. lia. }
    assert (mp_strings m <= sumZ (map mp_strings (pl_mets pl))) as Hds.
    { apply sumZ_in; auto. apply Forall_true, mp_strings_nonneg. }
    assert (0 <= sumZ (map dom_strings (pl_doms pl))) by (apply sumZ_nonneg, Forall_true, dom_strings_nonneg).
    pose proof (mp_values_nonneg m).
    unfold mp_strings at 1 in Hds.
    apply disc_metric; cbn [av]; try lia.
    + intros [Hv2|Hne].
      * unfold StringCount. unfold r in *. rewrite Hv2. lia.
      * assert (0 < b2z (nonempty (md_short (mp_desc m))) + b2z (nonempty (md_long (mp_desc m)))); [|destruct (_ =? StringType); lia].
        destruct (nonempty (md_short (mp_desc m))), (nonempty (md_long (mp_desc m))); cbn; destruct Hne; try discriminate; lia.
    + intros Ht Hvs. rewrite Ht in Hds. pose proof (b2z_nonneg (nonempty (md_short (mp_desc m)))).
      pose proof (b2z_nonneg (nonempty (md_long (mp_desc m)))). lia.
Qed.

(** ** Cost *)

(** Costs that do not depend on the offsets received from channels. *)
Ltac cost_tac :=
  repeat first [ apply cost_write; [rewrite ?le_enc_length; reflexivity|] | apply cost_put | apply cost_setoff | apply cost_setupd
               | apply cost_take; intros ? | apply cost_getoff; intros ? | apply cost_ret ].

Lemma cost_opt_string s {B} (k : B -> Z -> prog) : (exists n, forall x so, cost (k x so) n) -> exists n, forall x, cost (opt_string s (k x)) n.
Proof.
  intros [n H]. unfold opt_string, alloc, w_str. destruct (nonempty s).
  - eexists. intros x. cost_tac. apply H.
  - eexists. intros x. apply H.
Qed.

Lemma cost_update v {B} (off : B -> Z) (k : B -> prog) : (exists n, forall x, cost (k x) n) -> exists n, forall x, cost (update_prog (off x) v (k x)) n.
Proof.
  intros [n H]. unfold update_prog. destruct v; cbn [val_bytes]; eexists; intros x; cost_tac; apply H.
Qed.

Lemma cost_value t v key : exists n, forall off, cost (writeValue t v off key) n.
Proof.
  unfold writeValue, alloc, w_i64. destruct (t =? StringType).
  - destruct (cost_update v (fun x : Z => x) (fun so => PSetUpd key so PRet)) as [n H].
    { eexists. intros x. cost_tac. }
    eexists. intros off. cost_tac. apply H.
  - apply (cost_update v (fun x : Z => x) (fun so => PSetUpd key so PRet)). eexists. intros x. cost_tac.
Qed.

Lemma cost_desc v2 d iid : exists n, forall off, cost (writeMetricDesc v2 d iid off) n.
Proof.
  unfold writeMetricDesc, alloc, w_i64, w_i32, w_str.
  edestruct (cost_opt_string (md_short d) (fun (o : Z) so => opt_string (md_long d) (fun lo =>
     PWrite true (o + 24) (le_enc 8 so) (PWrite true (o + 32) (le_enc 8 lo) PRet)))) as [n H].
  { edestruct (cost_opt_string (md_long d) (fun (x : Z * Z) lo =>
     PWrite true (x.1 + 24) (le_enc 8 x.2) (PWrite true (x.1 + 32) (le_enc 8 lo) PRet))) as [n H].
    { eexists. intros x so. cost_tac. }
    exists n. intros o so. apply (H (o, so)). }
  destruct v2; cbn zeta; eexists; intros off; cost_tac; apply H.
Qed.

Lemma cost_inst v2 ip n id : exists m, forall io off, cost (writeInstance v2 ip n id io off) m.
Proof. unfold writeInstance, alloc, w_i64, w_i32, w_str. destruct v2; eexists; intros; cost_tac. Qed.

Lemma cost_insts v2 ip ilen l : exists ns, forall io ioff, Forall2 cost (instance_progs v2 ip io ilen ioff l) ns.
Proof.
  induction l as [|[n id] l [ns IH]]; cbn; [exists []; constructor|].
  destruct (cost_inst v2 ip n id) as [m H]. exists (m :: ns). constructor; auto.
Qed.

Fixpoint gos_cost (ns : list nat) (n : nat) : nat :=
  match ns with [] => n | m :: ns => S (S m + gos_cost ns n) end.
Lemma cost_gos' cs k ns n : Forall2 cost cs ns -> cost k n -> cost (gos cs k) (gos_cost ns n).
Proof. induction 1; cbn; intros; [auto|]. constructor; auto. Qed.

Lemma cost_dom r ip d insts : exists n, cost (writeInstanceDomain r ip d insts) n.
Proof.
  unfold writeInstanceDomain, alloc, w_i64, w_i32.
  edestruct (cost_opt_string (id_short d) (fun (o : Z) so => opt_string (id_long d) (fun lo =>
     PWrite true (o + 16) (le_enc 8 so) (PWrite true (o + 24) (le_enc 8 lo) PRet)))) as [n H].
  { edestruct (cost_opt_string (id_long d) (fun (x : Z * Z) lo =>
     PWrite true (x.1 + 16) (le_enc 8 x.2) (PWrite true (x.1 + 24) (le_enc 8 lo) PRet))) as [n H].
    { eexists. intros x so. cost_tac. }
    exists n. intros o so. apply (H (o, so)). }
  destruct (cost_insts (r_version2 r) ip (InstanceLength r) insts) as [ns Hns].
  eexists. cost_tac. eapply (cost_wg _ _ _ _ []); [constructor| |apply cost_ret].
  cost_tac. eapply cost_gos'; [apply Hns|]. apply H.
Qed.

Lemma cost_vals t mp ip vals : exists n, forall doff, cost (instance_values t mp ip doff vals) n.
Proof.
  induction vals as [|[n v] vals [m IH]]; cbn; [exists 0%nat; constructor|].
  destruct (cost_value t v (mp, Some n)) as [k Hk].
  unfold alloc, w_i64. eexists. intros doff. cost_tac. apply cost_go; [apply Hk|]. cost_tac. apply IH.
Qed.

Lemma cost_metric v2 m : exists n, cost (writeMetric v2 m) n.
Proof.
  destruct m as [mp d v|mp d ip dom vals]; cbn [writeMetric].
  - unfold writeSingletonMetric, alloc, w_i64. destruct (cost_desc v2 d None) as [n1 H1].
    destruct (cost_value (md_type d) v (mp, None)) as [n2 H2].
    eexists. eapply (cost_wg _ _ _ _ []); [constructor| |apply cost_ret].
    cost_tac. apply cost_go; [apply H1|]. cost_tac. apply cost_go; [apply H2|]. cost_tac.
  - unfold writeInstanceMetric. destruct (cost_desc v2 d (Some (id_id dom))) as [n1 H1].
    destruct (cost_vals (md_type d) mp ip vals) as [n2 H2].
    eexists. eapply (cost_wg _ _ _ _ []); [constructor| |apply cost_ret].
    cost_tac. apply cost_go; [apply H1|apply H2].
Qed.

Lemma cost_all {A} (f : A -> prog) l : (forall x, exists n, cost (f x) n) -> exists ns, Forall2 cost (f <$> l) ns.
Proof.
  intros H. induction l as [|x l [ns IH]]; cbn; [exists []; constructor|]. destruct (H x) as [n Hn]. exists (n :: ns). constructor; auto.
Qed.

Lemma cost_start c pl : exists n, cost (start_prog c pl) n.
Proof.
  unfold start_prog.
  assert (exists n, cost (writeHeaderBlock c) n) as [n1 H1].
  { unfold writeHeaderBlock, w_str, w_i32, w_i64. eexists. cost_tac. }
  assert (exists n, cost (writeTocBlock (k_reg c)) n) as [n2 H2].
  { unfold writeTocBlock.
    assert (forall l pos, exists ns, Forall2 cost (toc_progs pos l) ns) as Ht.
    { induction l as [|[[x b] e] l IH]; intros pos; cbn; [exists []; constructor|].
      destruct (IH (pos + TocLength)) as [ns Hns].
      assert (exists m, cost (writeSingleToc pos x b e) m) as [m Hm]. { unfold writeSingleToc, w_i32, w_i64. eexists. cost_tac. }
      exists (m :: ns). constructor; auto. }
    destruct (Ht (toc_entries (k_reg c)) HeaderLength) as [ns Hns].
    eexists. eapply (cost_wg _ _ _ _ []); [constructor| |apply cost_ret]. eapply cost_gos'; [apply Hns|apply cost_ret]. }
  destruct (cost_all (fun x : nat * indom * list (gostring * Z) => writeInstanceDomain (k_reg c) x.1.1 x.1.2 x.2) (pl_doms pl)) as [n3 H3].
  { intros x. apply cost_dom. }
  destruct (cost_all (writeMetric (r_version2 (k_reg c))) (pl_mets pl)) as [n4 H4]. { apply cost_metric. }
  eexists. eapply (cost_wg _ _ _ _ []); [constructor| |].
  - apply cost_go; [exact H1|]. apply cost_go; [exact H2|]. apply cost_go; [|apply cost_ret].
    unfold writeInstanceDomains, writeMetrics. eapply (cost_wg _ _ _ _ []); [constructor| |].
    + eapply cost_gos'; [exact H3|apply cost_ret].
    + eapply (cost_wg _ _ _ _ []); [constructor| |apply cost_ret]. eapply cost_gos'; [exact H4|apply cost_ret].
  - unfold w_i64. cost_tac.
Qed.

(** ** All together *)

Lemma good_start c pl offs upds : plan_fit (k_reg c) pl ->
  good (av (k_reg c)) (start_state (k_reg c) offs upds) (start_prog c pl).
Proof.
  intros Hf. split; [apply spn_start, Hf|]. split; [apply disc_start, Hf|].
  intros ch Hc. assert (holds ch (start_prog c pl) = 0%nat) as Hh.
  { unfold start_prog. cbn [holds map sum_list]. unfold writeInstanceDomains, writeTocBlock. cbn [holds map sum_list writeHeaderBlock w_str].
    rewrite !holds_gos. rewrite Forall_holds0 by reflexivity.
    assert (forall l pos, sum_list (map (holds ch) (toc_progs pos l)) = 0%nat) as Ht.
    { induction l as [|[[x b] e] l IH]; intros pos; cbn; auto. }
    rewrite Ht. reflexivity. }
  unfold start_state. cbn [g_ch]. unfold init_ch. destruct ch; cbn [av] in Hc; rewrite Hc; exact Hh.
Qed.
