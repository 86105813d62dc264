(** What a complete run of start() leaves behind. *)
From Verif Require Import Base BaseFacts Floats GoVal MetricType ByteWriter Hash Units Indom Metrics Registry Prog
  Client Mmvdump Ileave ProgProofs Events StartEvents BufFacts Tiling StartGood StartLayout.

(** ** Sizes *)

Definition val_ok (t : Z) (v : goval) : Prop :=
  match v with
  | VStr s => t = StringType /\ zlen s <= StringLength
  | v => t <> StringType /\ exists d, val_bytes v = Some d /\ zlen d <= 8
  end.

Definition name_max (v2 : bool) : Z := if v2 then StringLength else MaxV1NameLength.

Definition dom_sizes (v2 : bool) (x : nat * indom * list (gostring * Z)) : Prop :=
  zlen (id_short x.1.2) <= StringLength /\ zlen (id_long x.1.2) <= StringLength /\
  Forall (fun i => zlen i.1 <= name_max v2) x.2.

Definition met_sizes (v2 : bool) (m : mplan) : Prop :=
  zlen (md_name (mp_desc m)) <= name_max v2 /\
  zlen (md_short (mp_desc m)) <= StringLength /\ zlen (md_long (mp_desc m)) <= StringLength /\
  match m with
  | MPSingle _ d v => val_ok (md_type d) v
  | MPInst _ d _ _ vals => Forall (fun x => val_ok (md_type d) x.2) vals
  end.

(** Keys of the offset and update fields. *)
Definition dom_keys (x : nat * indom * list (gostring * Z)) : list okey := map (fun i => (x.1.1, i.1)) x.2.
Definition met_keys (m : mplan) : list vkey :=
  match m with MPSingle mp _ _ => [(mp, None)] | MPInst mp _ _ _ vals => map (fun x => (mp, Some x.1)) vals end.

Record plan_wf (r : registry) (pl : plan) : Prop := {
  pw_fit : plan_fit r pl;
  pw_dsz : Forall (dom_sizes (r_version2 r)) (pl_doms pl);
  pw_msz : Forall (met_sizes (r_version2 r)) (pl_mets pl);
  pw_okeys : NoDup (concat (map dom_keys (pl_doms pl)));
  pw_vkeys : NoDup (concat (map met_keys (pl_mets pl))) }.

(** ** Jobs fit their regions *)
Definition jobs (E : list ev) : list job := omap e_job E.
Definition fits (E : list ev) : Prop := Forall job_fits (jobs E).

Lemma jobs_app E1 E2 : jobs (E1 ++ E2) = jobs E1 ++ jobs E2. Proof. apply omap_app. Qed.
Lemma fits_app E1 E2 : fits E1 -> fits E2 -> fits (E1 ++ E2).
Proof. intros. unfold fits. rewrite jobs_app. apply Forall_app. auto. Qed.
Lemma fits_nil : fits []. Proof. constructor. Qed.
Lemma fits_job t lo w ds E : 0 <= w -> Forall (fun d => zlen d <= w) ds -> fits E -> fits (EJob t lo w ds :: E).
Proof. intros. unfold fits. cbn. constructor; [split; auto|auto]. Qed.
Lemma fits_job1 t lo w d E : 0 <= w -> zlen d <= w -> fits E -> fits (EJob t lo w [d] :: E).
Proof. intros. apply fits_job; auto. Qed.
Lemma fits_other e E : e_job e = None -> fits E -> fits (e :: E).
Proof. intros H ?. unfold fits. cbn. rewrite H. auto. Qed.
Lemma fits_concat Es : Forall fits Es -> fits (concat Es).
Proof. induction 1; cbn; [apply fits_nil|apply fits_app; auto]. Qed.

Ltac fits_tac := repeat first
  [ apply fits_nil
  | apply fits_job1; [unfold StringLength; lia|rewrite ?zlen_le_enc; try (unfold StringLength in *; lia)|]
  | apply fits_other; [reflexivity|]
  | apply fits_app ].

Lemma fits_str s so : zlen s <= StringLength -> fits (ev_str s so).
Proof. intros. unfold ev_str. destruct (nonempty s); fits_tac; auto. Qed.

Lemma fits_insts v2 ip io ilen l : forall ioff ss, Forall (fun i => zlen i.1 <= name_max v2) l ->
  fits (ev_insts v2 ip io ilen ioff l ss).
Proof.
  induction l as [|[n id] l IH]; intros ioff ss HF; cbn [ev_insts]; [apply fits_nil|].
  inversion HF as [|? ? H1 H2]; subst. cbn [fst] in H1. apply fits_app; [|auto]. unfold ev_inst. destruct v2; cbn [name_max] in H1; fits_tac; auto.
  unfold MaxV1NameLength in H1. lia.
Qed.

Lemma fits_dom r x a : dom_sizes (r_version2 r) x -> fits (ev_dom r x a).
Proof.
  intros (H1 & H2 & H3). unfold ev_dom. apply fits_app; [fits_tac|].
  apply fits_app; [by apply fits_str|]. apply fits_app; [by apply fits_str|]. by apply fits_insts.
Qed.

Lemma fits_desc v2 d iid a : zlen (md_name d) <= name_max v2 -> zlen (md_short d) <= StringLength -> zlen (md_long d) <= StringLength ->
  fits (ev_desc v2 d iid a).
Proof.
  intros H1 H2 H3. unfold ev_desc, ev_rest. unfold name_max, MaxV1NameLength in H1.
  destruct v2; fits_tac; auto using fits_str. 
Qed.

Lemma fits_val t v off so key : val_ok t v -> fits (ev_val t v off so key).
Proof.
  intros Hv. unfold ev_val. destruct (t =? StringType) eqn:Et.
  - fits_tac. apply fits_job; [unfold StringLength; lia| |fits_tac].
    destruct v; cbn in Hv; try (destruct Hv as [Hv _]; lia). cbn [upd_ds fmap list_fmap snd].
    constructor; [rewrite zlen_zeros; unfold StringLength; lia|]. constructor; [tauto|constructor].
  - apply fits_job; [lia|constructor|]. apply fits_job; [lia| |fits_tac].
    destruct v; cbn in Hv; try (destruct Hv as (_ & dd & Hd & Hl); unfold upd_ds; rewrite ?Hd; cbn; repeat constructor; try (simplify_eq; exact Hl)).
    destruct Hv; lia.
Qed.

Lemma fits_v1 t key doff get v a : val_ok t v -> fits get -> fits (ev_v1 t key doff get v a).
Proof. intros. rewrite v1_app. fits_tac; auto using fits_val. Qed.

Lemma fits_vals t mp ip doff vals : forall l, Forall (fun x => val_ok t x.2) vals -> fits (ev_vals t mp ip doff vals l).
Proof.
  induction vals as [|[n v] vals IH]; intros l HF; cbn [ev_vals]; [apply fits_nil|].
  inversion HF; subst. apply fits_app; [|auto]. apply fits_v1; [auto|fits_tac].
Qed.

Lemma fits_met v2 m a : met_sizes v2 m -> fits (ev_met v2 m a).
Proof.
  intros (H1 & H2 & H3 & H4). destruct m as [mp d v|mp d ip dom vals]; cbn [ev_met mp_desc] in *;
    (apply fits_other; [reflexivity|]); apply fits_app; auto using fits_desc, fits_vals.
  apply fits_v1; [auto|fits_tac].
Qed.

Lemma fits_tocs l : forall p, fits (ev_tocs p l).
Proof. induction l as [|[[x y] z] l IH]; intros p; cbn [ev_tocs]; fits_tac. apply IH. Qed.

Lemma fits_zip {A B} (f : A -> B -> list ev) l l' : (forall x a, x ∈ l -> fits (f x a)) -> fits (concat (zip_with f l l')).
Proof.
  intros H. apply fits_concat. revert l'. induction l as [|x l IH]; intros [|a l']; cbn; constructor.
  - apply H. left.
  - apply IH. intros. apply H. by right.
Qed.

Lemma fits_start c pl ad am : plan_wf (k_reg c) pl -> fits (ev_start c pl ad am).
Proof.
  intros [Hf Hds Hms _ _]. unfold ev_start, ev_header. apply fits_job; [lia| |].
  { repeat constructor; rewrite zlen_le_enc; lia. }
  apply fits_app; [fits_tac; vm_compute; congruence|]. apply fits_app; [apply fits_tocs|].
  rewrite Forall_forall in Hds. rewrite Forall_forall in Hms.
  apply fits_app; apply fits_zip; intros; auto using fits_dom, fits_met.
Qed.

(** ** Slots *)
Definition base (r : registry) (c : chan) : Z :=
  match c with
  | CInstance => instanceoffset r | CIndom => indomoffset r | CMetric => metricsoffset r
  | CValue => valuesoffset r | CString => stringsoffset r
  end.
Definition limit (r : registry) (c : chan) : Z :=
  match c with
  | CInstance => metricsoffset r | CIndom => instanceoffset r | CMetric => valuesoffset r
  | CValue => stringsoffset r | CString => Length r
  end.

Lemma init_ch_av r c : init_ch r c = if av r c then ChFull (base r c) else ChNil.
Proof. destruct c; reflexivity. Qed.

Lemma zip_sum {A B} (P : A -> Prop) (f : A -> B -> list ev) (g : A -> Z) c l l' :
  length l = length l' -> Forall P l -> (forall x a, P x -> sumZ (map snd (allocs c (f x a))) = g x) ->
  sumZ (map snd (allocs c (concat (zip_with f l l')))) = sumZ (map g l).
Proof.
  intros HL HP H. revert l' HL. induction HP as [|x l Hx HP IH]; intros [|a l'] HL; cbn in HL; try discriminate; cbn [zip_with concat map sumZ]; [reflexivity|].
  rewrite allocs_app, map_app, sumZ_app, H, IH by (auto; lia). lia.
Qed.

Lemma zip_covers {A B} (P : A -> Prop) (f : A -> B -> list ev) c l l' :
  Forall P l -> (forall x a, P x -> covers c (f x a)) -> covers c (concat (zip_with f l l')).
Proof.
  intros HP H. apply covers_concat. revert l'. induction HP; intros [|a l']; cbn; constructor; auto.
Qed.

Lemma zip_regs_none {A B} (f : A -> B -> list ev) t l l' :
  (forall x a, regs t (f x a) = []) -> regs t (concat (zip_with f l l')) = [].
Proof. intros H. revert l'. induction l; intros [|a' l']; cbn [zip_with concat]; auto. rewrite regs_app, H, IHl. reflexivity. Qed.

Lemma sumZ_ext {A} (f g : A -> Z) l : (forall x, f x = g x) -> sumZ (map f l) = sumZ (map g l).
Proof. intros H. induction l; cbn [map sumZ]; [auto|]. rewrite H, IHl. auto. Qed.
Lemma sumZ_scale {A} k (f : A -> Z) l : sumZ (map (fun x => k * f x) l) = k * sumZ (map f l).
Proof. induction l; cbn [map sumZ]; lia. Qed.
Lemma sumZ_add {A} (f g : A -> Z) l : sumZ (map (fun x => f x + g x) l) = sumZ (map f l) + sumZ (map g l).
Proof. induction l; cbn [map sumZ]; lia. Qed.
Lemma sumZ_const {A} k (l : list A) : sumZ (map (fun _ => k) l) = k * zlen l.
Proof. unfold zlen. induction l; cbn [map sumZ length]; lia. Qed.
Lemma sumZ_replicate n k : sumZ (replicate n k) = k * Z.of_nat n.
Proof. induction n; cbn [replicate sumZ]; lia. Qed.

Definition ev_doms (r : registry) (pl : plan) (ad : list da) := concat (zip_with (ev_dom r) (pl_doms pl) ad).
Definition ev_mets (r : registry) (pl : plan) (am : list ma) := concat (zip_with (ev_met (r_version2 r)) (pl_mets pl) am).
Definition ev_fix (c : cfg) : list ev := EJob None 16 8 [le_enc 8 0; le_enc 8 (k_gen c)] :: ev_header c ++ ev_tocs HeaderLength (toc_entries (k_reg c)).

Lemma ev_start_app c pl ad am : ev_start c pl ad am = ev_fix c ++ ev_doms (k_reg c) pl ad ++ ev_mets (k_reg c) pl am.
Proof. unfold ev_start, ev_fix. cbn [app]. by rewrite <- !app_assoc. Qed.

Lemma fix_none c : (forall k, allocs k (ev_fix c) = []) /\ (forall k, regs (Some k) (ev_fix c) = []).
Proof.
  destruct (tocs_none (toc_entries (k_reg c)) HeaderLength) as [H1 H2].
  change (ev_fix c) with ((EJob None 16 8 [le_enc 8 0; le_enc 8 (k_gen c)] :: ev_header c) ++ ev_tocs HeaderLength (toc_entries (k_reg c))).
  split; intros k; [rewrite allocs_app, H1|rewrite regs_app, H2]; reflexivity.
Qed.

Lemma IDC_nonneg r : 0 <= InstanceDomainCount r. Proof. unfold InstanceDomainCount. apply Nat2Z.is_nonneg || lia. Qed.

Lemma sizes_start c pl ad am k : plan_fit (k_reg c) pl -> length (pl_doms pl) = length ad -> length (pl_mets pl) = length am ->
  base (k_reg c) k + sumZ (map snd (allocs k (ev_start c pl ad am))) = limit (k_reg c) k.
Proof.
  intros Hf Hd Hm. set (r := k_reg c). rewrite ev_start_app, !allocs_app, (proj1 (fix_none c)). cbn [app]. fold r.
  rewrite map_app, sumZ_app. unfold ev_doms, ev_mets.
  destruct Hf as [F1 F2 F3 F4 F5 F6 F7 F8]. fold r in F1, F2, F3, F4, F5, F6, F7, F8.
  destruct k; cbn [base limit].
  - rewrite (zip_sum (fun _ => True) (ev_dom r) (fun x => InstanceLength r * instance_count x.1.2)); [|auto|by apply Forall_true|].
    2: { intros. rewrite dom_allocs_inst. cbn [map snd sumZ]. lia. }
    rewrite (zip_sum (fun _ => True) (ev_met (r_version2 r)) (fun x => 0)); [|auto|by apply Forall_true|].
    2: { intros. rewrite met_allocs_none by auto. reflexivity. }
    rewrite sumZ_scale, sumZ_const, F3. unfold metricsoffset. lia.
  - rewrite (zip_sum (fun _ => True) (ev_dom r) (fun x => 32)); [|auto|by apply Forall_true|].
    2: { intros. rewrite dom_allocs_indom. reflexivity. }
    rewrite (zip_sum (fun _ => True) (ev_met (r_version2 r)) (fun x => 0)); [|auto|by apply Forall_true|].
    2: { intros. rewrite met_allocs_none by auto. reflexivity. }
    rewrite !sumZ_const, F1. unfold instanceoffset, InstanceDomainLength. lia.
  - rewrite (zip_sum (fun _ => True) (ev_dom r) (fun x => 0)); [|auto|by apply Forall_true|].
    2: { intros. rewrite dom_allocs_none by auto. reflexivity. }
    rewrite (zip_sum (fun _ => True) (ev_met (r_version2 r)) (fun x => MetricLength r)); [|auto|by apply Forall_true|].
    2: { intros. rewrite met_allocs_metric by auto. unfold MetricLength, mlen. cbn [map snd sumZ]. lia. }
    rewrite !sumZ_const, F4. unfold valuesoffset. lia.
  - rewrite (zip_sum (fun _ => True) (ev_dom r) (fun x => 0)); [|auto|by apply Forall_true|].
    2: { intros. rewrite dom_allocs_none by auto. reflexivity. }
    rewrite (zip_sum (fun _ => True) (ev_met (r_version2 r)) (fun x => 32 * mp_values x)); [|auto|by apply Forall_true|].
    2: { intros. rewrite met_values, sumZ_replicate. pose proof (mp_values_nonneg x). lia. }
    rewrite sumZ_const, sumZ_scale, F6. unfold stringsoffset, ValueLength. lia.
  - rewrite (zip_sum (fun x => zlen x.2 = instance_count x.1.2) (ev_dom r) (fun x => 256 * (dom_strings x + (if r_version2 r then 1 else 0) * instance_count x.1.2))); [|auto|auto|].
    2: { intros. rewrite dom_str_sum by auto. destruct (r_version2 r); lia. }
    rewrite (zip_sum (fun _ => True) (ev_met (r_version2 r)) (fun x => 256 * (mp_strings x + b2z (r_version2 r)))); [|auto|by apply Forall_true|].
    2: { intros. apply met_str_sum. }
    rewrite !sumZ_scale, !sumZ_add, sumZ_scale, sumZ_const, F3, F4.
    unfold Length, stringsoffset, valuesoffset, metricsoffset, instanceoffset, indomoffset, StringCount, InstanceDomainLength, StringLength in *.
    fold r. destruct (r_version2 r); cbn [b2z] in *; lia.
Qed.

(** A property of all events of a run. *)
Lemma Forall_start (Q : ev -> Prop) c pl ad am :
  (forall t lo w ds, Q (EJob t lo w ds)) -> (forall o, Q (EAlloc CString o 256)) -> (forall o, Q (EAlloc CIndom o 32)) ->
  (forall o n, 0 <= n -> Q (EAlloc CInstance o (InstanceLength (k_reg c) * n))) ->
  (forall o, Q (EAlloc CMetric o (MetricLength (k_reg c)))) -> (forall o, Q (EAlloc CValue o 32)) ->
  (forall i v, Q (ESet i v)) -> (forall i v, Q (EGet i v)) -> (forall i v, Q (EUpd i v)) ->
  Forall Q (ev_start c pl ad am).
Proof.
  intros Q1 Q2 Q3 Q4 Q5 Q6 Q7 Q8 Q9.
  assert (forall s so, Forall Q (ev_str s so)) as Hs.
  { intros. unfold ev_str. destruct (nonempty s); repeat constructor; auto. }
  assert (forall v2 ip io ilen l ioff ss, Forall Q (ev_insts v2 ip io ilen ioff l ss)) as Hi.
  { intros v2 ip io ilen l. induction l as [|[n id] l IH]; intros; cbn [ev_insts]; [constructor|]. apply Forall_app. split; [|auto].
    unfold ev_inst. destruct v2; cbn [app]; repeat constructor; auto. }
  assert (forall t v off so key, Forall Q (ev_val t v off so key)) as Hv.
  { intros. unfold ev_val. destruct (t =? StringType); repeat constructor; auto. }
  assert (forall t key doff get v a, Forall Q get -> Forall Q (ev_v1 t key doff get v a)) as Hv1.
  { intros. rewrite v1_app. repeat (apply Forall_app; split); auto; repeat constructor; auto. }
  assert (forall v2 d iid a, Forall Q (ev_desc v2 d iid a)) as Hd.
  { intros. unfold ev_desc, ev_rest. destruct v2; [apply Forall_app; split|constructor; [auto|]]; repeat (apply Forall_app; split); auto; repeat constructor; auto. }
  rewrite ev_start_app. unfold ev_fix, ev_doms, ev_mets. repeat (apply Forall_app; split).
  - constructor; [auto|]. apply Forall_app; split; [repeat constructor; auto|].
    generalize HeaderLength. induction (toc_entries (k_reg c)) as [|[[x y] z] l IH]; intros p; cbn [ev_tocs]; repeat constructor; auto.
  - apply Forall_concat. revert ad. induction (pl_doms pl) as [|x l IH]; intros [|a ad]; cbn [zip_with]; constructor; auto.
    unfold ev_dom. repeat (apply Forall_app; split); auto. repeat constructor; auto.
    apply Q4. apply instance_count_nonneg.
  - apply Forall_concat. revert am. induction (pl_mets pl) as [|m l IH]; intros [|a am]; cbn [zip_with]; constructor; auto.
    destruct m as [mp d v|mp d ip dom vals]; cbn [ev_met]; (constructor; [apply Q5|]); (apply Forall_app; split; auto).
    generalize (ma_vs a). induction vals as [|[n v] vals IHv]; intros l'; cbn [ev_vals]; [constructor|].
    apply Forall_app; split; auto.
Qed.

Lemma elem_alloc k x E : x ∈ allocs k E -> EAlloc k x.1 x.2 ∈ E.
Proof.
  intros H. apply elem_of_list_omap in H as (e & He & Hx). destruct e; cbn in Hx; try discriminate.
  destruct (chan_eqb c k) eqn:Ec; [|discriminate]. apply chan_eqb_spec in Ec. subst. simplify_eq. exact He.
Qed.

Lemma allocs_nonneg c pl ad am k : Forall (fun x => 0 <= x.2) (allocs k (ev_start c pl ad am)).
Proof.
  assert (Forall (fun e => match e with EAlloc _ _ n => 0 <= n | _ => True end) (ev_start c pl ad am)) as HF.
  { apply Forall_start; auto; intros; try lia.
    - unfold InstanceLength, Instance1Length, Instance2Length. destruct (r_version2 _); lia.
    - unfold MetricLength, Metric1Length, Metric2Length. destruct (r_version2 _); lia. }
  apply Forall_forall. intros x Hx. apply elem_alloc in Hx. rewrite Forall_forall in HF. apply (HF _ Hx).
Qed.

Lemma paired_start c pl ad am : paired (ev_start c pl ad am).
Proof. apply Forall_start; auto. Qed.

Lemma covers_start c pl ad am k : plan_fit (k_reg c) pl -> covers k (ev_start c pl ad am).
Proof.
  intros Hf. rewrite ev_start_app. apply covers_app; [|apply covers_app].
  - apply covers_none; apply fix_none.
  - eapply zip_covers; [apply (pf_insts _ _ Hf)|]. cbn. intros. by apply dom_covers.
  - apply (zip_covers (fun _ => True)); [by apply Forall_true|]. intros. apply met_covers.
Qed.

Lemma fix_chain c : (0 < InstanceDomainCount (k_reg c) -> 0 < InstanceCount (k_reg c)) ->
  (0 < InstanceCount (k_reg c) -> 0 < InstanceDomainCount (k_reg c)) ->
  exists R, R ≡ₚ regs None (ev_fix c) /\ chained 0 R (indomoffset (k_reg c)).
Proof.
  intros H1 H2. pose proof (toc_entries_length _ H1 H2) as HL. pose proof (tocs_regs (toc_entries (k_reg c)) HeaderLength) as HC.
  exists (([(0, 4); (4, 4); (8, 8); (16, 8); (24, 4); (28, 4); (32, 4); (36, 4)] : list (Z * Z)) ++ regs None (ev_tocs HeaderLength (toc_entries (k_reg c)))).
  split.
  - change (ev_fix c) with ((EJob None 16 8 [le_enc 8 0; le_enc 8 (k_gen c)] :: ev_header c) ++ ev_tocs HeaderLength (toc_entries (k_reg c))).
    rewrite regs_app. apply Permutation_app_tail. cbn. perm.
  - apply chained_app. exists HeaderLength. split; [cbn; unfold HeaderLength; lia|].
    unfold indomoffset. unfold zlen in HC. rewrite HL in HC. exact HC.
Qed.

Lemma regs_split E : map job_reg (jobs E) ≡ₚ regs None E ++ regs CD E ++ regs CI E ++ regs CM E ++ regs CV E ++ regs CS E.
Proof.
  induction E as [|e E IH]; [constructor|].
  destruct e; try exact IH. unfold jobs, regs in *. cbn. unfold job_reg at 1. cbn [fst snd].
  destruct tag as [[]|]; cbn [tag_eqb chan_eqb CD CI CM CV CS]; rewrite IH; perm.
Qed.

(** The regions of all jobs tile the file. *)
Lemma start_tiles c pl ad am tr s' :
  plan_fit (k_reg c) pl -> length (pl_doms pl) = length ad -> length (pl_mets pl) = length am ->
  sumok (Length (k_reg c)) tr (ev_start c pl ad am) ->
  acts (start_state (k_reg c) ∅ ∅) tr = Some s' \/ (exists offs upds, acts (start_state (k_reg c) offs upds) tr = Some s') ->
  (forall k, av (k_reg c) k = true -> exists e, g_ch s' k = ChFull e) ->
  (forall k, exists R, R ≡ₚ regs (Some k) (ev_start c pl ad am) /\ chained (base (k_reg c) k) R (limit (k_reg c) k)) /\
  (forall k, exists A, A ≡ₚ filter pos (allocs k (ev_start c pl ad am)) /\ chained (base (k_reg c) k) A (limit (k_reg c) k)) /\
  exists R, R ≡ₚ map job_reg (jobs (ev_start c pl ad am)) /\ chained 0 R (Length (k_reg c)).
Proof.
  intros Hf Hd Hm (St & Sp & _) Ha Hfull. set (r := k_reg c) in *.
  assert (exists offs upds, acts (start_state r offs upds) tr = Some s') as (offs & upds & Hac) by (destruct Ha; eauto). clear Ha.
  assert (forall k, exists A, A ≡ₚ filter pos (allocs k (ev_start c pl ad am)) /\ chained (base r k) A (limit r k)) as HA.
  { intros k. pose proof (sizes_start c pl ad am k Hf Hd Hm) as Hsz. fold r in Hsz.
    destruct (av r k) eqn:Eav.
    - destruct (Hfull k Eav) as (e & He).
      pose proof (acts_chan k tr _ _ Hac) as Hch. cbn [start_state g_ch] in Hch. rewrite He, init_ch_av, Eav in Hch.
      rewrite St, Sp in Hch. rewrite paired_takes, paired_puts in Hch by apply paired_start. cbn [ch_list app] in Hch.
      rewrite <- Hsz, <- (chain_end _ _ _ Hch). apply chain_lemma0; [apply allocs_nonneg|exact Hch].
    - exists []. assert (limit r k = base r k) as El.
      { pose proof (StringCount_ge _ _ Hf). pose proof (IDC_nonneg r). destruct Hf as [F1 F2 F3 F4 F5 F6 F7 F8]. fold r in F1, F2, F3, F4, F5, F6, F7, F8.
        assert (0 <= MetricCount r) by (rewrite <- F4; apply zlen_nonneg).
        destruct k; cbn [av base limit] in *.
        - assert (pl_doms pl = []) as E0. { destruct (pl_doms pl); auto. rewrite zlen_cons in F1. pose proof (zlen_nonneg l). lia. }
          rewrite E0 in F3. cbn in F3. unfold metricsoffset. rewrite <- F3. lia.
        - unfold instanceoffset. replace (InstanceDomainCount r) with 0 by lia. lia.
        - unfold valuesoffset. replace (MetricCount r) with 0 by lia. lia.
        - assert (pl_mets pl = []) as E0. { destruct (pl_mets pl); auto. rewrite zlen_cons in F4. pose proof (zlen_nonneg l). lia. }
          rewrite E0 in F6. cbn in F6. unfold stringsoffset. rewrite <- F6. lia.
        - assert (StringCount r = 0) as E0 by lia. unfold Length, stringsoffset, valuesoffset, metricsoffset, instanceoffset, indomoffset. rewrite E0. lia. }
      split.
      + assert (sumZ (map snd (allocs k (ev_start c pl ad am))) = 0) as Hz by lia.
        pose proof (allocs_nonneg c pl ad am k) as Hn. clear -Hz Hn.
        induction Hn as [|x l Hx Hn IH]; [constructor|]. cbn [map sumZ] in Hz.
        pose proof (sumZ_nonneg snd l Hn). rewrite filter_cons_False by (unfold pos; lia). apply IH. lia.
      + rewrite El. reflexivity. }
  assert (forall k, exists R, R ≡ₚ regs (Some k) (ev_start c pl ad am) /\ chained (base r k) R (limit r k)) as HR.
  { intros k. destruct (HA k) as (A & HA1 & HA2). eapply covers_chain; eauto. by apply covers_start. }
  split; [exact HR|]. split; [exact HA|].
  destruct (fix_chain c) as (R0 & HR0 & HC0).
  { apply (pf_guard _ _ Hf). } { apply (plan_ic_idc _ _ Hf). }
  assert (R0 ≡ₚ regs None (ev_start c pl ad am)) as HR0'.
  { rewrite HR0, ev_start_app, !regs_app. unfold ev_doms, ev_mets.
    rewrite (zip_regs_none (ev_dom (k_reg c))) by (intros; apply dom_regs_none; auto).
    rewrite (zip_regs_none (ev_met _)) by (intros; apply met_regs_none; auto). rewrite !app_nil_r. reflexivity. }
  destruct (HR CIndom) as (R1 & HR1 & HC1), (HR CInstance) as (R2 & HR2 & HC2), (HR CMetric) as (R3 & HR3 & HC3),
    (HR CValue) as (R4 & HR4 & HC4), (HR CString) as (R5 & HR5 & HC5). cbn [base limit] in *.
  exists (R0 ++ R1 ++ R2 ++ R3 ++ R4 ++ R5). split.
  - rewrite regs_split, HR0', HR1, HR2, HR3, HR4, HR5. reflexivity.
  - apply chained_app. eexists. split; [exact HC0|]. fold r. repeat (apply chained_app; eexists; split; [eassumption|]). exact HC5.
Qed.
