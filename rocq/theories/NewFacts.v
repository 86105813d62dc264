(** Constructors: which arguments they accept and what they build. *)
From Verif Require Import Base BaseFacts Floats GoVal MetricType ByteWriter Hash Units Indom Metrics Registry Prog
  Client View RegInv World OpRuns RegFacts WorldInv MetricFacts VectorFacts.

(** Specification: arguments every constructor of a metric accepts, and the description they lead to. *)
Definition acceptable (name : gostring) (desc : list gostring) : Prop := name <> [] /\ zlen name <= 256 /\ (length desc <= 2)%nat.
Definition texts_of (desc : list gostring) : gostring * gostring :=
  match desc with [] => ([], []) | [a] => (a, []) | a :: b :: _ => (a, b) end.
Definition described (m : metric) (name : gostring) (desc : list gostring) (t s u : Z) : Prop :=
  md_name (m_desc m) = name /\ md_type (m_desc m) = t /\ md_sem (m_desc m) = s /\ md_unit (m_desc m) = u /\ (md_short (m_desc m), md_long (m_desc m)) = texts_of desc.

Lemma texts_desc desc : (desc_short desc, desc_long desc) = texts_of desc.
Proof. by destruct desc as [|a [|b l]]. Qed.
Lemma new_desc_iff name t s u desc : is_Some (new_desc name t s u desc) <-> acceptable name desc.
Proof.
  unfold new_desc, acceptable, StringLength. destruct (bool_decide_reflect (name = [])) as [->|Hn]; [split; [intros [? ?]; discriminate|tauto]|].
  destruct (256 <? zlen name) eqn:E1; [split; [intros [? ?]; discriminate|lia]|]. destruct (2 <? zlen desc) eqn:E2; unfold zlen in *; [split; [intros [? ?]; discriminate|lia]|].
  split; [intros _; split_and!; auto; lia|eauto].
Qed.
Lemma new_desc_described name t s u desc d k b : new_desc name t s u desc = Some d -> described (mkMetric d k b) name desc t s u.
Proof.
  unfold new_desc, described. repeat (case_match; [discriminate|]). intros H'. simplify_eq. cbn. split_and!; auto. apply texts_desc.
Qed.

Lemma new_single_iff v name t s u desc k : is_Some (d ← new_desc name t s u desc; new_single v d k) <-> acceptable name desc /\ IsCompatible t v = true.
Proof.
  rewrite <- (new_desc_iff name t s u desc). destruct (new_desc name t s u desc) as [d|] eqn:E; simpl.
  - assert (md_type d = t) as Ht by (revert E; unfold new_desc; repeat (case_match; [discriminate|]); intros; by simplify_eq). unfold new_single. rewrite Ht.
    destruct (IsCompatible t v); split; [eauto|eauto|intros [? ?]; discriminate|intros [_ ?]; discriminate].
  - split; [intros [? ?]; discriminate|intros [[? ?] _]; discriminate].
Qed.
Lemma new_single_described v name t s u desc k m : (d ← new_desc name t s u desc; new_single v d k) = Some m ->
  described m name desc t s u /\ m_kind m = k /\ m_val m = Some (resolve t v) /\ no_closures m.
Proof.
  destruct (new_desc name t s u desc) as [d|] eqn:E; simpl; [|discriminate]. intros H. pose proof (new_single_nc _ _ _ _ H) as NC.
  assert (md_type d = t) as Ht by (revert E; unfold new_desc; repeat (case_match; [discriminate|]); intros; by simplify_eq).
  unfold new_single in H. rewrite Ht in H. destruct (IsCompatible t v); [|discriminate]. injection H as <-. split_and!; auto. by eapply new_desc_described.
Qed.

(** Instance metrics of any kind. *)
Lemma inst_body_kind vals ip d ds k k' ord : new_inst_body vals ip d ds k ord = (fun m => with_kind m k) <$> new_inst_body vals ip d ds k' ord.
Proof. unfold new_inst_body. destruct (_ =? _); [|reflexivity]. by destruct (init_vals _ _ _ _). Qed.
Lemma inst_metric_spec (vals : gmap gostring goval) name ip d t s u desc k ord : ord ≡ₚ (map_to_list (id_insts d)).*1 ->
  (is_Some (ds ← new_desc name t s u desc; new_inst_body vals ip d ds k ord) <->
    acceptable name desc /\ dom vals = dom (id_insts d) /\ forall i v, vals !! i = Some v -> IsCompatible t v = true) /\
  forall m, (ds ← new_desc name t s u desc; new_inst_body vals ip d ds k ord) = Some m ->
    described m name desc t s u /\ m_kind m = k /\ m_indom m = Some ip /\ (forall i, val_at m (Some i) = resolve t <$> vals !! i) /\ no_closures m.
Proof.
  intros Ho. assert ((ds ← new_desc name t s u desc; new_inst_body vals ip d ds k ord) = (fun m => with_kind m k) <$> NewPCPInstanceMetric vals name ip d t s u desc ord) as E.
  { unfold NewPCPInstanceMetric. destruct (new_desc name t s u desc) as [ds|]; [|reflexivity]. simpl. apply inst_body_kind. }
  split.
  - rewrite E, fmap_is_Some, (new_instance_iff vals name ip d t s u desc ord Ho). unfold acceptable. tauto.
  - intros m H. rewrite E in H. destruct (NewPCPInstanceMetric vals name ip d t s u desc ord) as [m0|] eqn:E0; [|discriminate]. cbn in H. injection H as <-.
    destruct (new_instance_vals vals name ip d t s u desc ord m0 Ho E0) as (H1 & _ & H3 & _). split_and!; auto.
    + unfold NewPCPInstanceMetric in E0. destruct (new_desc name t s u desc) as [ds|] eqn:Ed; [|discriminate]. unfold new_inst_body in E0. repeat (case_match; try discriminate). injection E0 as <-.
      unfold with_kind. cbn [m_desc m_body]. by eapply new_desc_described.
    + unfold NewPCPInstanceMetric in E0. destruct (new_desc name t s u desc) as [ds|] eqn:Ed; [|discriminate].
      pose proof E0 as E1. unfold new_inst_body in E1. destruct (_ =? _); [|discriminate]. destruct (init_vals _ vals ord ∅) as [cells|] eqn:E2; [|discriminate]. injection E1 as <-.
      intros [n|] c Hc; cbn in Hc; [|discriminate]. destruct (init_vals_spec _ _ _ _ _ E2) as [_ HS]. rewrite HS in Hc. case_decide; [|by rewrite lookup_empty in Hc].
      destruct (vals !! n); [|discriminate]. cbn in Hc. by injection Hc as <-.
Qed.

(** Domains. *)
Lemma add_instances_iff l : forall m, is_Some (add_instances m l) <-> Forall (fun i => zlen i <= 256) l.
Proof.
  induction l as [|i l IH]; intros m; cbn [add_instances]; [split; [constructor|eauto]|]. unfold StringLength in *. rewrite Forall_cons. destruct (256 <? zlen i) eqn:E.
  - split; [intros [? ?]; discriminate|lia].
  - rewrite IH. split; [|tauto]. intros H. split; [lia|exact H].
Qed.
Lemma new_indom_iff name insts desc : is_Some (new_indom name insts desc) <-> name <> [] /\ (length desc <= 2)%nat /\ Forall (fun i => zlen i <= 256) insts.
Proof.
  unfold new_indom. destruct (bool_decide_reflect (name = [])) as [->|Hn]; [split; [intros [? ?]; discriminate|tauto]|].
  destruct (2 <? zlen desc) eqn:E2; unfold zlen in E2; [split; [intros [? ?]; discriminate|lia]|]. pose proof (add_instances_iff insts ∅) as HA.
  destruct (add_instances ∅ insts) as [m|].
  - split; [|eauto]. intros _. split_and!; [auto|lia|apply HA; eauto].
  - split; [intros [? ?]; discriminate|]. intros (_ & _ & H). apply HA in H as [? ?]. discriminate.
Qed.
Lemma new_indom_spec name insts desc d : new_indom name insts desc = Some d ->
  id_name d = name /\ (id_short d, id_long d) = texts_of desc /\ forall n, is_Some (id_insts d !! n) <-> n ∈ insts.
Proof. intros H. destruct (new_indom_ok _ _ _ _ H) as (_ & H1 & H2 & H3 & H4). rewrite H3, H4. split_and!; auto. apply texts_desc. Qed.

(** Vectors: a domain of their own with the keys as instances. *)
Lemma generate_spec (vals : gmap gostring goval) name keys ip t s u desc k ord : keys ≡ₚ (map_to_list vals).*1 -> ord ≡ₚ keys ->
  (is_Some (generate_instance_metric vals name keys ip t s u desc k ord) <->
    acceptable name desc /\ (forall i v, vals !! i = Some v -> zlen i <= 256 /\ IsCompatible t v = true)) /\
  forall d m, generate_instance_metric vals name keys ip t s u desc k ord = Some (d, m) ->
    id_name d = name ++ str ".indom" /\ id_short d = [] /\ id_long d = [] /\ dom (id_insts d) = dom vals /\
    described m name desc t s u /\ m_kind m = k /\ m_indom m = Some ip /\ (forall i, val_at m (Some i) = resolve t <$> vals !! i) /\ no_closures m.
Proof.
  intros HK HO. assert (forall i, i ∈ keys <-> is_Some (vals !! i)) as Hin.
  { intros i. rewrite HK, elem_of_list_fmap. split; [intros ([j v] & -> & K); apply elem_of_map_to_list in K; eauto|]. intros [v K]. exists (i, v). split; [reflexivity|by apply elem_of_map_to_list]. }
  assert (name ++ str ".indom" <> []) as HN. { intros E. apply app_eq_nil in E as [_ E]. revert E. by vm_compute. }
  pose proof (new_indom_iff (name ++ str ".indom") keys []) as HI. unfold generate_instance_metric. destruct (new_indom (name ++ str ".indom") keys []) as [d|] eqn:Ed.
  - destruct (new_indom_spec _ _ _ _ Ed) as (D1 & D2 & D3). cbn in D2. injection D2 as D4 D5.
    assert (dom (id_insts d) = dom vals) as HD. { apply set_eq. intros i. by rewrite !elem_of_dom, D3, Hin. }
    assert (ord ≡ₚ (map_to_list (id_insts d)).*1) as Ho.
    { rewrite HO, HK. apply NoDup_Permutation; [apply NoDup_fst_map_to_list|apply NoDup_fst_map_to_list|]. intros i. rewrite <- HK, Hin.
      rewrite (elem_of_list_fmap fst). rewrite <- elem_of_dom, <- HD, elem_of_dom. split; [intros [z Hz]; exists (i, z); split; [reflexivity|by apply elem_of_map_to_list]|].
      intros ([j z] & -> & Hz). apply elem_of_map_to_list in Hz. eauto. }
    destruct (inst_metric_spec vals name ip d t s u desc k ord Ho) as [S1 S2].
    destruct HI as [HI _]. destruct (HI ltac:(eauto)) as (_ & _ & HF). rewrite Forall_forall in HF.
    destruct (new_desc name t s u desc) as [ds|]; simpl in S1, S2.
    + destruct (new_inst_body vals ip d ds k ord) as [m|].
      * split; [|intros d' m' [= <- <-]; destruct (S2 _ eq_refl) as (?&?&?&?&?); split_and!; auto]. split; [|eauto]. intros _. destruct S1 as [S1 _]. destruct (S1 ltac:(eauto)) as (A1 & A2 & A3).
        split; [exact A1|]. intros i v Hv. split; [|eauto]. apply HF, Hin. eauto.
      * split; [|discriminate]. split; [intros [? ?]; discriminate|]. intros (A1 & A2). destruct S1 as [_ S1]. destruct S1 as [? ?]; [|discriminate]. split_and!; auto. intros i v Hv. by apply (A2 i v).
    + split; [|discriminate]. split; [intros [? ?]; discriminate|]. intros (A1 & A2). destruct S1 as [_ S1]. destruct S1 as [? ?]; [|discriminate]. split_and!; auto. intros i v Hv. by apply (A2 i v).
  - split; [|discriminate]. split; [intros [? ?]; discriminate|]. intros (A1 & A2). destruct HI as [_ HI]. destruct HI as [? ?]; [|discriminate]. split; [exact HN|]. split; [cbn; lia|].
    apply Forall_forall. intros i Hi. apply Hin in Hi as [v Hv]. by apply (A2 i v).
Qed.
