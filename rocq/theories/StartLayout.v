(** The regions written by a complete run of start() tile the whole file. *)
From Verif Require Import Base BaseFacts Floats GoVal MetricType ByteWriter Hash Units Indom Metrics Registry Prog
  Client Mmvdump Ileave ProgProofs Events StartEvents BufFacts Tiling StartGood.

Definition chan_eqb (a b : chan) : bool :=
  match a, b with
  | CInstance, CInstance | CIndom, CIndom | CMetric, CMetric | CValue, CValue | CString, CString => true
  | _, _ => false
  end.
Definition tag_eqb (a b : option chan) : bool :=
  match a, b with None, None => true | Some a, Some b => chan_eqb a b | _, _ => false end.

Lemma chan_eqb_spec a b : chan_eqb a b = true <-> a = b.
Proof. destruct a, b; cbn; split; congruence. Qed.
Lemma tag_eqb_refl t : tag_eqb t t = true.
Proof. destruct t as [[]|]; reflexivity. Qed.

Definition e_alloc (c : chan) (e : ev) : option (Z * Z) :=
  match e with EAlloc c' v n => if chan_eqb c' c then Some (v, n) else None | _ => None end.
Definition e_reg (t : option chan) (e : ev) : option (Z * Z) :=
  match e with EJob t' lo w _ => if tag_eqb t' t then Some (lo, w) else None | _ => None end.
Definition allocs (c : chan) (E : list ev) := omap (e_alloc c) E.
Definition regs (t : option chan) (E : list ev) := omap (e_reg t) E.

Lemma allocs_app c E1 E2 : allocs c (E1 ++ E2) = allocs c E1 ++ allocs c E2.
Proof. apply omap_app. Qed.
Lemma regs_app c E1 E2 : regs c (E1 ++ E2) = regs c E1 ++ regs c E2.
Proof. apply omap_app. Qed.

(** No unmatched take or put. *)
Definition paired (E : list ev) : Prop :=
  Forall (fun e => match e with ETake _ _ | EPut _ _ => False | _ => True end) E.

Lemma paired_takes c E : paired E -> omap (sel c) (omap e_take E) = map fst (allocs c E).
Proof.
  induction 1 as [|e E He HF IH]; [reflexivity|]. unfold allocs in *. destruct e; cbn in *; auto; try contradiction.
  unfold sel at 1. cbn. destruct (decide (c0 = c)) as [->|Hne].
  - replace (chan_eqb c c) with true by (symmetry; apply chan_eqb_spec; auto). cbn. f_equal. exact IH.
  - destruct (chan_eqb c0 c) eqn:Ec; [apply chan_eqb_spec in Ec; congruence|]. exact IH.
Qed.

Lemma paired_puts c E : paired E -> omap (sel c) (omap e_put E) = ends (allocs c E).
Proof.
  induction 1 as [|e E He HF IH]; [reflexivity|]. unfold allocs in *. destruct e; cbn in *; auto; try contradiction.
  unfold sel at 1. cbn. destruct (decide (c0 = c)) as [->|Hne].
  - replace (chan_eqb c c) with true by (symmetry; apply chan_eqb_spec; auto). cbn. f_equal. exact IH.
  - destruct (chan_eqb c0 c) eqn:Ec; [apply chan_eqb_spec in Ec; congruence|]. exact IH.
Qed.

(** ** Regions cover the slots they were allocated from *)

Definition pos (x : Z * Z) : Prop := 0 < x.2.
Global Instance pos_dec x : Decision (pos x). Proof. unfold pos. apply _. Defined.

Definition covers (c : chan) (E : list ev) : Prop :=
  exists G : list ((Z * Z) * list (Z * Z)),
    regs (Some c) E ≡ₚ concat (map snd G) /\ filter pos (allocs c E) ≡ₚ map fst G /\
    Forall (fun g => chained g.1.1 g.2 (g.1.1 + g.1.2)) G.

Lemma covers_nil c : covers c []. Proof. exists []. split_and!; constructor. Qed.

Lemma covers_app c E1 E2 : covers c E1 -> covers c E2 -> covers c (E1 ++ E2).
Proof.
  intros (G1 & H1 & H2 & H3) (G2 & I1 & I2 & I3). exists (G1 ++ G2). split_and!.
  - rewrite regs_app, map_app, concat_app, H1, I1. reflexivity.
  - rewrite allocs_app, filter_app, map_app, H2, I2. reflexivity.
  - apply Forall_app. auto.
Qed.

Lemma covers_none c E : regs (Some c) E = [] -> allocs c E = [] -> covers c E.
Proof. intros H1 H2. exists []. rewrite H1, H2. split_and!; constructor. Qed.

Lemma covers_one c E v n R : 0 < n -> allocs c E = [(v, n)] -> regs (Some c) E ≡ₚ R -> chained v R (v + n) -> covers c E.
Proof.
  intros Hn HA HR HC. exists [((v, n), R)]. split_and!.
  - cbn. rewrite app_nil_r. exact HR.
  - rewrite HA. rewrite filter_cons_True by exact Hn. reflexivity.
  - constructor; [exact HC|constructor].
Qed.

Lemma covers_perm c E E' : E ≡ₚ E' -> covers c E -> covers c E'.
Proof.
  intros HP (G & H1 & H2 & H3). exists G. unfold regs, allocs in *. rewrite <- HP. auto.
Qed.

Lemma covers_concat c Es : Forall (covers c) Es -> covers c (concat Es).
Proof. induction 1; cbn; [apply covers_nil|]. apply covers_app; auto. Qed.

Lemma covers_chain c E b e A : covers c E -> A ≡ₚ filter pos (allocs c E) -> chained b A e ->
  exists R, R ≡ₚ regs (Some c) E /\ chained b R e.
Proof.
  intros (G & H1 & H2 & H3) HA HC. rewrite H2 in HA.
  assert (exists G', A = map fst G' /\ G ≡ₚ G') as (G' & -> & HG).
  { apply Permutation_map_inv in HA. exact HA. }
  exists (concat (map snd G')). split.
  - rewrite H1, HG. reflexivity.
  - eapply (chained_refine fst snd); [exact HC|]. rewrite <- HG. exact H3.
Qed.

(** ** Strings *)
Lemma str_allocs s so c : allocs c (ev_str s so) = if chan_eqb CString c && nonempty s then [(so, 256)] else [].
Proof. unfold ev_str. destruct (nonempty s), c; reflexivity. Qed.
Lemma str_regs s so t : regs t (ev_str s so) = if tag_eqb CS t && nonempty s then [(so, 256)] else [].
Proof. unfold ev_str. destruct (nonempty s), t as [[]|]; reflexivity. Qed.
Lemma str_covers c s so : covers c (ev_str s so).
Proof.
  destruct (chan_eqb CString c && nonempty s) eqn:E.
  - apply andb_prop in E as [E1 E2]. apply chan_eqb_spec in E1 as <-.
    eapply covers_one; [|rewrite str_allocs, E2; reflexivity|rewrite str_regs, E2; reflexivity|]; cbn; lia.
  - apply covers_none; [rewrite str_regs|rewrite str_allocs]; destruct c, (nonempty s); cbn in *; congruence || reflexivity.
Qed.

(** ** Instances *)
Definition ilen_of (v2 : bool) : Z := if v2 then Instance2Length else Instance1Length.

Lemma inst_regs v2 ip n id io off so :
  regs CI (ev_inst v2 ip n id io off so) =
  [(off, 8); (off + 8, 4); (off + 12, 4); (off + 16, if v2 then 8 else 64)].
Proof. destruct v2; reflexivity. Qed.

Lemma insts_regs v2 ip io l : forall ioff ss,
  chained ioff (regs CI (ev_insts v2 ip io (ilen_of v2) ioff l ss)) (ioff + ilen_of v2 * zlen l).
Proof.
  induction l as [|[n id] l IH]; intros ioff ss; cbn [ev_insts].
  - cbn. unfold zlen. cbn. lia.
  - rewrite regs_app, inst_regs. apply chained_app. exists (ioff + ilen_of v2). split.
    + destruct v2; cbn; unfold Instance1Length, Instance2Length; split_and!; lia.
    + replace (ioff + ilen_of v2 * zlen ((n, id) :: l)) with (ioff + ilen_of v2 + ilen_of v2 * zlen l) by (rewrite zlen_cons; lia).
      apply IH.
Qed.

Lemma insts_allocs c v2 ip io ilen l : forall ioff ss, c <> CString -> allocs c (ev_insts v2 ip io ilen ioff l ss) = [].
Proof.
  induction l as [|[n id] l IH]; intros ioff ss Hc; cbn [ev_insts]; [reflexivity|].
  rewrite allocs_app, IH by auto. destruct v2, c; try congruence; reflexivity.
Qed.

Lemma insts_regs_none t v2 ip io ilen l : forall ioff ss, t <> CI -> t <> CS -> regs t (ev_insts v2 ip io ilen ioff l ss) = [].
Proof.
  induction l as [|[n id] l IH]; intros ioff ss Hc Hc'; cbn [ev_insts]; [reflexivity|].
  rewrite regs_app, IH by auto. unfold CI, CS in *. destruct v2, t as [[]|]; try congruence; reflexivity.
Qed.

Lemma insts_str_covers v2 ip io ilen l : forall ioff ss, covers CString (ev_insts v2 ip io ilen ioff l ss).
Proof.
  induction l as [|[n id] l IH]; intros ioff ss; cbn [ev_insts]; [apply covers_nil|].
  apply covers_app; [|apply IH]. destruct v2.
  - eapply covers_one; [|reflexivity|reflexivity|]; cbn; unfold StringLength; lia.
  - apply covers_none; reflexivity.
Qed.

Lemma insts_str_allocs v2 ip io ilen l : forall ioff ss,
  sumZ (map snd (allocs CString (ev_insts v2 ip io ilen ioff l ss))) = if v2 then 256 * zlen l else 0.
Proof.
  induction l as [|[n id] l IH]; intros ioff ss; cbn [ev_insts].
  - destruct v2; reflexivity.
  - rewrite allocs_app, map_app, sumZ_app, IH, zlen_cons. destruct v2; cbn [ev_inst allocs omap list_omap e_alloc app chan_eqb map snd sumZ]; unfold StringLength; lia.
Qed.

(** ** Domains *)
Lemma InstanceLength_eq r : InstanceLength r = ilen_of (r_version2 r). Proof. reflexivity. Qed.

Lemma dom_allocs_indom r x a : allocs CIndom (ev_dom r x a) = [(da_off a, 32)].
Proof. unfold ev_dom. rewrite !allocs_app, !str_allocs, insts_allocs by discriminate. reflexivity. Qed.
Lemma dom_allocs_inst r x a : allocs CInstance (ev_dom r x a) = [(da_ioff a, InstanceLength r * instance_count x.1.2)].
Proof. unfold ev_dom. rewrite !allocs_app, !str_allocs, insts_allocs by discriminate. reflexivity. Qed.
Lemma dom_allocs_none c r x a : c = CMetric \/ c = CValue -> allocs c (ev_dom r x a) = [].
Proof. intros H. unfold ev_dom. rewrite !allocs_app, !str_allocs, insts_allocs by (destruct H; subst; discriminate). destruct H; subst; reflexivity. Qed.
Lemma dom_regs_none t r x a : t = None \/ t = CM \/ t = CV -> regs t (ev_dom r x a) = [].
Proof. intros H. unfold ev_dom. rewrite !regs_app, !str_regs, insts_regs_none by (destruct H as [->|[->| ->]]; discriminate). destruct H as [->|[->| ->]]; reflexivity. Qed.

Lemma dom_covers c r x a : zlen x.2 = instance_count x.1.2 -> covers c (ev_dom r x a).
Proof.
  intros Hl. destruct c.
  - (* instances *)
    destruct (decide (0 < instance_count x.1.2)) as [Hp|Hp].
    + eapply covers_one.
      2: { apply dom_allocs_inst. }
      * unfold InstanceLength, Instance1Length, Instance2Length. destruct (r_version2 r); lia.
      * unfold ev_dom. rewrite !regs_app, !str_regs. cbn. reflexivity.
      * rewrite <- Hl. rewrite InstanceLength_eq. apply insts_regs.
    + pose proof (instance_count_nonneg x.1.2).
      exists []. split_and!.
      * unfold ev_dom. rewrite !regs_app, !str_regs. destruct x.2; [reflexivity|]. rewrite zlen_cons in Hl. pose proof (zlen_nonneg l). lia.
      * rewrite dom_allocs_inst. rewrite filter_cons_False; [reflexivity|]. unfold pos; cbn.
        unfold InstanceLength, Instance1Length, Instance2Length. destruct (r_version2 r); lia.
      * constructor.
  - eapply covers_one.
    2: { apply dom_allocs_indom. }
    + lia.
    + unfold ev_dom. rewrite !regs_app, !str_regs, insts_regs_none by discriminate. reflexivity.
    + cbn. split_and!; lia.
  - apply covers_none; [apply dom_regs_none|apply dom_allocs_none]; auto.
  - apply covers_none; [apply dom_regs_none|apply dom_allocs_none]; auto.
  - unfold ev_dom. apply covers_app; [apply covers_none; reflexivity|].
    apply covers_app; [apply str_covers|]. apply covers_app; [apply str_covers|]. apply insts_str_covers.
Qed.

Lemma sum_str s so : sumZ (map snd (allocs CString (ev_str s so))) = 256 * b2z (nonempty s).
Proof. rewrite str_allocs. destruct (nonempty s); reflexivity. Qed.

Lemma dom_str_sum r x a : zlen x.2 = instance_count x.1.2 ->
  sumZ (map snd (allocs CString (ev_dom r x a))) = 256 * (dom_strings x + if r_version2 r then instance_count x.1.2 else 0).
Proof.
  intros Hl. unfold ev_dom. rewrite !allocs_app, !map_app, !sumZ_app, !sum_str, insts_str_allocs, Hl.
  unfold dom_strings. cbn [allocs omap list_omap e_alloc chan_eqb map sumZ]. destruct (r_version2 r); lia.
Qed.

(** ** Metrics *)
Lemma rest_allocs c d iid off so lo : c <> CString -> allocs c (ev_rest d iid off so lo) = [].
Proof. intros. unfold ev_rest. rewrite !allocs_app, !str_allocs. destruct c; try congruence; reflexivity. Qed.
Lemma desc_allocs c v2 d iid a : c <> CString -> allocs c (ev_desc v2 d iid a) = [].
Proof.
  intros. unfold ev_desc. destruct v2.
  - rewrite allocs_app, rest_allocs by auto. destruct c; try congruence; reflexivity.
  - change (allocs c ([EJob CM (ma_off a) 64 [md_name d]] ++ ev_rest d iid (ma_off a + 64) (ma_so a) (ma_lo a)) = []).
    rewrite allocs_app, rest_allocs by auto. reflexivity.
Qed.
Lemma rest_regs_m d iid off so lo : regs CM (ev_rest d iid off so lo) =
  [(off, 4); (off + 4, 4); (off + 8, 4); (off + 12, 4); (off + 16, 4); (off + 20, 4); (off + 24, 8); (off + 32, 8)].
Proof. unfold ev_rest. rewrite !regs_app, !str_regs. reflexivity. Qed.
Lemma rest_regs_none t d iid off so lo : t <> CM -> t <> CS -> regs t (ev_rest d iid off so lo) = [].
Proof. intros. unfold ev_rest. rewrite !regs_app, !str_regs. unfold CM, CS in *. destruct t as [[]|]; try congruence; reflexivity. Qed.
Lemma desc_regs_none t v2 d iid a : t <> CM -> t <> CS -> regs t (ev_desc v2 d iid a) = [].
Proof.
  intros. unfold ev_desc. destruct v2.
  - rewrite regs_app, rest_regs_none by auto. unfold CM, CS in *. destruct t as [[]|]; try congruence; reflexivity.
  - change (regs t ([EJob CM (ma_off a) 64 [md_name d]] ++ ev_rest d iid (ma_off a + 64) (ma_so a) (ma_lo a)) = []).
    rewrite regs_app, rest_regs_none by auto. unfold CM, CS in *. destruct t as [[]|]; try congruence; reflexivity.
Qed.
Lemma desc_regs_m v2 d iid a : chained (ma_off a) (regs CM (ev_desc v2 d iid a)) (ma_off a + mlen v2).
Proof.
  unfold ev_desc. destruct v2.
  - rewrite regs_app, rest_regs_m. cbn. unfold Metric2Length. split_and!; lia.
  - change (chained (ma_off a) (regs CM ([EJob CM (ma_off a) 64 [md_name d]] ++ ev_rest d iid (ma_off a + 64) (ma_so a) (ma_lo a))) (ma_off a + mlen false)).
    rewrite regs_app, rest_regs_m. cbn. unfold Metric1Length. split_and!; lia.
Qed.

Lemma rest_str_covers d iid off so lo : covers CString (ev_rest d iid off so lo).
Proof. unfold ev_rest. apply covers_app; [apply covers_none; reflexivity|]. apply covers_app; apply str_covers. Qed.

Lemma desc_str_covers v2 d iid a : covers CString (ev_desc v2 d iid a).
Proof.
  unfold ev_desc. destruct v2.
  - apply covers_app; [|apply rest_str_covers]. eapply covers_one; [|reflexivity|reflexivity|]; cbn; unfold StringLength; lia.
  - apply (covers_app _ [_]); [apply covers_none; reflexivity|apply rest_str_covers].
Qed.

Lemma rest_str_sum d iid off so lo : sumZ (map snd (allocs CString (ev_rest d iid off so lo))) =
  256 * (b2z (nonempty (md_short d)) + b2z (nonempty (md_long d))).
Proof. unfold ev_rest. rewrite !allocs_app, !map_app, !sumZ_app, !sum_str. cbn [allocs omap list_omap e_alloc chan_eqb map sumZ]. lia. Qed.

Lemma desc_str_sum v2 d iid a : sumZ (map snd (allocs CString (ev_desc v2 d iid a))) =
  256 * (b2z (nonempty (md_short d)) + b2z (nonempty (md_long d)) + b2z v2).
Proof.
  unfold ev_desc. destruct v2.
  - rewrite allocs_app, map_app, sumZ_app, rest_str_sum. cbn [allocs omap list_omap e_alloc chan_eqb map sumZ snd b2z]. unfold StringLength. lia.
  - change (sumZ (map snd (allocs CString ([EJob CM (ma_off a) 64 [md_name d]] ++ ev_rest d iid (ma_off a + 64) (ma_so a) (ma_lo a)))) = 256 * (b2z (nonempty (md_short d)) + b2z (nonempty (md_long d)) + 0)).
    rewrite allocs_app, map_app, sumZ_app, rest_str_sum. cbn [allocs omap list_omap e_alloc chan_eqb map sumZ snd b2z]. lia.
Qed.

(** values *)
Lemma v1_app t key doff get v a : ev_v1 t key doff get v a =
  [EAlloc CValue (va_off a) ValueLength] ++ ev_val t v (va_off a) (va_so a) key
  ++ [EJob CV (va_off a + 16) 8 [le_enc 8 doff]; EJob CV (va_off a + 24) 8 [le_enc 8 (va_io a)]] ++ get.
Proof. reflexivity. Qed.
Lemma val_allocs c t v off so key : allocs c (ev_val t v off so key) = if (t =? StringType) && chan_eqb CString c then [(so, 256)] else [].
Proof. unfold ev_val. destruct (t =? StringType), c; reflexivity. Qed.
Lemma val_regs_v t v off so key : regs CV (ev_val t v off so key) ≡ₚ [(off, 8); (off + 8, 8)].
Proof. unfold ev_val. destruct (t =? StringType); cbn; perm. Qed.
Lemma val_regs r t v off so key : r <> CV -> regs r (ev_val t v off so key) = if (t =? StringType) && tag_eqb CS r then [(so, 256)] else [].
Proof. intros H. unfold ev_val, CV in *. destruct (t =? StringType), r as [[]|]; try congruence; reflexivity. Qed.
Lemma v1_allocs_value t key doff get v a : allocs CValue get = [] -> allocs CValue (ev_v1 t key doff get v a) = [(va_off a, 32)].
Proof. intros Hg. rewrite v1_app, !allocs_app, val_allocs, Hg. rewrite andb_false_r. reflexivity. Qed.
Lemma v1_covers_value t key doff get v a : allocs CValue get = [] -> regs CV get = [] -> covers CValue (ev_v1 t key doff get v a).
Proof.
  intros Hg Hr. eapply (covers_one _ _ _ _ [(va_off a, 8); (va_off a + 8, 8); (va_off a + 16, 8); (va_off a + 24, 8)]).
  2: { apply v1_allocs_value, Hg. }
  - lia.
  - rewrite v1_app, !regs_app. fold CV. rewrite val_regs_v, Hr. cbn. reflexivity.
  - cbn. split_and!; lia.
Qed.
Lemma v1_allocs_none c t key doff get v a : allocs c get = [] -> c <> CValue -> c <> CString -> allocs c (ev_v1 t key doff get v a) = [].
Proof.
  intros Hg H1 H2. rewrite v1_app, !allocs_app, val_allocs, Hg. destruct (t =? StringType), c; try congruence; reflexivity.
Qed.
Lemma v1_regs_none r t key doff get v a : regs r get = [] -> r <> CV -> r <> CS -> regs r (ev_v1 t key doff get v a) = [].
Proof.
  intros Hg H1 H2. rewrite v1_app, !regs_app, val_regs, Hg by auto. unfold CV, CS in *. destruct (t =? StringType), r as [[]|]; try congruence; reflexivity.
Qed.
Lemma v1_str_covers t key doff get v a : allocs CString get = [] -> regs CS get = [] -> covers CString (ev_v1 t key doff get v a).
Proof.
  intros Hg Hr. destruct (t =? StringType) eqn:E.
  - eapply (covers_one _ _ (va_so a) 256 [(va_so a, 256)]); [lia| | |cbn; lia].
    + rewrite v1_app, !allocs_app, val_allocs, Hg, E. reflexivity.
    + rewrite v1_app, !regs_app. fold CS. rewrite val_regs, Hr, E by discriminate. reflexivity.
  - apply covers_none.
    + rewrite v1_app, !regs_app. fold CS. rewrite val_regs, Hr, E by discriminate. reflexivity.
    + rewrite v1_app, !allocs_app, val_allocs, Hg, E. reflexivity.
Qed.
Lemma v1_str_sum t key doff get v a : allocs CString get = [] ->
  sumZ (map snd (allocs CString (ev_v1 t key doff get v a))) = if t =? StringType then 256 else 0.
Proof.
  intros Hg. rewrite v1_app, !allocs_app, val_allocs, Hg. destruct (t =? StringType); reflexivity.
Qed.

Lemma vals_allocs_none c t mp ip doff vals : forall l, c <> CValue -> c <> CString -> allocs c (ev_vals t mp ip doff vals l) = [].
Proof.
  induction vals as [|[n v] vals IH]; intros l H1 H2; cbn [ev_vals]; [reflexivity|].
  rewrite allocs_app, v1_allocs_none, IH by auto. reflexivity.
Qed.
Lemma vals_regs_none r t mp ip doff vals : forall l, r <> CV -> r <> CS -> regs r (ev_vals t mp ip doff vals l) = [].
Proof.
  induction vals as [|[n v] vals IH]; intros l H1 H2; cbn [ev_vals]; [reflexivity|].
  rewrite regs_app, v1_regs_none, IH by auto. reflexivity.
Qed.
Lemma vals_covers c t mp ip doff vals : forall l, c = CValue \/ c = CString -> covers c (ev_vals t mp ip doff vals l).
Proof.
  induction vals as [|[n v] vals IH]; intros l H; cbn [ev_vals]; [apply covers_nil|].
  apply covers_app; [|auto]. destruct H as [-> | ->]; [apply v1_covers_value|apply v1_str_covers]; reflexivity.
Qed.
Lemma vals_allocs_value t mp ip doff vals : forall l, map snd (allocs CValue (ev_vals t mp ip doff vals l)) = replicate (length vals) 32.
Proof.
  induction vals as [|[n v] vals IH]; intros l; cbn [ev_vals]; [reflexivity|].
  rewrite allocs_app, map_app, v1_allocs_value, IH by auto. reflexivity.
Qed.
Lemma vals_str_sum t mp ip doff vals : forall l,
  sumZ (map snd (allocs CString (ev_vals t mp ip doff vals l))) = if t =? StringType then 256 * zlen vals else 0.
Proof.
  induction vals as [|[n v] vals IH]; intros l; cbn [ev_vals].
  - destruct (t =? StringType); reflexivity.
  - rewrite allocs_app, map_app, sumZ_app, v1_str_sum, IH, zlen_cons by auto. destruct (t =? StringType); lia.
Qed.

Lemma met_unfold v2 m a : exists iid Ev, ev_met v2 m a = [EAlloc CMetric (ma_off a) (mlen v2)] ++ ev_desc v2 (mp_desc m) iid a ++ Ev /\
  (forall c, c <> CValue -> c <> CString -> allocs c Ev = []) /\ (forall t, t <> CV -> t <> CS -> regs t Ev = []) /\
  covers CValue Ev /\ covers CString Ev /\ map snd (allocs CValue Ev) = replicate (Z.to_nat (mp_values m)) 32 /\
  sumZ (map snd (allocs CString Ev)) = if md_type (mp_desc m) =? StringType then 256 * mp_values m else 0.
Proof.
  destruct m as [mp d v|mp d ip dom vals]; cbn [ev_met mp_desc mp_values].
  - eexists _, _. split; [reflexivity|]. split_and!.
    + intros. apply v1_allocs_none; auto.
    + intros. apply v1_regs_none; auto.
    + apply v1_covers_value; auto.
    + apply v1_str_covers; auto.
    + rewrite v1_allocs_value by auto. reflexivity.
    + rewrite v1_str_sum by auto. destruct (_ =? _); lia.
  - eexists _, _. split; [reflexivity|]. split_and!.
    + intros. apply vals_allocs_none; auto.
    + intros. apply vals_regs_none; auto.
    + apply vals_covers; auto.
    + apply vals_covers; auto.
    + rewrite vals_allocs_value. unfold zlen. rewrite Nat2Z.id. reflexivity.
    + rewrite vals_str_sum. reflexivity.
Qed.

Lemma met_covers c v2 m a : covers c (ev_met v2 m a).
Proof.
  destruct (met_unfold v2 m a) as (iid & Ev & -> & HA & HR & HV & HS & _ & _).
  destruct c.
  - apply covers_none; [rewrite !regs_app, desc_regs_none, HR by discriminate|rewrite !allocs_app, desc_allocs, HA by discriminate]; reflexivity.
  - apply covers_none; [rewrite !regs_app, desc_regs_none, HR by discriminate|rewrite !allocs_app, desc_allocs, HA by discriminate]; reflexivity.
  - eapply (covers_one _ _ (ma_off a) (mlen v2) (regs CM (ev_desc v2 (mp_desc m) iid a))).
    + destruct v2; cbn; unfold Metric1Length, Metric2Length; lia.
    + rewrite !allocs_app, desc_allocs, HA by discriminate. reflexivity.
    + fold CM. rewrite !regs_app, (HR CM) by discriminate. rewrite app_nil_r. reflexivity.
    + apply desc_regs_m.
  - apply covers_app; [apply covers_none; reflexivity|]. apply covers_app; [|exact HV].
    apply covers_none; [apply desc_regs_none; discriminate|apply desc_allocs; discriminate].
  - apply covers_app; [apply covers_none; reflexivity|]. apply covers_app; [apply desc_str_covers|exact HS].
Qed.

Lemma met_allocs_metric v2 m a : allocs CMetric (ev_met v2 m a) = [(ma_off a, mlen v2)].
Proof.
  destruct (met_unfold v2 m a) as (iid & Ev & -> & HA & _).
  rewrite !allocs_app, desc_allocs, HA by discriminate. reflexivity.
Qed.
Lemma met_allocs_none c v2 m a : c = CInstance \/ c = CIndom -> allocs c (ev_met v2 m a) = [].
Proof.
  intros H. destruct (met_unfold v2 m a) as (iid & Ev & -> & HA & _).
  rewrite !allocs_app, desc_allocs, HA by (destruct H; subst; discriminate). destruct H; subst; reflexivity.
Qed.
Lemma met_regs_none t v2 m a : t = None \/ t = CI \/ t = CD -> regs t (ev_met v2 m a) = [].
Proof.
  intros H. destruct (met_unfold v2 m a) as (iid & Ev & -> & _ & HR & _).
  rewrite !regs_app, desc_regs_none, HR by (destruct H as [->|[->| ->]]; discriminate). destruct H as [->|[->| ->]]; reflexivity.
Qed.
Lemma met_values v2 m a : map snd (allocs CValue (ev_met v2 m a)) = replicate (Z.to_nat (mp_values m)) 32.
Proof.
  destruct (met_unfold v2 m a) as (iid & Ev & -> & _ & _ & _ & _ & HV & _).
  rewrite !allocs_app, desc_allocs by discriminate. exact HV.
Qed.
Lemma met_str_sum v2 m a : sumZ (map snd (allocs CString (ev_met v2 m a))) = 256 * (mp_strings m + b2z v2).
Proof.
  destruct (met_unfold v2 m a) as (iid & Ev & -> & _ & _ & _ & _ & _ & HS).
  rewrite !allocs_app, !map_app, !sumZ_app, desc_str_sum, HS. unfold mp_strings.
  cbn [allocs omap list_omap e_alloc chan_eqb map sumZ]. destruct (_ =? StringType); lia.
Qed.

(** ** The table of contents and the header *)
Lemma tocs_regs l : forall p, chained p (regs None (ev_tocs p l)) (p + TocLength * zlen l).
Proof.
  induction l as [|[[x y] z] l IH]; intros p; cbn [ev_tocs].
  - cbn. unfold zlen; cbn. lia.
  - cbn [regs omap list_omap e_reg tag_eqb chained]. fold (regs None).
    rewrite zlen_cons. split_and!; try lia.
    replace (p + 4 + 4 + 8) with (p + TocLength) by (unfold TocLength; lia).
    replace (p + TocLength * (1 + zlen l)) with (p + TocLength + TocLength * zlen l) by lia. apply IH.
Qed.
Lemma tocs_none l : forall p, (forall c, allocs c (ev_tocs p l) = []) /\ (forall c, regs (Some c) (ev_tocs p l) = []).
Proof.
  induction l as [|[[x y] z] l IH]; intros p; cbn [ev_tocs]; [split; reflexivity|].
  destruct (IH (p + TocLength)) as [H1 H2]. split; intros c; [apply H1|apply H2].
Qed.
