(** An update of one value keeps the file an image of the (changed) plan. *)
From Verif Require Import Base BaseFacts Floats GoVal MetricType ByteWriter Hash Units Indom Metrics Registry Prog
  Client Mmvdump Ileave ProgProofs Events StartEvents BufFacts Tiling StartGood StartLayout StartFinal StartDone
  View Sections StartView RegInv.

(** ** Write calls *)
Lemma store_loop_ok d : forall buf off, 0 <= off -> off + zlen d <= zlen buf ->
  store_loop buf off d = (do_stores buf (stores_of off d), true).
Proof.
  induction d as [|b d IH]; intros buf off H0 H1; [reflexivity|]. rewrite zlen_cons in H1. pose proof (zlen_nonneg d).
  cbn [store_loop stores_of]. rewrite do_stores_cons. unfold do_store. cbn [fst snd]. unfold bset.
  replace ((off <? 0) || (zlen buf <=? off)) with false by lia. apply IH; [lia|].
  unfold zlen in *. rewrite insert_length. lia.
Qed.

Lemma bw_write_ok buf d off : 0 <= off -> off + zlen d <= zlen buf ->
  bw_write buf d off = WOk (do_stores buf (stores_of off d)) (off + zlen d).
Proof. intros. unfold bw_write. replace (zlen buf <? off + zlen d) with false by lia. rewrite store_loop_ok; auto. Qed.

(** The buffer after the update closure ran at [off]. *)
Definition upd_buf (buf : list byte) (off : Z) (v : goval) : list byte :=
  do_stores buf (concat (map (stores_of off) (upd_ds v).*2)).

Lemma upd_buf_len buf off v : zlen (upd_buf buf off v) = zlen buf.
Proof. apply do_stores_length. Qed.

Definition slot_w (t : Z) : Z := if t =? StringType then StringLength else 8.

Lemma upd_ds_fit t v : vtyped t v -> val_fits v -> Forall (fun d => zlen d <= slot_w t) (upd_ds v).*2.
Proof.
  unfold slot_w. destruct v; cbn [vtyped val_fits upd_ds val_bytes]; try contradiction; intros H Hf.
  all: match type of H with _ /\ _ => destruct H as [-> _] | _ => subst t end.
  all: repeat first [apply Forall_nil_2|apply Forall_cons_2].
  all: cbn [snd]; rewrite ?zlen_le_enc; try exact Hf; cbv; discriminate.
Qed.

Lemma run_update_ok fs cl v t wr buf :
  f_writers fs !! cl_writer cl = Some wr -> wr_live wr = true -> f_inodes fs !! wr_inode wr = Some buf ->
  vtyped t v -> val_fits v -> 0 <= cl_off cl -> cl_off cl + slot_w t <= zlen buf ->
  run_update fs cl v = (ROk, mkFiles (f_writers fs) (<[wr_inode wr := upd_buf buf (cl_off cl) v]> (f_inodes fs))).
Proof.
  intros H1 H2 H3 Ht Hf Ho Hl. pose proof (upd_ds_fit _ _ Ht Hf) as HF.
  assert (forall d, zlen d <= slot_w t -> with_writer fs (cl_writer cl) (fun b => bw_write b d (cl_off cl)) =
    (ROk, mkFiles (f_writers fs) (<[wr_inode wr := do_stores buf (stores_of (cl_off cl) d)]> (f_inodes fs)))) as G.
  { intros d Hd. unfold with_writer. rewrite H1, H2, H3. rewrite bw_write_ok by lia. reflexivity. }
  unfold upd_buf. destruct v; cbn [vtyped] in Ht; try contradiction; cbn [run_update upd_ds val_bytes fmap list_fmap snd map concat] in *;
    rewrite ?app_nil_r; try (inversion HF; subst; apply G; assumption).
  inversion HF as [|? ? F1 F2]; subst. inversion F2 as [|? ? F3 _]; subst.
  unfold with_writer at 1. rewrite H1, H2, H3. unfold bw_must_write. rewrite bw_write_ok by lia. cbn [must].
  unfold with_writer. cbn [f_writers f_inodes]. rewrite H1, H2, lookup_insert. cbn [bw_write_val]. unfold bw_write_string.
  rewrite bw_write_ok; [|lia|rewrite do_stores_length; lia]. rewrite do_stores_app, insert_insert. reflexivity.
Qed.

(** ** Contents after an update *)
Lemma foldl_overlay_full w (acc : list byte) d ds : zlen acc = w -> zlen d = w -> foldl overlay acc (d :: ds) = foldl overlay d ds.
Proof.
  intros H1 H2. cbn. f_equal. unfold overlay. rewrite drop_ge; [apply app_nil_r|]. unfold zlen in *. lia.
Qed.

Lemma content_upd t v v' acc : vtyped t v -> vtyped t v' -> val_fits v -> val_fits v' ->
  acc = content (slot_w t) (upd_ds v).*2 -> foldl overlay acc (upd_ds v').*2 = content (slot_w t) (upd_ds v').*2.
Proof.
  intros Hv Hv' Hf Hf' ->. pose proof (upd_ds_fit _ _ Hv Hf) as HF.
  assert (0 <= slot_w t) as Hw by (unfold slot_w, StringLength; destruct (t =? _); lia).
  pose proof (content_length _ _ Hw HF) as HL. unfold content in *.
  destruct v' as [z'|z'|z'|z'|z'|z'|z'|z'|s'|]; cbn [vtyped] in Hv'; try contradiction; try (match type of Hv' with _ /\ _ => destruct Hv' as [-> _] | _ => subst t end).
  all: destruct v as [z|z|z|z|z|z|z|z|s|]; cbn [vtyped] in Hv; try contradiction; try (exfalso; destruct Hv; discriminate); try discriminate Hv.
  all: cbn [upd_ds val_bytes fmap list_fmap snd] in *.
  (* 8 byte and string slots are overwritten completely *)
  all: try (rewrite (foldl_overlay_full (slot_w Int64Type)); [|exact HL|apply zlen_le_enc]).
  all: try (rewrite (foldl_overlay_full (slot_w Uint64Type)); [|exact HL|apply zlen_le_enc]).
  all: try (rewrite (foldl_overlay_full (slot_w DoubleType)); [|exact HL|apply zlen_le_enc]).
  all: try (rewrite (foldl_overlay_full (slot_w StringType) _ (zeros StringLength)); [|exact HL|reflexivity]).
  all: try (symmetry; rewrite (foldl_overlay_full (slot_w Int64Type)); [reflexivity|reflexivity|apply zlen_le_enc]).
  all: try (symmetry; rewrite (foldl_overlay_full (slot_w Uint64Type)); [reflexivity|reflexivity|apply zlen_le_enc]).
  all: try (symmetry; rewrite (foldl_overlay_full (slot_w DoubleType)); [reflexivity|reflexivity|apply zlen_le_enc]).
  all: try (symmetry; rewrite (foldl_overlay_full (slot_w StringType) _ (zeros StringLength)); [reflexivity|reflexivity|reflexivity]).
  (* 4 byte values *)
  all: try reflexivity.
  all: cbn [foldl]; unfold overlay; rewrite !le_enc_length; rewrite drop_app_alt by (rewrite le_enc_length; reflexivity); reflexivity.
Qed.

(** ** The event of one value *)
Definition v_tag (t : Z) : option chan := if t =? StringType then CS else CV.
Definition v_ev (t : Z) (off : Z) (v : goval) : ev := EJob (v_tag t) off (slot_w t) (upd_ds v).*2.

Lemma v1_split t key doff get a : exists F1 F2, EUpd key (upd_off t a) ∈ F2 /\
  forall v, ev_v1 t key doff get v a = F1 ++ v_ev t (upd_off t a) v :: F2.
Proof.
  unfold ev_v1, ev_val, v_ev, v_tag, slot_w, upd_off. destruct (t =? StringType) eqn:E.
  - eexists [_; _; _; _], _. split; [|intros v; reflexivity]. left.
  - eexists [_; _], _. split; [|intros v; reflexivity]. left.
Qed.

Lemma vals_split t mp ip doff l1 n l2 : forall l, exists F1 F2 off, EUpd (mp, Some n) off ∈ F2 /\
  forall v, ev_vals t mp ip doff (l1 ++ (n, v) :: l2) l = F1 ++ v_ev t off v :: F2.
Proof.
  induction l1 as [|[n1 v1] l1 IH]; intros l; cbn [app ev_vals].
  - destruct (v1_split t (mp, Some n) doff [EGet (ip, n) (va_io (hd va0 l))] (hd va0 l)) as (F1 & F2 & Hin & HF).
    eexists F1, _, _. split; [|intros v; rewrite HF, <- app_assoc; reflexivity]. apply elem_of_app. left. exact Hin.
  - destruct (IH (tl l)) as (F1 & F2 & off & Hin & HF). eexists (_ ++ F1), F2, off. split; [exact Hin|].
    intros v. rewrite HF, app_assoc. reflexivity.
Qed.

Definition set_row (p : mplan) (n : option gostring) (v' : goval) : mplan :=
  match p with
  | MPSingle mp d _ => MPSingle mp d v'
  | MPInst mp d ip dom vals => MPInst mp d ip dom (map (fun x => if decide (Some x.1 = n) then (x.1, v') else x) vals)
  end.

Lemma set_row_nochange (n : gostring) (v : goval) (l : list (gostring * goval)) : n ∉ map fst l ->
  map (fun x => if decide (Some x.1 = Some n) then (x.1, v) else x) l = l.
Proof.
  intros H. induction l as [|[n' v'] l IH]; [reflexivity|]. cbn [map] in *. apply not_elem_of_cons in H as [H1 H2].
  rewrite IH by exact H2. rewrite decide_False; [reflexivity|]. cbn in *. congruence.
Qed.

Lemma met_split v2 p a n v : NoDup (met_keys p) -> (n, v) ∈ mp_vals p -> exists F1 F2 off, EUpd (row_key p n) off ∈ F2 /\
  ev_met v2 p a = F1 ++ v_ev (md_type (mp_desc p)) off v :: F2 /\
  forall v', ev_met v2 (set_row p n v') a = F1 ++ v_ev (md_type (mp_desc p)) off v' :: F2.
Proof.
  intros HN Hin. destruct p as [mp d v0|mp d ip dom vals]; cbn [mp_vals mp_desc set_row row_key ev_met met_keys] in *.
  - apply elem_of_list_singleton in Hin. simplify_eq.
    destruct (v1_split (md_type d) (mp, None) (ma_off a) [] (hd va0 (ma_vs a))) as (F1 & F2 & Hu & HF).
    exists (EAlloc CMetric (ma_off a) (mlen v2) :: ev_desc v2 d None a ++ F1), F2. eexists. split; [exact Hu|].
    split; [|intros v']; rewrite HF; rewrite app_comm_cons, app_assoc; reflexivity.
  - apply elem_of_list_fmap in Hin as ([n0 v0] & E & Hin). cbn in E. simplify_eq.
    apply elem_of_list_split in Hin as (l1 & l2 & ->).
    destruct (vals_split (md_type d) mp ip (ma_off a) l1 n0 l2 (ma_vs a)) as (F1 & F2 & off & Hu & HF).
    exists (EAlloc CMetric (ma_off a) (mlen v2) :: ev_desc v2 d (Some (id_id dom)) a ++ F1), F2, off. split; [exact Hu|].
    assert (NoDup (map fst (l1 ++ (n0, v0) :: l2))) as HN'.
    { apply (NoDup_fmap_1 (fun n => (mp, Some n))). change (NoDup (map (fun n => (mp, Some n)) (map fst (l1 ++ (n0, v0) :: l2)))). rewrite map_map. exact HN. }
    rewrite map_app in HN'. cbn in HN'. apply NoDup_app in HN' as (_ & H2 & H3). inversion H3; subst.
    split; [|intros v'].
    + rewrite HF, app_comm_cons, app_assoc. reflexivity.
    + rewrite map_app. cbn [map fst]. rewrite decide_True by reflexivity.
      rewrite !set_row_nochange; [rewrite HF, app_comm_cons, app_assoc; reflexivity|assumption|].
      intros K. apply (H2 _ K). left.
Qed.

Lemma zip_with_mid {A B C} (f : A -> B -> list C) l1 x l2 l' : length (l1 ++ x :: l2) = length l' ->
  exists a F1 F2, (x, a) ∈ zip (l1 ++ x :: l2) l' /\ forall y, concat (zip_with f (l1 ++ y :: l2) l') = F1 ++ f y a ++ F2.
Proof.
  revert l'. induction l1 as [|z l1 IH]; intros [|a l'] HL; cbn in HL; try lia.
  - exists a, [], (concat (zip_with f l2 l')). split; [left|reflexivity].
  - destruct (IH l') as (a' & F1 & F2 & Hin & HF); [lia|]. exists a', (f z a ++ F1), F2. split; [by right|].
    intros y. cbn [app zip_with concat]. rewrite HF, app_assoc. reflexivity.
Qed.

Lemma row_key_mp p n : row_key p n = (p_mp p, n).
Proof. destruct p; reflexivity. Qed.

Lemma start_split c pl ad am m1 p m2 n v :
  pl_mets pl = m1 ++ p :: m2 -> length (pl_mets pl) = length am -> NoDup (met_keys p) -> (n, v) ∈ mp_vals p ->
  exists F1 F2 off, EUpd (p_mp p, n) off ∈ F2 /\
    ev_start c pl ad am = F1 ++ v_ev (md_type (mp_desc p)) off v :: F2 /\
    forall v', ev_start c (mkPlan (pl_doms pl) (m1 ++ set_row p n v' :: m2)) ad am = F1 ++ v_ev (md_type (mp_desc p)) off v' :: F2.
Proof.
  intros Hm HL HN Hin. rewrite Hm in HL.
  destruct (zip_with_mid (ev_met (r_version2 (k_reg c))) m1 p m2 am HL) as (a & G1 & G2 & _ & HG).
  destruct (met_split (r_version2 (k_reg c)) p a n v HN Hin) as (F1 & F2 & off & Hu & HF1 & HF2).
  set (X := EJob None 16 8 [le_enc 8 0; le_enc 8 (k_gen c)] :: ev_header c ++ ev_tocs HeaderLength (toc_entries (k_reg c))
    ++ concat (zip_with (ev_dom (k_reg c)) (pl_doms pl) ad)).
  assert (forall ms, ev_start c (mkPlan (pl_doms pl) ms) ad am = X ++ concat (zip_with (ev_met (r_version2 (k_reg c))) ms am)) as EX.
  { intros ms. unfold ev_start, X. cbn [pl_doms pl_mets]. rewrite <- app_comm_cons, <- !app_assoc. reflexivity. }
  assert (pl = mkPlan (pl_doms pl) (m1 ++ p :: m2)) as EP by (destruct pl; cbn in *; congruence).
  clearbody X. exists (X ++ G1 ++ F1), (F2 ++ G2), off. rewrite <- row_key_mp. split; [apply elem_of_app; auto|]. split.
  - rewrite EP, EX, HG, HF1. rewrite <- !app_assoc. reflexivity.
  - intros v'. rewrite EX, HG, HF2. rewrite <- !app_assoc. reflexivity.
Qed.

(** ** Replacing one job *)
Lemma jobs_app E1 E2 : jobs (E1 ++ E2) = jobs E1 ++ jobs E2.
Proof. apply omap_app. Qed.

Lemma swap_jobs buf buf' E1 E2 t lo w ds ds' L :
  holds_jobs buf (jobs (E1 ++ EJob t lo w ds :: E2)) ->
  (exists R, R ≡ₚ map job_reg (jobs (E1 ++ EJob t lo w ds :: E2)) /\ chained 0 R L) ->
  (forall i : nat, ~ (lo <= Z.of_nat i < lo + w) -> buf' !! i = buf !! i) ->
  sub lo w buf' = content w ds' ->
  holds_jobs buf' (jobs (E1 ++ EJob t lo w ds' :: E2)).
Proof.
  intros HJ (R & HR & HC) Hout Hin. unfold holds_jobs in *. rewrite jobs_app in *.
  change (jobs (EJob t lo w ds :: E2)) with ((t, lo, w, ds) :: jobs E2) in *.
  change (jobs (EJob t lo w ds' :: E2)) with ((t, lo, w, ds') :: jobs E2) in *.
  assert (pairwise disj (map job_reg (jobs E1 ++ (t, lo, w, ds) :: jobs E2))) as HP.
  { eapply pairwise_perm; [apply disj_sym|exact HR|]. eapply chained_pairwise; eauto. }
  assert (Forall (fun r => 0 <= r.1) (map job_reg (jobs E1 ++ (t, lo, w, ds) :: jobs E2))) as H0.
  { pose proof (chained_bounds _ _ _ HC) as Hb. rewrite HR in Hb. eapply Forall_impl; [exact Hb|]. cbn. lia. }
  rewrite map_app in HP, H0. cbn [map] in HP, H0. apply pairwise_app in HP as (_ & [HP2 _] & HP1).
  apply Forall_app in HJ as [HJ1 HJ2]. inversion HJ2 as [|? ? _ HJ3]; subst.
  apply Forall_app in H0 as [H01 H02]. inversion H02 as [|? ? _ H03]; subst.
  assert (forall j : job, disj (job_reg j) (job_reg (t, lo, w, ds)) -> 0 <= (job_reg j).1 ->
     sub j.1.1.2 j.1.2 buf = content j.1.2 j.2 -> sub j.1.1.2 j.1.2 buf' = content j.1.2 j.2) as G.
  { intros j Hd Hj0 <-. apply sub_ext; [exact Hj0|]. intros i Hi. apply Hout. unfold disj, job_reg in Hd. cbn in Hd. lia. }
  apply Forall_app. split; [|constructor].
  - apply Forall_forall. intros j Hj. rewrite Forall_map in HP1, H01. rewrite Forall_forall in HJ1, HP1, H01. apply G; auto.
    specialize (HP1 _ Hj). cbn beta in HP1. inversion HP1; subst. assumption.
  - exact Hin.
  - apply Forall_forall. intros j Hj. rewrite Forall_map in HP2, H03. rewrite Forall_forall in HJ3, HP2, H03. apply G; auto.
    apply disj_sym. apply (HP2 _ Hj).
Qed.

Lemma upd_buf_out t v buf off (i : nat) : vtyped t v -> val_fits v -> ~ (off <= Z.of_nat i < off + slot_w t) ->
  upd_buf buf off v !! i = buf !! i.
Proof.
  intros Ht Hf Hi. pose proof (upd_ds_fit _ _ Ht Hf) as HF. unfold upd_buf.
  change buf with (do_stores buf []) at 2. rewrite (do_stores_lookup_filter i _ buf buf), (do_stores_lookup_filter i [] buf buf) by reflexivity.
  f_equal. f_equal. induction HF as [|d ds Hd HF IH]; [reflexivity|]. cbn [map concat]. rewrite filter_app, IH, app_nil_r.
  pose proof (stores_of_range off d) as HR. induction HR as [|s l Hs HR IH2]; [reflexivity|]. rewrite filter_cons_False; [exact IH2|].
  cbn beta in Hs. lia.
Qed.

(** Bounds of a job's region. *)
Lemma job_bounds E1 E2 t lo w ds L : (exists R, R ≡ₚ map job_reg (jobs (E1 ++ EJob t lo w ds :: E2)) /\ chained 0 R L) ->
  0 <= lo /\ lo + w <= L.
Proof.
  intros (R & HR & HC). pose proof (chained_bounds _ _ _ HC) as Hb. rewrite HR, Forall_map, jobs_app in Hb.
  apply Forall_app in Hb as [_ Hb]. change (jobs (EJob t lo w ds :: E2)) with ((t, lo, w, ds) :: jobs E2) in Hb.
  inversion Hb as [|? ? H _]; subst. cbn in H. lia.
Qed.

Lemma regs_swap E1 E2 t lo w ds ds' : map job_reg (jobs (E1 ++ EJob t lo w ds :: E2)) = map job_reg (jobs (E1 ++ EJob t lo w ds' :: E2)).
Proof. rewrite !jobs_app, !map_app. reflexivity. Qed.
Lemma allocs_swap k E1 E2 t lo w ds ds' : allocs k (E1 ++ EJob t lo w ds :: E2) = allocs k (E1 ++ EJob t lo w ds' :: E2).
Proof. unfold allocs. rewrite !omap_app. reflexivity. Qed.
Lemma in_swap (e : ev) E1 E2 t lo w ds ds' : (forall t lo w ds, e <> EJob t lo w ds) ->
  e ∈ E1 ++ EJob t lo w ds :: E2 <-> e ∈ E1 ++ EJob t lo w ds' :: E2.
Proof.
  intros H. rewrite !elem_of_app, !elem_of_cons. split; intros [|[He|]]; auto; exfalso; eapply H; exact He.
Qed.

(** ** Main lemma *)
Lemma image_update c pl ad am buf m1 p m2 n v v' :
  image c pl ad am buf -> pl_mets pl = m1 ++ p :: m2 -> NoDup (met_keys p) -> (n, v) ∈ mp_vals p ->
  vtyped (md_type (mp_desc p)) v -> val_fits v -> vtyped (md_type (mp_desc p)) v' -> val_fits v' ->
  exists off, EUpd (p_mp p, n) off ∈ ev_start c pl ad am /\ 0 <= off /\ off + slot_w (md_type (mp_desc p)) <= zlen buf /\
    image c (mkPlan (pl_doms pl) (m1 ++ set_row p n v' :: m2)) ad am (upd_buf buf off v') /\
    (forall k o, EUpd k o ∈ ev_start c (mkPlan (pl_doms pl) (m1 ++ set_row p n v' :: m2)) ad am <-> EUpd k o ∈ ev_start c pl ad am).
Proof.
  intros Him Hm HN Hin Hv Hf Hv' Hf'. set (t := md_type (mp_desc p)) in *.
  destruct (start_split c pl ad am m1 p m2 n v Hm) as (F1 & F2 & off & Hu & HE & HE'); auto.
  { apply (Forall2_length _ _ _ (im_mas _ _ _ _ _ Him)). }
  fold t in HE, HE'. unfold v_ev in HE, HE'. specialize (HE' v'). set (pl' := mkPlan _ _) in *.
  pose proof (im_tiles _ _ _ _ _ Him) as HT. rewrite HE in HT. destruct (job_bounds _ _ _ _ _ _ _ HT) as [B1 B2].
  assert (forall e, (forall t lo w ds, e <> EJob t lo w ds) -> e ∈ ev_start c pl' ad am <-> e ∈ ev_start c pl ad am) as EI.
  { intros e He. rewrite HE', HE. by apply in_swap. }
  exists off. rewrite (im_len _ _ _ _ _ Him). split_and!; auto.
  - rewrite HE. apply elem_of_app. right. by right.
  - split.
    + apply (im_das _ _ _ _ _ Him).
    + pose proof (im_mas _ _ _ _ _ Him) as H. rewrite Hm in H. cbn [pl' pl_mets].
      apply Forall2_app_inv_l in H as (a1 & a2 & H1 & H2 & ->). inversion H2 as [|? a ? a3 H3 H4]; subst.
      apply Forall2_app; [exact H1|]. constructor; [|exact H4]. destruct p; exact H3.
    + rewrite upd_buf_len. apply (im_len _ _ _ _ _ Him).
    + rewrite HE'. eapply swap_jobs; [| exact HT| |].
      * rewrite <- HE. apply (im_jobs _ _ _ _ _ Him).
      * intros i Hi. eapply upd_buf_out; eauto.
      * unfold upd_buf. rewrite sub_writes; [|lia|by apply upd_ds_fit|rewrite (im_len _ _ _ _ _ Him); exact B2].
        apply (content_upd t v v'); auto. pose proof (im_jobs _ _ _ _ _ Him) as HJ. rewrite HE in HJ. unfold holds_jobs in HJ.
        rewrite jobs_app, Forall_app in HJ. destruct HJ as [_ HJ].
        change (jobs (EJob ?t ?lo ?w ?ds :: F2)) with ((t, lo, w, ds) :: jobs F2) in HJ. inversion HJ as [|? ? HJ' _]; subst. exact HJ'.
    + intros k. rewrite HE', (allocs_swap k F1 F2 _ _ _ _ (upd_ds v).*2), <- HE. apply (im_slots _ _ _ _ _ Him).
    + rewrite HE'. rewrite (regs_swap F1 F2 _ _ _ _ (upd_ds v).*2), <- HE. apply (im_tiles _ _ _ _ _ Him).
    + intros i x x' H1 H2. apply EI in H1, H2; try discriminate. eapply (im_gets _ _ _ _ _ Him); eauto.
Qed.
