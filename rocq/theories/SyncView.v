(** What a reader sees of a synchronised client's file, and which bytes updates change. *)
From Verif Require Import Base BaseFacts Floats GoVal MetricType ByteWriter Hash Units Indom Metrics Registry Prog
  Client Mmvdump Ileave ProgProofs Events StartEvents BufFacts Tiling StartGood StartLayout StartFinal StartDone
  View Sections StartView RegInv Update World OpRuns RegFacts WorldInv Sync FloatFacts ValueFacts MetricFacts SyncLive.

(** ** Specification *)
(** The bytes of the file at client [c]'s location. *)
Definition file_of (w : world) (c : client) : option (list byte) := ino ← w_paths w !! cl_loc c; f_inodes (w_files w) !! ino.

(** The sections a file has: metrics and values always, domains and instances if there is an instance, strings if there is one. *)
Definition want_sections (hp : heap) (r : registry) : Z :=
  2 + (if 0 <? spec_instances hp r then 2 else 0) +
  (if 0 <? spec_texts hp r + (if r_version2 r then zlen (reg_metrics hp r) + spec_instances hp r else 0) then 1 else 0).
(** The header a reader should see. *)
Definition want_hdr (hp : heap) (c : client) (r : registry) (gen pid : Z) : header :=
  mkHeader (padded 4 (str "MMV")) (if r_version2 r then 2 else 1) (gen mod 2 ^ 64) (gen mod 2 ^ 64)
    (want_sections hp r) (to_signed 32 (cl_flag c)) (to_signed 32 pid) (to_signed 32 (cl_cluster c)).

(** [buf] is a complete file showing exactly registry [r]. *)
Definition complete_file (hp : heap) (c : client) (r : registry) (gen pid : Z) (buf : list byte) : Prop :=
  exists d, Dump buf = DOk d /\ du_header d = want_hdr hp c r gen pid /\ shows d (want_view hp r).

Definition publishes (w : world) (cid : nat) (gen pid : Z) : Prop :=
  exists c r buf, w_clients w !! cid = Some c /\ w_regs w !! cl_reg c = Some r /\ r_mapped r = true /\
    file_of w c = Some buf /\ zlen buf = Length r /\ complete_file (w_heap w) c r gen pid buf.

Lemma sections_count hp r : reg_ok hp r -> tocCount r = want_sections hp r.
Proof.
  intros Hro. unfold tocCount, want_sections, StringCount, InstanceCount. rewrite (reg_metrics_count _ _ Hro), <- (ro_ic _ _ Hro), <- (ro_sc _ _ Hro).
  destruct (r_version2 r); [by rewrite Z.add_assoc|by rewrite Z.add_0_r].
Qed.
Lemma synced_file w cid gen pid : w_ok w -> synced w cid gen pid -> publishes w cid gen pid.
Proof.
  intros W (c & r & wr & ino & pl & ad & am & buf & Hc & Hr & Hmap & Hwr & Hpath & S). exists c, r, buf.
  pose proof (wo_heap _ W) as Hh. pose proof (wo_regs _ W _ _ Hr) as Hro. destruct S as [S1 S2 S3 S4 S5 S6 S7]. cbn in S1, S2.
  pose proof (plan_wf_ok _ _ _ Hh Hro S2 S1) as WF. pose proof (plan_ranges_ok _ _ _ Hh Hro S2 S1) as RG.
  split_and!; auto.
  - unfold file_of. rewrite Hpath. exact S5.
  - apply (im_len _ _ _ _ _ S3).
  - eexists. split; [eapply (dump_ok (start_cfg c r gen pid)); eauto|]. split; [unfold want_hdr; rewrite <- (sections_count _ _ Hro); reflexivity|].
    eapply shows_veq; [eapply (plan_view_want _ _ _ Hro S2 S1 (start_cfg c r gen pid)); reflexivity|]. eapply view_ok; eauto.
Qed.

(** ** Value slots *)
(** The bytes of dump [d]'s file that encode the value of metric [vm] (instance [vi]):
    8 bytes of the value record, or the 256 byte string slot it points to. *)
Definition value_slot (d : dump) (vm : vmetric) (vi : option vinst) (lo hi : Z) : Prop :=
  exists o x v, du_values d !! o = Some x /\ res_value d x = Some (mkVV vm vi v) /\
    if vm_type vm =? StringType then lo = to_unsigned 64 (dv_extra x) /\ hi = lo + 256 else lo = o /\ hi = lo + 8.

(** What a reader sees as the instance of value [n]. *)
Definition want_n (hp : heap) (v2 : bool) (m : metric) (n : option gostring) : option vinst :=
  i ← n; d ← metric_dom hp m; id ← id_insts d !! i; Some (want_inst v2 d (i, id)).

Section img.
  Context (c : cfg) (pl : plan) (ad : list da) (am : list ma) (buf : list byte).
  Context (Him : image c pl ad am buf) (Hwf : plan_wf (k_reg c) pl) (Hrg : plan_ranges (k_reg c) pl).

  Lemma val_slot m a n v va : (m, a) ∈ zip (pl_mets pl) am -> (n, v, va) ∈ rows m a ->
    EUpd (row_key m n) (upd_off (md_type (mp_desc m)) va) ∈ ev_start c pl ad am /\
    exists lo hi, lo = upd_off (md_type (mp_desc m)) va /\ hi = lo + slot_w (md_type (mp_desc m)) /\
      value_slot (want_dump c buf) (pv_metric c m) (vv_inst (pv_value c m (n, v))) lo hi.
  Proof.
    intros H Hr. destruct (row_events (r_version2 (k_reg c)) _ _ _ _ _ Hr) as (get & HE & Hget).
    assert (forall e, e ∈ ev_v1 (md_type (mp_desc m)) (row_key m n) (ma_off a) get v va -> e ∈ ev_start c pl ad am) as HM.
    { intros e He. eapply met_elem; [exact H|]. apply HE, He. }
    assert (forall e, e ∈ ev_val (md_type (mp_desc m)) v (va_off va) (va_so va) (row_key m n) -> e ∈ ev_start c pl ad am) as HV.
    { intros e He. apply HM. unfold ev_v1. right. apply elem_of_app. left. exact He. }
    split.
    { apply HV. unfold ev_val, upd_off. destruct (_ =? _); repeat (first [left|right]). }
    eexists _, _. split; [reflexivity|]. split; [reflexivity|]. exists (va_off va), (dec_value buf (va_off va)), (want_val v).
    assert (va_off va ∈ slots (valuesoffset (k_reg c)) 32 (Z.to_nat (ValuesCount (k_reg c)))) as Hs.
    { rewrite value_slots by eauto. apply elem_of_list_In, in_concat. exists (map (fun x => va_off x.2) (rows m a)). split.
      - apply in_map_iff. exists (m, a). split; [reflexivity|]. by apply elem_of_list_In.
      - apply in_map_iff. exists (n, v, va). split; [reflexivity|]. by apply elem_of_list_In. }
    split; [|split].
    - cbn [want_dump du_values]. apply section_lookup; [unfold ValueLength; lia|exact Hs].
    - rewrite (val_shows c pl ad am buf Him Hwf Hrg m a n v va H Hr). reflexivity.
    - cbn [pv_metric vm_type want_metric]. unfold upd_off, slot_w. destruct (md_type (mp_desc m) =? StringType) eqn:Et; [|auto].
      split; [|reflexivity]. unfold ev_val in HV. rewrite Et in HV.
      destruct (string_lookup c pl ad am buf Him Hwf (va_so va)) as [_ L2].
      { apply alloc_elem. apply HV. right; left. }
      unfold dec_value. cbn [dv_extra]. unfold i64.
      rewrite (u64_at c pl ad am buf Him CV (va_off va + 8) (va_so va)) by (apply HV; do 2 right; left).
      pose proof (Length_bound c pl ad am buf Him Hrg). rewrite (off_id c pl ad am buf Him Hrg) by lia.
      rewrite to_signed_id by (unfold in_signed; lia). unfold to_unsigned. symmetry. apply (off_id c pl ad am buf Him Hrg). lia.
  Qed.
End img.

Lemma Forall2_zip_l {A B} (P : A -> B -> Prop) l l' x : Forall2 P l l' -> x ∈ l -> exists a, (x, a) ∈ zip l l'.
Proof.
  induction 1 as [|y b l l' Hyb H IH]; intros Hx; [inversion Hx|]. cbn. apply elem_of_cons in Hx as [->|Hx]; [exists b; left|].
  destruct (IH Hx) as [a Ha]. exists a. by right.
Qed.

(** The slot of every value of a registered metric, as a reader finds it. *)
Lemma sync_value_slot hp fs k wr ino pl ad am buf mp m n c : heap_ok hp -> reg_ok hp (k_reg k) -> sync hp fs k wr ino pl ad am buf ->
  registered (k_reg k) mp -> h_metrics hp !! mp = Some m -> cell_at m n = Some c ->
  exists off, c_upd c = Some (mkClosure wr off) /\
    value_slot (want_dump k buf) (want_metric (r_version2 (k_reg k)) (m_desc m) (metric_dom hp m)) (want_n hp (r_version2 (k_reg k)) m n)
      off (off + slot_w (md_type (m_desc m))).
Proof.
  intros Hh Hr S Hreg Hm Hc.
  pose proof (plan_wf_ok _ _ _ Hh Hr (sy_plan _ _ _ _ _ _ _ _ _ S) (sy_start _ _ _ _ _ _ _ _ _ S)) as WF.
  pose proof (plan_ranges_ok _ _ _ Hh Hr (sy_plan _ _ _ _ _ _ _ _ _ S) (sy_start _ _ _ _ _ _ _ _ _ S)) as RG.
  pose proof (sy_image _ _ _ _ _ _ _ _ _ S) as Him.
  destruct (plan_find _ _ _ _ (sy_plan _ _ _ _ _ _ _ _ _ S) Hreg) as (m1 & p & m2 & Hsp & Hpp).
  pose proof (plan_row _ _ _ _ _ _ (ho_metrics _ Hh _ _ Hm) Hm Hpp Hc) as Hrow.
  assert (p ∈ pl_mets pl) as Hin. { rewrite Hsp. apply elem_of_app. right. left. }
  pose proof (mplan_p_mp _ _ _ Hpp) as Emp. destruct (mplan_mp _ _ _ _ Hm Hpp) as (Hd & Hdom & _).
  destruct (Forall2_zip_l _ _ _ _ (im_mas _ _ _ _ _ Him) Hin) as [a Ha].
  rewrite <- (rows_vals p a) in Hrow. apply elem_of_list_fmap in Hrow as ([[n' v] va] & E & Hrow). cbn in E. injection E as <- Ev.
  destruct (val_slot k pl ad am buf Him WF RG p a n v va Ha Hrow) as (U & lo & hi & -> & -> & V).
  rewrite row_key_mp, Emp in U. destruct (sy_upds _ _ _ _ _ _ _ _ _ S _ _ _ U) as (m0 & c0 & H1 & H2 & H3).
  assert (m0 = m) as -> by congruence. assert (c0 = c) as -> by congruence. rewrite Hd in H3, V. eexists. split; [exact H3|].
  assert (pv_metric k p = want_metric (r_version2 (k_reg k)) (m_desc m) (metric_dom hp m)) as <-.
  { unfold pv_metric. rewrite Hd, Hdom. reflexivity. }
  assert (want_n hp (r_version2 (k_reg k)) m n = vv_inst (pv_value k p (n, v))) as ->; [|exact V].
  unfold want_n, pv_value. cbn [vv_inst fst]. rewrite Hdom. destruct n as [i|]; [|reflexivity]. cbn. destruct (metric_dom hp m); reflexivity.
Qed.

(** ** Bytes changed by an update *)
Definition touched (m : metric) (wr : nat) (n : option gostring) (j : nat) : Prop :=
  exists c off, cell_at m n = Some c /\ c_upd c = Some (mkClosure wr off) /\ off <= Z.of_nat j < off + slot_w (md_type (m_desc m)).

Lemma store_frame hp fs k wr ino pl ad am buf mp m n c v o fs1 c1 buf1 :
  heap_ok hp -> reg_ok hp (k_reg k) -> sync hp fs k wr ino pl ad am buf -> registered (k_reg k) mp ->
  h_metrics hp !! mp = Some m -> cell_at m n = Some c -> vtyped (md_type (m_desc m)) v -> val_fits v ->
  store_cell fs c v = (o, fs1, c1) -> f_inodes fs1 !! ino = Some buf1 ->
  zlen buf1 = zlen buf /\ forall j, buf !! j <> buf1 !! j -> touched m wr n j.
Proof.
  intros Hh Hr S Hreg Hm Hc Ht Hf Hs Hb. destruct (sync_slot _ _ _ _ _ _ _ _ _ _ _ _ _ Hh Hr S Hreg Hm Hc) as (off & E & B1 & B2 & _).
  pose proof (sy_buf _ _ _ _ _ _ _ _ _ S) as Hbuf.
  unfold store_cell in Hs. destruct (go_eqb v (c_val c)); [injection Hs as <- <- <-; assert (buf1 = buf) as -> by congruence; split; [reflexivity|congruence]|].
  rewrite E in Hs. rewrite (run_update_ok fs (mkClosure wr off) v (md_type (m_desc m)) (mkWriter ino true) buf) in Hs; auto; [|apply (sy_writer _ _ _ _ _ _ _ _ _ S)].
  injection Hs as <- <- <-. cbn in Hb. rewrite lookup_insert in Hb. injection Hb as <-. split; [apply upd_buf_len|].
  intros j Hj. exists c, off. split_and!; auto.
  all: destruct (decide (off <= Z.of_nat j < off + slot_w (md_type (m_desc m)))) as [D|D]; [apply D|].
  all: exfalso; apply Hj; symmetry; by apply (upd_buf_out (md_type (m_desc m))).
Qed.

Lemma touched_put m n0 c0 c1 wr n j : cell_at m n0 = Some c0 -> c_upd c1 = c_upd c0 -> touched (put_cell m n0 c1) wr n j -> touched m wr n j.
Proof.
  intros H0 Hu (c & off & H1 & H2 & H3). rewrite put_cell_desc in H3. rewrite (cell_at_put _ _ _ _ _ H0) in H1. case_decide as E.
  - subst n0. injection H1 as ->. exists c0, off. split; [exact H0|]. split; [congruence|exact H3].
  - exists c, off. auto.
Qed.

Lemma run_frame P fs m o fs' m' : mrun P fs m o fs' m' -> forall hp k wr ino pl ad am buf mp buf',
  heap_ok hp -> reg_ok hp (k_reg k) -> winj fs -> sync hp fs k wr ino pl ad am buf -> registered (k_reg k) mp -> h_metrics hp !! mp = Some m ->
  (forall v, P v -> val_fits v) -> f_inodes fs' !! ino = Some buf' ->
  zlen buf' = zlen buf /\ forall j, buf !! j <> buf' !! j -> exists n, touched m wr n j.
Proof.
  induction 1 as [fs m o Ho|fs m kd o fs' m' H1 H2 H IH|fs m n c v fs1 c1 o fs' m' Hc Ht HP Hs H IH|fs m n c v o o' fs1 c1 Hc Ht HP Hs H1 H2 H3];
    intros hp k wr ino pl ad am buf mp buf' Hh Hr Hw S Hreg Hm HF Hb.
  - pose proof (sy_buf _ _ _ _ _ _ _ _ _ S) as Hbuf. assert (buf' = buf) as -> by congruence. split; [reflexivity|congruence].
  - assert (metric_ok hp (with_kind m kd)) as Hk.
    { destruct (ho_metrics _ Hh _ _ Hm) as [A B C]. split; cbn; auto. destruct (m_kind m); try contradiction. destruct kd; try contradiction. exact C. }
    assert (hsim (k_reg k) hp (upd_heap hp mp (with_kind m kd))) as HS by (eapply hsim_upd; eauto).
    destruct (IH (upd_heap hp mp (with_kind m kd)) k wr ino pl ad am buf mp buf') as (A & B); auto.
    + by apply heap_ok_metric.
    + eapply reg_ok_ext; [exact Hh|apply HS|exact Hr].
    + destruct S as [T1 T2 T3 T4 T5 T6 T7]. split; auto.
      * eapply startable_sim; eauto.
      * eapply plan_ok_sim; eauto.
      * intros mp0 n0 o0 HE. destruct (T6 _ _ _ HE) as (m0 & c0 & K1 & K2 & K3). cbn. destruct (decide (mp = mp0)) as [<-|N].
        -- rewrite lookup_insert. assert (m0 = m) as -> by congruence. exists (with_kind m kd), c0. auto.
        -- rewrite lookup_insert_ne by exact N. eauto.
      * intros mp0 m0 n0 c0 cl K1 K2 K3 K4. cbn in K1. apply lookup_insert_Some in K1 as [[<- <-]|[_ K1]]; eauto.
    + cbn. apply lookup_insert.
  - destruct (sync_store _ _ _ _ _ _ _ _ _ _ _ _ _ _ _ _ _ Hh Hr Hw S Hm Hc Ht (fun _ => HF _ HP) Hs) as (_ & pl1 & buf1 & B1).
    destruct (store_cell_spec _ _ _ _ _ _ Hs) as (S1 & S2 & S3 & S4 & S5).
    destruct (store_frame _ _ _ _ _ _ _ _ _ _ _ _ _ _ _ _ _ _ Hh Hr S Hreg Hm Hc Ht (HF _ HP) Hs (sy_buf _ _ _ _ _ _ _ _ _ B1)) as [F1 F2].
    assert (metric_ok hp (put_cell m n c1)) as Hk.
    { eapply put_cell_ok; eauto; [apply (ho_metrics _ Hh _ _ Hm)|]. destruct S2 as [-> | ->]; [eapply cell_typed; eauto; apply (ho_metrics _ Hh _ _ Hm)|exact Ht]. }
    destruct (IH (upd_heap hp mp (put_cell m n c1)) k wr ino pl1 ad am buf1 mp buf') as (A & B); auto.
    + by apply heap_ok_metric.
    + eapply reg_ok_ext; [exact Hh| |exact Hr]. eapply upd_heap_ext; eauto using put_cell_desc, put_indom.
    + unfold winj in *. rewrite S3. exact Hw.
    + cbn. apply lookup_insert.
    + split; [congruence|]. intros j Hj. destruct (decide (buf !! j = buf1 !! j)) as [E|E]; [|eauto].
      rewrite E in Hj. destruct (B j Hj) as [n' Hn']. exists n'. eapply touched_put; eauto.
  - destruct (store_frame _ _ _ _ _ _ _ _ _ _ _ _ _ _ _ _ _ _ Hh Hr S Hreg Hm Hc Ht (HF _ HP) Hs Hb) as [F1 F2]. split; [exact F1|]. eauto.
Qed.

(** ** Operations on a single instance *)
Definition op_inst (op : mop) : option gostring :=
  match op with
  | OISet _ i | OVSet _ i | OVInc _ i | OVUp i | OWSet _ i | OWInc _ i | OWDec _ i => Some i
  | _ => None
  end.
(** The values an operation may change: its instance if it names one. *)
Definition op_target (op : mop) (n : option gostring) : Prop := forall i, op_inst op = Some i -> n = Some i.

Definition one_store (P : goval -> Prop) (fs : files) (m : metric) (i : gostring) (fs' : files) : Prop :=
  fs' = fs \/ exists c v o c1, cell_at m (Some i) = Some c /\ vtyped (md_type (m_desc m)) v /\ P v /\ store_cell fs c v = (o, fs', c1).

Lemma one_set (P : goval -> Prop) fs dom m v i o fs' m' : wf_goval v -> (IsCompatible (md_type (m_desc m)) v = true -> P (resolve (md_type (m_desc m)) v)) ->
  m_set_instance fs dom m v i = (o, fs', m') -> one_store P fs m i fs'.
Proof.
  intros Hw HP. unfold m_set_instance. destruct (m_body m) as [c|ip cells] eqn:Hb; [intros; simplify_eq; left; reflexivity|].
  destruct (IsCompatible _ v) eqn:Hc; [|intros; simplify_eq; left; reflexivity].
  destruct (has_instance dom i); [|intros; simplify_eq; left; reflexivity].
  destruct (cells !! i) as [c|] eqn:Hi; [|intros; simplify_eq; left; reflexivity].
  destruct (store_cell fs c _) as [[o1 fs1] c1] eqn:Hs. intros; simplify_eq. right. eexists c, _, _, _. split_and!; [|by apply resolve_typed|by apply HP|exact Hs].
  unfold cell_at. rewrite Hb. exact Hi.
Qed.

Lemma one_must (P : goval -> Prop) fs m i r o fs' m' : (forall o fs' m', r = (o, fs', m') -> one_store P fs m i fs') -> must_m r = (o, fs', m') -> one_store P fs m i fs'.
Proof. intros H E. destruct r as [[o1 fs1] m1]. assert (fs1 = fs') as <- by (destruct o1; cbn in E; congruence). eauto. Qed.

Lemma one_dom (P : goval -> Prop) hp fs m i f r : (forall d o fs' m', f d = (o, fs', m') -> one_store P fs m i fs') -> with_dom hp m f = Some r -> one_store P fs m i r.1.2.
Proof.
  intros H. unfold with_dom. destruct (m_body m); [discriminate|]. destruct (h_indoms hp !! _) as [d|]; [|discriminate]. cbn. intros E. injection E as <-.
  destruct (f d) as [[o fs'] m'] eqn:E. eapply H, E.
Qed.

Lemma inst_op_one fs hp m op i r : metric_ok hp m -> op_args hp m op -> op_fits op -> op_inst op = Some i -> run_op fs hp m op = Some r ->
  one_store val_fits fs m i r.1.2.
Proof.
  intros Hok Ha Hf Hi Hr. pose proof (mo_kind _ _ Hok) as Hk.
  assert (forall t z, IsCompatible t (VInt64 z) = true -> val_fits (resolve t (VInt64 z))) as RI by (intros; by apply resolve_fits).
  assert (forall t z, IsCompatible t (VF64 z) = true -> val_fits (resolve t (VF64 z))) as RF by (intros; by apply resolve_fits).
  assert (forall d z o fs' m', in_signed 64 z -> cv_set fs d m z i = (o, fs', m') -> one_store val_fits fs m i fs') as CS.
  { intros d z o fs' m' Hz. unfold cv_set. destruct (val_instance _ _ _); [|intros; simplify_eq; left; reflexivity].
    destruct (as_int64 _); [|intros; simplify_eq; left; reflexivity]. destruct (_ <? _); [intros; simplify_eq; left; reflexivity|].
    apply one_set; auto. }
  assert (forall d z o fs' m', cv_inc fs d m z i = (o, fs', m') -> one_store val_fits fs m i fs') as CI.
  { intros d z o fs' m'. unfold cv_inc. destruct (_ <? _); [intros; simplify_eq; left; reflexivity|]. destruct (_ =? _); [intros; simplify_eq; left; reflexivity|].
    destruct (val_instance _ _ _); [|intros; simplify_eq; left; reflexivity].
    destruct (as_int64 _); [|intros; simplify_eq; left; reflexivity]. apply one_set; auto. apply to_signed_range. lia. }
  assert (forall d z o fs' m', gv_inc fs d m z i = (o, fs', m') -> one_store val_fits fs m i fs') as GI.
  { intros d z o fs' m'. unfold gv_inc. destruct (val_instance _ _ _); [|intros; simplify_eq; left; reflexivity].
    destruct (as_f64 _); [|intros; simplify_eq; left; reflexivity]. apply one_set; auto. apply f64_add_range. }
  unfold run_op in Hr. destruct op; cbn [op_inst] in Hi; try discriminate; injection Hi as ->; destruct (m_kind m); try discriminate; cbn [op_args op_fits] in Ha, Hf;
    (eapply one_dom; [|exact Hr]); intros d o fs' m'.
  - apply one_set; [exact Ha|]. intros _. apply resolve_fits. destruct v; auto.
  - by apply CS.
  - apply CI.
  - apply one_must. intros. eapply CI; eauto.
  - apply one_set; auto.
  - apply GI.
  - apply GI.
Qed.

(** ** One update on a synchronised client *)
Lemma update_frame w cid gen pid c r mp m op mst o w' : w_ok w -> synced w cid gen pid -> w_clients w !! cid = Some c -> w_regs w !! cl_reg c = Some r ->
  registered r mp -> h_metrics (w_heap w) !! mp = Some m -> wstep w (CUpdate mp op mst) o w' -> op_fits op ->
  exists buf buf' d, file_of w c = Some buf /\ file_of w' c = Some buf' /\ zlen buf' = zlen buf /\ Dump buf = DOk d /\
    forall j, buf !! j <> buf' !! j -> exists n lo hi, is_Some (cell_at m n) /\ op_target op n /\
      value_slot d (want_metric (r_version2 r) (m_desc m) (metric_dom (w_heap w) m)) (want_n (w_heap w) (r_version2 r) m n) lo hi /\
      lo <= Z.of_nat j < hi.
Proof.
  intros W (c' & r' & wr & ino & pl & ad & am & buf & Hc & Hr & Hmap & Hwr & Hpath & S) Hc' Hr' Hreg Hm Hst Hf.
  assert (c' = c) as -> by congruence. assert (r' = r) as -> by congruence. clear Hc' Hr'.
  pose proof (wo_heap _ W) as Hh. pose proof (wo_regs _ W _ _ Hr) as Hro. pose proof (ho_metrics _ Hh _ _ Hm) as Hok.
  assert (winj (w_files w)) as Hwi by (exact (wo_inj _ W)).
  inversion Hst as [| | | | | | | | | | | | | | |? ? ? ? m0 ? fs' m' Hd Hm0 Ha Hrun]; subst. assert (m0 = m) as -> by congruence.
  destruct (update_runs _ _ _ _ _ _ _ _ Hok Ha Hrun) as [_ R]. specialize (R Hf).
  destruct (sync_run _ _ _ _ _ _ R (w_heap w) (start_cfg c r gen pid) wr ino pl ad am buf mp) as (_ & pl' & buf' & S'); auto.
  destruct (run_frame _ _ _ _ _ _ R (w_heap w) (start_cfg c r gen pid) wr ino pl ad am buf mp buf') as (L & F); auto; [apply (sy_buf _ _ _ _ _ _ _ _ _ S')|].
  pose proof (plan_wf_ok _ _ _ Hh Hro (sy_plan _ _ _ _ _ _ _ _ _ S) (sy_start _ _ _ _ _ _ _ _ _ S)) as WF.
  pose proof (plan_ranges_ok _ _ _ Hh Hro (sy_plan _ _ _ _ _ _ _ _ _ S) (sy_start _ _ _ _ _ _ _ _ _ S)) as RG.
  exists buf, buf', (want_dump (start_cfg c r gen pid) buf). split; [unfold file_of; rewrite Hpath; apply (sy_buf _ _ _ _ _ _ _ _ _ S)|].
  split; [unfold file_of; cbn; rewrite Hpath; apply (sy_buf _ _ _ _ _ _ _ _ _ S')|]. split; [exact L|].
  split; [eapply dump_ok; eauto; apply (sy_image _ _ _ _ _ _ _ _ _ S)|].
  intros j Hj. assert (exists n, op_target op n /\ touched m wr n j) as (n & Ht & cc & off & T1 & T2 & T3).
  { destruct (op_inst op) as [i|] eqn:Ei; [|destruct (F j Hj) as [n Hn]; exists n; split; [intros i E; congruence|exact Hn]].
    exists (Some i). split; [intros i' E; congruence|].
    assert (one_store val_fits (w_files w) m i fs') as [->|(c0 & v & o1 & c1 & K1 & K2 & K3 & K4)].
    { destruct mst.
      - destruct (run_op (w_files w) (w_heap w) m op) as [x|] eqn:Er; [|discriminate]. cbn in Hrun. injection Hrun as Hrun.
        pose proof (inst_op_one _ _ _ _ _ _ Hok Ha Hf Ei Er) as G. destruct x as [[o1 fs1] m1]. assert (fs1 = fs') as <- by (destruct o1; cbn in Hrun; congruence). exact G.
      - apply (inst_op_one _ _ _ _ _ _ Hok Ha Hf Ei Hrun). }
    + exfalso. apply Hj. pose proof (sy_buf _ _ _ _ _ _ _ _ _ S) as A1. pose proof (sy_buf _ _ _ _ _ _ _ _ _ S') as A2. congruence.
    + eapply (store_frame (w_heap w) (w_files w) (start_cfg c r gen pid)); eauto. apply (sy_buf _ _ _ _ _ _ _ _ _ S'). }
  destruct (sync_value_slot (w_heap w) (w_files w) (start_cfg c r gen pid) _ _ _ _ _ _ _ _ _ _ Hh Hro S Hreg Hm T1) as (off' & E & V). assert (off' = off) as -> by congruence.
  exists n, off, (off + slot_w (md_type (m_desc m))). split_and!; eauto; apply T3.
Qed.

(** An update of a metric of another registry leaves the file alone. *)
Lemma update_other w cid gen pid c r mp op mst o w' : w_ok w -> synced w cid gen pid -> w_clients w !! cid = Some c -> w_regs w !! cl_reg c = Some r ->
  ~ registered r mp -> wstep w (CUpdate mp op mst) o w' -> file_of w' c = file_of w c.
Proof.
  intros W (c' & r' & wr & ino & pl & ad & am & buf & Hc & Hr & Hmap & Hwr & Hpath & S) Hc' Hr' Hreg Hst.
  assert (c' = c) as -> by congruence. assert (r' = r) as -> by congruence. clear Hc' Hr'.
  inversion Hst as [| | | | | | | | | | | | | | |? ? ? ? m ? fs' m' Hd Hm Ha Hrun]; subst. pose proof (ho_metrics _ (wo_heap _ W) _ _ Hm) as Hok.
  destruct (update_runs _ _ _ _ _ _ _ _ Hok Ha Hrun) as [R _]. destruct (mrun_frame _ _ _ _ _ _ _ R Hok) as (_ & _ & _ & _ & _ & _ & F).
  unfold file_of. cbn. rewrite Hpath. cbn. apply F. intros n c0 cl x H1 H2 H3 E. apply Hreg. eapply (sy_own _ _ _ _ _ _ _ _ _ S); eauto.
  eapply (wo_inj _ W); [exact H3|apply (sy_writer _ _ _ _ _ _ _ _ _ S)|exact E].
Qed.
