(** The file of a started client when the bytes of one value are replaced, whatever by. *)
From Verif Require Import Base BaseFacts Floats GoVal MetricType ByteWriter Hash Units Indom Metrics Registry Prog
  Client Mmvdump Ileave ProgProofs Events StartEvents BufFacts Tiling StartGood StartLayout StartFinal StartDone
  View Sections StartView RegInv Update World OpRuns RegFacts WorldInv Sync.

(** The bytes of the slot of a value of type [t]. *)
Definition slot_bytes (t : Z) (v : goval) : list byte := content (slot_w t) (upd_ds v).*2.

Lemma image_poke c pl ad am buf m1 p m2 n v :
  image c pl ad am buf -> pl_mets pl = m1 ++ p :: m2 -> NoDup (met_keys p) -> (n, v) ∈ mp_vals p -> let t := md_type (mp_desc p) in
  exists off, EUpd (p_mp p, n) off ∈ ev_start c pl ad am /\ 0 <= off /\ off + slot_w t <= zlen buf /\ sub off (slot_w t) buf = slot_bytes t v /\
    forall v' buf', zlen buf' = zlen buf -> (forall i : nat, ~ (off <= Z.of_nat i < off + slot_w t) -> buf' !! i = buf !! i) -> sub off (slot_w t) buf' = slot_bytes t v' ->
    image c (mkPlan (pl_doms pl) (m1 ++ set_row p n v' :: m2)) ad am buf' /\
    (forall k o, EUpd k o ∈ ev_start c (mkPlan (pl_doms pl) (m1 ++ set_row p n v' :: m2)) ad am <-> EUpd k o ∈ ev_start c pl ad am).
Proof.
  intros Him Hm HN Hin t.
  destruct (start_split c pl ad am m1 p m2 n v Hm) as (F1 & F2 & off & Hu & HE & HE'); auto.
  { apply (Forall2_length _ _ _ (im_mas _ _ _ _ _ Him)). }
  fold t in HE, HE'. unfold v_ev in HE, HE'.
  pose proof (im_tiles _ _ _ _ _ Him) as HT. rewrite HE in HT. destruct (job_bounds _ _ _ _ _ _ _ HT) as [B1 B2].
  exists off. rewrite (im_len _ _ _ _ _ Him). split_and!; auto.
  - rewrite HE. apply elem_of_app. right. by right.
  - pose proof (im_jobs _ _ _ _ _ Him) as HJ. rewrite HE in HJ. unfold holds_jobs in HJ. rewrite jobs_app, Forall_app in HJ. destruct HJ as [_ HJ].
    change (jobs (EJob ?t ?lo ?w ?ds :: F2)) with ((t, lo, w, ds) :: jobs F2) in HJ. inversion HJ as [|? ? HJ' _]; subst. exact HJ'.
  - intros v' buf' HL Hout Hsub. specialize (HE' v'). set (pl' := mkPlan _ _) in *.
    assert (forall e, (forall t lo w ds, e <> EJob t lo w ds) -> e ∈ ev_start c pl' ad am <-> e ∈ ev_start c pl ad am) as EI.
    { intros e He. rewrite HE', HE. by apply in_swap. }
    split; [|intros k o; apply EI; discriminate]. split.
    + apply (im_das _ _ _ _ _ Him).
    + pose proof (im_mas _ _ _ _ _ Him) as H. rewrite Hm in H. cbn [pl' pl_mets].
      apply Forall2_app_inv_l in H as (a1 & a2 & H1 & H2 & ->). inversion H2 as [|? a ? a3 H3 H4]; subst.
      apply Forall2_app; [exact H1|]. constructor; [|exact H4]. destruct p; exact H3.
    + exact HL.
    + rewrite HE'. eapply swap_jobs; [|exact HT|exact Hout|exact Hsub]. rewrite <- HE. apply (im_jobs _ _ _ _ _ Him).
    + intros k. rewrite HE', (allocs_swap k F1 F2 _ _ _ _ (upd_ds v).*2), <- HE. apply (im_slots _ _ _ _ _ Him).
    + rewrite HE'. rewrite (regs_swap F1 F2 _ _ _ _ (upd_ds v).*2), <- HE. apply (im_tiles _ _ _ _ _ Him).
    + intros i x x' H1 H2. apply EI in H1, H2; try discriminate. eapply (im_gets _ _ _ _ _ Him); eauto.
Qed.

Definition with_inode (fs : files) (ino : nat) (buf : list byte) : files := mkFiles (f_writers fs) (<[ino := buf]> (f_inodes fs)).

Lemma sync_poke hp fs k wr ino pl ad am buf mp m n c :
  heap_ok hp -> reg_ok hp (k_reg k) -> sync hp fs k wr ino pl ad am buf -> registered (k_reg k) mp ->
  h_metrics hp !! mp = Some m -> cell_at m n = Some c -> let t := md_type (m_desc m) in
  exists off, c_upd c = Some (mkClosure wr off) /\ 0 <= off /\ off + slot_w t <= zlen buf /\ sub off (slot_w t) buf = slot_bytes t (c_val c) /\
    forall v' buf', val_fits v' -> zlen buf' = zlen buf -> (forall i : nat, ~ (off <= Z.of_nat i < off + slot_w t) -> buf' !! i = buf !! i) ->
      sub off (slot_w t) buf' = slot_bytes t v' ->
      exists pl', sync (upd_heap hp mp (put_cell m n (mkCell v' (c_upd c)))) (with_inode fs ino buf') k wr ino pl' ad am buf'.
Proof.
  intros Hh Hr S Hreg Hm Hc t. set (r := k_reg k) in *.
  destruct (plan_find _ _ _ _ (sy_plan _ _ _ _ _ _ _ _ _ S) Hreg) as (m1 & p & m2 & Hsp & Hpp).
  pose proof (plan_row _ _ _ _ _ _ (ho_metrics _ Hh _ _ Hm) Hm Hpp Hc) as Hrow.
  assert (p ∈ pl_mets pl) as Hin. { rewrite Hsp. apply elem_of_app. right. left. }
  pose proof (plan_keys_NoDup _ _ _ _ Hh Hr (sy_plan _ _ _ _ _ _ _ _ _ S) Hin) as HN.
  pose proof (mplan_p_mp _ _ _ Hpp) as Emp. destruct (mplan_mp _ _ _ _ Hm Hpp) as (Hd & _).
  pose proof (sy_start _ _ _ _ _ _ _ _ _ S) as St. pose proof (st_mets _ _ St) as Sm. rewrite Forall_forall in Sm.
  destruct (Sm m) as (_ & _ & Sf). { apply reg_metrics_in. eauto. }
  destruct (image_poke k pl ad am buf m1 p m2 n (c_val c) (sy_image _ _ _ _ _ _ _ _ _ S) Hsp HN Hrow) as (off & U1 & U2 & U3 & U4 & U5).
  rewrite Hd in *. fold t in U3, U4, U5.
  rewrite Emp in U1. destruct (sy_upds _ _ _ _ _ _ _ _ _ S _ _ _ U1) as (m0 & c0 & H1 & H2 & H3). assert (m0 = m) as -> by congruence.
  assert (c0 = c) as -> by congruence. clear H1 H2. exists off. split_and!; auto.
  intros v' buf' Hf HL Hout Hsub. destruct (U5 v' buf' HL Hout Hsub) as [HI HE]. set (c1 := mkCell v' _) in *.
  exists (mkPlan (pl_doms pl) (m1 ++ set_row p n v' :: m2)).
  pose proof (plan_ok_set hp r pl mp m n c c1 m1 p m2 Hr (sy_plan _ _ _ _ _ _ _ _ _ S) Hm Hc Hsp Hpp) as HP.
  split; auto.
  - destruct St as [T1 T2 T3 T4 T5]. split; auto.
    + rewrite Forall_forall in T3 |- *. intros x Hx. apply reg_metrics_in in Hx as (mp0 & R0 & Hx). cbn in Hx.
      apply lookup_insert_Some in Hx as [[<- <-]|[_ Hx]]; [|apply T3, reg_metrics_in; eauto].
      rewrite put_cell_desc. destruct (T3 m) as (A & B & C); [apply reg_metrics_in; eauto|]. split_and!; auto.
      apply metric_body_fits. intros n0 c2 H. rewrite (cell_at_put _ _ _ _ _ Hc) in H. case_decide; simplify_eq; [exact Hf|].
      eapply metric_body_fits; eauto.
    + rewrite Forall_forall in T4 |- *. intros x Hx ip cells d Hb Hdd. apply reg_metrics_in in Hx as (mp0 & R0 & Hx). cbn in Hx.
      apply lookup_insert_Some in Hx as [[<- <-]|[_ Hx]]; [|eapply T4; [apply reg_metrics_in; eauto| |]; eauto].
      pose proof (put_indom m n c1) as E. unfold m_indom in E. rewrite Hb in E. destruct (m_body m) as [|ip0 cells0] eqn:Eb; [discriminate|].
      injection E as <-. eapply T4; [apply reg_metrics_in; eauto|exact Eb|exact Hdd].
  - cbn. apply (sy_writer _ _ _ _ _ _ _ _ _ S).
  - cbn. apply lookup_insert.
  - intros mp0 n0 o0 H. apply HE in H. destruct (sy_upds _ _ _ _ _ _ _ _ _ S _ _ _ H) as (m0 & c0 & K1 & K2 & K3). cbn.
    destruct (decide (mp = mp0)) as [<-|N]; [|rewrite lookup_insert_ne by exact N; eauto].
    rewrite lookup_insert. assert (m0 = m) as -> by congruence. exists (put_cell m n c1).
    destruct (decide (n = n0)) as [<-|N].
    + exists c1. rewrite (cell_at_put _ _ _ _ _ Hc), decide_True by done. assert (c0 = c) as -> by congruence. auto.
    + exists c0. rewrite (cell_at_put _ _ _ _ _ Hc), decide_False by done. auto.
  - intros mp0 m0 n0 c0 cl K1 K2 K3 K4. cbn in K1. apply lookup_insert_Some in K1 as [[<- <-]|[_ K1]]; [|eapply sy_own; eauto].
    rewrite (cell_at_put _ _ _ _ _ Hc) in K2. destruct (decide (n = n0)) as [<-|N]; [exact Hreg|eapply sy_own; eauto].
Qed.

(** ** The bytes of a slot *)
Lemma slot_bytes_eq t v d : vtyped t v -> val_fits v -> val_bytes v = Some d -> slot_bytes t v = d ++ zeros (slot_w t - zlen d).
Proof.
  intros Ht Hf Hd. unfold slot_bytes. pose proof (upd_ds_fit t v Ht Hf) as F.
  destruct v as [z|z|z|z|z|z|z|z|s|]; cbn [vtyped] in Ht; try contradiction; cbn [val_bytes upd_ds fmap list_fmap snd] in *; apply (inj Some) in Hd as <-.
  7:{ subst t. change (slot_w StringType) with 256 in *. unfold content. rewrite (foldl_overlay_full 256); [|reflexivity|reflexivity].
    inversion F as [|? ? _ F2]; subst. inversion F2 as [|? ? F3 _]; subst. apply content1_pad, F3. }
  all: inversion F; subst; by apply content1_pad.
Qed.
Lemma slot_bytes_len t v : vtyped t v -> val_fits v -> zlen (slot_bytes t v) = slot_w t.
Proof. intros Ht Hf. unfold slot_bytes. apply content_length; [unfold slot_w, StringLength; destruct (t =? _); lia|by apply upd_ds_fit]. Qed.

(** Any bytes of the right number are a value. *)
Lemma bytes_val t v d d' : vtyped t v -> val_bytes v = Some d -> length d' = length d -> exists v', vtyped t v' /\ val_bytes v' = Some d' /\
  (match v with VStr _ => True | _ => False end <-> match v' with VStr _ => True | _ => False end).
Proof.
  intros Ht Hd HL.
  assert (forall n w, length d' = n -> w = 8 * Z.of_nat n -> 0 < w -> (in_unsigned w (le_dec d') /\ le_enc n (le_dec d') = d') /\
     (in_signed w (to_signed w (le_dec d')) /\ le_enc n (to_signed w (le_dec d')) = d')) as G.
  { intros n w <- -> Hw. pose proof (le_dec_range d') as R. replace (256 ^ Z.of_nat (length d')) with (2 ^ (8 * Z.of_nat (length d'))) in R by (rewrite Z.pow_mul_r by lia; reflexivity).
    split; [split; [unfold in_unsigned; lia|apply le_enc_dec]|]. split; [by apply to_signed_range|].
    apply le_dec_inj; [apply le_enc_length|]. rewrite le_dec_enc. replace (256 ^ Z.of_nat (length d')) with (2 ^ (8 * Z.of_nat (length d'))) by (rewrite Z.pow_mul_r by lia; reflexivity).
    fold (to_unsigned (8 * Z.of_nat (length d')) (to_signed (8 * Z.of_nat (length d')) (le_dec d'))). rewrite to_unsigned_signed by lia. apply to_unsigned_id. unfold in_unsigned. lia. }
  destruct v as [z|z|z|z|z|z|z|z|s|]; cbn [vtyped] in Ht; try contradiction; cbn [val_bytes] in Hd; apply (inj Some) in Hd as <-; rewrite ?le_enc_length in HL.
  1-6: destruct Ht as [-> _].
  - destruct (G 4%nat 32 HL eq_refl ltac:(lia)) as [[A1 A2] [B1 B2]]. exists (VInt32 (to_signed 32 (le_dec d'))). cbn [vtyped val_bytes]. rewrite B2. tauto.
  - destruct (G 8%nat 64 HL eq_refl ltac:(lia)) as [[A1 A2] [B1 B2]]. exists (VInt64 (to_signed 64 (le_dec d'))). cbn [vtyped val_bytes]. rewrite B2. tauto.
  - destruct (G 4%nat 32 HL eq_refl ltac:(lia)) as [[A1 A2] [B1 B2]]. exists (VUint32 (le_dec d')). cbn [vtyped val_bytes]. rewrite A2. tauto.
  - destruct (G 8%nat 64 HL eq_refl ltac:(lia)) as [[A1 A2] [B1 B2]]. exists (VUint64 (le_dec d')). cbn [vtyped val_bytes]. rewrite A2. tauto.
  - destruct (G 4%nat 32 HL eq_refl ltac:(lia)) as [[A1 A2] [B1 B2]]. exists (VF32 (le_dec d')). cbn [vtyped val_bytes]. rewrite A2. tauto.
  - destruct (G 8%nat 64 HL eq_refl ltac:(lia)) as [[A1 A2] [B1 B2]]. exists (VF64 (le_dec d')). cbn [vtyped val_bytes]. rewrite A2. tauto.
  - exists (VStr d'). cbn. tauto.
Qed.

(** One byte of a slot. *)
Lemma sub_store off w buf (j : nat) b : 0 <= off -> off + w <= zlen buf -> Z.of_nat j < w -> sub off w (do_store buf (off + Z.of_nat j, b)) = <[j := b]> (sub off w buf).
Proof.
  intros H0 H1 Hj. unfold zlen in H1. apply list_eq. intros i. unfold sub. destruct (decide (i < Z.to_nat w)%nat) as [L|L].
  - rewrite lookup_take, lookup_drop by lia. destruct (decide (i = j)) as [->|N].
    + rewrite list_lookup_insert by (rewrite take_length, drop_length; lia). apply do_store_same; cbn; lia.
    + rewrite list_lookup_insert_ne by done. rewrite lookup_take, lookup_drop by lia. apply do_store_other. cbn. lia.
  - rewrite lookup_take_ge by lia. symmetry. apply lookup_ge_None_2. rewrite insert_length, take_length. lia.
Qed.
