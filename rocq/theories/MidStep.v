(** Every step of a method keeps the file readable. *)
From Verif Require Import Base BaseFacts Floats GoVal MetricType ByteWriter Hash Units Indom Metrics Registry Prog
  Client Mmvdump Ileave ProgProofs Events StartEvents BufFacts Tiling StartGood StartLayout StartFinal StartDone
  View Sections StartView RegInv Update World OpRuns RegFacts WorldInv Sync FloatFacts ValueFacts MetricFacts SyncLive Locks Conc ConcRuns MidSlot MidUpdate.
From stdpp Require Import relations.
Local Open Scope Z_scope.

Lemma len_padded (s : gostring) : zlen s <= 256 -> length (padded 256 s) = 256%nat.
Proof. intros H. unfold padded. rewrite app_length. pose proof (zlen_zeros (256 - zlen s)) as L. unfold zlen in *. lia. Qed.
Lemma len_zeros256 : length (zeros 256) = 256%nat.
Proof. reflexivity. Qed.
Lemma padded_len (s : gostring) : (256 <= length (padded 256 s))%nat.
Proof. unfold padded. rewrite app_length. destruct (decide (zlen s <= 256)) as [H|H]; [|unfold zlen in H; lia]. pose proof (zlen_zeros (256 - zlen s)) as L. unfold zlen in *. lia. Qed.
Lemma slot_bytes_str s : slot_bytes StringType (VStr s) = content 256 [zeros 256; s].
Proof. reflexivity. Qed.
Lemma same_slot t u v : vtyped t u -> val_fits u -> vtyped t v -> val_fits v -> forall d d', val_bytes u = Some d -> val_bytes v = Some d' ->
  d ++ zeros (slot_w t - zlen d) = d' ++ zeros (slot_w t - zlen d') -> slot_bytes t u = slot_bytes t v.
Proof. intros H1 H2 H3 H4 d d' E1 E2 E. by rewrite (slot_bytes_eq _ _ _ H1 H2 E1), (slot_bytes_eq _ _ _ H3 H4 E2). Qed.

(** The shape of one step of Write. *)
Lemma write_step mp w off data kok kerr s p' s' ino buf : qstep mp (QWrite w off data kok kerr) s p' s' ->
  f_writers (q_files s) !! w = Some (mkWriter ino true) -> f_inodes (q_files s) !! ino = Some buf -> 0 <= off -> off + zlen data <= zlen buf ->
  match data with
  | [] => p' = kok /\ s' = s
  | b :: data => p' = QWrite w (off + 1) data kok kerr /\ s' = mkMem (q_metrics s) (with_inode (q_files s) ino (do_store buf (off, b)))
  end.
Proof.
  unfold qstep. cbn [qnext]. intros H Hw Hb H0 HL. rewrite Hw in H. cbn [mbind option_bind wr_live wr_inode] in H. rewrite Hb in H. cbn [mbind option_bind] in H.
  replace (zlen buf <? off + zlen data) with false in H by lia. destruct data as [|b data]; [by injection H as <- <-|].
  replace (off <? 0) with false in H by lia. by injection H as <- <-.
Qed.

Section step.
  Context (k : cfg) (wr ino : nat) (ad : list da) (am : list ma) (mp : nat) (m0 : metric).
  Notation t := (md_type (m_desc m0)).
  Definition stat (m : metric) : Prop := m_desc m = m_desc m0 /\ (timer_kind (m_kind m0) -> timer_kind (m_kind m)) /\
    (registered (k_reg k) mp \/ forall n c, cell_at m n = Some c -> c_upd c = None).

  Lemma stat_put m n c v : stat m -> cell_at m n = Some c -> stat (put_cell m n (mkCell v (c_upd c))).
  Proof.
    intros (A & B & C) Hc. split_and!; [by rewrite put_cell_desc| |].
    - unfold put_cell. destruct m as [d kk [c1|ip cells]], n; cbn in *; done.
    - destruct C as [C|C]; [by left|right]. intros n' c' H. rewrite (cell_at_put _ _ _ _ _ Hc) in H. destruct (decide (n' = n)); [injection H as <-; cbn; eauto|eauto].
  Qed.

  (** [m]: the metric in memory, [g]: as the file shows it. *)
  Record snap (hp : heap) (s : mem) (m g : metric) (pl : plan) (buf : list byte) : Prop := {
    sn_heap : heap_ok hp;
    sn_reg : reg_ok hp (k_reg k);
    sn_sync : sync hp (q_files s) k wr ino pl ad am buf;
    sn_g : h_metrics hp !! mp = Some g;
    sn_m : q_metrics s !! mp = Some m;
    sn_ok : metric_ok hp m;
    sn_stat : stat m }.

  Lemma snap_put hp s m g pl buf n c v : snap hp s m g pl buf -> cell_at g n = Some c -> vtyped (md_type (m_desc g)) v ->
    heap_ok (upd_heap hp mp (put_cell g n (mkCell v (c_upd c)))) /\ reg_ok (upd_heap hp mp (put_cell g n (mkCell v (c_upd c)))) (k_reg k).
  Proof.
    intros [] Hc Hv. split.
    - apply heap_ok_metric; [done|]. eapply put_cell_ok; eauto. by apply (ho_metrics _ sn_heap0 mp).
    - eapply reg_ok_ext; [exact sn_heap0| |done]. eapply upd_heap_ext; eauto using put_cell_desc, put_indom.
  Qed.
  Lemma ok_upd hp m g' : metric_ok hp m -> metric_ok (upd_heap hp mp g') m.
  Proof. apply metric_ok_ext. auto. Qed.

  Definition done_step (hp : heap) (s : mem) (p' : mprog) (s' : mem) : Prop :=
    exists m' g' pl' buf', q_metrics s' = <[mp := m']> (q_metrics s) /\ snap (upd_heap hp mp g') s' m' g' pl' buf' /\ mid m0 wr p' m' g'.

  (** Nothing written. *)
  Lemma same_step hp s m g pl buf p' : snap hp s m g pl buf -> mid m0 wr p' m g -> done_step hp s p' s.
  Proof.
    intros SN M. exists m, g, pl, buf. pose proof SN as []. rewrite (upd_heap_same _ _ _ sn_g0). split_and!; auto. by rewrite insert_id.
  Qed.

  (** One byte. *)
  Lemma byte_step hp s m g pl buf n v kk c off u x j b u' p' s' : snap hp s m g pl buf ->
    cell_at m n = Some c -> c_upd c = Some (mkClosure wr off) -> g = put_cell m n (mkCell u (c_upd c)) ->
    vtyped t u -> val_fits u -> vtyped t v -> val_fits v -> wprog m0 kk ->
    val_bytes u = Some x -> (j < length x)%nat -> vtyped t u' -> val_fits u' -> val_bytes u' = Some (<[j := b]> x) ->
    s' = mkMem (q_metrics s) (with_inode (q_files s) ino (do_store buf (off + Z.of_nat j, b))) ->
    phase wr off (c_val c) v (QSetVal n v kk) u' p' -> done_step hp s p' s'.
  Proof.
    intros SN Hc Hu -> Htu Hfu Htv Hfv Hk Hx Hj Htu' Hfu' Hx' -> Hph. pose proof SN as [A1 A2 A3 A4 A5 A6 A7]. pose proof A7 as (D & _ & R).
    set (g := put_cell m n (mkCell u (c_upd c))) in *. set (cg := mkCell u (c_upd c)).
    assert (cell_at g n = Some cg) as Hg by (unfold g; rewrite (cell_at_put _ _ _ _ _ Hc), decide_True by done; done).
    assert (md_type (m_desc g) = t) as Et by (unfold g; rewrite put_cell_desc, D; done).
    destruct R as [R|R]; [|rewrite (R _ _ Hc) in Hu; done].
    destruct (sync_byte hp (q_files s) k wr ino pl ad am buf mp g n cg off x j b u') as (_ & _ & pl' & SY); auto; try (rewrite Et; assumption).
    assert (put_cell g n (mkCell u' (c_upd cg)) = put_cell m n (mkCell u' (c_upd c))) as Eg by (unfold g; by rewrite (put_put _ _ _ _ _ Hc)).
    destruct (snap_put hp s m g pl buf n cg u' SN Hg) as [B1 B2]; [by rewrite Et|]. rewrite Eg in SY, B1, B2.
    exists m, (put_cell m n (mkCell u' (c_upd c))), pl', (do_store buf (off + Z.of_nat j, b)). split; [by rewrite insert_id|]. split.
    - split; auto; [cbn; apply lookup_insert|by apply ok_upd].
    - right. exists n, v, kk, c, off, u'. split_and!; auto.
  Qed.

  (** The slot's bytes under another name. *)
  Lemma name_step hp s m g pl buf n v kk c off u d d' p' : snap hp s m g pl buf ->
    cell_at m n = Some c -> c_upd c = Some (mkClosure wr off) -> g = put_cell m n (mkCell u (c_upd c)) ->
    vtyped t u -> val_fits u -> vtyped t v -> val_fits v -> wprog m0 kk -> val_bytes u = Some d -> val_bytes v = Some d' ->
    d ++ zeros (slot_w t - zlen d) = d' ++ zeros (slot_w t - zlen d') ->
    phase wr off (c_val c) v (QSetVal n v kk) v p' -> done_step hp s p' s.
  Proof.
    intros SN Hc Hu -> Htu Hfu Htv Hfv Hk Hx Hx' E Hph. pose proof SN as [A1 A2 A3 A4 A5 A6 A7]. pose proof A7 as (D & _ & R).
    set (g := put_cell m n (mkCell u (c_upd c))) in *. set (cg := mkCell u (c_upd c)).
    assert (cell_at g n = Some cg) as Hg by (unfold g; rewrite (cell_at_put _ _ _ _ _ Hc), decide_True by done; done).
    assert (md_type (m_desc g) = t) as Et by (unfold g; rewrite put_cell_desc, D; done).
    destruct R as [R|R]; [|rewrite (R _ _ Hc) in Hu; done].
    destruct (sync_name hp (q_files s) k wr ino pl ad am buf mp g n cg v) as (pl' & SY); auto.
    { rewrite Et. symmetry. eapply same_slot; eauto. }
    assert (put_cell g n (mkCell v (c_upd cg)) = put_cell m n (mkCell v (c_upd c))) as Eg by (unfold g; by rewrite (put_put _ _ _ _ _ Hc)).
    destruct (snap_put hp s m g pl buf n cg v SN Hg) as [B1 B2]; [by rewrite Et|]. rewrite Eg in SY, B1, B2.
    exists m, (put_cell m n (mkCell v (c_upd c))), pl', buf. split; [by rewrite insert_id|]. split.
    - split; auto; [cbn; apply lookup_insert|by apply ok_upd].
    - right. exists n, v, kk, c, off, v. split_and!; auto.
  Qed.

  Lemma busy_step hp s m g pl buf p p' s' : snap hp s m g pl buf -> busy m0 wr p m g -> qstep mp p s p' s' -> done_step hp s p' s'.
  Proof.
    intros SN (n & v & kk & c & off & u & Hc & Hu & Eg & Htu & Hfu & Htv & Hfv & Hk & Hph) Hst. pose proof SN as [A1 A2 A3 A4 A5 A6 A7]. pose proof A7 as (D & _ & R).
    set (cg := mkCell u (c_upd c)) in *.
    assert (cell_at g n = Some cg) as Hg by (rewrite Eg; rewrite (cell_at_put _ _ _ _ _ Hc), decide_True by done; done).
    assert (md_type (m_desc g) = t) as Et by (rewrite Eg, put_cell_desc, D; done).
    destruct R as [R|R]; [|rewrite (R _ _ Hc) in Hu; done].
    destruct (sync_poke _ _ _ _ _ _ _ _ _ _ _ _ _ A1 A2 A3 R A4 Hg) as (off' & E & B1 & B2 & _). cbn [c_upd cg] in E. assert (off' = off) as -> by congruence. clear E. rewrite Et in B2.
    destruct Hph as [j d d0 u Nv Hd Hd0 HL Hj Hud Nu|j s1 s0 -> E0 Hj|j s1 -> Hj|].
    - assert (zlen d <= slot_w t) as Ld. { pose proof (slot_bytes_len t v Htv Hfv) as L. rewrite (slot_bytes_eq _ _ _ Htv Hfv Hd), zlen_app in L. pose proof (zlen_nonneg (zeros (slot_w t - zlen d))). lia. }
      apply (write_step _ _ _ _ _ _ _ _ _ ino buf) in Hst; [|apply (sy_writer _ _ _ _ _ _ _ _ _ A3)|apply (sy_buf _ _ _ _ _ _ _ _ _ A3)|lia|unfold zlen in *; rewrite drop_length; lia].
      destruct (drop j d) as [|b rest] eqn:Edr.
      + destruct Hst as [-> ->]. assert (j = length d) as Ej. { apply (f_equal length) in Edr. rewrite drop_length in Edr. cbn in Edr. lia. }
        eapply (name_step hp s m g pl buf n v kk c off u); eauto; [|apply ph_done]. unfold torn. subst j. rewrite take_ge by lia. rewrite HL, drop_all, app_nil_r. done.
      + destruct Hst as [-> ->]. assert (d !! j = Some b) as Hb. { rewrite <- (Nat.add_0_r j), <- lookup_drop, Edr. done. }
        pose proof (lookup_lt_Some _ _ _ Hb) as Lt. pose proof (torn_step j d d0 b ltac:(lia) Hb) as TS.
        destruct (bytes_val t u _ (torn (Datatypes.S j) d d0) Htu Hud) as (u' & T1 & T2 & T3). { rewrite !torn_length by lia. done. }
        assert (~ is_str u') as Nu' by (unfold is_str in *; tauto).
        eapply (byte_step hp s m g pl buf n v kk c off u _ j b u'); eauto.
        * rewrite torn_length by lia. lia.
        * destruct u'; try exact I. exfalso. by apply Nu'.
        * by rewrite TS.
        * replace (off + Z.of_nat j + 1) with (off + Z.of_nat (Datatypes.S j)) by lia. replace rest with (drop (Datatypes.S j) d).
          -- eapply ph_num; eauto.
          -- replace (Datatypes.S j) with (j + 1)%nat by lia. rewrite <- drop_drop, Edr. done.
    - cbn [vtyped] in Htv. rewrite Htv in B2. change (slot_w StringType) with 256 in B2.
      apply (write_step _ _ _ _ _ _ _ _ _ ino buf) in Hst; [|apply (sy_writer _ _ _ _ _ _ _ _ _ A3)|apply (sy_buf _ _ _ _ _ _ _ _ _ A3)|lia|unfold zlen in *; rewrite drop_length, len_zeros256; lia].
      pose proof (padded_len s0) as Lp.
      destruct (drop j (zeros 256)) as [|b rest] eqn:Edr.
      + destruct Hst as [-> ->]. assert (j = 256)%nat as Ej. { apply (f_equal length) in Edr. rewrite drop_length, len_zeros256 in Edr. cbn in Edr. lia. }
        eapply same_step; [exact SN|]. right. exists n, (VStr s1), kk, c, off, (VStr (torn j (zeros 256) (padded 256 s0))). split_and!; auto.
        assert (torn j (zeros 256) (padded 256 s0) = torn 0 s1 (zeros 256)) as ->.
        { cbn [val_fits] in Hfu. unfold zlen in Hfu. rewrite torn_length in Hfu by (rewrite ?len_zeros256; lia). rewrite torn_0. unfold torn. subst j. rewrite take_ge by (rewrite len_zeros256; lia).
          rewrite drop_ge by lia. by rewrite app_nil_r. }
        pose proof (ph_fill wr off (c_val c) (VStr s1) (QSetVal n (VStr s1) kk) 0 s1 eq_refl ltac:(lia)) as P. by rewrite Z.add_0_r, drop_0 in P.
      + destruct Hst as [-> ->]. assert (zeros 256 !! j = Some b) as Hb. { rewrite <- (Nat.add_0_r j), <- lookup_drop, Edr. done. }
        pose proof (lookup_lt_Some _ _ _ Hb) as Lt. rewrite len_zeros256 in Lt. pose proof (torn_step j (zeros 256) (padded 256 s0) b ltac:(rewrite len_zeros256; lia) Hb) as TS.
        eapply (byte_step hp s m g pl buf n (VStr s1) kk c off (VStr (torn j (zeros 256) (padded 256 s0))) _ j b (VStr (torn (Datatypes.S j) (zeros 256) (padded 256 s0)))); eauto.
        * rewrite torn_length by (rewrite ?len_zeros256; lia). lia.
        * cbn [val_fits] in *. unfold zlen in *. rewrite torn_length in * by (rewrite ?len_zeros256; lia). lia.
        * cbn [val_bytes]. by rewrite TS.
        * replace (off + Z.of_nat j + 1) with (off + Z.of_nat (Datatypes.S j)) by lia. replace rest with (drop (Datatypes.S j) (zeros 256)).
          -- eapply ph_clear; eauto.
          -- replace (Datatypes.S j) with (j + 1)%nat by lia. rewrite <- drop_drop, Edr. done.
    - cbn [vtyped] in Htv. rewrite Htv in B2. change (slot_w StringType) with 256 in B2. cbn [val_fits] in Hfv.
      apply (write_step _ _ _ _ _ _ _ _ _ ino buf) in Hst; [|apply (sy_writer _ _ _ _ _ _ _ _ _ A3)|apply (sy_buf _ _ _ _ _ _ _ _ _ A3)|lia|unfold zlen in *; rewrite drop_length; lia].
      destruct (drop j s1) as [|b rest] eqn:Edr.
      + destruct Hst as [-> ->]. assert (j = length s1)%nat as Ej. { apply (f_equal length) in Edr. rewrite drop_length in Edr. cbn in Edr. lia. }
        eapply (name_step hp s m g pl buf n (VStr s1) kk c off (VStr (torn j s1 (zeros 256)))); eauto; [|apply ph_done].
        assert (zlen (torn j s1 (zeros 256)) = 256) as L2. { unfold zlen in *. rewrite torn_length by (rewrite ?len_zeros256; lia). done. }
        rewrite Htv. change (slot_w StringType) with 256. rewrite L2. change (zeros (256 - 256)) with (@nil byte). rewrite app_nil_r. unfold torn. subst j. rewrite take_ge by lia. f_equal.
        unfold zeros. rewrite drop_replicate. f_equal. unfold zlen in *. lia.
      + destruct Hst as [-> ->]. assert (s1 !! j = Some b) as Hb. { pose proof (lookup_drop (s1 : list byte) j 0) as L. rewrite Edr, Nat.add_0_r in L. symmetry. exact L. }
        pose proof (lookup_lt_Some _ _ _ Hb) as Lt. unfold zlen in Hfv. pose proof (torn_step j s1 (zeros 256) b ltac:(rewrite len_zeros256; lia) Hb) as TS.
        eapply (byte_step hp s m g pl buf n (VStr s1) kk c off (VStr (torn j s1 (zeros 256))) _ j b (VStr (torn (Datatypes.S j) s1 (zeros 256)))); eauto.
        * rewrite torn_length by (rewrite ?len_zeros256; lia). rewrite len_zeros256. lia.
        * cbn [val_fits] in *. unfold zlen in *. rewrite torn_length in * by (rewrite ?len_zeros256; lia). lia.
        * cbn [val_bytes]. by rewrite TS.
        * replace (off + Z.of_nat j + 1) with (off + Z.of_nat (Datatypes.S j)) by lia. replace rest with (drop (Datatypes.S j) s1).
          -- eapply ph_fill; eauto.
          -- replace (Datatypes.S j) with (j + 1)%nat by lia. rewrite <- drop_drop, Edr. done.
    - unfold qstep in Hst. cbn [qnext] in Hst. rewrite A5 in Hst. cbn [mbind option_bind] in Hst. rewrite Hc in Hst. cbn [mbind option_bind] in Hst. injection Hst as <- <-.
      subst cg. exists g, g, pl, buf. cbn [upd_metric q_metrics]. split; [by rewrite Eg|]. split.
      + split; cbn [q_files upd_metric]; auto.
        * rewrite upd_heap_same by done. done.
        * rewrite upd_heap_same by done. done.
        * rewrite upd_heap_same by done. done.
        * cbn. by rewrite lookup_insert.
        * cbn. rewrite lookup_insert. by rewrite Eg.
        * rewrite upd_heap_same by done. by apply (ho_metrics _ A1 mp).
        * rewrite Eg. by apply stat_put.
      + left. auto.
  Qed.

  Lemma snap_fits hp s m g pl buf n c : snap hp s m g pl buf -> registered (k_reg k) mp -> cell_at g n = Some c -> val_fits (c_val c).
  Proof.
    intros [A1 A2 A3 A4 A5 A6 A7] R Hc. pose proof (st_mets _ _ (sy_start _ _ _ _ _ _ _ _ _ A3)) as Sm. rewrite Forall_forall in Sm.
    destruct (Sm g) as (_ & _ & Sf). { apply reg_metrics_in. eauto. } eapply metric_body_fits; eauto.
  Qed.

  (** A change of the metric both in memory and as shown. *)
  Lemma quiet_step hp s m pl buf m' p' : snap hp s m m pl buf -> metric_ok hp m' -> stat m' -> m_indom m' = m_indom m ->
    (registered (k_reg k) mp -> vals_of (m_body m') = vals_of (m_body m)) -> (forall n, c_upd <$> cell_at m' n = c_upd <$> cell_at m n) ->
    mid m0 wr p' m' m' -> done_step hp s p' (upd_metric s mp m').
  Proof.
    intros SN Ok St Hi Hv Hu M. pose proof SN as [A1 A2 A3 A4 A5 A6 A7]. exists m', m', pl, buf. split; [done|]. split; [|done].
    assert (m_desc m' = m_desc m) as Hd by (destruct St as [-> _], A7 as [-> _]; done). split.
    - by apply heap_ok_metric.
    - eapply reg_ok_ext; [exact A1| |done]. by eapply upd_heap_ext.
    - eapply sync_quiet; eauto.
    - apply lookup_insert.
    - apply lookup_insert.
    - by apply ok_upd.
    - done.
  Qed.

  Lemma idle_step hp s m pl buf p p' s' : snap hp s m m pl buf -> wprog m0 p -> qstep mp p s p' s' -> done_step hp s p' s'.
  Proof.
    intros SN W Hst. pose proof SN as [A1 A2 A3 A4 A5 A6 A7]. unfold qstep in Hst. destruct W as [o v|n kk Hk|kk Hk|mk kk Hmk Hm0 Hk|n v kk Hv Hf Hk]; cbn [qnext] in Hst.
    - done.
    - rewrite A5 in Hst. cbn in Hst. injection Hst as <- <-. eapply same_step; [exact SN|]. left. auto.
    - rewrite A5 in Hst. cbn in Hst. injection Hst as <- <-. eapply same_step; [exact SN|]. left. auto.
    - rewrite A5 in Hst. cbn in Hst. injection Hst as <- <-. destruct A7 as (D & T & R). eapply quiet_step; eauto.
      + destruct A6 as [X Y Z']. split; cbn; auto. specialize (T Hm0). destruct (m_kind m); try contradiction. destruct mk; try contradiction. exact Z'.
      + split_and!; auto.
      + left. auto.
    - rewrite A5 in Hst. cbn in Hst. injection Hst as <- <-. destruct (cell_at m n ≫= c_upd) as [cl|] eqn:Eu; cbn [upd_k].
      2:{ eapply same_step; [exact SN|]. left. split; [done|]. right. exists n, v, kk. split_and!; auto. intros c Hc. rewrite Hc in Eu. exact Eu. }
      destruct (cell_at m n) as [c|] eqn:Hc; [|done]. cbn in Eu. pose proof A7 as (D & T & R). destruct R as [R|R]; [|rewrite (R _ _ Hc) in Eu; done].
      destruct (sync_poke _ _ _ _ _ _ _ _ _ _ _ _ _ A1 A2 A3 R A4 Hc) as (off & E & B1 & B2 & _). assert (cl = mkClosure wr off) as -> by congruence. clear E.
      pose proof (snap_fits _ _ _ _ _ _ _ _ SN R Hc) as Hfc. pose proof (cell_typed _ _ _ _ A6 Hc) as Htc. rewrite D in Htc, B2.
      destruct (match v with VStr _ => true | _ => false end) eqn:Es.
      + destruct v as [| | | | | | | |s1|]; try done. assert (is_str (c_val c)) as Eo by (eapply same_type_str; [exact Hv|exact Htc|exact I]).
        destruct (c_val c) as [| | | | | | | |s0|] eqn:Ec; try done. cbn [vtyped val_fits] in *.
        set (u := VStr (padded 256 s0)).
        destruct (sync_name hp (q_files s) k wr ino pl ad am buf mp m n c u) as (pl' & SY); auto.
        { cbn. pose proof (len_padded s0 Hfc). unfold zlen. lia. }
        { rewrite D, Ec. eapply (same_slot _ u (VStr s0)); cbn [vtyped val_fits val_bytes u]; eauto.
          - pose proof (len_padded s0 Hfc). unfold zlen. lia.
          - rewrite Hv. change (slot_w StringType) with 256. assert (zlen (padded 256 s0) = 256) as -> by (unfold zlen; rewrite len_padded by done; done).
            change (zeros (256 - 256)) with (@nil byte). by rewrite app_nil_r. }
        destruct (snap_put hp s m m pl buf n c u SN Hc) as [C1 C2]; [rewrite D; exact Hv|].
        exists m, (put_cell m n (mkCell u (c_upd c))), pl', buf. split; [by rewrite insert_id|]. split.
        * split; auto; [cbn; apply lookup_insert|by apply ok_upd].
        * right. exists n, (VStr s1), kk, c, off, u. split_and!; auto; [cbn; pose proof (len_padded s0 Hfc); unfold zlen; lia|]. rewrite Ec.
          pose proof (ph_clear wr off (VStr s0) (VStr s1) (QSetVal n (VStr s1) kk) 0 s1 s0 eq_refl eq_refl ltac:(lia)) as P. rewrite Z.add_0_r, drop_0, torn_0 in P. exact P.
      + destruct (val_bytes_some _ _ Hv) as (d & Hd). destruct (val_bytes_some _ _ Htc) as (d0 & Hd0). assert (~ is_str v) as Nv by (by destruct v; intros H).
        assert (~ is_str (c_val c)) as Nc by (intros H; apply Nv; eapply same_type_str; [exact Htc|exact Hv|exact H]).
        pose proof (same_type_len _ _ _ _ _ Hv Htc Nv Hd Hd0) as HL.
        eapply same_step; [exact SN|]. right. exists n, v, kk, c, off, (c_val c). split_and!; auto.
        * symmetry. apply put_same. destruct c; cbn in *; done.
        * assert (q_update (mkClosure wr off) v (QSetVal n v kk) = QWrite wr (off + Z.of_nat 0) (drop 0 d) (QSetVal n v kk) (QRet RErr None)) as ->.
          { rewrite Z.add_0_r, drop_0. destruct v; cbn [val_bytes] in Hd; try discriminate Hd; try discriminate Es; apply (inj Some) in Hd as <-; reflexivity. }
          eapply ph_num; eauto. lia.
  Qed.

  Lemma lone_step hp s m pl buf p p' s' : snap hp s m m pl buf -> lone m0 p m -> qstep mp p s p' s' -> done_step hp s p' s'.
  Proof.
    intros SN (n & v & kk & -> & Hn & Hv & Hf & Hk) Hst. pose proof SN as [A1 A2 A3 A4 A5 A6 A7]. unfold qstep in Hst. cbn [qnext] in Hst.
    rewrite A5 in Hst. cbn in Hst. destruct (cell_at m n) as [c|] eqn:Hc; [|done]. cbn in Hst. injection Hst as <- <-. specialize (Hn _ eq_refl). pose proof A7 as (D & T & R).
    assert (~ registered (k_reg k) mp) as NR. { intros R'. destruct (sync_poke _ _ _ _ _ _ _ _ _ _ _ _ _ A1 A2 A3 R' A4 Hc) as (off & E & _). congruence. }
    eapply quiet_step; eauto.
    - eapply put_cell_ok; eauto. cbn. by rewrite D.
    - by apply stat_put.
    - apply put_indom.
    - done.
    - intros n'. rewrite (cell_at_put _ _ _ _ _ Hc). destruct (decide (n' = n)) as [->|]; [|done]. by rewrite Hc.
    - left. auto.
  Qed.

  Lemma mid_step hp s m g pl buf p p' s' : snap hp s m g pl buf -> mid m0 wr p m g -> qstep mp p s p' s' -> done_step hp s p' s'.
  Proof. intros SN [[-> [W|L]]|B] Hst; [eapply idle_step|eapply lone_step|eapply busy_step]; eauto. Qed.
End step.
