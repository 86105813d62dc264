(** A reader that reads different bytes of the file at different moments of concurrent
    updates. *)
From Verif Require Import Base BaseFacts Floats GoVal MetricType ByteWriter Hash Units Indom Metrics Registry Prog
  Client Mmvdump Ileave ProgProofs Events StartEvents BufFacts Tiling StartGood StartLayout StartFinal StartDone
  View Sections StartView RegInv Update World OpRuns RegFacts WorldInv Sync SyncView FloatFacts ValueFacts MetricFacts OpFacts Life SyncLive SyncApart Locks Conc ConcRuns ConcFacts MidSlot MidUpdate MidStep MidRun MidView.
From stdpp Require Import relations.
Local Open Scope Z_scope.

(** ** What no call touches *)
Section frame.
  Context (w : world) (mps : list nat) (W : w_ok w) (A : apart (w_files w) (h_metrics (w_heap w)) mps).
  Context (css : list (list mcall)) (Hcs : forall l c, l ∈ css -> c ∈ l -> call_ok w mps c).
  Definition untouched (o : option nat) : Prop := match o with None => True | Some mp => forall l op mst, l ∈ css -> MUpdate mp op mst ∉ l end.
  Definition planned (c : mcall) : Prop := exists l, l ∈ css /\ c ∈ l.
  Record frame (m : machine) : Prop := {
    fr_good : good w (mc_mem m);
    fr_todo : forall i th c, mc_thr m !! i = Some th -> c ∈ t_todo th -> planned c;
    fr_cur : forall i d c p l, mc_thr m !! i = Some (mkThr d (Some (c, p)) l) -> planned c /\ fit w mps (mc_obj c) p /\ (mc_rd c = true -> reader p);
    fr_same : forall o, untouched o -> agree w mps o (world_mem w) (mc_mem m) }.

  Lemma frame_step m m' : frame m -> cstep (w_heap w) m m' -> frame m'.
  Proof.
    intros [F1 F2 F3 F4] M. destruct M as [s f ts i d c l Hi Hr Hf|s f ts i d c l X Hi Hr Hf|s f ts i d c p l p' s' Hi Hs|s f ts i d c p l r Hi Hp Hr|s f ts i d c p l r X Hi Hp Hr Hf];
      pose proof (lookup_lt_Some _ _ _ Hi) as Lt; cbn [mc_mem mc_thr mc_locks] in *.
    1, 2: assert (planned c) as Pc by (eapply F2; [exact Hi|left]);
      split; cbn [mc_mem mc_thr mc_locks]; auto;
      [intros i' th c' H Hin; destruct (decide (i' = i)) as [->|N]; [rewrite list_lookup_insert in H by done; injection H as <-; eapply F2; [exact Hi|by right]|rewrite list_lookup_insert_ne in H by done; eauto]
      |intros i' d' c' p' l' H; destruct (decide (i' = i)) as [->|N]; [rewrite list_lookup_insert in H by done; injection H as <- <- <- <-; destruct Pc as (l0 & P1 & P2);
         split; [by exists l0|]; split; [apply enter_fit; eauto|intros R; destruct c; [discriminate R|apply reads_enter]]|rewrite list_lookup_insert_ne in H by done; eauto]].
    2, 3: split; cbn [mc_mem mc_thr mc_locks]; auto;
      [intros i' th c' H Hin; destruct (decide (i' = i)) as [->|N]; [rewrite list_lookup_insert in H by done; injection H as <-; eapply F2; [exact Hi|exact Hin]|rewrite list_lookup_insert_ne in H by done; eauto]
      |intros i' d' c' p' l' H; destruct (decide (i' = i)) as [->|N]; [by rewrite list_lookup_insert in H by done|rewrite list_lookup_insert_ne in H by done; eauto]].
    destruct (F3 _ _ _ _ _ Hi) as (Pc & Fp & Rp). assert (match mc_obj c with Some mp => qstep mp p s p' s' | None => False end) as Hs' by (by destruct (mc_obj c)).
    destruct (step_good w mps _ _ _ _ _ Fp F1 Hs') as (Fp' & G' & Ag). split; cbn [mc_mem mc_thr mc_locks]; auto.
    - intros i' th c' H Hin. destruct (decide (i' = i)) as [->|N]; [rewrite list_lookup_insert in H by done; injection H as <-; eapply F2; [exact Hi|exact Hin]|rewrite list_lookup_insert_ne in H by done; eauto].
    - intros i' d' c' p1 l' H. destruct (decide (i' = i)) as [->|N]; [|rewrite list_lookup_insert_ne in H by done; eauto]. rewrite list_lookup_insert in H by done. injection H as <- <- <- <-.
      split_and!; auto. intros R. specialize (Rp R). destruct c as [|mp n]; [discriminate R|]. cbn [mc_obj] in Hs'. unfold qstep in Hs'. inversion Rp as [|n0 k0 Hk]; subst; cbn in Hs'; [done|].
      destruct (q_metrics s !! mp); [|done]. cbn in Hs'. injection Hs' as <- <-. auto.
    - intros o U. destruct (decide (o = mc_obj c)) as [->|N]; [|eapply agree_trans; [by apply F4|by apply Ag]].
      destruct c as [mp op mst|mp n]; cbn [mc_obj] in *.
      + destruct Pc as (l0 & P1 & P2). exfalso. exact (U _ _ _ P1 P2).
      + specialize (Rp eq_refl). unfold qstep in Hs'. inversion Rp as [|n0 k0 Hk]; subst; cbn in Hs'; [done|]. destruct (q_metrics s !! mp); [|done]. cbn in Hs'. injection Hs' as <- <-. by apply F4.
  Qed.
  Lemma frame_start : frame (m_start (world_mem w) css).
  Proof.
    split; cbn [m_start mc_mem mc_thr].
    - apply good_start.
    - intros i th c H Hin. rewrite list_lookup_fmap in H. destruct (css !! i) as [l|] eqn:El; [|done]. injection H as <-. exists l. split; [eapply elem_of_list_lookup_2; eauto|exact Hin].
    - intros i d c p l H. rewrite list_lookup_fmap in H. by destruct (css !! i).
    - intros o _. apply agree_refl.
  Qed.
  Lemma frame_steps m : rtc (cstep (w_heap w)) (m_start (world_mem w) css) m -> frame m.
  Proof.
    assert (forall a b, rtc (cstep (w_heap w)) a b -> frame a -> frame b) as H. { induction 1; eauto using frame_step. }
    intros R. eapply H; [exact R|apply frame_start].
  Qed.
End frame.

(** ** Values made of bytes of several values *)
Lemma piece_val t v0 (s : list byte) : vtyped t v0 -> val_fits v0 -> zlen s = slot_w t ->
  (forall j b, s !! j = Some b -> exists u, vtyped t u /\ val_fits u /\ slot_bytes t u !! j = Some b) ->
  exists v, vtyped t v /\ val_fits v /\ slot_bytes t v = s.
Proof.
  intros Ht Hf HL H. destruct (match v0 with VStr _ => true | _ => false end) eqn:Es.
  - destruct v0; try discriminate Es. cbn in Ht. subst t. change (slot_w StringType) with 256 in HL. exists (VStr s). split; [done|]. split; [cbn; lia|].
    rewrite (slot_bytes_eq _ _ s); [|done|cbn; lia|done]. rewrite HL. change (zeros (slot_w StringType - 256)) with (@nil byte). by rewrite app_nil_r.
  - assert (~ is_str v0) as Ns by (by destruct v0; intros N). destruct (val_bytes_some _ _ Ht) as (d0 & Hd0).
    assert (zlen d0 <= slot_w t) as Ld. { pose proof (slot_bytes_len t v0 Ht Hf) as L. rewrite (slot_bytes_eq _ _ _ Ht Hf Hd0), zlen_app in L. pose proof (zlen_nonneg (zeros (slot_w t - zlen d0))). lia. }
    destruct (bytes_val t v0 d0 (take (length d0) s) Ht Hd0) as (v & T1 & T2 & T3). { rewrite take_length. unfold zlen in *. lia. }
    assert (~ is_str v) as Nv by (unfold is_str in *; tauto). assert (val_fits v) as Fv. { destruct v; try exact I. exfalso. by apply Nv. }
    exists v. split_and!; auto. rewrite (slot_bytes_eq _ _ _ T1 Fv T2). assert (length (take (length d0) s) = length d0) as Lt. { rewrite take_length. unfold zlen in *. lia. }
    rewrite <- (take_drop (length d0) s) at 3. f_equal. apply list_eq. intros j. rewrite lookup_drop. unfold zlen at 1. rewrite Lt. fold (zlen d0). unfold zeros.
    destruct (decide (j < Z.to_nat (slot_w t - zlen d0))%nat) as [Lj|Lj].
    + rewrite lookup_replicate_2 by done. assert (is_Some (s !! (length d0 + j)%nat)) as [b Hb] by (apply lookup_lt_is_Some_2; unfold zlen in *; lia). rewrite Hb. f_equal.
      destruct (H _ _ Hb) as (u & U1 & U2 & U3). destruct (val_bytes_some _ _ U1) as (du & Hdu). rewrite (slot_bytes_eq _ _ _ U1 U2 Hdu) in U3. pose proof (same_type_len _ _ _ _ _ Ht U1 Ns Hd0 Hdu) as E.
      rewrite lookup_app_r in U3 by lia. unfold zeros in U3. apply lookup_replicate in U3 as [-> _]. done.
    + transitivity (@None byte); [apply lookup_replicate_None; lia|symmetry; apply lookup_ge_None_2; unfold zlen in *; lia].
Qed.

(** [b] with the bytes of [a] from [off] to [off + n]. *)
Definition patch (off n : nat) (a b : list byte) : list byte := take off b ++ take n (drop off a) ++ drop (off + n) b.
Lemma patch_len off n a b : length a = length b -> (off + n <= length b)%nat -> length (patch off n a b) = length b.
Proof. intros. unfold patch. rewrite !app_length, !take_length, !drop_length. lia. Qed.
Lemma patch_in off n a b i : length a = length b -> (off + n <= length b)%nat -> (off <= i < off + n)%nat -> patch off n a b !! i = a !! i.
Proof.
  intros HL HB Hi. unfold patch. rewrite lookup_app_r by (rewrite take_length; lia). rewrite take_length. rewrite lookup_app_l by (rewrite take_length, drop_length; lia).
  rewrite lookup_take by lia. rewrite lookup_drop. f_equal. lia.
Qed.
Lemma patch_out off n a b i : length a = length b -> (off + n <= length b)%nat -> ~ (off <= i < off + n)%nat -> patch off n a b !! i = b !! i.
Proof.
  intros HL HB Hi. unfold patch. destruct (decide (i < off)%nat) as [L|L].
  - rewrite lookup_app_l by (rewrite take_length; lia). by rewrite lookup_take by lia.
  - rewrite lookup_app_r by (rewrite take_length; lia). rewrite take_length. rewrite lookup_app_r by (rewrite take_length, drop_length; lia). rewrite take_length, drop_length, lookup_drop. f_equal. lia.
Qed.

(** ** The file that was read is the file of some values *)
Lemma lookup_sub off n (buf : list byte) (i : nat) : 0 <= off -> Z.of_nat i < n -> sub off n buf !! i = buf !! (Z.to_nat off + i)%nat.
Proof. intros. unfold sub. rewrite lookup_take by lia. by rewrite lookup_drop. Qed.
Lemma sync_fits hp fs k wr ino pl ad am buf mp m n c : sync hp fs k wr ino pl ad am buf -> registered (k_reg k) mp -> h_metrics hp !! mp = Some m -> cell_at m n = Some c -> val_fits (c_val c).
Proof.
  intros S R Hm Hc. pose proof (st_mets _ _ (sy_start _ _ _ _ _ _ _ _ _ S)) as Sm. rewrite Forall_forall in Sm. destruct (Sm m) as (_ & _ & Sf). { apply reg_metrics_in. eauto. } eapply metric_body_fits; eauto.
Qed.
Lemma sync_slot_byte hp fs k wr ino pl ad am buf mp m n c off i : heap_ok hp -> reg_ok hp (k_reg k) -> sync hp fs k wr ino pl ad am buf -> registered (k_reg k) mp ->
  h_metrics hp !! mp = Some m -> cell_at m n = Some c -> c_upd c = Some (mkClosure wr off) -> let t := md_type (m_desc m) in
  0 <= off /\ off + slot_w t <= zlen buf /\ vtyped t (c_val c) /\ val_fits (c_val c) /\ (Z.of_nat i < slot_w t -> slot_bytes t (c_val c) !! i = buf !! (Z.to_nat off + i)%nat).
Proof.
  intros Hh Hr S Hreg Hm Hc Hu t. destruct (sync_poke _ _ _ _ _ _ _ _ _ _ _ _ _ Hh Hr S Hreg Hm Hc) as (off' & E & B1 & B2 & Hs & _). fold t in B2, Hs. assert (off' = off) as -> by congruence.
  split_and!; auto. - eapply cell_typed; eauto. by apply (ho_metrics _ Hh mp). - eapply sync_fits; eauto. - intros Hi. by rewrite <- Hs, lookup_sub.
Qed.

Section merge.
  Context (k : cfg) (wr ino : nat) (ad : list da) (am : list ma) (doms : gmap nat indom) (ms : gmap nat metric) (buf0 buf1 : list byte).
  Context (T : nat -> Prop).
  Definition slot_of (mp : nat) (n : option gostring) (off t : Z) : Prop := registered (k_reg k) mp /\ exists m c, ms !! mp = Some m /\ cell_at m n = Some c /\ c_upd c = Some (mkClosure wr off) /\ t = md_type (m_desc m).
  Context (HL : length buf1 = length buf0).
  (** What differs is in slots of metrics of [T]. *)
  Context (HC : forall j, buf0 !! j <> buf1 !! j -> exists mp n off t, T mp /\ slot_of mp n off t /\ off <= Z.of_nat j < off + slot_w t).
  (** Every byte of a slot is the byte of some value of the type. *)
  Context (HB : forall mp n off t i b, slot_of mp n off t -> Z.of_nat i < slot_w t -> buf1 !! (Z.to_nat off + i)%nat = Some b -> exists u, vtyped t u /\ val_fits u /\ slot_bytes t u !! i = Some b).

  Definition like (m g : metric) : Prop := m_desc g = m_desc m /\ m_indom g = m_indom m /\ forall n, c_upd <$> cell_at g n = c_upd <$> cell_at m n.
  Record merged (G : gmap nat metric) (buf : list byte) : Prop := {
    me_heap : heap_ok (mkHeap doms G);
    me_reg : reg_ok (mkHeap doms G) (k_reg k);
    me_sync : exists fs pl, sync (mkHeap doms G) fs k wr ino pl ad am buf;
    me_like : forall mp, match ms !! mp, G !! mp with Some m, Some g => like m g | None, None => True | _, _ => False end;
    me_rest : forall mp, G !! mp = ms !! mp \/ registered (k_reg k) mp /\ T mp;
    me_len : length buf = length buf0;
    me_bytes : forall j, buf !! j = buf0 !! j \/ buf !! j = buf1 !! j }.

  Lemma merge_to G0 : merged G0 buf0 -> forall N, exists G buf, merged G buf /\ forall j, (j < N)%nat -> buf !! j = buf1 !! j.
  Proof.
    intros M0. induction N as [|N (G & buf & M & HN)]; [exists G0, buf0; split; [done|lia]|].
    destruct (decide (buf !! N = buf1 !! N)) as [E|NE].
    { exists G, buf. split; [done|]. intros j Hj. destruct (decide (j = N)) as [->|]; [done|apply HN; lia]. }
    pose proof M as [A1 A2 (fs & pl & A3) A4 A5 A6 A7]. destruct (A7 N) as [E0|E0]; [|done]. rewrite E0 in NE.
    destruct (HC _ NE) as (mp & n & off & t & HT & SL & HR). pose proof SL as (R & m & c & Hm & Hc & Hu & Et). pose proof (A4 mp) as Lk. rewrite Hm in Lk.
    destruct (G !! mp) as [g|] eqn:Hg; [|done]. destruct Lk as (L1 & L2 & L3). pose proof (L3 n) as L4. rewrite Hc in L4. destruct (cell_at g n) as [cg|] eqn:Hcg; [|done]. cbn in L4. apply (inj Some) in L4. rewrite Hu in L4.
    assert (md_type (m_desc g) = t) as Eg by congruence.
    destruct (sync_slot_byte _ _ _ _ _ _ _ _ _ mp g n cg off 0%nat A1 A2 A3 R Hg Hcg L4) as (B1 & B2 & B3 & B4 & _). rewrite Eg in *.
    destruct (sync_poke _ _ _ _ _ _ _ _ _ mp g n cg A1 A2 A3 R Hg Hcg) as (off' & E' & _ & _ & _ & K). rewrite Eg in K. assert (off' = off) as -> by congruence. clear E'.
    assert (0 <= slot_w t) as Wt by lia.
    assert (zlen (sub off (slot_w t) buf1) = slot_w t) as Ls. { apply sub_length; auto. unfold zlen in *. lia. }
    destruct (piece_val t (c_val cg) (sub off (slot_w t) buf1) B3 B4 Ls) as (v & V1 & V2 & V3).
    { intros j b Hj. pose proof (lookup_lt_Some _ _ _ Hj) as Lj. assert (Z.of_nat j < slot_w t) as Lj' by (unfold zlen in Ls; lia). rewrite lookup_sub in Hj by done. eauto. }
    set (b' := patch (Z.to_nat off) (Z.to_nat (slot_w t)) buf1 buf).
    assert (length buf1 = length buf) as HL1 by congruence. assert (Z.to_nat off + Z.to_nat (slot_w t) <= length buf)%nat as HB1 by (unfold zlen in *; lia).
    destruct (K v b') as (pl' & S').
    { done. }
    { unfold zlen, b'. by rewrite patch_len. }
    { intros i Hi. unfold b'. apply patch_out; auto. lia. }
    { rewrite V3. apply list_eq. intros i. destruct (decide (Z.of_nat i < slot_w t)) as [Li|Li].
      - rewrite !lookup_sub by done. unfold b'. rewrite patch_in by lia. done.
      - rewrite !lookup_ge_None_2; [done|..]; unfold sub; rewrite take_length; lia. }
    set (g' := put_cell g n (mkCell v (c_upd cg))) in *.
    assert (forall n', c_upd <$> cell_at g' n' = c_upd <$> cell_at g n') as Ug. { intros n'. unfold g'. rewrite (cell_at_put _ _ _ _ _ Hcg). destruct (decide _) as [<-|]; [by rewrite Hcg|done]. }
    exists (<[mp := g']> G), b'. split; [split|].
    - apply (heap_ok_metric (mkHeap doms G) mp g'); [done|]. eapply (put_cell_ok _ _ _ cg); eauto; [|by rewrite Eg]. by apply (ho_metrics _ A1 mp).
    - eapply reg_ok_ext; [exact A1| |done]. apply (upd_heap_ext (mkHeap doms G) mp g g'); [done|apply put_cell_desc|apply put_indom].
    - eauto.
    - intros mp'. specialize (A4 mp'). destruct (decide (mp = mp')) as [<-|Nm]; [|by rewrite lookup_insert_ne]. rewrite Hm, lookup_insert. split_and!.
      + unfold g'. by rewrite put_cell_desc.
      + unfold g'. by rewrite put_indom.
      + intros n'. by rewrite Ug.
    - intros mp'. destruct (decide (mp = mp')) as [<-|Nm]; [by right|]. rewrite lookup_insert_ne by done. auto.
    - unfold b'. rewrite patch_len; auto.
    - intros j. unfold b'. destruct (decide (Z.to_nat off <= j < Z.to_nat off + Z.to_nat (slot_w t))%nat); [right; by apply patch_in|rewrite patch_out by done; auto].
    - intros j Hj. unfold b'. destruct (decide (Z.to_nat off <= j < Z.to_nat off + Z.to_nat (slot_w t))%nat) as [|No]; [by apply patch_in|rewrite patch_out by done].
      apply HN. destruct (decide (j = N)) as [->|]; [exfalso; apply No; lia|lia].
  Qed.
  Lemma merge_all G0 : merged G0 buf0 -> exists G, merged G buf1.
  Proof.
    intros M0. destruct (merge_to G0 M0 (length buf0)) as (G & buf & M & H). assert (buf = buf1) as ->; [|eauto]. apply list_eq. intros j.
    destruct (decide (j < length buf0)%nat) as [L|L]; [by apply H|]. rewrite !lookup_ge_None_2; [done|lia|]. rewrite (me_len _ _ M). lia.
  Qed.
End merge.

(** ** Specification *)
(** The bytes of a value in the file: its encoding, padded with zeros to the 8 bytes of a
    number or the 256 bytes of a string. *)
Definition in_file (u : goval) : list byte := match val_bytes u with Some d => padded (match u with VStr _ => 256 | _ => 8 end) d | None => [] end.
(** Some call of [css] updates metric [mp]. *)
Definition updated (css : list (list mcall)) (mp : nat) : Prop := exists l op mst, l ∈ css /\ MUpdate mp op mst ∈ l.
(** At some moment of a run of the goroutines [css] the file shows [u] as the value [n] of metric [mp]. *)
Definition once_shown (w : world) (css : list (list mcall)) (mp : nat) (n : option gostring) (u : goval) : Prop :=
  exists m mm g, rtc (cstep (w_heap w)) (m_start (world_mem w) css) m /\ q_metrics (mc_mem m) !! mp = Some mm /\ shown_as m mp mm g /\ val_at g n = Some u.
(** [g] is metric [mp], [m0] at the start, with values each byte of which was shown at some moment. *)
Definition pieced (w : world) (css : list (list mcall)) (mp : nat) (m0 g : metric) : Prop :=
  m_desc g = m_desc m0 /\ m_indom g = m_indom m0 /\ forall n,
    match val_at m0 n, val_at g n with
    | Some _, Some u => vtyped (md_type (m_desc m0)) u /\ forall i b, in_file u !! i = Some b -> exists u', once_shown w css mp n u' /\ vtyped (md_type (m_desc m0)) u' /\ in_file u' !! i = Some b
    | None, None => True
    | _, _ => False
    end.

(** ** Proofs *)
Lemma in_file_slot t u : vtyped t u -> val_fits u -> slot_bytes t u = in_file u.
Proof.
  intros Ht Hf. destruct (val_bytes_some _ _ Ht) as (d & Hd). rewrite (slot_bytes_eq _ _ _ Ht Hf Hd). unfold in_file. rewrite Hd. unfold padded. do 3 f_equal.
  destruct u; cbn [vtyped] in Ht; try contradiction; try (subst t; reflexivity); destruct Ht as [-> _]; reflexivity.
Qed.
Lemma updated_dec css mp : updated css mp \/ untouched css (Some mp).
Proof.
  assert (forall l : list mcall, (exists op mst, MUpdate mp op mst ∈ l) \/ forall op mst, MUpdate mp op mst ∉ l) as D1.
  { induction l as [|c l [(op & mst & IH)|IH]]; [right; intros op mst H; by apply elem_of_nil in H|left; exists op, mst; by right|].
    destruct c as [mp' op mst|mp' n]; [destruct (decide (mp' = mp)) as [->|N]; [left; exists op, mst; left|]|]; right; intros op' mst' H; apply elem_of_cons in H as [H|H]; try (by apply IH in H); congruence. }
  unfold updated, untouched. induction css as [|l css [(l' & op & mst & IH1 & IH2)|IH]]; [right; intros l op mst H; by apply elem_of_nil in H|left; exists l', op, mst; split; [by right|done]|].
  destruct (D1 l) as [(op & mst & H)|H]; [left; exists l, op, mst; split; [left|done]|]. right. intros l' op mst Hl. apply elem_of_cons in Hl as [->|Hl]; eauto.
Qed.

Theorem piecemeal w cid gen pid c r mps css buf1 : w_ok w -> synced w cid gen pid -> w_clients w !! cid = Some c -> w_regs w !! cl_reg c = Some r ->
  (forall mp m, mp ∈ mps -> h_metrics (w_heap w) !! mp = Some m -> registered r mp \/ no_closures m) -> (forall l c, l ∈ css -> c ∈ l -> call_ok w mps c) ->
  zlen buf1 = Length r ->
  (forall j b, buf1 !! j = Some b -> exists m buf, rtc (cstep (w_heap w)) (m_start (world_mem w) css) m /\ file_of (mem_world w (mc_mem m)) c = Some buf /\ buf !! j = Some b) ->
  exists G, complete_file (mkHeap (h_indoms (w_heap w)) G) c r gen pid buf1 /\
    forall mp, match h_metrics (w_heap w) !! mp, G !! mp with
      | Some m0, Some g => g = m0 \/ registered r mp /\ updated css mp /\ pieced w css mp m0 g
      | None, None => True
      | _, _ => False
      end.
Proof.
  intros W SY Hc' Hr' Hreg Hcs HL HB. pose proof (apart_synced _ _ _ _ _ _ _ W SY Hc' Hr' Hreg) as AP.
  destruct SY as (c' & r' & wr & ino & pl & ad & am & buf0 & Hc & Hr & Hmap & Hwr & Hpath & S). assert (c' = c) as -> by congruence. assert (r' = r) as -> by congruence. clear Hc' Hr'.
  pose proof (wo_regs _ W _ _ Hr) as Hro. pose proof (wo_heap _ W) as Hh. set (k := start_cfg c r gen pid) in *. set (hm := h_metrics (w_heap w)) in *. set (doms := h_indoms (w_heap w)) in *.
  assert (mkHeap doms hm = w_heap w) as Ehp by (unfold doms, hm; by destruct (w_heap w)).
  pose proof (shape_start w mps k wr ino ad am pl buf0 css W Hro S Hreg Hcs) as SH0.
  assert (forall m buf, rtc (cstep (w_heap w)) (m_start (world_mem w) css) m -> file_of (mem_world w (mc_mem m)) c = Some buf -> exists G pl', shape w mps k wr ino ad am m G pl' buf) as SH.
  { intros m buf Hst Hf. destruct (shape_steps _ _ _ _ _ _ _ _ _ _ _ _ Hst SH0) as (G & pl' & buf' & SH'). exists G, pl'. pose proof (sy_buf _ _ _ _ _ _ _ _ _ (j_sync _ _ _ _ _ _ _ _ _ _ _ SH')) as Eb.
    unfold file_of in Hf. cbn in Hf. rewrite Hpath in Hf. cbn in Hf. assert (buf' = buf) as -> by congruence. done. }
  assert (forall m buf mp n off t, rtc (cstep (w_heap w)) (m_start (world_mem w) css) m -> file_of (mem_world w (mc_mem m)) c = Some buf -> slot_of k wr hm mp n off t ->
    exists mm g u, q_metrics (mc_mem m) !! mp = Some mm /\ shown_as m mp mm g /\ val_at g n = Some u /\ vtyped t u /\ val_fits u /\ forall i, Z.of_nat i < slot_w t -> slot_bytes t u !! i = buf !! (Z.to_nat off + i)%nat) as SV.
  { intros m buf mp n off t Hst Hf (R & m0 & c0 & Hm0 & Hc0 & Hu0 & Et). destruct (SH _ _ Hst Hf) as (G & pl' & SH'). pose proof (fr_good _ _ _ _ (frame_steps w mps AP css Hcs m Hst)) as Gd.
    pose proof (g_stat _ _ Gd mp) as St. fold hm in St. rewrite Hm0 in St. destruct (q_metrics (mc_mem m) !! mp) as [mm|] eqn:Em; [|done]. destruct St as (S1 & _ & _ & S4).
    pose proof (j_shown _ _ _ _ _ _ _ _ _ _ _ SH' mp) as Js. rewrite Em in Js. destruct (G !! mp) as [g|] eqn:Eg; [|done].
    assert (shown_as m mp mm g /\ m_desc g = m_desc mm /\ forall n, c_upd <$> cell_at g n = c_upd <$> cell_at mm n) as (P1 & P2 & P3).
    { destruct Js as [->|(i & d & op & mst & p & l & m1 & H1 & H2 & H3)]; [split_and!; auto; by left|]. split; [eapply busy_shown; eauto|].
      destruct H3 as (n1 & v & kk & c1 & off1 & u1 & X1 & X2 & -> & _). split; [apply put_cell_desc|]. intros n2. rewrite (cell_at_put _ _ _ _ _ X1). destruct (decide _) as [<-|]; [by rewrite X1|done]. }
    pose proof (P3 n) as P4. rewrite (S4 n), Hc0 in P4. destruct (cell_at g n) as [cg|] eqn:Ecg; [|done]. cbn in P4. apply (inj Some) in P4. rewrite Hu0 in P4.
    assert (md_type (m_desc g) = t) as Tg by congruence. exists mm, g, (c_val cg). pose proof SH' as [A1 A2 A3 _ _ _ _ _ _ _].
    assert (forall i, 0 <= off /\ off + slot_w t <= zlen buf /\ vtyped t (c_val cg) /\ val_fits (c_val cg) /\ (Z.of_nat i < slot_w t -> slot_bytes t (c_val cg) !! i = buf !! (Z.to_nat off + i)%nat)) as Q.
    { intros i. rewrite <- Tg. eapply sync_slot_byte; eauto. }
    destruct (Q 0%nat) as (_ & _ & Q3 & Q4 & _). split_and!; auto. { unfold val_at. by rewrite Ecg. } intros i. apply (Q i). }
  destruct (sync_complete (w_heap w) (w_files w) c r gen pid wr ino pl ad am buf0 Hh Hro S) as [Len0 _].
  assert (length buf1 = length buf0) as HLen. { unfold zlen in *. lia. }
  assert (forall j, buf0 !! j <> buf1 !! j -> exists mp n off t, updated css mp /\ slot_of k wr hm mp n off t /\ off <= Z.of_nat j < off + slot_w t) as HC.
  { intros j NE. destruct (buf1 !! j) as [b|] eqn:E1; [|exfalso; apply NE, lookup_ge_None_2; apply lookup_ge_None_1 in E1; lia].
    destruct (HB _ _ E1) as (m & buf & Hst & Hf & Eb). unfold file_of in Hf. cbn in Hf. rewrite Hpath in Hf. cbn in Hf.
    assert (byte_at (world_mem w) ino (Z.of_nat j) = buf0 !! j) as Y0. { unfold byte_at. cbn. rewrite (sy_buf _ _ _ _ _ _ _ _ _ S). cbn. unfold bget. destruct (Z.of_nat j <? 0) eqn:E; [lia|]. by rewrite Nat2Z.id. }
    assert (byte_at (mc_mem m) ino (Z.of_nat j) = Some b) as Y1. { unfold byte_at. rewrite Hf. cbn. unfold bget. destruct (Z.of_nat j <? 0) eqn:E; [lia|]. by rewrite Nat2Z.id. }
    pose proof (fr_same _ _ _ _ (frame_steps w mps AP css Hcs m Hst)) as FS.
    destruct (owner (w_files w) hm mps ino (Z.of_nat j)) as [mp|] eqn:Eo.
    - destruct (updated_dec css mp) as [U|U]; [|exfalso; destruct (FS _ U) as [Ag _]; rewrite (Ag _ _ Eo) in Y0; congruence].
      unfold owner in Eo. apply find_some in Eo as [_ Eo]. destruct (hm !! mp) as [m0|] eqn:Em; [|done]. apply in_slotb_spec in Eo as (n & c0 & cl & x & K1 & K2 & K3 & K4 & K5 & K6).
      assert (cl_writer cl = wr) as Ew. { eapply (wo_inj _ W); [exact K3|apply (sy_writer _ _ _ _ _ _ _ _ _ S)|exact K5]. }
      exists mp, n, (cl_off cl), (md_type (m_desc m0)). split_and!; [done| |apply K6|apply K6]. split; [eapply (sy_own _ _ _ _ _ _ _ _ _ S); eauto|]. exists m0, c0. split_and!; auto. rewrite K2, <- Ew. by destruct cl.
    - exfalso. destruct (FS None I) as [Ag _]. rewrite (Ag _ _ Eo) in Y0. congruence. }
  assert (merged k wr ino ad am doms hm buf0 buf1 (updated css) hm buf0) as M0.
  { split; rewrite ?Ehp; auto. - eauto. - intros mp. destruct (hm !! mp); [|done]. split_and!; auto. }
  destruct (merge_all k wr ino ad am doms hm buf0 buf1 (updated css) HLen HC) with (G0 := hm) as (G & M); [|exact M0|].
  { intros mp n off t i b SL Li Hb. destruct (HB _ _ Hb) as (m & buf & Hst & Hf & Eb). destruct (SV _ _ _ _ _ _ Hst Hf SL) as (mm & g & u & _ & _ & _ & T1 & T2 & T3). exists u. split_and!; auto. rewrite T3 by done. exact Eb. }
  destruct M as [A1 A2 (fs & pl' & A3) A4 A5 A6 A7]. destruct (sync_complete _ _ _ _ _ _ _ _ _ _ _ _ A1 A2 A3) as [_ B2]. exists G. split; [exact B2|].
  intros mp. pose proof (A4 mp) as Lk. pose proof (A5 mp) as Rs. destruct (hm !! mp) as [m0|] eqn:Em, (G !! mp) as [g|] eqn:Eg; auto.
  destruct Rs as [Rs|[R U]]; [left; congruence|right]. destruct Lk as (L1 & L2 & L3). split_and!; auto. split_and!; auto. intros n. pose proof (L3 n) as L4. unfold val_at at 1.
  destruct (cell_at m0 n) as [c0|] eqn:Ec0, (cell_at g n) as [cg|] eqn:Ecg; try discriminate L4; unfold val_at; rewrite Ecg; cbn; [|exact I]. cbn in L4. apply (inj Some) in L4.
  destruct (sync_poke _ _ _ _ _ _ _ _ _ mp g n cg A1 A2 A3 R Eg Ecg) as (off & Eu & _).
  assert (slot_of k wr hm mp n off (md_type (m_desc m0))) as SL. { split; [done|]. exists m0, c0. split_and!; auto. congruence. }
  assert (forall i, 0 <= off /\ off + slot_w (md_type (m_desc g)) <= zlen buf1 /\ vtyped (md_type (m_desc g)) (c_val cg) /\ val_fits (c_val cg) /\
    (Z.of_nat i < slot_w (md_type (m_desc g)) -> slot_bytes (md_type (m_desc g)) (c_val cg) !! i = buf1 !! (Z.to_nat off + i)%nat)) as Q. { intros i. eapply sync_slot_byte; eauto. }
  rewrite L1 in Q. set (t := md_type (m_desc m0)) in *. destruct (Q 0%nat) as (_ & _ & Q3 & Q4 & _). split; [done|]. intros i b Hi. rewrite <- (in_file_slot t) in Hi by done.
  assert (Z.of_nat i < slot_w t) as Li. { pose proof (slot_bytes_len t _ Q3 Q4) as L. apply lookup_lt_Some in Hi. unfold zlen in L. lia. }
  destruct (Q i) as (_ & _ & _ & _ & Qi). rewrite (Qi Li) in Hi. destruct (HB _ _ Hi) as (m & buf & Hst & Hf & Eb). destruct (SV _ _ _ _ _ _ Hst Hf SL) as (mm & g1 & u & U1 & U2 & U3 & T1 & T2 & T3).
  exists u. split; [exists m, mm, g1; auto|]. split; [exact T1|]. rewrite <- (in_file_slot t) by done. rewrite T3 by done. exact Eb.
Qed.
