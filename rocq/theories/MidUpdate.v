(** One step of a metric method, and the file in between. *)
From Verif Require Import Base BaseFacts Floats GoVal MetricType ByteWriter Hash Units Indom Metrics Registry Prog
  Client Mmvdump Ileave ProgProofs Events StartEvents BufFacts Tiling StartGood StartLayout StartFinal StartDone
  View Sections StartView RegInv Update World OpRuns RegFacts WorldInv Sync FloatFacts ValueFacts MetricFacts SyncLive Locks Conc ConcRuns MidSlot.
From stdpp Require Import relations.
Local Open Scope Z_scope.

(** The first [j] bytes of [d] written over [d0]. *)
Definition torn (j : nat) (d d0 : list byte) : list byte := take j d ++ drop j d0.
Lemma torn_0 d d0 : torn 0 d d0 = d0.
Proof. reflexivity. Qed.
Lemma torn_length j d d0 : (j <= length d)%nat -> (length d <= length d0)%nat -> length (torn j d d0) = length d0.
Proof. intros. unfold torn. rewrite app_length, take_length, drop_length. lia. Qed.
Lemma torn_step j d d0 b : (length d <= length d0)%nat -> d !! j = Some b -> <[j := b]> (torn j d d0) = torn (Datatypes.S j) d d0.
Proof.
  intros HL Hb. pose proof (lookup_lt_Some _ _ _ Hb) as Lt. unfold torn.
  assert (length (take j d) = j) as Hj by (rewrite take_length; lia).
  rewrite insert_app_r_alt by lia. rewrite Hj, Nat.sub_diag. rewrite (take_S_r _ _ _ Hb), <- app_assoc. f_equal.
  destruct (drop j d0) as [|x l] eqn:E. { apply (f_equal length) in E. rewrite drop_length in E. cbn in E. lia. }
  cbn. f_equal. replace (Datatypes.S j) with (j + 1)%nat by lia. rewrite <- drop_drop, E. reflexivity.
Qed.

Lemma put_put m n c0 x y : cell_at m n = Some c0 -> put_cell (put_cell m n x) n y = put_cell m n y.
Proof.
  unfold cell_at, put_cell. destruct m as [d k [c|ip cells]]; destruct n as [i|]; try done. cbn. intros _. unfold with_body. cbn. by rewrite insert_insert.
Qed.
Lemma put_same m n c : cell_at m n = Some c -> cell_at (put_cell m n c) n = Some c /\ put_cell m n c = m.
Proof. intros H. rewrite (put_cell_id _ _ _ H). auto. Qed.

(** ** Bodies of updating methods *)
Definition is_str (v : goval) : Prop := match v with VStr _ => True | _ => False end.
Definition upd_k (n : option gostring) (v : goval) (k : mprog) (u : option closure) : mprog :=
  match u with None => QSetVal n v k | Some cl => q_update cl v (QSetVal n v k) end.
Inductive wprog (m0 : metric) : mprog -> Prop :=
| wp_ret o v : wprog m0 (QRet o v)
| wp_val n k : (forall x, wprog m0 (k x)) -> wprog m0 (QVal n k)
| wp_timer k : (forall x, wprog m0 (k x)) -> wprog m0 (QTimer k)
| wp_settimer mk k : timer_kind mk -> timer_kind (m_kind m0) -> wprog m0 k -> wprog m0 (QSetTimer mk k)
| wp_upd n v k : vtyped (md_type (m_desc m0)) v -> val_fits v -> wprog m0 k -> wprog m0 (QUpd n (upd_k n v k)).

Section progs.
  Context (m0 : metric).
  Notation t := (md_type (m_desc m0)).
  Notation short v := (match v with VStr s => zlen s <= 256 | _ => True end).
  Lemma wp_store n v k : vtyped t v -> val_fits v -> wprog m0 k -> wprog m0 (q_store n v k).
  Proof. intros Ht Hf Hk. unfold q_store. constructor. intros [x|]; [|constructor]. destruct (go_eqb v x); [done|]. by apply (wp_upd m0 n v k). Qed.
  Lemma wp_set v k : wf_goval v -> short v -> wprog m0 k -> wprog m0 (q_set t v k).
  Proof. intros. unfold q_set. destruct (IsCompatible _ v) eqn:E; [|constructor]. apply wp_store; auto using resolve_typed, resolve_fits. Qed.
  Lemma wp_set_instance d v i k : wf_goval v -> short v -> wprog m0 k -> wprog m0 (q_set_instance t d v i k).
  Proof. intros. unfold q_set_instance. destruct (IsCompatible _ v) eqn:E; [|constructor]. destruct (has_instance d i); [|constructor]. apply wp_store; auto using resolve_typed, resolve_fits. Qed.
  Lemma wp_val_instance d i k : (forall v, wprog m0 (k v)) -> wprog m0 (q_val_instance d i k).
  Proof. intros. unfold q_val_instance. destruct (has_instance d i); by constructor. Qed.
  Lemma wp_int v k : (forall z, wprog m0 (k z)) -> wprog m0 (q_int v k).
  Proof. intros. unfold q_int. destruct (as_int64 v); [done|constructor]. Qed.
  Lemma wp_f64 v k : (forall z, wprog m0 (k z)) -> wprog m0 (q_f64 v k).
  Proof. intros. unfold q_f64. destruct (as_f64 v); [done|constructor]. Qed.
  Lemma wp_qtimer k : (forall b z, wprog m0 (k b z)) -> wprog m0 (q_timer k).
  Proof. intros. unfold q_timer. constructor. intros []; try constructor. auto. Qed.
  Lemma wp_hist_upd d i z k : in_unsigned 64 z -> wprog m0 k -> wprog m0 (q_hist_upd t d i z k).
  Proof. intros. unfold q_hist_upd. constructor. intros [c|]; [|constructor]. destruct (go_eqb _ _); [done|]. by apply wp_set_instance. Qed.

  Lemma wprog_prog hp op p : op_args hp m0 op -> op_fits op -> prog_of hp m0 op = Some p -> wprog m0 p.
  Proof.
    intros Ha Hf H. unfold prog_of in H.
    destruct (m_kind m0) eqn:Ek; destruct op; cbn [op_fits op_args] in Ha, Hf; try done; try (destruct (m_body m0) as [cc|ip cells]; [done|]; destruct (h_indoms hp !! ip) as [d|]; [|done]); cbn in H; injection H as <-.
    all: repeat first
      [ apply wp_ret
      | apply wp_set; [first [exact Ha | apply f64_add_range | (apply to_signed_range; lia) | (cbv; intuition discriminate)]|exact I || exact Hf|]
      | apply wp_set_instance; [first [exact Ha | apply f64_add_range | (apply to_signed_range; lia)]|exact I || exact Hf|]
      | apply wp_val_instance; intros ?
      | apply wp_int; intros ?
      | apply wp_f64; intros ?
      | apply wp_qtimer; intros ? ?
      | match goal with |- wprog _ (q_counter_set _ _) => unfold q_counter_set | |- wprog _ (q_counter_inc _ _) => unfold q_counter_inc | |- wprog _ (q_gauge_inc _ _) => unfold q_gauge_inc
        | |- wprog _ (q_timer_start _) => unfold q_timer_start | |- wprog _ (q_timer_reset _) => unfold q_timer_reset | |- wprog _ (q_timer_stop _ _ _) => unfold q_timer_stop
        | |- wprog _ (q_cv_set _ _ _ _) => unfold q_cv_set | |- wprog _ (q_cv_inc _ _ _ _) => unfold q_cv_inc | |- wprog _ (q_gv_inc _ _ _ _) => unfold q_gv_inc | |- wprog _ (q_hist_record _ _ _) => unfold q_hist_record
        | |- wprog _ (if ?b then _ else _) => destruct b | |- wprog _ (match ?r with Some _ => _ | None => _ end) => destruct r
        | |- wprog _ (QVal _ _) => apply wp_val; intros ?
        | |- wprog _ (QSetTimer _ _) => apply wp_settimer; [exact I|rewrite Ek; exact I|]
        | |- wprog _ (q_hist_upd _ _ _ _ _) => apply wp_hist_upd; [first [apply f64_of_Z_range | apply f64_mul_range | apply Ha]|] end
      | unfold q_ok ].
  Qed.
End progs.

(** ** The states of a method in its body *)
(** [phase wr off old v fin u p]: the update closure at [off] has been called to replace
    [old] by [v], [p] is what remains to be done before [fin], and the slot now holds [u]. *)
Inductive phase (wr : nat) (off : Z) (old v : goval) (fin : mprog) : goval -> mprog -> Prop :=
| ph_num j d d0 u : ~ is_str v -> val_bytes v = Some d -> val_bytes old = Some d0 -> length d = length d0 -> (j <= length d)%nat -> val_bytes u = Some (torn j d d0) -> ~ is_str u ->
    phase wr off old v fin u (QWrite wr (off + Z.of_nat j) (drop j d) fin (QRet RErr None))
| ph_clear j s s0 : v = VStr s -> old = VStr s0 -> (j <= 256)%nat ->
    phase wr off old v fin (VStr (torn j (zeros 256) (padded 256 s0))) (QWrite wr (off + Z.of_nat j) (drop j (zeros 256)) (QWrite wr off s fin (QRet RErr None)) (QRet RPanic None))
| ph_fill j s : v = VStr s -> (j <= length s)%nat ->
    phase wr off old v fin (VStr (torn j s (zeros 256))) (QWrite wr (off + Z.of_nat j) (drop j s) fin (QRet RErr None))
| ph_done : phase wr off old v fin v fin.

Definition busy (m0 : metric) (wr : nat) (p : mprog) (m g : metric) : Prop :=
  let t := md_type (m_desc m0) in
  exists n v k c off u, cell_at m n = Some c /\ c_upd c = Some (mkClosure wr off) /\ g = put_cell m n (mkCell u (c_upd c)) /\
    vtyped t u /\ val_fits u /\ vtyped t v /\ val_fits v /\ wprog m0 k /\ phase wr off (c_val c) v (QSetVal n v k) u p.
Definition lone (m0 : metric) (p : mprog) (m : metric) : Prop :=
  exists n v k, p = QSetVal n v k /\ (forall c, cell_at m n = Some c -> c_upd c = None) /\ vtyped (md_type (m_desc m0)) v /\ val_fits v /\ wprog m0 k.
(** [m]: the metric in memory; [g]: the metric the file shows. *)
Definition mid (m0 : metric) (wr : nat) (p : mprog) (m g : metric) : Prop :=
  (g = m /\ (wprog m0 p \/ lone m0 p m)) \/ busy m0 wr p m g.

(** Writing one byte of a slot. *)
Lemma sync_byte hp fs k wr ino pl ad am buf mp g n cg off x j b u' : heap_ok hp -> reg_ok hp (k_reg k) -> sync hp fs k wr ino pl ad am buf -> registered (k_reg k) mp ->
  h_metrics hp !! mp = Some g -> cell_at g n = Some cg -> c_upd cg = Some (mkClosure wr off) -> let t := md_type (m_desc g) in
  vtyped t (c_val cg) -> val_fits (c_val cg) -> val_bytes (c_val cg) = Some x -> (j < length x)%nat -> vtyped t u' -> val_fits u' -> val_bytes u' = Some (<[j := b]> x) ->
  0 <= off /\ off + zlen x <= zlen buf /\
  exists pl', sync (upd_heap hp mp (put_cell g n (mkCell u' (c_upd cg)))) (with_inode fs ino (do_store buf (off + Z.of_nat j, b))) k wr ino pl' ad am (do_store buf (off + Z.of_nat j, b)).
Proof.
  intros Hh Hr S Hreg Hg Hc Hu t Ht Hf Hx Hj Ht' Hf' Hx'.
  destruct (sync_poke _ _ _ _ _ _ _ _ _ _ _ _ _ Hh Hr S Hreg Hg Hc) as (off' & E & B1 & B2 & Hs & K). fold t in B2, Hs, K. assert (off' = off) as -> by congruence. clear E.
  pose proof (slot_bytes_eq t _ _ Ht Hf Hx) as E1. pose proof (slot_bytes_eq t _ _ Ht' Hf' Hx') as E2.
  assert (zlen x <= slot_w t) as Lx. { pose proof (slot_bytes_len t _ Ht Hf) as L. rewrite E1, zlen_app in L. pose proof (zlen_nonneg (zeros (slot_w t - zlen x))). lia. }
  split; [done|]. split; [lia|]. apply K; [done|apply do_store_length| |].
  - intros i Hi. apply do_store_other. cbn. unfold zlen in Lx. lia.
  - rewrite sub_store; [|done|done|unfold zlen in Lx; lia]. rewrite Hs, E1, E2. rewrite insert_app_l by done. unfold zlen. by rewrite insert_length.
Qed.
(** Another name for the bytes of a slot. *)
Lemma sync_name hp fs k wr ino pl ad am buf mp g n cg u' : heap_ok hp -> reg_ok hp (k_reg k) -> sync hp fs k wr ino pl ad am buf -> registered (k_reg k) mp ->
  h_metrics hp !! mp = Some g -> cell_at g n = Some cg -> let t := md_type (m_desc g) in val_fits u' -> slot_bytes t u' = slot_bytes t (c_val cg) ->
  exists pl', sync (upd_heap hp mp (put_cell g n (mkCell u' (c_upd cg)))) fs k wr ino pl' ad am buf.
Proof.
  intros Hh Hr S Hreg Hg Hc t Hf E. destruct (sync_poke _ _ _ _ _ _ _ _ _ _ _ _ _ Hh Hr S Hreg Hg Hc) as (off & _ & B1 & B2 & Hs & K). fold t in B2, Hs, K.
  destruct (K u' buf Hf eq_refl ltac:(done)) as (pl' & K'); [congruence|]. exists pl'. replace (with_inode fs ino buf) with fs in K'; [exact K'|].
  unfold with_inode. rewrite insert_id by apply (sy_buf _ _ _ _ _ _ _ _ _ S). by destruct fs.
Qed.

(** A change of a metric that its registered values do not see. *)
Lemma sync_quiet hp fs k wr ino pl ad am buf mp g g' : heap_ok hp -> reg_ok hp (k_reg k) -> sync hp fs k wr ino pl ad am buf -> h_metrics hp !! mp = Some g ->
  m_desc g' = m_desc g -> m_indom g' = m_indom g -> (registered (k_reg k) mp -> vals_of (m_body g') = vals_of (m_body g)) ->
  (forall n, c_upd <$> cell_at g' n = c_upd <$> cell_at g n) -> sync (upd_heap hp mp g') fs k wr ino pl ad am buf.
Proof.
  intros Hh Hr S Hg Hd Hi Hv Hu. apply (sync_files hp _ fs); auto.
  - eapply hsim_upd; eauto.
  - intros mp0 m n c Hm _ Hc. destruct (decide (mp = mp0)) as [<-|N].
    + exists g'. cbn. rewrite lookup_insert. assert (m = g) as -> by congruence. specialize (Hu n). rewrite Hc in Hu. destruct (cell_at g' n) as [c'|]; [|done]. exists c'. split_and!; auto. cbn in Hu. congruence.
    + exists m, c. cbn. rewrite lookup_insert_ne by done. auto.
  - intros mp0 m' n c' Hm Hc. right. right. cbn in Hm. destruct (decide (mp = mp0)) as [<-|N].
    + rewrite lookup_insert in Hm. injection Hm as <-. specialize (Hu n). rewrite Hc in Hu. destruct (cell_at g n) as [c|] eqn:E; [|done]. exists g, c. split_and!; auto. cbn in Hu. congruence.
    + rewrite lookup_insert_ne in Hm by done. eauto.
Qed.
Lemma upd_heap_same hp mp g : h_metrics hp !! mp = Some g -> upd_heap hp mp g = hp.
Proof. intros H. unfold upd_heap. rewrite insert_id by done. by destruct hp. Qed.

Lemma val_bytes_str v d : vtyped StringType v -> val_bytes v = Some d -> v = VStr d.
Proof. destruct v; cbn; intros H E; try contradiction; try (destruct H; discriminate). by injection E as ->. Qed.
Lemma val_bytes_some t v : vtyped t v -> exists d, val_bytes v = Some d.
Proof. destruct v; cbn [vtyped val_bytes]; intros H; try contradiction; eauto. Qed.
Lemma same_type_str t u v : vtyped t u -> vtyped t v -> is_str u -> is_str v.
Proof. destruct u; cbn; try contradiction. intros ->. destruct v; cbn; try contradiction; try done; intros []; discriminate. Qed.
Lemma same_type_len t u v d d' : vtyped t u -> vtyped t v -> ~ is_str u -> val_bytes u = Some d -> val_bytes v = Some d' -> length d = length d'.
Proof.
  destruct u; cbn [vtyped val_bytes is_str]; try contradiction; try (intros ? ? N; exfalso; by apply N); intros [-> _];
  destruct v; cbn [vtyped val_bytes]; try contradiction; try (intros H; discriminate H); try (intros [H _]; discriminate H); intros _ _ E1 E2; apply (inj Some) in E1 as <-; apply (inj Some) in E2 as <-; by rewrite !le_enc_length.
Qed.
