(** Facts about single updates (C13, C14, C16, C20, C21, C22). *)
From Verif Require Import Base BaseFacts Floats GoVal MetricType ByteWriter Hash Units Indom Metrics Registry Prog
  Client Mmvdump Events BufFacts View RegInv Update World OpRuns RegFacts WorldInv Sync FloatFacts ValueFacts.

(** ** Vocabulary *)
(** Go's [==] can tell a value from itself only if it is NaN. *)
Definition is_nan (v : goval) : Prop :=
  match v with VF64 b => f64_val b = S754_nan | VF32 b => f32_val b = S754_nan | _ => False end.

(** [got] is what reading back [want] may give: the same bits, or an equal value that
    was there before (they differ only for the two zeros). *)
Definition holds_val (want got : goval) : Prop := got = want \/ go_eqb want got = true.

(** The update closure of a cell can still write a value of type [t]. *)
Definition cell_live (fs : files) (t : Z) (c : cell) : Prop :=
  forall cl, c_upd c = Some cl -> exists wr buf, f_writers fs !! cl_writer cl = Some wr /\ wr_live wr = true /\
    f_inodes fs !! wr_inode wr = Some buf /\ 0 <= cl_off cl /\ cl_off cl + slot_w t <= zlen buf.
Definition live (fs : files) (m : metric) : Prop := forall n c, cell_at m n = Some c -> cell_live fs (md_type (m_desc m)) c.

(** The value shown for [n]: [None] the singleton value, [Some i] instance [i]. *)
Definition val_at (m : metric) (n : option gostring) : option goval := c_val <$> cell_at m n.

(** ** Go equality *)
Lemma SFeqb_sym a b : SFeqb a b = SFeqb b a.
Proof.
  assert (forall x y, SFeqb x y = true -> SFeqb y x = true) as G.
  { intros x y H. pose proof H as H0. apply SFeqb_cases in H as [<-|(s & s' & -> & ->)]; [exact H0|reflexivity]. }
  destruct (SFeqb a b) eqn:E1, (SFeqb b a) eqn:E2; auto; [apply G in E1|apply G in E2]; congruence.
Qed.
Lemma go_eqb_sym a b : go_eqb a b = go_eqb b a.
Proof.
  destruct a, b; cbn; try reflexivity; try apply Z.eqb_sym; try apply SFeqb_sym.
  apply bool_decide_ext. split; congruence.
Qed.
Lemma go_eqb_refl t v : vtyped t v -> ~ is_nan v -> go_eqb v v = true.
Proof.
  destruct v; cbn [vtyped is_nan go_eqb]; intros Ht Hn; try contradiction; try apply Z.eqb_refl.
  - by apply SFeqb_refl. - by apply SFeqb_refl. - by apply bool_decide_eq_true.
Qed.
Lemma go_eqb_int a b : go_eqb (VInt64 a) (VInt64 b) = true -> a = b.
Proof. cbn. lia. Qed.

(** ** Storing *)
Lemma store_cases fs c v o fs' c' : store_cell fs c v = (o, fs', c') ->
  (o = ROk /\ ((go_eqb v (c_val c) = true /\ fs' = fs /\ c' = c) \/ (c_val c' = v /\ c_upd c' = c_upd c))) \/ (o <> ROk /\ c' = c).
Proof.
  unfold store_cell. destruct (go_eqb _ _) eqn:E; [intros; simplify_eq; left; auto|]. destruct (c_upd c) as [cl|] eqn:Eu.
  - destruct (run_update fs cl v) as [o1 fs1]. destruct o1; intros; simplify_eq; [left; cbn; auto|right..]; split; auto; discriminate.
  - intros; simplify_eq. left. cbn. auto.
Qed.

Lemma with_writer_err fs w f fs' : with_writer fs w f = (RErr, fs') -> (forall b b' n, f b = WErr b' n -> b' = b) -> fs' = fs.
Proof.
  unfold with_writer. destruct (f_writers fs !! w) as [wr|]; [|discriminate]. destruct (wr_live wr); [|discriminate].
  destruct (f_inodes fs !! wr_inode wr) as [buf|] eqn:E; [|discriminate]. destruct (f buf) eqn:Ef; intros; simplify_eq.
  match goal with H : forall _ _ _, _ |- _ => rewrite (H _ _ _ Ef) end. rewrite insert_id by exact E. by destruct fs.
Qed.
Lemma bw_write_err b d off b' n : bw_write b d off = WErr b' n -> b' = b.
Proof. unfold bw_write. repeat case_match; intros; by simplify_eq. Qed.
Lemma bw_write_val_err b v off b' n : bw_write_val b v off = WErr b' n -> b' = b.
Proof.
  unfold bw_write_val, bw_write_string. repeat case_match; intros; simplify_eq; auto; eauto using bw_write_err.
Qed.

Lemma run_update_err fs cl v fs' : run_update fs cl v = (RErr, fs') -> val_fits v -> fs' = fs.
Proof.
  intros H Hf. destruct v; try (eapply with_writer_err; [exact H|]; intros b b' n; apply bw_write_val_err).
  cbn [run_update val_fits] in *. unfold with_writer at 1 in H. destruct (f_writers fs !! cl_writer cl) as [wr|] eqn:Ew; [|discriminate].
  destruct (wr_live wr) eqn:El; [|discriminate]. destruct (f_inodes fs !! wr_inode wr) as [buf|] eqn:Ei; [|discriminate].
  unfold bw_must_write in H. destruct (bw_write buf (zeros StringLength) (cl_off cl)) as [b1 n1|b1 n1|b1] eqn:E1; cbn [must] in H; try discriminate.
  unfold with_writer in H. cbn [f_writers f_inodes] in H. rewrite Ew, El, lookup_insert in H. cbn [bw_write_val] in H. unfold bw_write_string, bw_write in H.
  unfold bw_write in E1. destruct (zlen buf <? _) eqn:Eb; [discriminate|].
  destruct (store_loop buf (cl_off cl) (zeros StringLength)) as [b2 ok2] eqn:E2. destruct ok2; [|discriminate]. injection E1 as <- _.
  assert (zlen b2 = zlen buf) as EL.
  { clear - E2. change b2 with (b2, true).1. rewrite <- E2. clear. generalize (zeros StringLength) as d. intros d. generalize (cl_off cl). revert buf.
    induction d as [|x d IH]; intros buf off; cbn [store_loop]; [reflexivity|]. destruct (bset buf off x) as [b'|] eqn:E; [|reflexivity].
    rewrite IH. unfold bset in E. case_match; [discriminate|]. injection E as <-. unfold zlen. by rewrite insert_length. }
  assert (zlen (zeros StringLength) = 256) as EZ by reflexivity.
  replace (zlen b2 <? cl_off cl + zlen s) with false in H by lia. destruct (store_loop b2 _ _) as [b3 []]; discriminate.
Qed.

Lemma store_err_files fs c v fs' c' : store_cell fs c v = (RErr, fs', c') -> val_fits v -> fs' = fs.
Proof.
  unfold store_cell. destruct (go_eqb _ _); [discriminate|]. destruct (c_upd c) as [cl|]; [|discriminate].
  destruct (run_update fs cl v) as [[] fs1] eqn:E; intros; simplify_eq. eauto using run_update_err.
Qed.

Lemma store_live fs c v t : vtyped t v -> val_fits v -> cell_live fs t c -> exists fs' c', store_cell fs c v = (ROk, fs', c').
Proof.
  intros Ht Hf HL. unfold store_cell. destruct (go_eqb _ _); [eauto|]. destruct (c_upd c) as [cl|] eqn:E; [|eauto].
  destruct (HL _ E) as (wr & buf & H1 & H2 & H3 & H4 & H5). rewrite (run_update_ok fs cl v t wr buf) by assumption. eauto.
Qed.

(** Stores keep closures alive. *)
Lemma run_update_live fs cl v fs' o t c : run_update fs cl v = (o, fs') -> cell_live fs t c -> cell_live fs' t c.
Proof.
  intros H HL cl' Hcl. destruct (HL _ Hcl) as (wr & buf & H1 & H2 & H3 & H4 & H5).
  assert (forall fs fs' w f o, with_writer fs w f = (o, fs') ->
     (forall b, zlen (match f b with WOk b' _ | WErr b' _ | WPanic b' => b' end) = zlen b) ->
     f_writers fs' = f_writers fs /\ forall i b, f_inodes fs !! i = Some b -> exists b', f_inodes fs' !! i = Some b' /\ zlen b' = zlen b) as G.
  { clear. intros fs fs' w f o H Hf. unfold with_writer in H. destruct (f_writers fs !! w) as [wr|]; [|simplify_eq; eauto].
    destruct (wr_live wr); [|simplify_eq; eauto]. destruct (f_inodes fs !! wr_inode wr) as [buf|] eqn:E; [|simplify_eq; eauto].
    specialize (Hf buf). destruct (f buf) as [b1 n1|b1 n1|b1]; simplify_eq; cbn; (split; [reflexivity|]);
      intros i b Hi; destruct (decide (wr_inode wr = i)) as [<-|N];
      [rewrite lookup_insert; simplify_eq; eauto|rewrite lookup_insert_ne by exact N; eauto|
       rewrite lookup_insert; simplify_eq; eauto|rewrite lookup_insert_ne by exact N; eauto|
       rewrite lookup_insert; simplify_eq; eauto|rewrite lookup_insert_ne by exact N; eauto]. }
  assert (forall d buf off, zlen (store_loop buf off d).1 = zlen buf) as GL.
  { clear. induction d as [|x d IH]; intros buf off; cbn [store_loop]; [reflexivity|]. destruct (bset buf off x) as [b'|] eqn:E; [|reflexivity].
    rewrite IH. unfold bset in E. case_match; [discriminate|]. injection E as <-. unfold zlen. by rewrite insert_length. }
  assert (forall b d off, zlen (match bw_write b d off with WOk b' _ | WErr b' _ | WPanic b' => b' end) = zlen b) as GW.
  { intros b d off. unfold bw_write. destruct (_ <? _); [reflexivity|]. pose proof (GL d b off) as K. destruct (store_loop b off d) as [b' []]; exact K. }
  assert (forall b v off, zlen (match bw_write_val b v off with WOk b' _ | WErr b' _ | WPanic b' => b' end) = zlen b) as GV.
  { intros b v0 off. unfold bw_write_val, bw_write_string. destruct v0; try apply GW; cbn [val_bytes]; try apply GW; try reflexivity.
    pose proof (GW b s off) as K. destruct (bw_write b s off); exact K. }
  assert (forall b d off, zlen (match bw_must_write b d off with WOk b' _ | WErr b' _ | WPanic b' => b' end) = zlen b) as GM.
  { intros b d off. unfold bw_must_write. pose proof (GW b d off) as K. destruct (bw_write b d off); exact K. }
  assert (f_writers fs' = f_writers fs /\ forall i b, f_inodes fs !! i = Some b -> exists b', f_inodes fs' !! i = Some b' /\ zlen b' = zlen b) as [E1 E2].
  { unfold run_update in H. destruct v; try (eapply G; [exact H|]; intros; apply GV).
    destruct (with_writer fs (cl_writer cl) (fun b => bw_must_write b (zeros StringLength) (cl_off cl))) as [o1 fs1] eqn:E1.
    apply G in E1 as [A1 A2]; [|intros; apply GM]. destruct o1; try (simplify_eq; split; assumption).
    apply G in H as [B1 B2]; [|intros; apply GV]. split; [congruence|]. intros i b Hi. destruct (A2 _ _ Hi) as (b1 & Hb1 & L1). destruct (B2 _ _ Hb1) as (b2 & Hb2 & L2).
    exists b2. split; [exact Hb2|congruence]. }
  destruct (E2 _ _ H3) as (b' & Hb' & Lb). exists wr, b'. rewrite E1, Lb. auto.
Qed.

Lemma store_live_keep fs c v fs' o c' t c0 : store_cell fs c v = (o, fs', c') -> cell_live fs t c0 -> cell_live fs' t c0.
Proof.
  unfold store_cell. destruct (go_eqb _ _); [intros; by simplify_eq|]. destruct (c_upd c) as [cl|]; [|intros; by simplify_eq].
  destruct (run_update fs cl v) as [o1 fs1] eqn:E. intros H HL. eapply run_update_live in HL; [|exact E]. destruct o1; by simplify_eq.
Qed.
Lemma store_live_put fs m n c v o fs' c' : cell_at m n = Some c -> store_cell fs c v = (o, fs', c') -> live fs m -> live fs' (put_cell m n c').
Proof.
  intros Hc Hs HL n0 c0 H0. rewrite put_cell_desc. rewrite (cell_at_put m n c' c) in H0 by exact Hc.
  destruct (decide (n0 = n)) as [->|N].
  - injection H0 as <-. pose proof (HL _ _ Hc) as K. eapply store_live_keep in K; [|exact Hs]. unfold cell_live in *.
    destruct (store_cell_spec _ _ _ _ _ _ Hs) as (-> & _). exact K.
  - eapply store_live_keep; eauto.
Qed.

(** ** Set on a singleton *)
Lemma m_set_eq fs m v c : m_body m = BSingle c -> IsCompatible (md_type (m_desc m)) v = true ->
  m_set fs m v = let '(o, fs', c') := store_cell fs c (resolve (md_type (m_desc m)) v) in (o, fs', put_cell m None c').
Proof. intros Hb Hc. unfold m_set, set_cell. rewrite Hb, Hc. destruct (store_cell _ _ _) as [[o fs'] c']. unfold put_cell. rewrite Hb. reflexivity. Qed.

Lemma body_id m c : m_body m = BSingle c -> with_body m (BSingle c) = m.
Proof. intros E. destruct m. cbn in *. subst. reflexivity. Qed.

Lemma set_ok fs m v fs' m' : m_set fs m v = (ROk, fs', m') ->
  IsCompatible (md_type (m_desc m)) v = true /\ exists x, m_val m' = Some x /\ holds_val (resolve (md_type (m_desc m)) v) x /\
    (x <> resolve (md_type (m_desc m)) v -> m_val m = Some x).
Proof.
  intros H. destruct (m_body m) as [c|] eqn:Hb; [|unfold m_set in H; rewrite Hb in H; discriminate].
  destruct (IsCompatible (md_type (m_desc m)) v) eqn:Hc; [|unfold m_set, set_cell in H; rewrite Hb, Hc in H; discriminate].
  split; [reflexivity|]. rewrite (m_set_eq _ _ _ _ Hb Hc) in H. destruct (store_cell _ _ _) as [[o fs1] c1] eqn:Es. injection H as -> -> <-.
  unfold m_val, put_cell. rewrite Hb. cbn. exists (c_val c1). split; [reflexivity|]. unfold holds_val.
  apply store_cases in Es as [[_ [(E & -> & ->)|[-> _]]]|[N _]]; [auto|auto|congruence].
  split; [auto|congruence].
Qed.

Lemma set_fail fs m v o fs' m' : m_set fs m v = (o, fs', m') -> o <> ROk -> m' = m.
Proof.
  unfold m_set. destruct (m_body m) as [c|] eqn:Hb; [|intros; by simplify_eq]. unfold set_cell. destruct (IsCompatible _ v).
  - destruct (store_cell _ _ _) as [[o1 fs1] c1] eqn:Es. intros H N. injection H as -> -> <-.
    apply store_cases in Es as [[-> _]|[_ ->]]; [congruence|by apply body_id].
  - intros H N. injection H as <- <- <-. by apply body_id.
Qed.
Lemma set_err_files fs m v fs' m' : m_set fs m v = (RErr, fs', m') -> (forall s, v = VStr s -> zlen s <= 256) -> fs' = fs.
Proof.
  unfold m_set. destruct (m_body m) as [c|] eqn:Hb; [|discriminate]. unfold set_cell. destruct (IsCompatible _ v).
  - destruct (store_cell _ _ _) as [[o1 fs1] c1] eqn:Es. intros H N. injection H as -> -> <-.
    eapply store_err_files; [exact Es|]. apply resolve_fits. destruct v; auto.
  - intros H N. by injection H as <- <-.
Qed.
Lemma set_live fs m v c : m_body m = BSingle c -> live fs m -> wf_goval v -> (forall s, v = VStr s -> zlen s <= 256) ->
  exists fs' m', m_set fs m v = (if IsCompatible (md_type (m_desc m)) v then ROk else RErr, fs', m').
Proof.
  intros Hb HL Hw Hf. destruct (IsCompatible (md_type (m_desc m)) v) eqn:Hc.
  - rewrite (m_set_eq _ _ _ _ Hb Hc). destruct (store_live fs c (resolve (md_type (m_desc m)) v) (md_type (m_desc m))) as (fs' & c' & E).
    + by apply resolve_typed. + apply resolve_fits. destruct v; auto. + apply (HL None). unfold cell_at. by rewrite Hb.
    + rewrite E. eauto.
  - unfold m_set, set_cell. rewrite Hb, Hc. eauto.
Qed.
Lemma holds_refl_eqb t want got : vtyped t want -> holds_val want got -> ~ is_nan want -> go_eqb got want = true.
Proof. intros Ht [->|H] Hn; [by eapply go_eqb_refl|by rewrite go_eqb_sym]. Qed.
