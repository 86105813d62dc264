(** Concurrent calls of metric methods are equivalent to the same calls one after the
    other. *)
From Verif Require Import Base BaseFacts Floats GoVal MetricType ByteWriter Hash Units Indom Metrics Registry Prog Client World
  View RegInv Update OpRuns RegFacts WorldInv BufFacts MetricFacts OpFacts Life Sync SyncLive SyncApart Locks LocksFacts Conc ConcRuns.
From stdpp Require Import relations.
Local Open Scope Z_scope.

(** ** The bytes of the files that belong to a metric *)
(** Position [j] of file [ino] lies in a value slot of [m]: 8 bytes for numbers, 256 for
    strings, at the offset captured when the metric was published. *)
Definition in_slot (fs : files) (m : metric) (ino : nat) (j : Z) : Prop :=
  exists n c cl x, cell_at m n = Some c /\ c_upd c = Some cl /\ f_writers fs !! cl_writer cl = Some x /\ wr_live x = true /\
    wr_inode x = ino /\ cl_off cl <= j < cl_off cl + slot_w (md_type (m_desc m)).
(** No byte is in the slots of two of the metrics [mps]. *)
Definition apart (fs : files) (ms : gmap nat metric) (mps : list nat) : Prop :=
  forall mp mp' m m' ino j, mp ∈ mps -> mp' ∈ mps -> ms !! mp = Some m -> ms !! mp' = Some m' ->
    in_slot fs m ino j -> in_slot fs m' ino j -> mp = mp'.

Definition cell_slot (fs : files) (t : Z) (ino : nat) (j : Z) (c : cell) : bool :=
  match c_upd c with
  | None => false
  | Some cl => match f_writers fs !! cl_writer cl with
               | None => false
               | Some x => wr_live x && bool_decide (wr_inode x = ino) && (cl_off cl <=? j) && (j <? cl_off cl + slot_w t)
               end
  end.
Definition all_cells (m : metric) : list cell := match m_body m with BSingle c => [c] | BInst _ cells => (map_to_list cells).*2 end.
Definition in_slotb (fs : files) (m : metric) (ino : nat) (j : Z) : bool := existsb (cell_slot fs (md_type (m_desc m)) ino j) (all_cells m).

Lemma all_cells_in m c : c ∈ all_cells m <-> exists n, cell_at m n = Some c.
Proof.
  unfold all_cells, cell_at. destruct (m_body m) as [c0|ip cells].
  - rewrite elem_of_list_singleton. split; [intros ->; by exists None|]. intros ([i|] & H); congruence.
  - rewrite elem_of_list_fmap. split.
    + intros ([i c'] & -> & H). apply elem_of_map_to_list in H. by exists (Some i).
    + intros ([i|] & H); [|done]. exists (i, c). split; [done|]. by apply elem_of_map_to_list.
Qed.
Lemma in_slotb_spec fs m ino j : in_slotb fs m ino j = true <-> in_slot fs m ino j.
Proof.
  unfold in_slotb. rewrite existsb_exists. split.
  - intros (c & Hc & H). apply elem_of_list_In, all_cells_in in Hc as (n & Hc). unfold cell_slot in H. destruct (c_upd c) as [cl|] eqn:E; [|done].
    destruct (f_writers fs !! cl_writer cl) as [x|] eqn:Ex; [|done]. apply andb_true_iff in H as [H H4]. apply andb_true_iff in H as [H H3].
    apply andb_true_iff in H as [H1 H2]. apply bool_decide_eq_true in H2. exists n, c, cl, x. split_and!; auto; lia.
  - intros (n & c & cl & x & Hc & E & Ex & H1 & H2 & H3). exists c. split; [apply elem_of_list_In, all_cells_in; eauto|]. unfold cell_slot. rewrite E, Ex, H1.
    rewrite bool_decide_true by done. cbn. apply andb_true_iff. lia.
Qed.

(** The metric of [mps] a byte belongs to. *)
Definition owner (fs : files) (ms : gmap nat metric) (mps : list nat) (ino : nat) (j : Z) : option nat :=
  find (fun mp => match ms !! mp with Some m => in_slotb fs m ino j | None => false end) mps.
Lemma owner_spec fs ms mps ino j mp m : apart fs ms mps -> mp ∈ mps -> ms !! mp = Some m -> in_slot fs m ino j -> owner fs ms mps ino j = Some mp.
Proof.
  intros A Hin Hm Hs. unfold owner. destruct (find _ mps) as [mp'|] eqn:E.
  - apply find_some in E as [H1 H2]. apply elem_of_list_In in H1. destruct (ms !! mp') as [m'|] eqn:Em; [|done]. apply in_slotb_spec in H2.
    f_equal. eapply A; eauto.
  - exfalso. apply elem_of_list_In in Hin. pose proof (find_none _ _ E _ Hin) as H. cbn in H. rewrite Hm in H. apply in_slotb_spec in Hs. congruence.
Qed.

(** ** Memory *)
Definition byte_at (s : mem) (ino : nat) (j : Z) : option byte := f_inodes (q_files s) !! ino ≫= fun b => bget b j.

Section inst.
  Context (w : world) (mps : list nat) (W : w_ok w) (A : apart (w_files w) (h_metrics (w_heap w)) mps).
  Let own := owner (w_files w) (h_metrics (w_heap w)) mps.

  Definition mstat (m m' : metric) : Prop := m_desc m' = m_desc m /\ m_indom m' = m_indom m /\
    (match m_kind m with MTimer _ _ => timer_kind (m_kind m') | k => m_kind m' = k end) /\ (forall n, c_upd <$> cell_at m' n = c_upd <$> cell_at m n).
  Record good (s : mem) : Prop := {
    g_writers : f_writers (q_files s) = f_writers (w_files w);
    g_len : forall ino, length <$> f_inodes (q_files s) !! ino = length <$> f_inodes (w_files w) !! ino;
    g_stat : forall mp, match h_metrics (w_heap w) !! mp, q_metrics s !! mp with Some m, Some m' => mstat m m' | None, None => True | _, _ => False end }.
  Definition agree (o : option nat) (s t : mem) : Prop :=
    (forall ino j, own ino j = o -> byte_at s ino j = byte_at t ino j) /\
    match o with
    | Some mp => q_metrics s !! mp = q_metrics t !! mp
    | None => f_writers (q_files s) = f_writers (q_files t) /\ forall ino, length <$> f_inodes (q_files s) !! ino = length <$> f_inodes (q_files t) !! ino
    end.
  (** A body that only accesses metric [mp] and its slots. *)
  Fixpoint fits (mp : nat) (p : mprog) : Prop :=
    match p with
    | QRet _ _ => True
    | QVal _ k => forall v, fits mp (k v)
    | QUpd n k => forall u, (forall cl, u = Some cl -> exists m c, h_metrics (w_heap w) !! mp = Some m /\ cell_at m n = Some c /\ c_upd c = Some cl) -> fits mp (k u)
    | QSetVal _ _ k => fits mp k
    | QTimer k => forall mk, fits mp (k mk)
    | QSetTimer mk k => timer_kind mk /\ (forall m, h_metrics (w_heap w) !! mp = Some m -> timer_kind (m_kind m)) /\ fits mp k
    | QWrite wr off data kok kerr => fits mp kok /\ fits mp kerr /\
        forall x j, f_writers (w_files w) !! wr = Some x -> wr_live x = true -> off <= j < off + zlen data -> own (wr_inode x) j = Some mp
    end.
  Definition fit (o : option nat) (p : mprog) : Prop := match o with Some mp => fits mp p | None => False end.

  Lemma agree_refl o s : agree o s s.
  Proof. split; [done|]. by destruct o. Qed.
  Lemma agree_sym o s t : agree o s t -> agree o t s.
  Proof. intros [H1 H2]. split; [intros; symmetry; auto|]. destruct o; [done|]. destruct H2 as [E1 E2]. split; [done|]. intros; by rewrite E2. Qed.
  Lemma agree_trans o s t u : agree o s t -> agree o t u -> agree o s u.
  Proof.
    intros [H1 H2] [H3 H4]. split; [intros; rewrite H1 by done; auto|]. destruct o; [congruence|]. destruct H2 as [E1 E2], H4 as [E3 E4].
    split; [congruence|]. intros; by rewrite E2.
  Qed.

  Lemma agree_ext s t : (forall o, agree o s t) -> s = t.
  Proof.
    intros H. destruct s as [ms [wrs ins]], t as [mt [wrt int]]. destruct (H None) as (_ & E1 & E2). cbn in *. subst wrt.
    assert (ms = mt) as <-. { apply map_eq. intros mp. by destruct (H (Some mp)) as (_ & E). }
    f_equal. f_equal. apply map_eq. intros ino. specialize (E2 ino). destruct (ins !! ino) as [b|] eqn:Eb, (int !! ino) as [b'|] eqn:Eb'; try done.
    f_equal. cbn in E2. injection E2 as E2. apply list_eq. intros k.
    destruct (H (own ino (Z.of_nat k))) as [Hb _]. specialize (Hb ino (Z.of_nat k) eq_refl). unfold byte_at, bget in Hb. cbn in Hb. rewrite Eb, Eb' in Hb. cbn in Hb.
    replace (Z.of_nat k <? 0) with false in Hb by (symmetry; apply Z.ltb_ge; lia). by rewrite Nat2Z.id in Hb.
  Qed.

  Lemma good_start : good (world_mem w).
  Proof. split; [done|done|]. intros mp. cbn. destruct (h_metrics (w_heap w) !! mp) as [m|]; [|done]. split_and!; auto. by destruct (m_kind m). Qed.

  Lemma byte_store s ino wr buf off b : f_inodes (q_files s) !! ino = Some buf -> 0 <= off < zlen buf ->
    forall i j, byte_at (mkMem (q_metrics s) (mkFiles wr (<[ino := do_store buf (off, b)]> (f_inodes (q_files s))))) i j =
      (if decide (i = ino /\ j = off) then Some b else byte_at s i j).
  Proof.
    intros Hb Ho i j. unfold byte_at. cbn [q_files f_inodes].
    destruct (decide (i = ino)) as [->|N].
    - rewrite lookup_insert, Hb. cbn [mbind option_bind]. unfold bget. destruct (decide (ino = ino /\ j = off)) as [[_ ->]|N2].
      + replace (off <? 0) with false by lia. rewrite do_store_same; [done|cbn; lia|unfold zlen in Ho; lia].
      + destruct (j <? 0) eqn:Ej; [done|]. apply do_store_other. cbn. intros E. apply N2. split; [done|]. lia.
    - rewrite lookup_insert_ne by done. rewrite decide_False by tauto. done.
  Qed.
  Lemma store_len buf x : length (do_store buf x) = length buf.
  Proof. pose proof (do_store_length buf x) as H. unfold zlen in H. lia. Qed.

  Lemma put_cell_stat m n c v : cell_at m n = Some c -> mstat m (put_cell m n (mkCell v (c_upd c))).
  Proof.
    intros Hc. unfold mstat, put_cell, cell_at, m_indom in *. destruct m as [d k [c0|ip cells]]; cbn [m_desc m_kind m_body] in *; destruct n as [i|]; try done.
    - injection Hc as ->. split_and!; auto; [by destruct k|]. by intros [i|].
    - split_and!; auto; [by destruct k|]. intros [i'|]; [|done]. cbn [m_body with_body]. destruct (decide (i = i')) as [<-|N]; [by rewrite lookup_insert, Hc|by rewrite lookup_insert_ne].
  Qed.
  Lemma kind_stat m k : timer_kind (m_kind m) -> timer_kind k -> mstat m (with_kind m k).
  Proof. intros H1 H2. unfold mstat. split_and!; auto. destruct (m_kind m); done. Qed.
  Lemma mstat_refl m : mstat m m.
  Proof. unfold mstat. split_and!; auto. by destruct (m_kind m). Qed.
  Lemma mstat_trans m m1 m2 : mstat m m1 -> mstat m1 m2 -> mstat m m2.
  Proof.
    intros (A1 & A2 & A3 & A4) (B1 & B2 & B3 & B4). unfold mstat. split_and!; [congruence|congruence| |intros n; by rewrite B4].
    destruct (m_kind m), (m_kind m1), (m_kind m2); cbn in *; try done; congruence.
  Qed.
  Lemma good_metric s mp m m' : good s -> q_metrics s !! mp = Some m -> mstat m m' -> good (upd_metric s mp m').
  Proof.
    intros [G1 G2 G3] Hm Hs. split; [done|done|]. intros mp'. cbn. specialize (G3 mp'). destruct (decide (mp = mp')) as [<-|N]; [|by rewrite lookup_insert_ne].
    rewrite lookup_insert. rewrite Hm in G3. destruct (h_metrics (w_heap w) !! mp) as [m0|]; [|done]. by eapply mstat_trans.
  Qed.
  Lemma agree_other s mp m o : o <> Some mp -> agree o s (upd_metric s mp m).
  Proof.
    intros N. split; [done|]. destruct o as [mp'|]; [|done]. cbn. rewrite lookup_insert_ne; [done|congruence].
  Qed.
  Lemma good_kind s mp m : good s -> q_metrics s !! mp = Some m ->
    (forall m0, h_metrics (w_heap w) !! mp = Some m0 -> timer_kind (m_kind m0)) -> timer_kind (m_kind m).
  Proof.
    intros G Em F. pose proof (g_stat _ G mp) as S. rewrite Em in S. destruct (h_metrics (w_heap w) !! mp) as [m0|] eqn:E0; [|done].
    specialize (F _ eq_refl). destruct S as (_ & _ & S & _). by destruct (m_kind m0).
  Qed.

  Lemma step_good o p s p' s' : fit o p -> good s -> match o with Some mp => qstep mp p s p' s' | None => False end ->
    fit o p' /\ good s' /\ forall o', o' <> o -> agree o' s s'.
  Proof.
    destruct o as [mp|]; [|done]. cbn [fit]. unfold qstep. intros F G H. destruct p as [o v|n k|n k|n v k|k|mk k|wr off data kok kerr]; cbn [qnext fits] in *.
    - discriminate.
    - destruct (q_metrics s !! mp) as [m|]; [|done]. cbn in H. injection H as <- <-. split_and!; auto using agree_refl.
    - destruct (q_metrics s !! mp) as [m|] eqn:Em; [|done]. cbn in H. injection H as <- <-. split_and!; auto using agree_refl. apply F. intros cl E.
      pose proof (g_stat _ G mp) as S. rewrite Em in S. destruct (h_metrics (w_heap w) !! mp) as [m0|] eqn:E0; [|done]. destruct S as (_ & _ & _ & S). specialize (S n).
      destruct (cell_at m n) as [c|]; [|done]. cbn in E, S. rewrite E in S. destruct (cell_at m0 n) as [c0|] eqn:Ec0; [|done]. cbn in S. injection S as S. exists m0, c0. auto.
    - destruct (q_metrics s !! mp) as [m|] eqn:Em; [|done]. cbn in H. destruct (cell_at m n) as [c|] eqn:Ec; [|done]. cbn in H. injection H as <- <-. split_and!; auto using agree_other.
      eapply good_metric; eauto. by apply put_cell_stat.
    - destruct (q_metrics s !! mp) as [m|]; [|done]. cbn in H. injection H as <- <-. split_and!; auto using agree_refl.
    - destruct (q_metrics s !! mp) as [m|] eqn:Em; [|done]. cbn in H. injection H as <- <-. destruct F as (Ft & Fm & F).
      split_and!; auto using agree_other. eapply good_metric; eauto. apply kind_stat; [|done]. eapply good_kind; eauto.
    - destruct F as (F1 & F2 & F3). destruct (f_writers (q_files s) !! wr) as [x|] eqn:Ex; [|done]. cbn in H. destruct (wr_live x) eqn:El; [|done].
      destruct (f_inodes (q_files s) !! wr_inode x) as [buf|] eqn:Eb; [|done]. cbn in H.
      destruct (zlen buf <? off + zlen data) eqn:Ez. { injection H as <- <-. split_and!; auto using agree_refl. }
      destruct data as [|b data]. { injection H as <- <-. split_and!; auto using agree_refl. }
      destruct (off <? 0) eqn:Eo. { injection H as <- <-. split_and!; auto using agree_refl. cbn. exact I. }
      injection H as <- <-. rewrite zlen_cons in *. pose proof (zlen_nonneg data).
      assert (own (wr_inode x) off = Some mp) as O. { apply F3; [by rewrite <- (g_writers _ G)|done|]. lia. }
      split_and!.
      + cbn [fits]. split_and!; auto. intros x' j H1 H2 H3. apply F3; auto. lia.
      + split; cbn.
        * apply G.
        * intros i. rewrite <- (g_len _ G i). destruct (decide (i = wr_inode x)) as [->|N]; [|by rewrite lookup_insert_ne]. rewrite lookup_insert, Eb. cbn. by rewrite store_len.
        * intros mp'. apply (g_stat _ G).
      + intros o' N. split; [|destruct o'; [done|]].
        * intros i j Ho. rewrite byte_store by (auto; lia). rewrite decide_False; [done|]. intros [-> ->]. congruence.
        * cbn. split; [done|]. intros i. destruct (decide (i = wr_inode x)) as [->|Ni]; [|by rewrite lookup_insert_ne]. rewrite lookup_insert, Eb. cbn. by rewrite store_len.
  Qed.

  Lemma step_agree o p s t p' s' : fit o p -> good s -> good t -> agree o s t -> match o with Some mp => qstep mp p s p' s' | None => False end ->
    exists t', match o with Some mp => qstep mp p t p' t' | None => False end /\ agree o s' t'.
  Proof.
    destruct o as [mp|]; [|done]. cbn [fit]. unfold qstep. intros F G Gt A0 H. pose proof A0 as [Ab Am]. destruct p as [o v|n k|n k|n v k|k|mk k|wr off data kok kerr]; cbn [qnext fits] in *.
    - discriminate.
    - rewrite <- Am. destruct (q_metrics s !! mp) as [m|]; [|done]. cbn in H |- *. injection H as <- <-. eauto.
    - rewrite <- Am. destruct (q_metrics s !! mp) as [m|]; [|done]. cbn in H |- *. injection H as <- <-. eauto.
    - rewrite <- Am. destruct (q_metrics s !! mp) as [m|]; [|done]. cbn in H |- *. destruct (cell_at m n) as [c|]; [|done]. cbn in H |- *. injection H as <- <-.
      eexists. split; [done|]. split; [exact Ab|]. cbn. by rewrite !lookup_insert.
    - rewrite <- Am. destruct (q_metrics s !! mp) as [m|]; [|done]. cbn in H |- *. injection H as <- <-. eauto.
    - rewrite <- Am. destruct (q_metrics s !! mp) as [m|]; [|done]. cbn in H |- *. injection H as <- <-.
      eexists. split; [done|]. split; [exact Ab|]. cbn. by rewrite !lookup_insert.
    - destruct F as (F1 & F2 & F3). rewrite (g_writers _ Gt), <- (g_writers _ G). destruct (f_writers (q_files s) !! wr) as [x|] eqn:Ex; [|done]. cbn in H |- *. destruct (wr_live x) eqn:El; [|done].
      pose proof (g_len _ G (wr_inode x)) as L. rewrite <- (g_len _ Gt (wr_inode x)) in L.
      destruct (f_inodes (q_files s) !! wr_inode x) as [buf|] eqn:Eb; [|done]. destruct (f_inodes (q_files t) !! wr_inode x) as [buf'|] eqn:Eb'; [|done]. cbn in H, L |- *.
      injection L as L. assert (zlen buf' = zlen buf) as L' by (unfold zlen; by rewrite L). rewrite L'.
      destruct (zlen buf <? off + zlen data) eqn:Ez. { injection H as <- <-. eauto. }
      destruct data as [|b data]. { injection H as <- <-. eauto. }
      destruct (off <? 0) eqn:Eo. { injection H as <- <-. eauto. }
      injection H as <- <-. rewrite zlen_cons in *. pose proof (zlen_nonneg data). eexists. split; [done|]. split; [|exact Am].
      intros i j Ho. rewrite !byte_store by (auto; lia). case_decide; [done|]. by apply Ab.
  Qed.

  (** ** The methods touch their own metric only *)
  Definition slot_val (t : Z) (v : goval) : Prop := match v with VStr s => t = StringType /\ zlen s <= 256 | _ => True end.
  Lemma slot_w_ge t : 8 <= slot_w t.
  Proof. unfold slot_w. destruct (_ =? _); [|lia]. unfold StringLength. lia. Qed.
  Lemma val_bytes_short v d : match v with VStr _ => False | _ => True end -> val_bytes v = Some d -> zlen d <= 8.
  Proof. destruct v; cbn [val_bytes]; intros F H; try done; apply (inj Some) in H as <-; rewrite zlen_le_enc; lia. Qed.

  Lemma fits_update mp m n c cl v k : mp ∈ mps -> h_metrics (w_heap w) !! mp = Some m -> cell_at m n = Some c -> c_upd c = Some cl ->
    slot_val (md_type (m_desc m)) v -> fits mp k -> fits mp (q_update cl v k).
  Proof.
    intros Hin Hm Hc Hu Hv Hk.
    assert (forall x j d, f_writers (w_files w) !! cl_writer cl = Some x -> wr_live x = true -> d <= slot_w (md_type (m_desc m)) ->
      cl_off cl <= j < cl_off cl + d -> own (wr_inode x) j = Some mp) as O.
    { intros x j d H1 H2 H3 H4. eapply owner_spec; eauto. exists n, c, cl, x. split_and!; auto. lia. lia. }
    pose proof (slot_w_ge (md_type (m_desc m))).
    destruct (match v with VStr _ => true | _ => false end) eqn:E.
    - destruct v; try done. destruct Hv as [Ht Hs]. rewrite Ht in O. cbn [q_update q_write_val fits]. split_and!; auto; intros x j H1 H2 H3; (eapply O; [done|done| |exact H3]).
      + exact Hs.
      + done.
    - assert (q_update cl v k = q_write_val cl v k) as -> by (by destruct v).
      assert (q_write_val cl v k = match val_bytes v with
         | Some d => QWrite (cl_writer cl) (cl_off cl) d k (QRet RErr None)
         | None => QWrite (cl_writer cl) (cl_off cl) [] (QRet RErr None) (QRet RErr None)
         end) as -> by (by destruct v).
      destruct (val_bytes v) as [d|] eqn:Ed.
      + cbn [fits]. split_and!; auto. intros x j H1 H2 H3. eapply O; [done|done| |exact H3]. transitivity 8; [|done]. apply (val_bytes_short v); [by destruct v|done].
      + cbn [fits]. split_and!; auto. intros x j H1 H2 H3. change (zlen []) with 0 in H3. lia.
  Qed.

  Lemma fits_store mp m n v k : mp ∈ mps -> h_metrics (w_heap w) !! mp = Some m -> slot_val (md_type (m_desc m)) v -> fits mp k -> fits mp (q_store n v k).
  Proof.
    intros Hin Hm Hv Hk. unfold q_store. cbn [fits]. intros [x|]; [|exact I]. destruct (go_eqb v x); [done|]. cbn [fits]. intros [cl|] Hu; [|done].
    destruct (Hu _ eq_refl) as (m0 & c & H1 & H2 & H3). rewrite Hm in H1. injection H1 as <-. eapply fits_update; eauto.
  Qed.
  Lemma resolve_slot t v : IsCompatible t v = true -> match v with VStr s => zlen s <= 256 | _ => True end -> slot_val t (resolve t v).
  Proof.
    intros Hc Hv. destruct v; try (unfold resolve; cbn [resolveInt resolveFloat]; repeat case_match; exact I).
    unfold IsCompatible in Hc. cbn in Hc |- *. split; [lia|done].
  Qed.
  Notation short v := (match v with VStr s => zlen s <= 256 | _ => True end).
  Lemma fits_set mp m v k : mp ∈ mps -> h_metrics (w_heap w) !! mp = Some m -> short v -> fits mp k -> fits mp (q_set (md_type (m_desc m)) v k).
  Proof. intros. unfold q_set. destruct (IsCompatible _ v) eqn:E; [|exact I]. eapply fits_store; eauto. by apply resolve_slot. Qed.
  Lemma fits_set_instance mp m d v i k : mp ∈ mps -> h_metrics (w_heap w) !! mp = Some m -> short v -> fits mp k -> fits mp (q_set_instance (md_type (m_desc m)) d v i k).
  Proof. intros. unfold q_set_instance. destruct (IsCompatible _ v) eqn:E; [|exact I]. destruct (has_instance d i); [|exact I]. eapply fits_store; eauto. by apply resolve_slot. Qed.
  Lemma fits_val_instance mp d i k : (forall v, fits mp (k v)) -> fits mp (q_val_instance d i k).
  Proof. intros. unfold q_val_instance. destruct (has_instance d i); [done|exact I]. Qed.
  Lemma fits_int mp v k : (forall z, fits mp (k z)) -> fits mp (q_int v k).
  Proof. intros. unfold q_int. by destruct (as_int64 v). Qed.
  Lemma fits_f64 mp v k : (forall z, fits mp (k z)) -> fits mp (q_f64 v k).
  Proof. intros. unfold q_f64. by destruct (as_f64 v). Qed.
  Lemma fits_timer mp k : (forall b z, fits mp (k b z)) -> fits mp (q_timer k).
  Proof. intros. unfold q_timer. cbn [fits]. intros []; try exact I. auto. Qed.
  Lemma fits_hist_upd mp m d i z k : mp ∈ mps -> h_metrics (w_heap w) !! mp = Some m -> fits mp k -> fits mp (q_hist_upd (md_type (m_desc m)) d i z k).
  Proof. intros. unfold q_hist_upd. cbn [fits]. intros [c|]; [|exact I]. destruct (go_eqb _ _); [done|]. by apply fits_set_instance. Qed.

  Lemma fits_prog mp m op p : mp ∈ mps -> h_metrics (w_heap w) !! mp = Some m -> op_fits op -> prog_of (w_heap w) m op = Some p -> fits mp p.
  Proof.
    intros Hin Hm Ho H. unfold prog_of in H.
    destruct (m_kind m) eqn:Ek; destruct op; cbn [op_fits] in Ho; try done; try (destruct (m_body m) as [cc|ip cells]; [done|]; destruct (h_indoms (w_heap w) !! ip) as [d|]; [|done]); cbn in H; injection H as <-.
    all: repeat first
      [ exact I
      | eapply fits_set; [done|done|exact I || exact Ho|]
      | eapply fits_set_instance; [done|done|exact I || exact Ho|]
      | apply fits_val_instance; intros ?
      | apply fits_int; intros ?
      | apply fits_f64; intros ?
      | apply fits_timer; intros ? ?
      | match goal with |- fits _ (q_counter_set _ _) => unfold q_counter_set | |- fits _ (q_counter_inc _ _) => unfold q_counter_inc | |- fits _ (q_gauge_inc _ _) => unfold q_gauge_inc
        | |- fits _ (q_timer_start _) => unfold q_timer_start | |- fits _ (q_timer_reset _) => unfold q_timer_reset | |- fits _ (q_timer_stop _ _ _) => unfold q_timer_stop
        | |- fits _ (q_cv_set _ _ _ _) => unfold q_cv_set | |- fits _ (q_cv_inc _ _ _ _) => unfold q_cv_inc | |- fits _ (q_gv_inc _ _ _ _) => unfold q_gv_inc | |- fits _ (q_hist_record _ _ _) => unfold q_hist_record
        | |- fits _ (if ?b then _ else _) => destruct b | |- fits _ (match ?r with Some _ => _ | None => _ end) => destruct r
        | |- fits _ (QVal _ _) => cbn [fits]; intros ?
        | |- fits _ (QSetTimer _ _) => cbn [fits]; split_and!; [exact I|intros m0 Hm0; rewrite Hm in Hm0; injection Hm0 as <-; rewrite Ek; exact I|exact I]
        | |- fits _ (q_hist_upd _ _ _ _ _) => eapply fits_hist_upd; [done|done|] end ].
  Qed.

  (** ** Calls *)
  Definition call_ok (c : mcall) : Prop :=
    match c with
    | MUpdate mp op _ => mp ∈ mps /\ exists m p, h_metrics (w_heap w) !! mp = Some m /\ prog_of (w_heap w) m op = Some p /\ op_args (w_heap w) m op /\ op_fits op
    | MVal mp n => mp ∈ mps /\ exists m, h_metrics (w_heap w) !! mp = Some m
    end.
  Lemma enter_fit c : call_ok c -> fit (mc_obj c) (mc_enter (w_heap w) c).
  Proof.
    destruct c as [mp op mst|mp n]; cbn [call_ok mc_obj fit mc_enter].
    - intros (Hin & m & p & Hm & Hp & _ & Hf). rewrite Hm. cbn. rewrite Hp. cbn. by eapply fits_prog.
    - intros (Hin & m & Hm). rewrite Hm. cbn [fmap option_fmap option_map]. assert (forall n, fits mp (QVal n (fun v => match v with Some _ => QRet ROk v | None => QRet RPanic None end))) as F.
      { intros n0. cbn. intros [v|]; exact I. }
      destruct n as [i|]; [|done]. destruct (m_body m) as [c|ip cells]; [done|]. destruct (h_indoms (w_heap w) !! ip) as [d|]; [|exact I]. unfold q_val_instance.
      destruct (has_instance d i); [done|exact I].
  Qed.

  (** Reading methods read. *)
  Inductive reader : mprog -> Prop :=
  | rd_ret o v : reader (QRet o v)
  | rd_val n k : (forall v, reader (k v)) -> reader (QVal n k).
  Lemma reader_steps mp x y : qsteps mp x y -> reader x.1 -> y.2 = x.2.
  Proof.
    induction 1 as [x|x y z H _ IH]; [done|]. intros R. destruct x as [p s], y as [p' s']. unfold qstep in H. cbn in *.
    inversion R as [|n k Rk]; subst; cbn in H; [done|]. destruct (q_metrics s !! mp) as [m|]; [|done]. cbn in H. injection H as <- <-. auto.
  Qed.
  Lemma reads_enter mp n : reader (mc_enter (w_heap w) (MVal mp n)).
  Proof.
    cbn [mc_enter]. assert (forall n, reader (QVal n (fun v => match v with Some _ => QRet ROk v | None => QRet RPanic None end))) as F.
    { intros n0. constructor. intros [v|]; constructor. }
    destruct n as [i|]; [|exact (F None)]. destruct (m_body <$> h_metrics (w_heap w) !! mp) as [[c|ip cells]|]; [done| |done].
    destruct (h_indoms (w_heap w) !! ip) as [d|]; [|constructor]. unfold q_val_instance. destruct (has_instance d i); [done|constructor].
  Qed.

  Notation cstep_of := (fun o : option nat => match o with Some mp => qstep mp | None => fun _ _ _ _ => False end).

  Lemma metrics_serial css m1 m : (forall l c, l ∈ css -> c ∈ l -> call_ok c) ->
    rtc (cstep (w_heap w)) (m_start (world_mem w) css) m1 -> rtc (cstep (w_heap w)) m1 m -> m_done m ->
    exists h h', serial mc_obj (mc_enter (w_heap w)) cstep_of mc_ret (world_mem w) (h ++ h') (mc_mem m) /\ length (mc_thr m) = length css /\
      (h ++ h').*1.*2 ≡ₚ concat css /\
      (forall i th, mc_thr m1 !! i = Some th -> calls_of i h = t_done th) /\
      forall i th, mc_thr m !! i = Some th -> css !! i = Some (t_done th).*1 /\ calls_of i (h ++ h') = t_done th.
  Proof.
    intros Hc H1 HR HD. unfold cstep in H1, HR.
    eapply (linear mc_obj mc_rd (mc_enter (w_heap w)) cstep_of mc_ret agree fit good call_ok agree_refl agree_sym agree_trans enter_fit); eauto using good_start, agree_ext.
    - intros o p s p' s' F G H. eapply step_good; eauto. by destruct o.
    - intros o p s t p' s' F G Gt Ag H. destruct (step_agree o p s t p' s') as (t' & H2 & H3); auto; [by destruct o|]. exists t'. split; [by destruct o|done].
    - intros c p s s' Ok Hrd H. destruct c as [|mp n]; [done|]. cbn [mc_obj] in H. apply (reader_steps mp (_, _) (_, _)) in H; [done|]. apply reads_enter.
    - intros i l c Hi Hl. eapply Hc; [|done]. eapply elem_of_list_lookup_2; eauto.
  Qed.

  (** ** Histories *)
  Lemma kind_prog m m' op : mstat m m' -> prog_of (w_heap w) m' op = prog_of (w_heap w) m op.
  Proof.
    intros (E1 & E2 & E3 & _). unfold prog_of. rewrite E1. unfold m_indom in E2.
    destruct (m_kind m) eqn:Ek; try (rewrite E3; clear E3); try (destruct (m_kind m'); try done).
    all: destruct op; try done; destruct (m_body m), (m_body m'); try done; by injection E2 as ->.
  Qed.
  Lemma prog_heap hp hp' m op : h_indoms hp = h_indoms hp' -> prog_of hp m op = prog_of hp' m op.
  Proof. intros E. unfold prog_of. by rewrite E. Qed.
  Lemma prog_args hp m op p hp' m' : prog_of hp m op = Some p -> op_args hp m op -> op_args hp' m' op.
  Proof. unfold prog_of. intros Hp. destruct (m_kind m), op; done. Qed.
End inst.

(** ** The specification: the calls as a history of the world, in which every call is one step *)
Inductive shist : world -> list (nat * mcall * (outcome * option goval)) -> world -> Prop :=
| sh_nil w : shist w [] w
| sh_update w h w1 i mp op mst o w2 : shist w h w1 -> wstep w1 (CUpdate mp op mst) (mc_outcome (MUpdate mp op mst) o) w2 ->
    shist w (h ++ [(i, MUpdate mp op mst, (o, None))]) w2
| sh_val w h w1 i mp n m r : shist w h w1 -> h_metrics (w_heap w1) !! mp = Some m ->
    match val_at m n with Some v => r = (ROk, Some v) | None => r.1 <> ROk /\ r.2 = None end ->
    shist w (h ++ [(i, MVal mp n, r)]) w1.

Section world.
  Context (w : world) (mps : list nat) (W : w_ok w) (A : apart (w_files w) (h_metrics (w_heap w)) mps) (D : w_dead w = false).
  Notation cstep_of := (fun o : option nat => match o with Some mp => qstep mp | None => fun _ _ _ _ => False end).

  Lemma mem_world_id : mem_world w (world_mem w) = w.
  Proof. unfold mem_world, world_mem. cbn. destruct w as [[hi hm] ? ? ? ? ? ?]. done. Qed.

  Lemma serial_world s0 h s : serial mc_obj (mc_enter (w_heap w)) cstep_of mc_ret s0 h s -> s0 = world_mem w ->
    (forall i c r, (i, c, r) ∈ h -> call_ok w mps c) -> good w s /\ w_ok (mem_world w s) /\ shist w h (mem_world w s).
  Proof.
    induction 1 as [s|s h s1 i c r s' Hser IH (p & Hst & Hp)]; intros E Hok.
    - subst s. rewrite mem_world_id. split_and!; [apply good_start|done|constructor].
    - destruct IH as (G & W1 & SH); [done|intros; eapply Hok; apply elem_of_app; left; eauto|].
      assert (call_ok w mps c) as Ok by (eapply Hok; apply elem_of_app; right; left). clear Hok Hser E s.
      destruct p as [o v| | | | | |]; try done. cbn in Hp. injection Hp as <-.
      destruct c as [mp op mst|mp n]; cbn [call_ok mc_obj] in *.
      + destruct Ok as (Hin & m & p & Hm & Hpr & Ha & Hf). pose proof (g_stat _ _ G mp) as S. rewrite Hm in S. destruct (q_metrics s1 !! mp) as [m1|] eqn:Hm1; [|done].
        cbn [mc_enter] in Hst. rewrite Hm in Hst. cbn [mbind option_bind] in Hst. rewrite Hpr in Hst. change (default q_ok (Some p)) with p in Hst.
        pose proof (ho_metrics _ (wo_heap _ W1) mp m1 Hm1) as Mok.
        assert (prog_of (w_heap (mem_world w s1)) m1 op = Some p) as Hpr1.
        { rewrite <- Hpr, <- (kind_prog w m m1 op S). by apply prog_heap. }
        destruct (prog_leads (w_heap (mem_world w s1)) mp s1 m1 op p (mo_kind _ _ Mok) Hm1 Hpr1) as (r & Hrun & L).
        destruct (leads_only _ _ _ _ _ _ _ L Hst) as (Er & -> & Es & Nf).
        assert (wstep (mem_world w s1) (CUpdate mp op mst) (mc_outcome (MUpdate mp op mst) o) (mem_world w s')) as ST.
        { destruct r as [[ro fs'] m']. cbn [fst snd] in *. injection Er as -> ->. 
          pose proof (ws_update (mem_world w s1) mp op mst m1 (mc_outcome (MUpdate mp op mst) o) (q_files s') m' D Hm1 (prog_args _ _ _ _ _ _ Hpr Ha)) as T.
          cbn [w_files mem_world] in T. rewrite Hrun in T. rewrite Es.
          assert (is_fault (mc_outcome (MUpdate mp op mst) o) = false) as Ef by (destruct o; [done| |done|done]; cbn; by destruct (mst || is_up op)).
          rewrite Ef in T. unfold mem_world at 2. unfold st. cbn [q_metrics q_files]. rewrite D. apply T.
          destruct mst; cbn; destruct o, (is_up op); done. }
        split_and!; [|eapply wstep_ok; eauto|econstructor; eauto].
        assert (forall o p s p' s', fit w mps o p -> good w s -> cstep_of o p s p' s' -> fit w mps o p' /\ good w s' /\ forall o', o' <> o -> agree w mps o' s s') as SG.
        { intros o' ? ? ? ? F0 G0 H0. eapply step_good; eauto. by destruct o'. }
        apply (steps_good cstep_of (agree w mps) (fit w mps) (good w) (agree_refl w mps) (agree_trans w mps) SG (Some mp) (p, s1) (QRet o None, s') Hst); [|exact G].
        cbn. by eapply fits_prog.
      + destruct Ok as (Hin & m & Hm). pose proof (g_stat _ _ G mp) as S. rewrite Hm in S. destruct (q_metrics s1 !! mp) as [m1|] eqn:Hm1; [|done].
        pose proof (reader_steps mp (_, _) (_, _) Hst (reads_enter w mp n)) as E. cbn in E. subst s'. split_and!; auto.
        econstructor; [exact SH|exact Hm1|]. pose proof (ho_metrics _ (wo_heap _ W1) mp m1 Hm1) as Mok.
        assert (forall k, qsteps mp (QVal n k, s1) (QRet o v, s1) -> qsteps mp (k (val_at m1 n), s1) (QRet o v, s1)) as Q.
        { intros k H. inversion H as [|? y ? H1 H2]; subst. unfold qstep in H1. cbn in H1. rewrite Hm1 in H1. cbn in H1. injection H1 as H1a H1b. destruct y. cbn in *. by subst. }
        assert (forall o' v', qsteps mp (QRet o' v', s1) (QRet o v, s1) -> (o, v) = (o', v')) as Q2.
        { intros o' v' H. apply ret_steps in H. congruence. }
        cbn [mc_enter] in Hst. rewrite Hm in Hst. cbn [fmap option_fmap option_map] in Hst. cbn [fst snd].
        assert (qsteps mp (QVal n (fun v => match v with Some _ => QRet ROk v | None => QRet RPanic None end), s1) (QRet o v, s1) ->
          match val_at m1 n with Some v0 => (o, v) = (ROk, Some v0) | None => o <> ROk /\ v = None end) as Q3.
        { intros H. apply Q in H. destruct (val_at m1 n) as [x|]; [by apply Q2|]. apply Q2 in H. injection H as -> ->. done. }
        destruct n as [i0|]; [|by apply Q3]. destruct S as (_ & Si & _). unfold m_indom in Si. destruct (m_body m) as [cc|ip cells]; [by apply Q3|].
        destruct (m_body m1) as [|ip1 cells1] eqn:Eb; [done|]. injection Si as ->. pose proof (mo_body _ _ Mok) as B. rewrite Eb in B. destruct B as (d & Hd & B & _).
        cbn in Hd. rewrite Hd in Hst. unfold q_val_instance in Hst. destruct (has_instance d i0) eqn:Hi; [by apply Q3|]. apply Q2 in Hst. injection Hst as -> ->.
        unfold val_at, cell_at. rewrite Eb. destruct (cells1 !! i0) eqn:Ec; [|done]. exfalso. unfold has_instance in Hi. apply bool_decide_eq_false in Hi. apply Hi.
        apply elem_of_dom. rewrite <- B. by apply elem_of_dom_2 in Ec.
  Qed.
End world.

(** Concurrent calls are calls in some order; those that had returned at a moment [m1]
    come first. *)
Theorem metrics_linear w mps css m1 m : w_ok w -> w_dead w = false -> apart (w_files w) (h_metrics (w_heap w)) mps -> (forall l c, l ∈ css -> c ∈ l -> call_ok w mps c) ->
  rtc (cstep (w_heap w)) (m_start (world_mem w) css) m1 -> rtc (cstep (w_heap w)) m1 m -> m_done m ->
  exists h h', shist w (h ++ h') (mem_world w (mc_mem m)) /\ (h ++ h').*1.*2 ≡ₚ concat css /\ length (mc_thr m) = length css /\
    (forall i th, mc_thr m1 !! i = Some th -> calls_of i h = t_done th) /\
    forall i th, mc_thr m !! i = Some th -> css !! i = Some (t_done th).*1 /\ calls_of i (h ++ h') = t_done th.
Proof.
  intros W D A Hc H1 H2 HD. destruct (metrics_serial w mps A css m1 m Hc H1 H2 HD) as (h & h' & Hs & Hl & Hp & K1 & K2). exists h, h'. split_and!; auto.
  eapply (serial_world w mps W A D); eauto. intros i c r Hin. assert (c ∈ concat css) as Hi.
  { rewrite <- Hp. apply elem_of_list_fmap. exists (i, c). split; [done|]. apply elem_of_list_fmap. by exists (i, c, r). }
  apply elem_of_list_In, in_concat in Hi as (l & H3 & H4). apply (Hc l c); by apply elem_of_list_In.
Qed.

(** When slots do not overlap. *)
Lemma apart_one fs ms mp : apart fs ms [mp].
Proof. intros a b m m' ino j Ha Hb _ _ _ _. apply elem_of_list_singleton in Ha, Hb. congruence. Qed.
Lemma apart_synced w cid gen pid c r mps : w_ok w -> synced w cid gen pid -> w_clients w !! cid = Some c -> w_regs w !! cl_reg c = Some r ->
  (forall mp m, mp ∈ mps -> h_metrics (w_heap w) !! mp = Some m -> registered r mp \/ no_closures m) -> apart (w_files w) (h_metrics (w_heap w)) mps.
Proof.
  intros W (c' & r' & wr & ino0 & pl & ad & am & buf & Hc & Hr & _ & _ & _ & S) Hc' Hr' Hreg. assert (c' = c) as -> by congruence. assert (r' = r) as -> by congruence.
  intros mp mp' m m' ino j Hin Hin' Hm Hm' (n & cc & cl & x & Hce & Hu & Hx & Hl & Hi & Hj) (n' & cc' & cl' & x' & Hce' & Hu' & Hx' & Hl' & Hi' & Hj').
  destruct (decide (mp = mp')) as [|N]; [done|]. exfalso.
  destruct (Hreg _ _ Hin Hm) as [R|R]; [|rewrite (R _ _ Hce) in Hu; done]. destruct (Hreg _ _ Hin' Hm') as [R'|R']; [|rewrite (R' _ _ Hce') in Hu'; done].
  pose proof (sync_disj (w_heap w) (w_files w) (start_cfg c r gen pid) wr ino0 pl ad am buf mp m n cc mp' m' n' cc' cl cl' (wo_heap _ W) (wo_regs _ W _ _ Hr) S R Hm Hce Hu R' Hm' Hce' Hu' N). lia.
Qed.

(** ** Sums of increments *)
(** The amount by which a call is to raise counter [mp]; [None]: not such a call. *)
Definition inc_amount (mp : nat) (c : mcall) : option Z :=
  match c with
  | MUpdate mp' op _ => if decide (mp' = mp) then match op with OCInc z => if (0 <=? z) && (z <? 2 ^ 63) then Some z else None | OCUp => Some 1 | _ => None end else None
  | MVal mp' n => if decide (mp' = mp /\ n = None) then Some 0 else None
  end.
Definition sum_inc (mp : nat) (cs : list mcall) : Z := foldr (fun c z => default 0 (inc_amount mp c) + z) 0 cs.
Lemma sum_inc_app mp a b : sum_inc mp (a ++ b) = sum_inc mp a + sum_inc mp b.
Proof. induction a as [|c a IH]; cbn; [done|]. unfold sum_inc in *. cbn. lia. Qed.
Lemma sum_inc_perm mp a b : a ≡ₚ b -> sum_inc mp a = sum_inc mp b.
Proof. induction 1; unfold sum_inc in *; cbn; lia. Qed.

Lemma live_good w s mp m m' : good w s -> h_metrics (w_heap w) !! mp = Some m -> q_metrics s !! mp = Some m' -> live (w_files w) m -> live (q_files s) m'.
Proof.
  intros G Hm Hm' L n c Hc cl Hcl. pose proof (g_stat _ _ G mp) as S. rewrite Hm, Hm' in S. destruct S as (Ed & _ & _ & Eu). specialize (Eu n). rewrite Hc in Eu.
  destruct (cell_at m n) as [c0|] eqn:Hc0; [|done]. cbn in Eu. injection Eu as Eu. destruct (L _ _ Hc0 cl) as (x & buf & H1 & H2 & H3 & H4 & H5); [congruence|].
  pose proof (g_len _ _ G (wr_inode x)) as El. rewrite H3 in El. destruct (f_inodes (q_files s) !! wr_inode x) as [buf'|] eqn:Eb; [|done]. cbn in El. injection El as El.
  exists x, buf'. rewrite (g_writers _ _ G), Ed. split_and!; auto. unfold zlen in *. by rewrite El.
Qed.
Lemma to_signed_mod a b : to_signed 64 (to_signed 64 a + b) = to_signed 64 (a + b).
Proof.
  assert (exists k, to_signed 64 a = a + k * 2 ^ 64) as [k Hk].
  { unfold to_signed. pose proof (Z.div_mod a (2 ^ 64) ltac:(lia)) as E. cbn zeta. destruct (_ <? _); [exists (- (a / 2 ^ 64))|exists (- (a / 2 ^ 64) - 1)]; lia. }
  rewrite Hk. replace (a + k * 2 ^ 64 + b) with (a + b + k * 2 ^ 64) by lia. unfold to_signed. by rewrite Z_mod_plus_full.
Qed.
Lemma inc_live fs hp m z v : metric_ok hp m -> m_kind m = MCounter -> val_at m None = Some (VInt64 v) -> live fs m -> 0 <= z ->
  exists fs' m', counter_inc fs m z = (ROk, fs', m').
Proof.
  intros Mok Hk Hv L Hz. pose proof (mo_kind _ _ Mok) as K. rewrite Hk in K. destruct (m_body m) as [c|] eqn:Hb; [|done]. cbn in K.
  assert (m_val m = Some (VInt64 v)) as Hv' by (unfold m_val; unfold val_at, cell_at in Hv; rewrite Hb in *; exact Hv).
  unfold counter_inc. replace (z <? 0) with false by lia. destruct (z =? 0); [eauto|]. rewrite Hv'. cbn [as_int64].
  destruct (set_live fs m (VInt64 (to_signed 64 (v + z))) c Hb L) as (fs' & m' & E); [cbn; apply to_signed_range; lia|done|].
  rewrite K in E. exists fs', m'. exact E.
Qed.

Section incs.
  Context (w : world) (W : w_ok w) (D : w_dead w = false) (mp : nat) (m0 : metric) (v0 : Z).
  Context (Hm : h_metrics (w_heap w) !! mp = Some m0) (Hk : m_kind m0 = MCounter) (Hv : val_at m0 None = Some (VInt64 v0)) (L : live (w_files w) m0).
  Notation cstep_of := (fun o : option nat => match o with Some mp => qstep mp | None => fun _ _ _ _ => False end).

  Lemma inc_ok c z : inc_amount mp c = Some z -> call_ok w [mp] c.
  Proof using Hk Hm.
    destruct c as [mp' op mst|mp' n]; cbn.
    - case_decide as E; [|done]. subst mp'. intros H. split; [by apply elem_of_list_singleton|]. exists m0.
      destruct op; try done; (eexists; split; [done|]; unfold prog_of; rewrite Hk; split; [done|]; split; [|exact I]); [|exact I].
      cbn. destruct (_ && _) eqn:B; [|done]. unfold in_signed. lia.
    - case_decide as E; [|done]. destruct E as [-> ->]. intros _. split; [by apply elem_of_list_singleton|]. eauto.
  Qed.

  Lemma inc_serial s0 h s : serial mc_obj (mc_enter (w_heap w)) cstep_of mc_ret s0 h s -> s0 = world_mem w ->
    Forall (fun x => is_Some (inc_amount mp x.1.2)) h ->
    (exists m, q_metrics s !! mp = Some m /\ val_at m None = Some (VInt64 (to_signed 64 (v0 + sum_inc mp h.*1.*2)))) /\ Forall (fun x => x.2.1 = ROk) h.
  Proof using W D Hm Hk Hv L.
    induction 1 as [s|s h s1 i c r s' Hser IH (p & Hst & Hp)]; intros E Hok.
    - subst s. split; [|constructor]. exists m0. split; [done|]. cbn. destruct (counter_int _ _ _ _ (ho_metrics _ (wo_heap _ W) _ _ Hm) (or_introl Hk) Hv) as (z & [= <-] & R).
      rewrite Z.add_0_r, to_signed_id; [done|lia|done].
    - apply Forall_app in Hok as [Hok Hc]. apply Forall_cons_1 in Hc as [[z Hc] _]. cbn [fst snd] in Hc.
      destruct IH as ((m1 & Hm1 & Hv1) & IH); [done|done|].
      destruct (serial_world w [mp] W (apart_one _ _ _) D _ _ _ Hser E) as (G & W1 & _).
      { intros i' c' r' Hin. rewrite Forall_forall in Hok. destruct (Hok _ Hin) as [z' Hz']. by eapply inc_ok. }
      pose proof (ho_metrics _ (wo_heap _ W1) mp m1 Hm1) as Mok. pose proof (g_stat _ _ G mp) as S. rewrite Hm, Hm1 in S. destruct S as (Sd & _ & Sk & _). rewrite Hk in Sk.
      pose proof (live_good _ _ _ _ _ G Hm Hm1 L) as L1.
      rewrite !fmap_app, sum_inc_app. cbn [fmap list_fmap fst snd]. change (sum_inc mp [c]) with (default 0 (inc_amount mp c) + 0). rewrite Hc. change (default 0 (Some z)) with z.
      destruct p as [o v| | | | | |]; try done. cbn in Hp. injection Hp as <-.
      pose proof (mo_kind _ _ Mok) as K. rewrite Sk in K. destruct (m_body m1) as [cc|] eqn:Hb; [|done]. cbn in K.
      destruct c as [mp' op mst|mp' n]; cbn [inc_amount mc_obj] in *; case_decide as Emp; try done.
      + subst mp'. cbn [mc_enter] in Hst. rewrite Hm in Hst. cbn [mbind option_bind] in Hst.
        assert (0 <= z /\ prog_of (w_heap w) m0 op = Some (q_counter_inc (md_type (m_desc m0)) z)) as [Hz Hpr].
        { unfold prog_of. rewrite Hk. destruct op; try done; [|injection Hc as <-; split; [lia|done]]. destruct (_ && _) eqn:B; [|done]. injection Hc as <-. split; [lia|done]. }
        rewrite Hpr in Hst. change (default q_ok (Some ?p)) with p in Hst. rewrite <- Sd in Hst.
        pose proof (lead_counter_inc mp z s1 m1 cc Hm1 Hb) as Ld. destruct (inc_live (q_files s1) _ m1 z _ Mok Sk Hv1 L1 Hz) as (fs' & m' & Ei). rewrite Ei in Ld.
        destruct (leads_only _ _ _ _ _ _ _ Ld Hst) as (Er & -> & Es & _). cbn [fst snd] in *. injection Er as <- ->.
        split; [|apply Forall_app; split; [done|]; apply Forall_singleton; done]. exists m'. rewrite Es. split; [apply st_lookup|].
        destruct (counter_inc_le _ _ _ _ _ _ K Ei) as [_ HI]. destruct (HI eq_refl) as [[-> ->]|(Hz' & v & Hv2 & Hv3)]; [by rewrite Hv1, !Z.add_0_r|].
        assert (v = to_signed 64 (v0 + sum_inc mp h.*1.*2)) as ->.
        { unfold m_val in Hv2. unfold val_at, cell_at in Hv1. rewrite Hb in *. cbn in Hv1. congruence. }
        assert (val_at m' None = m_val m') as ->. { unfold val_at, cell_at, m_val. by destruct (m_body m'). }
        rewrite Hv3, to_signed_mod. do 3 f_equal. lia.
      + destruct Emp as [-> ->]. injection Hc as <-. pose proof (reader_steps mp (_, _) (_, _) Hst (reads_enter w mp None)) as Es. cbn in Es. subst s'.
        rewrite !Z.add_0_r. split; [eauto|]. apply Forall_app. split; [done|]. apply Forall_singleton. cbn.
        cbn [mc_enter] in Hst. inversion Hst as [|? y ? H1 H2]; subst. unfold qstep in H1. cbn in H1. rewrite Hm1 in H1. cbn [mbind option_bind] in H1.
        assert (c_val <$> cell_at m1 None = Some (VInt64 (to_signed 64 (v0 + sum_inc mp h.*1.*2)))) as Hv2 by exact Hv1. rewrite Hv2 in H1. destruct y as [py sy]. cbn in H1. injection H1 as <- <-.
        apply ret_steps in H2. congruence.
  Qed.
End incs.

(** Increments are not lost. *)
Theorem inc_sum w mp m0 v0 css m : w_ok w -> w_dead w = false -> h_metrics (w_heap w) !! mp = Some m0 -> m_kind m0 = MCounter ->
  val_at m0 None = Some (VInt64 v0) -> live (w_files w) m0 -> (forall l c, l ∈ css -> c ∈ l -> is_Some (inc_amount mp c)) ->
  rtc (cstep (w_heap w)) (m_start (world_mem w) css) m -> m_done m ->
  (exists m', q_metrics (mc_mem m) !! mp = Some m' /\ val_at m' None = Some (VInt64 (to_signed 64 (v0 + sum_inc mp (concat css))))) /\
  forall i th c r, mc_thr m !! i = Some th -> (c, r) ∈ t_done th -> r.1 = ROk.
Proof.
  intros W D Hm Hk Hv L Hc HR HD.
  assert (forall c, c ∈ concat css -> is_Some (inc_amount mp c)) as Hc'.
  { intros c Hi. apply elem_of_list_In, in_concat in Hi as (l & H3 & H4). apply (Hc l c); by apply elem_of_list_In. }
  destruct (metrics_serial w [mp] (apart_one _ _ _) css m m) as (h & h' & Hs & Hl & Hp & K1 & K2); [|done|apply rtc_refl|done|].
  { intros l c H1 H2. destruct (Hc l c H1 H2) as [z Hz]. eapply inc_ok; eauto. }
  destruct (inc_serial w W D mp m0 v0 Hm Hk Hv L _ _ _ Hs eq_refl) as (IV & IO).
  { rewrite Forall_forall. intros [[i c] r] Hin. apply Hc'. rewrite <- Hp. apply elem_of_list_fmap. exists (i, c). split; [done|]. apply elem_of_list_fmap. by exists (i, c, r). }
  rewrite (sum_inc_perm _ _ _ Hp) in IV. split; [exact IV|]. intros i th c r Hi Hin. destruct (K2 _ _ Hi) as [_ E]. rewrite <- E in Hin. unfold calls_of in Hin.
  apply elem_of_list_omap in Hin as ([[i' c'] r'] & Hin & H). cbn in H. case_decide; [|done]. injection H as -> ->. rewrite Forall_forall in IO. by apply (IO _ Hin).
Qed.
