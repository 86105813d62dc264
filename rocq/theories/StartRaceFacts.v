(** Methods called while Start writes the values: what the slots hold afterwards. *)
From Verif Require Import Base BaseFacts Floats GoVal MetricType ByteWriter Hash Units Indom Metrics Registry Prog Client World
  Mmvdump View RegInv Update OpRuns WorldInv BufFacts Sync Locks Conc ConcRuns ConcFacts StartRace.
From stdpp Require Import relations.
Local Open Scope Z_scope.

(** ** Specification *)
(** The bytes at [off] are those of the value [v]; a string is followed by zeros up to
    the end of its 256 byte slot. *)
Definition shows (buf : list byte) (off : Z) (v : goval) : Prop :=
  match v with
  | VStr s => sub off 256 buf = s ++ zeros (256 - zlen s)
  | _ => exists d, val_bytes v = Some d /\ sub off (zlen d) buf = d
  end.
(** A value a slot of a metric of type [t] can hold. *)
Definition storable (t : Z) (v : goval) : Prop :=
  match v with VStr s => t = StringType /\ zlen s <= 256 | _ => is_Some (val_bytes v) end.
(** While a goroutine of Start is between reading the value and installing the closure,
    nobody holds the metric's lock for writing. *)
Definition quiet (r : race) : Prop :=
  forall j g v p i, rc_g r !! j = Some g -> s_st g = SRun v p -> mc_locks (rc_m r) (Some (s_key g).1) <> LkW i.

Lemma resolve_storable t v : IsCompatible t v = true -> match v with VStr s => zlen s <= 256 | _ => True end -> storable t (resolve t v).
Proof.
  intros Hc Hv. destruct v as [z|z|z|z|z|z|z|z|s|]; unfold IsCompatible in Hc; cbn in Hc; try done.
  9: { cbn. split; [lia|done]. }
  all: unfold resolve; cbn [resolveInt resolveFloat]; repeat case_match; simplify_eq; cbn [storable val_bytes]; by eexists.
Qed.
Lemma typed_storable t v : vtyped t v -> val_fits v -> storable t v.
Proof. destruct v; cbn; try done; intros; by eexists. Qed.

Lemma slot_ge t : 8 <= slot_w t.
Proof. unfold slot_w. destruct (_ =? _); [|lia]. unfold StringLength. lia. Qed.
Lemma bytes_short v d : match v with VStr _ => False | _ => True end -> val_bytes v = Some d -> zlen d <= 8.
Proof. destruct v; cbn [val_bytes]; intros F H; try done; apply (inj Some) in H as <-; rewrite zlen_le_enc; lia. Qed.

(** ** Bytes of one region *)
Definition same_reg (lo w : Z) (b b' : list byte) : Prop := length b = length b' /\ forall i : nat, lo <= Z.of_nat i < lo + w -> b !! i = b' !! i.
Lemma same_reg_refl lo w b : same_reg lo w b b.
Proof. by split. Qed.
Lemma same_reg_trans lo w a b c : same_reg lo w a b -> same_reg lo w b c -> same_reg lo w a c.
Proof. intros [A1 A2] [B1 B2]. split; [congruence|]. intros i Hi. rewrite A2, B2; auto. Qed.
Lemma store_length b s : length (do_store b s) = length b.
Proof. pose proof (do_store_length b s) as H. unfold zlen in H. lia. Qed.
Lemma same_reg_store lo w b b' s : same_reg lo w b b' -> same_reg lo w (do_store b s) (do_store b' s).
Proof.
  intros [H1 H2]. split; [by rewrite !store_length|]. intros i Hi. destruct (decide (s.1 = Z.of_nat i)) as [E|E].
  - destruct (decide (i < length b)%nat); [rewrite !do_store_same; auto; lia|]. rewrite !lookup_ge_None_2; auto; rewrite store_length; lia.
  - rewrite !do_store_other by done. auto.
Qed.
Lemma same_reg_stores lo w l : forall b b', same_reg lo w b b' -> same_reg lo w (do_stores b l) (do_stores b' l).
Proof. induction l as [|s l IH]; intros b b' H; [done|]. rewrite !do_stores_cons. by apply IH, same_reg_store. Qed.
Lemma same_reg_out lo w b s : s.1 < lo \/ lo + w <= s.1 -> same_reg lo w b (do_store b s).
Proof. intros H. split; [by rewrite store_length|]. intros i Hi. rewrite do_store_other; [done|lia]. Qed.

Lemma shows_reg t lo b b' v : 0 <= lo -> same_reg lo (slot_w t) b b' -> storable t v -> shows b lo v -> shows b' lo v.
Proof.
  intros H0 [_ H] Hs. destruct (match v with VStr _ => true | _ => false end) eqn:E.
  - destruct v as [| | | | | | | |s|]; try done. cbn in *. destruct Hs as [-> _]. unfold slot_w in H. cbn in H. intros <-. symmetry. apply sub_ext; [done|]. intros i Hi. apply H. done.
  - assert (shows b lo v <-> exists d, val_bytes v = Some d /\ sub lo (zlen d) b = d) as -> by (by destruct v).
    assert (shows b' lo v <-> exists d, val_bytes v = Some d /\ sub lo (zlen d) b' = d) as -> by (by destruct v).
    intros (d & Hd & He). exists d. split; [done|]. rewrite <- He at 2. symmetry. apply sub_ext; [done|]. intros i Hi. apply H.
    pose proof (bytes_short v d ltac:(by destruct v) Hd). pose proof (slot_ge t). lia.
Qed.
(** The bytes stored by the update closure. *)
Definition value_stores (off : Z) (v : goval) : list bstore :=
  match v with
  | VStr s => stores_of off (zeros StringLength) ++ stores_of off s
  | _ => match val_bytes v with Some d => stores_of off d | None => [] end
  end.
Lemma value_stores_show t off v b : 0 <= off -> off + slot_w t <= zlen b -> storable t v -> shows (do_stores b (value_stores off v)) off v.
Proof.
  intros H0 H1 Hs. destruct (match v with VStr _ => true | _ => false end) eqn:E.
  - destruct v as [| | | | | | | |s|]; try done. cbn in *. destruct Hs as [-> Hs]. unfold slot_w in H1. cbn in H1. unfold StringLength in *.
    rewrite do_stores_app. rewrite sub_write by (rewrite ?do_stores_length; done). rewrite sub_write by (rewrite ?zlen_zeros; done || lia).
    f_equal. rewrite (drop_ge (sub off 256 b)); [|unfold zeros, sub; rewrite take_length, replicate_length; lia]. rewrite app_nil_r.
    unfold zeros. rewrite drop_replicate. f_equal. unfold zlen in *. lia.
  - assert (shows (do_stores b (value_stores off v)) off v <-> exists d, val_bytes v = Some d /\ sub off (zlen d) (do_stores b (value_stores off v)) = d) as -> by (by destruct v).
    assert (value_stores off v = match val_bytes v with Some d => stores_of off d | None => [] end) as -> by (by destruct v).
    assert (is_Some (val_bytes v)) as [d Hd] by (by destruct v). exists d. split; [done|]. rewrite Hd.
    pose proof (bytes_short v d ltac:(by destruct v) Hd). pose proof (slot_ge t). rewrite sub_write by lia. rewrite drop_ge; [by rewrite app_nil_r|].
    pose proof (sub_length off (zlen d) b H0 (zlen_nonneg d) ltac:(lia)). unfold zlen in *. lia.
Qed.

(** ** One value *)
Section value.
  (** the value [(mp0, n0)], its slot of file [wr] at [off0]; the writers and the length
      of the file do not change *)
  Context (hp : heap) (wrs : gmap nat writer) (wr : nat) (x : writer) (Hwr : wrs !! wr = Some x) (Hlive : wr_live x = true).
  Context (L : Z) (mp0 : nat) (n0 : option gostring) (off0 : Z).
  Definition ty (mp : nat) : Z := from_option (fun m => md_type (m_desc m)) 0 (h_metrics hp !! mp).
  Let t0 := ty mp0.
  Let w0 := slot_w (ty mp0).
  Context (Hoff : 0 <= off0) (HL : off0 + w0 <= L).
  Let ino := wr_inode x.

  (** [n] bytes at [o] of writer [wr'] are none of the slot's. *)
  Definition clear (wr' : nat) (o n : Z) : Prop :=
    forall y, wrs !! wr' = Some y -> wr_live y = true -> wr_inode y = ino -> n <= 0 \/ o + n <= off0 \/ off0 + w0 <= o.
  Definition away (t : Z) (cl : closure) : Prop := clear (cl_writer cl) (cl_off cl) (slot_w t).

  (** Bodies that touch the value only by comparing it and storing it properly. *)
  Inductive Ap (mp : nat) : mprog -> Prop :=
  | A_ret o v : Ap mp (QRet o v)
  | A_val n k : (forall v, Ap mp (k v)) -> Ap mp (QVal n k)
  | A_upd n k : (mp, n) <> (mp0, n0) -> Ap mp (k None) -> (forall cl, away (ty mp) cl -> Ap mp (k (Some cl))) -> Ap mp (QUpd n k)
  | A_own k v K : mp = mp0 -> storable t0 v -> k None = QSetVal n0 v K -> (forall cl, k (Some cl) = q_update cl v (QSetVal n0 v K)) -> Ap mp K -> Ap mp (QUpd n0 k)
  | A_set n v k : (mp, n) <> (mp0, n0) -> storable (ty mp) v -> Ap mp k -> Ap mp (QSetVal n v k)
  | A_timer k : (forall mk, Ap mp (k mk)) -> Ap mp (QTimer k)
  | A_settimer mk k : Ap mp k -> Ap mp (QSetTimer mk k)
  | A_write wr' o d kok kerr : clear wr' o (zlen d) -> Ap mp kok -> Ap mp kerr -> Ap mp (QWrite wr' o d kok kerr).

  Lemma clear_le wr' o n n' : clear wr' o n -> n' <= n -> clear wr' o n'.
  Proof. intros H Hn y H1 H2 H3. destruct (H y H1 H2 H3) as [?|[?|?]]; lia. Qed.
  Lemma A_write_val mp cl v k : away (ty mp) cl -> storable (ty mp) v -> Ap mp k -> Ap mp (q_write_val cl v k).
  Proof.
    intros Ha Hv Hk. pose proof (slot_ge (ty mp)). destruct (match v with VStr _ => true | _ => false end) eqn:E.
    - destruct v as [| | | | | | | |s|]; try done. destruct Hv as [Ht Hs]. cbn. constructor; [|done|constructor]. eapply clear_le; [exact Ha|]. rewrite Ht. exact Hs.
    - assert (q_write_val cl v k = match val_bytes v with
         | Some d => QWrite (cl_writer cl) (cl_off cl) d k (QRet RErr None)
         | None => QWrite (cl_writer cl) (cl_off cl) [] (QRet RErr None) (QRet RErr None)
         end) as -> by (by destruct v).
      destruct (val_bytes v) as [d|] eqn:Ed; [apply A_write; [|done|constructor]|apply A_write; [|constructor|constructor]].
      + eapply clear_le; [exact Ha|]. pose proof (bytes_short v d ltac:(by destruct v) Ed). lia.
      + intros y _ _ _. left. done.
  Qed.
  Lemma A_update mp cl v k : away (ty mp) cl -> storable (ty mp) v -> Ap mp k -> Ap mp (q_update cl v k).
  Proof.
    intros Ha Hv Hk. pose proof (A_write_val mp cl v k Ha Hv Hk) as H. destruct v as [| | | | | | | |s|]; try exact H. destruct Hv as [Ht Hs]. unfold q_update.
    constructor; [|exact H|constructor]. eapply clear_le; [exact Ha|]. rewrite Ht. done.
  Qed.
  Lemma A_store mp n v k : storable (ty mp) v -> Ap mp k -> Ap mp (q_store n v k).
  Proof.
    intros Hv Hk. unfold q_store. constructor. intros [y|]; [|constructor]. destruct (go_eqb v y); [done|]. destruct (decide ((mp, n) = (mp0, n0))) as [[= -> ->]|Ne].
    - eapply A_own; eauto.
    - apply A_upd; [done|by apply A_set|]. intros cl Hcl. apply A_update; [done..|]. by apply A_set.
  Qed.
  Notation short v := (match v with VStr s => zlen s <= 256 | _ => True end).
  Lemma A_qset mp v k : short v -> Ap mp k -> Ap mp (q_set (ty mp) v k).
  Proof. intros. unfold q_set. destruct (IsCompatible _ v) eqn:E; [|constructor]. apply A_store; [|done]. by apply resolve_storable. Qed.
  Lemma A_qset_instance mp d v i k : short v -> Ap mp k -> Ap mp (q_set_instance (ty mp) d v i k).
  Proof. intros. unfold q_set_instance. destruct (IsCompatible _ v) eqn:E; [|constructor]. destruct (has_instance d i); [|constructor]. apply A_store; [|done]. by apply resolve_storable. Qed.
  Lemma A_val_instance mp d i k : (forall v, Ap mp (k v)) -> Ap mp (q_val_instance d i k).
  Proof. intros. unfold q_val_instance. destruct (has_instance d i); by constructor. Qed.
  Lemma A_int mp v k : (forall z, Ap mp (k z)) -> Ap mp (q_int v k).
  Proof. intros. unfold q_int. destruct (as_int64 v); [done|constructor]. Qed.
  Lemma A_f64 mp v k : (forall z, Ap mp (k z)) -> Ap mp (q_f64 v k).
  Proof. intros. unfold q_f64. destruct (as_f64 v); [done|constructor]. Qed.
  Lemma A_qtimer mp k : (forall b z, Ap mp (k b z)) -> Ap mp (q_timer k).
  Proof. intros. unfold q_timer. constructor. intros []; try constructor. auto. Qed.
  Lemma A_hist_upd mp d i z k : Ap mp k -> Ap mp (q_hist_upd (ty mp) d i z k).
  Proof. intros. unfold q_hist_upd. constructor. intros [c|]; [|constructor]. destruct (go_eqb _ _); [done|]. by apply A_qset_instance. Qed.

  Lemma A_prog mp m op p : h_metrics hp !! mp = Some m -> op_fits op -> prog_of hp m op = Some p -> Ap mp p.
  Proof.
    intros Hm Ho H. assert (md_type (m_desc m) = ty mp) as Et by (unfold ty; by rewrite Hm). unfold prog_of in H. rewrite Et in H.
    destruct (m_kind m) eqn:Ek; destruct op; cbn [op_fits] in Ho; try done; try (destruct (m_body m) as [cc|ip cells]; [done|]; destruct (h_indoms hp !! ip) as [d|]; [|done]); cbn in H; injection H as <-.
    all: repeat first
      [ apply A_ret
      | apply A_qset; [exact I || exact Ho|]
      | apply A_qset_instance; [exact I || exact Ho|]
      | apply A_val_instance; intros ?
      | apply A_int; intros ?
      | apply A_f64; intros ?
      | apply A_qtimer; intros ? ?
      | match goal with |- Ap _ (q_counter_set _ _) => unfold q_counter_set | |- Ap _ (q_counter_inc _ _) => unfold q_counter_inc | |- Ap _ (q_gauge_inc _ _) => unfold q_gauge_inc
        | |- Ap _ (q_timer_start _) => unfold q_timer_start | |- Ap _ (q_timer_reset _) => unfold q_timer_reset | |- Ap _ (q_timer_stop _ _ _) => unfold q_timer_stop
        | |- Ap _ (q_cv_set _ _ _ _) => unfold q_cv_set | |- Ap _ (q_cv_inc _ _ _ _) => unfold q_cv_inc | |- Ap _ (q_gv_inc _ _ _ _) => unfold q_gv_inc | |- Ap _ (q_hist_record _ _ _) => unfold q_hist_record
        | |- Ap _ q_ok => constructor
        | |- Ap _ (if ?b then _ else _) => destruct b | |- Ap _ (match ?r with Some _ => _ | None => _ end) => destruct r
        | |- Ap _ (QVal _ _) => constructor; intros ?
        | |- Ap _ (QSetTimer _ _) => constructor
        | |- Ap _ (q_hist_upd _ _ _ _ _) => apply A_hist_upd end ].
  Qed.

  Definition call_fine (c : mcall) : Prop :=
    match c with
    | MUpdate mp op _ => exists m p, h_metrics hp !! mp = Some m /\ prog_of hp m op = Some p /\ op_fits op
    | MVal mp n => exists m, h_metrics hp !! mp = Some m
    end.
  Inductive reads : mprog -> Prop :=
  | rs_ret o v : reads (QRet o v)
  | rs_val n k : (forall v, reads (k v)) -> reads (QVal n k).
  Lemma enter_A c mp : call_fine c -> mc_obj c = Some mp -> if mc_rd c then reads (mc_enter hp c) else Ap mp (mc_enter hp c).
  Proof.
    destruct c as [mp' op mst|mp' n]; cbn [call_fine mc_obj mc_rd mc_enter]; intros H [= ->].
    - destruct H as (m & p & Hm & Hp & Hf). rewrite Hm. cbn. rewrite Hp. cbn. by eapply A_prog.
    - destruct H as (m & Hm). rewrite Hm. cbn [fmap option_fmap option_map]. assert (forall n, reads (QVal n (fun v => match v with Some _ => QRet ROk v | None => QRet RPanic None end))) as F.
      { intros n1. constructor. intros [v|]; constructor. }
      destruct n as [i|]; [|apply F]. destruct (m_body m) as [c|ip cells]; [apply F|]. destruct (h_indoms hp !! ip) as [d|]; [|constructor]. unfold q_val_instance.
      destruct (has_instance d i); [apply F|constructor].
  Qed.

  (** ** Memory *)
  Definition buf_of (s : mem) : list byte := default [] (f_inodes (q_files s) !! ino).
  Definition cellk (s : mem) : option cell := match q_metrics s !! mp0 with Some m => cell_at m n0 | None => None end.
  Record MemI (s : mem) : Prop := {
    mi_wr : f_writers (q_files s) = wrs;
    mi_len : exists buf, f_inodes (q_files s) !! ino = Some buf /\ zlen buf = L;
    mi_away : forall mp m n c cl, q_metrics s !! mp = Some m -> cell_at m n = Some c -> c_upd c = Some cl -> (mp, n) <> (mp0, n0) -> away (ty mp) cl;
    mi_vals : forall mp m n c, q_metrics s !! mp = Some m -> cell_at m n = Some c -> storable (ty mp) (c_val c) }.

  Lemma mem_put s mp m n c c' : MemI s -> q_metrics s !! mp = Some m -> cell_at m n = Some c -> storable (ty mp) (c_val c') ->
    (forall cl, c_upd c' = Some cl -> (mp, n) <> (mp0, n0) -> away (ty mp) cl) -> MemI (upd_metric s mp (put_cell m n c')).
  Proof.
    intros [I1 I2 I3 I4] Hm Hc Hs Ha. split; [done|done|..]; cbn.
    - intros mp1 m1 n1 c1 cl1. rewrite lookup_insert_Some. intros [[<- <-]|[Ne H1]] H2; [|by eapply I3]. rewrite (cell_at_put _ _ _ _ _ Hc) in H2.
      case_decide; [|by eapply I3]. subst. injection H2 as <-. auto.
    - intros mp1 m1 n1 c1. rewrite lookup_insert_Some. intros [[<- <-]|[Ne H1]] H2; [|by eapply I4]. rewrite (cell_at_put _ _ _ _ _ Hc) in H2.
      case_decide; [|by eapply I4]. injection H2 as <-. auto.
  Qed.
  Lemma cellk_put s mp m n c c' : q_metrics s !! mp = Some m -> cell_at m n = Some c ->
    cellk (upd_metric s mp (put_cell m n c')) = if decide ((mp, n) = (mp0, n0)) then Some c' else cellk s.
  Proof.
    intros Hm Hc. unfold cellk. cbn. destruct (decide (mp = mp0)) as [->|Ne].
    - rewrite lookup_insert, Hm, (cell_at_put _ _ _ _ _ Hc). repeat case_decide; try done; congruence.
    - rewrite lookup_insert_ne by done. rewrite decide_False by congruence. done.
  Qed.
  Lemma mem_kind s mp m k : MemI s -> q_metrics s !! mp = Some m -> MemI (upd_metric s mp (with_kind m k)) /\ cellk (upd_metric s mp (with_kind m k)) = cellk s.
  Proof.
    intros [I1 I2 I3 I4] Hm. assert (forall n, cell_at (with_kind m k) n = cell_at m n) as E by done. split; [split; [done|done|..]; cbn|].
    - intros mp1 m1 n1 c1 cl1. rewrite lookup_insert_Some. intros [[<- <-]|[Ne H1]] H2; [|by eapply I3]. rewrite E in H2. by eapply I3.
    - intros mp1 m1 n1 c1. rewrite lookup_insert_Some. intros [[<- <-]|[Ne H1]] H2; [|by eapply I4]. rewrite E in H2. by eapply I4.
    - unfold cellk. cbn. destruct (decide (mp = mp0)) as [->|Ne]; [by rewrite lookup_insert, Hm|by rewrite lookup_insert_ne].
  Qed.
  Definition with_inode (s : mem) (i : nat) (b : list byte) : mem := mkMem (q_metrics s) (mkFiles (f_writers (q_files s)) (<[i := b]> (f_inodes (q_files s)))).
  Lemma mem_store s i b st : MemI s -> f_inodes (q_files s) !! i = Some b -> MemI (with_inode s i (do_store b st)).
  Proof.
    intros [I1 (b0 & I2 & I2') I3 I4] Hb. split; cbn; [done| |done|done]. destruct (decide (i = ino)) as [->|Ne].
    - rewrite lookup_insert. eexists. split; [done|]. rewrite do_store_length. congruence.
    - rewrite lookup_insert_ne by done. eauto.
  Qed.
  Lemma buf_store s i b st : f_inodes (q_files s) !! i = Some b -> (i = ino -> st.1 < off0 \/ off0 + w0 <= st.1) ->
    same_reg off0 w0 (buf_of s) (buf_of (with_inode s i (do_store b st))).
  Proof.
    intros Hb Ho. unfold buf_of. cbn. destruct (decide (i = ino)) as [->|Ne].
    - rewrite lookup_insert, Hb. by apply same_reg_out, Ho.
    - rewrite lookup_insert_ne by done. apply same_reg_refl.
  Qed.
  Lemma buf_own s b st : f_inodes (q_files s) !! ino = Some b -> buf_of s = b /\ buf_of (with_inode s ino (do_store b st)) = do_store b st.
  Proof. intros Hb. unfold buf_of. cbn. by rewrite lookup_insert, Hb. Qed.

  (** ** Steps of methods *)
  Lemma A_step mp p s p' s' : MemI s -> is_Some (cellk s) -> Ap mp p -> qnext mp p s = Some (p', s') ->
    MemI s' /\ same_reg off0 w0 (buf_of s) (buf_of s') /\ cellk s' = cellk s /\
    (Ap mp p' \/ mp = mp0 /\ s' = s /\ exists c v K, cellk s = Some c /\ storable t0 v /\ Ap mp0 K /\
       match c_upd c with None => p' = QSetVal n0 v K | Some cl => p' = q_update cl v (QSetVal n0 v K) end).
  Proof.
    intros Hi Hk HA H. inversion HA as [o v|n k Ha|n k Ne Ha Hb|k v K -> Hv E1 E2 HK|n v k Ne Hs Ha|k Ha|mk k Ha|wr' o d kok kerr Hc Ha Hb]; subst; cbn [qnext] in H.
    - done.
    - destruct (q_metrics s !! mp) as [m|] eqn:Hm; [|done]. injection H as <- <-. split_and!; auto using same_reg_refl.
    - destruct (q_metrics s !! mp) as [m|] eqn:Hm; [|done]. cbn in H. injection H as <- <-. split_and!; auto using same_reg_refl. left.
      destruct (cell_at m n) as [c|] eqn:Ec; [|done]. cbn. destruct (c_upd c) as [cl|] eqn:Eu; [|done]. apply Hb. by eapply mi_away.
    - destruct (q_metrics s !! mp0) as [m|] eqn:Hm; [|done]. cbn in H. injection H as <- <-. split_and!; auto using same_reg_refl. right. split; [done|]. split; [done|].
      destruct Hk as [c Hk]. exists c, v, K. split_and!; auto. unfold cellk in Hk. rewrite Hm in Hk. rewrite Hk. cbn. destruct (c_upd c) as [cl|]; [apply E2|exact E1].
    - destruct (q_metrics s !! mp) as [m|] eqn:Hm; [|done]. cbn in H. destruct (cell_at m n) as [c|] eqn:Ec; [|done]. cbn in H. injection H as <- <-. split_and!.
      + eapply mem_put; eauto. intros cl Hcl _. by eapply mi_away.
      + apply same_reg_refl.
      + rewrite (cellk_put _ _ _ _ _ _ Hm Ec). by rewrite decide_False.
      + by left.
    - destruct (q_metrics s !! mp) as [m|] eqn:Hm; [|done]. cbn in H. injection H as <- <-. split_and!; auto using same_reg_refl.
    - destruct (q_metrics s !! mp) as [m|] eqn:Hm; [|done]. cbn in H. injection H as <- <-. destruct (mem_kind s mp m mk Hi Hm) as [M1 M2]. split_and!; auto. apply same_reg_refl.
    - destruct (f_writers (q_files s) !! wr') as [y|] eqn:Ey; [|done]. cbn in H. destruct (wr_live y) eqn:El; [|done]. destruct (f_inodes (q_files s) !! wr_inode y) as [b|] eqn:Eb; [|done]. cbn in H.
      destruct (zlen b <? o + zlen d) eqn:Ez; [injection H as <- <-; split_and!; auto using same_reg_refl|]. destruct d as [|b0 d]; [injection H as <- <-; split_and!; auto using same_reg_refl|].
      destruct (o <? 0) eqn:Eo; injection H as <- <-; [split_and!; auto using same_reg_refl; left; constructor|].
      rewrite (mi_wr _ Hi) in Ey. rewrite zlen_cons in Hc. pose proof (zlen_nonneg d). split_and!.
      + by apply mem_store.
      + apply buf_store; [done|]. intros E. destruct (Hc y Ey El E) as [?|[?|?]]; cbn; lia.
      + done.
      + left. constructor; [|done|done]. intros y' Hy Hl' Hi'. destruct (Hc y' Hy Hl' Hi') as [?|[?|?]]; lia.
  Qed.

  (** Writing the slot: the stores [l] are left, then [E]. *)
  Inductive wseq (E : mprog) : mprog -> list bstore -> Prop :=
  | ws_end : wseq E E []
  | ws_nil o kok kerr l : o <= L -> wseq E kok l -> wseq E (QWrite wr o [] kok kerr) l
  | ws_cons o b d kok kerr l : 0 <= o -> o + 1 + zlen d <= L -> wseq E (QWrite wr (o + 1) d kok kerr) l -> wseq E (QWrite wr o (b :: d) kok kerr) ((o, b) :: l).
  Lemma wseq_write E k kerr l d : forall o, 0 <= o -> o + zlen d <= L -> wseq E k l -> wseq E (QWrite wr o d k kerr) (stores_of o d ++ l).
  Proof.
    induction d as [|b d IH]; intros o H0 H1 H; cbn.
    - constructor; [|done]. change (zlen []) with 0 in H1. lia.
    - rewrite zlen_cons in H1. constructor; [done|lia|]. apply IH; [lia|lia|done].
  Qed.
  Lemma wseq_update v E : storable t0 v -> wseq E (q_update (mkClosure wr off0) v E) (value_stores off0 v).
  Proof.
    intros Hv. pose proof (slot_ge (ty mp0)) as Hg. destruct (match v with VStr _ => true | _ => false end) eqn:E1.
    - destruct v as [| | | | | | | |s|]; try done. destruct Hv as [Ht Hs]. unfold t0 in Ht. unfold w0, slot_w in HL. rewrite Ht in HL. cbn in HL. unfold StringLength in HL. cbn.
      apply wseq_write; [done|rewrite zlen_zeros by (unfold StringLength; lia); unfold StringLength; lia|].
      rewrite <- (app_nil_r (stores_of off0 s)). apply wseq_write; [done|lia|constructor].
    - assert (q_update (mkClosure wr off0) v E = match val_bytes v with
         | Some d => QWrite wr off0 d E (QRet RErr None) | None => QWrite wr off0 [] (QRet RErr None) (QRet RErr None) end) as -> by (by destruct v).
      assert (value_stores off0 v = match val_bytes v with Some d => stores_of off0 d | None => [] end) as -> by (by destruct v).
      assert (is_Some (val_bytes v)) as [d Hd] by (by destruct v). rewrite Hd. rewrite <- (app_nil_r (stores_of off0 d)).
      pose proof (bytes_short v d ltac:(by destruct v) Hd). apply wseq_write; [done|unfold w0 in HL; lia|constructor].
  Qed.
  Lemma N_step v K s p' s' c : MemI s -> cellk s = Some c -> storable t0 v -> qnext mp0 (QSetVal n0 v K) s = Some (p', s') ->
    MemI s' /\ p' = K /\ cellk s' = Some (mkCell v (c_upd c)) /\ buf_of s' = buf_of s.
  Proof.
    intros Hi Hk Hv H. cbn [qnext] in H. unfold cellk in Hk. destruct (q_metrics s !! mp0) as [m|] eqn:Hm; [|done]. cbn in H. rewrite Hk in H. cbn in H. injection H as <- <-. split_and!; auto.
    - eapply mem_put; eauto. intros cl _ F. done.
    - rewrite (cellk_put _ _ _ _ _ _ Hm Hk). by rewrite decide_True.
  Qed.
  Lemma W_step v K p l s p' s' c : MemI s -> cellk s = Some c -> storable t0 v -> wseq (QSetVal n0 v K) p l -> qnext mp0 p s = Some (p', s') ->
    MemI s' /\
    (l = [] /\ p = QSetVal n0 v K /\ p' = K /\ cellk s' = Some (mkCell v (c_upd c)) /\ buf_of s' = buf_of s \/
     cellk s' = cellk s /\ exists l', wseq (QSetVal n0 v K) p' l' /\ do_stores (buf_of s') l' = do_stores (buf_of s) l).
  Proof.
    intros Hi Hk Hv HW H. inversion HW as [|o kok kerr l0 Ho Hn|o b d kok kerr l0 H0 H1 Hn]; subst; cbn [qnext] in H.
    - unfold cellk in Hk. destruct (q_metrics s !! mp0) as [m|] eqn:Hm; [|done]. cbn in H. rewrite Hk in H. cbn in H. injection H as <- <-. split.
      + eapply mem_put; eauto. intros cl _ F. done.
      + left. split_and!; auto. rewrite (cellk_put _ _ _ _ _ _ Hm Hk). by rewrite decide_True.
    - rewrite (mi_wr _ Hi), Hwr in H. cbn in H. rewrite Hlive in H. destruct (mi_len _ Hi) as (b0 & Hb & HL0). unfold ino in Hb. rewrite Hb in H. cbn in H.
      change (zlen []) with 0 in H. destruct (zlen b0 <? o + 0) eqn:Ez; [lia|]. injection H as <- <-. split; [done|]. right. split; [done|]. eauto.
    - rewrite (mi_wr _ Hi), Hwr in H. cbn in H. rewrite Hlive in H. destruct (mi_len _ Hi) as (b0 & Hb & HL0). unfold ino in Hb. rewrite Hb in H. cbn in H.
      rewrite zlen_cons in H. destruct (zlen b0 <? o + (1 + zlen d)) eqn:Ez; [lia|]. destruct (o <? 0) eqn:Eo; [lia|]. injection H as <- <-. split.
      + rewrite <- (mi_wr _ Hi). by apply mem_store.
      + right. split; [done|]. exists l0. split; [done|]. rewrite do_stores_cons. destruct (buf_own s b0 (o, b) Hb) as [-> E2]. unfold with_inode in E2. rewrite (mi_wr _ Hi) in E2. unfold ino in E2. by rewrite E2.
  Qed.

  (** ** Steps of Start's goroutine for the value *)
  Inductive pseq : prog -> list bstore -> Prop :=
  | pq_end : pseq (PSetUpd (mp0, n0) off0 PRet) []
  | pq_nil m o k l : o <= L -> pseq k l -> pseq (PWrite m o [] k) l
  | pq_cons m o b d k l : 0 <= o -> o + 1 + zlen d <= L -> pseq (PWrite m (o + 1) d k) l -> pseq (PWrite m o (b :: d) k) ((o, b) :: l).
  Lemma pseq_write k m l d : forall o, 0 <= o -> o + zlen d <= L -> pseq k l -> pseq (PWrite m o d k) (stores_of o d ++ l).
  Proof.
    induction d as [|b d IH]; intros o H0 H1 H; cbn.
    - constructor; [|done]. change (zlen []) with 0 in H1. lia.
    - rewrite zlen_cons in H1. constructor; [done|lia|]. apply IH; [lia|lia|done].
  Qed.
  Lemma pseq_update v : storable t0 v -> pseq (update_prog off0 v (PSetUpd (mp0, n0) off0 PRet)) (value_stores off0 v).
  Proof.
    intros Hv. pose proof (slot_ge (ty mp0)) as Hg. destruct (match v with VStr _ => true | _ => false end) eqn:E1.
    - destruct v as [| | | | | | | |s|]; try done. destruct Hv as [Ht Hs]. unfold t0 in Ht. unfold w0, slot_w in HL. rewrite Ht in HL. cbn in HL. unfold StringLength in HL. cbn.
      apply pseq_write; [done|rewrite zlen_zeros by (unfold StringLength; lia); unfold StringLength; lia|].
      rewrite <- (app_nil_r (stores_of off0 s)). apply pseq_write; [done|lia|constructor].
    - assert (update_prog off0 v (PSetUpd (mp0, n0) off0 PRet) = match val_bytes v with
         | Some d => PWrite false off0 d (PSetUpd (mp0, n0) off0 PRet) | None => PSetUpd (mp0, n0) off0 PRet end) as -> by (by destruct v).
      assert (value_stores off0 v = match val_bytes v with Some d => stores_of off0 d | None => [] end) as -> by (by destruct v).
      assert (is_Some (val_bytes v)) as [d Hd] by (by destruct v). rewrite Hd. rewrite <- (app_nil_r (stores_of off0 d)).
      pose proof (bytes_short v d ltac:(by destruct v) Hd). apply pseq_write; [done|unfold w0 in HL; lia|constructor].
  Qed.
  Lemma S_step g v p l s g' s' c : MemI s -> cellk s = Some c -> s_st g = SRun v p -> pseq p l -> snext wr g s = Some (g', s') ->
    MemI s' /\
    (l = [] /\ g' = to_state g (SFin v) /\ cellk s' = Some (mkCell (c_val c) (Some (mkClosure wr off0))) /\ buf_of s' = buf_of s \/
     cellk s' = cellk s /\ exists p' l', g' = to_state g (SRun v p') /\ pseq p' l' /\ do_stores (buf_of s') l' = do_stores (buf_of s) l).
  Proof.
    intros Hi Hk Hg HP H. unfold snext in H. rewrite Hg in H. inversion HP as [|m o k l0 Ho Hn|m o b d k l0 H0 H1 Hn]; subst.
    - unfold install in H. unfold cellk in Hk. cbn [fst snd] in H. destruct (q_metrics s !! mp0) as [m|] eqn:Hm; [|done]. cbn in H. rewrite Hk in H. cbn in H. injection H as <- <-. split.
      + eapply mem_put; eauto; [cbn; by eapply mi_vals|]. intros cl _ F. done.
      + left. split_and!; auto. rewrite (cellk_put _ _ _ _ _ _ Hm Hk). by rewrite decide_True.
    - rewrite (mi_wr _ Hi), Hwr in H. cbn in H. destruct (mi_len _ Hi) as (b0 & Hb & HL0). unfold ino in Hb. rewrite Hb in H. cbn in H. unfold write_step in H.
      change (zlen []) with 0 in H. destruct (zlen b0 <? o + 0) eqn:Ez; [lia|]. injection H as <- <-. split; [done|]. right. split; [done|]. eauto.
    - rewrite (mi_wr _ Hi), Hwr in H. cbn in H. destruct (mi_len _ Hi) as (b0 & Hb & HL0). unfold ino in Hb. rewrite Hb in H. cbn in H. unfold write_step in H.
      rewrite zlen_cons in H. destruct (zlen b0 <? o + (1 + zlen d)) eqn:Ez; [lia|]. destruct (o <? 0) eqn:Eo; [lia|]. injection H as <- <-. split.
      + rewrite <- (mi_wr _ Hi). by apply mem_store.
      + right. split; [done|]. exists (PWrite m (o + 1) d k), l0. split; [done|]. split; [done|]. rewrite do_stores_cons.
        destruct (buf_own s b0 (o, b) Hb) as [-> E2]. unfold with_inode in E2. rewrite (mi_wr _ Hi) in E2. unfold ino in E2. by rewrite E2.
  Qed.

  (** The other goroutines of Start. *)
  Inductive oseq (key : vkey) (o0 : Z) : prog -> Prop :=
  | oq_end : oseq key o0 (PSetUpd key o0 PRet)
  | oq_write m o d k : clear wr o (zlen d) -> oseq key o0 k -> oseq key o0 (PWrite m o d k).
  Definition other_ok (g : sgo) : Prop :=
    s_key g <> (mp0, n0) /\ away (ty (s_key g).1) (mkClosure wr (s_off g)) /\
    match s_st g with SRun v p => oseq (s_key g) (s_off g) p | _ => True end.
  Lemma oseq_update key o v : away (ty key.1) (mkClosure wr o) -> storable (ty key.1) v -> oseq key o (update_prog o v (PSetUpd key o PRet)).
  Proof.
    intros Ha Hv. pose proof (slot_ge (ty key.1)). unfold away in Ha. cbn in Ha. destruct (match v with VStr _ => true | _ => false end) eqn:E.
    - destruct v as [| | | | | | | |s|]; try done. destruct Hv as [Ht Hs]. rewrite Ht in Ha. cbn. apply oq_write; [by eapply clear_le|]. apply oq_write; [by eapply clear_le|]. apply oq_end.
    - assert (update_prog o v (PSetUpd key o PRet) = match val_bytes v with Some d => PWrite false o d (PSetUpd key o PRet) | None => PSetUpd key o PRet end) as -> by (by destruct v).
      destruct (val_bytes v) as [d|] eqn:Ed; [|constructor]. constructor; [|constructor]. eapply clear_le; [exact Ha|]. pose proof (bytes_short v d ltac:(by destruct v) Ed). lia.
  Qed.
  Lemma O_step g s g' s' : MemI s -> other_ok g -> snext wr g s = Some (g', s') ->
    MemI s' /\ same_reg off0 w0 (buf_of s) (buf_of s') /\ cellk s' = cellk s /\ other_ok g' /\ s_key g' = s_key g.
  Proof.
    intros Hi (O1 & O2 & O3) H. unfold snext in H. destruct (s_st g) as [|v p|v] eqn:Eg; [| |done].
    - destruct (q_metrics s !! (s_key g).1) as [m|] eqn:Hm; [|done]. cbn in H. destruct (cell_at m (s_key g).2) as [c|] eqn:Hc; [|done]. cbn in H. injection H as <- <-.
      split_and!; auto using same_reg_refl. split; [done|]. split; [done|]. cbn. apply oseq_update; [done|]. by eapply mi_vals.
    - inversion O3 as [|m o d k Hc Hk]; subst.
      + unfold install in H. destruct (q_metrics s !! (s_key g).1) as [m|] eqn:Hm; [|done]. cbn in H. destruct (cell_at m (s_key g).2) as [c|] eqn:Hc; [|done]. cbn in H. injection H as <- <-.
        split_and!; auto using same_reg_refl; [| |done].
        * eapply mem_put; eauto; [cbn; by eapply mi_vals|]. cbn. intros cl [= <-] _. done.
        * rewrite (cellk_put _ _ _ _ _ _ Hm Hc). rewrite decide_False; [done|]. by destruct (s_key g).
      + rewrite (mi_wr _ Hi), Hwr in H. cbn in H. destruct (f_inodes (q_files s) !! wr_inode x) as [b|] eqn:Eb; [|done]. cbn in H. unfold write_step in H.
        destruct (zlen b <? o + zlen d) eqn:Ez. { destruct m; [done|]. injection H as <- <-. split_and!; auto using same_reg_refl. done. }
        destruct d as [|b0 d]; [injection H as <- <-; split_and!; auto using same_reg_refl; done|]. destruct (o <? 0) eqn:Eo; [done|]. injection H as <- <-.
        rewrite <- (mi_wr _ Hi). rewrite zlen_cons in Hc. pose proof (zlen_nonneg d). split_and!; auto.
        * by apply mem_store.
        * apply buf_store; [done|]. intros _. destruct (Hc x Hwr Hlive eq_refl) as [?|[?|?]]; cbn; lia.
        * split; [done|]. split; [done|]. cbn. constructor; [|done]. intros y Hy Hl' Hi'. destruct (Hc y Hy Hl' Hi') as [?|[?|?]]; lia.
  Qed.

  (** ** Invariant *)
  Context (j0 : nat) (q : bool).
  Definition own (st : sstate) (c : cell) (b : list byte) : Prop :=
    match st with
    | SIdle => c_upd c = None
    | SRun v p => c_upd c = None /\ storable t0 v /\ (q = true -> c_val c = v) /\ exists l, pseq p l /\ shows (do_stores b l) off0 v
    | SFin v => c_upd c = Some (mkClosure wr off0) /\ storable t0 v
    end.
  Definition settled (st : sstate) (c : cell) (b : list byte) : Prop :=
    match st with SFin v => shows b off0 (c_val c) \/ q = false /\ shows b off0 v | _ => True end.
  (** A body about to store the value: without having written it (the closure was not
      there when it looked), or while writing it. *)
  Definition special (st : sstate) (b : list byte) (p : mprog) : Prop :=
    exists v K, storable t0 v /\ Ap mp0 K /\
      (p = QSetVal n0 v K /\ match st with SIdle => True | SRun _ _ => q = false | SFin u => q = false /\ shows b off0 u end \/
       exists u l, st = SFin u /\ wseq (QSetVal n0 v K) p l /\ shows (do_stores b l) off0 v).
  Notation thread := (thr mcall mprog (outcome * option goval)).
  Definition spc (sp : option nat) (ts : list thread) (st : sstate) (c : cell) (b : list byte) : Prop :=
    match sp with
    | None => settled st c b
    | Some i => exists d c0 p l, ts !! i = Some (mkThr d (Some (c0, p)) l) /\ mc_obj c0 = Some mp0 /\ mc_rd c0 = false /\ special st b p
    end.
  Record RI (r : race) (sp : option nat) : Prop := {
    ri_mem : MemI (mc_mem (rc_m r));
    ri_todo : forall i th c, mc_thr (rc_m r) !! i = Some th -> c ∈ t_todo th -> call_fine c;
    ri_others : forall j g, rc_g r !! j = Some g -> j <> j0 -> other_ok g;
    ri_thr : forall i d c p l mp, mc_thr (rc_m r) !! i = Some (mkThr d (Some (c, p)) l) -> mc_obj c = Some mp ->
      mc_rd c = true /\ reads p \/ mc_rd c = false /\ mc_locks (rc_m r) (Some mp) = LkW i /\ (Ap mp p \/ sp = Some i);
    ri_own : exists g c, rc_g r !! j0 = Some g /\ s_key g = (mp0, n0) /\ s_off g = off0 /\ cellk (mc_mem (rc_m r)) = Some c /\
      own (s_st g) c (buf_of (mc_mem (rc_m r))) /\ spc sp (mc_thr (rc_m r)) (s_st g) c (buf_of (mc_mem (rc_m r))) }.

  Lemma own_reg st c b b' : same_reg off0 w0 b b' -> own st c b -> own st c b'.
  Proof.
    intros Hr. destruct st as [|v p|v]; cbn; auto. intros (H1 & H2 & H3 & l & H4 & H5). split_and!; auto. exists l. split; [done|]. eapply shows_reg; eauto. by apply same_reg_stores.
  Qed.
  Lemma spc_reg sp ts st c b b' : same_reg off0 w0 b b' -> storable t0 (c_val c) -> own st c b -> spc sp ts st c b -> spc sp ts st c b'.
  Proof.
    intros Hr Hs Ho. destruct sp as [i|]; cbn.
    - intros (d & c0 & p & l & H1 & H2 & H3 & v & K & H4 & H5 & H6). exists d, c0, p, l. split_and!; auto. exists v, K. split_and!; auto. destruct H6 as [[E H6]|(u & l' & E & H7 & H8)].
      + left. split; [done|]. destruct st as [|v0 p0|v0]; auto. destruct H6 as [H6 H7]. split; [done|]. destruct Ho as [_ Ho]. by eapply shows_reg.
      + right. exists u, l'. split_and!; auto. eapply shows_reg; eauto. by apply same_reg_stores.
    - destruct st as [|v0 p0|v0]; cbn; auto. destruct Ho as [_ Ho]. intros [H|[H1 H]]; [left|right; split; [done|]]; by eapply shows_reg.
  Qed.
  Lemma spc_ts sp ts i th st c b : sp <> Some i -> spc sp ts st c b -> spc sp (<[i := th]> ts) st c b.
  Proof. intros Ne. destruct sp as [i'|]; cbn; [|done]. intros (d & c0 & p & l & H1 & H2). exists d, c0, p, l. split; [|done]. rewrite list_lookup_insert_ne by congruence. done. Qed.

  (** Steps of other parts of the program. *)
  Lemma frame_own s s' c : same_reg off0 w0 (buf_of s) (buf_of s') -> MemI s -> cellk s = Some c -> forall sp ts st, own st c (buf_of s) -> spc sp ts st c (buf_of s) ->
    own st c (buf_of s') /\ spc sp ts st c (buf_of s').
  Proof.
    intros Hr Hi Hc sp ts st H1 H2. split; [by eapply own_reg|]. eapply spc_reg; eauto. unfold cellk in Hc. destruct (q_metrics s !! mp0) as [m|] eqn:Hm; [|done]. by eapply mi_vals.
  Qed.

  Lemma lock_same f (o : option nat) l : set_lock f o l o = l.
  Proof. unfold set_lock. by rewrite decide_True. Qed.
  Lemma lock_other f (o o' : option nat) l : o' <> o -> set_lock f o l o' = f o'.
  Proof. intros. unfold set_lock. by rewrite decide_False. Qed.
  Lemma obj_some c : exists mp, mc_obj c = Some mp.
  Proof. destruct c; eauto. Qed.

  Lemma call_step m m' gs sp : (q = true -> quiet (mkRace m gs)) -> RI (mkRace m gs) sp -> cstep hp m m' -> exists sp', RI (mkRace m' gs) sp'.
  Proof.
    intros Hq [R1 R2 R3 R4 R5] H. cbn [rc_m rc_g] in *. destruct R5 as (g & c0 & G1 & G2 & G3 & G4 & G5 & G6).
    inversion H as [s f ts i d c l Hi Hrd Hf|s f ts i d c l X Hi Hrd Hf|s f ts i d c p l p' s' Hi Hst|s f ts i d c p l rr Hi Hret Hrd|s f ts i d c p l rr X Hi Hret Hrd Hf]; subst; cbn [mc_mem mc_locks mc_thr] in *.
    - destruct (obj_some c) as [mp Hmp]. pose proof (enter_A c mp (R2 _ _ c Hi ltac:(left)) Hmp) as HE. rewrite Hrd in HE.
      exists sp. split; cbn [rc_m rc_g mc_mem mc_locks mc_thr]; auto.
      + intros i1 th c1. rewrite list_lookup_insert_Some. intros [(<- & <- & _)|[Ne H1]] H2; [|by eapply R2]. cbn in H2. eapply R2; [exact Hi|]. by right.
      + intros i1 d1 c1 p1 l1 mp1. rewrite list_lookup_insert_Some. intros [(<- & [= <- <- <- <-] & _)|[Ne H1]] H2.
        * right. rewrite Hmp in H2 |- *. injection H2 as <-. rewrite lock_same. auto.
        * destruct (R4 _ _ _ _ _ _ H1 H2) as [?|(H3 & H4 & H5)]; [by left|]. right. split; [done|]. split; [|done]. rewrite lock_other; [done|]. intros E. rewrite <- E in Hf. congruence.
      + exists g, c0. split_and!; auto. apply spc_ts; [|done]. intros ->. destruct G6 as (d1 & c1 & p1 & l1 & G6 & _). congruence.
    - destruct (obj_some c) as [mp Hmp]. pose proof (enter_A c mp (R2 _ _ c Hi ltac:(left)) Hmp) as HE. rewrite Hrd in HE.
      exists sp. split; cbn [rc_m rc_g mc_mem mc_locks mc_thr]; auto.
      + intros i1 th c1. rewrite list_lookup_insert_Some. intros [(<- & <- & _)|[Ne H1]] H2; [|by eapply R2]. cbn in H2. eapply R2; [exact Hi|]. by right.
      + intros i1 d1 c1 p1 l1 mp1. rewrite list_lookup_insert_Some. intros [(<- & [= <- <- <- <-] & _)|[Ne H1]] H2; [by left|].
        destruct (R4 _ _ _ _ _ _ H1 H2) as [?|(H3 & H4 & H5)]; [by left|]. right. split; [done|]. split; [|done]. rewrite lock_other; [done|]. intros E. rewrite <- E in Hf. congruence.
      + exists g, c0. split_and!; auto. apply spc_ts; [|done]. intros ->. destruct G6 as (d1 & c1 & p1 & l1 & G6 & _). congruence.
    - destruct (obj_some c) as [mp Hmp]. rewrite Hmp in Hst. unfold qstep in Hst.
      assert (forall sp' : option nat, MemI s' -> (mc_rd c = true /\ reads p' \/ mc_rd c = false /\ f (Some mp) = LkW i /\ (Ap mp p' \/ sp' = Some i)) ->
        (sp' = sp \/ sp = None \/ sp = Some i) ->
        (exists c1, cellk s' = Some c1 /\ own (s_st g) c1 (buf_of s') /\ spc sp' (<[i := mkThr d (Some (c, p')) l]> ts) (s_st g) c1 (buf_of s')) ->
        exists sp', RI (mkRace (mkMach s' f (<[i := mkThr d (Some (c, p')) l]> ts)) gs) sp') as Done.
      { intros sp' M1 M2 M3 (c1 & M4 & M5 & M6). exists sp'. split; cbn [rc_m rc_g mc_mem mc_locks mc_thr]; auto.
        - intros i1 th c2. rewrite list_lookup_insert_Some. intros [(<- & <- & _)|[Ne H1]] H2; [|by eapply R2]. cbn in H2. eapply R2; [exact Hi|]. done.
        - intros i1 d1 c2 p1 l1 mp1. rewrite list_lookup_insert_Some. intros [(<- & [= <- <- <- <-] & _)|[Ne H1]] H2.
          + rewrite Hmp in H2. injection H2 as <-. done.
          + destruct (R4 _ _ _ _ _ _ H1 H2) as [?|(H3 & H4 & H5)]; [by left|]. right. split_and!; auto. destruct H5 as [H5|H5]; [by left|]. right. destruct M3 as [->|[->|E]]; [done|done|congruence].
        - exists g, c1. split_and!; auto. }
      destruct (R4 _ _ _ _ _ _ Hi Hmp) as [[Hrd Hr]|(Hrd & HLk & HA)].
      + assert (s' = s /\ reads p') as [-> Hr'].
        { inversion Hr as [|n k Hk]; subst; cbn in Hst; [done|]. destruct (q_metrics s !! mp) as [m1|]; [|done]. cbn in Hst. injection Hst as <- <-. auto. }
        assert (sp <> Some i) as Ne. { intros ->. destruct G6 as (d1 & c1 & p1 & l1 & G6 & _ & G7 & _). rewrite Hi in G6. injection G6 as _ <- _ _. congruence. }
        apply (Done sp); auto. exists c0. split_and!; auto. by apply spc_ts.
      + destruct (decide (sp = Some i)) as [->|Ne].
        * destruct G6 as (d1 & c1 & p1 & l1 & G6 & G7 & _ & v & K & Hv & HK & G8). rewrite Hi in G6. injection G6 as <- <- <- <-. rewrite Hmp in G7. injection G7 as ->.
          destruct G8 as [[-> G8]|(u & l' & Eu & G8 & G9)].
          -- destruct (N_step v K s p' s' c0 R1 G4 Hv Hst) as (M1 & -> & M2 & M3).
             apply (Done None); auto. eexists. split; [exact M2|]. rewrite M3. destruct (s_st g) as [|v0 p0|v0]; cbn [own spc settled c_upd c_val] in *.
             ++ auto.
             ++ destruct G5 as (G51 & G52 & G53 & G54). split_and!; auto. congruence.
             ++ split; [done|]. by right.
          -- destruct (W_step v K _ l' s p' s' c0 R1 G4 Hv G8 Hst) as (M1 & [(-> & -> & -> & M2 & M3)|(M2 & l2 & M3 & M4)]).
             ++ apply (Done None); auto. eexists. split; [exact M2|]. rewrite M3. rewrite Eu in G5 |- *. cbn [own spc settled c_upd c_val] in *. split; [done|]. by left.
             ++ apply (Done (Some i)); auto. exists c0. split; [congruence|]. rewrite Eu in G5 |- *. split; [done|]. exists d, c, p', l. rewrite list_lookup_insert by (by eapply lookup_lt_Some).
                split_and!; auto. exists v, K. split_and!; auto. right. exists u, l2. split_and!; auto. by rewrite M4.
        * destruct HA as [HA|]; [|done]. destruct (A_step mp p s p' s' R1 ltac:(eauto) HA Hst) as (M1 & M2 & M3 & [M4|(-> & -> & c1 & v & K & M4 & M5 & M6 & M7)]).
          -- destruct (frame_own s s' c0 M2 R1 G4 sp ts (s_st g) G5 G6) as [M5 M6]. apply (Done sp); auto. exists c0. split; [congruence|]. split; [done|]. by apply spc_ts.
          -- assert (sp = None) as ->.
             { destruct sp as [i'|]; [|done]. destruct G6 as (d1 & c2 & p1 & l1 & G6 & G7 & G8 & _). destruct (R4 _ _ _ _ _ _ G6 G7) as [[? _]|(_ & E & _)]; congruence. }
             apply (Done (Some i)); auto. exists c0. split_and!; auto. exists d, c, p', l. rewrite list_lookup_insert by (by eapply lookup_lt_Some). split_and!; auto.
             assert (c1 = c0) as -> by congruence. exists v, K. split_and!; auto. destruct (s_st g) as [|v0 p0|v0] eqn:Eg; cbn [own] in G5.
             ++ rewrite G5 in M7. by left.
             ++ destruct G5 as [G5 _]. rewrite G5 in M7. left. split; [done|]. destruct q eqn:Eq; [|done]. exfalso. eapply (Hq eq_refl j0 g v0 p0 i); [done|done|]. cbn. rewrite G2. done.
             ++ destruct G5 as [G5 _]. rewrite G5 in M7. right. exists v0, (value_stores off0 v). split; [done|]. subst p'. split; [by apply wseq_update|].
                destruct (mi_len _ R1) as (b & Hb & HLb). assert (buf_of s = b) as -> by (unfold buf_of; by rewrite Hb). eapply value_stores_show; [done| |exact M5]. unfold t0. unfold w0 in HL. lia.
    - assert (sp <> Some i) as Ne.
      { intros ->. destruct G6 as (d1 & c1 & p1 & l1 & G6 & _ & _ & v & K & _ & _ & G8). rewrite Hi in G6. injection G6 as _ _ <- _. destruct G8 as [[-> _]|(u & l' & _ & G8 & _)]; [done|]. inversion G8; subst; done. }
      exists sp. split; cbn [rc_m rc_g mc_mem mc_locks mc_thr]; auto.
      + intros i1 th c1. rewrite list_lookup_insert_Some. intros [(<- & <- & _)|[Ne1 H1]] H2; [|by eapply R2]. cbn in H2. by eapply R2.
      + intros i1 d1 c1 p1 l1 mp1. rewrite list_lookup_insert_Some. intros [(<- & [=] & _)|[Ne1 H1]] H2.
        destruct (R4 _ _ _ _ _ _ H1 H2) as [?|(H3 & H4 & H5)]; [by left|]. right. split; [done|]. split; [|done]. rewrite lock_other; [done|]. intros E.
        destruct (R4 _ _ _ _ _ mp1 Hi ltac:(congruence)) as [[? _]|(_ & H6 & _)]; congruence.
      + exists g, c0. split_and!; auto. by apply spc_ts.
    - assert (sp <> Some i) as Ne. { intros ->. destruct G6 as (d1 & c1 & p1 & l1 & G6 & _ & G7 & _). rewrite Hi in G6. injection G6 as _ <- _ _. congruence. }
      exists sp. split; cbn [rc_m rc_g mc_mem mc_locks mc_thr]; auto.
      + intros i1 th c1. rewrite list_lookup_insert_Some. intros [(<- & <- & _)|[Ne1 H1]] H2; [|by eapply R2]. cbn in H2. by eapply R2.
      + intros i1 d1 c1 p1 l1 mp1. rewrite list_lookup_insert_Some. intros [(<- & [=] & _)|[Ne1 H1]] H2.
        destruct (R4 _ _ _ _ _ _ H1 H2) as [?|(H3 & H4 & H5)]; [by left|]. right. split; [done|]. split; [|done]. rewrite lock_other; [done|]. intros E. rewrite <- E in Hf. congruence.
      + exists g, c0. split_and!; auto. by apply spc_ts.
  Qed.

  Lemma start_race_step m gs j g g' s' sp : (q = true -> quiet (mkRace (with_mem m s') (<[j := g']> gs))) -> RI (mkRace m gs) sp ->
    gs !! j = Some g -> snext wr g (mc_mem m) = Some (g', s') -> RI (mkRace (with_mem m s') (<[j := g']> gs)) sp.
  Proof.
    intros Hq [R1 R2 R3 R4 R5] Hj H. cbn [rc_m rc_g] in *. destruct R5 as (g0 & c0 & G1 & G2 & G3 & G4 & G5 & G6).
    destruct (decide (j = j0)) as [->|Ne].
    - rewrite Hj in G1. injection G1 as <-. assert (MemI s' -> (exists c1, s_key g' = s_key g /\ s_off g' = s_off g /\ cellk s' = Some c1 /\ own (s_st g') c1 (buf_of s') /\ spc sp (mc_thr m) (s_st g') c1 (buf_of s')) ->
        RI (mkRace (with_mem m s') (<[j0 := g']> gs)) sp) as Done.
      { intros M1 (c1 & M2 & M3 & M4 & M5 & M6). split; cbn [rc_m rc_g with_mem mc_mem mc_locks mc_thr]; auto.
        - intros j1 g1. rewrite list_lookup_insert_Some. intros [(<- & _)|[Ne H1]] H2; [done|by eapply R3].
        - exists g', c1. rewrite list_lookup_insert by (by eapply lookup_lt_Some). split_and!; auto; congruence. }
      assert (storable t0 (c_val c0)) as Hs0. { unfold cellk in G4. destruct (q_metrics (mc_mem m) !! mp0) as [m1|] eqn:Hm; [|done]. by eapply mi_vals. }
      destruct (s_st g) as [|v p|v] eqn:Eg.
      + unfold snext in H. rewrite Eg, G2 in H. cbn [fst snd] in H. unfold cellk in G4. destruct (q_metrics (mc_mem m) !! mp0) as [m1|] eqn:Hm; [|done]. cbn [mbind option_bind] in H. rewrite G4 in H.
        cbn in H. injection H as <- <-. apply Done; [done|]. exists c0. split; [done|]. split; [done|]. split; [unfold cellk; by rewrite Hm|]. cbn [to_state s_st own]. rewrite G3. split.
        * split_and!; auto. exists (value_stores off0 (c_val c0)). split; [by apply pseq_update|].
          destruct (mi_len _ R1) as (b & Hb & HLb). assert (buf_of (mc_mem m) = b) as -> by (unfold buf_of; by rewrite Hb). eapply value_stores_show; [done| |exact Hs0]. unfold t0. unfold w0 in HL. lia.
        * destruct sp as [i|]; cbn [spc settled]; [|done]. destruct G6 as (d1 & c1 & p1 & l1 & T1 & T2 & T3 & v & K & T4 & T5 & T6). exists d1, c1, p1, l1. split_and!; auto.
          exists v, K. split_and!; auto. destruct T6 as [[T6 _]|(u & l' & F & _)]; [|done]. left. split; [done|]. destruct q eqn:Eq; [|done]. exfalso.
          destruct (R4 _ _ _ _ _ _ T1 T2) as [[? _]|(_ & T7 & _)]; [congruence|]. eapply (Hq eq_refl j0 _ _ _ i).
          -- cbn. rewrite list_lookup_insert by (by eapply lookup_lt_Some). reflexivity.
          -- cbn. reflexivity.
          -- cbn. rewrite G2. exact T7.
      + destruct G5 as (G51 & G52 & G53 & l & G54 & G55). destruct (S_step g v p l _ _ _ c0 R1 G4 Eg G54 H) as (M1 & [(-> & -> & M2 & M3)|(M2 & p' & l' & -> & M3 & M4)]).
        * apply Done; [done|]. eexists. split; [done|]. split; [done|]. split; [exact M2|]. cbn [to_state s_st own c_upd c_val]. split; [done|]. rewrite M3. cbn in G55.
          destruct sp as [i|]; cbn [spc settled] in *.
          -- destruct G6 as (d1 & c1 & p1 & l1 & T1 & T2 & T3 & u & K & T4 & T5 & T6). exists d1, c1, p1, l1. split_and!; auto. exists u, K. split_and!; auto.
             destruct T6 as [[T6 T7]|(u' & l' & F & _)]; [|done]. left. auto.
          -- cbn [c_val]. destruct q eqn:Eq; [left|by right]. rewrite G53; done.
        * apply Done; [done|]. exists c0. split; [done|]. split; [done|]. split; [congruence|]. cbn [to_state s_st own]. split.
          -- split_and!; auto. exists l'. split; [done|]. by rewrite M4.
          -- destruct sp as [i|]; cbn [spc settled] in *; [|done]. destruct G6 as (d1 & c1 & p1 & l1 & T1 & T2 & T3 & u & K & T4 & T5 & T6). exists d1, c1, p1, l1. split_and!; auto. exists u, K. split_and!; auto.
             destruct T6 as [[T6 T7]|(u' & l2 & F & _)]; [|done]. by left.
      + unfold snext in H. rewrite Eg in H. done.
    - destruct (O_step g _ g' s' R1 (R3 j g Hj Ne) H) as (M1 & M2 & M3 & M4 & M5). destruct (frame_own (mc_mem m) s' c0 M2 R1 G4 sp (mc_thr m) (s_st g0) G5 G6) as [M6 M7].
      split; cbn [rc_m rc_g with_mem mc_mem mc_locks mc_thr]; auto.
      + intros j1 g1. rewrite list_lookup_insert_Some. intros [(<- & <- & _)|[Ne1 H1]] H2; [done|by eapply R3].
      + exists g0, c0. rewrite list_lookup_insert_ne by done. split_and!; auto. congruence.
  Qed.

  Lemma race_inv r r' : rtc (fun a b => race_step hp wr a b /\ (q = true -> quiet a /\ quiet b)) r r' -> (exists sp, RI r sp) -> exists sp, RI r' sp.
  Proof.
    induction 1 as [|a b c [H Hq] _ IH]; [done|]. intros [sp Hsp]. apply IH. inversion H as [m m' gs Hs|m gs j g g' s' Hj Hs]; subst.
    - eapply call_step; eauto. intros E. by destruct (Hq E).
    - exists sp. eapply start_race_step; eauto. intros E. by destruct (Hq E).
  Qed.
  Lemma race_final r : (exists sp, RI r sp) -> race_done r -> exists g c v, rc_g r !! j0 = Some g /\ cellk (mc_mem (rc_m r)) = Some c /\ s_st g = SFin v /\ s_key g = (mp0, n0) /\ s_off g = off0 /\
    (shows (buf_of (mc_mem (rc_m r))) off0 (c_val c) \/ q = false /\ shows (buf_of (mc_mem (rc_m r))) off0 v).
  Proof.
    intros [sp [_ _ _ _ (g & c & G1 & G2 & G3 & G4 & G5 & G6)]] [D1 D2]. destruct (D2 _ _ G1) as [v Hv]. exists g, c, v. split_and!; auto. destruct sp as [i|].
    - destruct G6 as (d1 & c1 & p1 & l1 & T1 & _). apply D1 in T1 as [T1 _]. done.
    - cbn in G6. rewrite Hv in G6. done.
  Qed.
End value.

(** Start is about to write the values [ks] (which value, and where its bytes go) to the
    new file behind writer [wr]: the values were not published before, their slots are
    inside the file and do not overlap, and no closure in use leads to this file. *)
Record starting (hp : heap) (fs : files) (wr : nat) (x : writer) (buf : list byte) (ks : list (vkey * Z)) : Prop := {
  sg_wr : f_writers fs !! wr = Some x /\ wr_live x = true;
  sg_buf : f_inodes fs !! wr_inode x = Some buf;
  sg_new : forall key off, (key, off) ∈ ks -> exists m c, h_metrics hp !! key.1 = Some m /\ cell_at m key.2 = Some c /\ c_upd c = None /\
    0 <= off /\ off + slot_w (md_type (m_desc m)) <= zlen buf;
  sg_disj : forall j j' key off key' off' m m', j <> j' -> ks !! j = Some (key, off) -> ks !! j' = Some (key', off') ->
    h_metrics hp !! key.1 = Some m -> h_metrics hp !! key'.1 = Some m' ->
    key <> key' /\ (off + slot_w (md_type (m_desc m)) <= off' \/ off' + slot_w (md_type (m_desc m')) <= off);
  sg_old : forall mp m n c cl y, h_metrics hp !! mp = Some m -> cell_at m n = Some c -> c_upd c = Some cl ->
    f_writers fs !! cl_writer cl = Some y -> wr_live y = true -> wr_inode y <> wr_inode x }.

Lemma rc_len hp wr q r r' : rtc (fun a b => race_step hp wr a b /\ (q = true -> quiet a /\ quiet b)) r r' -> length (rc_g r') = length (rc_g r).
Proof. induction 1 as [|a b c [H _] _ IH]; [done|]. rewrite IH. inversion H; cbn; [done|]. apply insert_length. Qed.

Theorem race_result q hp fs wr x buf ks css r : heap_ok hp -> (forall mp m, h_metrics hp !! mp = Some m -> body_fits (m_body m)) -> starting hp fs wr x buf ks ->
  (forall l c, l ∈ css -> c ∈ l -> call_fine hp c) ->
  rtc (fun a b => race_step hp wr a b /\ (q = true -> quiet a /\ quiet b)) (race_start (mkMem (h_metrics hp) fs) css ks) r -> race_done r ->
  forall j key off, ks !! j = Some (key, off) -> exists m c v b, q_metrics (mc_mem (rc_m r)) !! key.1 = Some m /\ cell_at m key.2 = Some c /\
    rc_g r !! j = Some (mkSgo key off (SFin v)) /\ f_inodes (q_files (mc_mem (rc_m r))) !! wr_inode x = Some b /\
    (shows b off (c_val c) \/ q = false /\ shows b off v).
Proof.
  intros HO HF [[S1 S1'] S2 S3 S4 S5] Hc H HD j [mp0 n0] off0 Hj.
  destruct (S3 (mp0, n0) off0 (elem_of_list_lookup_2 _ _ _ Hj)) as (m0 & c0 & Hm0 & Hc0 & Hu0 & Ho1 & Ho2). cbn [fst snd] in *.
  assert (ty hp mp0 = md_type (m_desc m0)) as Et by (unfold ty; by rewrite Hm0).
  assert (exists sp, RI hp (f_writers fs) wr x (zlen buf) mp0 n0 off0 j q (race_start (mkMem (h_metrics hp) fs) css ks) sp) as I0.
  { exists None. split; cbn [race_start rc_m rc_g m_start mc_mem mc_thr mc_locks].
    - split; cbn [q_metrics q_files]; [done|by exists buf| |].
      + intros mp m n c cl Hm Hcl Hu _ y Hy Hl Hi. exfalso. by eapply S5.
      + intros mp m n c Hm Hcl. apply typed_storable.
        * assert (ty hp mp = md_type (m_desc m)) as -> by (unfold ty; by rewrite Hm). eapply cell_typed; [|done]. by eapply ho_metrics.
        * eapply metric_body_fits; [by eapply HF|done].
    - intros i th c. rewrite list_lookup_fmap. destruct (css !! i) as [l|] eqn:El; [|done]. intros [= <-]. cbn. apply Hc. by eapply elem_of_list_lookup_2.
    - intros j' g. rewrite list_lookup_fmap. destruct (ks !! j') as [[key' off']|] eqn:Ek; [|done]. intros [= <-] Ne. cbn.
      destruct (S3 key' off' (elem_of_list_lookup_2 _ _ _ Ek)) as (m' & c' & Hm' & _ & _ & _). destruct (S4 j j' (mp0, n0) off0 key' off' m0 m' ltac:(done) Hj Ek Hm0 Hm') as [N1 N2].
      split; [done|]. split; [|done]. intros y Hy _ _. right. cbn. rewrite Et. assert (ty hp key'.1 = md_type (m_desc m')) as -> by (unfold ty; by rewrite Hm'). lia.
    - intros i d c p l mp. rewrite list_lookup_fmap. by destruct (css !! i).
    - exists (mkSgo (mp0, n0) off0 SIdle), c0. split; [etransitivity; [apply list_lookup_fmap|]; exact (f_equal (fmap (fun y : vkey * Z => mkSgo y.1 y.2 SIdle)) Hj)|]. split; [done|]. split; [done|]. split; [unfold cellk; cbn; by rewrite Hm0|]. split; [done|]. done. }
  assert (off0 + slot_w (ty hp mp0) <= zlen buf) as HLL by (rewrite Et; lia).
  pose proof (race_inv hp (f_writers fs) wr x S1 S1' (zlen buf) mp0 n0 off0 Ho1 HLL j q _ _ H I0) as I1.
  destruct (race_final _ _ _ _ _ _ _ _ _ _ _ I1 HD) as (g & c & v & G1 & G2 & G3 & G4 & G5 & G6). unfold cellk in G2.
  destruct (q_metrics (mc_mem (rc_m r)) !! mp0) as [m|] eqn:Hm; [|done]. destruct I1 as [sp I1]. destruct (mi_len _ _ _ _ _ _ _ _ (ri_mem _ _ _ _ _ _ _ _ _ _ _ _ I1)) as (b & Hb & _).
  unfold buf_of in G6. rewrite Hb in G6. exists m, c, v, b. split_and!; auto. rewrite G1. destruct g. cbn in *. by subst.
Qed.
