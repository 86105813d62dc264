(** Facts about byte buffers and stores. *)
From Verif Require Import Base BaseFacts Floats GoVal ByteWriter Mmvdump Ileave.

Lemma bset_length buf i b buf' : bset buf i b = Some buf' -> zlen buf' = zlen buf.
Proof. unfold bset. destruct (_ || _); intros; simplify_eq. unfold zlen. rewrite insert_length. auto. Qed.

Lemma do_store_length buf s : zlen (do_store buf s) = zlen buf.
Proof. unfold do_store. destruct (bset _ _ _) eqn:E; auto. eapply bset_length; eauto. Qed.

Lemma do_stores_length l : forall buf, zlen (do_stores buf l) = zlen buf.
Proof.
  induction l as [|s l IH]; intros buf; cbn; [auto|].
  change (zlen (do_stores (do_store buf s) l) = zlen buf). rewrite IH. apply do_store_length.
Qed.

Lemma do_stores_cons buf s l : do_stores buf (s :: l) = do_stores (do_store buf s) l.
Proof. reflexivity. Qed.
Lemma do_stores_app buf l1 l2 : do_stores buf (l1 ++ l2) = do_stores (do_stores buf l1) l2.
Proof. unfold do_stores. apply foldl_app. Qed.

(** A store is invisible at other positions. *)
Lemma do_store_other buf s (i : nat) : s.1 <> Z.of_nat i -> do_store buf s !! i = buf !! i.
Proof.
  intros H. unfold do_store, bset. destruct (_ || _) eqn:E; [auto|].
  apply list_lookup_insert_ne. lia.
Qed.

Lemma do_store_same buf s (i : nat) : s.1 = Z.of_nat i -> (i < length buf)%nat -> do_store buf s !! i = Some s.2.
Proof.
  intros H Hl. unfold do_store, bset. unfold zlen. replace ((s.1 <? 0) || (Z.of_nat (length buf) <=? s.1)) with false by lia.
  rewrite H, Nat2Z.id. apply list_lookup_insert. auto.
Qed.

(** Only the stores to a position matter for its contents. *)
Lemma do_stores_lookup_filter (i : nat) l : forall buf buf',
  buf !! i = buf' !! i -> length buf = length buf' ->
  do_stores buf l !! i = do_stores buf' (filter (fun s : bstore => s.1 = Z.of_nat i) l) !! i.
Proof.
  induction l as [|s l IH]; intros buf buf' H HL; [exact H|].
  rewrite do_stores_cons, filter_cons.
  assert (forall b, length (do_store b s) = length b) as Hlen.
  { intros b. pose proof (do_store_length b s) as X. unfold zlen in X. lia. }
  case_decide as Hs.
  - rewrite do_stores_cons. apply IH; [|rewrite !Hlen; auto].
    destruct (decide (i < length buf)%nat).
    + rewrite !do_store_same by (auto || lia). auto.
    + rewrite !lookup_ge_None_2; auto; rewrite ?Hlen; lia.
  - apply IH; [|rewrite Hlen; auto]. rewrite do_store_other by auto. exact H.
Qed.

(** Stores inside a half-open region. *)
Definition inreg (lo w : Z) (s : bstore) : Prop := lo <= s.1 < lo + w.
Global Instance inreg_dec lo w s : Decision (inreg lo w s).
Proof. unfold inreg. apply _. Defined.

Lemma sub_ext lo w (b1 b2 : list byte) : 0 <= lo ->
  (forall i : nat, lo <= Z.of_nat i < lo + w -> b1 !! i = b2 !! i) -> sub lo w b1 = sub lo w b2.
Proof.
  intros Hlo H. unfold sub. apply list_eq. intros i.
  destruct (decide (i < Z.to_nat w)%nat).
  - rewrite !lookup_take, !lookup_drop by lia. apply H. lia.
  - rewrite !lookup_take_ge by lia. reflexivity.
Qed.

Lemma do_stores_region lo w l1 l2 buf : 0 <= lo ->
  filter (inreg lo w) l1 = filter (inreg lo w) l2 ->
  sub lo w (do_stores buf l1) = sub lo w (do_stores buf l2).
Proof.
  intros Hlo HF. apply sub_ext; [auto|]. intros i Hi.
  rewrite (do_stores_lookup_filter i l1 buf buf), (do_stores_lookup_filter i l2 buf buf) by auto.
  assert (forall l : list bstore, filter (fun s : bstore => s.1 = Z.of_nat i) l =
    filter (fun s : bstore => s.1 = Z.of_nat i) (filter (inreg lo w) l)) as X.
  { intros l. induction l as [|s l IH]; [reflexivity|]. rewrite !filter_cons.
    destruct (decide (s.1 = Z.of_nat i)) as [E|E].
    - rewrite (decide_True (P := inreg lo w s)) by (unfold inreg; lia). rewrite filter_cons_True by auto. rewrite IH. auto.
    - rewrite IH. case_decide; [|auto]. rewrite filter_cons_False by auto. auto. }
  rewrite (X l1), (X l2), HF. reflexivity.
Qed.

Lemma do_stores_outside lo w l buf : 0 <= lo -> Forall (fun s => ~ inreg lo w s) l ->
  sub lo w (do_stores buf l) = sub lo w buf.
Proof.
  intros Hlo HF. change buf with (do_stores buf []) at 2. apply do_stores_region; [auto|].
  induction HF; [reflexivity|]. rewrite filter_cons_False; auto.
Qed.

Lemma stores_of_range off d : Forall (fun s => off <= s.1 < off + zlen d) (stores_of off d).
Proof.
  revert off; induction d as [|b d IH]; intros off; cbn [stores_of]; constructor.
  - rewrite zlen_cons. cbn. pose proof (zlen_nonneg d). lia.
  - eapply Forall_impl; [apply IH|]. intros s Hs. rewrite zlen_cons. cbn beta in Hs; lia.
Qed.

(** Writing [d] at [off] inside the buffer. *)
Lemma do_stores_splice d : forall buf off, 0 <= off -> off + zlen d <= zlen buf ->
  do_stores buf (stores_of off d) = take (Z.to_nat off) buf ++ d ++ drop (Z.to_nat off + length d) buf.
Proof.
  induction d as [|b d IH]; intros buf off H0 H1; cbn [stores_of].
  - cbn. rewrite Nat.add_0_r, take_drop. reflexivity.
  - rewrite zlen_cons in H1. pose proof (zlen_nonneg d). rewrite do_stores_cons.
    rewrite IH; [|lia|rewrite do_store_length; lia].
    unfold do_store, bset. cbn [fst snd]. unfold zlen in *. replace ((off <? 0) || _) with false by lia.
    replace (Z.to_nat (off + 1)) with (S (Z.to_nat off)) by lia.
    rewrite (take_S_r _ _ b) by (apply list_lookup_insert; lia).
    rewrite take_insert by lia. rewrite drop_insert_gt by lia.
    rewrite <- app_assoc. cbn [app length]. do 3 f_equal. f_equal. lia.
Qed.

Lemma sub_write off d w buf : 0 <= off -> zlen d <= w -> off + w <= zlen buf ->
  sub off w (do_stores buf (stores_of off d)) = d ++ drop (length d) (sub off w buf).
Proof.
  intros H0 H1 H2. rewrite do_stores_splice by (auto || lia). unfold sub, zlen in *.
  rewrite drop_app_alt by (rewrite take_length; lia).
  rewrite take_app_ge by lia. f_equal. rewrite skipn_firstn_comm, drop_drop. reflexivity.
Qed.

Lemma sub_length off w buf : 0 <= off -> 0 <= w -> off + w <= zlen buf -> zlen (sub off w buf) = w.
Proof. intros. unfold sub, zlen in *. rewrite take_length, drop_length. lia. Qed.

Lemma sub_zeros off w L : 0 <= off -> 0 <= w -> off + w <= L -> sub off w (zeros L) = zeros w.
Proof.
  intros. unfold sub, zeros. rewrite drop_replicate, take_replicate. f_equal. lia.
Qed.

(** Contents of a region after successive writes at its start. *)
Definition overlay (acc d : list byte) : list byte := d ++ drop (length d) acc.
Definition content (w : Z) (ds : list (list byte)) : list byte := foldl overlay (zeros w) ds.

Lemma sub_writes off w ds : forall buf, 0 <= off -> Forall (fun d => zlen d <= w) ds -> off + w <= zlen buf ->
  sub off w (do_stores buf (concat (map (stores_of off) ds))) = foldl overlay (sub off w buf) ds.
Proof.
  induction ds as [|d ds IH]; intros buf H0 HF H2; [reflexivity|]. inversion HF; subst.
  cbn [map concat foldl]. rewrite do_stores_app, IH; auto.
  - rewrite sub_write by auto. reflexivity.
  - rewrite do_stores_length. auto.
Qed.

Lemma content_length w ds : 0 <= w -> Forall (fun d => zlen d <= w) ds -> zlen (content w ds) = w.
Proof.
  intros Hw. unfold content. assert (zlen (zeros w) = w) as H by (apply zlen_zeros; auto). revert H.
  generalize (zeros w). induction ds as [|d ds IH]; intros acc Hacc HF; cbn; [auto|].
  inversion HF; subst. apply IH; auto. unfold overlay, zlen in *. rewrite app_length, drop_length. lia.
Qed.

Lemma content1_full w d : zlen d = w -> content w [d] = d.
Proof.
  intros H. unfold content, overlay. cbn. rewrite drop_ge; [apply app_nil_r|].
  unfold zeros, zlen in *. rewrite replicate_length. lia.
Qed.

Lemma content1_pad w d : zlen d <= w -> content w [d] = d ++ zeros (w - zlen d).
Proof.
  intros H. unfold content, overlay. cbn. f_equal. unfold zeros, zlen in *. rewrite drop_replicate. f_equal. lia.
Qed.
