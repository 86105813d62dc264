(** Lemmas behind PropsWriter.v. *)
From Verif Require Import Base BaseFacts Floats GoVal MetricType ByteWriter Mmvdump BufFacts Ileave View Update.

(** [data] written over [buf] at [off]. *)
Definition spliced (buf : list byte) (off : Z) (data : list byte) : list byte :=
  take (Z.to_nat off) buf ++ data ++ drop (Z.to_nat off + length data) buf.

Lemma bw_write64_eq buf data off : in_signed 64 (off + zlen data) -> bw_write64 buf data off = bw_write buf data off.
Proof. intros H. unfold bw_write64. rewrite to_signed_id by (lia || exact H). reflexivity. Qed.

Lemma write_in_range buf data off : zlen buf < 2 ^ 63 -> 0 <= off -> off + zlen data <= zlen buf ->
  bw_write64 buf data off = WOk (spliced buf off data) (off + zlen data).
Proof.
  intros HL H0 H1. pose proof (zlen_nonneg data). rewrite bw_write64_eq by (split; cbn; lia).
  rewrite bw_write_ok by auto. rewrite do_stores_splice by auto. reflexivity.
Qed.

Lemma write_error buf data off : in_signed 64 (off + zlen data) -> zlen buf < off + zlen data -> bw_write64 buf data off = WErr buf (-1).
Proof. intros Hs H. rewrite bw_write64_eq by exact Hs. unfold bw_write. by replace (zlen buf <? off + zlen data) with true by lia. Qed.

Lemma write_negative buf data off : in_signed 64 off -> off < 0 -> data <> [] -> off + zlen data <= zlen buf -> bw_write64 buf data off = WPanic buf.
Proof.
  intros Hs H Hd Hle. destruct data as [|b data]; [done|]. pose proof (zlen_nonneg data). rewrite zlen_cons in *.
  destruct (Z_lt_ge_dec (off + (1 + zlen data)) (2 ^ 63)) as [L|L].
  - rewrite bw_write64_eq by (rewrite zlen_cons; destruct Hs; split; cbn in *; lia). unfold bw_write. rewrite zlen_cons.
    replace (zlen buf <? off + (1 + zlen data)) with false by lia. cbn. unfold bset. by replace (off <? 0) with true by lia.
  - unfold bw_write64. rewrite zlen_cons. assert (exists z, to_signed 64 (off + (1 + zlen data)) = z /\ z <= zlen buf) as (z & -> & Hz).
    { eexists. split; [reflexivity|]. unfold to_signed.
      set (x := off + (1 + zlen data)) in *. assert (x mod 2 ^ 64 <= x) by (apply Z.mod_le; lia).
      destruct (_ <? _) eqn:E; [lia|]. lia. }
    replace (zlen buf <? z) with false by lia. cbn. unfold bset. by replace (off <? 0) with true by lia.
Qed.

Lemma spliced_len buf off data : 0 <= off -> off + zlen data <= zlen buf -> zlen (spliced buf off data) = zlen buf.
Proof. unfold spliced, zlen. intros. rewrite !app_length, take_length, drop_length. lia. Qed.

(** ** Concurrent writes *)
(** A write request. *)
Definition wreq := (Z * list byte)%type.
Definition in_range (buf : list byte) (w : wreq) : Prop := 0 <= w.1 /\ w.1 + zlen w.2 <= zlen buf.
Definition apart (w w' : wreq) : Prop := w.1 + zlen w.2 <= w'.1 \/ w'.1 + zlen w'.2 <= w.1.
(** The writes one after the other. *)
Definition seq_writes (buf : list byte) (ws : list wreq) : list byte :=
  foldl (fun b w => wres_buf (bw_write b w.2 w.1)) buf ws.

Lemma seq_writes_stores ws : forall buf, Forall (in_range buf) ws ->
  seq_writes buf ws = do_stores buf (concat (map (fun w => stores_of w.1 w.2) ws)).
Proof.
  induction ws as [|w ws IH]; intros buf HF; [reflexivity|]. inversion HF as [|? ? [H1 H2] HF']; subst.
  cbn [seq_writes foldl map concat]. rewrite do_stores_app. rewrite bw_write_ok by auto. cbn [wres_buf].
  apply IH. eapply Forall_impl; [exact HF'|]. intros w' [G1 G2]. split; [exact G1|]. rewrite do_stores_length. exact G2.
Qed.

Lemma stores_of_sorted (i : Z) off d : (length (filter (fun s : bstore => s.1 = i) (stores_of off d)) <= 1)%nat.
Proof.
  revert off. induction d as [|b d IH]; intros off; [cbn; lia|]. cbn [stores_of]. rewrite filter_cons. case_decide as E; [|apply IH].
  cbn in E. subst i. cbn [length]. assert (filter (fun s : bstore => s.1 = off) (stores_of (off + 1) d) = []) as ->; [|cbn; lia].
  pose proof (stores_of_range (off + 1) d) as HR. induction HR as [|s l Hs HR IHl]; [reflexivity|]. rewrite filter_cons_False; [exact IHl|]. lia.
Qed.

Lemma concat_filter_le (i : Z) ws : ForallOrdPairs apart ws ->
  (length (filter (fun s : bstore => s.1 = i) (concat (map (fun w : wreq => stores_of w.1 w.2) ws))) <= 1)%nat.
Proof.
  induction 1 as [|w ws HF H IH]; [cbn; lia|]. cbn [map concat]. rewrite filter_app, app_length.
  pose proof (stores_of_sorted i w.1 w.2) as H1. destruct (filter (fun s : bstore => s.1 = i) (stores_of w.1 w.2)) as [|s l] eqn:E; [exact IH|].
  assert (s ∈ filter (fun s : bstore => s.1 = i) (stores_of w.1 w.2)) as Hs by (rewrite E; left). apply elem_of_list_filter in Hs as [Hi Hs].
  pose proof (stores_of_range w.1 w.2) as HR. rewrite Forall_forall in HR. specialize (HR _ Hs).
  assert (filter (fun s : bstore => s.1 = i) (concat (map (fun w : wreq => stores_of w.1 w.2) ws)) = []) as ->; [|cbn [length] in *; lia].
  clear IH H E Hs l H1. induction HF as [|w' ws Hw HF IH]; [reflexivity|]. cbn [map concat]. rewrite filter_app, IH, app_nil_r.
  pose proof (stores_of_range w'.1 w'.2) as HR'. induction HR' as [|s' l' Hs' HR' IHl]; [reflexivity|]. rewrite filter_cons_False; [exact IHl|].
  unfold apart in Hw. lia.
Qed.

Lemma perm_short {A} (l l' : list A) : l ≡ₚ l' -> (length l <= 1)%nat -> l = l'.
Proof.
  intros H HL. destruct l as [|x [|]]; cbn in HL; [|apply Permutation_length_1_inv in H; congruence|lia].
  apply Permutation_nil in H. congruence.
Qed.

Lemma disjoint_perm buf ws l : ForallOrdPairs apart ws -> l ≡ₚ concat (map (fun w : wreq => stores_of w.1 w.2) ws) ->
  do_stores buf l = do_stores buf (concat (map (fun w : wreq => stores_of w.1 w.2) ws)).
Proof.
  intros HD HP. apply list_eq. intros i. rewrite (do_stores_lookup_filter i l buf buf) by reflexivity.
  rewrite (do_stores_lookup_filter i (concat _) buf buf) by reflexivity. f_equal. f_equal. symmetry. apply perm_short.
  - rewrite HP. reflexivity.
  - apply concat_filter_le, HD.
Qed.

Lemma concurrent_writes buf ws ws' tr : Forall (in_range buf) ws -> ForallOrdPairs apart ws -> ws' ≡ₚ ws ->
  ileave (map (fun w : wreq => stores_of w.1 w.2) ws) tr -> do_stores buf tr = seq_writes buf ws'.
Proof.
  intros HR HD HP HI. rewrite seq_writes_stores by (rewrite HP; exact HR). apply ileave_perm_concat in HI.
  rewrite (disjoint_perm _ _ _ HD HI). symmetry. apply disjoint_perm; [exact HD|]. rewrite HP. reflexivity.
Qed.

(** ** Values *)
Lemma fixed_round_trip t v : vtyped t v -> t <> StringType -> exists e, val_bytes v = Some e /\ zlen e <= 8 /\
  forall pad, e ++ pad = content 8 [e] -> FixedVal (le_dec (e ++ pad)) t = Some v.
Proof.
  destruct v; cbn [vtyped val_bytes]; intros Ht Hs; try contradiction; try (exfalso; apply Hs; exact Ht); destruct Ht as [-> Hr].
  all: eexists; split; [reflexivity|]; rewrite zlen_le_enc; split; [cbn; lia|]; intros pad ->.
  all: rewrite content1_pad by (rewrite zlen_le_enc; cbn; lia); rewrite le_dec_app; unfold zeros; rewrite le_dec_zeros, Z.mul_0_r, Z.add_0_r, le_dec_enc.
  all: unfold in_signed, in_unsigned in Hr; unfold FixedVal, Int32Type, Uint32Type, Int64Type, Uint64Type, FloatType, DoubleType; cbn [Z.eqb Pos.eqb].
  all: change (256 ^ Z.of_nat 4) with (2 ^ 32); change (256 ^ Z.of_nat 8) with (2 ^ 64).
  - change (z mod 2 ^ 32) with (to_unsigned 32 z). rewrite to_signed_unsigned, to_signed_id by (lia || exact Hr). reflexivity.
  - change (z mod 2 ^ 64) with (to_unsigned 64 z). rewrite to_signed_unsigned, to_signed_id by (lia || exact Hr). reflexivity.
  - change (z mod 2 ^ 32) with (to_unsigned 32 z). rewrite !(to_unsigned_id 32 z) by exact Hr. reflexivity.
  - change (z mod 2 ^ 64) with (to_unsigned 64 z). rewrite !(to_unsigned_id 64 z) by exact Hr. reflexivity.
  - change (bits mod 2 ^ 32) with (to_unsigned 32 bits). rewrite !(to_unsigned_id 32 bits) by exact Hr. reflexivity.
  - change (bits mod 2 ^ 64) with (to_unsigned 64 bits). rewrite !(to_unsigned_id 64 bits) by exact Hr. reflexivity.
Qed.

Lemma write_val_read buf off t v : vtyped t v -> t <> StringType -> 0 <= off -> off + 8 <= zlen buf -> sub off 8 buf = zeros 8 ->
  exists buf' pos, bw_write_val buf v off = WOk buf' pos /\ FixedVal (u64 off buf') t = Some v.
Proof.
  intros Ht Hs H0 H1 Hz. destruct (fixed_round_trip t v Ht Hs) as (e & He & Hl & HF).
  exists (do_stores buf (stores_of off e)), (off + zlen e). split.
  - destruct v; cbn [bw_write_val]; try (rewrite He; apply bw_write_ok; lia). cbn in Ht. subst; done.
  - unfold u64. rewrite sub_write by lia. rewrite Hz. apply HF. rewrite content1_pad by exact Hl. f_equal.
    unfold zeros. rewrite drop_replicate. f_equal. unfold zlen in *. lia.
Qed.
