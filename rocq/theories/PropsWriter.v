(** C07, C08, C09: the byte writer and the encoding of values.
    Specification vocabulary (WriterFacts.v): [spliced buf off data] is [buf] with [data]
    laid over it at [off]; a write request is (offset, data); [in_range]: it lies inside
    the buffer; [apart]: two requests do not overlap; [seq_writes]: performing requests
    one after the other. *)
From Verif Require Import Base BaseFacts Floats GoVal MetricType ByteWriter Mmvdump BufFacts Ileave View Update WriterFacts.

(** ** C07 *)
(** Write with a range inside the buffer stores exactly the data. (Go slices are shorter than 2^63.) *)
Theorem C07_write_in_range buf data off : zlen buf < 2 ^ 63 -> 0 <= off -> off + zlen data <= zlen buf ->
  bw_write64 buf data off = WOk (take (Z.to_nat off) buf ++ data ++ drop (Z.to_nat off + length data) buf) (off + zlen data).
Proof. exact (write_in_range buf data off). Qed.
Example C07_write_in_range_ex : bw_write64 (zeros 6) (str "ab") 3 = WOk ([x00; x00; x00] ++ str "ab" ++ [x00]) 5.
Proof. reflexivity. Qed.

(** A range ending beyond the buffer is an error and changes nothing. *)
Theorem C07_write_error buf data off : in_signed 64 (off + zlen data) -> zlen buf < off + zlen data ->
  bw_write64 buf data off = WErr buf (-1).
Proof. exact (write_error buf data off). Qed.
Example C07_write_error_ex : bw_write64 (zeros 6) (str "ab") 5 = WErr (zeros 6) (-1).
Proof. reflexivity. Qed.

(** Beyond the claim: a negative offset with a range ending inside the buffer panics before storing anything. *)
Theorem C07_write_negative buf data off : in_signed 64 off -> off < 0 -> data <> [] -> off + zlen data <= zlen buf ->
  bw_write64 buf data off = WPanic buf.
Proof. exact (write_negative buf data off). Qed.
Example C07_write_negative_ex : bw_write64 (zeros 6) (str "ab") (-1) = WPanic (zeros 6).
Proof. reflexivity. Qed.

(** The bounds check is done on a wrapping sum: without the no-overflow hypothesis of
    [C07_write_error] the claim is false. Whenever the end of the range exceeds the largest int, the call panics
    (storing nothing) instead of returning an error. *)
Theorem C07_write_overflow buf data off : in_signed 64 off -> zlen data < 2 ^ 63 -> zlen buf <= off -> 2 ^ 63 <= off + zlen data ->
  bw_write64 buf data off = WPanic buf.
Proof.
  intros [_ H1] H2 H3 H4. assert (to_signed 64 (off + zlen data) = off + zlen data - 2 ^ 64) as E.
  { rewrite <- (to_signed_id 64 (off + zlen data - 2 ^ 64)) by (try lia; unfold in_signed; change (64 - 1) with 63 in *; lia).
    replace (off + zlen data) with (off + zlen data - 2 ^ 64 + 1 * 2 ^ 64) at 1 by lia. unfold to_signed. by rewrite Z.mod_add by lia. }
  assert (0 <= zlen buf) as Hb by (unfold zlen; lia). unfold bw_write64. rewrite E. change (64 - 1) with 63 in *. destruct (zlen buf <? off + zlen data - 2 ^ 64) eqn:F; [lia|].
  destruct data as [|b data]; [unfold zlen in H4; cbn in H4; lia|]. cbn [store_loop]. unfold bset.
  destruct (zlen buf <=? off) eqn:G; [by rewrite orb_true_r|lia].
Qed.
Theorem C07_write_error_overflow_refuted : let off := 2 ^ 63 - 1 in
  in_signed 64 off /\ zlen (zeros 6) < off + zlen (str "ab") /\ bw_write64 (zeros 6) (str "ab") off = WPanic (zeros 6).
Proof. split; [split; cbv; congruence|]. split; reflexivity. Qed.

(** [bw_write], the form used by the rest of the model, agrees with the 64-bit one. *)
Theorem C07_write_model buf data off : in_signed 64 (off + zlen data) -> bw_write64 buf data off = bw_write buf data off.
Proof. exact (bw_write64_eq buf data off). Qed.

(** MustWrite panics exactly when Write errors (or panics), and otherwise is Write. *)
Theorem C07_must_write buf data off :
  match bw_write buf data off with
  | WOk b p => bw_must_write buf data off = WOk b p
  | WErr b _ => b = buf /\ bw_must_write buf data off = WPanic buf
  | WPanic b => bw_must_write buf data off = WPanic b
  end.
Proof.
  unfold bw_must_write, bw_write. destruct (_ <? _); cbn; [auto|]. destruct (store_loop _ _ _) as [b []]; reflexivity.
Qed.
Example C07_must_write_ex : bw_must_write (zeros 6) (str "ab") 5 = WPanic (zeros 6) /\ bw_must_write (zeros 6) (str "ab") 4 = WOk (zeros 4 ++ str "ab") 6.
Proof. split; reflexivity. Qed.

(** WriteString is Write except for the position returned with an error. *)
Theorem C07_write_string buf s off :
  (0 <= off -> off + zlen s <= zlen buf ->
    bw_write_string buf s off = WOk (take (Z.to_nat off) buf ++ s ++ drop (Z.to_nat off + length s) buf) (off + zlen s)) /\
  (zlen buf < off + zlen s -> bw_write_string buf s off = WErr buf (off + zlen s)).
Proof.
  split; intros; unfold bw_write_string.
  - rewrite bw_write_ok, do_stores_splice by auto. reflexivity.
  - unfold bw_write. by replace (zlen buf <? off + zlen s) with true by lia.
Qed.
Example C07_write_string_ex : bw_write_string (zeros 4) (str "abc") 1 = WOk (x00 :: str "abc") 4 /\ bw_write_string (zeros 4) (str "abc") 2 = WErr (zeros 4) 5.
Proof. split; reflexivity. Qed.

(** WriteVal and the typed functions store the number in [n] bytes, lowest first (a negative one as its two's
    complement, a float as its bits), or nothing. *)
Definition word (e : list byte) : Z := foldr (fun b a => Z.of_N (Byte.to_N b) + 256 * a) 0 e.
Definition stores (n x : Z) (buf : list byte) (off : Z) (must : bool) (res : wres) : Prop :=
  (0 <= off -> off + n <= zlen buf -> exists e, zlen e = n /\ word e = x mod 256 ^ n /\
     res = WOk (take (Z.to_nat off) buf ++ e ++ drop (Z.to_nat off + Z.to_nat n) buf) (off + n)) /\
  (in_signed 64 (off + n) -> zlen buf < off + n -> res = if must then WPanic buf else WErr buf (-1)) /\
  (off < 0 -> off + n <= zlen buf -> res = WPanic buf).
Lemma word_dec e : word e = le_dec e.
Proof. induction e as [|b e IH]; [reflexivity|]. cbn [le_dec]. rewrite <- IH. reflexivity. Qed.
Lemma write_stores n z buf off : (0 < n)%nat -> stores (Z.of_nat n) z buf off false (bw_write buf (le_enc n z) off).
Proof.
  intros Hn. pose proof (zlen_le_enc n z) as L. unfold stores. split; [|split].
  - intros H0 H1. exists (le_enc n z). split; [exact L|]. split; [rewrite word_dec; apply le_dec_enc|]. rewrite bw_write_ok, do_stores_splice by (rewrite ?L; lia). rewrite L.
    assert (length (le_enc n z) = n) as -> by (unfold zlen in L; lia). by rewrite Nat2Z.id.
  - intros _ H. unfold bw_write. rewrite L. by replace (zlen buf <? off + Z.of_nat n) with true by lia.
  - intros H0 H1. unfold bw_write. rewrite L. replace (zlen buf <? off + Z.of_nat n) with false by lia. destruct n as [|n]; [lia|]. cbn [le_enc store_loop]. unfold bset.
    replace (off <? 0) with true by lia. reflexivity.
Qed.
Lemma must_stores n z buf off res : stores n z buf off false res -> stores n z buf off true (must res).
Proof.
  intros (A & B & C). split; [|split].
  - intros H0 H1. destruct (A H0 H1) as (e & E1 & E2 & ->). by exists e.
  - intros Hs H. by rewrite (B Hs H).
  - intros H0 H1. by rewrite (C H0 H1).
Qed.
Definition wwidth (t : wtype) : Z := match t with WInt32 | WUint32 | WFloat32 => 4 | _ => 8 end.
Theorem C07_typed t z buf off : stores (wwidth t) z buf off false (bw_write_typed t buf z off) /\ stores (wwidth t) z buf off true (bw_must_write_typed t buf z off).
Proof.
  assert (stores (wwidth t) z buf off false (bw_write_typed t buf z off)) as H by (destruct t; first [apply (write_stores 4)|apply (write_stores 8)]; lia).
  split; [exact H|]. by apply must_stores.
Qed.
Example C07_typed_ex : bw_write_typed WInt32 (zeros 6) (-2) 1 = WOk [x00; xfe; xff; xff; xff; x00] 5 /\ bw_must_write_typed WFloat64 (zeros 6) 0 1 = WPanic (zeros 6).
Proof. split; reflexivity. Qed.
(** A value of any other type is an error, and nothing is stored. *)
Theorem C07_write_val_other buf v off : (forall t z, v <> typed_val t z) -> (forall s, v <> VStr s) ->
  bw_write_val buf v off = WErr buf 0 /\ bw_must_write_val buf v off = WPanic buf.
Proof.
  intros H1 H2. destruct v as [z|z|z|z|z|z|z|z|s|]; try (split; reflexivity); exfalso;
    first [by apply (H1 WInt32 z)|by apply (H1 WInt64 z)|by apply (H1 WUint32 z)|by apply (H1 WUint64 z)|by apply (H1 WFloat32 z)|by apply (H1 WFloat64 z)|by apply (H2 s)].
Qed.
Example C07_write_val_other_ex : bw_write_val (zeros 6) (VInt 7) 0 = WErr (zeros 6) 0.
Proof. reflexivity. Qed.

(** ** C08 *)
(** [tr] is any interleaving of the byte stores of the given Write calls. *)
Theorem C08_disjoint_writes buf ws ws' tr :
  Forall (in_range buf) ws -> ForallOrdPairs apart ws -> ws' ≡ₚ ws ->
  ileave (map (fun w : wreq => stores_of w.1 w.2) ws) tr ->
  do_stores buf tr = seq_writes buf ws'.
Proof. exact (concurrent_writes buf ws ws' tr). Qed.
Example C08_disjoint_writes_ex :
  let ws := [(0, str "ab"); (3, str "cd")] in
  Forall (in_range (zeros 6)) ws /\ ForallOrdPairs apart ws /\
  ileave (map (fun w : wreq => stores_of w.1 w.2) ws) [(3, "c"%byte); (0, "a"%byte); (4, "d"%byte); (1, "b"%byte)] /\
  do_stores (zeros 6) [(3, "c"%byte); (0, "a"%byte); (4, "d"%byte); (1, "b"%byte)] = str "ab" ++ [x00] ++ str "cd" ++ [x00].
Proof.
  cbv zeta. split_and!.
  - repeat (apply Forall_cons_2; [split; cbv; congruence|]). apply Forall_nil_2.
  - apply FOP_cons; [apply Forall_cons_2; [left; cbv; congruence|apply Forall_nil_2]|]. apply FOP_cons; [apply Forall_nil_2|constructor].
  - apply (il_cons [[(0, "a"%byte); (1, "b"%byte)]] (3, "c"%byte) [(4, "d"%byte)] []).
    apply (il_cons [] (0, "a"%byte) [(1, "b"%byte)] [[(4, "d"%byte)]]).
    apply (il_cons [[(1, "b"%byte)]] (4, "d"%byte) [] []).
    apply (il_cons [] (1, "b"%byte) [] [[]]). apply il_nil. repeat constructor.
  - reflexivity.
Qed.

(** ** C09 *)
(** [vtyped t v]: [v] is a value of the Go type of metric type [t] (View.v). *)
Theorem C09_round_trip buf off t v :
  vtyped t v -> t <> StringType -> 0 <= off -> off + 8 <= zlen buf -> sub off 8 buf = zeros 8 ->
  exists buf' pos, bw_write_val buf v off = WOk buf' pos /\ FixedVal (u64 off buf') t = Some v.
Proof. exact (write_val_read buf off t v). Qed.
Example C09_round_trip_ex : exists buf', bw_write_val (zeros 32) (VInt32 (-5)) 16 = WOk buf' 20 /\ FixedVal (u64 16 buf') Int32Type = Some (VInt32 (-5)).
Proof. eexists. split; reflexivity. Qed.
Example C09_round_trip_ex_nan : exists buf', bw_write_val (zeros 8) (VF64 0x7FF8000000000123) 0 = WOk buf' 8 /\ FixedVal (u64 0 buf') DoubleType = Some (VF64 0x7FF8000000000123).
Proof. eexists. split; reflexivity. Qed.

Print Assumptions C07_write_in_range.
Print Assumptions C07_write_error.
Print Assumptions C07_write_negative.
Print Assumptions C07_write_overflow.
Print Assumptions C07_write_error_overflow_refuted.
Print Assumptions C07_write_model.
Print Assumptions C07_must_write.
Print Assumptions C07_write_string.
Print Assumptions C07_typed.
Print Assumptions C07_write_val_other.
Print Assumptions C08_disjoint_writes.
Print Assumptions C09_round_trip.
