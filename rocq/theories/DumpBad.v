(** Exactly which inputs can make the reader panic or block, and concrete ones. *)
From Verif Require Import Base BaseFacts Floats GoVal Mmvdump DumpSched DumpFacts DumpSeq DumpTrunc.

(** ** Specification *)
(** The bytes of a record of each type. *)
Definition record_len (version ty : Z) : Z :=
  if ty =? 1 then 32 else if ty =? 2 then (if version =? 2 then 24 else 80) else if ty =? 3 then (if version =? 2 then 48 else 104) else if ty =? 4 then 32 else 256.
(** An entry of the table of contents of an input of [n] bytes that can take the reader down:
    unknown type, negative count, or an item whose end wraps around 2^64 to a position in the file. *)
Definition bad_entry (n version : Z) (t : toc) : Prop :=
  ~ (1 <= tc_type t <= 5) \/ tc_count t < 0 \/
  exists k, 0 <= k < tc_count t /\
    let e := (tc_offset t + k * record_len version (tc_type t)) mod 2 ^ 64 + record_len version (tc_type t) - 2 ^ 64 in 0 <= e <= n.
Definition bad_input (data : list byte) : Prop :=
  exists h, readHeader data = Some h /\
    (hd_toc h < 0 \/ exists tocs, read_tocs data 40 (Z.to_nat (hd_toc h)) = Some tocs /\ Exists (bad_entry (zlen data) (hd_version h)) tocs).
Definition orderly (o : dres) : Prop := o = DErr \/ exists d, o = DOk d.

(** ** Proof *)
Lemma record_len_eq version ty : item_len version ty = record_len version ty.
Proof.
  unfold item_len, d_inst_len, d_metric_len, record_len, TocInstances, TocIndoms, TocMetrics, TocValues. destruct (Z.eqb_spec ty 2) as [->|]; [reflexivity|].
  destruct (ty =? 1), (ty =? 3), (ty =? 4); reflexivity.
Qed.
Lemma elem_item_offs len n : forall off o, 0 <= off < 2 ^ 64 ->
  (o ∈ item_offs off len n <-> exists k, 0 <= k < Z.of_nat n /\ o = (off + k * len) mod 2 ^ 64).
Proof.
  induction n as [|n IH]; intros off o H; cbn [item_offs].
  - rewrite elem_of_nil. split; [done|]. intros (k & Hk & _). lia.
  - rewrite elem_of_cons, IH by (unfold to_unsigned; apply Z.mod_pos_bound; lia). unfold to_unsigned. split.
    + intros [->|(k & Hk & ->)]; [exists 0; split; [lia|]; rewrite Z.mod_small; lia|]. exists (k + 1). split; [lia|]. rewrite Zplus_mod_idemp_l. f_equal. lia.
    + intros (k & Hk & ->). destruct (Z.eq_dec k 0) as [->|]; [left; rewrite Z.mod_small; lia|]. right. exists (k - 1). split; [lia|]. rewrite Zplus_mod_idemp_l. f_equal. lia.
Qed.
Lemma read_panics data version t o : zlen data < 2 ^ 63 -> 0 <= o < 2 ^ 64 ->
  (rd data version t o = IPanic <-> 0 <= o + item_len version (tc_type t) - 2 ^ 64 <= zlen data).
Proof.
  intros HL Ho. unfold rd, read_item, read_at. pose proof (item_len_pos version (tc_type t)) as P. set (L := item_len version (tc_type t)) in *. clearbody L.
  unfold to_unsigned. destruct (Z_lt_dec (o + L) (2 ^ 64)) as [A|A].
  - rewrite Z.mod_small by lia. destruct (zlen data <? o + L) eqn:E1; [split; [done|lia]|]. replace (zlen data <=? o) with false by lia. split; [done|lia].
  - assert ((o + L) mod 2 ^ 64 = o + L - 2 ^ 64) as ->.
    { replace (o + L) with (o + L - 2 ^ 64 + 1 * 2 ^ 64) at 1 by lia. rewrite Z.mod_add by lia. apply Z.mod_small. lia. }
    destruct (zlen data <? _) eqn:E1; [split; [done|lia]|]. replace (zlen data <=? o) with true by lia. split; [lia|done].
Qed.
Lemma known_range t : known_type t = true <-> 1 <= t <= 5.
Proof. unfold known_type, TocInstances, TocIndoms, TocMetrics, TocValues, TocStrings. lia. Qed.
Lemma bad_entry_spec data version t : zlen data < 2 ^ 63 -> 0 <= tc_offset t < 2 ^ 64 ->
  (bad_entry (zlen data) version t <-> known_type (tc_type t) = false \/ tc_count t < 0 \/ exists o, o ∈ sect_offs version t /\ rd data version t o = IPanic).
Proof.
  intros HL Ho. unfold bad_entry. rewrite <- record_len_eq.
  assert (~ (1 <= tc_type t <= 5) <-> known_type (tc_type t) = false) as E1 by (rewrite <- known_range; destruct (known_type (tc_type t)); split; intros; congruence || done).
  rewrite E1. apply or_iff_compat_l. destruct (Z_lt_dec (tc_count t) 0) as [C|C]; [tauto|]. apply or_iff_compat_l. split.
  - intros (k & Hk & He). cbn zeta in He. exists ((tc_offset t + k * item_len version (tc_type t)) mod 2 ^ 64). split.
    + apply elem_item_offs; [done|]. exists k. split; [lia|done].
    + apply read_panics; [done|apply Z.mod_pos_bound; lia|done].
  - intros (o & Hin & Hp). apply elem_item_offs in Hin as (k & Hk & ->); [|done]. exists k. split; [lia|]. apply read_panics in Hp; [done|done|apply Z.mod_pos_bound; lia].
Qed.
Lemma header_toc data h : readHeader data = Some h -> zlen data >= 40.
Proof. unfold readHeader, DHeaderLength. destruct (zlen data <? 40) eqn:E; [done|lia]. Qed.

Lemma dump_tocs_eq data h tocs : dump_tocs data = Some (h, tocs) <-> readHeader data = Some h /\ 0 <= hd_toc h /\ read_tocs data 40 (Z.to_nat (hd_toc h)) = Some tocs.
Proof.
  unfold dump_tocs, DHeaderLength. destruct (readHeader data) as [h'|]; [|split; [done|intros [? _]; done]]. destruct (hd_toc h' <? 0) eqn:E.
  - split; [done|]. intros ([= ->] & ? & _). lia.
  - split.
    + destruct (read_tocs data 40 (Z.to_nat (hd_toc h'))) as [l|] eqn:El; [|done]. intros [= -> ->]. split; [done|]. split; [lia|exact El].
    + intros ([= ->] & _ & ->). done.
Qed.

Lemma unknown_type_not_orderly data h tocs t o : dump_tocs data = Some (h, tocs) -> t ∈ tocs -> known_type (tc_type t) = false -> dump_run data o -> ~ orderly o.
Proof.
  intros E Ht K R. destruct (tocs_run _ _ _ _ E R) as [(ss & res & R1 & R2 & _)|[[_ ->]|(ss & res & _ & _ & _ & ->)]].
  - exfalso. eapply unknown_never_returns; [|exact R1|exact R2]. eauto.
  - intros [?|[? ?]]; done.
  - intros [?|[? ?]]; done.
Qed.
Lemma decide_bad {A} (l : list A) (P Q : A -> Prop) : (forall x, x ∈ l -> P x \/ Q x) -> Exists P l \/ Forall Q l.
Proof.
  induction l as [|x l IH]; intros H; [right; constructor|]. destruct (H x) as [A1|A1]; [by left|left; by constructor|].
  destruct IH as [B|B]; [intros y Hy; apply H; by right|left; by constructor|right; by constructor].
Qed.
Lemma bad_input_exact data : zlen data < 2 ^ 63 -> (bad_input data <-> exists o, dump_run data o /\ ~ orderly o).
Proof.
  intros HL. split.
  - intros (h & Eh & [C|(tocs & Et & Hex)]).
    + exists DPanic. split; [by eapply dr_count|]. intros [?|[? ?]]; done.
    + destruct (Z_lt_dec (hd_toc h) 0) as [C|C]; [exists DPanic; split; [by eapply dr_count|]; intros [?|[? ?]]; done|].
      assert (dump_tocs data = Some (h, tocs)) as ED by (apply dump_tocs_eq; split_and!; auto; lia).
      apply Exists_exists in Hex as (t & Ht & B). pose proof (tocs_offset _ _ _ _ ED Ht) as HO. apply bad_entry_spec in B; auto.
      destruct (known_type (tc_type t)) eqn:K.
      * exists DPanic. split; [|intros [?|[? ?]]; done]. eapply dr_crash; [exact Eh|lia|exact Et|].
        destruct (Z_lt_dec (tc_count t) 0) as [N|N]; [eapply count_panics; eauto|]. destruct B as [?|[?|(o & Ho & Hp)]]; [done|lia|]. eapply item_panics; eauto. lia.
      * destruct (dump_run_total data) as [o R]. exists o. split; [done|]. eapply unknown_type_not_orderly; eauto.
  - intros (o & R & N). destruct (readHeader data) as [h|] eqn:Eh.
    2: { exfalso. apply N. left. inversion R; try congruence. }
    exists h. split; [done|]. destruct (Z_lt_dec (hd_toc h) 0) as [C|C]; [by left|right].
    destruct (read_tocs data 40 (Z.to_nat (hd_toc h))) as [tocs|] eqn:Et.
    2: { exfalso. apply N. left. inversion R as [|h' E' C'|h' E' C' T'|h' tocs' ss res E' C' T'|h' tocs' E' C' T'|h' tocs' ss res E' C' T']; subst; try done;
         rewrite Eh in E'; injection E' as <-; [lia| | |]; unfold DHeaderLength in T'; congruence. }
    exists tocs. split; [done|].
    assert (dump_tocs data = Some (h, tocs)) as ED by (apply dump_tocs_eq; split_and!; auto; lia).
    assert (forall t, t ∈ tocs -> bad_entry (zlen data) (hd_version h) t \/ sect_safe data (hd_version h) t) as G.
    { intros t Ht. pose proof (tocs_offset _ _ _ _ ED Ht) as HO. rewrite bad_entry_spec by auto. destruct (known_type (tc_type t)) eqn:K; [|auto].
      destruct (Z_lt_dec (tc_count t) 0); [auto|]. 
      assert ((exists o, o ∈ sect_offs (hd_version h) t /\ rd data (hd_version h) t o = IPanic) \/ (forall o, o ∈ sect_offs (hd_version h) t -> rd data (hd_version h) t o <> IPanic)) as [?|?].
      { clear. induction (sect_offs (hd_version h) t) as [|a l [(o & H1 & H2)|IH]].
        - right. intros o Ho. by apply elem_of_nil in Ho.
        - left. exists o. split; [by right|done].
        - destruct (rd data (hd_version h) t a) eqn:E; [right|right|left; exists a; split; [by left|done]]; intros o Ho; apply elem_of_cons in Ho as [->|Ho]; auto; congruence. }
      - auto.
      - right. split_and!; auto. lia. }
    destruct (decide_bad tocs (bad_entry (zlen data) (hd_version h)) _ G) as [?|F]; [done|].
    exfalso. apply N. eapply safe_outcome; eauto.
Qed.

(** A test of inputs. *)
Definition good_check (data : list byte) : bool :=
  match dump_tocs data with
  | Some (h, tocs) => bool_decide (NoDup (map tc_type tocs)) &&
      forallb (fun t => known_type (tc_type t) && (0 <=? tc_count t) && (tc_offset t + tc_count t * item_len (hd_version h) (tc_type t) <? 2 ^ 64)) tocs
  | None => false
  end.
Lemma good_check_run data o : good_check data = true -> Dump data = o -> dump_run data o.
Proof.
  unfold good_check. destruct (dump_tocs data) as [[h tocs]|] eqn:E; [|done]. intros H <-. apply andb_prop in H as [H1 H2]. apply bool_decide_eq_true in H1.
  destruct (dump_run_total data) as [o R]. rewrite <- (safe_run _ _ _ o E H1); [done| |done]. apply Forall_forall. intros t Ht. apply elem_of_list_In in Ht as Hi.
  rewrite forallb_forall in H2. specialize (H2 t Hi). apply andb_prop in H2 as [H2 H3]. apply andb_prop in H2 as [H2 H4].
  pose proof (tocs_offset _ _ _ _ E Ht). apply nowrap_safe; [done|lia|lia|lia].
Qed.
