(** A pcp.conf of which the scanner sees nothing, because its first line is too long. *)
From Verif Require Import Base BaseFacts Utf8 Utf8Facts Regexp RegexpFacts Path PathFacts Config ConfigFacts.

Definition long_line : gostring := replicate (Z.to_nat 65536) x23.
Definition long_conf : gostring := long_line ++ x0a :: str "A=b".

Lemma long_line_length : zlen long_line = 65536.
Proof. unfold zlen, long_line. rewrite replicate_length. lia. Qed.

Lemma long_line_nl : x0a ∉ long_line.
Proof. unfold long_line. rewrite elem_of_replicate. intros [H _]. discriminate. Qed.

Lemma long_split : split_on x0a long_conf = [long_line; str "A=b"].
Proof. unfold long_conf. rewrite split_on_app, (split_on_none _ _ long_line_nl). reflexivity. Qed.

Lemma long_map : conf_map long_conf = ∅.
Proof.
  rewrite (conf_map_long long_conf [] long_line).
  - reflexivity.
  - apply line_of_iff. exists 0%nat. rewrite long_split. done.
  - rewrite long_line_length. lia.
  - apply lines_short_forall. cbn. constructor; [unfold zlen; cbn; lia|constructor].
Qed.

Lemma defines_ab : defines (str "A=b") (str "A") (str "b").
Proof. apply conf_line_spec; [apply (bool_decide_eq_true_1 _); vm_compute; reflexivity|vm_compute; reflexivity]. Qed.

Lemma long_value : conf_value long_conf (str "A") (str "b").
Proof.
  exists (with_nl [long_line]), (str "A=b"), (str "A=b"). split_and!.
  - apply line_of_iff. exists 1%nat. rewrite long_split. done.
  - apply drop_cr_stripped. reflexivity.
  - apply defines_ab.
  - intros a raw ln v L _ _. apply line_of_iff in L as (i & H & ->). rewrite long_split in H |- *.
    assert (i <= 1)%nat as Hi by (apply lookup_lt_Some in H; cbn in H; lia). unfold zlen. apply inj_le.
    apply (with_nl_length [long_line; str "A=b"] i 1 Hi).
Qed.
