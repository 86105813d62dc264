(** Reading the sections of a file laid out in equal slots. *)
From Verif Require Import Base BaseFacts Floats GoVal Mmvdump BufFacts Tiling.

Fixpoint slots (b len : Z) (n : nat) : list Z :=
  match n with O => [] | S n => b :: slots (b + len) len n end.

Lemma slots_length b len n : length (slots b len n) = n.
Proof. revert b; induction n; intros; cbn; auto. Qed.

Lemma elem_slots b len n o : o ∈ slots b len n <-> exists k : nat, (k < n)%nat /\ o = b + len * Z.of_nat k.
Proof.
  revert b; induction n as [|n IH]; intros b; cbn [slots].
  - split; [intros H; inversion H|]. intros (k & Hk & _). lia.
  - rewrite elem_of_cons, IH. split.
    + intros [->|(k & Hk & ->)]; [exists 0%nat; lia|]. exists (S k). lia.
    + intros (k & Hk & ->). destruct k; [left; lia|right]. exists k. lia.
Qed.

Lemma slots_NoDup b len n : 0 < len -> NoDup (slots b len n).
Proof.
  intros Hl. revert b; induction n as [|n IH]; intros b; cbn [slots]; constructor; auto.
  rewrite elem_slots. intros (k & Hk & E). lia.
Qed.

Lemma slots_seq b len n : slots b len n = map (fun k => b + len * Z.of_nat k) (seq 0 n).
Proof.
  revert b; induction n as [|n IH]; intros b; cbn [slots seq map]; [reflexivity|]. f_equal; [lia|].
  rewrite IH, <- seq_shift, map_map. apply map_ext. intros. lia.
Qed.

Lemma slots_chained b len n : 0 < len -> chained b (map (fun o => (o, len)) (slots b len n)) (b + len * Z.of_nat n).
Proof.
  intros Hl. revert b; induction n as [|n IH]; intros b; cbn [slots map chained]; [lia|]. split_and!; try lia.
  replace (b + len * Z.of_nat (S n)) with (b + len + len * Z.of_nat n) by lia. apply IH.
Qed.

Lemma chained_slots b A e len : chained b A e -> Forall (fun x => x.2 = len) A -> map fst A = slots b len (length A).
Proof.
  revert b; induction A as [|[v n] A IH]; intros b HC HF; [reflexivity|]. cbn in HC. destruct HC as (-> & Hn & HC).
  inversion HF as [|? ? H1 H2]; subst. cbn in *. subst. f_equal. apply IH; auto.
Qed.

Lemma chained_slots_count b A e len n : 0 < len -> chained b A e -> Forall (fun x => x.2 = len) A -> e = b + len * Z.of_nat n ->
  map fst A = slots b len n.
Proof.
  intros Hl HC HF ->. rewrite (chained_slots _ _ _ _ HC HF). f_equal.
  assert (forall b e, chained b A e -> e = b + len * Z.of_nat (length A)) as H.
  { clear -HF. induction HF as [|[v k] A Hx HF IH]; intros b e H; cbn in *; [lia|]. destruct H as (-> & _ & H). apply IH in H. lia. }
  specialize (H _ _ HC). nia.
Qed.

(** What readItems returns for a section inside the file. *)
Definition section {A} (b len : Z) (n : nat) (dec : Z -> A) : gmap Z A :=
  list_to_map (map (fun o => (o, dec o)) (slots b len n)).

Lemma read_items_n_ok {A} (dec : list byte -> Z -> A) data len n : forall b acc,
  0 < len -> 0 <= b -> b + len * Z.of_nat n <= zlen data -> zlen data < 2 ^ 63 ->
  (forall k, (k < n)%nat -> acc !! (b + len * Z.of_nat k) = None) ->
  read_items_n n b len (read_at len dec data) acc = IOk (section b len n (dec data) ∪ acc).
Proof.
  induction n as [|n IH]; intros b acc Hl Hb Hlen Hsz Hacc.
  - cbn. f_equal. unfold section. cbn. by rewrite (left_id_L ∅ (∪)).
  - cbn [read_items_n]. unfold read_at at 1. rewrite !to_unsigned_id by (unfold in_unsigned; lia).
    replace (zlen data <? b + len) with false by lia. replace (zlen data <=? b) with false by lia.
    rewrite IH; try lia.
    + f_equal. unfold section. cbn [slots map]. rewrite list_to_map_cons.
      rewrite <- insert_union_r, insert_union_l; [reflexivity|].
      apply not_elem_of_list_to_map_1. rewrite <- list_fmap_compose. intros H.
      apply elem_of_list_fmap in H as (o & E & H). cbn in E. subst o. apply elem_slots in H as (k & Hk & E). lia.
    + intros k Hk. rewrite lookup_insert_ne by lia. replace (b + len + len * Z.of_nat k) with (b + len * Z.of_nat (S k)) by lia. apply Hacc. lia.
Qed.

Lemma read_items_ok {A} (dec : list byte -> Z -> A) data len b count :
  0 < len -> 0 <= b -> 0 <= count -> b + len * count <= zlen data -> zlen data < 2 ^ 63 ->
  readItems b count len (read_at len dec data) = IOk (section b len (Z.to_nat count) (dec data)).
Proof.
  intros. unfold readItems. replace (count <? 0) with false by lia.
  rewrite read_items_n_ok; try lia.
  - by rewrite (right_id_L ∅ (∪)).
  - intros. apply lookup_empty.
Qed.

Lemma read_items_empty {A} (dec : list byte -> Z -> A) data len b : readItems b 0 len (read_at len dec data) = IOk ∅.
Proof. reflexivity. Qed.

Lemma section_lookup {A} b len n (dec : Z -> A) o : 0 < len -> o ∈ slots b len n -> section b len n dec !! o = Some (dec o).
Proof.
  intros Hl Ho. unfold section. apply elem_of_list_to_map_1.
  - rewrite <- list_fmap_compose. change (NoDup (map (fun x => x) (slots b len n))). rewrite map_id. by apply slots_NoDup.
  - apply elem_of_list_fmap. eauto.
Qed.

Lemma section_recs {A} b len n (dec : Z -> A) : 0 < len -> (map_to_list (section b len n dec)).*2 ≡ₚ map dec (slots b len n).
Proof.
  intros Hl. unfold section. rewrite map_to_list_to_map.
  - rewrite <- list_fmap_compose. reflexivity.
  - rewrite <- list_fmap_compose. change (NoDup (map (fun x => x) (slots b len n))). rewrite map_id. by apply slots_NoDup.
Qed.
