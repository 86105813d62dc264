(** The sequential reader of Mmvdump.v is one of the schedules of DumpSched.v: the sections one after
    the other, in each section the items one after the other. *)
From Verif Require Import Base BaseFacts Floats GoVal Mmvdump DumpSched DumpFacts DumpSeq DumpTrunc DumpBad.

Section run.
Context (data : list byte) (version : Z).
Notation step := (dstep data version).

(** *** One section *)
Definition ended (os : list Z) : list (Z * gpc) := map (fun o => (o, GEnd)) os.
Lemma ended_all os : all_end (ended os).
Proof. apply Forall_forall. intros p Hp. by apply elem_of_list_fmap in Hp as (o & -> & _). Qed.
Definition checks (os : list Z) : list (Z * gpc) := map (fun o => (o, GCheck)) os.

Lemma item_step l1 l2 res t ps1 o p p' ps2 items err items' err' : p <> GEnd ->
  gpc_step data version (mkSect t true (ps1 ++ (o, p) :: ps2) items err false) o p = Some (p', items', err') ->
  step (DRun (l1 ++ mkSect t true (ps1 ++ (o, p) :: ps2) items err false :: l2) res) (DRun (l1 ++ mkSect t true (ps1 ++ (o, p') :: ps2) items' err' false :: l2) res).
Proof. intros N H. exact (ds_item data version l1 (mkSect t true (ps1 ++ (o, p) :: ps2) items err false) l2 res ps1 o p ps2 p' items' err' eq_refl eq_refl N H). Qed.

(** After an error the remaining goroutines do nothing. *)
Lemma run_skip l1 l2 res t items os : forall ds,
  rtc step (DRun (l1 ++ mkSect t true (ended ds ++ checks os) items true false :: l2) res) (DRun (l1 ++ mkSect t true (ended (ds ++ os)) items true false :: l2) res).
Proof.
  induction os as [|o os IH]; intros ds; [rewrite !app_nil_r; apply rtc_refl|]. eapply rtc_l; [eapply item_step; [discriminate|reflexivity]|]. cbn [s_err s_items].
  specialize (IH (ds ++ [o])). rewrite <- app_assoc in IH. unfold ended in IH at 1. rewrite map_app, <- app_assoc in IH. exact IH.
Qed.
Lemma run_items l1 l2 res t len n : forall off ds acc, item_len version (tc_type t) = len ->
  read_items_n n off len (rd data version t) acc <> IPanic ->
  let r := read_items_n n off len (rd data version t) acc in
  exists items, rtc step (DRun (l1 ++ mkSect t true (ended ds ++ checks (item_offs off len n)) acc false false :: l2) res)
    (DRun (l1 ++ mkSect t true (ended (ds ++ item_offs off len n)) items (match r with IOk _ => false | _ => true end) false :: l2) res) /\
    (forall m, r = IOk m -> items = m).
Proof.
  intros off ds acc El. revert off ds acc. induction n as [|n IH]; intros off ds acc; cbn [read_items_n item_offs].
  { intros _. exists acc. rewrite !app_nil_r. split; [apply rtc_refl|]. by intros m [= ->]. }
  destruct (rd data version t off) as [x| |] eqn:E; intros N; [| |done].
  - destruct (IH (to_unsigned 64 (off + len)) (ds ++ [off]) (<[off := x]> acc) N) as (items & R & Hi). exists items. split; [|exact Hi].
    eapply rtc_l; [eapply item_step; [discriminate|reflexivity]|]. cbn [s_err s_items].
    eapply rtc_l; [eapply item_step; [discriminate|cbn [gpc_step s_toc]; unfold rd in E; rewrite E; reflexivity]|]. cbn [s_err s_items].
    eapply rtc_l; [eapply item_step; [discriminate|reflexivity]|]. cbn [s_err s_items].
    rewrite <- app_assoc in R. unfold ended in R at 1. rewrite map_app, <- app_assoc in R. exact R.
  - exists acc. split; [|done].
    eapply rtc_l; [eapply item_step; [discriminate|reflexivity]|]. cbn [s_err s_items].
    eapply rtc_l; [eapply item_step; [discriminate|cbn [gpc_step s_toc]; unfold rd in E; rewrite E; reflexivity]|]. cbn [s_err s_items].
    eapply rtc_l; [eapply item_step; [discriminate|reflexivity]|]. cbn [s_err s_items].
    pose proof (run_skip l1 l2 res t acc (item_offs (to_unsigned 64 (off + len)) len n) (ds ++ [off])) as R.
    rewrite <- app_assoc in R. unfold ended in R at 1. rewrite map_app, <- app_assoc in R. exact R.
Qed.

Definition rd_items (t : toc) : ires (gmap Z ditem) := readItems (tc_offset t) (tc_count t) (item_len version (tc_type t)) (rd data version t).
Lemma run_section l1 l2 res t : known_type (tc_type t) = true -> rd_items t <> IPanic ->
  exists s, rtc step (DRun (l1 ++ new_sect t :: l2) res) (DRun (l1 ++ s :: l2) (<[tc_type t := match rd_items t with IOk m => Some m | _ => None end]> res)) /\ s_ret s = true.
Proof.
  intros K. unfold rd_items, readItems. destruct (tc_count t <? 0) eqn:C; [done|]. intros N. set (offs := item_offs (tc_offset t) (item_len version (tc_type t)) (Z.to_nat (tc_count t))).
  destruct (run_items l1 l2 res t _ _ (tc_offset t) [] ∅ eq_refl N) as (items & R & Hi). cbn zeta in R, Hi. fold offs in R. cbn [app] in R.
  eexists. split.
  - eapply rtc_l; [apply (ds_start data version l1 (new_sect t) l2 res); [done|done|cbn; lia]|]. cbn [s_toc new_sect]. eapply rtc_transitive; [exact R|].
    eapply rtc_l; [|apply rtc_refl].
    pose proof (ds_return data version l1 (mkSect t true (ended offs) items (match read_items_n (Z.to_nat (tc_count t)) (tc_offset t) (item_len version (tc_type t)) (rd data version t) ∅ with IOk _ => false | _ => true end) false) l2 res eq_refl eq_refl (ended_all offs)) as S1.
    cbn [s_toc s_pcs s_items s_err] in S1.
    replace (match read_items_n _ _ _ _ _ with IOk m => Some m | _ => None end) with
      (if match read_items_n (Z.to_nat (tc_count t)) (tc_offset t) (item_len version (tc_type t)) (rd data version t) ∅ with IOk _ => false | _ => true end then None else Some items).
    { exact S1. }
    destruct (read_items_n _ _ _ _ _) eqn:E; [by rewrite (Hi _ eq_refl)|done..].
  - reflexivity.
Qed.

(** *** The typed result of a section *)
Section typed.
Context {A : Type} (ty len : Z) (dec : list byte -> Z -> A) (as_x : ditem -> option A) (proj : comps -> ires (gmap Z A)).
Context (SL : slot data version ty len dec as_x proj).
Definition typed_res (r : ires (gmap Z ditem)) : ires (gmap Z A) := match r with IOk m => IOk (omap as_x m) | IErr => IErr | IPanic => IPanic end.
Lemma items_typed t n : tc_type t = ty -> forall off acc,
  read_items_n n off len (read_at len dec data) (omap as_x acc) = typed_res (read_items_n n off len (rd data version t) acc).
Proof using SL.
  intros Ht. induction n as [|n IH]; intros off acc; [done|]. cbn [read_items_n]. rewrite (rd_slot _ _ _ _ _ _ _ SL t off Ht). destruct (rd data version t off) as [x| |] eqn:E; [|done..].
  rewrite <- IH. f_equal. pose proof (rd_val _ _ _ _ _ _ _ SL t off x Ht E) as ->. symmetry. apply omap_insert_Some. apply (sl_as _ _ _ _ _ _ _ SL).
Qed.
Lemma sect_typed t : tc_type t = ty -> readItems (tc_offset t) (tc_count t) len (read_at len dec data) = typed_res (rd_items t).
Proof using SL.
  intros Ht. unfold rd_items, readItems. destruct (tc_count t <? 0); [done|]. rewrite Ht, (sl_len _ _ _ _ _ _ _ SL). rewrite <- (items_typed t _ Ht). by rewrite omap_empty.
Qed.
Definition agree (c : comps) (res : gmap Z (option (gmap Z ditem))) : Prop :=
  proj c = match res !! ty with Some None => IErr | r => IOk (typed as_x r) end.
Lemma agree_known c res t : agree c res -> rd_items t <> IPanic ->
  agree (read_component data version c t) (<[tc_type t := match rd_items t with IOk m => Some m | _ => None end]> res).
Proof using SL.
  unfold agree. intros H N. rewrite (sl_step _ _ _ _ _ _ _ SL). destruct (Z.eqb_spec (tc_type t) ty) as [E|E]; [|by rewrite lookup_insert_ne].
  rewrite (sect_typed t E), E, lookup_insert. by destruct (rd_items t).
Qed.
Lemma agree_other c res t : agree c res -> tc_type t <> ty -> agree (read_component data version c t) res.
Proof using SL. unfold agree. intros H N. rewrite (sl_step _ _ _ _ _ _ _ SL). by rewrite (proj2 (Z.eqb_neq _ _) N). Qed.
End typed.
Definition agree_all (c : comps) (res : gmap Z (option (gmap Z ditem))) : Prop :=
  agree TocMetrics as_metric co_metrics c res /\ agree TocValues as_value co_values c res /\ agree TocInstances as_instance co_instances c res /\
  agree TocIndoms as_indom co_indoms c res /\ agree TocStrings as_string co_strings c res.
Lemma agree_all_known c res t : agree_all c res -> rd_items t <> IPanic ->
  agree_all (read_component data version c t) (<[tc_type t := match rd_items t with IOk m => Some m | _ => None end]> res).
Proof.
  intros (H1 & H2 & H3 & H4 & H5) N. split_and!.
  - exact (agree_known _ _ _ _ _ (slot_metrics data version) _ _ _ H1 N).
  - exact (agree_known _ _ _ _ _ (slot_values data version) _ _ _ H2 N).
  - exact (agree_known _ _ _ _ _ (slot_instances data version) _ _ _ H3 N).
  - exact (agree_known _ _ _ _ _ (slot_indoms data version) _ _ _ H4 N).
  - exact (agree_known _ _ _ _ _ (slot_strings data version) _ _ _ H5 N).
Qed.
Lemma agree_all_unknown c res t : agree_all c res -> known_type (tc_type t) = false -> agree_all (read_component data version c t) res.
Proof.
  intros (H1 & H2 & H3 & H4 & H5) N. unfold known_type in N. repeat (apply orb_false_iff in N as [N ?]). repeat match goal with H : (_ =? _) = false |- _ => apply Z.eqb_neq in H end. split_and!.
  - by apply (agree_other _ _ _ _ _ (slot_metrics data version)).
  - by apply (agree_other _ _ _ _ _ (slot_values data version)).
  - by apply (agree_other _ _ _ _ _ (slot_instances data version)).
  - by apply (agree_other _ _ _ _ _ (slot_indoms data version)).
  - by apply (agree_other _ _ _ _ _ (slot_strings data version)).
Qed.

(** *** Panics *)
Lemma typed_panic {A} (as_x : ditem -> option A) r : is_ipanic (typed_res as_x r) = is_ipanic r.
Proof. by destruct r. Qed.
Lemma panic_step c t : co_panic (read_component data version c t) = co_panic c || known_type (tc_type t) && is_ipanic (rd_items t).
Proof.
  unfold read_component, known_type.
  destruct (Z.eqb_spec (tc_type t) TocInstances) as [E|_]; [cbn [co_panic]; by rewrite (sect_typed _ _ _ _ _ (slot_instances data version) t E), typed_panic|].
  destruct (Z.eqb_spec (tc_type t) TocIndoms) as [E|_]; [cbn [co_panic]; by rewrite (sect_typed _ _ _ _ _ (slot_indoms data version) t E), typed_panic|].
  destruct (Z.eqb_spec (tc_type t) TocMetrics) as [E|_]; [cbn [co_panic]; by rewrite (sect_typed _ _ _ _ _ (slot_metrics data version) t E), typed_panic|].
  destruct (Z.eqb_spec (tc_type t) TocValues) as [E|_]; [cbn [co_panic]; by rewrite (sect_typed _ _ _ _ _ (slot_values data version) t E), typed_panic|].
  destruct (Z.eqb_spec (tc_type t) TocStrings) as [E|_]; [cbn [co_panic]; by rewrite (sect_typed _ _ _ _ _ (slot_strings data version) t E), typed_panic|].
  cbn. by rewrite orb_false_r.
Qed.
Lemma panic_fold tocs : forall c, co_panic (foldl (read_component data version) c tocs) = co_panic c || existsb (fun t => known_type (tc_type t) && is_ipanic (rd_items t)) tocs.
Proof. induction tocs as [|t tocs IH]; intros c; cbn [foldl existsb]; [by rewrite orb_false_r|]. by rewrite IH, panic_step, orb_assoc. Qed.
Lemma items_panic t len n : forall off acc, read_items_n n off len (rd data version t) acc = IPanic -> exists o, o ∈ item_offs off len n /\ rd data version t o = IPanic.
Proof.
  induction n as [|n IH]; intros off acc; cbn [read_items_n item_offs]; [done|]. destruct (rd data version t off) as [x| |] eqn:E; [|done|intros _; exists off; split; [by left|done]].
  intros H. destruct (IH _ _ H) as (o & Ho & P). exists o. split; [by right|done].
Qed.
Lemma panic_crashes tocs : existsb (fun t => known_type (tc_type t) && is_ipanic (rd_items t)) tocs = true -> rtc step (dinit tocs) DCrash.
Proof.
  intros H. apply existsb_exists in H as (t & Ht & H). apply elem_of_list_In in Ht. apply andb_prop in H as [K P]. unfold rd_items, readItems in P.
  destruct (tc_count t <? 0) eqn:C; [apply (count_panics data version tocs t); auto; lia|].
  destruct (read_items_n _ _ _ _ _) eqn:E; try done. apply items_panic in E as (o & Ho & Hp). apply (item_panics data version tocs t o); auto. lia.
Qed.

(** *** All sections *)
Lemma run_sections tocs : forall c res ds, agree_all c res -> (forall s, s ∈ ds -> s_ret s = true \/ known_type (tc_type (s_toc s)) = false) ->
  existsb (fun t => known_type (tc_type t) && is_ipanic (rd_items t)) tocs = false ->
  exists ss res', rtc step (DRun (ds ++ map new_sect tocs) res) (DRun ss res') /\ agree_all (foldl (read_component data version) c tocs) res' /\
    forall s, s ∈ ss -> s_ret s = true \/ known_type (tc_type (s_toc s)) = false.
Proof.
  induction tocs as [|t tocs IH]; intros c res ds HA HD HP; cbn [map foldl existsb] in *.
  { rewrite app_nil_r. exists ds, res. split; [apply rtc_refl|auto]. }
  apply orb_false_iff in HP as [P1 P2]. destruct (known_type (tc_type t)) eqn:K.
  - assert (rd_items t <> IPanic) as N by (by destruct (rd_items t)).
    destruct (run_section ds (map new_sect tocs) res t K N) as (s & R & Hs).
    destruct (IH (read_component data version c t) _ (ds ++ [s]) (agree_all_known _ _ _ HA N)) as (ss & res' & R' & A' & D'); [|exact P2|].
    { intros s' Hs'. apply elem_of_app in Hs' as [?|Hs']; [auto|]. apply elem_of_list_singleton in Hs' as ->. auto. }
    rewrite <- app_assoc in R'. exists ss, res'. split; [by eapply rtc_transitive|auto].
  - destruct (IH (read_component data version c t) res (ds ++ [new_sect t]) (agree_all_unknown _ _ _ HA K)) as (ss & res' & R' & A' & D'); [|exact P2|].
    { intros s' Hs'. apply elem_of_app in Hs' as [?|Hs']; [auto|]. apply elem_of_list_singleton in Hs' as ->. auto. }
    rewrite <- app_assoc in R'. exists ss, res'. auto.
Qed.
End run.

Lemma no_comps_agree : agree_all no_comps ∅.
Proof. split_and!; unfold agree; by rewrite lookup_empty. Qed.
Lemma agree_result h tocs c res : agree_all c res ->
  match co_metrics c, co_values c, co_instances c, co_indoms c, co_strings c with
  | IOk m, IOk v, IOk i, IOk d, IOk s => DOk (mkDump h tocs m v i d s) | _, _, _, _, _ => DErr end = dresult h tocs res.
Proof.
  intros (H1 & H2 & H3 & H4 & H5). unfold agree in *. rewrite H1, H2, H3, H4, H5. unfold dresult, failed.
  destruct (res !! TocInstances) as [[?|]|], (res !! TocIndoms) as [[?|]|], (res !! TocMetrics) as [[?|]|], (res !! TocValues) as [[?|]|], (res !! TocStrings) as [[?|]|]; reflexivity.
Qed.
Lemma unknown_exists data version tocs : forall c, co_unknown c = false -> co_unknown (foldl (read_component data version) c tocs) = true -> exists t, t ∈ tocs /\ known_type (tc_type t) = false.
Proof.
  induction tocs as [|t tocs IH]; intros c H; cbn [foldl]; [congruence|]. destruct (known_type (tc_type t)) eqn:K; [|intros _; exists t; split; [by left|done]].
  intros H'. destruct (IH (read_component data version c t)) as (t' & ? & ?); [|done|exists t'; split; [by right|done]].
  apply (unknown_flag_conv data version [t] c H). by constructor.
Qed.

Lemma dump_is_run data : dump_run data (Dump data).
Proof.
  unfold Dump. destruct (readHeader data) as [h|] eqn:Eh; [|by apply dr_header]. destruct (hd_toc h <? 0) eqn:C; [eapply dr_count; [done|lia]|]. apply Z.ltb_ge in C.
  destruct (read_tocs data DHeaderLength (Z.to_nat (hd_toc h))) as [tocs|] eqn:Et; [|by eapply dr_tocs]. unfold readComponents.
  set (v := hd_version h) in *. rewrite panic_fold. cbn [no_comps co_panic orb].
  destruct (existsb _ tocs) eqn:P; [eapply dr_crash; [done|done|done|]; by apply panic_crashes|].
  destruct (run_sections data v tocs no_comps ∅ [] no_comps_agree) as (ss & res & R & A & D); [intros s Hs; by apply elem_of_nil in Hs|exact P|]. cbn [app] in R.
  destruct (co_unknown _) eqn:U.
  - apply unknown_exists in U; [|done]. destruct U as (t & Ht & K). eapply (dr_hang data h tocs ss res); [done|done|done|exact R| |].
    + intros AR. eapply unknown_never_returns; [|exact R|exact AR]. eauto.
    + apply (stuck data v tocs); [|exact D]. exact (ginv_reach data v tocs _ R).
  - rewrite (agree_result h tocs _ res A). eapply dr_done; [done|done|done|exact R|]. apply unknown_flag in U as [_ F]. rewrite Forall_forall in F.
    apply Forall_forall. intros s Hs. destruct (D s Hs) as [?|K]; [done|]. pose proof (ginv_reach data v tocs _ R) as I. cbn in I.
    rewrite F in K; [done|]. rewrite <- (gi_tocs _ _ _ _ _ I). apply elem_of_list_fmap. eauto.
Qed.

(** ** Which inputs are accepted *)
(** The records of an entry lie in the [n] bytes of the file. *)
Definition fits_entry (n version : Z) (t : toc) : Prop :=
  1 <= tc_type t <= 5 /\ 0 <= tc_count t /\ (tc_count t = 0 \/ tc_offset t + tc_count t * record_len version (tc_type t) <= n).
Definition header_ok (data : list byte) : Prop := 40 <= zlen data /\ take 3 data = str "MMV" /\ sub 8 8 data = sub 16 8 data.

Lemma read_ok_iff data version t o : zlen data < 2 ^ 63 -> 0 <= o < 2 ^ 64 -> (exists x, rd data version t o = IOk x) <-> o + item_len version (tc_type t) <= zlen data.
Proof.
  intros HL Ho. pose proof (item_len_pos version (tc_type t)) as P. pose proof (read_panics data version t o HL Ho) as RP.
  assert (0 <= zlen data) by (unfold zlen; lia).
  unfold rd, read_item, read_at in *. set (L := item_len version (tc_type t)) in *. unfold to_unsigned in *. split.
  - intros [x H1]. destruct (Z_lt_dec (o + L) (2 ^ 64)) as [A|A].
    + rewrite Z.mod_small in H1 by lia. destruct (zlen data <? o + L) eqn:E; [done|lia].
    + destruct (zlen data <? (o + L) mod 2 ^ 64); [done|]. destruct (zlen data <=? o) eqn:E; [done|]. lia.
  - intros H1. rewrite Z.mod_small by lia. replace (zlen data <? o + L) with false by lia. replace (zlen data <=? o) with false by lia. eauto.
Qed.
Lemma fits_entry_iff data version t : zlen data < 2 ^ 63 -> 0 <= tc_offset t < 2 ^ 64 -> sect_ok data version t <-> fits_entry (zlen data) version t.
Proof.
  intros HL Ho. unfold sect_ok, fits_entry. rewrite known_range. split; intros (K & C & H); (split; [exact K|split; [exact C|]]).
  - rewrite <- record_len_eq. pose proof (item_len_pos version (tc_type t)) as P. set (L := item_len version (tc_type t)) in *.
    destruct (Z.eq_dec (tc_count t) 0) as [|N]; [by left|right].
    assert (forall k : nat, Z.of_nat k < tc_count t -> tc_offset t + (Z.of_nat k + 1) * L <= zlen data) as G.
    { induction k as [|k IH]; intros Hk.
      - replace (tc_offset t + (Z.of_nat 0 + 1) * L) with (tc_offset t + L) by lia. apply (read_ok_iff data version t (tc_offset t) HL Ho). apply H.
        apply elem_item_offs; [done|]. exists 0. split; [lia|]. rewrite Z.mod_small; lia.
      - specialize (IH ltac:(lia)). replace (tc_offset t + (Z.of_nat (S k) + 1) * L) with (tc_offset t + Z.of_nat (S k) * L + L) by lia.
        assert (0 <= tc_offset t + Z.of_nat (S k) * L < 2 ^ 64) as B by nia. apply (read_ok_iff data version t _ HL B). apply H.
        apply elem_item_offs; [done|]. exists (Z.of_nat (S k)). split; [lia|]. by rewrite Z.mod_small. }
    specialize (G (Z.to_nat (tc_count t - 1)) ltac:(lia)). replace (Z.of_nat (Z.to_nat (tc_count t - 1)) + 1) with (tc_count t) in G by lia. exact G.
  - rewrite <- record_len_eq in H. pose proof (item_len_pos version (tc_type t)) as P. set (L := item_len version (tc_type t)) in *.
    intros o Hin. apply elem_item_offs in Hin as (k & Hk & ->); [|done]. destruct H as [H|H]; [lia|]. fold L.
    rewrite Z.mod_small by nia. apply read_ok_iff; [done|nia|]. fold L. nia.
Qed.
Lemma header_iff data : (exists h, readHeader data = Some h) <-> header_ok data.
Proof.
  unfold readHeader, header_ok, DHeaderLength. destruct (zlen data <? 40) eqn:E; [split; [intros [? ?]; done|intros [? _]; lia]|].
  assert (take 3 (hd_magic (dec_header data)) = take 3 data) as -> by (cbn; unfold sub; cbn; by rewrite take_take).
  cbn [hd_g1 hd_g2 dec_header]. unfold u64. assert (length (sub 8 8 data) = length (sub 16 8 data)) as EL by (unfold sub, zlen in *; rewrite !take_length, !drop_length; lia).
  split.
  - intros [h H]. case_bool_decide; [|done]. destruct (Z.eqb_spec (le_dec (sub 8 8 data)) (le_dec (sub 16 8 data))) as [G|]; [|done]. split; [lia|]. split; [done|]. by apply le_dec_inj.
  - intros (_ & H1 & H2). rewrite bool_decide_true by done. rewrite H2, Z.eqb_refl. eauto.
Qed.
Lemma read_tocs_iff data n : forall off tocs, 0 <= off <= zlen data ->
  read_tocs data off n = Some tocs <-> off + 16 * Z.of_nat n <= zlen data /\ tocs = map (fun k => dec_toc data (off + 16 * Z.of_nat k)) (seq 0 n).
Proof.
  induction n as [|n IH]; intros off tocs H; cbn [read_tocs].
  - cbn. split; [intros [= <-]; split; [lia|done]|intros [_ ->]; done].
  - unfold DTocLength. destruct (zlen data <? off + 16) eqn:E; [split; [done|intros [? _]; lia]|].
    assert (map (fun k => dec_toc data (off + 16 * Z.of_nat k)) (seq 0 (S n)) = dec_toc data off :: map (fun k => dec_toc data (off + 16 + 16 * Z.of_nat k)) (seq 0 n)) as ->.
    { cbn [seq map]. f_equal; [f_equal; lia|]. rewrite <- seq_shift, map_map. apply map_ext. intros k. f_equal. lia. }
    destruct (read_tocs data (off + 16) n) as [l|] eqn:El.
    + apply IH in El as [E1 ->]; [|lia]. split; [intros [= <-]; split; [lia|done]|intros [_ ->]; done].
    + split; [done|]. intros [E1 ->]. assert (read_tocs data (off + 16) n = Some (map (fun k => dec_toc data (off + 16 + 16 * Z.of_nat k)) (seq 0 n))) by (apply IH; [lia|split; [lia|done]]). congruence.
Qed.
Lemma accepts_iff data h tocs : zlen data < 2 ^ 63 -> dump_tocs data = Some (h, tocs) -> NoDup (map tc_type tocs) ->
  (exists d, dump_run data (DOk d)) <-> Forall (fits_entry (zlen data) (hd_version h)) tocs.
Proof.
  intros HL E ND. assert (Forall (sect_ok data (hd_version h)) tocs <-> Forall (fits_entry (zlen data) (hd_version h)) tocs) as <-.
  { rewrite !Forall_forall. split; intros H t Ht; apply fits_entry_iff; auto; eapply tocs_offset; eauto. }
  split.
  - intros [d R]. apply (run_ok_seq _ _ _ _ E ND) in R. by apply (seq_ok _ _ _ _ E ND) in R as [F _].
  - intros F. destruct (seq_conv _ _ _ E ND F) as [d Ed]. exists d. rewrite <- Ed. apply dump_is_run.
Qed.
