(** Invariants of the heap of API objects and of registries, and what they give for
    the iteration orders start() may choose. *)
From Verif Require Import Base BaseFacts Floats GoVal MetricType ByteWriter Hash Units Indom Metrics Registry Prog
  Client Mmvdump Ileave ProgProofs Events StartEvents BufFacts Tiling StartGood StartLayout StartFinal StartDone
  View Sections StartView.

(** ** Objects *)
Record indom_ok (d : indom) : Prop := {
  io_name : id_name d <> [];
  io_id : id_id d = hash (id_name d) PCPInstanceDomainBitLength;
  io_insts : forall n i, id_insts d !! n = Some i -> i = inst_id n /\ zlen n <= 256 }.

Record desc_ok (d : mdesc) : Prop := {
  do_name : md_name d <> [];
  do_len : zlen (md_name d) <= 256;
  do_id : md_id d = hash (md_name d) PCPMetricItemBitLength;
  do_type : in_signed 32 (md_type d);
  do_sem : in_signed 32 (md_sem d);
  do_unit : in_unsigned 32 (md_unit d) }.

Definition body_ok (hp : heap) (t : Z) (b : mbody) : Prop :=
  match b with
  | BSingle c => vtyped t (c_val c)
  | BInst ip cells => exists d, h_indoms hp !! ip = Some d /\ dom cells = dom (id_insts d) /\
      forall n c, cells !! n = Some c -> vtyped t (c_val c)
  end.

Definition kind_ok (k : mkind) (t : Z) (b : mbody) : Prop :=
  match k, b with
  | MSingleton, BSingle _ | MInstance, BInst _ _ => True
  | MCounter, BSingle _ | MCounterVector, BInst _ _ => t = Int64Type
  | (MGauge | MTimer _ _), BSingle _ | MGaugeVector, BInst _ _ => t = DoubleType
  | MHistogram, BInst ip _ => t = DoubleType /\ ip = 0%nat
  | _, _ => False
  end.

Record metric_ok (hp : heap) (m : metric) : Prop := {
  mo_desc : desc_ok (m_desc m);
  mo_body : body_ok hp (md_type (m_desc m)) (m_body m);
  mo_kind : kind_ok (m_kind m) (md_type (m_desc m)) (m_body m) }.

Record heap_ok (hp : heap) : Prop := {
  ho_indoms : forall ip d, h_indoms hp !! ip = Some d -> indom_ok d;
  ho_metrics : forall mp m, h_metrics hp !! mp = Some m -> metric_ok hp m }.

(** ** Registries *)
Record reg_ok (hp : heap) (r : registry) : Prop := {
  ro_indoms : forall n ip, r_indoms r !! n = Some ip -> exists d, h_indoms hp !! ip = Some d /\ id_name d = n;
  ro_metrics : forall n mp, r_metrics r !! n = Some mp -> exists m, h_metrics hp !! mp = Some m /\ md_name (m_desc m) = n;
  ro_doms : forall n mp m d, r_metrics r !! n = Some mp -> h_metrics hp !! mp = Some m -> metric_dom hp m = Some d ->
    is_Some (r_indoms r !! id_name d);
  ro_ic : r_instanceCount r = spec_instances hp r;
  ro_vc : r_valueCount r = spec_values hp r;
  ro_sc : r_stringcount r = spec_texts hp r;
  ro_v2 : r_version2 r = true <-> spec_long hp r }.

(** ** Publishable registries *)
Definition val_fits (v : goval) : Prop := match v with VStr s => zlen s <= 256 | _ => True end.
Definition body_fits (b : mbody) : Prop :=
  match b with BSingle c => val_fits (c_val c) | BInst _ cells => forall n c, cells !! n = Some c -> val_fits (c_val c) end.

Record startable (hp : heap) (r : registry) : Prop := {
  st_nonempty : r_indoms r = ∅ \/ Exists (fun d => id_insts d <> ∅) (reg_indoms hp r);
  st_doms : Forall (fun d => zlen (id_short d) <= 256 /\ zlen (id_long d) <= 256) (reg_indoms hp r);
  st_mets : Forall (fun m => zlen (md_short (m_desc m)) <= 256 /\ zlen (md_long (m_desc m)) <= 256 /\
              body_fits (m_body m)) (reg_metrics hp r);
  st_links : Forall (fun m => forall ip cells d, m_body m = BInst ip cells -> h_indoms hp !! ip = Some d ->
              r_indoms r !! id_name d = Some ip) (reg_metrics hp r);
  st_counts : counts_ok r }.

(** ** Hash ranges *)
Lemma fnv_range s : 0 <= fnv1a s < 2 ^ 32.
Proof.
  unfold fnv1a. assert (forall l h, 0 <= h < 2 ^ 32 -> 0 <= foldl fnv_step h l < 2 ^ 32) as H.
  { induction l as [|b l IH]; intros h Hh; cbn [foldl]; [auto|]. apply IH. unfold fnv_step. apply to_unsigned_range. lia. }
  apply H. lia.
Qed.

Lemma hash_range s b : 0 <= b < 32 -> 0 <= hash s b < 2 ^ 32 /\ (b <> 0 -> hash s b < 2 ^ b).
Proof.
  intros Hb. pose proof (fnv_range s) as F. unfold hash. destruct (b =? 0) eqn:E; [lia|].
  rewrite Z.shiftl_mul_pow2, Z.mul_1_l by lia. assert (2 ^ b < 2 ^ 32) by (apply Z.pow_lt_mono_r; lia).
  assert (0 < 2 ^ b) by (apply Z.pow_pos_nonneg; lia).
  unfold to_unsigned. rewrite (Z.mod_small (2 ^ b)) by lia. rewrite Z.mod_small by lia.
  replace (2 ^ b - 1) with (Z.ones b) by (rewrite Z.ones_equiv; lia). rewrite Z.land_ones by lia.
  pose proof (Z.mod_pos_bound (fnv1a s) (2 ^ b)). lia.
Qed.

(** ** List facts *)
Lemma omap_ext_some {A B} (f : A -> option B) (g : A -> B) (l : list A) : (forall x, x ∈ l -> f x = Some (g x)) -> omap f l = map g l.
Proof.
  induction l as [|x l IH]; intros H; [reflexivity|]. cbn. rewrite (H x) by left. f_equal. apply IH. intros. apply H. by right.
Qed.
Lemma omap_perm {A B} (f : A -> option B) (l l' : list A) : l ≡ₚ l' -> omap f l ≡ₚ omap f l'.
Proof. intros H. by rewrite H. Qed.
Lemma omap_map {A B C} (f : B -> option C) (g : A -> B) (l : list A) : omap f (map g l) = omap (fun x => f (g x)) l.
Proof. induction l as [|x l IH]; [reflexivity|]. cbn. destruct (f (g x)); [f_equal|]; exact IH. Qed.

Lemma snd_NoDup {K} `{Countable K} (m : gmap K nat) : (forall k1 k2 v, m !! k1 = Some v -> m !! k2 = Some v -> k1 = k2) ->
  NoDup (map_to_list m).*2.
Proof.
  intros Hinj. apply NoDup_fmap_2_strong; [|apply NoDup_map_to_list].
  intros [k1 v1] [k2 v2] H1 H2 E. cbn in E. subst. apply elem_of_map_to_list in H1, H2. f_equal. eauto.
Qed.

Lemma concat_NoDup {A B} (f : A -> list B) (l : list A) : NoDup l -> (forall x, x ∈ l -> NoDup (f x)) ->
  (forall x y z, x ∈ l -> y ∈ l -> z ∈ f x -> z ∈ f y -> x = y) -> NoDup (concat (map f l)).
Proof.
  induction 1 as [|x l Hx Hl IH]; intros Hf Hd; cbn; [constructor|]. apply NoDup_app. split_and!.
  - apply Hf. left.
  - intros z Hz Hz'. apply elem_of_list_In, in_concat in Hz' as (u & Hu & Hz'). apply in_map_iff in Hu as (y & <- & Hy).
    apply elem_of_list_In in Hy, Hz'. assert (x = y) as -> by (eapply Hd; eauto; [left|by right]). done.
  - apply IH; [intros; apply Hf; by right|]. intros u v z Hu Hv. apply Hd; by right.
Qed.

Lemma map_NoDup_inv {A B} (f : A -> B) (l : list A) : NoDup (map f l) -> NoDup l.
Proof. apply NoDup_fmap_1. Qed.

Lemma map_inj_in {A B} (f : A -> B) (l : list A) x y : NoDup (map f l) -> x ∈ l -> y ∈ l -> f x = f y -> x = y.
Proof.
  induction l as [|z l IH]; intros HN Hx Hy E; [inversion Hx|]. cbn in HN. inversion HN as [|? ? Hz HN']; subst.
  apply elem_of_cons in Hx as [->|Hx]; apply elem_of_cons in Hy as [->|Hy]; auto.
  - exfalso. apply Hz. rewrite E. apply elem_of_list_fmap. eauto.
  - exfalso. apply Hz. rewrite <- E. apply elem_of_list_fmap. eauto.
Qed.

Lemma mtl_len {K A} `{Countable K} (m : gmap K A) : length (map_to_list m) = size m.
Proof. reflexivity. Qed.

(** ** The chosen orders *)
Section plan.
  Context (hp : heap) (r : registry) (pl : plan).
  Context (Hh : heap_ok hp) (Hr : reg_ok hp r) (Hp : plan_ok hp r pl).

  Lemma plan_ips : map (fun x => x.1.1) (pl_doms pl) ≡ₚ (map_to_list (r_indoms r)).*2.
  Proof. destruct Hp as [(ord & H1 & H2 & _) _]. rewrite <- H1, <- H2. reflexivity. Qed.

  Lemma plan_dom_ok x : x ∈ pl_doms pl -> h_indoms hp !! x.1.1 = Some x.1.2 /\ x.2 ≡ₚ map_to_list (id_insts x.1.2).
  Proof. destruct Hp as [(ord & _ & _ & H) _]. rewrite Forall_forall in H. apply H. Qed.

  Lemma plan_doms_perm : map (fun x => x.1.2) (pl_doms pl) ≡ₚ reg_indoms hp r.
  Proof.
    unfold reg_indoms. rewrite <- (omap_perm _ _ _ plan_ips). rewrite omap_map. apply reflexive_eq. symmetry.
    apply omap_ext_some. intros x Hx. apply plan_dom_ok, Hx.
  Qed.

  Lemma plan_ip_reg x : x ∈ pl_doms pl -> r_indoms r !! id_name x.1.2 = Some x.1.1.
  Proof.
    intros Hx. assert (x.1.1 ∈ (map_to_list (r_indoms r)).*2) as H.
    { rewrite <- plan_ips. apply elem_of_list_fmap. eauto. }
    apply elem_of_list_fmap in H as ([n ip] & E & H). apply elem_of_map_to_list in H. cbn [snd] in E.
    destruct (ro_indoms _ _ Hr _ _ H) as (d & Hd & <-). destruct (plan_dom_ok _ Hx) as [Hd' _].
    rewrite E in *. assert (x.1.2 = d) as -> by congruence. exact H.
  Qed.

  Lemma plan_mps : exists ms : list metric, ms ≡ₚ reg_metrics hp r /\
    Forall2 (fun m p => exists mp, h_metrics hp !! mp = Some m /\ r_metrics r !! md_name (m_desc m) = Some mp /\ mplan_ok hp mp p) ms (pl_mets pl).
  Proof.
    destruct Hp as [_ (ord & H1 & H2)].
    exists (omap (fun mp => h_metrics hp !! mp) ord). split; [apply (omap_perm _ _ _ H1)|].
    assert (Forall (fun mp => mp ∈ (map_to_list (r_metrics r)).*2) ord) as HF.
    { apply Forall_forall. intros mp Hm. rewrite <- H1. exact Hm. }
    clear H1. induction H2 as [|mp p l l' Hmp H2 IH]; [constructor|]. inversion HF as [|? ? HF1 HF2]; subst.
    destruct Hmp as (m & Hm & Hrest). cbn. rewrite Hm. constructor; [|auto]. exists mp. split_and!; auto.
    - apply elem_of_list_fmap in HF1 as ([n mp'] & -> & H). apply elem_of_map_to_list in H. cbn in *.
      destruct (ro_metrics _ _ Hr _ _ H) as (m' & Hm' & <-). congruence.
    - exists m. auto.
  Qed.

  Lemma plan_met_in p : p ∈ pl_mets pl -> exists mp m, h_metrics hp !! mp = Some m /\ r_metrics r !! md_name (m_desc m) = Some mp /\
    m ∈ reg_metrics hp r /\ mplan_ok hp mp p.
  Proof.
    intros Hin. destruct plan_mps as (ms & H1 & H2). apply elem_of_list_lookup in Hin as [i Hi].
    destruct (Forall2_lookup_r _ _ _ _ _ H2 Hi) as (m & Hm & mp & A & B & C). exists mp, m. split_and!; auto.
    rewrite <- H1. apply elem_of_list_lookup. eauto.
  Qed.

  Lemma plan_dom_in x : x ∈ pl_doms pl -> x.1.2 ∈ reg_indoms hp r.
  Proof. intros H. rewrite <- plan_doms_perm. apply elem_of_list_fmap. eauto. Qed.
  Lemma dom_in_plan d : d ∈ reg_indoms hp r -> exists x, x ∈ pl_doms pl /\ x.1.2 = d.
  Proof. rewrite <- plan_doms_perm. intros H. apply elem_of_list_fmap in H as (x & -> & H). eauto. Qed.

  (** A plan item agrees with its metric. *)
  Lemma mplan_mp mp p m : h_metrics hp !! mp = Some m -> mplan_ok hp mp p -> mp_desc p = m_desc m /\ mp_dom p = metric_dom hp m /\
    mp_values p = n_values hp m /\
    match p with
    | MPSingle mp' _ v => mp' = mp /\ exists c, m_body m = BSingle c /\ v = c_val c
    | MPInst mp' _ ip d vals => mp' = mp /\ h_indoms hp !! ip = Some d /\
        exists cells, m_body m = BInst ip cells /\ zlen vals = instance_count d /\ NoDup (vals.*1) /\
        forall n v, (n, v) ∈ vals -> is_Some (id_insts d !! n) /\ exists c, cells !! n = Some c /\ c_val c = v
    end.
  Proof.
    intros Hm (m' & Hm' & H). assert (m' = m) as -> by congruence. clear Hm'. unfold n_values, metric_dom.
    destruct p as [mp' d v|mp' d ip dom0 vals]; cbn [mp_desc mp_dom mp_values].
    - destruct H as (-> & -> & c & Hb & ->). rewrite Hb. split_and!; eauto.
    - destruct H as (-> & -> & cells & Hb & Hd & HP & HF). rewrite Hb, Hd. pose proof (Permutation_length HP) as HL.
      rewrite !fmap_length, mtl_len in HL. split_and!; auto.
      + unfold zlen. rewrite HL. reflexivity.
      + exists cells. split_and!; auto.
        * unfold zlen, instance_count. rewrite HL. reflexivity.
        * rewrite HP. apply NoDup_fst_map_to_list.
        * intros n v Hin. split.
          { assert (n ∈ vals.*1) as Hn by (apply elem_of_list_fmap; exists (n, v); auto). rewrite HP in Hn.
            apply elem_of_list_fmap in Hn as ([n' i] & -> & Hn). apply elem_of_map_to_list in Hn. cbn. eauto. }
          { rewrite Forall_forall in HF. apply (HF _ Hin). }
  Qed.

  Lemma sum_perm {A} (f : A -> Z) (l l' : list A) : l ≡ₚ l' -> sumZ (map f l) = sumZ (map f l').
  Proof using Type. intros H. by rewrite H. Qed.

  Lemma sum_mets (f : mplan -> Z) (g : metric -> Z) : (forall mp p m, h_metrics hp !! mp = Some m -> mplan_ok hp mp p -> f p = g m) ->
    sumZ (map f (pl_mets pl)) = sumZ (map g (reg_metrics hp r)).
  Proof.
    intros Hfg. destruct plan_mps as (ms & H1 & H2). rewrite <- (sum_perm g _ _ H1). clear H1.
    induction H2 as [|m p l l' (mp & A & B & C) H2 IH]; [reflexivity|]. cbn [map sumZ]. rewrite IH. f_equal. eauto.
  Qed.

  Lemma b2z_texts a b : b2z (nonempty a) + b2z (nonempty b) = n_texts a b.
  Proof using Type. unfold n_texts, b2z, nonempty. repeat case_bool_decide; try contradiction; reflexivity. Qed.

  Lemma reg_indoms_length : zlen (reg_indoms hp r) = InstanceDomainCount r.
  Proof.
    unfold reg_indoms, InstanceDomainCount, zlen. rewrite <- mtl_len. f_equal.
    assert (forall l, (forall ip, ip ∈ l -> is_Some (h_indoms hp !! ip)) -> length (omap (fun ip => h_indoms hp !! ip) l) = length l) as G.
    { induction l as [|ip l IH]; intros H; [reflexivity|]. cbn. destruct (H ip) as [d Hd]; [left|]. rewrite Hd. cbn. f_equal. apply IH.
      intros. apply H. by right. }
    rewrite G, fmap_length; [reflexivity|]. intros ip H. apply elem_of_list_fmap in H as ([n ip'] & -> & H). apply elem_of_map_to_list in H.
    destruct (ro_indoms _ _ Hr _ _ H) as (d & Hd & _). eauto.
  Qed.

  Lemma plan_fit_ok : (r_indoms r = ∅ \/ Exists (fun d => id_insts d <> ∅) (reg_indoms hp r)) -> plan_fit r pl.
  Proof.
    intros Hne. split.
    - unfold zlen, InstanceDomainCount. pose proof (Permutation_length plan_ips) as H.
      rewrite map_length, fmap_length, mtl_len in H. lia.
    - apply Forall_forall. intros x Hx. destruct (plan_dom_ok _ Hx) as [_ H]. unfold zlen, instance_count.
      rewrite H, mtl_len. reflexivity.
    - unfold InstanceCount. rewrite (ro_ic _ _ Hr). unfold spec_instances.
      rewrite <- (sum_perm _ _ _ plan_doms_perm), map_map. reflexivity.
    - destruct plan_mps as (ms & H1 & H2). apply Forall2_length in H2. unfold zlen. rewrite <- H2.
      rewrite H1. unfold reg_metrics, MetricCount. rewrite <- mtl_len. f_equal.
      assert (forall l, (forall ip, ip ∈ l -> is_Some (h_metrics hp !! ip)) -> length (omap (fun ip => h_metrics hp !! ip) l) = length l) as G.
      { induction l as [|ip l IH]; intros H; [reflexivity|]. cbn. destruct (H ip) as [d Hd]; [left|]. rewrite Hd. cbn. f_equal. apply IH.
        intros. apply H. by right. }
      rewrite G, fmap_length; [reflexivity|]. intros ip H. apply elem_of_list_fmap in H as ([n ip'] & -> & H). apply elem_of_map_to_list in H.
      destruct (ro_metrics _ _ Hr _ _ H) as (d & Hd & _). eauto.
    - apply Forall_forall. intros p Hin. destruct (plan_met_in _ Hin) as (mp & m & Hm & _ & _ & Hok).
      destruct (mplan_mp _ _ _ Hm Hok) as (_ & _ & _ & H). destruct p; [exact I|]. destruct H as (_ & _ & cells & _ & H & _). exact H.
    - unfold ValuesCount. rewrite (ro_vc _ _ Hr). unfold spec_values. apply sum_mets. intros mp p m Hm Hok. apply (mplan_mp _ _ _ Hm Hok).
    - rewrite (ro_sc _ _ Hr). unfold spec_texts. f_equal.
      + rewrite <- (sum_perm _ _ _ plan_doms_perm), map_map. f_equal. apply map_ext. intros x. unfold dom_strings. apply b2z_texts.
      + apply sum_mets. intros mp p m Hm Hok. destruct (mplan_mp _ _ _ Hm Hok) as (H1 & _ & H3 & _).
        unfold mp_strings. rewrite <- b2z_texts, H1, H3. destruct (md_type (m_desc m) =? StringType); lia.
    - intros H. unfold InstanceCount. rewrite (ro_ic _ _ Hr). unfold spec_instances. destruct Hne as [He|He].
      + unfold InstanceDomainCount in H. rewrite He, map_size_empty in H. lia.
      + apply Exists_exists in He as (d & Hd & Hi).
        assert (0 < Z.of_nat (size (id_insts d))). { apply map_size_non_empty_iff in Hi. lia. }
        pose proof (sumZ_in (fun d => Z.of_nat (size (id_insts d))) (reg_indoms hp r) d) as G. cbn beta in G.
        assert (Z.of_nat (size (id_insts d)) <= sumZ (map (fun d => Z.of_nat (size (id_insts d))) (reg_indoms hp r))); [|lia].
        apply G; [apply Forall_true; intros; lia|exact Hd].
  Qed.

  Lemma plan_ips_NoDup : NoDup (map (fun x => x.1.1) (pl_doms pl)).
  Proof.
    rewrite plan_ips. apply snd_NoDup. intros k1 k2 v H1 H2.
    destruct (ro_indoms _ _ Hr _ _ H1) as (d1 & D1 & <-). destruct (ro_indoms _ _ Hr _ _ H2) as (d2 & D2 & <-). congruence.
  Qed.

  Lemma plan_okeys : NoDup (concat (map dom_keys (pl_doms pl))).
  Proof.
    apply concat_NoDup.
    - apply (map_NoDup_inv (fun x => x.1.1)). apply plan_ips_NoDup.
    - intros x Hx. destruct (plan_dom_ok _ Hx) as [_ H]. unfold dom_keys.
      apply (NoDup_fmap_2_strong (fun i => (x.1.1, i.1))).
      + intros [n1 i1] [n2 i2] H1 H2 E. cbn in E. rewrite H in H1, H2. apply elem_of_map_to_list in H1, H2. congruence.
      + rewrite H. apply NoDup_map_to_list.
    - intros x y [ip n] Hx Hy H1 H2. unfold dom_keys in *.
      apply elem_of_list_fmap in H1 as (i1 & E1 & _), H2 as (i2 & E2 & _).
      apply (map_inj_in _ _ _ _ plan_ips_NoDup Hx Hy). congruence.
  Qed.

  Definition p_mp (p : mplan) : nat := match p with MPSingle mp _ _ | MPInst mp _ _ _ _ => mp end.
  Lemma mplan_p_mp mp p : mplan_ok hp mp p -> p_mp p = mp.
  Proof using Type. intros (m & _ & H). destruct p; cbn; tauto. Qed.

  Lemma plan_mps_NoDup : NoDup (map p_mp (pl_mets pl)).
  Proof.
    destruct Hp as [_ (ord & H1 & H2)].
    assert (map p_mp (pl_mets pl) = ord) as ->.
    { clear -H2. induction H2 as [|mp p l l' H H2 IH]; [reflexivity|]. cbn. f_equal; auto. eapply mplan_p_mp; eauto. }
    rewrite H1. apply snd_NoDup. intros k1 k2 v K1 K2.
    destruct (ro_metrics _ _ Hr _ _ K1) as (d1 & D1 & <-). destruct (ro_metrics _ _ Hr _ _ K2) as (d2 & D2 & <-). congruence.
  Qed.

  Lemma plan_vkeys : NoDup (concat (map met_keys (pl_mets pl))).
  Proof.
    apply concat_NoDup.
    - apply (map_NoDup_inv p_mp). apply plan_mps_NoDup.
    - intros p Hin. destruct (plan_met_in _ Hin) as (mp & m & Hm & _ & _ & Hok). destruct (mplan_mp _ _ _ Hm Hok) as (_ & _ & _ & H).
      destruct p as [mp' d v|mp' d ip dom0 vals]; cbn [met_keys]; [apply NoDup_singleton|].
      destruct H as (_ & _ & cells & _ & _ & HN & _).
      replace (map (fun x => (mp', Some x.1)) vals) with (map (fun n => (mp', Some n)) (vals.*1)) by apply map_map.
      apply (NoDup_fmap_2_strong (fun n => (mp', Some n))); [intros a b _ _ E; congruence|exact HN].
    - intros p q [mp n] H1 H2 K1 K2.
      apply (map_inj_in _ _ _ _ plan_mps_NoDup H1 H2).
      assert (forall p n, (mp, n) ∈ met_keys p -> p_mp p = mp) as G.
      { intros [mp' d v|mp' d ip dom0 vals] n' K; cbn in *.
        - apply elem_of_list_singleton in K. congruence.
        - apply elem_of_list_fmap in K as (x & E & _). congruence. }
      rewrite (G _ _ K1), (G _ _ K2). reflexivity.
  Qed.

  Lemma short_name d n i : r_version2 r = false -> d ∈ reg_indoms hp r -> id_insts d !! n = Some i -> zlen n <= 63.
  Proof.
    intros Hv Hd Hi. destruct (Z_le_gt_dec (zlen n) 63) as [|HG]; [lia|]. exfalso.
    assert (r_version2 r = true); [|congruence]. apply (ro_v2 _ _ Hr). left. apply Exists_exists. exists d. split; [exact Hd|].
    exists n, i. split; auto. unfold long_name. lia.
  Qed.
  Lemma short_mname m : r_version2 r = false -> m ∈ reg_metrics hp r -> zlen (md_name (m_desc m)) <= 63.
  Proof.
    intros Hv Hd. destruct (Z_le_gt_dec (zlen (md_name (m_desc m))) 63) as [|HG]; [lia|]. exfalso.
    assert (r_version2 r = true); [|congruence]. apply (ro_v2 _ _ Hr). right. apply Exists_exists. exists m. split; [exact Hd|].
    unfold long_name. lia.
  Qed.

  Lemma typed_val_ok t v : vtyped t v -> val_fits v -> val_ok t v.
  Proof using Type.
    destruct v; cbn [vtyped val_fits val_ok val_bytes]; try contradiction; intros H Hf.
    all: match type of H with _ /\ _ => destruct H as [-> _] | _ => subst t end.
    all: split; [try reflexivity; discriminate|]; first [exact Hf|eexists; split; [reflexivity|]; rewrite zlen_le_enc; lia].
  Qed.

  Lemma plan_vals p mp m : h_metrics hp !! mp = Some m -> mplan_ok hp mp p -> body_fits (m_body m) ->
    Forall (fun x => vtyped (md_type (mp_desc p)) x.2 /\ val_fits x.2) (mp_vals p).
  Proof.
    intros Hm Hok Hf. pose proof (mo_body _ _ (ho_metrics _ Hh _ _ Hm)) as HB.
    destruct (mplan_mp _ _ _ Hm Hok) as (Hd & _ & _ & H). rewrite Hd.
    destruct p as [mp' d v|mp' d ip dom0 vals]; cbn [mp_vals].
    - destruct H as (_ & c & Hb & ->). rewrite Hb in HB, Hf. cbn in HB, Hf. repeat constructor; auto.
    - destruct H as (_ & Hi & cells & Hb & _ & _ & H). rewrite Hb in HB, Hf. cbn in HB, Hf. destruct HB as (d' & _ & _ & HB).
      apply Forall_forall. intros x Hx. apply elem_of_list_fmap in Hx as ([n v] & -> & Hx). cbn [snd].
      destruct (H _ _ Hx) as (_ & c & Hc & <-). eauto.
  Qed.

  Context (Hs : startable hp r).

  Lemma plan_wf_ok : plan_wf r pl.
  Proof.
    split; [apply plan_fit_ok, (st_nonempty _ _ Hs)| | |apply plan_okeys|apply plan_vkeys].
    - apply Forall_forall. intros x Hx. pose proof (plan_dom_in _ Hx) as Hin. pose proof (st_doms _ _ Hs) as F.
      rewrite Forall_forall in F. destruct (F _ Hin) as [F1 F2]. unfold dom_sizes, StringLength. split_and!; auto.
      apply Forall_forall. intros [n i] Hi. destruct (plan_dom_ok _ Hx) as [Hd HP]. rewrite HP in Hi. apply elem_of_map_to_list in Hi.
      cbn [fst]. unfold name_max, StringLength, MaxV1NameLength. destruct (r_version2 r) eqn:Ev.
      + apply (io_insts _ (ho_indoms _ Hh _ _ Hd) _ _ Hi).
      + eapply short_name; eauto.
    - apply Forall_forall. intros p Hin. destruct (plan_met_in _ Hin) as (mp & m & Hm & _ & Hreg & Hok).
      destruct (mplan_mp _ _ _ Hm Hok) as (Hd & _ & _ & H). pose proof (st_mets _ _ Hs) as F. rewrite Forall_forall in F.
      destruct (F _ Hreg) as (F1 & F2 & F3). pose proof (plan_vals _ _ _ Hm Hok F3) as HV.
      unfold met_sizes, StringLength. rewrite Hd. split_and!; auto.
      + unfold name_max, StringLength, MaxV1NameLength. destruct (r_version2 r) eqn:Ev.
        * apply (do_len _ (mo_desc _ _ (ho_metrics _ Hh _ _ Hm))).
        * by apply short_mname.
      + rewrite Hd in HV. destruct p as [mp' d v|mp' d ip dom0 vals]; cbn [mp_desc mp_vals] in *; subst d.
        * inversion HV as [|? ? [V1 V2] _]; subst. cbn in V1, V2. by apply typed_val_ok.
        * apply Forall_forall. intros [n v] Hx. rewrite Forall_forall in HV. destruct (HV (Some n, v)) as [V1 V2]; [|by apply typed_val_ok].
          apply elem_of_list_fmap. exists (n, v). auto.
  Qed.

  Lemma id_bound d : indom_ok d -> 0 <= id_id d < 2 ^ 31.
  Proof using Type.
    intros H. rewrite (io_id _ H). unfold PCPInstanceDomainBitLength. destruct (hash_range (id_name d) 22) as [H1 H2]; [lia|].
    assert (2 ^ 22 < 2 ^ 31) by (apply Z.pow_lt_mono_r; lia). specialize (H2 ltac:(lia)). lia.
  Qed.

  Lemma plan_ranges_ok : plan_ranges r pl.
  Proof.
    split; [apply (st_counts _ _ Hs)| | |].
    - apply Forall_forall. intros x Hx. destruct (plan_dom_ok _ Hx) as [Hd _]. apply id_bound, (ho_indoms _ Hh _ _ Hd).
    - apply Forall_forall. intros p Hin. destruct (plan_met_in _ Hin) as (mp & m & Hm & _ & Hreg & Hok).
      destruct (mplan_mp _ _ _ Hm Hok) as (Hd & _ & _ & _). pose proof (mo_desc _ _ (ho_metrics _ Hh _ _ Hm)) as D.
      pose proof (st_mets _ _ Hs) as F. rewrite Forall_forall in F. destruct (F _ Hreg) as (_ & _ & F3).
      pose proof (plan_vals _ _ _ Hm Hok F3) as HV. unfold met_range. split_and!.
      + rewrite Hd, (do_id _ D). unfold PCPMetricItemBitLength, in_unsigned. apply hash_range. lia.
      + rewrite Hd. apply D.
      + rewrite Hd. apply D.
      + rewrite Hd. apply D.
      + eapply Forall_impl; [exact HV|]. cbn beta. tauto.
    - intros mp0 d0 ip dom0 vals Hin. destruct (plan_met_in _ Hin) as (mp & m & Hm & _ & Hreg & Hok).
      destruct (mplan_mp _ _ _ Hm Hok) as (_ & _ & _ & _ & Hi & cells & Hb & _ & _ & Hv).
      pose proof (id_bound _ (ho_indoms _ Hh _ _ Hi)) as HB. split_and!; try lia.
      pose proof (st_links _ _ Hs) as F. rewrite Forall_forall in F. specialize (F _ Hreg _ _ _ Hb Hi).
      assert (ip ∈ map (fun x => x.1.1) (pl_doms pl)) as Hip.
      { rewrite plan_ips. apply elem_of_list_fmap. exists (id_name dom0, ip). split; [reflexivity|]. by apply elem_of_map_to_list. }
      apply elem_of_list_fmap in Hip as ([[ip' d'] insts] & E & Hx). cbn in E. subst ip'.
      destruct (plan_dom_ok _ Hx) as [Hd' HP]. cbn in Hd', HP. assert (d' = dom0) as -> by congruence.
      exists insts. split_and!; auto.
      + intros [n i]. rewrite HP, elem_of_map_to_list. reflexivity.
      + intros n Hn. apply elem_of_list_fmap in Hn as ([n' v] & -> & Hn). apply (Hv _ _ Hn).
  Qed.

  (** ** The view *)
  Lemma concat_perm_r {A B} (f : A -> list B) l l' : l ≡ₚ l' -> concat (map f l) ≡ₚ concat (map f l').
  Proof using Type. apply concat_map_perm. Qed.

  Lemma concat_perm_pt {A B} (f g : A -> list B) l : (forall x, x ∈ l -> f x ≡ₚ g x) -> concat (map f l) ≡ₚ concat (map g l).
  Proof using Type.
    induction l as [|x l IH]; intros H; [reflexivity|]. cbn. rewrite (H x) by left. rewrite IH; [reflexivity|]. intros. apply H. by right.
  Qed.

  Lemma concat_perm_2 {A B C} (R : A -> B -> Prop) (f : A -> list C) (g : B -> list C) l l' : Forall2 R l l' ->
    (forall x y, R x y -> f x ≡ₚ g y) -> concat (map f l) ≡ₚ concat (map g l').
  Proof using Type. intros H HR. induction H as [|x y l l' Hxy H IH]; [reflexivity|]. cbn. rewrite IH, (HR _ _ Hxy). reflexivity. Qed.

  Definition veq (V W : view) : Prop :=
    v_indoms V ≡ₚ v_indoms W /\ v_insts V ≡ₚ v_insts W /\ v_metrics V ≡ₚ v_metrics W /\ v_values V ≡ₚ v_values W.

  Lemma shows_veq d V W : veq V W -> shows d V -> shows d W.
  Proof using Type.
    intros (H1 & H2 & H3 & H4) (S1 & S2 & S3 & S4 & S5).
    assert (forall {A} (l l' : list A), l ≡ₚ l' -> map Some l ≡ₚ map Some l') as G by (intros; by apply Permutation_map).
    unfold shows. split_and!.
    - etransitivity; [exact S1|]. by apply G.
    - etransitivity; [exact S2|]. by apply G.
    - etransitivity; [exact S3|]. by apply G.
    - etransitivity; [exact S4|]. by apply G.
    - etransitivity; [exact S5|]. by apply G.
  Qed.

  Lemma pv_want c : k_reg c = r -> forall mp p m, h_metrics hp !! mp = Some m -> mplan_ok hp mp p ->
    pv_metric c p = want_metric (r_version2 r) (m_desc m) (metric_dom hp m) /\
    map (pv_value c p) (mp_vals p) ≡ₚ want_values hp (r_version2 r) m.
  Proof.
    intros Hc mp p m Hm Hok. destruct (mplan_mp _ _ _ Hm Hok) as (Hd & Hdom & _ & H).
    assert (pv_metric c p = want_metric (r_version2 r) (m_desc m) (metric_dom hp m)) as HM.
    { unfold pv_metric. rewrite Hc, Hd, Hdom. reflexivity. }
    split; [exact HM|]. unfold want_values. rewrite <- HM. clear HM. unfold pv_value.
    destruct Hok as (m' & Hm' & Hok). assert (m' = m) as -> by congruence. clear Hm'.
    destruct p as [mp' d v|mp' d ip dom0 vals]; cbn [mp_vals mp_dom].
    - destruct H as (_ & c0 & Hb & ->). rewrite Hb. reflexivity.
    - destruct Hok as (_ & _ & cells & Hb & Hi & HP & HF). rewrite Hb, Hi. rewrite map_map. cbn [fst snd].
      set (f := fun n : gostring => c0 ← cells !! n; i ← id_insts dom0 !! n;
         Some (mkVV (pv_metric c (MPInst mp' d ip dom0 vals)) (Some (want_inst (r_version2 r) dom0 (n, i))) (want_val (c_val c0)))).
      transitivity (omap f (vals.*1)).
      + apply reflexive_eq. symmetry. change (vals.*1) with (map fst vals). rewrite omap_map. apply omap_ext_some.
        intros [n v] Hx. rewrite Forall_forall in HF. destruct (HF _ Hx) as (c0 & Hc0 & <-). cbn [fst snd] in *. unfold f. rewrite Hc0.
        destruct H as (_ & _ & cells' & Hb' & _ & _ & HV). destruct (HV _ _ Hx) as ([i Hin] & _). rewrite Hin. cbn. rewrite Hc. reflexivity.
      + rewrite (omap_perm f _ _ HP). apply reflexive_eq. change ((map_to_list (id_insts dom0)).*1) with (map fst (map_to_list (id_insts dom0))).
        rewrite omap_map. apply list_omap_ext. apply Forall2_same_length_lookup_2; [reflexivity|].
        intros k [n i] [n' i'] E1 E2. assert ((n, i) = (n', i')) as E by congruence. simplify_eq.
        assert ((n', i') ∈ map_to_list (id_insts dom0)) as Hin by (apply elem_of_list_lookup; eauto). apply elem_of_map_to_list in Hin.
        unfold f. cbn [fst snd]. rewrite Hin. destruct (cells !! n'); reflexivity.
  Qed.

  Lemma plan_view_want c : k_reg c = r -> veq (plan_view c pl) (want_view hp r).
  Proof.
    intros Hc. unfold veq, plan_view, want_view. cbn [v_indoms v_insts v_metrics v_values]. split_and!.
    - etransitivity; [|apply Permutation_map, plan_doms_perm]. rewrite map_map. reflexivity.
    - etransitivity; [|apply concat_perm_r, plan_doms_perm]. rewrite map_map. apply concat_perm_pt. intros x Hx.
      unfold pv_insts. rewrite Hc. apply Permutation_map. apply plan_dom_ok, Hx.
    - destruct plan_mps as (ms & H1 & H2). etransitivity; [|apply Permutation_map, H1]. apply reflexive_eq.
      clear H1. induction H2 as [|m p l l' (mp & A & B & C) H2 IH]; [reflexivity|]. cbn [map]. f_equal; [|exact IH].
      apply (pv_want c Hc _ _ _ A C).
    - destruct plan_mps as (ms & H1 & H2). etransitivity; [|apply concat_perm_r, H1]. symmetry.
      eapply concat_perm_2; [exact H2|]. intros m p (mp & A & B & C). symmetry. apply (pv_want c Hc _ _ _ A C).
  Qed.
End plan.

(** The main statement about one complete run of start(). *)
Lemma start_publishes hp c pl offs upds s :
  heap_ok hp -> reg_ok hp (k_reg c) -> plan_ok hp (k_reg c) pl -> startable hp (k_reg c) ->
  rtc (rstep (Length (k_reg c))) (start_state (k_reg c) offs upds, start_prog c pl) (s, PRet) ->
  exists ad am, start_result c pl upds ad am s /\ exists d, Dump (g_buf s) = DOk d /\ shows d (want_view hp (k_reg c)).
Proof.
  intros Hh Hr Hp Hs Hrun. pose proof (plan_wf_ok _ _ _ Hh Hr Hp Hs) as W. pose proof (plan_ranges_ok _ _ _ Hh Hr Hp Hs) as R.
  destruct (start_done _ _ _ _ _ W Hrun) as (ad & am & HR). exists ad, am. split; [exact HR|].
  eexists. split; [eapply dump_ok; eauto using start_image|].
  eapply shows_veq; [eapply plan_view_want; eauto|]. eapply view_ok; eauto using start_image.
Qed.
