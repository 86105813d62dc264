(** Unordered summaries of traces: which channel slots were taken, which regions
    were written with what. *)
From Verif Require Import Base BaseFacts ByteWriter Prog Ileave ProgProofs.

(** A job: region [lo, lo+w) written by the successive writes [ds], all at [lo].
    The tag says which channel the region was allocated from ([None]: fixed place). *)
Inductive ev :=
| EAlloc (c : chan) (v n : Z)
| ETake (c : chan) (v : Z)
| EPut (c : chan) (v : Z)
| ESet (i : okey) (v : Z)
| EGet (i : okey) (v : Z)
| EUpd (i : vkey) (o : Z)
| EJob (tag : option chan) (lo w : Z) (ds : list (list byte)).

(** Projections of traces. *)
Definition l_take (l : label) := match l with LTake c v => Some (c, v) | _ => None end.
Definition l_put (l : label) := match l with LPut c v => Some (c, v) | _ => None end.
Definition l_set (l : label) := match l with LSetOff c v => Some (c, v) | _ => None end.
Definition l_get (l : label) := match l with LGetOff c v => Some (c, v) | _ => None end.
Definition l_upd (l : label) := match l with LUpd c v => Some (c, v) | _ => None end.
Definition l_byte (l : label) : option bstore := match l with LByte o b => Some (o, b) | _ => None end.

(** Projections of summaries. *)
Definition e_take (e : ev) := match e with ETake c v => Some (c, v) | EAlloc c v _ => Some (c, v) | _ => None end.
Definition e_put (e : ev) := match e with EPut c v => Some (c, v) | EAlloc c v n => Some (c, v + n) | _ => None end.
Definition e_set (e : ev) := match e with ESet c v => Some (c, v) | _ => None end.
Definition e_get (e : ev) := match e with EGet c v => Some (c, v) | _ => None end.
Definition e_upd (e : ev) := match e with EUpd c v => Some (c, v) | _ => None end.

Definition job := (option chan * Z * Z * list (list byte))%type.
Definition e_job (e : ev) : option job := match e with EJob t lo w ds => Some (t, lo, w, ds) | _ => None end.

Definition job_stores (j : job) : list bstore := concat (map (stores_of j.1.1.2) j.2).
Definition job_in (L : Z) (j : job) : Prop :=
  Forall (fun d => 0 <= j.1.1.2 /\ j.1.1.2 + zlen d <= L) j.2.

Definition sumok (L : Z) (tr : list label) (E : list ev) : Prop :=
  omap l_take tr ≡ₚ omap e_take E /\
  omap l_put tr ≡ₚ omap e_put E /\
  omap l_set tr ≡ₚ omap e_set E /\
  omap l_get tr ≡ₚ omap e_get E /\
  omap l_upd tr ≡ₚ omap e_upd E /\
  (Forall (job_in L) (omap e_job E) ->
     LPanic ∉ tr /\ ileave (map job_stores (omap e_job E)) (omap l_byte tr)).

Lemma sumok_perm L tr E E' : E ≡ₚ E' -> sumok L tr E -> sumok L tr E'.
Proof.
  intros HP (H1 & H2 & H3 & H4 & H5 & H6).
  split_and!; try (etrans; [eassumption|]; by rewrite HP).
  intros HF. destruct H6 as [Hn Hi]; [by rewrite HP|]. split; [auto|].
  eapply ileave_perm; [|exact Hi]. by rewrite HP.
Qed.

Lemma sumok_nil L : sumok L [] [].
Proof. split_and!; auto. intros _. split; [set_solver|]. apply il_nil. constructor. Qed.

Lemma concat_omap {A B} (f : A -> option B) (ls : list (list A)) : omap f (concat ls) = concat (map (omap f) ls).
Proof. induction ls; cbn; [auto|]. rewrite omap_app. f_equal. auto. Qed.

Lemma ileave_omap_perm {A B} (f : A -> option B) (ls : list (list A)) (tr : list A) :
  ileave ls tr -> omap f tr ≡ₚ concat (map (omap f) ls).
Proof. intros H. rewrite (ileave_perm_concat _ _ H). rewrite concat_omap. auto. Qed.

Lemma Forall2_omap_perm {A B C} (f : A -> option C) (g : B -> option C) (ls : list (list A)) (es : list (list B)) (R : list A -> list B -> Prop) :
  (forall a b, R a b -> omap f a ≡ₚ omap g b) -> Forall2 R ls es ->
  concat (map (omap f) ls) ≡ₚ omap g (concat es).
Proof. intros HR. induction 1; cbn; [auto|]. rewrite omap_app, IHForall2, HR by eauto. auto. Qed.

Lemma sumok_ileave L trs tr Es : ileave trs tr -> Forall2 (sumok L) trs Es -> sumok L tr (concat Es).
Proof.
  intros Hi HF. split_and!.
  1-5: rewrite (ileave_omap_perm _ _ _ Hi); eapply Forall2_omap_perm; [|exact HF]; unfold sumok; naive_solver.
  intros Hin. split.
  - rewrite (ileave_perm_concat _ _ Hi). clear Hi. induction HF as [|t e trs Es Hs HF IH]; cbn in *; [set_solver|].
    rewrite omap_app, Forall_app in Hin. destruct Hin as [Ha Hb].
    rewrite elem_of_app. intros [Hx|Hx]; [|by apply IH].
    destruct Hs as (_ & _ & _ & _ & _ & Hs). destruct (Hs Ha); auto.
  - apply (ileave_omap l_byte) in Hi.
    enough (exists lss, map job_stores (omap e_job (concat Es)) = concat lss /\ Forall2 (fun ls t => ileave ls t) lss (map (omap l_byte) trs)) as (lss & -> & HF2).
    { eapply ileave_flatten_all; eauto. }
    clear Hi. induction HF as [|t e trs Es Hs HF IH]; cbn in *.
    + exists []. split; auto.
    + rewrite omap_app, Forall_app in Hin. destruct Hin as [Ha Hb].
      destruct IH as (lss & E & HF2); auto.
      exists (map job_stores (omap e_job e) :: lss). split.
      * rewrite omap_app, map_app. cbn. f_equal. exact E.
      * constructor; auto. destruct Hs as (_ & _ & _ & _ & _ & Hs). destruct (Hs Ha); auto.
Qed.

Lemma sumok_app L t1 t2 E1 E2 : sumok L t1 E1 -> sumok L t2 E2 -> sumok L (t1 ++ t2) (E1 ++ E2).
Proof.
  intros H1 H2. rewrite <- (app_nil_r E2). apply (sumok_ileave L [t1; t2] _ [E1; E2]).
  - apply ileave_app.
  - auto.
Qed.

Ltac sum_single :=
  split_and!; [auto|auto|auto|auto|auto|]; intros _; split; [set_solver|apply il_nil; constructor].

Lemma sumok_take L c v : sumok L [LTake c v] [ETake c v]. Proof. sum_single. Qed.
Lemma sumok_put L c v : sumok L [LPut c v] [EPut c v]. Proof. sum_single. Qed.
Lemma sumok_set L i v : sumok L [LSetOff i v] [ESet i v]. Proof. sum_single. Qed.
Lemma sumok_get L i v : sumok L [LGetOff i v] [EGet i v]. Proof. sum_single. Qed.
Lemma sumok_upd L i v : sumok L [LUpd i v] [EUpd i v]. Proof. sum_single. Qed.

Lemma sumok_alloc L tr c v n E : sumok L tr (ETake c v :: EPut c (v + n) :: E) -> sumok L tr (EAlloc c v n :: E).
Proof. intros H. exact H. Qed.

(** An unwritten region. *)
Lemma sumok_hole L tr t lo w E : sumok L tr E -> sumok L tr (EJob t lo w [] :: E).
Proof.
  intros (H1 & H2 & H3 & H4 & H5 & H6). split_and!; auto.
  cbn. intros HF. inversion HF; subst. destruct H6 as [Hn Hi]; auto. split; auto.
  apply (ileave_insert_nil []). exact Hi.
Qed.

Lemma omap_lbyte_stores (l : list bstore) : omap l_byte ((fun s : bstore => LByte s.1 s.2) <$> l) = l.
Proof. induction l as [|[o b] l IH]; cbn; [auto|]. f_equal. exact IH. Qed.

Lemma omap_none {A B C} (f : A -> option B) (g : C -> A) (l : list C) : (forall x, f (g x) = None) -> omap f (g <$> l) = [].
Proof. intros H. induction l; cbn; [auto|]. rewrite H. auto. Qed.

Lemma wlab_no (B : Type) (f : label -> option B) L m off d :
  (forall o b, f (LByte o b) = None) -> f LPanic = None -> omap f (wlab L m off d) = [].
Proof.
  intros H1 H2. unfold wlab. destruct (L <? _).
  { destruct m; cbn; rewrite ?H2; auto. }
  destruct d as [|b d]; [auto|]. destruct (off <? 0); [cbn; rewrite ?H2; auto|].
  apply (omap_none f (fun s : bstore => LByte s.1 s.2)). auto.
Qed.

Lemma wlab_in L m off d : 0 <= off -> off + zlen d <= L ->
  wlab L m off d = (fun s => LByte s.1 s.2) <$> stores_of off d.
Proof.
  intros H1 H2. unfold wlab. replace (L <? off + zlen d) with false by lia.
  destruct d; [reflexivity|]. replace (off <? 0) with false by lia. reflexivity.
Qed.

(** The labels of successive writes at one place. *)
Fixpoint wlabs (L : Z) (off : Z) (ds : list (bool * list byte)) : list label :=
  match ds with [] => [] | (m, d) :: ds => wlab L m off d ++ wlabs L off ds end.

Lemma sumok_writes L t lo w ds : sumok L (wlabs L lo ds) [EJob t lo w (ds.*2)].
Proof.
  assert (forall B (f : label -> option B), (forall o b, f (LByte o b) = None) -> f LPanic = None ->
    omap f (wlabs L lo ds) = []) as Hno.
  { intros B f H1 H2. induction ds as [|[m d] ds IH]; cbn; [auto|]. rewrite omap_app, IH, wlab_no; auto. }
  split_and!; try (rewrite Hno by auto; reflexivity).
  cbn. intros HF. inversion HF as [|? ? Hj _]; subst.
  enough (LPanic ∉ wlabs L lo ds /\ omap l_byte (wlabs L lo ds) = job_stores (t, lo, w, ds.*2)) as [Ha ->].
  { split; [exact Ha|]. apply ileave_singleton. }
  clear Hno HF. unfold job_in in Hj. cbn in Hj. unfold job_stores. cbn.
  induction ds as [|[m d] ds IH]; cbn in *; [split; [set_solver|auto]|].
  inversion Hj as [|? ? [Hj1 Hj2] Hj3]; subst. destruct IH as [IH1 IH2]; auto.
  rewrite wlab_in by lia. split.
  - rewrite elem_of_app. intros [H|H]; [|auto]. apply elem_of_list_fmap in H as (? & ? & _). discriminate.
  - rewrite omap_app, omap_lbyte_stores, IH2. reflexivity.
Qed.

Lemma sumok_write L m t lo w d : sumok L (wlab L m lo d) [EJob t lo w [d]].
Proof. pose proof (sumok_writes L t lo w [(m, d)]) as H. cbn in H. rewrite app_nil_r in H. exact H. Qed.
