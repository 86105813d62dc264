(** Generic facts about goroutine programs (Prog.v):
    - complete runs decompose into per-goroutine traces ([ctr]);
    - programs following the channel token discipline never deadlock;
    - programs with a cost are terminating. *)
From Verif Require Import Base BaseFacts ByteWriter Prog Ileave.

(** ** Induction principle *)
Section prog_ind.
  Variable P : prog -> Prop.
  Hypothesis Hret : P PRet.
  Hypothesis Hwrite : forall m off data k, P k -> P (PWrite m off data k).
  Hypothesis Htake : forall c k, (forall v, P (k v)) -> P (PTake c k).
  Hypothesis Hput : forall c v k, P k -> P (PPut c v k).
  Hypothesis Hsetoff : forall i v k, P k -> P (PSetOff i v k).
  Hypothesis Hgetoff : forall i k, (forall v, P (k v)) -> P (PGetOff i k).
  Hypothesis Hsetupd : forall i o k, P k -> P (PSetUpd i o k).
  Hypothesis Hgo : forall c k, P c -> P k -> P (PGo c k).
  Hypothesis Hwg : forall n kids b k, Forall P kids -> P b -> P k -> P (PWg n kids b k).
  Fixpoint prog_ind' (p : prog) : P p :=
    match p with
    | PRet => Hret
    | PWrite m off data k => Hwrite m off data k (prog_ind' k)
    | PTake c k => Htake c k (fun v => prog_ind' (k v))
    | PPut c v k => Hput c v k (prog_ind' k)
    | PSetOff i v k => Hsetoff i v k (prog_ind' k)
    | PGetOff i k => Hgetoff i k (fun v => prog_ind' (k v))
    | PSetUpd i o k => Hsetupd i o k (prog_ind' k)
    | PGo c k => Hgo c k (prog_ind' c) (prog_ind' k)
    | PWg n kids b k =>
        Hwg n kids b k
          ((fix go (l : list prog) : Forall P l :=
              match l with
              | [] => Forall_nil_2 P
              | x :: l => Forall_cons_2 P x l (prog_ind' x) (go l)
              end) kids)
          (prog_ind' b) (prog_ind' k)
    end.
End prog_ind.

(** ** Traces *)

(** Labels emitted by a whole write. *)
Definition wlab (L : Z) (must : bool) (off : Z) (data : list byte) : list label :=
  if L <? off + zlen data then (if must then [LPanic] else [])
  else match data with
       | [] => []
       | _ => if off <? 0 then [LPanic] else (fun s => LByte s.1 s.2) <$> stores_of off data
       end.

Definition olist {A} (o : option A) : list A := match o with Some x => [x] | None => [] end.

(** [ctr L p tr T]: [p] can run to its end emitting [tr] itself, having spawned
    goroutines (into the enclosing wait group) whose complete traces are [T].
    Values received from channels and cells are arbitrary. *)
Fixpoint ctr (L : Z) (p : prog) (tr : list label) (T : list (list label)) {struct p} : Prop :=
  match p with
  | PRet => tr = [] /\ T = []
  | PWrite m off data k => exists tr', tr = wlab L m off data ++ tr' /\ ctr L k tr' T
  | PTake c k => exists v tr', tr = LTake c v :: tr' /\ ctr L (k v) tr' T
  | PPut c v k => exists tr', tr = LPut c v :: tr' /\ ctr L k tr' T
  | PSetOff i v k => exists tr', tr = LSetOff i v :: tr' /\ ctr L k tr' T
  | PGetOff i k => exists v tr', tr = LGetOff i v :: tr' /\ ctr L (k v) tr' T
  | PSetUpd i o k => exists tr', tr = LUpd i o :: tr' /\ ctr L k tr' T
  | PGo c b => exists tc T', T = tc :: T' /\ ctr L c tc [] /\ ctr L b tr T'
  | PWg n kids b k =>
      exists tks tb Tb tr1 tr2,
        tr = tr1 ++ tr2 /\
        (fix go (kids : list prog) (tks : list (list label)) : Prop :=
           match kids, tks with
           | [], [] => True
           | c :: kids, tc :: tks => ctr L c tc [] /\ go kids tks
           | _, _ => False
           end) kids tks /\
        ctr L b tb Tb /\
        ileave (tb :: tks ++ Tb) tr1 /\
        ctr L k tr2 T
  end.

Lemma ctr_kids_Forall2 L kids tks :
  (fix go (kids : list prog) (tks : list (list label)) : Prop :=
     match kids, tks with
     | [], [] => True
     | c :: kids, tc :: tks => ctr L c tc [] /\ go kids tks
     | _, _ => False
     end) kids tks <-> Forall2 (fun c t => ctr L c t []) kids tks.
Proof.
  revert tks; induction kids as [|c kids IH]; intros [|t tks]; cbn; split; intros H; try tauto;
    try (inversion H; fail); try constructor.
  - destruct H; auto.
  - apply IH. tauto.
  - inversion H; auto.
  - apply IH. inversion H; auto.
Qed.

Lemma ctr_wg L n kids b k tr T :
  ctr L (PWg n kids b k) tr T <->
  exists tks tb Tb tr1 tr2, tr = tr1 ++ tr2 /\ Forall2 (fun c t => ctr L c t []) kids tks /\
    ctr L b tb Tb /\ ileave (tb :: tks ++ Tb) tr1 /\ ctr L k tr2 T.
Proof.
  cbn [ctr]. split; intros (tks & tb & Tb & tr1 & tr2 & ? & H & ?); exists tks, tb, Tb, tr1, tr2;
    apply ctr_kids_Forall2 in H; auto.
Qed.

(** ** Wait group discipline: [spn p j] says that [p] spawns exactly [j] goroutines
    into the enclosing wait group on every path and that inside every wait group the
    counter equals the number of goroutines. *)
Inductive spn : prog -> nat -> Prop :=
| spn_ret : spn PRet 0
| spn_write m off data k j : spn k j -> spn (PWrite m off data k) j
| spn_take c k j : (forall v, spn (k v) j) -> spn (PTake c k) j
| spn_put c v k j : spn k j -> spn (PPut c v k) j
| spn_setoff i v k j : spn k j -> spn (PSetOff i v k) j
| spn_getoff i k j : (forall v, spn (k v) j) -> spn (PGetOff i k) j
| spn_setupd i o k j : spn k j -> spn (PSetUpd i o k) j
| spn_go c b j : spn c 0 -> spn b j -> spn (PGo c b) (S j)
| spn_wg n kids b k jb j : Forall (fun c => spn c 0) kids -> spn b jb ->
    n = Z.of_nat (length kids + jb) -> spn k j -> spn (PWg n kids b k) j.

Lemma write_step_spn L m off data k l p j :
  write_step L m off data k = (l, p) -> spn k j -> spn p j.
Proof.
  unfold write_step. intros H Hk. repeat case_match; simplify_eq; auto using spn_write.
Qed.

Lemma spn_pstep L p l p' : pstep L p l p' -> forall j, spn p j -> spn p' j.
Proof.
  induction 1; intros j0 Hs; inversion Hs; subst; auto.
  - eapply write_step_spn; eauto.
  - (* go *)
    match goal with H : spn (PGo _ _) _ |- _ => inversion H; subst end.
    econstructor; eauto.
    + apply Forall_app; split; auto.
    + rewrite app_length; cbn. lia.
  - econstructor; eauto.
  - match goal with H : Forall _ (_ ++ _) |- _ => apply Forall_app in H as [Ha Hb] end.
    inversion Hb; subst. econstructor; eauto.
    + apply Forall_app; split; auto.
    + rewrite !app_length; reflexivity.
  - match goal with H : Forall _ (_ ++ _) |- _ => apply Forall_app in H as [Ha Hb] end.
    inversion Hb; subst. econstructor; eauto.
    + apply Forall_app; split; auto.
    + rewrite !app_length; cbn; lia.
  - match goal with H : spn PRet _ |- _ => inversion H; subst end.
    match goal with H : ?k <> [] |- _ => destruct k; [congruence|] end. cbn in *. lia.
Qed.

(** Anti-reduction: prepend a step to a complete trace. *)
Lemma wlab_step L m off data k l p tr T :
  write_step L m off data k = (l, p) -> ctr L p tr T -> ctr L (PWrite m off data k) (olist l ++ tr) T.
Proof.
  unfold write_step. cbn [ctr]. intros H Hc. unfold wlab.
  destruct (L <? off + zlen data) eqn:E.
  - simplify_eq. exists tr. split; [|auto]. destruct m; reflexivity.
  - destruct data as [|b data].
    + simplify_eq. exists tr. split; auto.
    + destruct (off <? 0) eqn:E2; simplify_eq.
      * exists tr; split; auto.
      * cbn [ctr] in Hc. destruct Hc as (tr' & -> & Hk). exists tr'. split; [|exact Hk].
        unfold wlab. rewrite zlen_cons in *.
        replace (L <? off + 1 + zlen data) with false by lia.
        replace (off + 1 <? 0) with false by lia.
        destruct data; reflexivity.
Qed.

Lemma ctr_anti L p l p' : pstep L p l p' -> forall j, spn p j ->
  forall tr T, ctr L p' tr T -> ctr L p (olist l ++ tr) T.
Proof.
  induction 1; intros j0 Hs tr T Hc; inversion Hs; subst.
  - eapply wlab_step; eauto.
  - cbn. eauto.
  - cbn. eauto.
  - cbn. eauto.
  - cbn. eauto.
  - cbn. eauto.
  - (* go *)
    apply ctr_wg in Hc as (tks & tb & Tb & tr1 & tr2 & -> & HF & Hb & Hi & Hk).
    apply Forall2_app_inv_l in HF as (tks1 & tks2 & HF1 & HF2 & ->).
    inversion HF2 as [|? ? ? ? Hc1 HF2']; subst. inversion HF2'; subst.
    apply ctr_wg. exists tks1, tb, (y :: Tb), tr1, tr2. split; [reflexivity|]. split; [auto|].
    split; [cbn; eauto|]. split; [|auto]. rewrite <- app_assoc in Hi. exact Hi.
  - (* body *)
    apply ctr_wg in Hc as (tks & tb & Tb & tr1 & tr2 & -> & HF & Hb & Hi & Hk).
    apply ctr_wg. exists tks, (olist l ++ tb), Tb, (olist l ++ tr1), tr2.
    split; [apply app_assoc|]. split; [auto|]. split; [eapply IHpstep; eauto|]. split; [|auto].
    destruct l; cbn; auto. apply (il_cons [] _ tb). exact Hi.
  - (* kid *)
    apply ctr_wg in Hc as (tks & tb & Tb & tr1 & tr2 & -> & HF & Hb & Hi & Hk).
    apply Forall2_app_inv_l in HF as (tks1 & tks2 & HF1 & HF2 & ->).
    inversion HF2 as [|? tc ? tks3 Hc1 HF2']; subst.
    apply Forall_app in H4 as [? Hsp]. inversion Hsp; subst.
    apply ctr_wg. exists (tks1 ++ (olist l ++ tc) :: tks3), tb, Tb, (olist l ++ tr1), tr2.
    split; [apply app_assoc|]. split.
    { apply Forall2_app; auto. constructor; auto. eapply IHpstep; eauto. }
    split; [auto|]. split; [|auto].
    destruct l; cbn; auto.
    rewrite <- app_assoc in Hi |- *. cbn in *.
    apply (il_cons (tb :: tks1)). exact Hi.
  - (* done *)
    apply ctr_wg in Hc as (tks & tb & Tb & tr1 & tr2 & -> & HF & Hb & Hi & Hk).
    apply Forall2_app_inv_l in HF as (tks1 & tks2 & HF1 & HF2 & ->).
    assert (Z.of_nat (length (l1 ++ PRet :: l2) + jb) - 1 <? 0 = false) as ->.
    { rewrite app_length; cbn. lia. }
    cbn [olist app].
    apply ctr_wg. exists (tks1 ++ [] :: tks2), tb, Tb, tr1, tr2. split; [reflexivity|]. split.
    { apply Forall2_app; auto. constructor; auto. cbn; auto. }
    split; [auto|]. split; [|auto].
    rewrite <- app_assoc in Hi |- *. cbn. apply (ileave_insert_nil (tb :: tks1)). exact Hi.
  - apply ctr_wg. exists [], [], [], [], tr. split; [reflexivity|]. split; [constructor|].
    split; [cbn; auto|]. split; [|auto]. apply il_nil. repeat constructor.
  - exfalso. match goal with H : spn PRet _ |- _ => inversion H; subst end.
    match goal with H : ?k <> [] |- _ => destruct k; [congruence|] end. cbn in *. lia.
Qed.

(** Sequences of labelled steps of a pool. *)
Inductive psteps (L : Z) : prog -> list label -> prog -> Prop :=
| pss_refl p : psteps L p [] p
| pss_step p l q tr r : pstep L p l q -> psteps L q tr r -> psteps L p (olist l ++ tr) r.

Lemma psteps_ctr L p tr q : psteps L p tr q -> spn p 0 ->
  forall tr', ctr L q tr' [] -> ctr L p (tr ++ tr') [].
Proof.
  induction 1; intros Hs tr' Hc; [exact Hc|].
  rewrite <- app_assoc. eapply ctr_anti; eauto. apply IHpsteps; auto. eapply spn_pstep; eauto.
Qed.

Lemma psteps_complete L p tr : psteps L p tr PRet -> spn p 0 -> ctr L p tr [].
Proof.
  intros H Hs. rewrite <- (app_nil_r tr). eapply psteps_ctr; eauto. cbn. auto.
Qed.

Lemma psteps_trans L p t1 q t2 r : psteps L p t1 q -> psteps L q t2 r -> psteps L p (t1 ++ t2) r.
Proof.
  induction 1; intros; [auto|]. rewrite <- app_assoc. econstructor; eauto.
Qed.

Lemma psteps_spn L p tr q j : psteps L p tr q -> spn p j -> spn q j.
Proof. induction 1; auto. intros. apply IHpsteps. eapply spn_pstep; eauto. Qed.

(** ** Effects of traces *)

Fixpoint acts (s : gst) (tr : list label) : option gst :=
  match tr with
  | [] => Some s
  | l :: tr => match act s (Some l) with Some s' => acts s' tr | None => None end
  end.

Lemma acts_app s t1 t2 : acts s (t1 ++ t2) = match acts s t1 with Some s' => acts s' t2 | None => None end.
Proof. revert s; induction t1; cbn [acts app]; intros; [reflexivity|]. destruct (act s (Some a)); auto. Qed.

Lemma acts_olist s l tr : acts s (olist l ++ tr) = match act s l with Some s' => acts s' tr | None => None end.
Proof. destruct l; reflexivity. Qed.

(** Runs of the machine that ignore the panic flag. *)
Definition rstep (L : Z) (x y : gst * prog) : Prop :=
  exists l, pstep L x.2 l y.2 /\ act x.1 l = Some y.1.

Lemma gstep_rstep L x y : gstep L x y -> rstep L x y.
Proof. intros [_ H]. exact H. Qed.

Lemma rsteps_psteps L x y : rtc (rstep L) x y ->
  exists tr, psteps L x.2 tr y.2 /\ acts x.1 tr = Some y.1.
Proof.
  induction 1 as [x|x y z [l [Hp Ha]] H (tr & Hps & Hac)].
  - exists []. split; [constructor|reflexivity].
  - exists (olist l ++ tr). split; [econstructor; eauto|]. rewrite acts_olist, Ha. exact Hac.
Qed.

Lemma psteps_rsteps L p tr q : psteps L p tr q -> forall s s', acts s tr = Some s' ->
  rtc (rstep L) (s, p) (s', q).
Proof.
  induction 1; intros s s' Ha.
  - cbn in Ha. simplify_eq. reflexivity.
  - rewrite acts_olist in Ha. destruct (act s l) as [s1|] eqn:E; [|discriminate].
    apply rtc_l with (s1, q); [exists l; auto|]. auto.
Qed.

(** The panic flag is set exactly if a panic label was emitted. *)
Lemma act_panic s l s' : act s l = Some s' ->
  g_panic s' = true <-> g_panic s = true \/ l = Some LPanic.
Proof.
  destruct l as [[]|]; cbn; repeat case_match; intros; simplify_eq; cbn; naive_solver.
Qed.

Lemma acts_panic s tr s' : acts s tr = Some s' ->
  g_panic s' = true <-> g_panic s = true \/ LPanic ∈ tr.
Proof.
  revert s; induction tr as [|l tr IH]; cbn [acts]; intros s H.
  - simplify_eq. set_solver.
  - destruct (act s (Some l)) as [s1|] eqn:E; [|discriminate].
    rewrite (IH _ H), (act_panic _ _ _ E), elem_of_cons. naive_solver.
Qed.

(** ** Termination *)

Inductive cost : prog -> nat -> Prop :=
| cost_ret : cost PRet 0
| cost_write m off data k ld n : (length data <= ld)%nat -> cost k n -> cost (PWrite m off data k) (S (ld + n))
| cost_take c k n : (forall v, cost (k v) n) -> cost (PTake c k) (S n)
| cost_put c v k n : cost k n -> cost (PPut c v k) (S n)
| cost_setoff i v k n : cost k n -> cost (PSetOff i v k) (S n)
| cost_getoff i k n : (forall v, cost (k v) n) -> cost (PGetOff i k) (S n)
| cost_setupd i o k n : cost k n -> cost (PSetUpd i o k) (S n)
| cost_go c b n1 n2 : cost c n1 -> cost b n2 -> cost (PGo c b) (S (S n1 + n2))
| cost_wg n kids b k ns n1 n2 : Forall2 cost kids ns -> cost b n1 -> cost k n2 ->
    cost (PWg n kids b k) (S (sum_list (S <$> ns) + n1 + n2)).

Lemma sum_list_fmap_app ns1 ns2 : sum_list (S <$> (ns1 ++ ns2)) = (sum_list (S <$> ns1) + sum_list (S <$> ns2))%nat.
Proof. rewrite fmap_app. induction (S <$> ns1); cbn; lia. Qed.

Lemma cost_pstep L p l p' : pstep L p l p' -> forall j, spn p j -> forall n, cost p n ->
  exists n', cost p' n' /\ (n' < n)%nat.
Proof.
  induction 1; intros j0 Hs n0 Hc; inversion Hs; inversion Hc; subst.
  - unfold write_step in H. repeat case_match; simplify_eq.
    + eexists; split; eauto; lia.
    + eexists; split; eauto; lia.
    + eexists; split; eauto; cbn; lia.
    + eexists; split; eauto; cbn; lia.
    + cbn in *. destruct ld as [|ld]; [lia|]. eexists; split; [apply (cost_write _ _ _ _ ld); [lia|eauto]|]; cbn; lia.
  - eexists; split; eauto.
  - eexists; split; eauto.
  - eexists; split; eauto.
  - eexists; split; eauto.
  - eexists; split; eauto.
  - (* go *)
    match goal with H : cost (PGo _ _) _ |- _ => inversion H; subst end.
    eexists; split.
    + econstructor; [apply Forall2_app; [eauto|constructor; [eauto|constructor]] |eauto|eauto].
    + rewrite sum_list_fmap_app. cbn. lia.
  - edestruct IHpstep as (n' & Hn' & Hlt); eauto.
    eexists; split; [econstructor; eauto|]. lia.
  - match goal with H : Forall2 cost (_ ++ _) _ |- _ => apply Forall2_app_inv_l in H as (ns1 & ns2 & HF1 & HF2 & ->) end.
    inversion HF2 as [|? nn ? ns3 Hcc HF3]; subst.
    match goal with H : Forall _ (_ ++ _) |- _ => apply Forall_app in H as [? Hsp] end. inversion Hsp; subst.
    edestruct IHpstep as (n' & Hn' & Hlt); eauto.
    eexists; split.
    + econstructor; [apply Forall2_app; [eauto|constructor; eauto]|eauto|eauto].
    + rewrite !sum_list_fmap_app. cbn. lia.
  - match goal with H : Forall2 cost (_ ++ _) _ |- _ => apply Forall2_app_inv_l in H as (ns1 & ns2 & HF1 & HF2 & ->) end.
    inversion HF2 as [|? nn ? ns3 Hcc HF3]; subst.
    eexists; split.
    + econstructor; [apply Forall2_app; eauto|eauto|eauto].
    + rewrite !sum_list_fmap_app. cbn. lia.
  - eexists; split; eauto; lia.
  - exfalso. match goal with H : spn PRet _ |- _ => inversion H; subst end.
    match goal with H : ?k <> [] |- _ => destruct k; [congruence|] end. cbn in *. lia.
Qed.

(** ** Progress: the token discipline *)

(** Number of tokens of channel [c] held by the running goroutines of [p]. A holder's
    very next action gives the token back (or hands it to a goroutine that does). *)
Fixpoint holds (c : chan) (p : prog) : nat :=
  match p with
  | PPut c' _ _ => if decide (c = c') then 1 else 0
  | PGo ch b => holds c ch + holds c b
  | PWg _ kids b _ => sum_list (map (holds c) kids) + holds c b
  | _ => 0
  end.

(** Discipline: a take is followed by holding exactly that token; no token is held
    across any other action. [av] says which channels exist. *)
Inductive disc (av : chan -> bool) : prog -> Prop :=
| disc_ret : disc av PRet
| disc_write m off data k : (forall c, holds c k = 0%nat) -> disc av k -> disc av (PWrite m off data k)
| disc_take c k : av c = true ->
    (forall v c', holds c' (k v) = if decide (c' = c) then 1%nat else 0%nat) ->
    (forall v, disc av (k v)) -> disc av (PTake c k)
| disc_put c v k : av c = true -> (forall c', holds c' k = 0%nat) -> disc av k -> disc av (PPut c v k)
| disc_setoff i v k : (forall c, holds c k = 0%nat) -> disc av k -> disc av (PSetOff i v k)
| disc_getoff i k : (forall v c, holds c (k v) = 0%nat) -> (forall v, disc av (k v)) -> disc av (PGetOff i k)
| disc_setupd i o k : (forall c, holds c k = 0%nat) -> disc av k -> disc av (PSetUpd i o k)
| disc_go c b : disc av c -> disc av b -> disc av (PGo c b)
| disc_wg n kids b k : Forall (disc av) kids -> disc av b -> (forall c, holds c k = 0%nat) -> disc av k ->
    disc av (PWg n kids b k).

(** Channel invariant: an existing channel is full or its token is held once. *)
Definition chan_inv (av : chan -> bool) (s : gst) (p : prog) : Prop :=
  forall c, av c = true ->
    match g_ch s c with
    | ChFull _ => holds c p = 0%nat
    | ChEmpty => holds c p = 1%nat
    | ChNil => False
    end.

Lemma sum_holds_app c l1 l2 : sum_list (map (holds c) (l1 ++ l2)) = (sum_list (map (holds c) l1) + sum_list (map (holds c) l2))%nat.
Proof. rewrite map_app. induction (map (holds c) l1); cbn; lia. Qed.

(** How a step changes the number of held tokens. *)
Definition hold_delta (c : chan) (l : option label) (h h' : nat) : Prop :=
  match l with
  | Some (LTake c' _) => if decide (c = c') then h' = S h else h' = h
  | Some (LPut c' _) => if decide (c = c') then h = S h' else h' = h
  | _ => h' = h
  end.

Lemma hold_delta_add c l h h' x : hold_delta c l h h' -> hold_delta c l (x + h) (x + h').
Proof. unfold hold_delta. repeat case_match; lia. Qed.

Lemma holds_pstep av L p l p' : pstep L p l p' -> disc av p ->
  disc av p' /\ forall c, hold_delta c l (holds c p) (holds c p').
Proof.
  induction 1; intros Hd; inversion Hd; subst.
  - unfold write_step in H. repeat case_match; simplify_eq; (split; [try constructor; auto|]);
      intros c0; cbn; repeat case_match; auto.
  - split; auto. intros c'. cbn. match goal with H : forall v c', holds c' (k v) = _ |- _ => rewrite H end.
    destruct (decide (c' = c)); auto.
  - split; auto. intros c'. cbn. match goal with H : forall c', holds c' k = _ |- _ => rewrite H end.
    destruct (decide (c' = c)); auto.
  - split; auto; intros c'; cbn; auto.
  - split; auto; intros c'; cbn; auto.
  - split; auto; intros c'; cbn; auto.
  - match goal with H : disc av (PGo _ _) |- _ => inversion H; subst end. split.
    + constructor; auto. apply Forall_app; auto.
    + intros c'. cbn. rewrite sum_holds_app. cbn. lia.
  - destruct IHpstep as [Hd' Hh]; auto. split; [constructor; auto|].
    intros c'. cbn. apply hold_delta_add. auto.
  - match goal with H : Forall _ (_ ++ _) |- _ => apply Forall_app in H as [Ha Hb] end. inversion Hb; subst.
    destruct IHpstep as [Hd' Hh]; auto. split.
    + constructor; auto. apply Forall_app; auto.
    + intros c'. cbn. rewrite !sum_holds_app. cbn.
      specialize (Hh c'). unfold hold_delta in *. repeat case_match; lia.
  - match goal with H : Forall _ (_ ++ _) |- _ => apply Forall_app in H as [Ha Hb] end. inversion Hb; subst. split.
    + constructor; auto. apply Forall_app; auto.
    + intros c'. cbn [holds]. rewrite !sum_holds_app. cbn. destruct (n - 1 <? 0); cbn; auto; lia.
  - split; auto; intros c'; cbn; auto.
  - split; [constructor; auto using disc_ret|]. intros c'. cbn.
    match goal with H : forall c', holds c' k = _ |- _ => rewrite H end. lia.
Qed.

Lemma chan_inv_act av s l s' p p' :
  act s l = Some s' -> (forall c, hold_delta c l (holds c p) (holds c p')) ->
  chan_inv av s p -> chan_inv av s' p'.
Proof.
  intros Ha Hh Hi c Hc. specialize (Hi c Hc). specialize (Hh c).
  destruct l as [[o b|c0 v|c0 v|i v|i v|i o|]|]; cbn in Ha; cbn in Hh.
  - simplify_eq; cbn; rewrite Hh; exact Hi.
  - destruct (g_ch s c0) eqn:E; try discriminate. destruct (v =? v0); simplify_eq. cbn. unfold upd_ch.
    destruct (decide (c = c0)) as [->|]; [rewrite E in Hi; lia|]. rewrite Hh. exact Hi.
  - destruct (g_ch s c0) eqn:E; try discriminate. simplify_eq. cbn. unfold upd_ch.
    destruct (decide (c = c0)) as [->|]; [rewrite E in Hi; lia|]. rewrite Hh. exact Hi.
  - simplify_eq; cbn; rewrite Hh; exact Hi.
  - destruct (v =? _); simplify_eq. rewrite Hh; exact Hi.
  - simplify_eq; cbn; rewrite Hh; exact Hi.
  - simplify_eq; cbn; rewrite Hh; exact Hi.
  - simplify_eq; cbn; rewrite Hh; exact Hi.
Qed.

(** A pool is blocked on [c] somewhere. *)
Lemma can_step_or_blocked av L s p :
  (forall c, av c = true -> g_ch s c <> ChNil) ->
  forall j, spn p j -> disc av p ->
  p = PRet \/ (exists ch b, p = PGo ch b) \/
  (exists l p' s', pstep L p l p' /\ act s l = Some s') \/
  (exists c, av c = true /\ g_ch s c = ChEmpty /\ forall c', holds c' p = 0%nat) \/
  (exists c v, g_ch s c = ChFull v /\ holds c p <> 0%nat).
Proof.
  intros Hav. induction p as [|m off data k IH|c k IH|c v k IH|i v k IH|i k IH|i o k IH|ch b IH1 IH2|n kids b k IHk IHb IHc]
    using prog_ind'; intros j Hs Hd; inversion Hs; inversion Hd; subst.
  - left; reflexivity.
  - right; right; left. destruct (write_step L m off data k) as [l p'] eqn:E.
    exists l, p'. destruct l as [[]|]; try (eexists; split; [constructor; eauto|reflexivity]).
    all: unfold write_step in E; repeat case_match; simplify_eq.
  - right; right. destruct (g_ch s c) eqn:E.
    + exfalso. eapply Hav; eauto.
    + right. left. exists c. split; auto.
    + left. exists (Some (LTake c v)), (k v). eexists. split; [constructor|]. cbn. rewrite E.
      rewrite Z.eqb_refl. reflexivity.
  - right; right. destruct (g_ch s c) eqn:E.
    + exfalso. eapply Hav; eauto.
    + left. exists (Some (LPut c v)), k. eexists. split; [constructor|]. cbn. rewrite E. reflexivity.
    + right; right. exists c, v0. split; auto. cbn. rewrite decide_True; auto.
  - right; right; left. eexists _, _, _. split; [constructor|reflexivity].
  - right; right; left. exists (Some (LGetOff i (default 0 (g_off s !! i)))). eexists _, _. split; [constructor|].
    cbn. rewrite Z.eqb_refl. reflexivity.
  - right; right; left. eexists _, _, _. split; [constructor|reflexivity].
  - right; left; eauto.
  - right; right.
    (* either some kid can move, or all kids are blocked *)
    match goal with H : Forall (fun c => spn c 0) kids |- _ => rename H into Hsk end.
    match goal with H : Forall (disc av) kids |- _ => rename H into Hdk end.
    assert (Hkids : kids = [] \/
      (exists l p' s', pstep L (PWg (Z.of_nat (length kids + jb)) kids b k) l p' /\ act s l = Some s') \/
      (exists c, av c = true /\ g_ch s c = ChEmpty /\ forall c', sum_list (map (holds c') kids) = 0%nat) \/
      (exists c v, g_ch s c = ChFull v /\ sum_list (map (holds c) kids) <> 0%nat)).
    { generalize (Z.of_nat (length kids + jb)) as n0.
      assert (forall pre n0, kids = [] \/
        (exists l p' s', pstep L (PWg n0 (pre ++ kids) b k) l p' /\ act s l = Some s') \/
        (exists c, av c = true /\ g_ch s c = ChEmpty /\ forall c', sum_list (map (holds c') kids) = 0%nat) \/
        (exists c v, g_ch s c = ChFull v /\ sum_list (map (holds c) kids) <> 0%nat)) as X;
        [|intros n0; apply (X [] n0)].
      clear Hs Hd. induction kids as [|x kids IHkids]; intros pre n0; [left; reflexivity|]. right.
      inversion IHk as [|? ? Hx IHk']; subst. inversion Hsk as [|? ? Hsx Hsk']; subst.
      inversion Hdk as [|? ? Hdx Hdk']; subst.
      specialize (IHkids IHk' Hsk' Hdk' (pre ++ [x]) n0). rewrite <- app_assoc in IHkids. cbn in IHkids.
      destruct (Hx 0%nat Hsx Hdx) as [->|[(ch & bb & ->)|[(l & p' & s' & Hp & Ha)|[(c & Hc1 & Hc2 & Hc3)|(c & v & Hc1 & Hc2)]]]].
      - (* finished kid: Done *)
        left. destruct (n0 - 1 <? 0) eqn:En.
        + eexists (Some LPanic), _, _. split; [|reflexivity].
          pose proof (ps_done L n0 pre kids b k) as Hdone. rewrite En in Hdone. exact Hdone.
        + eexists None, _, _. split; [|reflexivity].
          pose proof (ps_done L n0 pre kids b k) as Hdone. rewrite En in Hdone. exact Hdone.
      - inversion Hsx.
      - left. exists l, (PWg n0 (pre ++ p' :: kids) b k), s'. split; auto. apply ps_kid. auto.
      - destruct IHkids as [->|[(l & p' & s' & Hp & Ha)|[(c' & Hd1 & Hd2 & Hd3)|(c' & v & Hd1 & Hd2)]]].
        + right; left. exists c. split; auto. split; auto. intros c'. cbn. rewrite Hc3. lia.
        + left. eauto.
        + right; left. exists c. split; auto. split; auto. intros c''. cbn. rewrite Hc3, Hd3. lia.
        + right; right. exists c', v. split; auto. cbn. lia.
      - right; right. exists c, v. split; auto. cbn. lia. }
    match goal with H : spn b jb |- _ => rename H into Hsb end.
    match goal with H : disc av b |- _ => rename H into Hdb end.
    destruct (IHb jb Hsb Hdb) as [->|[(ch & bb & ->)|[(l & p' & s' & Hp & Ha)|[(c & Hc1 & Hc2 & Hc3)|(c & v & Hc1 & Hc2)]]]].
    + (* waiting *)
      inversion Hsb; subst.
      destruct Hkids as [->|[Hst|[(c & Hc1 & Hc2 & Hc3)|(c & v & Hc1 & Hc2)]]].
      * left. eexists None, k, s. split; [|reflexivity]. cbn. apply ps_wait.
      * left. exact Hst.
      * right; left. exists c. split; auto. split; auto. intros c'. cbn. rewrite Hc3. reflexivity.
      * right; right. exists c, v. split; auto. cbn. lia.
    + left. eexists None, _, s. split; [|reflexivity]. apply ps_go.
    + left. exists l, (PWg (Z.of_nat (length kids + jb)) kids p' k), s'. split; auto. apply ps_body. auto.
    + destruct Hkids as [->|[Hst|[(c' & Hd1 & Hd2 & Hd3)|(c' & v & Hd1 & Hd2)]]].
      * right; left. exists c. split; auto.
      * left. exact Hst.
      * right; left. exists c. split; auto. split; auto. intros c''. cbn. rewrite Hc3, Hd3. reflexivity.
      * right; right. exists c', v. split; auto. cbn. lia.
    + right; right. exists c, v. split; auto. cbn. lia.
Qed.

Lemma progress av L s p j :
  spn p j -> disc av p -> chan_inv av s p -> (forall ch b, p <> PGo ch b) -> p <> PRet ->
  exists l p' s', pstep L p l p' /\ act s l = Some s'.
Proof.
  intros Hs Hd Hi Hng Hnr.
  assert (Hav : forall c, av c = true -> g_ch s c <> ChNil).
  { intros c Hc E. specialize (Hi c Hc). rewrite E in Hi. exact Hi. }
  destruct (can_step_or_blocked av L s p Hav j Hs Hd) as [?|[(ch & b & ->)|[?|[(c & Hc1 & Hc2 & Hc3)|(c & v & Hc1 & Hc2)]]]];
    auto; try congruence.
  - exfalso. specialize (Hi c Hc1). rewrite Hc2, Hc3 in Hi. lia.
  - exfalso. assert (av c = true) as Hc.
    { clear - Hd Hc2. revert Hd Hc2. induction p using prog_ind'; intros Hd Hh; inversion Hd; subst; cbn in Hh; try lia.
      - destruct (decide (c = c0)); [congruence|lia].
      - destruct (decide (holds c p1 = 0%nat)); [apply IHp2; auto; lia|apply IHp1; auto].
      - destruct (decide (holds c p1 = 0%nat)) as [E|E]; [|apply IHp1; auto].
        assert (sum_list (map (holds c) kids) <> 0%nat) as Hk by lia.
        match goal with H' : Forall (disc av) kids |- _ => rename H' into H3 end. clear - H H3 Hk.
        induction kids as [|x kids IH]; cbn in *; [lia|]. inversion H; inversion H3; subst.
        destruct (decide (holds c x = 0%nat)); [apply IH; auto; lia|auto]. }
    specialize (Hi c Hc). rewrite Hc1 in Hi. lia.
Qed.

(** ** Completing runs *)

Definition good (av : chan -> bool) (s : gst) (p : prog) : Prop :=
  spn p 0 /\ disc av p /\ chan_inv av s p.

Lemma good_step av L x y : rstep L x y -> good av x.1 x.2 -> good av y.1 y.2.
Proof.
  intros (l & Hp & Ha) (Hs & Hd & Hi).
  destruct (holds_pstep av L _ _ _ Hp Hd) as [Hd' Hh].
  split; [eapply spn_pstep; eauto|]. split; [auto|]. eapply chan_inv_act; eauto.
Qed.

Lemma good_steps av L x y : rtc (rstep L) x y -> good av x.1 x.2 -> good av y.1 y.2.
Proof. induction 1; auto. intros. apply IHrtc. eapply good_step; eauto. Qed.

Lemma good_progress av L s p : good av s p -> p <> PRet -> exists y, rstep L (s, p) y.
Proof.
  intros (Hs & Hd & Hi) Hne.
  destruct (progress av L s p 0%nat Hs Hd Hi) as (l & p' & s' & Hp & Ha); auto.
  - intros ch b ->. inversion Hs.
  - exists (s', p'). exists l. auto.
Qed.

(** No infinite run, and every run can be completed. *)
Lemma good_complete av L n : forall s p, good av s p -> cost p n ->
  exists s', rtc (rstep L) (s, p) (s', PRet).
Proof.
  induction (lt_wf n) as [n _ IH]. intros s p Hg Hc.
  assert (p = PRet \/ p <> PRet) as [->|Hne] by (destruct p; (left; reflexivity) || (right; discriminate)). { exists s. reflexivity. }
  destruct (good_progress av L s p Hg Hne) as ([s1 p1] & Hst).
  pose proof Hst as (l & Hp & Ha).
  destruct (cost_pstep L _ _ _ Hp 0%nat (proj1 Hg) n Hc) as (n' & Hc' & Hlt).
  destruct (IH n' Hlt s1 p1 (good_step _ _ _ _ Hst Hg) Hc') as (s' & Hr).
  exists s'. eapply rtc_l; eauto.
Qed.

Lemma cost_bound L p n x : spn p 0 -> cost p n -> forall s y, x = (s, p) -> forall k, nsteps (rstep L) k x y -> (k <= n)%nat.
Proof.
  revert p n x. intros p n. revert p. induction (lt_wf n) as [n _ IH]. intros p x Hs Hc s y -> k Hk.
  destruct k as [|k]; [lia|]. inversion Hk as [|? ? [s1 p1] ? Hst Hk']; subst.
  destruct Hst as (l & Hp & Ha). cbn in Hp.
  destruct (cost_pstep L _ _ _ Hp 0%nat Hs n Hc) as (n' & Hc' & Hlt).
  pose proof (IH n' Hlt p1 (s1, p1) (spn_pstep _ _ _ _ Hp _ Hs) Hc' s1 y eq_refl k Hk'). lia.
Qed.

(** ** Loops *)
Lemma ctr_gos L cs k tr T :
  ctr L (gos cs k) tr T <->
  exists ts T', T = ts ++ T' /\ Forall2 (fun c t => ctr L c t []) cs ts /\ ctr L k tr T'.
Proof.
  revert tr T. induction cs as [|c cs IH]; intros tr T; cbn [gos ctr].
  - split; [intros; exists [], T; auto|]. intros (ts & T' & -> & HF & Hk). inversion HF; subst. exact Hk.
  - split.
    + intros (tc & T' & -> & Hc & Hg). apply IH in Hg as (ts & T'' & -> & HF & Hk).
      exists (tc :: ts), T''. auto.
    + intros (ts & T' & -> & HF & Hk). inversion HF; subst. eexists _, _. split; [reflexivity|].
      split; [eauto|]. apply IH. eauto.
Qed.

Lemma spn_gos cs k j : Forall (fun c => spn c 0) cs -> spn k j -> spn (gos cs k) (length cs + j).
Proof. induction 1; cbn; intros; [auto|]. constructor; auto. Qed.

Lemma disc_gos av cs k : Forall (disc av) cs -> disc av k -> disc av (gos cs k).
Proof. induction 1; cbn; intros; [auto|]. constructor; auto. Qed.

Lemma holds_gos c cs k : holds c (gos cs k) = (sum_list (map (holds c) cs) + holds c k)%nat.
Proof. induction cs; cbn; [auto|]. lia. Qed.

Lemma cost_gos cs k ns n : Forall2 cost cs ns -> cost k n -> exists n', cost (gos cs k) n'.
Proof.
  induction 1; cbn; intros; [eauto|]. destruct IHForall2 as (n' & Hn'); auto.
  eexists. constructor; eauto.
Qed.
