(** The grammar of metric names given as strings, and that parseString decides it. *)
From Verif Require Import Base BaseFacts Utf8 Utf8Facts Regexp RegexpFacts Parse.
From stdpp Require Import relations.
Local Open Scope Z_scope.

(** ** The grammar *)

Section Grammar.
  Context (isLN : Z -> bool).

  (** An identifier: one or more letters, digits (as the Unicode tables [isLN] say) or
      underscores. *)
  Definition word_char (c : Z) : Prop := isLN c = true \/ c = 95.
  Definition ident (b : gostring) : Prop := b <> [] /\ Forall (fun t => word_char (fst t)) (utf8 b).

  (** Identifiers separated by dots. *)
  Inductive dotted : gostring -> Prop :=
  | dotted_one b : ident b -> dotted b
  | dotted_more b d : ident b -> dotted d -> dotted (b ++ str "." ++ d).

  (** Identifiers separated by a comma and at most one white space character. *)
  Definition white (c : byte) : Prop := byteZ c ∈ [9; 10; 12; 13; 32].
  Inductive listed : list gostring -> gostring -> Prop :=
  | listed_one b : ident b -> listed [b] b
  | listed_more b sp l t : ident b -> (sp = [] \/ exists c, sp = [c] /\ white c) -> listed l t ->
      listed (b :: l) (b ++ str "," ++ sp ++ t).

  Definition suffix_of (x : gostring) : Prop := x = [] \/ exists d, dotted d /\ x = str "." ++ d.

  (** [parses s m d i]: [s] names the metric [m], in the domain [d] with the instances
      [i] if these are given. *)
  Definition parses (s m d : gostring) (i : option (list gostring)) : Prop :=
    (dotted s /\ m = s /\ d = [] /\ i = None) \/
    (exists txt l suf, dotted d /\ listed l txt /\ suffix_of suf /\
       s = d ++ str "[" ++ txt ++ str "]" ++ suf /\ m = d ++ suf /\ i = Some l).
End Grammar.

(** The delimiters of the grammar are neither letters nor digits. *)
Definition delims_ok (isLN : Z -> bool) : Prop := forall c, c ∈ [46; 91; 93; 44; 9; 10; 12; 13; 32] -> isLN c = false.

(** ** The same on tokens *)

Section Facts.
  Context (isLN : Z -> bool) (DO : delims_ok isLN).

  Notation idc := (isId isLN).
  Definition tident (w : list tok) : Prop := w <> [] /\ Forall (fun t => idc (fst t) = true) w.

  Lemma idc_word c : idc c = true <-> word_char isLN c.
  Proof. unfold isId, word_char. rewrite orb_true_iff, Z.eqb_eq. done. Qed.

  Lemma delim_not_id c : c ∈ [46; 91; 93; 44; 9; 10; 12; 13; 32] -> idc c = false.
  Proof.
    intros H. unfold isId. rewrite (DO _ H). cbn. apply Z.eqb_neq. intros ->.
    repeat (apply elem_of_cons in H as [H|H]; [discriminate|]). by apply elem_of_nil in H.
  Qed.

  Inductive dots : list tok -> Prop :=
  | dots_nil : dots []
  | dots_cons t u w : fst t = 46 -> tident u -> dots w -> dots (t :: u ++ w).

  Inductive commas : list tok -> Prop :=
  | commas_nil : commas []
  | commas_cons t sp u w : fst t = 44 -> (sp = [] \/ exists c, sp = [c] /\ isSpace (fst c) = true) -> tident u -> commas w ->
      commas (t :: sp ++ u ++ w).

  Lemma lang_id w : lang (re_id isLN) w <-> tident w.
  Proof.
    unfold re_id, RPlus. cbn [lang]. split.
    - intros (u & v & -> & (c & -> & P) & (ws & -> & F)). split; [done|]. constructor; [done|].
      induction F as [|x ws [(d & -> & Pd) _] F IH]; [constructor|]. cbn. by constructor.
    - intros [N F]. destruct w as [|c w]; [done|]. apply Forall_cons in F as [P F].
      exists [c], w. split_and!; [done|by exists c|]. exists (map (fun t => [t]) w). split.
      + clear. induction w as [|x w IH]; [done|]. cbn. by rewrite <- IH.
      + clear N. induction F as [|x w Px F IH]; cbn; [constructor|]. constructor; [|done]. split; [by exists x|done].
  Qed.

  Lemma lang_lit c w : lang (RLit c) w <-> exists t, w = [t] /\ fst t = c.
  Proof. cbn. split; intros (t & -> & E); exists t; (split; [done|]); [by apply Z.eqb_eq in E|by apply Z.eqb_eq]. Qed.

  Lemma lang_dots g n w : lang (RStar g (RCap n (RSeq (RLit 46) (re_id isLN)))) w <-> dots w.
  Proof.
    change (lang (RStar g (RCap n (RSeq (RLit 46) (re_id isLN)))) w) with
      (exists ws, w = concat ws /\ Forall (fun u => (exists x y, u = x ++ y /\ lang (RLit 46) x /\ lang (re_id isLN) y) /\ u <> []) ws).
    split.
    - intros (ws & -> & F). induction F as [|x ws [(a & b & -> & A & B) _] F IH]; [constructor|].
      apply lang_lit in A as (t & -> & E). apply lang_id in B. cbn [concat app]. by constructor.
    - induction 1 as [|t u w E U D (ws & -> & F)]; [by exists []|].
      exists ((t :: u) :: ws). split; [done|]. constructor; [|done]. split; [|done].
      exists [t], u. split_and!; [done| |by apply lang_id]. apply lang_lit. eauto.
  Qed.

  Lemma lang_commas w : lang (RCap 7 (RStar true (RCap 8 (RCat [RLit 44; ROpt (RClass isSpace); RCap 9 (re_id isLN)])))) w <-> commas w.
  Proof.
    change (lang (RCap 7 (RStar true (RCap 8 (RCat [RLit 44; ROpt (RClass isSpace); RCap 9 (re_id isLN)])))) w) with
      (exists ws, w = concat ws /\ Forall (fun u => (exists x y, u = x ++ y /\ lang (RLit 44) x /\
         exists p q, y = p ++ q /\ ((exists c, p = [c] /\ isSpace (fst c) = true) \/ p = []) /\ lang (re_id isLN) q) /\ u <> []) ws).
    split.
    - intros (ws & -> & F). induction F as [|x ws [(a & b & -> & A & p & q & -> & P & Q) _] F IH]; [constructor|].
      apply lang_lit in A as (t & -> & E). apply lang_id in Q. cbn. rewrite <- !app_assoc. constructor; auto. tauto.
    - induction 1 as [|t sp u w E S U D (ws & -> & F)]; [by exists []|].
      exists ((t :: sp ++ u) :: ws). split; [cbn; by rewrite <- app_assoc|]. constructor; [|done]. split; [|done].
      exists [t], (sp ++ u). split_and!; [done| |]. { apply lang_lit. eauto. }
      exists sp, u. split_and!; [done|tauto|by apply lang_id].
  Qed.

  (** ** The pattern *)

  Definition tname (w : list tok) : Prop := exists u v, w = u ++ v /\ tident u /\ dots v.
  Definition tinsts (w : list tok) : Prop := exists u v, w = u ++ v /\ tident u /\ commas v.

  Lemma lang_name w : lang (RSeq (RCap 2 (re_id isLN)) (RStar false (RCap 3 (RSeq (RLit 46) (re_id isLN))))) w <-> tname w.
  Proof.
    change (lang (RSeq (RCap 2 (re_id isLN)) (RStar false (RCap 3 (RSeq (RLit 46) (re_id isLN))))) w) with
      (exists u v, w = u ++ v /\ lang (re_id isLN) u /\ lang (RStar false (RCap 3 (RSeq (RLit 46) (re_id isLN)))) v).
    unfold tname. setoid_rewrite lang_id. by setoid_rewrite lang_dots.
  Qed.

  Lemma lang_insts w : lang (re_instances isLN) w <-> tinsts w.
  Proof.
    change (lang (re_instances isLN) w) with
      (exists u v, w = u ++ v /\ lang (re_id isLN) u /\ lang (RCap 7 (RStar true (RCap 8 (RCat [RLit 44; ROpt (RClass isSpace); RCap 9 (re_id isLN)])))) v).
    unfold tinsts. setoid_rewrite lang_id. by setoid_rewrite lang_commas.
  Qed.

  Definition re1 := RSeq (RCap 2 (re_id isLN)) (RStar false (RCap 3 (RSeq (RLit 46) (re_id isLN)))).
  Definition re4 := RCat [RLit 91; RCap 5 (re_instances isLN); RLit 93].
  Definition re10 := RStar true (RCap 11 (RSeq (RLit 46) (re_id isLN))).

  Lemma den_pattern l m : den (re_pattern isLN) (Mst 0 l ∅) m -> exists u1 u3,
    tname u1 /\ dots u3 /\ ms_caps m !! 1%nat = Some u1 /\ ms_caps m !! 10%nat = Some u3 /\
    ((l = u1 ++ u3 /\ ms_caps m !! 5%nat = None) \/
     exists lb t rb, fst lb = 91 /\ fst rb = 93 /\ tinsts t /\ l = u1 ++ lb :: t ++ rb :: u3 /\ ms_caps m !! 5%nat = Some t).
  Proof.
    change (den (re_pattern isLN) (Mst 0 l ∅) m) with
      (exists s1, (ms_pos (Mst 0 l ∅) = 0%nat /\ s1 = Mst 0 l ∅) /\ exists s2, den (RCap 1 re1) s1 s2 /\
       exists s3, (den (RCap 4 re4) s2 s3 \/ s3 = s2) /\ exists s4, den (RCap 10 re10) s3 s4 /\ (ms_rest s4 = [] /\ m = s4)).
    intros (s1 & (_ & ->) & s2 & D1 & s3 & D4 & s4 & D10 & E4 & ->).
    pose proof (den_cap _ _ _ _ D1) as (u1 & L1 & R1 & C1). pose proof (den_cap _ _ _ _ D10) as (u3 & L3 & R3 & C3).
    apply lang_name in L1. apply lang_dots in L3. cbn [ms_rest] in R1. rewrite E4, app_nil_r in R3.
    assert (forall n, n ∉ groups (RCap 10 re10) -> ms_caps s4 !! n = ms_caps s3 !! n) as K10 by (intros; by eapply den_groups).
    assert (forall n, n ∉ groups (RCap 1 re1) -> ms_caps s2 !! n = None) as K1.
    { intros n Hn. rewrite (den_groups _ _ _ _ D1 Hn). apply lookup_empty. }
    assert (1%nat ∉ groups (RCap 10 re10)) as N1 by (cbn; set_solver).
    assert (5%nat ∉ groups (RCap 10 re10)) as N5 by (cbn; set_solver).
    exists u1, u3. split_and!; [done|done| |done|].
    { rewrite (K10 _ N1), <- C1. destruct D4 as [D4| ->]; [|done]. apply (den_groups _ _ _ _ D4). cbn. set_solver. }
    rewrite (K10 _ N5). destruct D4 as [D4| ->].
    - right. change (den (RCap 4 re4) s2 s3) with
        (exists s, (exists a, den (RLit 91) s2 a /\ exists b, den (RCap 5 (re_instances isLN)) a b /\ den (RLit 93) b s) /\
          s3 = Mst (ms_pos s) (ms_rest s) (<[4%nat := take (length (ms_rest s2) - length (ms_rest s))%nat (ms_rest s2)]> (ms_caps s))) in D4.
      destruct D4 as (s & (a & A & b & B & C) & ->). cbn [ms_rest ms_caps] in *.
      pose proof (den_cap _ _ _ _ B) as (t & LT & RT & CT). apply lang_insts in LT.
      pose proof (den_lang _ _ _ A) as (wa & LA & RA & _). apply lang_lit in LA as (lb & -> & El).
      pose proof (den_lang _ _ _ C) as (wc & LC & RC & _). apply lang_lit in LC as (rb & -> & Er).
      exists lb, t, rb. split_and!; [done|done|done| |].
      + rewrite R1, RA, RT, RC, R3. done.
      + rewrite lookup_insert_ne by done. rewrite <- CT. apply (den_groups _ _ _ _ C). cbn. set_solver.
    - left. split; [by rewrite R1, R3|]. apply K1. cbn. set_solver.
  Qed.

  Lemma pattern_den u1 u3 mid : tname u1 -> dots u3 ->
    (mid = [] \/ exists lb t rb, fst lb = 91 /\ fst rb = 93 /\ tinsts t /\ mid = lb :: t ++ [rb]) ->
    exists m, den (re_pattern isLN) (Mst 0 (u1 ++ mid ++ u3) ∅) m.
  Proof.
    intros N1 N3 NM.
    destruct (lang_den (RCap 1 re1) u1 (mid ++ u3) (Mst 0 (u1 ++ mid ++ u3) ∅)) as (s2 & D1 & R2); [done|by apply lang_name|done|].
    assert (exists s3, (den (RCap 4 re4) s2 s3 \/ s3 = s2) /\ ms_rest s3 = u3) as (s3 & D4 & R3).
    { destruct NM as [->|(lb & t & rb & El & Er & T & ->)]; [exists s2; auto|].
      destruct (lang_den (RCap 4 re4) (lb :: t ++ [rb]) u3 s2) as (s3 & D & R); [done| |done|eauto].
      change (exists x y, lb :: t ++ [rb] = x ++ y /\ lang (RLit 91) x /\ exists z w, y = z ++ w /\ lang (re_instances isLN) z /\ lang (RLit 93) w).
      exists [lb], (t ++ [rb]). split_and!; [done|apply lang_lit; eauto|]. exists t, [rb]. split_and!; [done|by apply lang_insts|apply lang_lit; eauto]. }
    destruct (lang_den (RCap 10 re10) u3 [] s3) as (s4 & D10 & R4); [done|by apply lang_dots|by rewrite app_nil_r|].
    exists s4.
    change (exists s1, (ms_pos (Mst 0 (u1 ++ mid ++ u3) ∅) = 0%nat /\ s1 = Mst 0 (u1 ++ mid ++ u3) ∅) /\ exists s2, den (RCap 1 re1) s1 s2 /\
       exists s3, (den (RCap 4 re4) s2 s3 \/ s3 = s2) /\ exists s4', den (RCap 10 re10) s3 s4' /\ (ms_rest s4' = [] /\ s4 = s4')).
    eexists. split; [done|]. exists s2. split; [done|]. exists s3. split; [done|]. exists s4. done.
  Qed.

  Lemma rfind_sound r pos l i m : rfind r pos l = Some (i, m) -> exists pre l', l = pre ++ l' /\ i = (pos + length pre)%nat /\ den r (Mst i l' ∅) m.
  Proof.
    revert pos. induction l as [|c l IH]; intros pos H; cbn [rfind] in H.
    - destruct (rmatch r (Mst pos [] ∅) Some) as [s|] eqn:E; [|done]. injection H as <- <-.
      apply rmatch_sound in E as (s' & D & [= ->]). exists [], []. cbn. split_and!; [done|lia|done].
    - destruct (rmatch r (Mst pos (c :: l) ∅) Some) as [s|] eqn:E.
      + injection H as <- <-. apply rmatch_sound in E as (s' & D & [= ->]). exists [], (c :: l). cbn. split_and!; [done|lia|done].
      + apply IH in H as (pre & l' & -> & -> & D). exists (c :: pre), l'. cbn [length]. split_and!; [done|lia|done].
  Qed.

  Lemma rfind_complete r l m : den r (Mst 0 l ∅) m -> is_Some (rfind r 0 l).
  Proof.
    intros D. assert (is_Some (rmatch r (Mst 0 l ∅) Some)) as [x E] by (by eapply rmatch_complete; eauto).
    destruct l; cbn [rfind]; rewrite E; eauto.
  Qed.

  Lemma find_pattern s m : find_submatch (re_pattern isLN) s = Some m -> den (re_pattern isLN) (Mst 0 (utf8 s) ∅) m.
  Proof.
    unfold find_submatch. destruct (rfind _ _ _) as [[i x]|] eqn:E; [|done]. intros [= ->].
    apply rfind_sound in E as (pre & l' & El & -> & D).
    assert (0 + length pre = 0)%nat as Z0 by (destruct D as (s1 & [P _] & _); exact P).
    destruct pre; [|cbn in Z0; lia]. rewrite El. exact D.
  Qed.

  (** ** FindAllString of identifiers *)

  Lemma rmatch_id s : rmatch (re_id isLN) s Some =
    match ms_rest s with [] => None | c :: _ => if idc (fst c) then Some (skip (run idc (ms_rest s)) s) else None end.
  Proof.
    change (rmatch (re_id isLN) s Some) with
      (match ms_rest s with [] => None | c :: _ => if idc (fst c) then rmatch (RStar true (RClass idc)) (advance s) Some else None end).
    destruct (ms_rest s) as [|c l] eqn:E; [done|]. destruct (idc (fst c)) eqn:P; [|done].
    rewrite star_class, down_first by eauto. rewrite advance_skip. cbn [run]. rewrite P. cbn [advance ms_rest]. by rewrite E.
  Qed.

  Definition stops (l : list tok) : Prop := match l with [] => True | c :: _ => idc (fst c) = false end.

  Lemma rfind_id sep u rest pos : Forall (fun t => idc (fst t) = false) sep -> tident u -> stops rest ->
    rfind (re_id isLN) pos (sep ++ u ++ rest) = Some ((pos + length sep)%nat, Mst (pos + length sep + length u) rest ∅).
  Proof.
    intros F [N U] ST. revert pos. induction F as [|c sep P F IH]; intros pos.
    - cbn [app length]. destruct u as [|c u]; [done|]. cbn [app rfind]. rewrite rmatch_id. cbn [ms_rest].
      apply Forall_cons in U as [P U]. rewrite P. unfold skip. cbn [ms_pos ms_rest ms_caps].
      assert (run idc (c :: u ++ rest) = S (length u)) as R.
      { cbn [run]. rewrite P. rewrite run_app by done.
        assert (run idc rest = 0%nat) as -> by (destruct rest as [|d rest]; [done|]; cbn in ST |- *; by rewrite ST). by rewrite Nat.add_0_r. }
      rewrite R. cbn [drop length]. rewrite drop_app. apply (f_equal Some). f_equal; [lia|]. f_equal; lia.
    - cbn [app rfind]. rewrite rmatch_id. cbn [ms_rest]. rewrite P, IH. cbn [length]. apply (f_equal Some). f_equal; [lia|]. f_equal; lia.
  Qed.

  Lemma rfind_id_none sep pos : Forall (fun t => idc (fst t) = false) sep -> rfind (re_id isLN) pos sep = None.
  Proof.
    intros F. revert pos. induction F as [|c sep P F IH]; intros pos; cbn [rfind]; rewrite rmatch_id; cbn [ms_rest]; [done|]. by rewrite P, IH.
  Qed.


  Lemma stops_commas v : commas v -> stops v.
  Proof. destruct 1 as [|t sp u w E]; cbn; [done|]. rewrite E. apply delim_not_id. set_solver. Qed.

  Lemma space_delim c : isSpace c = true -> c ∈ [46; 91; 93; 44; 9; 10; 12; 13; 32].
  Proof. unfold isSpace. rewrite !orb_true_iff, !Z.eqb_eq. intros [[[[-> | ->] | ->] | ->] | ->]; set_solver. Qed.

  (** Listing of a token list: the identifiers in order. *)
  Inductive tlist : list tok -> list (list tok) -> Prop :=
  | tlist_one u : tident u -> tlist u [u]
  | tlist_more u t sp w l : tident u -> fst t = 44 -> (sp = [] \/ exists c, sp = [c] /\ isSpace (fst c) = true) -> tlist w l ->
      tlist (u ++ t :: sp ++ w) (u :: l).

  Lemma tinsts_tlist w : tinsts w -> exists l, tlist w l.
  Proof.
    intros (u & v & -> & U & C). revert u U. induction C as [|t sp x w E S X C IH]; intros u U.
    - rewrite app_nil_r. exists [u]. by constructor.
    - destruct (IH x X) as (l & L). exists (u :: l). by constructor.
  Qed.

  Lemma tlist_tinsts w l : tlist w l -> tinsts w.
  Proof.
    induction 1 as [u U|u t sp w l U E S L IH]; [exists u, []; rewrite app_nil_r; split_and!; [done|done|constructor]|].
    destruct IH as (x & v & -> & X & C). exists u, (t :: sp ++ x ++ v). split_and!; [done|done|]. by constructor.
  Qed.

  Lemma find_all_tlist w l : tlist w l -> forall n sep, Forall (fun t => idc (fst t) = false) sep -> (length l <= n)%nat ->
    find_all n (re_id isLN) (sep ++ w) = map untok l.
  Proof.
    induction 1 as [u U|u t sp w l U E S L IH]; intros n sep F Hn; (destruct n as [|n]; [cbn in Hn; (unfold tok in *; lia)|]); cbn [find_all].
    - rewrite <- (app_nil_r u) at 1. rewrite (rfind_id sep u []) by done. cbn [ms_pos ms_rest map]. f_equal.
      + f_equal. rewrite drop_app_alt by (unfold tok in *; lia). apply take_ge. (unfold tok in *; lia).
      + by destruct n.
    - assert (Forall (fun t => idc (fst t) = false) (t :: sp)) as F2.
      { constructor; [rewrite E; apply delim_not_id; set_solver|]. destruct S as [->|(c & -> & S)]; [constructor|].
        constructor; [|constructor]. by apply delim_not_id, space_delim. }
      rewrite (rfind_id sep u (t :: sp ++ w)); [|done|done|by apply Forall_cons in F2 as [? _]].
      cbn [ms_pos ms_rest map]. f_equal.
      + f_equal. rewrite drop_app_alt by (unfold tok in *; lia). rewrite take_app_alt; [done|(unfold tok in *; lia)].
      + change (t :: sp ++ w) with ((t :: sp) ++ w). apply IH; [done|cbn in Hn; (unfold tok in *; lia)].
  Qed.

  Lemma tlist_length w l : tlist w l -> (length l <= length w)%nat.
  Proof.
    induction 1 as [u [N _]|u t sp w l U E S L IH]; [destruct u; [done|cbn; (unfold tok in *; lia)]|].
    rewrite app_length. cbn [length]. rewrite app_length. (unfold tok in *; lia).
  Qed.

  (** ** Tokens and bytes *)

  Lemma ident_of u : wtoks u -> tident u -> ident isLN (untok u).
  Proof.
    intros W [N F]. split; [by apply untok_nonempty|]. rewrite W. eapply Forall_impl; [exact F|]. intros t. cbn. apply idc_word.
  Qed.

  Lemma ident_to b : ident isLN b -> tident (utf8 b).
  Proof.
    intros [N F]. split.
    - intros E. apply N. by rewrite <- (untok_utf8 b), E.
    - eapply Forall_impl; [exact F|]. intros t. cbn. apply idc_word.
  Qed.

  Lemma wtoks_byte t c : tok_ok t -> fst t = byteZ c -> byteZ c < 128 -> t = (byteZ c, [c]).
  Proof.
    intros O E L. destruct (tok_ascii t O) as (d & -> & Ld); [lia|]. cbn in E. by rewrite (byteZ_inj _ _ E).
  Qed.

  Lemma name_of u v : wtoks (u ++ v) -> tident u -> dots v -> dotted isLN (untok (u ++ v)).
  Proof.
    intros W U D. revert u W U. induction D as [|t x w E X D IH]; intros u W U.
    - rewrite app_nil_r in *. constructor. by apply ident_of.
    - assert (wtoks u) as Wu by (eapply wtoks_prefix; [exact W|lia]).
      assert (wtoks (x ++ w)) as Wx by (eapply wtoks_tail; by eapply wtoks_suffix).
      assert (t = (46, [x2e])) as ->.
      { apply (wtoks_byte t x2e); [|done|done]. apply wtoks_ok, Forall_app in W as [_ W]. by inversion W. }
      rewrite untok_app, untok_cons. cbn [snd]. apply (dotted_more _ (untok u) (untok (x ++ w))); [by apply ident_of|by apply IH].
  Qed.

  Lemma dotted_to b : dotted isLN b -> tname (utf8 b).
  Proof.
    induction 1 as [b I|b d I D IH].
    - exists (utf8 b), []. rewrite app_nil_r. split_and!; [done|by apply ident_to|constructor].
    - change (b ++ str "." ++ d) with (b ++ x2e :: d). rewrite utf8_app_ascii by done.
      destruct IH as (u & v & -> & U & V). exists (utf8 b), ((byteZ x2e, [x2e]) :: u ++ v). split_and!; [done|by apply ident_to|].
      by constructor.
  Qed.

  Lemma white_space c : white c <-> isSpace (byteZ c) = true.
  Proof.
    unfold white, isSpace. rewrite !orb_true_iff, !Z.eqb_eq, !elem_of_cons, elem_of_nil. tauto.
  Qed.

  Lemma space_ascii (t : tok) : isSpace (fst t) = true -> fst t < 128.
  Proof. unfold isSpace. rewrite !orb_true_iff, !Z.eqb_eq. lia. Qed.

  Lemma list_of w l : tlist w l -> wtoks w -> listed isLN (map untok l) (untok w).
  Proof.
    induction 1 as [u U|u t sp w l U E S L IH]; intros W; [constructor; by apply ident_of|].
    assert (wtoks u) as Wu by (eapply wtoks_prefix; [exact W|lia]).
    assert (wtoks w) as Ww.
    { apply wtoks_suffix in W. apply wtoks_tail in W. by apply wtoks_suffix in W. }
    pose proof (wtoks_ok _ W) as O. apply Forall_app in O as [_ O]. apply Forall_cons in O as [O1 O2]. apply Forall_app in O2 as [O2 _].
    assert (t = (44, [x2c])) as -> by (by apply (wtoks_byte t x2c)).
    rewrite untok_app, untok_cons, untok_app. cbn [snd map].
    apply (listed_more _ (untok u) (untok sp)); [by apply ident_of| |by apply IH].
    destruct S as [->|(c & -> & S)]; [by left|]. right. apply Forall_cons in O2 as [O2 _].
    destruct (tok_ascii c O2) as (d & -> & Ld); [by apply space_ascii|]. exists d. split; [done|]. by apply white_space.
  Qed.

  Lemma listed_to l b : listed isLN l b -> exists tl, tlist (utf8 b) tl /\ map untok tl = l.
  Proof.
    induction 1 as [b I|b sp l t I S L (tl & T & M)].
    - exists [utf8 b]. split; [constructor; by apply ident_to|]. cbn. by rewrite untok_utf8.
    - exists (utf8 b :: tl). split; [|cbn; by rewrite untok_utf8, M].
      change (b ++ str "," ++ sp ++ t) with (b ++ x2c :: (sp ++ t)). rewrite utf8_app_ascii by done.
      destruct S as [->|(c & -> & S)].
      + apply (tlist_more (utf8 b) _ []); [by apply ident_to|done|by left|done].
      + apply white_space in S. assert (byteZ c < 128) by (by apply (space_ascii (byteZ c, [c]))).
        cbn [app]. rewrite utf8_ascii by done. apply (tlist_more (utf8 b) _ [(byteZ c, [c])]); [by apply ident_to|done| |done].
        right. exists (byteZ c, [c]). done.
  Qed.

  (** ** parseString accepts the grammar, with the parts of the grammar *)

  Lemma dots_suffix v : wtoks v -> dots v -> suffix_of isLN (untok v).
  Proof.
    intros W D. destruct D as [|t u w E U D]; [by left|]. right.
    assert (t = (46, [x2e])) as ->.
    { apply (wtoks_byte t x2e); [|done|done]. apply wtoks_ok in W. by inversion W. }
    exists (untok (u ++ w)). split; [|done]. apply name_of; [by eapply wtoks_tail|done|done].
  Qed.

  Lemma suffix_dots x : suffix_of isLN x -> dots (utf8 x).
  Proof.
    intros [->|(d & D & ->)]; [constructor|]. change (str "." ++ d) with (x2e :: d). rewrite utf8_ascii by done.
    apply dotted_to in D as (u & v & -> & U & V). by constructor.
  Qed.

  Lemma tident_ascii u c : tident u -> c ∈ [46; 91; 93; 44; 9; 10; 12; 13; 32] -> Forall (fun t => fst t <> c) u.
  Proof.
    intros [_ F] Hc. eapply Forall_impl; [exact F|]. intros t. cbn. intros E X. rewrite X, (delim_not_id _ Hc) in E. done.
  Qed.

  (** *** The matcher finds the grammar *)
  Lemma parse_sound s m d i : parse_string isLN s = Some (m, d, i) -> parses isLN s m d i.
  Proof.
    unfold parse_string. destruct (find_submatch _ s) as [c|] eqn:E; [|done].
    apply find_pattern, den_pattern in E as (u1 & u3 & (u & v & -> & U & V) & D & C1 & C10 & R).
    pose proof (wtoks_utf8 s) as W. unfold submatch. rewrite C1, C10.
    destruct R as [(El & C5)|(lb & t & rb & Elb & Erb & T & El & C5)]; rewrite C5.
    - destruct (decide _) as [_|?]; [|done]. intros [= <- <- <-]. left. split_and!; [|by rewrite <- untok_app, <- El, untok_utf8|done|done].
      rewrite <- (untok_utf8 s), El. rewrite El, <- app_assoc in W. rewrite <- app_assoc. apply name_of; [done|done|].
      clear - V D. induction V as [|t u w E U V IH]; [done|]. cbn. rewrite <- app_assoc. by constructor.
    - destruct (tinsts_tlist t T) as (l & L).
      rewrite El in W. assert (wtoks (u ++ v)) as Wn by (eapply wtoks_prefix; [exact W|lia]).
      pose proof (wtoks_suffix _ _ W) as W2. pose proof (wtoks_tail _ _ W2) as W3.
      assert (wtoks t) as Wt by (eapply wtoks_prefix; [exact W3|lia]).
      assert (wtoks u3) as Ws by (eapply wtoks_tail; by eapply wtoks_suffix).
      assert (lb = (91, [x5b])) as -> by (apply (wtoks_byte lb x5b); [apply wtoks_ok in W2; by inversion W2|done|done]).
      assert (rb = (93, [x5d])) as -> by (apply (wtoks_byte rb x5d); [apply wtoks_suffix, wtoks_ok in W3; by inversion W3|done|done]).
      assert (t <> []) as Nt. { destruct T as (x & y & -> & [Nx _] & _). destruct x; done. }
      destruct (decide _) as [E0|_]; [by apply (untok_nonempty t) in E0|]. intros [= <- <- <-]. right.
      exists (untok t), (map untok l), (untok u3). split_and!.
      + by apply name_of.
      + by apply list_of.
      + by apply dots_suffix.
      + rewrite <- (untok_utf8 s), El, !untok_app, !untok_cons, !untok_app, !untok_cons. cbn [snd]. by rewrite <- !app_assoc.
      + done.
      + f_equal. unfold find_all_string. rewrite Wt. apply (find_all_tlist _ _ L _ []); [constructor|by apply tlist_length].
  Qed.

  Lemma parse_complete s m d i : parses isLN s m d i -> is_Some (parse_string isLN s).
  Proof.
    intros H. assert (is_Some (find_submatch (re_pattern isLN) s)) as [c E].
    { unfold find_submatch. destruct H as [(D & _)|(txt & l & suf & D & L & S & -> & _)].
      - apply dotted_to in D. destruct (pattern_den (utf8 s) [] [] D dots_nil (or_introl eq_refl)) as (x & X).
        rewrite !app_nil_r in X. apply rfind_complete in X as [[? ?] ->]. eauto.
      - apply dotted_to in D. apply listed_to in L as (tl & T & _). apply tlist_tinsts in T. apply suffix_dots in S.
        change (d ++ str "[" ++ txt ++ str "]" ++ suf) with (d ++ x5b :: (txt ++ x5d :: suf)). rewrite !utf8_app_ascii by done.
        edestruct (pattern_den (utf8 d) (utf8 suf)) as (x & X); [exact D|exact S| |].
        { right. exists (byteZ x5b, [x5b]), (utf8 txt), (byteZ x5d, [x5d]). split_and!; [done|done|exact T|reflexivity]. }
        cbn [app] in X. rewrite <- app_assoc in X. cbn [app] in X. apply rfind_complete in X as [y X].
        destruct (rfind _ _ _) as [[? ?]|]; [eauto|done]. }
    unfold parse_string. rewrite E. destruct (decide _); eauto.
  Qed.

  (** *** The grammar is unambiguous *)
  Lemma ident_bytes b c : ident isLN b -> byteZ c ∈ [46; 91; 93; 44; 9; 10; 12; 13; 32] -> c ∉ b.
  Proof.
    intros I Hc Hin. apply ident_to in I. rewrite <- (untok_utf8 b) in Hin.
    assert (Forall (fun t => idc (fst t) = true /\ tok_ok t) (utf8 b)) as F.
    { apply Forall_and. split; [by destruct I|apply utf8_ok]. }
    assert (byteZ c < 128) as Lc. { repeat (apply elem_of_cons in Hc as [->|Hc]; [lia|]). by apply elem_of_nil in Hc. }
    clear I. induction F as [|t l [P O] F IH]; [by apply elem_of_nil in Hin|]. rewrite untok_cons in Hin.
    apply elem_of_app in Hin as [Hin|Hin]; [|by apply IH].
    destruct O as [(L & d & E & Ed)|(L & _ & O)].
    - rewrite E in Hin. apply elem_of_list_singleton in Hin as ->. rewrite <- Ed in P. by rewrite (delim_not_id _ Hc) in P.
    - rewrite Forall_forall in O. apply O in Hin. lia.
  Qed.

  Lemma dotted_bytes b c : dotted isLN b -> byteZ c ∈ [91; 93] -> c ∉ b.
  Proof.
    intros D Hc. assert (byteZ c ∈ [46; 91; 93; 44; 9; 10; 12; 13; 32]) as Hc2 by set_solver.
    induction D as [b I|b d I D IH]; [by apply ident_bytes|]. rewrite !not_elem_of_app. split_and!; [by apply ident_bytes| |done].
    intros H. apply elem_of_list_singleton in H as ->. vm_compute in Hc. repeat (apply elem_of_cons in Hc as [Hc|Hc]; [discriminate|]). by apply elem_of_nil in Hc.
  Qed.

  Lemma listed_bytes l b : listed isLN l b -> x5d ∉ b.
  Proof.
    induction 1 as [b I|b sp l t I S L IH]; [apply ident_bytes; [done|vm_compute; set_solver]|].
    rewrite !not_elem_of_app. split_and!; [apply ident_bytes; [done|vm_compute; set_solver]| | |done].
    - intros H. apply elem_of_list_singleton in H. done.
    - destruct S as [->|(c & -> & S)]; [by apply not_elem_of_nil|]. intros H. apply elem_of_list_singleton in H as <-.
      unfold white in S. vm_compute in S. repeat (apply elem_of_cons in S as [S|S]; [discriminate|]). by apply elem_of_nil in S.
  Qed.

  Lemma split_at (c : byte) (a a' b b' : list byte) : c ∉ a -> c ∉ a' -> a ++ c :: b = a' ++ c :: b' -> a = a' /\ b = b'.
  Proof.
    revert a'. induction a as [|x a IH]; intros [|x' a'] N N' E; cbn in E.
    - by injection E.
    - injection E as -> _. exfalso. apply N'. left.
    - injection E as -> _. exfalso. apply N. left.
    - injection E as -> E. apply IH in E as [-> ->]; [done| |]; intros H; [apply N|apply N']; by right.
  Qed.

  Lemma listed_fun l l' b : listed isLN l b -> listed isLN l' b -> l = l'.
  Proof.
    intros L L'. apply listed_to in L as (tl & T & <-). apply listed_to in L' as (tl' & T' & <-).
    set (n := (length tl + length tl')%nat).
    rewrite <- (find_all_tlist _ _ T n []); [|constructor|lia]. rewrite <- (find_all_tlist _ _ T' n []); [done|constructor|lia].
  Qed.

  Lemma parses_fun s m d i m' d' i' : parses isLN s m d i -> parses isLN s m' d' i' -> m = m' /\ d = d' /\ i = i'.
  Proof.
    assert (byteZ x5b ∈ [91; 93]) as B1 by (vm_compute; set_solver).
    intros [(D & -> & -> & ->)|(txt & l & suf & D & L & S & E & -> & ->)] [(D' & -> & -> & ->)|(txt' & l' & suf' & D' & L' & S' & E' & -> & ->)].
    - done.
    - exfalso. apply (dotted_bytes _ x5b D B1). rewrite E'. rewrite !elem_of_app. right. left. vm_compute. left.
    - exfalso. apply (dotted_bytes _ x5b D' B1). rewrite E. rewrite !elem_of_app. right. left. vm_compute. left.
    - rewrite E in E'. clear E.
      change (d ++ x5b :: (txt ++ x5d :: suf) = d' ++ x5b :: (txt' ++ x5d :: suf')) in E'.
      apply split_at in E' as [-> E2]; [|by apply dotted_bytes|by apply dotted_bytes].
      apply split_at in E2 as [-> ->]; [|by eapply listed_bytes|by eapply listed_bytes].
      split_and!; [done|done|]. f_equal. by eapply listed_fun.
  Qed.

  Theorem parse_iff s m d i : parse_string isLN s = Some (m, d, i) <-> parses isLN s m d i.
  Proof.
    split; [apply parse_sound|]. intros P. destruct (parse_complete _ _ _ _ P) as [[[m' d'] i'] E]. rewrite E.
    destruct (parses_fun _ _ _ _ _ _ _ P (parse_sound _ _ _ _ E)) as (-> & -> & ->). done.
  Qed.
End Facts.
