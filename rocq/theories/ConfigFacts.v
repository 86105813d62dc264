(** What pcp.conf means, and that initConfig reads it that way. *)
From Verif Require Import Base BaseFacts Utf8 Utf8Facts Regexp RegexpFacts Path PathFacts Config.

(** ** Specification *)

Definition key_byte (c : byte) : Prop :=
  (65 <= byteZ c <= 90) \/ (48 <= byteZ c <= 57) \/ byteZ c = 95.

(** [ln] contains the key [k], directly followed by an equals sign, after [pre]; [v] is
    the rest of the line. *)
Definition assigns (ln pre k v : gostring) : Prop := ln = pre ++ k ++ str "=" ++ v /\ k <> [] /\ Forall key_byte k.

(** The leftmost such place. *)
Definition defines (ln k v : gostring) : Prop := exists pre, assigns ln pre k v /\
  forall pre' k' v', assigns ln pre' k' v' -> zlen pre <= zlen pre'.

(** [ln] is a line of the text [f], with [a] before it. *)
Definition line_of (f a ln : gostring) : Prop := exists b, f = a ++ ln ++ b /\ x0a ∉ ln /\
  (a = [] \/ exists a', a = a' ++ [x0a]) /\ (b = [] \/ exists b', b = x0a :: b').

(** A carriage return at the end of a line does not belong to it. *)
Definition stripped (raw ln : gostring) : Prop := raw = ln ++ [x0d] \/ (raw = ln /\ forall x, raw <> x ++ [x0d]).

(** The value the last line that defines [k] gives it. *)
Definition conf_value (f k v : gostring) : Prop := exists a raw ln, line_of f a raw /\ stripped raw ln /\ defines ln k v /\
  forall a' raw' ln' v', line_of f a' raw' -> stripped raw' ln' -> defines ln' k v' -> zlen a' <= zlen a.

(** ** One line *)

Definition tkeys (l : list tok) : Prop := l <> [] /\ Forall (fun t => isKey (fst t) = true) l.
Definition tassigns (l P K V : list tok) : Prop := exists e, l = P ++ K ++ e :: V /\ fst e = 61 /\ tkeys K.

Lemma rmatch_conf pos (l : list tok) : rmatch re_conf (Mst pos l ∅) Some =
  let n := run isKey l in
  if (n =? 0)%nat then None
  else match drop n l with
       | [] => None
       | e :: r => if 61 =? fst e then Some (Mst (pos + n + 1 + run isDot r) (drop (run isDot r) r)
                                       (<[2%nat := take (run isDot r) r]> (<[1%nat := take n l]> ∅))) else None
       end.
Proof.
  set (F := fun s1 : mst => match ms_rest s1 with [] => None | c :: _ => if 61 =? fst c then
     rmatch (RCap 2 (RStar true (RClass isDot))) (advance (Mst (ms_pos s1) (ms_rest s1) (<[1%nat := take (length l - length (ms_rest s1)) l]> (ms_caps s1)))) Some else None end).
  change (rmatch re_conf (Mst pos l ∅) Some) with
    (match l with [] => None | c :: _ => if isKey (fst c) then rmatch (RStar true (RClass isKey)) (advance (Mst pos l ∅)) F else None end).
  destruct l as [|c l]; [done|]. cbn zeta. cbn [run]. destruct (isKey (fst c)) eqn:P; [|done].
  change ((S (run isKey l) =? 0)%nat) with false. cbn match. rewrite star_class. cbn [advance ms_rest tail].
  rewrite down_top.
  - unfold F, skip. cbn [ms_rest ms_pos ms_caps advance tail drop]. destruct (drop (run isKey l) l) as [|e r] eqn:D; [done|].
    destruct (61 =? fst e); [|done]. 
    match goal with |- rmatch (RCap 2 ?a) ?s Some = _ => change (rmatch (RCap 2 a) s Some) with
      (rmatch a s (fun s' => Some (Mst (ms_pos s') (ms_rest s') (<[2%nat := take (length (ms_rest s) - length (ms_rest s'))%nat (ms_rest s)]> (ms_caps s'))))) end.
    rewrite star_class, down_first by eauto. unfold skip. cbn [ms_rest ms_pos ms_caps advance tail].
    apply (f_equal Some). f_equal; [lia|].
    assert (length l = run isKey l + S (length r))%nat as Hl.
    { pose proof (f_equal length D) as E. rewrite drop_length in E. cbn [length] in E. pose proof (run_le isKey l). unfold tok in *. lia. }
    f_equal.
    + f_equal. rewrite drop_length. pose proof (run_le isDot r). unfold tok in *. lia.
    + f_equal. cbn [length]. f_equal. unfold tok in *. lia.
  - intros i Hi. unfold F, skip. cbn [ms_rest advance tail]. destruct (drop i l) as [|e r] eqn:D; [done|].
    assert (isKey (fst e) = true) as Ke.
    { pose proof (run_take isKey l) as T. rewrite Forall_lookup in T. apply (T i). rewrite lookup_take by done.
      pose proof (f_equal (fun x => x !! 0%nat) D) as D0. cbn beta in D0. rewrite lookup_drop, Nat.add_0_r in D0. exact D0. }
    destruct (Z.eqb_spec 61 (fst e)) as [E|E]; [|done]. rewrite <- E in Ke. vm_compute in Ke. discriminate.
Qed.

Lemma run_exact p K e V : Forall (fun t : tok => p (fst t) = true) K -> p (fst e) = false -> run p (K ++ e :: V) = length K.
Proof. intros F E. rewrite run_app by done. cbn [run]. rewrite E. apply Nat.add_0_r. Qed.

Lemma rfind_conf (l : list tok) pos : Forall (fun t : tok => fst t <> 10) l ->
  match rfind re_conf pos l with
  | Some (_, m) => exists P K V, tassigns l P K V /\ (forall P' K' V', tassigns l P' K' V' -> (length P <= length P')%nat) /\
      ms_caps m !! 1%nat = Some K /\ ms_caps m !! 2%nat = Some V
  | None => forall P K V, ~ tassigns l P K V
  end.
Proof.
  assert (forall l, Forall (fun t : tok => fst t <> 10) l -> run isDot l = length l) as AD.
  { induction 1 as [|t x H F IH]; [done|]. cbn. unfold isDot at 1. apply Z.eqb_neq in H. rewrite H. cbn. by rewrite IH. }
  assert (forall (l K V : list tok), tassigns l [] K V -> run isKey l = length K /\ exists e, drop (length K) l = e :: V /\ fst e = 61 /\ take (length K) l = K) as HD.
  { intros y K V (e & -> & E & N & F). cbn [app]. split; [apply run_exact; [done|by rewrite E]|]. exists e. by rewrite drop_app, take_app. }
  revert pos. induction l as [|c l IH]; intros pos F.
  - cbn [rfind]. rewrite rmatch_conf. cbn. intros P K V (e & E & _). by destruct P, K.
  - assert (rmatch re_conf (Mst pos (c :: l) ∅) Some = None -> forall K V, ~ tassigns (c :: l) [] K V) as NOHEAD.
    { rewrite rmatch_conf. cbn zeta. intros H K V T. pose proof T as (_ & _ & _ & N & _). apply HD in T as (R & e & D & E & _). rewrite R, D, E in H.
      destruct K; [done|]. done. }
    cbn [rfind]. destruct (rmatch re_conf (Mst pos (c :: l) ∅) Some) as [m|] eqn:E.
    + clear NOHEAD. rewrite rmatch_conf in E. cbn zeta in E. destruct (Nat.eqb_spec (run isKey (c :: l)) 0) as [Z|Z]; [done|].
      remember (drop (run isKey (c :: l)) (c :: l)) as y eqn:D in E. destruct y as [|e r]; [done|]. destruct (Z.eqb_spec 61 (fst e)) as [E61|?]; [|done].
      symmetry in D. injection E as <-. exists [], (take (run isKey (c :: l)) (c :: l)), r. split_and!.
      * exists e. split_and!; [|done|].
        { cbn [app]. by rewrite <- D, take_drop. }
        split; [|apply run_take]. intros X. apply (f_equal length) in X. rewrite take_length in X. cbn [length] in X. pose proof (run_le isKey (c :: l)) as L. cbn [length] in L. unfold tok in *. lia.
      * intros. cbn. lia.
      * cbn [ms_caps]. rewrite lookup_insert_ne by done. by rewrite lookup_insert.
      * cbn [ms_caps]. rewrite lookup_insert. f_equal. rewrite AD; [apply take_ge; lia|].
        assert (Forall (fun t : tok => fst t <> 10) (e :: r)) as F2 by (rewrite <- D; by apply Forall_drop). by apply Forall_cons in F2 as [_ F2].
    + specialize (NOHEAD eq_refl). apply Forall_cons in F as [_ F]. specialize (IH (S pos) F).
      assert (forall P K V, tassigns (c :: l) P K V -> exists P', P = c :: P' /\ tassigns l P' K V) as TL.
      { intros P K V T. destruct P as [|p P]; [by apply NOHEAD in T|]. destruct T as (e & Ee & T). injection Ee as <- ->. exists P. split; [done|]. by exists e. }
      destruct (rfind re_conf (S pos) l) as [[i m]|].
      * destruct IH as (P & K & V & (e & -> & T) & M & C1 & C2). exists (c :: P), K, V. split_and!; [by exists e| |done|done].
        intros P' K' V' T'. apply TL in T' as (Q & -> & T'). apply M in T'. cbn. lia.
      * intros P K V T. apply TL in T as (Q & -> & T). by apply IH in T.
Qed.

(** ** Bytes *)

Lemma key_isKey c : key_byte c <-> isKey (byteZ c) = true.
Proof. unfold key_byte, isKey. rewrite !orb_true_iff, !andb_true_iff, !Z.leb_le, Z.eqb_eq. lia. Qed.

Lemma key_ascii c : key_byte c -> byteZ c < 128.
Proof. unfold key_byte. lia. Qed.

Lemma utf8_keys k l : Forall key_byte k -> utf8 (k ++ l) = map (fun c => (byteZ c, [c])) k ++ utf8 l.
Proof. induction 1 as [|c k H F IH]; [done|]. cbn [app map]. rewrite utf8_ascii by (by apply key_ascii). by rewrite IH. Qed.

Lemma untok_keys k : untok (map (fun c => (byteZ c, [c])) k) = k.
Proof. induction k as [|c k IH]; [done|]. cbn [map]. rewrite untok_cons, IH. done. Qed.

Lemma assigns_split ln pre k v : assigns ln pre k v -> exists c k', k = c :: k' /\ byteZ c < 128 /\ ln = pre ++ c :: (k' ++ str "=" ++ v).
Proof.
  intros (-> & N & F). destruct k as [|c k]; [done|]. exists c, k. apply Forall_cons in F as [H _]. split_and!; [done|by apply key_ascii|done].
Qed.

Lemma assigns_toks ln pre k v : assigns ln pre k v -> tassigns (utf8 ln) (utf8 pre) (utf8 k) (utf8 v).
Proof.
  intros A. destruct (assigns_split _ _ _ _ A) as (c & k' & -> & Lc & E). destruct A as (_ & _ & F). exists (61, [x3d]). split_and!.
  - rewrite E. rewrite utf8_app_ascii by done. f_equal. rewrite <- utf8_ascii by done.
    change (c :: k' ++ str "=" ++ v) with ((c :: k') ++ x3d :: v). by rewrite utf8_app_ascii.
  - done.
  - rewrite <- (app_nil_r (c :: k')), utf8_keys by done. cbn [utf8]. rewrite app_nil_r. split; [done|].
    apply Forall_map. eapply Forall_impl; [exact F|]. intros x. cbn. apply key_isKey.
Qed.

Lemma toks_assigns ln P K V : tassigns (utf8 ln) P K V ->
  assigns ln (untok P) (untok K) (untok V) /\ utf8 (untok P) = P /\ utf8 (untok V) = V.
Proof.
  intros (e & E & E61 & N & F). pose proof (wtoks_utf8 ln) as W. rewrite E in W.
  pose proof (wtoks_ok _ W) as O. apply Forall_app in O as [_ O]. apply Forall_app in O as [OK OV]. apply Forall_cons in OV as [Oe _].
  destruct (tok_ascii e Oe) as (x & -> & _); [rewrite E61; lia|]. cbn in E61. assert (x = x3d) as -> by (by apply byteZ_inj).
  assert (exists k, K = map (fun c => (byteZ c, [c])) k /\ Forall key_byte k) as (k & -> & Fk).
  { clear - F OK. induction K as [|t K IH]; [by exists []|]. apply Forall_cons in F as [Ft F]. apply Forall_cons in OK as [Ot OK].
    destruct (IH F OK) as (k & -> & Fk). destruct (tok_ascii t Ot) as (c & -> & Lc).
    { unfold isKey in Ft. rewrite !orb_true_iff, !andb_true_iff, !Z.leb_le, Z.eqb_eq in Ft. lia. }
    exists (c :: k). split; [done|]. constructor; [|done]. by apply key_isKey. }
  split_and!.
  - rewrite untok_keys. split_and!; [|by intros ->|done]. rewrite <- (untok_utf8 ln), E, !untok_app, untok_keys, untok_cons. done.
  - destruct k as [|c k]; [done|]. cbn [map app] in W. eapply wtoks_prefix; [exact W|]. cbn. apply Forall_cons in Fk as [H _]. by apply key_ascii.
  - apply wtoks_suffix in W. apply wtoks_suffix in W. by apply wtoks_tail in W.
Qed.

Lemma app_longer (a b x y : list byte) : a ++ x = b ++ y -> (length a < length b)%nat -> exists z, b = a ++ z /\ x = z ++ y.
Proof.
  revert b. induction a as [|c a IH]; intros b E L; [by exists b|]. destruct b as [|d b]; [cbn in L; lia|].
  injection E as <- E. apply IH in E as (z & -> & ->); [|cbn in L; lia]. by exists z.
Qed.

Lemma assigns_order ln p k v p' k' v' : assigns ln p k v -> assigns ln p' k' v' -> (length p < length p')%nat -> (length (utf8 p) < length (utf8 p'))%nat.
Proof.
  intros A A' L. destruct (assigns_split _ _ _ _ A) as (c & k1 & -> & Lc & E). destruct (assigns_split _ _ _ _ A') as (c' & k1' & -> & Lc' & E').
  rewrite E in E'. apply app_longer in E' as (z & -> & E'); [|done]. destruct z as [|d z]; [rewrite app_nil_r in L; lia|]. injection E' as -> _.
  rewrite utf8_app_ascii, app_length by done. cbn [length]. lia.
Qed.

Lemma assigns_same ln p k v p' k' v' : assigns ln p k v -> assigns ln p' k' v' -> length p = length p' -> p = p' /\ k = k' /\ v = v'.
Proof.
  intros (-> & N & F) (E & N' & F') L. apply app_inj_1 in E as [<- E]; [|done]. split; [done|].
  assert (forall k, Forall key_byte k -> x3d ∉ k) as NK.
  { intros y Fy H. rewrite Forall_forall in Fy. apply Fy in H. revert H. unfold key_byte. vm_compute. intuition discriminate. }
  apply NK in F, F'. change (k ++ x3d :: v = k' ++ x3d :: v') in E. clear N N' L. revert k' F' E.
  induction k as [|c k IH]; intros [|c' k'] F' E; cbn in E.
  - by injection E.
  - injection E as <- _. exfalso. apply F'. left.
  - injection E as -> _. exfalso. apply F. left.
  - injection E as -> E. apply not_elem_of_cons in F as [_ F]. apply not_elem_of_cons in F' as [_ F']. destruct (IH F _ F' E) as [-> ->]. done.
Qed.

Lemma defines_fun ln k v k' v' : defines ln k v -> defines ln k' v' -> k = k' /\ v = v'.
Proof.
  intros (p & A & M) (p' & A' & M'). pose proof (M _ _ _ A') as L1. pose proof (M' _ _ _ A) as L2. unfold zlen in *.
  destruct (assigns_same _ _ _ _ _ _ _ A A') as (_ & -> & ->); [lia|done].
Qed.

Lemma no_newline ln : x0a ∉ ln -> Forall (fun t : tok => fst t <> 10) (utf8 ln).
Proof.
  intros N. rewrite Forall_forall. intros t Ht E. pose proof (utf8_ok ln) as O. rewrite Forall_forall in O. specialize (O _ Ht).
  destruct (tok_ascii t O) as (c & -> & _); [lia|]. cbn in E. assert (c = x0a) as -> by (by apply byteZ_inj).
  apply N. apply elem_of_list_split in Ht as (l1 & l2 & Ht). rewrite <- (untok_utf8 ln), Ht, untok_app, untok_cons. cbn [snd]. set_solver.
Qed.

Lemma conf_line_spec ln k v : x0a ∉ ln -> conf_line ln = Some (k, v) <-> defines ln k v.
Proof.
  intros NL. pose proof (rfind_conf (utf8 ln) 0 (no_newline _ NL)) as R. unfold conf_line, find_submatch.
  destruct (rfind re_conf 0 (utf8 ln)) as [[i m]|].
  - destruct R as (P & K & V & T & M & C1 & C2). unfold submatch. rewrite C1, C2.
    assert (defines ln (untok K) (untok V)) as D.
    { destruct (toks_assigns _ _ _ _ T) as (A & UP & UV). exists (untok P). split; [done|]. intros p' k' v' A'.
      destruct (decide (zlen (untok P) <= zlen p')) as [|G]; [done|]. exfalso. unfold zlen in G.
      pose proof (M _ _ _ (assigns_toks _ _ _ _ A')) as L. pose proof (assigns_order _ _ _ _ _ _ _ A' A) as L2. rewrite UP in L2. lia. }
    split; [by intros [= <- <-]|]. intros D'. destruct (defines_fun _ _ _ _ _ D D') as [-> ->]. done.
  - split; [done|]. intros (p & A & _). by apply assigns_toks, R in A.
Qed.

(** ** Lines *)

Definition with_nl (l : list gostring) : list byte := concat (map (fun x => x ++ [x0a]) l).

Lemma with_nl_app a b : with_nl (a ++ b) = with_nl a ++ with_nl b.
Proof. unfold with_nl. by rewrite map_app, concat_app. Qed.

Lemma with_nl_split f : with_nl (split_on x0a f) = f ++ [x0a].
Proof.
  induction f as [|c f IH]; [done|]. cbn [split_on]. destruct (decide (c = x0a)) as [->|N].
  - unfold with_nl. cbn [map concat]. fold (with_nl (split_on x0a f)). by rewrite IH.
  - pose proof (split_on_nonempty x0a f) as NE. destruct (split_on x0a f) as [|e r] eqn:E; [done|].
    unfold with_nl in *. cbn [map concat app] in *. f_equal. exact IH.
Qed.

Lemma split_on_pieces c f : Forall (fun x => c ∉ x) (split_on c f).
Proof.
  induction f as [|d f IH]; cbn [split_on]; [constructor; [apply not_elem_of_nil|constructor]|].
  destruct (decide (d = c)) as [->|N]; [constructor; [apply not_elem_of_nil|done]|].
  destruct (split_on c f) as [|e r]; [constructor; [|constructor]|apply Forall_cons in IH as [H1 H2]; constructor; [|done]];
    apply not_elem_of_cons; (split; [done|]); [apply not_elem_of_nil|done].
Qed.

Lemma with_nl_end l : with_nl l = [] \/ exists x, with_nl l = x ++ [x0a].
Proof.
  destruct l as [|x l] using rev_ind; [by left|]. right. rewrite with_nl_app. exists (with_nl l ++ x). unfold with_nl at 2. cbn. by rewrite app_nil_r, app_assoc.
Qed.

Lemma line_of_iff f a ln : line_of f a ln <-> exists i, split_on x0a f !! i = Some ln /\ a = with_nl (take i (split_on x0a f)).
Proof.
  split.
  - intros (b & E & N & Ha & Hb).
    assert (exists r, split_on x0a (ln ++ b) = ln :: r) as (r & R).
    { destruct Hb as [->|(b' & ->)]; [rewrite app_nil_r, split_on_none by done; eauto|]. rewrite split_on_app, (split_on_none x0a ln) by done. cbn. eauto. }
    destruct Ha as [->|(a' & ->)].
    + exists 0%nat. cbn [app] in E. rewrite E, R. done.
    + exists (length (split_on x0a a')). rewrite E, <- app_assoc. cbn [app]. rewrite split_on_app, R. split.
      * rewrite lookup_app_r, Nat.sub_diag by lia. done.
      * rewrite take_app. by rewrite with_nl_split.
  - intros (i & L & ->). pose proof (with_nl_split f) as W. pose proof (split_on_pieces x0a f) as P.
    rewrite <- (take_drop_middle _ _ _ L), with_nl_app in W at 1. 
    remember (drop (S i) (split_on x0a f)) as t eqn:Ht. change (ln :: t) with ([ln] ++ t) in W. rewrite with_nl_app in W.
    change (with_nl [ln]) with ((ln ++ [x0a]) ++ []) in W. rewrite app_nil_r in W.
    assert (x0a ∉ ln) as N by (rewrite Forall_forall in P; apply P; by eapply elem_of_list_lookup_2).
    destruct (with_nl_end t) as [Et|(y & Et)]; rewrite Et in W.
    + rewrite app_nil_r, app_assoc in W. apply app_inj_2 in W as [W _]; [|done]. exists []. rewrite app_nil_r. split_and!; [done|done|apply with_nl_end|by left].
    + exists (x0a :: y). split_and!; [|done|apply with_nl_end|eauto].
      rewrite !app_assoc in W. apply app_inj_2 in W as [W _]; [|done]. rewrite <- W at 1. by rewrite <- !app_assoc.
Qed.

Lemma with_nl_length l i j : (i <= j)%nat -> (length (with_nl (take i l)) <= length (with_nl (take j l)))%nat.
Proof.
  intros H. rewrite <- (take_drop i (take j l)), take_take, with_nl_app, app_length, Nat.min_l by lia. lia.
Qed.

Lemma with_nl_lt l i j : (i < j)%nat -> (i < length l)%nat -> (length (with_nl (take i l)) < length (with_nl (take j l)))%nat.
Proof.
  intros H L. eapply Nat.lt_le_trans; [|apply (with_nl_length l (S i)); lia].
  destruct (lookup_lt_is_Some_2 l i L) as [x Hx]. rewrite (take_S_r _ _ _ Hx), with_nl_app, app_length.
  unfold with_nl at 3. cbn. rewrite !app_length. cbn. lia.
Qed.

Lemma drop_cr_stripped raw ln : stripped raw ln <-> drop_cr raw = ln.
Proof.
  unfold stripped, drop_cr. destruct raw as [|c x _] using rev_ind.
  - cbn. split; [intros [E|[-> _]]; [by destruct ln|done]|]. intros <-. right. split; [done|]. intros x E. by destruct x.
  - rewrite rev_app_distr. cbn [rev app]. destruct (decide (c = x0d)) as [->|N].
    + rewrite rev_involutive. split.
      * intros [E|[_ E]]; [by apply app_inj_tail in E as [-> _]|by destruct (E x)].
      * intros ->. by left.
    + split.
      * intros [E|[-> _]]; [by apply app_inj_tail in E as [_ ->]|done].
      * intros <-. right. split; [done|]. intros y E. by apply app_inj_tail in E as [_ ->].
Qed.

Lemma drop_cr_no_nl raw : x0a ∉ raw -> x0a ∉ drop_cr raw.
Proof.
  intros N. pose proof (proj2 (drop_cr_stripped raw _) eq_refl) as [E|[E _]]; [|by rewrite <- E].
  rewrite E in N. intros H. apply N. rewrite elem_of_app. by left.
Qed.

(** Later lines win. *)
Lemma conf_fold ls k v : (foldl conf_add ∅ ls !! k = Some v) <->
  exists i l, ls !! i = Some l /\ conf_line l = Some (k, v) /\ forall j l' v', ls !! j = Some l' -> conf_line l' = Some (k, v') -> (j <= i)%nat.
Proof.
  induction ls as [|x ls IH] using rev_ind.
  - cbn. rewrite lookup_empty. split; [done|]. intros (i & l & H & _). done.
  - rewrite foldl_app. cbn [foldl]. unfold conf_add at 1.
    assert (forall i l, (ls ++ [x]) !! i = Some l <-> ls !! i = Some l \/ (i = length ls /\ l = x)) as LK.
    { intros i l. rewrite lookup_app_Some. split.
      - intros [H|[H1 H2]]; [auto|]. apply list_lookup_singleton_Some in H2 as [H2 ->]. right. split; [lia|done].
      - intros [H|[-> ->]]; [auto|]. right. rewrite Nat.sub_diag. split; [lia|done]. }
    assert (forall i l, ls !! i = Some l -> (i < length ls)%nat) as LT by (intros; by eapply lookup_lt_Some).
    destruct (conf_line x) as [[k0 v0]|] eqn:Ex; [destruct (decide (k0 = k)) as [->|Nk]|].
    + rewrite lookup_insert. split.
      * intros [= ->]. exists (length ls), x. split_and!; [apply LK; auto|done|]. intros j l' v' H _. apply LK in H as [H|[-> _]]; [apply LT in H; lia|done].
      * intros (i & l & H & E & M). assert (length ls <= i)%nat as G by (eapply M; [apply LK; eauto|done]).
        apply LK in H as [H|[-> ->]]; [apply LT in H; lia|]. by rewrite Ex in E; simplify_eq.
    + rewrite lookup_insert_ne, IH by done. split.
      * intros (i & l & H & E & M). exists i, l. split_and!; [apply LK; auto|done|]. intros j l' v' Hj Ej. apply LK in Hj as [Hj|[-> ->]]; [eauto|]. congruence.
      * intros (i & l & H & E & M). apply LK in H as [H|[-> ->]]; [|congruence]. exists i, l. split_and!; [done|done|]. intros j l' v' Hj Ej. eapply M; [apply LK|]; eauto.
    + rewrite IH. split.
      * intros (i & l & H & E & M). exists i, l. split_and!; [apply LK; auto|done|]. intros j l' v' Hj Ej. apply LK in Hj as [Hj|[-> ->]]; [eauto|]. congruence.
      * intros (i & l & H & E & M). apply LK in H as [H|[-> ->]]; [|congruence]. exists i, l. split_and!; [done|done|]. intros j l' v' Hj Ej. eapply M; [apply LK|]; eauto.
Qed.

Lemma conf_line_nil : conf_line [] = None.
Proof. vm_compute. reflexivity. Qed.

(** The scanner sees every line when none is too long. *)
Definition lines_short (f : gostring) : Prop := forall a ln, line_of f a ln -> zlen ln < 65536.

Lemma until_long_all l : Forall (fun x => zlen x < 65536) l -> until_long l = l.
Proof. induction 1 as [|x l H F IH]; [done|]. cbn. destruct (Z.ltb_spec (zlen x) max_token); [by rewrite IH|unfold max_token in *; lia]. Qed.

Lemma raw_lines_cases f : split_on x0a f = raw_lines f \/ split_on x0a f = raw_lines f ++ [[]].
Proof.
  unfold raw_lines. destruct (split_on x0a f) as [|x l _] using rev_ind; [by left|]. rewrite rev_app_distr. cbn [rev app].
  destruct x; [|by left]. right. by rewrite rev_involutive.
Qed.

Lemma lines_short_forall f : lines_short f <-> Forall (fun x => zlen x < 65536) (split_on x0a f).
Proof.
  unfold lines_short. rewrite Forall_lookup. split.
  - intros H i x Hx. eapply H. apply line_of_iff. eauto.
  - intros H a ln L. apply line_of_iff in L as (i & Hi & _). eauto.
Qed.

Lemma conf_fold_nil m ls : foldl conf_add m (map drop_cr (ls ++ [[]])) = foldl conf_add m (map drop_cr ls).
Proof. rewrite map_app, foldl_app. cbn [map foldl]. unfold conf_add at 1. change (drop_cr []) with (@nil byte). by rewrite conf_line_nil. Qed.

Lemma conf_map_split f : lines_short f -> conf_map f = foldl conf_add ∅ (map drop_cr (split_on x0a f)).
Proof.
  intros S. apply lines_short_forall in S. unfold conf_map, scan_lines. destruct (raw_lines_cases f) as [E|E]; rewrite E in S |- *.
  - by rewrite until_long_all.
  - apply Forall_app in S as [S _]. by rewrite until_long_all, conf_fold_nil.
Qed.

Theorem conf_map_spec f k v : lines_short f -> conf_map f !! k = Some v <-> conf_value f k v.
Proof.
  intros S. rewrite conf_map_split, conf_fold by done. pose proof (split_on_pieces x0a f) as P. rewrite Forall_forall in P.
  assert (forall i raw k v, split_on x0a f !! i = Some raw -> conf_line (drop_cr raw) = Some (k, v) <-> defines (drop_cr raw) k v) as CL.
  { intros i raw k' v' H. apply conf_line_spec, drop_cr_no_nl, P. by eapply elem_of_list_lookup_2. }
  unfold conf_value. split.
  - intros (i & l & H & E & M). rewrite list_lookup_fmap in H. destruct (split_on x0a f !! i) as [raw|] eqn:R; [|done]. injection H as <-.
    exists (with_nl (take i (split_on x0a f))), raw, (drop_cr raw). split_and!; [apply line_of_iff; eauto|by apply drop_cr_stripped|by eapply CL|].
    intros a' raw' ln' v' L' T' D'. apply line_of_iff in L' as (j & R' & ->). apply drop_cr_stripped in T' as <-.
    assert (j <= i)%nat as G. { eapply M; [rewrite list_lookup_fmap, R'; reflexivity|]. by eapply CL. }
    unfold zlen. apply inj_le, with_nl_length, G.
  - intros (a & raw & ln & L & T & D & M). apply line_of_iff in L as (i & R & ->). apply drop_cr_stripped in T as <-.
    exists i, (drop_cr raw). split_and!; [by rewrite list_lookup_fmap, R|by eapply CL|]. intros j l' v' H' E'.
    rewrite list_lookup_fmap in H'. destruct (split_on x0a f !! j) as [raw'|] eqn:R'; [|done]. injection H' as <-.
    destruct (decide (j <= i)%nat) as [|G]; [done|]. exfalso.
    assert (zlen (with_nl (take j (split_on x0a f))) <= zlen (with_nl (take i (split_on x0a f)))) as LE.
    { eapply M; [apply line_of_iff; eauto|by apply drop_cr_stripped|by eapply CL]. }
    pose proof (with_nl_lt (split_on x0a f) i j) as LT. apply lookup_lt_Some in R. unfold zlen in LE. lia.
Qed.

Lemma split_with_nl l : Forall (fun x => x0a ∉ x) l -> split_on x0a (with_nl l) = l ++ [[]].
Proof.
  induction 1 as [|x l H F IH]; [done|]. change (with_nl (x :: l)) with ((x ++ [x0a]) ++ with_nl l). rewrite <- app_assoc. cbn [app].
  rewrite split_on_app, (split_on_none x0a x), IH by done. done.
Qed.

Lemma until_long_stop a x r : Forall (fun x => zlen x < 65536) a -> 65536 <= zlen x -> until_long (a ++ x :: r) = a.
Proof.
  intros F G. induction F as [|y a H F IH]; cbn [app until_long].
  - destruct (Z.ltb_spec (zlen x) max_token); [unfold max_token in *; lia|done].
  - destruct (Z.ltb_spec (zlen y) max_token); [by rewrite IH|unfold max_token in *; lia].
Qed.

(** From a line that is too long on, nothing is read. *)
Theorem conf_map_long f a ln : line_of f a ln -> 65536 <= zlen ln -> lines_short a -> conf_map f = conf_map a.
Proof.
  intros L G SH. rewrite (conf_map_split a SH). apply line_of_iff in L as (i & R & Ea). pose proof (split_on_pieces x0a f) as P.
  assert (split_on x0a a = take i (split_on x0a f) ++ [[]]) as Sa by (rewrite Ea; by apply split_with_nl, Forall_take).
  apply lines_short_forall in SH. rewrite Sa in SH |- *. apply Forall_app in SH as [SH _].
  rewrite conf_fold_nil. unfold conf_map, scan_lines. f_equal. f_equal.
  assert (exists r, raw_lines f = take i (split_on x0a f) ++ ln :: r) as (r & ->).
  { pose proof (take_drop_middle _ _ _ R) as M. destruct (raw_lines_cases f) as [E|E]; [rewrite <- E; eauto|].
    rewrite E in M at 3. destruct (drop (S i) (split_on x0a f)) as [|y t _] using rev_ind.
    - apply app_inj_tail in M as [_ M]. rewrite M in G. unfold zlen in G. cbn in G. lia.
    - exists t. rewrite app_comm_cons, app_assoc in M. by apply app_inj_tail in M as [M _]. }
  by apply until_long_stop.
Qed.
