(** C70: the acme example that runs forever. *)
From Verif Require Import Base BaseFacts Floats GoVal MetricType ByteWriter Hash Units Indom Metrics Registry Prog
  Client Mmvdump View World Example Samples SamplesFacts SamplesView SamplesAcme SamplesAcmeRun PropsSamples.
Local Open Scope Z_scope.

(** The file: for each product how many were built, an int64 counter, and the milliseconds they took, a double. *)
Definition factory_view (built : nat -> Z) (ms : nat -> Z) : view :=
  let name p s := str "products." ++ nth p [str "Rockets"; str "Anvils"; str "Giant_Rubber_Bands"] [] ++ s in
  let count p := metric_rec 64 (name p (str ".count")) 2 1 count_unit None None None in
  let time p := metric_rec 64 (name p (str ".time")) 5 3 count_unit None None None in
  mkView [] [] (concat (map (fun p => [count p; time p]) [0; 1; 2]%nat))
    (concat (map (fun p => [mkVV (count p) None (VInt64 (built p)); mkVV (time p) None (VF64 (f64_of_Z (ms p)))]) [0; 1; 2]%nat)).
(** The updates one builder makes for products that took [ds] milliseconds: each time is added, then the product is counted.
    [cur] is the time of a product that has not been counted yet. *)
Definition builder_does (ds : list Z) (cur : option Z) : list (option Z) :=
  concat (map (fun d => [Some d; None]) ds) ++ match cur with Some d => [Some d] | None => [] end.
(** The updates [es] are those of the three builders in some interleaving. *)
Definition interleaved (es : list (nat * option Z)) (ds : nat -> list Z) (cur : nat -> option Z) : Prop :=
  (forall e, e ∈ es -> (e.1 < 3)%nat) /\ forall p, (p < 3)%nat -> map snd (filter (fun e => e.1 = p) es) = builder_does (ds p) (cur p).
Definition total (ds : list Z) (cur : option Z) : Z := foldr Z.add 0 ds + match cur with Some d => d | None => 0 end.

Lemma counted_of p es : counted p es = Z.of_nat (length (filter (fun x => x = None) (map snd (filter (fun e => e.1 = p) es)))).
Proof.
  unfold counted. f_equal. induction es as [|[q x] es IH]; [reflexivity|]. rewrite !filter_cons. destruct (decide ((q, x).1 = p)) as [E|N]; cbn [fst] in *.
  - subst q. cbn [map snd]. rewrite filter_cons. destruct x as [d|]; [rewrite !decide_False by discriminate; exact IH|rewrite !decide_True by done; cbn; by rewrite IH].
  - rewrite decide_False by congruence. exact IH.
Qed.
Definition add_ms (x : option Z) (s : Z) : Z := match x with Some d => d + s | None => s end.
Lemma timed_of p es : timed p es = foldr add_ms 0 (map snd (filter (fun e => e.1 = p) es)).
Proof.
  induction es as [|[q x] es IH]; [reflexivity|]. cbn [timed foldr]. fold (timed p es). rewrite filter_cons. destruct (decide ((q, x).1 = p)) as [E|N]; cbn [fst] in *.
  - subst q. cbn [map snd foldr]. rewrite IH. destruct x as [d|]; cbn; [rewrite decide_True by done|]; reflexivity.
  - rewrite IH. destruct x as [d|]; cbn; [rewrite decide_False by done|]; reflexivity.
Qed.
Lemma does_count ds cur : length (filter (fun x => x = None) (builder_does ds cur)) = length ds.
Proof.
  unfold builder_does. rewrite filter_app, app_length. assert (length (filter (fun x : option Z => x = None) (match cur with Some d => [Some d] | None => [] end)) = 0%nat) as -> by (destruct cur; reflexivity).
  rewrite Nat.add_0_r. induction ds as [|d ds IH]; [reflexivity|]. cbn [map concat app]. rewrite !filter_cons. rewrite decide_False by discriminate. rewrite decide_True by done. cbn. by rewrite IH.
Qed.
Lemma does_total ds cur : foldr add_ms 0 (builder_does ds cur) = total ds cur.
Proof.
  unfold total, builder_does. induction ds as [|d ds IH]; [destruct cur; cbn; lia|]. cbn [map concat app foldr add_ms]. rewrite IH. lia.
Qed.
Lemma total_bound ds cur : (forall d, d ∈ ds \/ cur = Some d -> 0 <= d < 4500) -> 0 <= total ds cur <= 4500 * (Z.of_nat (length ds) + 1).
Proof.
  intros H. unfold total. assert (0 <= match cur with Some d => d | None => 0 end <= 4500) as A by (destruct cur as [d|]; [specialize (H d (or_intror eq_refl)); lia|lia]).
  assert (0 <= foldr Z.add 0 ds <= 4500 * Z.of_nat (length ds)) as B; [|lia]. clear A. assert (forall d, d ∈ ds -> 0 <= d < 4500) as K by (intros; apply H; auto). clear H.
  induction ds as [|d ds IH]; [cbn; lia|]. cbn [foldr length]. specialize (K d ltac:(left)) as Kd. assert (0 <= foldr Z.add 0 ds <= 4500 * Z.of_nat (length ds)) by (apply IH; intros; apply K; by right). lia.
Qed.
Lemma elem_none p d es ds cur : map snd (filter (fun e : nat * option Z => e.1 = p) es) = builder_does ds cur -> (p, Some d) ∈ es -> d ∈ ds \/ cur = Some d.
Proof.
  intros E H. assert (Some d ∈ builder_does ds cur) as K. { rewrite <- E. change (Some d) with ((p, Some d).2). apply elem_of_list_fmap_1. by apply elem_of_list_filter. }
  unfold builder_does in K. apply elem_of_app in K as [K|K]; [left|right; destruct cur; [apply elem_of_list_singleton in K; congruence|by apply elem_of_nil in K]].
  clear E. induction ds as [|x ds IH]; [by apply elem_of_nil in K|]. cbn in K. rewrite !elem_of_cons in K. destruct K as [[= ->]|[K|K]]; [left|discriminate|right; auto].
Qed.

(** In every interleaving of the three builders, whether their updates come before Start or after it, the file shows for each product how many were built and exactly
    how many milliseconds they took; the time may already include one product that is not counted yet. *)
Theorem C70_shows loc gen pid before es ds cur : interleaved (before ++ es) ds cur ->
  (forall p d, (p < 3)%nat -> d ∈ ds p \/ cur p = Some d -> 0 <= d < 4500) -> (forall p, (p < 3)%nat -> Z.of_nat (length (ds p)) < 2 ^ 40) ->
  surely w_init (forever loc gen pid before es)
    (fun w => file_shows w loc (str "acme") 1 2 gen pid (factory_view (fun p => Z.of_nat (length (ds p))) (fun p => total (ds p) (cur p)))).
Proof.
  intros [I1 I2] Hd Hl.
  assert (forall p, (p < 3)%nat -> counted p (before ++ es) = Z.of_nat (length (ds p)) /\ timed p (before ++ es) = total (ds p) (cur p)) as C.
  { intros p Hp. rewrite counted_of, timed_of, (I2 p Hp), does_count, does_total. auto. }
  eapply surely_mono; [apply (forever_runs loc gen pid before es)| ].
  - apply Forall_forall. intros [p x] He. specialize (I1 _ He). cbn in I1. split; [exact I1|]. destruct x as [d|]; [|exact I]. cbn. pose proof (elem_none p d _ _ _ (I2 p I1) He) as K. specialize (Hd p d I1 K). lia.
  - intros p Hp. destruct (C p Hp) as [_ ->]. pose proof (total_bound (ds p) (cur p) (fun d => Hd p d Hp)). specialize (Hl p Hp). lia.
  - intros w (n & t & A & E). apply ac_shows in A. eapply SamplesView.file_shows_veq; [|exact A].
    assert (forall p, (p < 3)%nat -> n p = Z.of_nat (length (ds p)) /\ t p = total (ds p) (cur p)) as K.
    { intros p Hp. destruct (E p Hp) as [-> ->]. destruct (C p Hp) as [-> ->]. split; [|reflexivity]. apply to_signed_id; [lia|]. specialize (Hl p Hp). unfold in_signed. lia. }
    clear -K. unfold factory_view, six, six_values. cbn [map concat app].
    destruct (K 0%nat ltac:(lia)) as [-> ->]. destruct (K 1%nat ltac:(lia)) as [-> ->]. destruct (K 2%nat ltac:(lia)) as [-> ->].
    assert (forall p, (p < 3)%nat -> want_metric false (cd p) None = metric_rec 64 (str "products." ++ nth p [str "Rockets"; str "Anvils"; str "Giant_Rubber_Bands"] [] ++ str ".count") 2 1 count_unit None None None) as Ec by (apply three; vm_compute; reflexivity).
    assert (forall p, (p < 3)%nat -> want_metric false (gd p) None = metric_rec 64 (str "products." ++ nth p [str "Rockets"; str "Anvils"; str "Giant_Rubber_Bands"] [] ++ str ".time") 5 3 count_unit None None None) as Eg by (apply three; vm_compute; reflexivity).
    rewrite !Ec, !Eg by lia. split_and!; reflexivity.
Qed.
(* one rocket of 4000 ms before Start, one anvil of 700 ms after it, and a second rocket of 1500 ms that is not counted yet *)
Definition shift : list (nat * option Z) := [(1%nat, Some 700); (0%nat, Some 1500); (1%nat, None)].
Example C70_ex : let ds p := match p with 0%nat => [4000] | 1%nat => [700] | _ => [] end in let cur p := match p with 0%nat => Some 1500 | _ => None end in
  interleaved ([(0%nat, Some 4000); (0%nat, None)] ++ shift) ds cur /\ (forall p d, (p < 3)%nat -> d ∈ ds p \/ cur p = Some d -> 0 <= d < 4500) /\ (forall p, (p < 3)%nat -> Z.of_nat (length (ds p)) < 2 ^ 40) /\
  total (ds 0%nat) (cur 0%nat) = 5500 /\ f64_of_Z 5500 = 0x40B57C0000000000.
Proof.
  intros ds cur. split; [split|split; [|split; [apply three; vm_compute; reflexivity|split; vm_compute; reflexivity]]].
  - apply Forall_forall. repeat (apply Forall_cons; split; [cbn; lia|]). apply Forall_nil. exact I.
  - apply three; vm_compute; reflexivity.
  - intros p d. revert p. refine (three (fun p => d ∈ ds p \/ cur p = Some d -> 0 <= d < 4500) _ _ _); subst ds cur; cbn beta iota; intros [K|K]; try (apply elem_of_list_singleton in K; lia); try (by apply elem_of_nil in K); try discriminate. injection K as <-. lia.
Qed.

Print Assumptions C70_shows.
