(** Specification: the contents of an MMV file as a reader sees them, with all offsets
    resolved, and the contents a registry should have. Nothing here refers to how
    start() lays the file out. *)
From Verif Require Import Base Floats GoVal MetricType Indom Metrics Registry Mmvdump.

(** A string in a field of [w] bytes: padded with NUL bytes. *)
Definition padded (w : Z) (s : gostring) : list byte := s ++ zeros (w - zlen s).

(** The C string in a field: everything before the first NUL. *)
Fixpoint cstr (b : list byte) : gostring :=
  match b with
  | [] => []
  | c :: b => if bool_decide (c = x00) then [] else c :: cstr b
  end.

(** ** Values *)
(** [v] is a value of the Go type that metric type [t] stands for
    (the table of /repo/metrics.go:20-28). *)
Definition vtyped (t : Z) (v : goval) : Prop :=
  match v with
  | VInt32 z => t = Int32Type /\ in_signed 32 z
  | VUint32 z => t = Uint32Type /\ in_unsigned 32 z
  | VInt64 z => t = Int64Type /\ in_signed 64 z
  | VUint64 z => t = Uint64Type /\ in_unsigned 64 z
  | VF32 z => t = FloatType /\ in_unsigned 32 z
  | VF64 z => t = DoubleType /\ in_unsigned 64 z
  | VStr s => t = StringType
  | VInt _ | VUint _ | VOther => False
  end.

(** ** Resolved records *)
Record vindom := mkVD { vd_serial : Z; vd_count : Z; vd_short : option gostring; vd_long : option gostring }.
Record vinst := mkVI { vi_indom : Z; vi_id : Z; vi_name : gostring }.
Record vmetric := mkVM {
  vm_name : gostring; vm_item : Z; vm_type : Z; vm_sem : Z; vm_unit : Z; vm_indom : Z;
  vm_short : option gostring; vm_long : option gostring }.
Record vvalue := mkVV { vv_metric : vmetric; vv_inst : option vinst; vv_val : goval }.

Record view := mkView {
  v_indoms : list vindom;
  v_insts : list vinst;
  v_metrics : list vmetric;
  v_values : list vvalue }.

(** ** Resolving a dump; [None] is a dangling offset or bad type *)
Definition string_at (d : dump) (o : Z) : option gostring := du_strings d !! o.
Definition res_text (d : dump) (o : Z) : option (option gostring) :=
  if o =? 0 then Some None else s ← string_at d o; Some (Some s).
Definition res_name (d : dump) (n : nameref) : option gostring :=
  match n with NInline b => Some b | NOffset o => string_at d o end.

Definition res_indom (d : dump) (x : dindom) : option vindom :=
  s ← res_text d (dd_short x); l ← res_text d (dd_long x);
  Some (mkVD (dd_serial x) (dd_count x) s l).

(** The padding of an instance or metric is zero. *)
Definition res_inst (d : dump) (x : dinstance) : option vinst :=
  if negb (di_padding x =? 0) then None else
  dom ← du_indoms d !! di_indom x; n ← res_name d (di_external x);
  Some (mkVI (dd_serial dom) (di_internal x) n).

Definition res_metric (d : dump) (x : dmetric) : option vmetric :=
  if negb (dm_padding x =? 0) then None else
  n ← res_name d (dm_name x); s ← res_text d (dm_short x); l ← res_text d (dm_long x);
  Some (mkVM n (dm_item x) (dm_type x) (dm_sem x) (dm_unit x) (dm_indom x) s l).

(** A string value records the room for the string, 255 bytes and a NUL, and its place; the second
    word of any other value is zero. *)
Definition res_val (d : dump) (t : Z) (x : dvalue) : option goval :=
  if t =? 6 then if dv_val x =? 255 then s ← string_at d (to_unsigned 64 (dv_extra x)); Some (VStr s) else None
  else if dv_extra x =? 0 then FixedVal (dv_val x) t else None.

Definition res_value (d : dump) (x : dvalue) : option vvalue :=
  m ← du_metrics d !! dv_metric x; vm ← res_metric d m;
  i ← (if dv_instance x =? 0 then Some None
       else i ← du_instances d !! dv_instance x; vi ← res_inst d i; Some (Some vi));
  v ← res_val d (dm_type m) x;
  Some (mkVV vm i v).

(** The instances listed by a domain (offset and count). *)
Definition dom_members (d : dump) (ilen : Z) (x : dindom) : list (option vinst) :=
  map (fun k => i ← du_instances d !! (dd_offset x + ilen * Z.of_nat k); res_inst d i) (seq 0 (Z.to_nat (dd_count x))).

Definition recs {A} (m : gmap Z A) : list A := (map_to_list m).*2.

(** [d] shows exactly the records of [V], each once; the instances are also exactly
    the ones reachable from the domains. *)
Definition shows (d : dump) (V : view) : Prop :=
  map (res_indom d) (recs (du_indoms d)) ≡ₚ map Some (v_indoms V) /\
  map (res_inst d) (recs (du_instances d)) ≡ₚ map Some (v_insts V) /\
  concat (map (dom_members d (d_inst_len (hd_version (du_header d)))) (recs (du_indoms d))) ≡ₚ map Some (v_insts V) /\
  map (res_metric d) (recs (du_metrics d)) ≡ₚ map Some (v_metrics V) /\
  map (res_value d) (recs (du_values d)) ≡ₚ map Some (v_values V).

(** ** What a registry should show *)
Definition text (s : gostring) : option gostring :=
  match s with [] => None | _ => Some (padded 256 s) end.
Definition name_width (v2 : bool) : Z := if v2 then 256 else 64.

Definition want_indom (d : indom) : vindom :=
  mkVD (id_id d) (instance_count d) (text (id_short d)) (text (id_long d)).
Definition want_inst (v2 : bool) (d : indom) (i : gostring * Z) : vinst :=
  mkVI (id_id d) (to_signed 32 i.2) (padded (name_width v2) i.1).
Definition want_metric (v2 : bool) (d : mdesc) (dom : option indom) : vmetric :=
  mkVM (padded (name_width v2) (md_name d)) (md_id d) (md_type d) (md_sem d) (md_unit d)
    (match dom with Some i => id_id i | None => -1 end) (text (md_short d)) (text (md_long d)).
Definition want_val (v : goval) : goval :=
  match v with VStr s => VStr (padded 256 s) | v => v end.

(** The view of a registry [r] whose objects live in [hp]. *)
Definition reg_indoms (hp : heap) (r : registry) : list indom :=
  omap (fun ip => h_indoms hp !! ip) (map_to_list (r_indoms r)).*2.
Definition reg_metrics (hp : heap) (r : registry) : list metric :=
  omap (fun mp => h_metrics hp !! mp) (map_to_list (r_metrics r)).*2.

Definition metric_dom (hp : heap) (m : metric) : option indom :=
  match m_body m with BSingle _ => None | BInst ip _ => h_indoms hp !! ip end.

Definition want_values (hp : heap) (v2 : bool) (m : metric) : list vvalue :=
  let vm := want_metric v2 (m_desc m) (metric_dom hp m) in
  match m_body m with
  | BSingle c => [mkVV vm None (want_val (c_val c))]
  | BInst ip cells =>
      match h_indoms hp !! ip with
      | None => []
      | Some d =>
          omap (fun i => c ← cells !! i.1; Some (mkVV vm (Some (want_inst v2 d i)) (want_val (c_val c))))
            (map_to_list (id_insts d))
      end
  end.

Definition want_view (hp : heap) (r : registry) : view :=
  let v2 := r_version2 r in
  mkView
    (map want_indom (reg_indoms hp r))
    (concat (map (fun d => map (want_inst v2 d) (map_to_list (id_insts d))) (reg_indoms hp r)))
    (map (fun m => want_metric v2 (m_desc m) (metric_dom hp m)) (reg_metrics hp r))
    (concat (map (want_values hp v2) (reg_metrics hp r))).

(** ** What the counters of a registry should be *)
Definition n_values (hp : heap) (m : metric) : Z :=
  match metric_dom hp m with Some d => Z.of_nat (size (id_insts d)) | None => 1 end.
Definition n_texts (a b : gostring) : Z := (if bool_decide (a = []) then 0 else 1) + (if bool_decide (b = []) then 0 else 1).
Definition spec_instances (hp : heap) (r : registry) : Z :=
  sumZ (map (fun d => Z.of_nat (size (id_insts d))) (reg_indoms hp r)).
Definition spec_values (hp : heap) (r : registry) : Z := sumZ (map (n_values hp) (reg_metrics hp r)).
(** Strings that always live in the string section: descriptions and string values. *)
Definition spec_texts (hp : heap) (r : registry) : Z :=
  sumZ (map (fun d => n_texts (id_short d) (id_long d)) (reg_indoms hp r))
  + sumZ (map (fun m => n_texts (md_short (m_desc m)) (md_long (m_desc m))
                        + (if md_type (m_desc m) =? StringType then n_values hp m else 0)) (reg_metrics hp r)).
(** Does some registered name exceed 63 bytes? *)
Definition long_name (s : gostring) : Prop := 63 < zlen s.
Definition spec_long (hp : heap) (r : registry) : Prop :=
  Exists (fun d => exists n i, id_insts d !! n = Some i /\ long_name n) (reg_indoms hp r) \/
  Exists (fun m => long_name (md_name (m_desc m))) (reg_metrics hp r).
