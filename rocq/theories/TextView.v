(** Specification of the text mmvdump prints for a file whose contents are a view (View.v):
    what each resolved record looks like, and how the sections are put together. Nothing here
    refers to the records of the reader; integers are printed by [dec] and [hex]. *)
From Verif Require Import Base GoVal Units Mmvdump View DumpText UnitFacts NamesFacts.

(** A help text. *)
Definition help_text (label : list byte) (t : option gostring) : list byte :=
  match t with
  | None => tab ++ tab ++ str "(no " ++ label ++ str ")" ++ nl
  | Some s => tab ++ tab ++ label ++ str "=" ++ s ++ nl
  end.
Definition helps (s l : option gostring) : list byte := help_text (str "shorttext") s ++ help_text (str "longtext") l.

(** A unit: the names of the dimensions above 0, and after a slash of those below 0. The words are
    those of UnitFacts.v. *)
Definition dim_part (u : Z) (x : ucomp * list (list byte)) : Z * list byte :=
  let d := word_dim u x.1 in
  (d, (match x.2 !! Z.to_nat (word_scale u x.1) with
       | Some n => n ++ (if 1 <? Z.abs d then str "^" ++ dec d else [])
       | None => str "<invalid>"
       end)).
Definition dim_parts (u : Z) : list (Z * list byte) := map (dim_part u)
  [(CSpace, [str "B"; str "KiB"; str "MiB"; str "GiB"; str "TiB"; str "PiB"; str "EiB"]);
   (CTime, [str "nsec"; str "usec"; str "msec"; str "sec"; str "min"; str "hr"]);
   (CCount, [str "count"])].
Definition unit_text (u : Z) : list byte :=
  let over := filter (fun x : Z * list byte => 0 < x.1) (dim_parts u) in
  let under := filter (fun x : Z * list byte => x.1 < 0) (dim_parts u) in
  concat (map snd over) ++ match under with [] => [] | _ => str " / " ++ concat (map snd under) end.

(** The records of the sections; [o] is the offset of the record. *)
Definition indom_text (o start : Z) (x : vindom) : list byte :=
  tab ++ str "[" ++ dec (vd_serial x) ++ str "/" ++ dec o ++ str "] " ++ dec (vd_count x) ++ str " instances, starting at offset " ++ dec start ++ nl
  ++ helps (vd_short x) (vd_long x).
Definition inst_text (o : Z) (x : vinst) : list byte :=
  tab ++ str "[" ++ dec (vi_indom x) ++ str "/" ++ dec o ++ str "] instance = [" ++ dec (vi_id x) ++ str "/" ++ vi_name x ++ str "]" ++ nl.
Definition metric_text (o : Z) (x : vmetric) : list byte :=
  tab ++ str "[" ++ dec (vm_item x) ++ str "/" ++ dec o ++ str "] " ++ vm_name x ++ nl
  ++ tab ++ tab ++ str "type=" ++ named (str "Type") reader_type_names (vm_type x) ++ str " (0x" ++ hex (vm_type x) ++ str "), sem="
  ++ named (str "Semantics") reader_semantics_names (vm_sem x) ++ str " (0x" ++ hex (vm_sem x) ++ str "), pad=0x0" ++ nl
  ++ tab ++ tab ++ str "units=" ++ unit_text (vm_unit x) ++ nl
  ++ (if bool_decide (vm_indom x = -1) then tab ++ tab ++ str "(no indom)" ++ nl else tab ++ tab ++ str "indom=" ++ dec (vm_indom x) ++ nl)
  ++ helps (vm_short x) (vm_long x).
(** A value: the name of its metric, its instance, and the value. Floats are printed by [f32] and [f64]. *)
Definition val_text (f32 f64 : Z -> list byte) (v : goval) : list byte :=
  match v with
  | VInt32 z | VUint32 z | VInt64 z | VUint64 z | VInt z | VUint z => dec z
  | VF32 b => f32 b
  | VF64 b => f64 b
  | VStr s => s
  | VOther => []
  end.
Definition inst_label (x : vvalue) : list byte :=
  match vv_inst x with Some i => str "[" ++ dec (vi_id i) ++ str " or """ ++ vi_name i ++ str """]" | None => [] end.
(** [label] is what stands between the metric's name and the equals sign. *)
Definition value_text (f32 f64 : Z -> list byte) (label : vvalue -> list byte) (o : Z) (x : vvalue) : list byte :=
  tab ++ str "[" ++ dec (vm_item (vv_metric x)) ++ str "/" ++ dec o ++ str "] " ++ vm_name (vv_metric x) ++ label x ++ str " = " ++ val_text f32 f64 (vv_val x) ++ nl.
Definition string_text (o : Z) (s : list byte) : list byte := tab ++ str "[" ++ dec o ++ str "] " ++ s ++ nl.

(** ** The whole text *)
Definition header_text (h : header) : list byte :=
  str "Version   = " ++ dec (hd_version h) ++ nl ++ str "Generated = " ++ dec (hd_g1 h) ++ nl ++ str "Toc Count = " ++ dec (hd_toc h) ++ nl
  ++ str "Cluster   = " ++ dec (hd_cluster h) ++ nl ++ str "Process   = " ++ dec (hd_process h) ++ nl ++ str "Flags     = 0x" ++ hex (hd_flag h) ++ nl ++ nl.
Record tsection := mkSec { sc_kind : list byte; sc_offset : Z; sc_items : list (list byte) }.
Definition section_text (i : nat) (s : tsection) : list byte :=
  str "TOC[" ++ dec (Z.of_nat i) ++ str "], offset: " ++ dec (40 + 16 * Z.of_nat i) ++ str ", " ++ sc_kind s ++ str " offset: " ++ dec (sc_offset s)
  ++ str " (" ++ dec (zlen (sc_items s)) ++ str " entries)" ++ nl ++ concat (sc_items s) ++ nl.
Definition sections_text (l : list tsection) : list byte := concat (imap section_text l).

(** A list of records with their offsets: record by record, from [off] on. *)
Definition placed {A} (off len : Z) (l : list (Z * A)) : Prop := l.*1 = map (fun k => off + len * Z.of_nat k) (seq 0 (length l)).
(** A section that is left out if it would be empty. *)
Definition unless_empty {A} (l : list A) (s : tsection) : list tsection := match l with [] => [] | _ => [s] end.

(** [t] is the text of dump [d]: after the header one section for each kind of record, listing the
    records of [V], each once, in the order of their offsets in the file. *)
Definition text_of (f32 f64 : Z -> list byte) (label : vvalue -> list byte) (d : dump) (V : view) (t : list byte) : Prop :=
  exists (ds : list (Z * (Z * vindom))) (is : list (Z * vinst)) (ms : list (Z * vmetric)) (vs : list (Z * vvalue)) (ss : list (Z * gostring)) od oi om ov os,
    t = header_text (du_header d) ++ sections_text
      (unless_empty ds (mkSec (str "indoms") od (map (fun x => indom_text x.1 x.2.1 x.2.2) ds))
       ++ unless_empty is (mkSec (str "instances") oi (map (fun x => inst_text x.1 x.2) is))
       ++ [mkSec (str "metric") om (map (fun x => metric_text x.1 x.2) ms);
           mkSec (str "values") ov (map (fun x => value_text f32 f64 label x.1 x.2) vs)]
       ++ unless_empty ss (mkSec (str "strings") os (map (fun x => string_text x.1 x.2) ss)))
    /\ ds.*2.*2 ≡ₚ v_indoms V /\ is.*2 ≡ₚ v_insts V /\ ms.*2 ≡ₚ v_metrics V /\ vs.*2 ≡ₚ v_values V
    /\ placed od 32 ds /\ placed oi (if hd_version (du_header d) =? 1 then 80 else 24) is
    /\ placed om (if hd_version (du_header d) =? 1 then 104 else 48) ms /\ placed ov 32 vs /\ placed os 256 ss
    /\ (forall o s x, (o, (s, x)) ∈ ds -> exists y, du_indoms d !! o = Some y /\ dd_offset y = s /\ res_indom d y = Some x)
    /\ (forall o x, (o, x) ∈ is -> exists y, du_instances d !! o = Some y /\ res_inst d y = Some x)
    /\ (forall o x, (o, x) ∈ ms -> exists y, du_metrics d !! o = Some y /\ res_metric d y = Some x)
    /\ (forall o x, (o, x) ∈ vs -> exists y, du_values d !! o = Some y /\ res_value d y = Some x)
    /\ (forall o x, (o, x) ∈ ss <-> du_strings d !! o = Some x).
