(** The files of /repo/mmvdump/testdata: test1.mmv .. test5.mmv and the expected outputs. *)
From Verif Require Import Base Floats GoVal Mmvdump DumpText.

Definition test1 : list byte :=
  str "MMV" ++ zeros 1 ++ [x01] ++ zeros 3 ++ [xe8; xa8; x8b] ++ str "W" ++ zeros 4 ++ [xe8; xa8; x8b] ++ str "W" ++ zeros 4 ++ [x03] ++ zeros 3 ++ 
  [x02] ++ zeros 3 ++ [x04] ++ str "u" ++ zeros 2 ++ [x7f] ++ zeros 3 ++ [x03] ++ zeros 3 ++ [x01] ++ zeros 3 ++ str "X" ++ zeros 7 ++ [x04] ++ zeros 3 ++ 
  [x01] ++ zeros 3 ++ [xc0] ++ zeros 7 ++ [x05] ++ zeros 3 ++ [x02] ++ zeros 3 ++ [xe0] ++ zeros 7 ++ str "simple.counter" ++ zeros 50 ++ [xd5; x02] ++ 
  zeros 6 ++ [x01] ++ zeros 5 ++ [x10] ++ zeros 1 ++ [xff; xff; xff; xff] ++ zeros 4 ++ [xe0] ++ zeros 7 ++ [xe0; x01] ++ zeros 6 ++ str "*" ++ zeros 15 ++ 
  str "X" ++ zeros 15 ++ str "A Simple Metric" ++ zeros 241 ++ str "This is a simple counter metric to demonstrate the speed API" ++ zeros 196.
Definition golden1 : list byte :=
  str "Version   = 1" ++ [x0a] ++ str "Generated = 1468770536" ++ [x0a] ++ str "Toc Count = 3" ++ [x0a] ++ str "Cluster   = 127" ++ [x0a] ++ 
  str "Process   = 29956" ++ [x0a] ++ str "Flags     = 0x2" ++ [x0a; x0a] ++ str "TOC[0], offset: 40, metric offset: 88 (1 entries)" ++ [x0a; x09] ++ 
  str "[725/88] simple.counter" ++ zeros 50 ++ [x0a; x09; x09] ++ str "type=Int32Type (0x0), sem=Semantics(1) (0x1), pad=0x0" ++ [x0a; x09; x09] ++ 
  str "units=count" ++ [x0a; x09; x09] ++ str "(no indom)" ++ [x0a; x09; x09] ++ str "shorttext=A Simple Metric" ++ zeros 241 ++ [x0a; x09; x09] ++ 
  str "longtext=This is a simple counter metric to demonstrate the speed API" ++ zeros 196 ++ [x0a; x0a] ++ 
  str "TOC[1], offset: 56, values offset: 192 (1 entries)" ++ [x0a; x09] ++ str "[725/192] simple.counter" ++ zeros 50 ++ str " = 42" ++ [x0a; x0a] ++ 
  str "TOC[2], offset: 72, strings offset: 224 (2 entries)" ++ [x0a; x09] ++ str "[224] A Simple Metric" ++ zeros 241 ++ [x0a; x09] ++ 
  str "[480] This is a simple counter metric to demonstrate the speed API" ++ zeros 196 ++ [x0a; x0a].

Definition test2 : list byte :=
  str "MMV" ++ zeros 1 ++ [x01] ++ zeros 3 ++ [xc6] ++ str "F" ++ [x94] ++ str "W" ++ zeros 4 ++ [xc6] ++ str "F" ++ [x94] ++ str "W" ++ zeros 4 ++ 
  [x04] ++ zeros 3 ++ [x02] ++ zeros 3 ++ [x0a; x19] ++ zeros 2 ++ [x11; x05] ++ zeros 2 ++ [x01] ++ zeros 3 ++ [x01] ++ zeros 3 ++ str "h" ++ zeros 7 ++ 
  [x02] ++ zeros 3 ++ [x03] ++ zeros 3 ++ [x88] ++ zeros 7 ++ [x03] ++ zeros 3 ++ [x01] ++ zeros 3 ++ str "x" ++ [x01] ++ zeros 6 ++ [x04] ++ zeros 3 ++ 
  [x03] ++ zeros 3 ++ [xe0; x01] ++ zeros 6 ++ str "{8/" ++ zeros 1 ++ [x03] ++ zeros 3 ++ [x88] ++ zeros 23 ++ str "h" ++ zeros 11 ++ str "JE" ++ 
  [x80; x81] ++ str "javascript" ++ zeros 54 ++ str "h" ++ zeros 11 ++ [xaf; xb8] ++ str "D[php" ++ zeros 61 ++ str "h" ++ zeros 11 ++ str "Kw Bgo" ++ 
  zeros 62 ++ str "language.users" ++ zeros 50 ++ [xfd; x03] ++ zeros 2 ++ [x03] ++ zeros 3 ++ [x01] ++ zeros 5 ++ [x10] ++ zeros 1 ++ str "{8/" ++ 
  zeros 23 ++ [x80] ++ zeros 13 ++ str "x" ++ [x01] ++ zeros 6 ++ str "(" ++ [x01] ++ zeros 6 ++ str "J" ++ [x01] ++ zeros 14 ++ str "x" ++ [x01] ++ 
  zeros 6 ++ [x88] ++ zeros 7 ++ str "!" ++ zeros 15 ++ str "x" ++ [x01] ++ zeros 6 ++ [xd8] ++ zeros 7.
Definition golden2 : list byte :=
  str "Version   = 1" ++ [x0a] ++ str "Generated = 1469335238" ++ [x0a] ++ str "Toc Count = 4" ++ [x0a] ++ str "Cluster   = 1297" ++ [x0a] ++ 
  str "Process   = 6410" ++ [x0a] ++ str "Flags     = 0x2" ++ [x0a; x0a] ++ str "TOC[0], offset: 40, indoms offset: 104 (1 entries)" ++ [x0a; x09] ++ 
  str "[3094651/104] 3 instances, starting at offset 136" ++ [x0a; x09; x09] ++ str "(no shorttext)" ++ [x0a; x09; x09] ++ str "(no longtext)" ++ 
  [x0a; x0a] ++ str "TOC[1], offset: 56, instances offset: 136 (3 entries)" ++ [x0a; x09] ++ str "[3094651/136] instance = [-2122300086/javascript" ++ 
  zeros 54 ++ str "]" ++ [x0a; x09] ++ str "[3094651/216] instance = [1531230383/php" ++ zeros 61 ++ str "]" ++ [x0a; x09] ++ 
  str "[3094651/296] instance = [1109423947/go" ++ zeros 62 ++ str "]" ++ [x0a; x0a] ++ str "TOC[2], offset: 72, metric offset: 376 (1 entries)" ++ 
  [x0a; x09] ++ str "[1021/376] language.users" ++ zeros 50 ++ [x0a; x09; x09] ++ str "type=Uint64Type (0x3), sem=Semantics(1) (0x1), pad=0x0" ++ 
  [x0a; x09; x09] ++ str "units=count" ++ [x0a; x09; x09] ++ str "indom=3094651" ++ [x0a; x09; x09] ++ str "(no shorttext)" ++ [x0a; x09; x09] ++ 
  str "(no longtext)" ++ [x0a; x0a] ++ str "TOC[3], offset: 88, values offset: 480 (3 entries)" ++ [x0a; x09] ++ str "[1021/480] language.users" ++ 
  zeros 50 ++ str "[1109423947 or ""go" ++ zeros 62 ++ str """] = 8388608" ++ [x0a; x09] ++ str "[1021/512] language.users" ++ zeros 50 ++ 
  str "[-2122300086 or ""javascript" ++ zeros 54 ++ str """] = 330" ++ [x0a; x09] ++ str "[1021/544] language.users" ++ zeros 50 ++ 
  str "[1531230383 or ""php" ++ zeros 61 ++ str """] = 33" ++ [x0a; x0a].

Definition test3 : list byte :=
  str "MMV" ++ zeros 1 ++ [x01] ++ zeros 3 ++ str "b" ++ [xc5; x97] ++ str "W" ++ zeros 4 ++ str "b" ++ [xc5; x97] ++ str "W" ++ zeros 4 ++ [x03] ++ 
  zeros 3 ++ [x02] ++ zeros 3 ++ [xe0] ++ str "!" ++ zeros 2 ++ [xfc; x02] ++ zeros 2 ++ [x03] ++ zeros 3 ++ [x01] ++ zeros 3 ++ str "X" ++ zeros 7 ++ 
  [x04] ++ zeros 3 ++ [x01] ++ zeros 3 ++ [xc0] ++ zeros 7 ++ [x05] ++ zeros 3 ++ [x01] ++ zeros 3 ++ [xe0] ++ zeros 7 ++ str "bat.names" ++ zeros 55 ++ 
  [xfe; x03] ++ zeros 2 ++ [x06] ++ zeros 3 ++ [x03] ++ zeros 5 ++ [x10] ++ zeros 1 ++ [xff; xff; xff; xff] ++ zeros 20 ++ [xff] ++ zeros 7 ++ [xe0] ++ 
  zeros 7 ++ str "X" ++ zeros 15 ++ str "Robin" ++ zeros 251.
Definition golden3 : list byte :=
  str "Version   = 1" ++ [x0a] ++ str "Generated = 1469564258" ++ [x0a] ++ str "Toc Count = 3" ++ [x0a] ++ str "Cluster   = 764" ++ [x0a] ++ 
  str "Process   = 8672" ++ [x0a] ++ str "Flags     = 0x2" ++ [x0a; x0a] ++ str "TOC[0], offset: 40, metric offset: 88 (1 entries)" ++ [x0a; x09] ++ 
  str "[1022/88] bat.names" ++ zeros 55 ++ [x0a; x09; x09] ++ str "type=StringType (0x6), sem=Semantics(3) (0x3), pad=0x0" ++ [x0a; x09; x09] ++ 
  str "units=count" ++ [x0a; x09; x09] ++ str "(no indom)" ++ [x0a; x09; x09] ++ str "(no shorttext)" ++ [x0a; x09; x09] ++ str "(no longtext)" ++ 
  [x0a; x0a] ++ str "TOC[1], offset: 56, values offset: 192 (1 entries)" ++ [x0a; x09] ++ str "[1022/192] bat.names" ++ zeros 55 ++ str " = Robin" ++ 
  zeros 251 ++ [x0a; x0a] ++ str "TOC[2], offset: 72, strings offset: 224 (1 entries)" ++ [x0a; x09] ++ str "[224] Robin" ++ zeros 251 ++ [x0a; x0a].

Definition test4 : list byte :=
  str "MMV" ++ zeros 1 ++ [x01] ++ zeros 3 ++ [x1b] ++ str "+" ++ [x98] ++ str "W" ++ zeros 4 ++ [x1b] ++ str "+" ++ [x98] ++ str "W" ++ zeros 4 ++ 
  [x03] ++ zeros 3 ++ [x02] ++ zeros 3 ++ str "DW" ++ zeros 2 ++ [xfc; x02] ++ zeros 2 ++ [x03] ++ zeros 3 ++ [x01] ++ zeros 3 ++ str "X" ++ zeros 7 ++ 
  [x04] ++ zeros 3 ++ [x01] ++ zeros 3 ++ [xc0] ++ zeros 7 ++ [x05] ++ zeros 3 ++ [x01] ++ zeros 3 ++ [xe0] ++ zeros 7 ++ str "bat.names" ++ zeros 55 ++ 
  [xfe; x03] ++ zeros 2 ++ [x06] ++ zeros 3 ++ [x03] ++ zeros 5 ++ [x10] ++ zeros 1 ++ [xff; xff; xff; xff] ++ zeros 20 ++ [xff] ++ zeros 7 ++ [xe0] ++ 
  zeros 7 ++ str "X" ++ zeros 271.
Definition golden4 : list byte :=
  str "Version   = 1" ++ [x0a] ++ str "Generated = 1469590299" ++ [x0a] ++ str "Toc Count = 3" ++ [x0a] ++ str "Cluster   = 764" ++ [x0a] ++ 
  str "Process   = 22340" ++ [x0a] ++ str "Flags     = 0x2" ++ [x0a; x0a] ++ str "TOC[0], offset: 40, metric offset: 88 (1 entries)" ++ [x0a; x09] ++ 
  str "[1022/88] bat.names" ++ zeros 55 ++ [x0a; x09; x09] ++ str "type=StringType (0x6), sem=Semantics(3) (0x3), pad=0x0" ++ [x0a; x09; x09] ++ 
  str "units=count" ++ [x0a; x09; x09] ++ str "(no indom)" ++ [x0a; x09; x09] ++ str "(no shorttext)" ++ [x0a; x09; x09] ++ str "(no longtext)" ++ 
  [x0a; x0a] ++ str "TOC[1], offset: 56, values offset: 192 (1 entries)" ++ [x0a; x09] ++ str "[1022/192] bat.names" ++ zeros 55 ++ str " = " ++ 
  zeros 256 ++ [x0a; x0a] ++ str "TOC[2], offset: 72, strings offset: 224 (1 entries)" ++ [x0a; x09] ++ str "[224] " ++ zeros 256 ++ [x0a; x0a].

Definition test5 : list byte :=
  str "MMV" ++ zeros 1 ++ [x01] ++ zeros 3 ++ [xc4; x82] ++ str "yY" ++ zeros 4 ++ [xc4; x82] ++ str "yY" ++ zeros 4 ++ [x03] ++ zeros 3 ++ [x07] ++ 
  zeros 3 ++ str "9=" ++ zeros 6 ++ [x03] ++ zeros 3 ++ [x03] ++ zeros 3 ++ str "X" ++ zeros 7 ++ [x04] ++ zeros 3 ++ [x03] ++ zeros 3 ++ [x90; x01] ++ 
  zeros 6 ++ [x05] ++ zeros 3 ++ [x02] ++ zeros 3 ++ [xf0; x01] ++ zeros 6 ++ str "download_speed" ++ zeros 50 ++ [x96] ++ zeros 3 ++ [x05] ++ zeros 3 ++ 
  [x03] ++ zeros 4 ++ str "0" ++ [x02; x1f] ++ zeros 8 ++ [xf0; x01] ++ zeros 14 ++ str "frequency" ++ zeros 55 ++ str "t" ++ [x01] ++ zeros 2 ++ [x04] ++ 
  zeros 3 ++ [x03] ++ zeros 4 ++ str "0" ++ zeros 1 ++ [x0f] ++ zeros 8 ++ [xf0; x02] ++ zeros 14 ++ str "time" ++ zeros 60 ++ [xb1; x01] ++ zeros 6 ++ 
  [x03] ++ zeros 4 ++ str "P" ++ zeros 1 ++ [x01] ++ zeros 24 ++ str "UUUUUU" ++ [xd5] ++ str "?" ++ zeros 8 ++ str "X" ++ zeros 15 ++ [xab; xaa; xaa] ++ 
  str ">" ++ zeros 12 ++ [xc0] ++ zeros 15 ++ [xfa; xff; xff; xff] ++ zeros 12 ++ str "(" ++ [x01] ++ zeros 14 ++ str "Download speed in MiB/sec" ++ 
  zeros 231 ++ str "Frequency in Hz" ++ zeros 2033.
Definition golden5 : list byte :=
  str "Version   = 1" ++ [x0a] ++ str "Generated = 1501135556" ++ [x0a] ++ str "Toc Count = 3" ++ [x0a] ++ str "Cluster   = 0" ++ [x0a] ++ 
  str "Process   = 15673" ++ [x0a] ++ str "Flags     = 0x7" ++ [x0a; x0a] ++ str "TOC[0], offset: 40, metric offset: 88 (3 entries)" ++ [x0a; x09] ++ 
  str "[150/88] download_speed" ++ zeros 50 ++ [x0a; x09; x09] ++ str "type=DoubleType (0x5), sem=Semantics(3) (0x3), pad=0x0" ++ [x0a; x09; x09] ++ 
  str "units=MiB / sec" ++ [x0a; x09; x09] ++ str "indom=0" ++ [x0a; x09; x09] ++ str "shorttext=Download speed in MiB/sec" ++ zeros 231 ++ 
  [x0a; x09; x09] ++ str "(no longtext)" ++ [x0a; x09] ++ str "[372/192] frequency" ++ zeros 55 ++ [x0a; x09; x09] ++ 
  str "type=FloatType (0x4), sem=Semantics(3) (0x3), pad=0x0" ++ [x0a; x09; x09] ++ str "units= / sec" ++ [x0a; x09; x09] ++ str "indom=0" ++ 
  [x0a; x09; x09] ++ str "shorttext=Frequency in Hz" ++ zeros 241 ++ [x0a; x09; x09] ++ str "(no longtext)" ++ [x0a; x09] ++ str "[433/296] time" ++ 
  zeros 60 ++ [x0a; x09; x09] ++ str "type=Int32Type (0x0), sem=Semantics(3) (0x3), pad=0x0" ++ [x0a; x09; x09] ++ str "units=hr" ++ [x0a; x09; x09] ++ 
  str "indom=0" ++ [x0a; x09; x09] ++ str "(no shorttext)" ++ [x0a; x09; x09] ++ str "(no longtext)" ++ [x0a; x0a] ++ 
  str "TOC[1], offset: 56, values offset: 400 (3 entries)" ++ [x0a; x09] ++ str "[150/400] download_speed" ++ zeros 50 ++ str " = 0.3333333333333333" ++ 
  [x0a; x09] ++ str "[372/432] frequency" ++ zeros 55 ++ str " = 0.33333334" ++ [x0a; x09] ++ str "[433/464] time" ++ zeros 60 ++ str " = -6" ++ 
  [x0a; x0a] ++ str "TOC[2], offset: 72, strings offset: 496 (2 entries)" ++ [x0a; x09] ++ str "[496] Download speed in MiB/sec" ++ zeros 231 ++ 
  [x0a; x09] ++ str "[752] Frequency in Hz" ++ zeros 241 ++ [x0a; x0a].

(** The two floats of test5. *)
Definition golden_f32 (b : Z) : list byte := if b =? 1051372203 then str "0.33333334" else [].
Definition golden_f64 (b : Z) : list byte := if b =? 4599676419421066581 then str "0.3333333333333333" else [].
Definition text_of (data : list byte) : option (list byte) :=
  match Dump data with DOk d => match Write d with WOk o => Some (flatten golden_f32 golden_f64 o) | _ => None end | _ => None end.

Example golden1_ok : text_of test1 = Some golden1. Proof. vm_compute. reflexivity. Qed.
Example golden2_ok : text_of test2 = Some golden2. Proof. vm_compute. reflexivity. Qed.
Example golden3_ok : text_of test3 = Some golden3. Proof. vm_compute. reflexivity. Qed.
Example golden4_ok : text_of test4 = Some golden4. Proof. vm_compute. reflexivity. Qed.
Example golden5_ok : text_of test5 = Some golden5. Proof. vm_compute. reflexivity. Qed.
