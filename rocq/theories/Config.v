(** /repo/config.go: reading pcp.conf. *)
From Verif Require Import Base Utf8 Regexp Path.

(** bufio.Scanner with ScanLines, as NewScanner sets it up (package bufio): the text
    is cut at newlines, a carriage return before the newline is dropped, a last line
    without newline counts if it is not empty. A line that does not fit the buffer of
    64 KiB ends the scan: what follows is never seen, and initConfig does not ask
    scanner.Err(). *)
Definition max_token : Z := 65536.

Definition drop_cr (l : gostring) : gostring :=
  match rev l with c :: r => if decide (c = x0d) then rev r else l | [] => [] end.

Definition raw_lines (f : list byte) : list gostring :=
  let l := split_on x0a f in
  match rev l with [] :: r => rev r | _ => l end.

Fixpoint until_long (l : list gostring) : list gostring :=
  match l with
  | [] => []
  | x :: l => if zlen x <? max_token then x :: until_long l else []
  end.

Definition scan_lines (f : list byte) : list gostring := map drop_cr (until_long (raw_lines f)).

(** The pattern of /repo/config.go:20: a group of one or more of [A-Z0-9_], an equals
    sign, and a group of any code points but newline (greedy). *)
Definition isKey (c : Z) : bool := ((65 <=? c) && (c <=? 90)) || ((48 <=? c) && (c <=? 57)) || (c =? 95).
Definition isDot (c : Z) : bool := negb (c =? 10).
Definition re_conf : regexp :=
  RSeq (RCap 1 (RPlus (RClass isKey))) (RSeq (RLit 61) (RCap 2 (RStar true (RClass isDot)))).

(** One line, /repo/config.go:48-52. *)
Definition conf_line (l : gostring) : option (gostring * gostring) :=
  match find_submatch re_conf l with
  | Some m => Some (submatch m 1, submatch m 2)
  | None => None
  end.

Definition conf_add (m : gmap gostring gostring) (l : gostring) : gmap gostring gostring :=
  match conf_line l with Some (k, v) => <[k := v]> m | None => m end.

Definition conf_map (f : list byte) : gmap gostring gostring := foldl conf_add ∅ (scan_lines f).

(** initConfig, /repo/config.go:23-56, called once by init (/repo/speed.go:27-30).
    The environment gives PCP_DIR and PCP_CONF, [fs] the files that can be opened.
    Returns rootPath, confPath and the configuration ([None]: config stays nil and an
    error is returned). Read errors in the middle of the file are not modelled. *)
Definition initConfig (dir conf : option gostring) (fs : gostring -> option (list byte))
    : gostring * gostring * option (gmap gostring gostring) :=
  let root := match dir with Some r => r | None => str "/" end in
  let path := match conf with Some c => c | None => join [root; str "etc"; str "pcp.conf"] end in
  (root, path, conf_map <$> fs path).
