(** Paths: filepath.Join and filepath.Clean on Unix (package path/filepath, by its
    documentation: empty elements and "." are dropped, ".." removes the element
    before it), os.TempDir, mmvFileLocation and NewPCPClient. *)
From Verif Require Import Base Hash World.

Definition slash : byte := x2f.

(** The parts of a string between separators (strings.Split). *)
Fixpoint split_on (sep : byte) (l : list byte) : list gostring :=
  match l with
  | [] => [[]]
  | c :: l =>
      if decide (c = sep) then [] :: split_on sep l
      else match split_on sep l with
           | [] => [[c]]
           | e :: r => (c :: e) :: r
           end
  end.

Definition split_path (p : gostring) : list gostring := split_on slash p.

(** One element of a path, given the elements kept so far (last first). *)
Definition clean_step (rooted : bool) (acc : list gostring) (e : gostring) : list gostring :=
  if decide (e = []) then acc
  else if decide (e = str ".") then acc
  else if decide (e = str "..") then
    match acc with
    | [] => if rooted then [] else [e]
    | a :: acc' => if decide (a = str "..") then e :: acc else acc'
    end
  else e :: acc.

Definition rooted_path (p : gostring) : bool := match p with c :: _ => bool_decide (c = slash) | [] => false end.

Fixpoint join_with (sep : gostring) (l : list gostring) : gostring :=
  match l with [] => [] | [e] => e | e :: l => e ++ sep ++ join_with sep l end.

(** filepath.Clean *)
Definition clean (p : gostring) : gostring :=
  let rooted := rooted_path p in
  let elems := rev (foldl (clean_step rooted) [] (split_path p)) in
  let out := (if rooted then [slash] else []) ++ join_with [slash] elems in
  if decide (out = []) then str "." else out.

(** filepath.Join *)
Fixpoint join (l : list gostring) : gostring :=
  match l with
  | [] => []
  | e :: r => if decide (e = []) then join r else clean (join_with [slash] l)
  end.

(** os.TempDir: $TMPDIR, or /tmp if it is empty or not set. *)
Definition temp_dir (tmpdir : option gostring) : gostring :=
  match tmpdir with Some (c :: d) => c :: d | _ => str "/tmp" end.

(** mmvFileLocation, /repo/client.go:70-84. [config] is nil or a map; both read the
    same when a key is absent. *)
Definition mmv_dir (root : gostring) (config : gmap gostring gostring) (tmpdir : option gostring) : gostring :=
  match config !! str "PCP_TMP_DIR" with
  | Some tdir => join [root; tdir]
  | None => temp_dir tmpdir
  end.

Definition mmvFileLocation (root : gostring) (config : gmap gostring gostring) (tmpdir : option gostring) (name : gostring)
    : option gostring :=
  if decide (slash ∈ name) then None
  else Some (join [mmv_dir root config tmpdir; str "mmv"; name]).

(** NewPCPClientWithRegistry, /repo/client.go:126-139; the registry is given by its
    address. *)
Definition NewPCPClientWithRegistry (root : gostring) (config : gmap gostring gostring) (tmpdir : option gostring)
    (name : gostring) (rid : nat) : option client :=
  match mmvFileLocation root config tmpdir name with
  | None => None
  | Some loc => Some (mkClient loc (hash name PCPClusterIDBitLength) ProcessFlag rid None)
  end.
