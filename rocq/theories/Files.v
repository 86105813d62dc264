(** Creation of the memory mapped file: NewMemoryMappedWriter,
    /repo/bytewriter/memorymappedwriter.go:21-60, one system call at a time. Every call
    may fail; a failing call changes nothing, except that a failing or short write may
    have stored a part. Directories, permissions and the file handle (left open after a
    late error, lines 44-53) are not modelled. World.v has the whole function as one
    step. *)
From Verif Require Import Base GoVal ByteWriter Indom Metrics Registry Client World.

(** Directory entries and contents. *)
Record os := mkOs { os_paths : gmap gostring nat; os_inodes : gmap nat buffer }.

(** Where the function is; [FWrite ino]: [ino] has been created, f.Write is running. *)
Inductive fpc := FStat | FRemove | FMkdir | FOpen | FWrite (ino : nat) | FMap (ino : nat) | FDone (ino : nat) | FErr.

Definition grow (o : os) (ino : nat) (b : buffer) : os := mkOs (os_paths o) (<[ino := b]> (os_inodes o)).

Inductive fstep (loc : gostring) (size : Z) : fpc * os -> fpc * os -> Prop :=
(* os.Stat, 22: nil error only if the path is there; then os.Remove *)
| fs_stat_ok o : is_Some (os_paths o !! loc) -> fstep loc size (FStat, o) (FRemove, o)
| fs_stat_err o : fstep loc size (FStat, o) (FMkdir, o)
| fs_remove_ok o : fstep loc size (FRemove, o) (FMkdir, mkOs (delete loc (os_paths o)) (os_inodes o))
| fs_remove_err o : fstep loc size (FRemove, o) (FErr, o)
(* os.MkdirAll, 31 *)
| fs_mkdir_ok o : fstep loc size (FMkdir, o) (FOpen, o)
| fs_mkdir_err o : fstep loc size (FMkdir, o) (FErr, o)
(* os.OpenFile with O_CREATE and O_EXCL, 36: fails if the path exists *)
| fs_open_ok o ino : os_paths o !! loc = None -> os_inodes o !! ino = None ->
    fstep loc size (FOpen, o) (FWrite ino, mkOs (<[loc := ino]> (os_paths o)) (<[ino := []]> (os_inodes o)))
| fs_open_err o : fstep loc size (FOpen, o) (FErr, o)
(* f.Write of [size] zero bytes, 41: visible to others in parts *)
| fs_write_part o ino b n : os_inodes o !! ino = Some b -> 0 <= n -> zlen b + n <= size ->
    fstep loc size (FWrite ino, o) (FWrite ino, grow o ino (b ++ zeros n))
| fs_write_ok o ino b : os_inodes o !! ino = Some b -> zlen b = size -> fstep loc size (FWrite ino, o) (FMap ino, o)
| fs_write_err o ino : fstep loc size (FWrite ino, o) (FErr, o)
(* mmap.Map, 49: the buffer is the file's contents from now on *)
| fs_map_ok o ino : fstep loc size (FMap ino, o) (FDone ino, o)
| fs_map_err o ino : fstep loc size (FMap ino, o) (FErr, o).

(** The files of a world. *)
Definition world_os (w : world) : os := mkOs (w_paths w) (f_inodes (w_files w)).
