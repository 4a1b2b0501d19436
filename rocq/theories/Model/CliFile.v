(** Model of saveMnemonic (/repo/cmd/mnemonikey/generate.go:201-213) on a Unix file system with symbolic
    links, permission bits and a umask, which CliMain.v leaves out.  Simplifications: a link holds the whole
    path it leads to; the process is not root and owns the files it may write; special files are left out. *)
From Verif.Model Require Import GoBase Env Version GoTime Seed Encoding Recovery PgpKeys Mnemonikey CliText CliInput CliFlags CliMain.

Inductive inode := Nothing | Regular (mode : Z) (content : bytes) | Directory | Link (to : bytes).
Record disk := mk_disk {
  d_at : bytes -> inode;
  d_umask : Z;
  d_reach : bytes -> bool;       (* the directories on the way to it can be searched *)
  d_create : bytes -> bool;      (* a file can be created there *)
  d_room : option nat            (* how many bytes can be written, if bounded *)
}.
Definition put_inode (d : disk) (path : bytes) (n : inode) : disk :=
  mk_disk (fun p => if bytes_eqb p path then n else d_at d p) (d_umask d) (d_reach d) (d_create d) (d_room d).

(** path resolution in the kernel: at most 40 links (path_resolution(7)) *)
Fixpoint follow (links : nat) (d : disk) (path : bytes) : option bytes :=
  if d_reach d path then
    match d_at d path with
    | Link to => match links with O => None | S n => follow n d to end
    | _ => Some path
    end
  else None.
Definition resolve : disk -> bytes -> option bytes := follow 40.

(** os.Stat: exists, does not exist, another error *)
Inductive stat_result := Stat_exists | Stat_absent | Stat_error.
Definition stat (d : disk) (path : bytes) : stat_result :=
  match resolve d path with
  | None => Stat_error
  | Some q => match d_at d q with Nothing => Stat_absent | _ => Stat_exists end
  end.
(** the mode of a file created with permissions [perm] *)
Definition new_mode (d : disk) (perm : Z) : Z := Z.land perm (Z.lnot (d_umask d)).
(** open(path, O_WRONLY|O_CREAT|O_TRUNC, perm), which follows links, also one that leads to nothing; the
    place of the file that is open *)
Definition open_write (d : disk) (path : bytes) (perm : Z) : option (bytes * disk) :=
  match resolve d path with
  | None => None
  | Some q =>
      match d_at d q with
      | Nothing => if d_create d q then Some (q, put_inode d q (Regular (new_mode d perm) [])) else None
      | Regular mode _ => if Z.testbit mode 7 then Some (q, put_inode d q (Regular mode [])) else None
      | _ => None
      end
  end.
(** writing to an open file *)
Definition write_open (d : disk) (q : bytes) (content : bytes) : disk :=
  match d_at d q with
  | Regular mode old => put_inode d q (Regular mode (old ++ content))
  | _ => d
  end.
(** os.WriteFile *)
Definition os_write_file (d : disk) (path content : bytes) (perm : Z) : res unit * disk :=
  match open_write d path perm with
  | None => (Err ErrFileInaccessible, d)
  | Some (q, d1) =>
      match d_room d with
      | Some n => if Nat.ltb n (length content) then (Err ErrFileInaccessible, write_open d1 q (firstn n content))
                  else (Ok tt, write_open d1 q content)
      | None => (Ok tt, write_open d1 q content)
      end
  end.
(** generate.go:209 *)
Definition word_file_mode : Z := 0x180. (* 0600 *)
(** generate.go:201-213; [other] is what other processes do between the check and the write *)
Definition save_disk_with (other : disk -> disk) (words : list bytes) (path : bytes) (d : disk) : res unit * disk :=
  match stat d path with
  | Stat_exists => (Err ErrFileExists, d)
  | Stat_error => (Err ErrFileInaccessible, d)
  | Stat_absent => os_write_file (other d) path (word_file_content words) word_file_mode
  end.
Definition save_disk : list bytes -> bytes -> disk -> res unit * disk := save_disk_with (fun d => d).

(** what another process may find on the disk at some time during saveMnemonic, or afterwards if the
    process was killed: the disk before, the file just opened, and with some of the content *)
Inductive save_seen (words : list bytes) (path : bytes) (d : disk) : disk -> Prop :=
| Seen_before : save_seen words path d d
| Seen_writing q d1 n : stat d path = Stat_absent -> open_write d path word_file_mode = Some (q, d1) ->
    save_seen words path d (write_open d1 q (firstn n (word_file_content words))).

(** a path as CliMain.v sees it; mode bit 8 (0400) lets the owner read *)
Definition view (d : disk) (path : bytes) : node :=
  match resolve d path with
  | None => Blocked
  | Some q =>
      match d_at d q with
      | Nothing => if d_create d q then Absent (d_room d) else Uncreatable
      | Regular mode content => if Z.testbit mode 8 then File content else Closed
      | Directory => File []
      | Link _ => Blocked
      end
  end.
