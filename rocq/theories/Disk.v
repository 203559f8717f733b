(** Disk.v -- a Unix file system as a tree, the operations Stuart performs on it, failures, and
    [Node::save] (fs/mod.rs:260-384).

    Not modelled: symbolic links, permissions, concurrent processes, names that are not UTF-8,
    path length limits.  A failing operation (full disk, permission, crash) is an explicit fault:
    it may leave anything at its target path. *)

From Coq Require Import String List NArith ZArith Bool.
From Verif Require Import Text Json Base Syntax Parse Tree Interp Build.
Import ListNotations.

(** The entry at a path; [ent] is defined in Tree.v.
    What the file system calls of fs/mod.rs:18 refer to. *)
Fixpoint lookup (p : path) (d : ent) : option ent :=
  match p with
  | [] => Some d
  | c :: p' =>
      match d with
      | EDir l => match assoc c l with Some e => lookup p' e | None => None end
      | _ => None
      end
  end.

(** Removal of the first entry of a name. Part of [std::fs::remove_dir_all], fs/mod.rs:265. *)
Fixpoint remove_entry (c : text) (l : list (text * ent)) : list (text * ent) :=
  match l with
  | [] => []
  | (k, e) :: l' => if text_eqb k c then l' else (k, e) :: remove_entry c l'
  end.
(** Replacement of the first entry of a name, or a new entry.
    Part of [std::fs::write] and [create_dir], fs/mod.rs:270,377. *)
Fixpoint set_entry (c : text) (x : ent) (l : list (text * ent)) : list (text * ent) :=
  match l with
  | [] => [(c, x)]
  | (k, e) :: l' => if text_eqb k c then (k, x) :: l' else (k, e) :: set_entry c x l'
  end.

(** The tree with the entry at [p] replaced ([Some]), added or removed ([None]); unchanged when
    the parent of [p] is not a directory. Part of the file system calls of fs/mod.rs:18. *)
Fixpoint update (p : path) (x : option ent) (d : ent) : ent :=
  match p with
  | [] => match x with Some e => e | None => d end
  | c :: p' =>
      match d with
      | EDir l =>
          match p' with
          | [] => match x with
                  | Some e => EDir (set_entry c e l)
                  | None => EDir (remove_entry c l)
                  end
          | _ => match assoc c l with
                 | Some e => EDir (set_entry c (update p' x e) l)
                 | None => d
                 end
          end
      | _ => d
      end
  end.

(** The directory containing [p].
    [Path::parent], as [create_dir] and [write] (fs/mod.rs:270,377) need it to exist. *)
Definition parent (p : path) : path := removelast p.
(** [Path::is_dir], fs/mod.rs:264, stuart/src/main.rs:208. *)
Definition is_edir (e : option ent) : bool := match e with Some (EDir _) => true | _ => false end.

(** Outcome of a system call. The [std::io::Result]s of fs/mod.rs:261-384. *)
Inductive io := IoOk (d : ent) | IoExists | IoErr.

(** [std::fs::create_dir]. fs/mod.rs:270,340,368. *)
Definition mkdir (p : path) (d : ent) : io :=
  match lookup p d with
  | Some _ => IoExists
  | None => if is_edir (lookup (parent p) d) then IoOk (update p (Some (EDir [])) d) else IoErr
  end.
(** [std::fs::write]: creates or truncates a regular file. fs/mod.rs:287,374,377. *)
Definition write_file (p : path) (b : bytes) (d : ent) : io :=
  match lookup p d with
  | Some (EFile _) => IoOk (update p (Some (EFile b)) d)
  | Some _ => IoErr
  | None => if is_edir (lookup (parent p) d) then IoOk (update p (Some (EFile b)) d) else IoErr
  end.
(** [std::fs::remove_dir_all] on a directory other than the file system root.
    fs/mod.rs:265, stuart/src/build.rs:151, stuart/src/main.rs:209. *)
Definition rmtree (p : path) (d : ent) : io :=
  match p, lookup p d with
  | _ :: _, Some (EDir _) => IoOk (update p None d)
  | _, _ => IoErr
  end.
(** [std::fs::remove_file]. stuart/src/main.rs:217. *)
Definition rmfile (p : path) (d : ent) : io :=
  match p, lookup p d with
  | _ :: _, Some (EFile _) => IoOk (update p None d)
  | _, _ => IoErr
  end.

(** The file system calls of [Node::save]. fs/mod.rs:261-280,332-384. *)
Inductive op :=
| ORmTreeIfDir (p : path)             (* fs/mod.rs:264-266 *)
| OMkDir (p : path)                   (* fs/mod.rs:270: an existing entry is an error *)
| OMkDirTolerant (p : path)           (* fs/mod.rs:340-344, 368-372: AlreadyExists is ignored *)
| OWrite (p : path) (b : bytes).      (* fs/mod.rs:374-375, 377 *)
Definition op_path (o : op) : path :=
  match o with ORmTreeIfDir p => p | OMkDir p => p | OMkDirTolerant p => p | OWrite p _ => p end.

(** One call; [None] is the error [FsError::Write]. fs/mod.rs:265,270,340-346,368-377. *)
Definition run_op (o : op) (d : ent) : option ent :=
  match o with
  | ORmTreeIfDir p =>
      if is_edir (lookup p d) then match rmtree p d with IoOk d' => Some d' | _ => None end
      else Some d
  | OMkDir p => match mkdir p d with IoOk d' => Some d' | _ => None end
  | OMkDirTolerant p =>
      match mkdir p d with IoOk d' => Some d' | IoExists => Some d | IoErr => None end
  | OWrite p b => match write_file p b d with IoOk d' => Some d' | _ => None end
  end.

(** A fault: the [f_at]-th call fails and leaves [f_junk] at its target.
    The error cases of fs/mod.rs:261-384. *)
Record fault := Fault { f_at : nat; f_junk : option ent }.

(** A sequence of calls: stops at the first failing one (the [?] of fs/mod.rs).  The result is
    the disk and whether every call succeeded. *)
(** fs/mod.rs:261-280. *)
Fixpoint run_ops (f : option fault) (ops : list op) (d : ent) : ent * bool :=
  match ops with
  | [] => (d, true)
  | o :: ops' =>
      match f with
      | Some (Fault O junk) => (update (op_path o) junk d, false)
      | _ =>
          match run_op o d with
          | None => (d, false)
          | Some d' =>
              run_ops (match f with Some (Fault (S k) junk) => Some (Fault k junk) | _ => None end) ops' d'
          end
      end
  end.

(** parse/contents.rs:47-49, used at fs/mod.rs:363. *)
Definition is_ignored (p : parsed) : bool := match p with PIgnored => true | _ => false end.

(** [Path::join] (fs/mod.rs:337,366,374,377, build.rs:154) and the resolution of the result by the system: an absolute
    argument replaces the base, [.] and empty components vanish, [..] removes a component.
    Simplification: a component before [..] need not exist, a trailing slash is ignored. *)
Definition step_component (p : path) (c : text) : path :=
  if text_eqb c [] || text_eqb c [c_dot] then p
  else if text_eqb c [c_dot; c_dot] then removelast p
  else p ++ [c].
(** fs/mod.rs:337,366,374,377, stuart/src/build.rs:154. *)
Definition join_path (p : path) (arg : text) : path :=
  let (h, r) := split_char c_slash arg in
  fold_left step_component (h :: r) (if starts_with [c_slash] arg then [] else p).

(** [Node::save_recur], fs/mod.rs:332-384: the calls it makes, in order. *)
Fixpoint save_recur (cf : config) (p : path) (n : node) : list op :=
  match n with
  | NDir name ch _ =>
      OMkDirTolerant (join_path p name) :: flat_map (save_recur cf (join_path p name)) ch
  | NFile name b pc _ _ =>
      if negb (text_eqb name (lit "root.html")) && negb (text_eqb name (lit "md.html"))
         && (cf_data cf || negb (ends_with (lit ".json") name))
      then
        match (if cf_strip cf && negb (text_eqb name (lit "index.html")) && negb (is_ignored pc)
               then strip_suffix (lit ".html") name else None) with
        | Some stem => [OMkDirTolerant (join_path p stem); OWrite (join_path p stem ++ [lit "index.html"]) b]
        | None => [OWrite (join_path p name) b]
        end
      else []
  end.

(** [Node::save], fs/mod.rs:261-280. *)
Definition save_ops (cf : config) (p : path) (n : node) : option (list op) :=
  match n with
  | NDir _ ch _ => Some (ORmTreeIfDir p :: OMkDir p :: flat_map (save_recur cf p) ch)
  | NFile _ _ _ _ _ => None   (* panic, fs/mod.rs:276 *)
  end.

(** [Stuart::save], lib.rs:181-187, on a disk, with a possible fault. *)
Definition save (f : option fault) (st : stuart) (p : path) (d : ent) : ent * res error unit :=
  match st_output st with
  | None => (d, Err E_NotBuilt)
  | Some out =>
      match save_ops (st_config st) p out with
      | None => (d, Panic Pn_save)
      | Some ops => let (d', ok) := run_ops f ops d in
                    (d', if ok then Ok tt else Err (E_Fs FE_Write))
      end
  end.

(** [Stuart::save_metadata], lib.rs:190-205: [ser] is [Value::serialize]. *)
Definition save_metadata (ser : value -> bytes) (f : option fault) (st : stuart) (p : path) (d : ent)
  : ent * res error unit :=
  match metadata_value st with
  | Ok v => let (d', ok) := run_ops f [OWrite p (ser v)] d in
            (d', if ok then Ok tt else Err (E_Fs FE_Write))
  | Err e => (d, Err e)
  | Panic p => (d, Panic p)
  | OutOfFuel => (d, OutOfFuel)
  end.
