(** The commands of versioneer.py that write _version.py, as steps on a file system
    with hard links, and run_command.  Directories, permissions and symbolic links
    are not modelled: a file system maps names to files and files to contents. *)
From Coq Require Import Ascii String ZArith List Bool Arith.
From Verif Require Import Version Versioneer.
Import ListNotations.
Open Scope list_scope.

(** * File system: what versioneer.py:1218-1226 and 1548-1660 work on *)
Record fs := Fs {
  names : text -> option nat;    (* several names may be links to one file *)
  files : list text              (* the contents *)
}.
Definition content (s : fs) (p : text) : option text :=
  match names s p with Some k => nth_error (files s) k | None => None end.
Definition bind_name (n : text -> option nat) (p : text) (k : option nat) : text -> option nat :=
  fun q => if text_eqb q p then k else n q.
Fixpoint set_nth (k : nat) (c : text) (l : list text) : list text :=
  match l, k with
  | [], _ => []
  | _ :: r, O => c :: r
  | x :: r, S k' => x :: set_nth k' c r
  end.

(** A step; None: it raises an OSError.  Used for versioneer.py:1218-1226, 1553-1660. *)
Definition step := fs -> option fs.
(** os.unlink(p).  Python's own; used at versioneer.py:1220, 1581, 1610. *)
Definition unlink (p : text) : step := fun s =>
  match names s p with
  | None => None
  | Some _ => Some (Fs (bind_name (names s) p None) (files s))
  end.
(** open(p, "w"): an existing file is truncated, under all its names.
    Python's own; used at versioneer.py:1223, 1582, 1611, 1713. *)
Definition open_w (p : text) : step := fun s =>
  match names s p with
  | None => Some (Fs (bind_name (names s) p (Some (length (files s)))) (files s ++ [[]]))
  | Some k => Some (Fs (names s) (set_nth k [] (files s)))
  end.
(** One write to the file opened as p.
    Python's own; used at versioneer.py:1224, 1584, 1613. *)
Definition append (p c : text) : step := fun s =>
  match names s p with
  | None => None
  | Some k => match nth_error (files s) k with
              | Some old => Some (Fs (names s) (set_nth k (old ++ c) (files s)))
              | None => None
              end
  end.
(** os.link(a, b).  setuptools's, called at versioneer.py:1640. *)
Definition link (a b : text) : step := fun s =>
  match names s a, names s b with
  | Some k, None => Some (Fs (bind_name (names s) b (Some k)) (files s))
  | _, _ => None
  end.

(** The states after each step, and whether all steps succeeded.
    Used for versioneer.py:1218-1226. *)
Fixpoint run_steps (l : list step) (s : fs) : list fs * bool :=
  match l with
  | [] => ([], true)
  | f :: r => match f s with
              | None => ([], false)
              | Some s' => let '(h, ok) := run_steps r s' in (s' :: h, ok)
              end
  end.

(** * Commands *)

(** with open(p, "w") as f: f.write(...): the contents reach the disk in some
    number of chunks.  versioneer.py:1223-1224. *)
Definition write_file (p : text) (chunks : list text) : list step := open_w p :: map (append p) chunks.

(** write_to_version_file: versioneer.py:1218-1226.  The contents written are
    version_file of Versioneer.v. *)
Definition write_to_version_file (p : text) (chunks : list text) : list step := unlink p :: write_file p chunks.

(** os.path.join(dir, p) for a relative p and a dir without a slash at the end.
    Python's own; used at versioneer.py:1422, 1556, 1644. *)
Definition path_join (dir p : text) : text := dir ++ "/"%char :: p.

(** cmd_build_py.run: versioneer.py:1548-1560.  [build] are the steps of the base
    class. *)
Definition build_py (build : list step) (build_lib : text) (versionfile_build : option text) (chunks : list text)
  : list step :=
  build ++ match versionfile_build with
           | Some p => match p with [] => [] | _ => write_to_version_file (path_join build_lib p) chunks end
           | None => []
           end.

(** cmd_sdist.make_release_tree: versioneer.py:1637-1648. *)
Definition make_release_tree (release : list step) (base_dir source : text) (chunks : list text) : list step :=
  release ++ write_to_version_file (path_join base_dir source) chunks.
(** cmd_sdist.run: versioneer.py:1629-1635: the version in the metadata. *)
Definition sdist_version (d : dict) : vres jval := dict_get d (T "version").

(** cmd_build_exe.run, cmd_py2exe.run: versioneer.py:1572-1590, 1601-1619. [template] is
    written back at the end. *)
Definition build_exe (exe : list step) (source : text) (chunks template : list text) : list step :=
  write_to_version_file source chunks ++ exe ++ unlink source :: write_file source template.

(** * run_command: versioneer.py:384-419, _version.py:70-104. *)

(** What starting a command leads to: no such file, another OSError, or an output
    and an exit status.  versioneer.py:394-409. *)
Inductive started := Missing | Refused | Exited (out : text) (code : Z).
(** The result and the commands that ran.  versioneer.py:384-418. *)
Fixpoint run_command (exec : text -> started) (commands : list text) : (option text * option Z) * list text :=
  match commands with
  | [] => ((None, None), [])
  | c :: r =>
      match exec c with
      | Missing => run_command exec r
      | Refused => ((None, None), [])
      | Exited out code => (if Z.eqb code 0 then (Some (bstrip out), Some code) else (None, Some code), [c])
      end
  end.

(** * get_cmdclass: versioneer.py:1483-1652.  Which commands of setup.py are
    versioneer's; [modules] are the names in sys.modules.  The commands are told
    apart by name; what each does is above, and cmd_version is in Project.v. *)
Inductive command := CmdVersion | CmdBuildPy | CmdBuildExe | CmdPy2exe | CmdSdist.
Definition loaded (m : text) (modules : list text) : bool := existsb (text_eqb m) modules.
Definition set_cmd (name : text) (c : command) (cmds : list (text * command)) : list (text * command) :=
  filter (fun e => negb (text_eqb name (fst e))) cmds ++ [(name, c)].
Definition del_cmd (name : text) (cmds : list (text * command)) : list (text * command) :=
  filter (fun e => negb (text_eqb name (fst e))) cmds.
Definition get_cmdclass (modules : list text) : list (text * command) :=
  let cmds := set_cmd (T "build_py") CmdBuildPy (set_cmd (T "version") CmdVersion []) in
  let cmds := if loaded (T "cx_Freeze") modules
              then del_cmd (T "build_py") (set_cmd (T "build_exe") CmdBuildExe cmds) else cmds in
  let cmds := if loaded (T "py2exe") modules then set_cmd (T "py2exe") CmdPy2exe cmds else cmds in
  set_cmd (T "sdist") CmdSdist cmds.
(** None: the command of setuptools.  versioneer.py:1483-1662. *)
Definition cmd_for (modules : list text) (name : text) : option command :=
  option_map snd (find (fun e => text_eqb name (fst e)) (get_cmdclass modules)).

(** * One tree made from another: the contents of the version file.  setup.py
    computes the versions first (versioneer.py:1551, 1630); the base command copies
    the file, and versioneer's replaces the copy.  print (versioneer.py:1226) and
    the metadata (versioneer.py:1634) look up the version. *)
Definition packaged (modules : list text) (name : text) (g : git) (contents : text) : vres text :=
  match cmd_for modules name with
  | Some CmdSdist | Some CmdBuildPy =>
      vbind (setup_get_versions contents g) (fun d =>
      vbind (dict_get d (T "version")) (fun _ => VOk (version_file d)))
  | _ => VOk contents
  end.
(** A sequence of such steps, each with its own process and its own git output
    (the tree may have been unpacked inside another checkout).  versioneer.py:1553-1660. *)
Fixpoint repackaged (steps : list (list text * text * git)) (contents : text) : vres text :=
  match steps with
  | [] => VOk contents
  | (modules, name, g) :: r => vbind (packaged modules name g contents) (repackaged r)
  end.
