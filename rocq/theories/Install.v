(** python PATH/versioneer.py setup, run as a command in some working directory:
    do_setup, do_vcs_install, scan_setup_py and the main block on a disk
    (versioneer.py:1118-1155, 1696-1822).  Setup.v and Project.v have the same
    functions on the contents of the files alone; here the paths are those of the
    source: setup.cfg and MANIFEST.in are looked up under get_root(), the version
    file, the __init__.py next to it, .gitattributes and setup.py under the working
    directory.

    Simplifications: besides those of Project.v, opening a file for writing fails
    only if its directory does not exist; a path with .. in it is resolved as
    os.path.normpath does; what is printed and git add are left out. *)
From Coq Require Import String Ascii Bool Arith List.
From Verif Require Import Version Versioneer Setup Project.
Import ListNotations.
Open Scope list_scope.

(** Work on a disk; the changes made before an exception stay.
    Used for versioneer.py:1118-1155, 1697-1776. *)
Definition action (A : Type) := disk -> disk * pres A.
Definition ret {A} (a : A) : action A := fun d => (d, POk a).
Definition fail {A} (e : perr) : action A := fun d => (d, PRaise e).
Definition andthen {A B} (m : action A) (f : A -> action B) : action B :=
  fun d => match m d with
           | (d', POk a) => f a d'
           | (d', PRaise e) => (d', PRaise e)
           end.

Section Run.
(** The directories that exist, LONG_VERSION_PY['git'] filled in, the process. *)
Variable is_dir : text -> bool.
Variable template : config -> text.
Variable p : process.

(** The file that a path given to open() means.
    Used for versioneer.py:1118-1155, 1697-1776. *)
Definition at_path (path : text) : text := abspath (cwd p) path.
Definition read_file (path : text) : action (option text) := fun d => (d, POk (d_file d (at_path path))).
Definition store (f c : text) (d : disk) : disk :=
  Disk (fun x => if text_eqb x f then Some c else d_file d x) (d_git d).
(** open(path, "w").  Python's own; used at versioneer.py:1713. *)
Definition open_new (path : text) : action unit :=
  fun d => if is_dir (dirname (at_path path)) then (store (at_path path) [] d, POk tt) else (d, PRaise NoSuchFile).
(** open(path, "a") and f.write(s); f.write(s) to a file opened by [open_new].
    Python's own; used at versioneer.py:1151-1152, 1707-1708, 1715, 1732-1733, 1760-1768. *)
Definition append_to (path s : text) : action unit :=
  fun d => if is_dir (dirname (at_path path))
           then (store (at_path path) (contents (d_file d (at_path path)) ++ s) d, POk tt)
           else (d, PRaise NoSuchFile).

(** The __init__.py part: versioneer.py:1723-1740. *)
Definition run_init (source : text) : action unit :=
  let ipy := path_join (dirname source) (T "__init__.py") in
  andthen (read_file ipy) (fun o =>
  match o with
  | None => ret tt
  | Some old => if contains init_snippet (universal old) then ret tt else append_to ipy init_snippet
  end).
(** The MANIFEST.in part: versioneer.py:1742-1773. *)
Definition run_manifest (root source : text) : action unit :=
  let manifest := path_join root (T "MANIFEST.in") in
  andthen (read_file manifest) (fun o =>
  let found := simple_includes (contents o) in
  andthen (if mem (T "versioneer.py") found then ret tt
           else append_to manifest (T "include versioneer.py" ++ [newline])) (fun _ =>
  if mem source found then ret tt else append_to manifest (T "include " ++ source ++ [newline]))).
(** do_vcs_install: versioneer.py:1118-1155. *)
Definition run_attributes (source : text) : action unit :=
  andthen (read_file (T ".gitattributes")) (fun o =>
  if existsb (marks_line source) (lines (universal (contents o))) then ret tt
  else append_to (T ".gitattributes") (source ++ T " export-subst" ++ [newline])).

(** do_setup: versioneer.py:1696-1777. *)
Definition run_setup : action nat :=
  andthen (fun d => (d, get_root d p)) (fun root =>
  andthen (read_file (path_join root (T "setup.cfg"))) (fun cfg =>
  match get_config cfg with
  | PRaise NoSuchFile | PRaise NoSection =>
      andthen (append_to (path_join root (T "setup.cfg")) sample_config) (fun _ => ret 1)
  | PRaise NoOption => ret 1
  | PRaise e => fail e
  | POk c =>
      match c_source c with
      | None => fail PTypeError
      | Some [] => fail NoSuchFile
      | Some source =>
          andthen (open_new source) (fun _ =>
          if negb (text_eqb (c_VCS c) (T "git")) then fail PKeyError
          else andthen (append_to source (template c)) (fun _ =>
               andthen (run_init source) (fun _ =>
               andthen (run_manifest root source) (fun _ =>
               andthen (run_attributes source) (fun _ => ret 0)))))
      end
  end)).

(** scan_setup_py: versioneer.py:1780-1812. *)
Definition run_scan : action nat :=
  andthen (read_file (T "setup.py")) (fun o =>
  match o with None => fail NoSuchFile | Some c => ret (scan_setup_py c) end).

(** The main block: versioneer.py:1815-1822.  [arg] is sys.argv[1]; the result is
    the exit status, an exception ends the program with a traceback. *)
Definition main (arg : option text) : action nat :=
  match arg with
  | None => fail PIndexError
  | Some cmd =>
      if text_eqb cmd (T "setup")
      then andthen run_setup (fun errors => andthen run_scan (fun more => ret (if errors + more =? 0 then 0 else 1)))
      else ret 0
  end.
End Run.
