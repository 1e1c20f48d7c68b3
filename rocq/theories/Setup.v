(** versioneer.py setup: the command that installs versioneer into a source tree
    (versioneer.py:1118-1155, 1689-1822).  The four files it may change are
    modelled by their contents, and so is what git add gets of them; file names, the
    console output and failures of open() are not.  Reading is in text mode, so all three line ends
    count; writing is that of POSIX, where a newline is written as is.  setup.cfg
    is complete here; Project.v has the branch that appends SAMPLE_CONFIG. *)
From Coq Require Import Ascii String List Bool.
From Verif Require Import Version Versioneer.
Import ListNotations.
Open Scope list_scope.

(** File contents; None: the file does not exist.  versioneer.py:1697-1776. *)
Record tree := Tree {
  version_py : option text;     (* cfg.versionfile_source *)
  init_py : option text;        (* __init__.py next to it *)
  manifest_in : option text;    (* MANIFEST.in *)
  gitattributes : option text   (* .gitattributes *)
}.

(** Universal newlines of open(..., "r").
    Python's own; used at versioneer.py:1142-1143, 1726-1727, 1747-1748. *)
Definition carriage_return : ascii := ascii_of_nat 13.
Fixpoint universal (s : text) : text :=
  match s with
  | [] => []
  | c :: r =>
      if Ascii.eqb c carriage_return
      then match r with
           | d :: r' => if Ascii.eqb d newline then newline :: universal r' else newline :: universal r
           | [] => [newline]
           end
      else c :: universal r
  end.

(** Iteration over a file, f.readlines(): lines with their newline.
    Python's own; used at versioneer.py:1143, 1748. *)
Fixpoint lines (s : text) : list text :=
  match s with
  | [] => []
  | c :: r =>
      if Ascii.eqb c newline then [newline] :: lines r
      else match lines r with
           | [] => [[c]]
           | l :: ls => (c :: l) :: ls
           end
  end.

(** s.split(): the maximal runs without white space.
    Python's own; used at versioneer.py:1145, 1750. *)
Fixpoint split_by (f : ascii -> bool) (s : text) : list text :=
  match s with
  | [] => [[]]
  | c :: r =>
      if f c then [] :: split_by f r
      else match split_by f r with
           | [] => [[c]]
           | l :: ls => (c :: l) :: ls
           end
  end.
Definition nonempty (s : text) : bool := match s with [] => false | _ => true end.
Definition words (s : text) : list text := filter nonempty (split_by is_space s).

(** p in s.  Python's own; used at versioneer.py:1730. *)
Fixpoint contains (p s : text) : bool :=
  starts_with p s || match s with [] => false | _ :: r => contains p r end.

Definition mem (x : text) (l : list text) : bool := existsb (text_eqb x) l.
Definition contents (o : option text) : text := match o with Some c => c | None => [] end.

(** INIT_PY_SNIPPET: versioneer.py:1689-1693. *)
Definition init_snippet : text :=
  newline :: unlines ["from ._version import get_versions"; "__version__ = get_versions()['version']";
                      "del get_versions"]%string.

(** The __init__.py part: versioneer.py:1723-1740. *)
Definition setup_init (o : option text) : option text :=
  match o with
  | None => None
  | Some c => if contains init_snippet (universal c) then Some c else Some (c ++ init_snippet)
  end.

(** simple_includes: versioneer.py:1747-1755. *)
Definition include_line (line : text) : list text :=
  if starts_with (T "include ") line then tl (words line) else [].
Definition simple_includes (c : text) : list text := flat_map include_line (lines (universal c)).

(** The MANIFEST.in part: versioneer.py:1742-1773.  [source] is
    cfg.versionfile_source. *)
Definition setup_manifest (source : text) (o : option text) : option text :=
  let c := contents o in
  let found := simple_includes c in
  let add1 := if mem (T "versioneer.py") found then [] else T "include versioneer.py" ++ [newline] in
  let add2 := if mem source found then [] else T "include " ++ source ++ [newline] in
  match o, add1 ++ add2 with
  | None, [] => None
  | _, add => Some (c ++ add)
  end.

(** do_vcs_install: versioneer.py:1118-1155; [git add] is below. *)
Definition marks_line (source line : text) : bool :=
  let l := strip line in
  starts_with source l && mem (T "export-subst") (tl (words l)).
Definition setup_attributes (source : text) (o : option text) : option text :=
  let c := contents o in
  if existsb (marks_line source) (lines (universal c)) then o
  else Some (c ++ source ++ T " export-subst" ++ [newline]).

(** do_setup: versioneer.py:1696-1777.  [template] is LONG_VERSION_PY['git'] with
    the configuration filled in. *)
Definition do_setup (template source : text) (t : tree) : tree :=
  Tree (Some template) (setup_init (init_py t)) (setup_manifest source (manifest_in t))
       (setup_attributes source (gitattributes t)).

(** scan_setup_py: versioneer.py:1779-1814, the number of errors for the contents
    of setup.py. *)
Definition in_some_line (p c : text) : bool := existsb (contains p) (lines (universal c)).
Definition scan_setup_py (c : text) : nat :=
  let found := in_some_line (T "import versioneer") c && in_some_line (T "versioneer.get_cmdclass()") c
               && in_some_line (T "versioneer.get_version()") c in
  let setters := in_some_line (T "versioneer.VCS") c || in_some_line (T "versioneer.versionfile_source") c in
  (if found then 0 else 1) + (if setters then 1 else 0).

(** * The same as a sequence of changes of files: versioneer.py:1697-1776
    open(f, "w") empties the file, f.write(s) adds s to it; open(f, "a") creates a
    missing file. *)
Inductive file := FVersion | FInit | FManifest | FAttributes.
Inductive change := Empty (f : file) | Append (f : file) (s : text).
Definition file_of (t : tree) (f : file) : option text :=
  match f with
  | FVersion => version_py t | FInit => init_py t | FManifest => manifest_in t | FAttributes => gitattributes t
  end.
Definition set_file (t : tree) (f : file) (c : text) : tree :=
  match f with
  | FVersion => Tree (Some c) (init_py t) (manifest_in t) (gitattributes t)
  | FInit => Tree (version_py t) (Some c) (manifest_in t) (gitattributes t)
  | FManifest => Tree (version_py t) (init_py t) (Some c) (gitattributes t)
  | FAttributes => Tree (version_py t) (init_py t) (manifest_in t) (Some c)
  end.
Definition apply_change (t : tree) (c : change) : tree :=
  match c with
  | Empty f => set_file t f []
  | Append f s => set_file t f (contents (file_of t f) ++ s)
  end.

(** The changes do_setup makes in [t], in this order: versioneer.py:1713-1720,
    1732-1733, 1760-1761, 1767-1768, 1151-1153.  Every file is read before the
    first change of it. *)
Definition setup_changes (template source : text) (t : tree) : list change :=
  [Empty FVersion; Append FVersion template]
  ++ match init_py t with
     | None => []
     | Some c => if contains init_snippet (universal c) then [] else [Append FInit init_snippet]
     end
  ++ (let found := simple_includes (contents (manifest_in t)) in
      (if mem (T "versioneer.py") found then [] else [Append FManifest (T "include versioneer.py" ++ [newline])])
      ++ (if mem source found then [] else [Append FManifest (T "include " ++ source ++ [newline])]))
  ++ (if existsb (marks_line source) (lines (universal (contents (gitattributes t)))) then []
      else [Append FAttributes (source ++ T " export-subst" ++ [newline])]).

(** * git add: versioneer.py:1128-1140, 1154-1155
    The files do_vcs_install passes to [git add], in this order, when do_setup has
    found the tree [t].  How the path of versioneer.py is spelt is not modelled. *)
Inductive addition := AddFile (f : file) | AddTool.
Definition git_added (source : text) (t : tree) : list addition :=
  [AddFile FManifest; AddFile FVersion]
  ++ match init_py t with Some _ => [AddFile FInit] | None => [] end
  ++ [AddTool]
  ++ if existsb (marks_line source) (lines (universal (contents (gitattributes t)))) then [] else [AddFile FAttributes].
(** git add puts the contents of these files into the index; if one of them does
    not exist it fails and adds nothing.  versioneer.py exists, since it runs.
    versioneer.py:1127-1155. *)
Definition adds (f : file) (a : addition) : bool :=
  match f, a with
  | FVersion, AddFile FVersion | FInit, AddFile FInit | FManifest, AddFile FManifest | FAttributes, AddFile FAttributes => true
  | _, _ => false
  end.
Definition present (t : tree) (a : addition) : bool :=
  match a with AddTool => true | AddFile f => match file_of t f with Some _ => true | None => false end end.
Definition git_add (l : list addition) (t : tree) (index : file -> option text) : file -> option text :=
  fun f => if forallb (present t) l && existsb (adds f) l then file_of t f else index f.
(** The index after do_setup.  versioneer.py:1120-1155, 1697-1776. *)
Definition setup_index (template source : text) (t : tree) (index : file -> option text) : file -> option text :=
  git_add (git_added source t) (do_setup template source t) index.
