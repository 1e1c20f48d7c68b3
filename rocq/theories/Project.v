(** setup.py, and the functions of versioneer.py that find the project and read
    setup.cfg (versioneer.py:296-361, 1402-1480, 1696-1777, 1815-1822).

    The disk is a map from absolute paths to file contents.  Simplifications: no
    symbolic links, so os.path.realpath is os.path.abspath; os.path.exists is
    asked about regular files only; the warnings that get_root prints are left
    out. *)
From Coq Require Import String Ascii ZArith NArith Bool List Arith.
From Verif Require Import Version VersionFacts Versioneer Setup.
Import ListNotations.
Open Scope list_scope.

(** Exceptions: VersioneerBadRootError, FileNotFoundError, configparser's
    NoSectionError, NoOptionError, its errors about the file and its
    InterpolationError (BadValue),
    AssertionError, those of computing the version, and others.
    versioneer.py:296-361, 1398-1476. *)
Inductive perr :=
| BadRoot | NoSuchFile | NoSection | NoOption | BadConfig | PAssertion | PKeyError | PTypeError | PIndexError
| PValueError | BadValue | Computing (e : verr) | Other (n : nat) | POutOfModel.
Inductive pres (A : Type) := POk (a : A) | PRaise (e : perr).
Arguments POk {A} a.
Arguments PRaise {A} e.
Definition pbind {A B} (m : pres A) (f : A -> pres B) : pres B :=
  match m with POk a => f a | PRaise e => PRaise e end.
Definition computing {A} (m : vres A) : pres A :=
  match m with VOk a => POk a | VRaise e => PRaise (Computing e) end.

(** * Paths (posixpath) *)

(** os.path.join(a, b).  Python's own; used at versioneer.py:303-309, 1422. *)
Definition path_join (a b : text) : text :=
  if starts_with (T "/") b then b
  else match rev a with
       | [] => b
       | c :: _ => if Ascii.eqb c "/" then a ++ b else a ++ T "/" ++ b
       end.

(** The loop of os.path.normpath; [done] is reversed.
    Python's own; used at versioneer.py:302-324. *)
Definition is_nil {A} (l : list A) : bool := match l with [] => true | _ => false end.
Definition norm_step (absolute : bool) (done : list text) (c : text) : list text :=
  if is_nil c || text_eqb c (T ".") then done
  else if negb (text_eqb c (T "..")) || (negb absolute && is_nil done)
          || match done with d :: _ => text_eqb d (T "..") | [] => false end
       then c :: done
       else tl done.
Definition normpath (p : text) : text :=
  match p with
  | [] => T "."
  | _ =>
      let slashes := if starts_with (T "/") p
                     then if starts_with (T "//") p && negb (starts_with (T "///") p) then T "//" else T "/"
                     else [] in
      let body := join (T "/") (rev (fold_left (norm_step (negb (is_nil slashes))) (split_on "/" p) [])) in
      match slashes ++ body with [] => T "." | r => r end
  end.
(** os.path.abspath(p).  Python's own; used at versioneer.py:302-324. *)
Definition abspath (cwd p : text) : text :=
  normpath (if starts_with (T "/") p then p else path_join cwd p).

(** * configparser.SafeConfigParser().readfp(f), versioneer.py:344-346 *)

(** Option values are kept as the lines they consist of.
    configparser; used at versioneer.py:341-361. *)
Definition options := list (text * list text).
Record parser := Parser {
  ps_sections : list (text * options);   (* DEFAULT is one of them *)
  ps_seen : list text;                   (* headers met, without DEFAULT *)
  ps_cur : option text;                  (* the section being read *)
  ps_opt : option text;                  (* the option being read *)
  ps_indent : nat }.

(** Dictionaries of configparser, used at versioneer.py:342-361. *)
Fixpoint lookup {A} (k : text) (l : list (text * A)) : option A :=
  match l with
  | [] => None
  | (x, v) :: r => if text_eqb x k then Some v else lookup k r
  end.
Fixpoint update {A} (k : text) (f : option A -> A) (l : list (text * A)) : list (text * A) :=
  match l with
  | [] => [(k, f None)]
  | (x, v) :: r => if text_eqb x k then (x, f (Some v)) :: r else (x, v) :: update k f r
  end.
Definition opts (o : option options) : options := match o with Some l => l | None => [] end.

(** c.lower() for letters of ASCII; Latin-1 letters in option names are outside
    the model.  configparser; used at versioneer.py:342-345. *)
Definition lower (c : ascii) : ascii :=
  let n := nat_of_ascii c in if (65 <=? n) && (n <=? 90) then ascii_of_nat (n + 32) else c.

Definition is_delim (c : ascii) : bool := Ascii.eqb c "=" || Ascii.eqb c ":".
(** The leading white space of a line.  configparser; used at versioneer.py:342-345. *)
Definition indent_of (line : text) : nat := length (fst (span is_space line)).
(** SECTCRE: an opening bracket, characters other than ], and ].
    configparser; used at versioneer.py:342-345. *)
Definition header (value : text) : option text :=
  match value with
  | b :: r =>
      if Ascii.eqb b "[" then
        match span (fun c => negb (Ascii.eqb c "]")) r with
        | (c :: cs, _ :: _) => Some (c :: cs)
        | _ => None
        end
      else None
  | [] => None
  end.
Definition is_comment (line : text) : bool :=
  match strip line with c :: _ => Ascii.eqb c "#" || Ascii.eqb c ";" | [] => false end.

(** One turn of the loop of RawConfigParser._read with the default settings:
    strict, no inline comments, empty lines in values.  A line that is neither
    header nor option makes the whole file fail at its end (ParsingError); the
    model fails at once, which differs only if another error follows.
    Used at versioneer.py:342-345. *)
Definition add_line (p : parser) (line : text) : parser :=
  match ps_cur p, ps_opt p with
  | Some s, Some o =>
      Parser (update s (fun l => update o (fun v => match v with Some v => v ++ [line] | None => [line] end) (opts l))
                (ps_sections p))
             (ps_seen p) (ps_cur p) (ps_opt p) (ps_indent p)
  | _, _ => p
  end.
Definition read_line (p : parser) (line : text) : pres parser :=
  let value := strip line in
  if is_comment line then POk p
  else match value with
  | [] => POk (add_line p [])
  | _ =>
    let indent := indent_of line in
    if negb (is_nil (match ps_cur p, ps_opt p with Some _, Some _ => [tt] | _, _ => [] end))
       && (ps_indent p <? indent)
    then POk (add_line p value)
    else match header value with
    | Some name =>
        if text_eqb name (T "DEFAULT")
        then POk (Parser (ps_sections p) (ps_seen p) (Some name) None indent)
        else if mem name (ps_seen p) then PRaise BadConfig
        else POk (Parser (update name opts (ps_sections p)) (name :: ps_seen p) (Some name) None indent)
    | None =>
        match ps_cur p with
        | None => PRaise BadConfig
        | Some s =>
            match span (fun c => negb (is_delim c)) value with
            | (o, _ :: v) =>
                let name := map lower (strip o) in
                if is_nil name then PRaise BadConfig
                else match lookup name (opts (lookup s (ps_sections p))) with
                | Some _ => PRaise BadConfig
                | None => POk (Parser (update s (fun l => opts l ++ [(name, [strip v])]) (ps_sections p))
                                      (ps_seen p) (Some s) (Some name) indent)
                end
            | _ => PRaise BadConfig
            end
        end
    end
  end.
Definition parser0 : parser := Parser [] [] None None 0.
Fixpoint read_lines (p : parser) (l : list text) : pres parser :=
  match l with
  | [] => POk p
  | x :: r => pbind (read_line p x) (fun p' => read_lines p' r)
  end.
Definition read_config (contents : text) : pres parser := read_lines parser0 (lines (universal contents)).

(** The value of an option: the lines joined, without white space at the end;
    the section before DEFAULT.  configparser; used at versioneer.py:346-361. *)
Definition rstrip (s : text) : text := rev (lstrip_by is_space (rev s)).
Definition has_section (p : parser) (s : text) : bool := mem s (ps_seen p).
Definition option_value (p : parser) (s o : text) : option text :=
  option_map (fun v => rstrip (join [newline] v))
    (match lookup o (opts (lookup s (ps_sections p))) with
     | Some v => Some v
     | None => lookup o (opts (lookup (T "DEFAULT") (ps_sections p)))
     end).

(** BasicInterpolation._interpolate_some of configparser, which parser.get calls
    (versioneer.py:344-350).  [values] are the values of the section and of
    DEFAULT; [inner] is the recursive call, one level deeper.  The loop ends
    because the rest gets shorter ([interpolate_fuel] of PropInterp.v). *)
Fixpoint interpolate_loop (inner : text -> pres text) (values : text -> option text) (fuel : nat) (rest : text) : pres text :=
  match fuel with
  | O => match rest with [] => POk [] | _ => PRaise POutOfModel end
  | S n =>
      match rest with
      | [] => POk []
      | c :: r =>
          if negb (Ascii.eqb c "%") then pbind (interpolate_loop inner values n r) (fun v => POk (c :: v))
          else match r with
          | d :: r' =>
              if Ascii.eqb d "%" then pbind (interpolate_loop inner values n r') (fun v => POk (c :: v))
              else if Ascii.eqb d "(" then
                match span (fun x => negb (Ascii.eqb x ")")) r' with
                | (x :: name, _ :: e :: after) =>
                    if Ascii.eqb e "s" then
                      match values (map lower (x :: name)) with
                      | None => PRaise BadValue
                      | Some w =>
                          pbind (if has_char "%" w then inner w else POk w) (fun u =>
                          pbind (interpolate_loop inner values n after) (fun v => POk (u ++ v)))
                      end
                    else PRaise BadValue
                | _ => PRaise BadValue
                end
              else PRaise BadValue
          | [] => PRaise BadValue
          end
      end
  end.
Fixpoint interpolate (values : text -> option text) (depth : nat) (t : text) : pres text :=
  match depth with
  | O => PRaise BadValue
  | S d => interpolate_loop (interpolate values d) values (length t) t
  end.
(** MAX_INTERPOLATION_DEPTH of configparser.  Used at versioneer.py:346-361. *)
Definition max_depth : nat := 10.

(** * get_config_from_root: versioneer.py:335-361.  [cfg] is what setup.cfg
    contains, None if it is missing.  The value of verbose is read but not kept:
    it only decides what is printed. *)
Record config := Config {
  c_VCS : text;
  c_style : text;
  c_source : option text;
  c_build : option text;
  c_tag_prefix : option text;
  c_parentdir_prefix : option text }.
Definition get_option (p : parser) (name : text) : pres (option text) :=
  match option_value p (T "versioneer") name with
  | None => POk None
  | Some t => pbind (interpolate (option_value p (T "versioneer")) max_depth t) (fun t => POk (Some t))
  end.
Definition unquoted (o : option text) : option text :=
  match o with
  | Some t => if text_eqb t (T "''") || text_eqb t [quote; quote] then Some [] else Some t
  | None => None
  end.
Definition get_config (cfg : option text) : pres config :=
  match cfg with
  | None => PRaise NoSuchFile
  | Some c =>
      pbind (read_config c) (fun p =>
      if negb (has_section p (T "versioneer")) then PRaise NoSection
      else pbind (get_option p (T "vcs")) (fun vcs =>
      match vcs with
      | None => PRaise NoOption
      | Some vcs =>
          pbind (get_option p (T "style")) (fun style =>
          pbind (get_option p (T "versionfile_source")) (fun source =>
          pbind (get_option p (T "versionfile_build")) (fun build =>
          pbind (get_option p (T "tag_prefix")) (fun prefix =>
          pbind (get_option p (T "parentdir_prefix")) (fun parentdir =>
          pbind (get_option p (T "verbose")) (fun _ =>
          POk (Config vcs (contents style) source build (unquoted prefix) parentdir)))))))
      end))
  end.

(** * get_versions of setup.py on a disk.  versioneer.py:1402-1476. *)

Record disk := Disk {
  d_file : text -> option text;   (* contents of the file with an absolute path *)
  d_git : text -> git }.          (* what git prints in a directory *)
(** What versioneer.py:302-324 asks the process for. *)
Record process := Process {
  cwd : text;
  sys_path : list text;
  argv0 : text }.
(** os.path.exists(p): versioneer.py:305-312. *)
Definition exists_file (d : disk) (p : text) : bool := match d_file d p with Some _ => true | None => false end.

(** get_root: versioneer.py:296-332. *)
Definition is_project (d : disk) (root : text) : bool :=
  exists_file d (path_join root (T "setup.py")) || exists_file d (path_join root (T "versioneer.py")).
Definition get_root (d : disk) (p : process) : pres text :=
  let root := abspath (cwd p) (cwd p) in
  if is_project d root then POk root
  else let root := dirname (abspath (cwd p) (argv0 p)) in
       if is_project d root then POk root else PRaise BadRoot.

(** get_versions after get_root and get_config_from_root: versioneer.py:1415-1475.
    HANDLERS has the key 'git' only. *)
Definition tree_versions (d : disk) (root : text) (cfg : config) : pres dict :=
  if negb (text_eqb (c_VCS cfg) (T "git")) then PRaise PAssertion
  else match c_source cfg, c_tag_prefix cfg with
  | Some source, Some prefix =>
      let file := d_file d (path_join root source) in
      let from_keywords := git_versions_from_keywords
                             (match file with Some c => git_get_keywords c | None => Keywords None None None end) prefix in
      computing
        (otherwise (vbind from_keywords (fun v => VOk (dict_of v)))
        (otherwise (match file with Some c => versions_from_file c | None => VRaise NotThisMethod end)
        (otherwise (vbind (git_pieces_from_vcs prefix (d_git d root)) (fun p =>
                    vbind (render p (c_style cfg)) (fun v => VOk (dict_of v))))
        (otherwise (match c_parentdir_prefix cfg with
                    | Some (c :: r) => vbind (versions_from_parentdir (c :: r) root) (fun v => VOk (dict_of v))
                    | _ => VRaise NotThisMethod
                    end)
        (VOk (dict_of (Versions (T "0+unknown") None None (Some (T "unable to compute version")) None)))))))
  | _, _ => PRaise PAssertion
  end.
Definition project_versions (d : disk) (root : text) : pres dict :=
  pbind (get_config (d_file d (path_join root (T "setup.cfg")))) (tree_versions d root).
Definition versioneer_get_versions (d : disk) (p : process) : pres dict :=
  pbind (get_root d p) (project_versions d).
(** get_version: versioneer.py:1478-1480. *)
Definition versioneer_get_version (d : disk) (p : process) : pres jval :=
  pbind (versioneer_get_versions d p) (fun v => computing (dict_get v (T "version"))).

(** The version command of setup.py, cmd_version.run: versioneer.py:1516-1523.
    What get_versions(verbose=True) itself prints is left out. *)
Definition py_str (v : jval) : text :=
  match v with
  | JText t => t
  | JNull => T "None"
  | JBool true => T "True"
  | JBool false => T "False"
  end.
Definition py_true (v : jval) : bool :=
  match v with
  | JText [] | JNull | JBool false => false
  | _ => true
  end.
Definition get_or_none (d : dict) (k : text) : jval := match dict_get d k with VOk v => v | VRaise _ => JNull end.
(** The text printed, also when an exception is raised.  versioneer.py:1505-1524. *)
Definition report (v : dict) : text * pres unit :=
  match dict_get v (T "version") with
  | VRaise e => ([], PRaise (Computing e))
  | VOk version =>
      let lines := T "Version: " ++ py_str version ++ newline ::
                   T " full-revisionid: " ++ py_str (get_or_none v (T "full-revisionid")) ++ newline ::
                   T " dirty: " ++ py_str (get_or_none v (T "dirty")) ++ newline ::
                   T " date: " ++ py_str (get_or_none v (T "date")) ++ [newline] in
      match dict_get v (T "error") with
      | VRaise e => (lines, PRaise (Computing e))
      | VOk error => (lines ++ if py_true error then T " error: " ++ py_str error ++ [newline] else [], POk tt)
      end
  end.
Definition cmd_version (d : disk) (p : process) : text * pres unit :=
  match versioneer_get_versions d p with
  | POk v => report v
  | PRaise e => ([], PRaise e)
  end.

(** * setup.py *)

(** str.splitlines on the contents of a file: newline, vertical tab, form feed,
    carriage return, the separators 28, 29 and 30, and next line (133) end a line.
    Python's own; used at setup.py:37. *)
Definition is_break (c : ascii) : bool := existsb (Nat.eqb (nat_of_ascii c)) [10; 11; 12; 13; 28; 29; 30; 133].
Fixpoint splitlines (s : text) : list text :=
  match s with
  | [] => []
  | c :: r =>
      if is_break c
      then [] :: match r with
                 | d :: r' => if Ascii.eqb c carriage_return && Ascii.eqb d newline then splitlines r' else splitlines r
                 | [] => []
                 end
      else match splitlines r with
           | [] => [[c]]
           | l :: ls => (c :: l) :: ls
           end
  end.

(** The arguments of setup() that are computed: version, install_requires,
    setup_requires and tests_require.  setup.py:31-69. *)
Record metadata := Metadata { m_version : jval; m_requires : list text; m_setup_requires : list text; m_tests_require : list text }.

(** setup_package: setup.py:25-74.  [conda] is the truth value of CONDA_BUILD.
    [setup] is setuptools.setup: any change of the process and any outcome.
    os.chdir does not fail: the directory contains the script. *)
Definition source_dir (p : process) : text := dirname (abspath (cwd p) (argv0 p)).
Definition setup_metadata (conda : bool) (d : disk) (p : process) : pres metadata :=
  pbind (if conda then POk ([], [], [])
         else match d_file d (abspath (cwd p) (T "requirements.txt")) with
              | Some c => POk (splitlines (universal c), [T "pytest-runner"], [T "pytest"])
              | None => PRaise NoSuchFile
              end) (fun '(install_requires, setup_requires, tests_require) =>
  pbind (versioneer_get_version d p) (fun version => POk (Metadata version install_requires setup_requires tests_require))).
Definition setup_package (conda : bool) (d : disk)
    (setup : metadata -> process -> process * pres unit) (p : process) : process * pres unit :=
  let src := source_dir p in
  let p1 := Process src (src :: sys_path p) (argv0 p) in
  match setup_metadata conda d p1 with
  | PRaise e => (p1, PRaise e)
  | POk m =>
      let '(p2, r) := setup m p1 in
      match sys_path p2 with
      | [] => (p2, PRaise PIndexError)
      | _ :: path => (Process (cwd p) path (argv0 p2), r)
      end
  end.

(** The script: setup.py:11-14, 77-79.  Before anything else it removes the file
    MANIFEST of the working directory.  [env] is the value of CONDA_BUILD. *)
Definition remove (d : disk) (f : text) : disk :=
  Disk (fun x => if text_eqb x f then None else d_file d x) (d_git d).
Definition conda_build (env : option text) : pres bool :=
  match int_of_text (match env with Some t => t | None => T "0" end) with
  | VOk n => POk (negb (n =? 0)%Z)
  | VRaise _ => PRaise PValueError
  end.
Definition setup_py (env : option text) (d : disk)
    (setup : metadata -> process -> process * pres unit) (p : process) : disk * (process * pres unit) :=
  let d1 := remove d (abspath (cwd p) (T "MANIFEST")) in
  match conda_build env with
  | PRaise e => (d1, (p, PRaise e))
  | POk conda => (d1, setup_package conda d1 setup p)
  end.

(** * versioneer.py setup with any setup.cfg: versioneer.py:1696-1721, 1815-1822 *)

(** SAMPLE_CONFIG: versioneer.py:1673-1687. *)
Definition sample_config : text :=
  newline :: unlines
    ["# See the docstring in versioneer.py for instructions. Note that you must";
     "# re-run 'versioneer.py setup' after changing this section, and commit the";
     "# resulting files."; ""; "[versioneer]"; "#VCS = git"; "#style = pep440";
     "#versionfile_source ="; "#versionfile_build ="; "#tag_prefix ="; "#parentdir_prefix ="; ""]%string.

(** The result is what do_setup returns, 0 if the tree has been set up.
    [template] is LONG_VERSION_PY['git'] filled in; with another VCS the lookup
    fails after the version file has been opened for writing.  versioneer.py:1697-1776. *)
Definition versioneer_setup (template : config -> text) (cfg : option text) (t : tree)
    : option text * tree * pres nat :=
  match get_config cfg with
  | PRaise NoSuchFile | PRaise NoSection => (Some (contents cfg ++ sample_config), t, POk 1)
  | PRaise NoOption => (cfg, t, POk 1)
  | PRaise e => (cfg, t, PRaise e)
  | POk c =>
      match c_source c with
      | None => (cfg, t, PRaise PTypeError)
      | Some [] => (cfg, t, PRaise NoSuchFile)
      | Some source =>
          if text_eqb (c_VCS c) (T "git") then (cfg, do_setup (template c) source t, POk 0)
          else (cfg, Tree (Some []) (init_py t) (manifest_in t) (gitattributes t), PRaise PKeyError)
      end
  end.
