(** gcs/_version.py: how gcs.__version__ is computed.  The same functions occur
    verbatim in versioneer.py:945-1400.

    Strings are lists of Latin-1 characters.  Git and the file system are inputs:
    the standard output of every git command, or its failure, and the path of
    the source tree. *)
From Coq Require Import String Ascii ZArith NArith Bool Lia List.
From Coq Require Import DecimalString DecimalN.
Import ListNotations.
Open Scope list_scope.

Definition text := list ascii.
Definition T (s : string) : text := list_ascii_of_string s.

(** Exceptions of this module.  NotThisMethod is its own: _version.py:51-52. *)
Inductive verr := NotThisMethod | VKeyError | VTypeError | VValueError | VAttributeError | VOutOfModel.
Inductive vres (A : Type) := VOk (a : A) | VRaise (e : verr).
Arguments VOk {A} a.
Arguments VRaise {A} e.
Definition vbind {A B} (m : vres A) (f : A -> vres B) : vres B :=
  match m with VOk a => f a | VRaise e => VRaise e end.

(** * Python string operations *)

(** s.startswith(p).
    Python's own; used at _version.py:118, 143-151, 176, 184, 200, 278. *)
Fixpoint starts_with (p s : text) : bool :=
  match p, s with
  | [], _ => true
  | a :: p', b :: s' => Ascii.eqb a b && starts_with p' s'
  | _ :: _, [] => false
  end.
(** s.endswith(p).  Python's own; used at _version.py:260. *)
Definition ends_with (p s : text) : bool := starts_with (rev p) (rev s).
(** c in s, for a character.  Python's own; used at _version.py:310. *)
Definition has_char (c : ascii) (s : text) : bool := existsb (Ascii.eqb c) s.
(** s.rindex(p): the last position where p occurs.
    Python's own; used at _version.py:263. *)
Fixpoint rindex_from (k : nat) (p s : text) : option nat :=
  let here := if starts_with p s then Some k else None in
  match s with
  | [] => here
  | _ :: s' => match rindex_from (S k) p s' with Some r => Some r | None => here end
  end.
Definition rindex (p s : text) : option nat := rindex_from 0 p s.
(** s.strip(): the Latin-1 white space characters.
    Python's own; used at _version.py:143-151, 174-180, 205, 212, 303. *)
Definition is_space (c : ascii) : bool :=
  let n := nat_of_ascii c in
  ((9 <=? n)%nat && (n <=? 13)%nat) || ((28 <=? n)%nat && (n <=? 32)%nat)
  || (n =? 133)%nat || (n =? 160)%nat.
Fixpoint lstrip_by (f : ascii -> bool) (s : text) : text :=
  match s with
  | [] => []
  | c :: r => if f c then lstrip_by f r else s
  end.
Definition strip_by (f : ascii -> bool) (s : text) : text :=
  rev (lstrip_by f (rev (lstrip_by f s))).
Definition strip (s : text) : text := strip_by is_space s.
(** bytes.strip().  Python's own; used at _version.py:96. *)
Definition is_bspace (c : ascii) : bool :=
  let n := nat_of_ascii c in ((9 <=? n)%nat && (n <=? 13)%nat) || (n =? 32)%nat.
Definition bstrip (s : text) : text := strip_by is_bspace s.
(** s.replace(c, r, 1) for a character c.  Python's own; used at _version.py:174, 303. *)
Fixpoint replace1 (c : ascii) (r : text) (s : text) : text :=
  match s with
  | [] => []
  | x :: s' => if Ascii.eqb x c then r ++ s' else x :: replace1 c r s'
  end.
(** s.split(c) for a character c.  Python's own; used at _version.py:180. *)
Fixpoint split_on (c : ascii) (s : text) : list text :=
  match s with
  | [] => [[]]
  | x :: s' =>
      if Ascii.eqb x c then [] :: split_on c s'
      else match split_on c s' with
           | [] => [[x]]
           | w :: ws => (x :: w) :: ws
           end
  end.
(** Comparison of strings, by code points.  Python's own; used at _version.py:198. *)
Fixpoint text_leb (a b : text) : bool :=
  match a, b with
  | [], _ => true
  | _ :: _, [] => false
  | x :: a', y :: b' =>
      (N_of_ascii x <? N_of_ascii y)%N || ((N_of_ascii x =? N_of_ascii y)%N && text_leb a' b')
  end.
Fixpoint text_eqb (a b : text) : bool :=
  match a, b with
  | [], [] => true
  | x :: a', y :: b' => Ascii.eqb x y && text_eqb a' b'
  | _, _ => false
  end.
(** sorted(set(l)): insertion without repetition.
    Python's own; used at _version.py:180-198. *)
Fixpoint insert_text (x : text) (l : list text) : list text :=
  match l with
  | [] => [x]
  | y :: r => if text_eqb x y then l else if text_leb x y then x :: l else y :: insert_text x r
  end.
Definition sorted_set (l : list text) : list text := fold_right insert_text [] l.

Definition is_digit (c : ascii) : bool :=
  let n := nat_of_ascii c in (48 <=? n)%nat && (n <=? 57)%nat.
(** [0-9a-f] *)
Definition is_hex (c : ascii) : bool :=
  let n := nat_of_ascii c in is_digit c || ((97 <=? n)%nat && (n <=? 102)%nat).

(** int(s) for a string of digits.  Python's own; used at _version.py:288, 298. *)
Definition nat_of_text (s : text) : option N :=
  match s with
  | [] => None
  | _ => option_map N.of_uint (NilEmpty.uint_of_string (string_of_list_ascii s))
  end.
(** int(s): white space and a sign are allowed.  Simplification: Python also
    accepts underscores between digits.  Python's own; used at _version.py:288, 298. *)
Definition int_of_text (s : text) : vres Z :=
  match strip s with
  | c :: r =>
      let '(sign, ds) := if Ascii.eqb c "-" then ((-1)%Z, r)
                         else if Ascii.eqb c "+" then (1%Z, r) else (1%Z, c :: r) in
      match nat_of_text ds with
      | Some n => VOk (sign * Z.of_N n)%Z
      | None => VRaise VValueError
      end
  | [] => VRaise VValueError
  end.
(** '%d' % n.  Python's own; used at _version.py:315-442. *)
Definition nat_text (n : N) : text := T (NilEmpty.string_of_uint (N.to_uint n)).
Definition int_text (z : Z) : text :=
  if (z <? 0)%Z then "-"%char :: nat_text (Z.to_N (- z)) else nat_text (Z.to_N z).

(** * The result dictionary.  _version.py:204-214, 454-474. *)
Record versions := Versions {
  v_version : text;
  v_full : option text;
  v_dirty : option bool;
  v_error : option text;
  v_date : option text }.

(** versions_from_parentdir: _version.py:107-129.  POSIX basename and dirname. *)
Fixpoint last_component (acc s : text) : text :=
  match s with
  | [] => acc
  | c :: r => if Ascii.eqb c "/" then last_component [] r else last_component (acc ++ [c]) r
  end.
Definition basename (p : text) : text := last_component [] p.
Definition dirname (p : text) : text :=
  let head := firstn (length p - length (basename p)) p in
  let stripped := rev (lstrip_by (Ascii.eqb "/") (rev head)) in
  match stripped with [] => head | _ => stripped end.
Fixpoint parentdir_loop (k : nat) (prefix root : text) : vres versions :=
  match k with
  | O => VRaise NotThisMethod
  | S k' =>
      let dir := basename root in
      if starts_with prefix dir
      then VOk (Versions (skipn (length prefix) dir) None (Some false) None None)
      else parentdir_loop k' prefix (dirname root)
  end.
Definition versions_from_parentdir (prefix root : text) : vres versions :=
  parentdir_loop 3 prefix root.

(** The keyword dictionary: _version.py:20-30; None is a missing key. *)
Record keywords := Keywords {
  k_refnames : option text;
  k_full : option text;
  k_date : option text }.

(** date.strip().replace(" ", "T", 1).replace(" ", "", 1): _version.py:175, 303. *)
Definition iso_date (d : text) : text := replace1 " " [] (replace1 " " (T "T") (strip d)).

(** The loop over sorted(tags): _version.py:198-208. *)
Fixpoint first_with_prefix (prefix : text) (l : list text) : option text :=
  match l with
  | [] => None
  | r :: l' => if starts_with prefix r then Some (skipn (length prefix) r) else first_with_prefix prefix l'
  end.

(** git_versions_from_keywords: _version.py:162-213. *)
Definition key {A} (o : option A) : vres A :=
  match o with Some x => VOk x | None => VRaise VKeyError end.
Definition ref_tags (refs : list text) : list text :=
  let tag := T "tag: " in
  let tags := map (skipn (length tag)) (filter (starts_with tag) refs) in
  match tags with
  | [] => filter (existsb is_digit) refs
  | _ => tags
  end.
Definition git_versions_from_keywords (k : keywords) (prefix : text) : vres versions :=
  match k with
  | Keywords None None None => VRaise NotThisMethod
  | _ =>
      let date := option_map iso_date (k_date k) in
      vbind (key (k_refnames k)) (fun rn =>
      let refnames := strip rn in
      if starts_with (T "$Format") refnames then VRaise NotThisMethod
      else
        let refs := map strip (split_on "," (strip_by (fun c => Ascii.eqb c "(" || Ascii.eqb c ")") refnames)) in
        match first_with_prefix prefix (sorted_set (ref_tags refs)) with
        | Some r => vbind (key (k_full k)) (fun full =>
                      VOk (Versions r (Some (strip full)) (Some false) None date))
        | None => vbind (key (k_full k)) (fun full =>
                    VOk (Versions (T "0+unknown") (Some (strip full)) (Some false)
                           (Some (T "no suitable tags")) None))
        end)
  end.

(** * git describe *)

(** What the five git commands print; None if the command fails or git is
    missing (run_command: _version.py:70-104). *)
Record git := Git {
  g_dir : option text;       (* rev-parse --git-dir *)
  g_describe : option text;  (* describe --tags --dirty --always --long --match PREFIX* *)
  g_head : option text;      (* rev-parse HEAD *)
  g_count : option text;     (* rev-list HEAD --count *)
  g_show : option text }.    (* show -s --format=%ci HEAD *)
(** The result of run_command is stripped: _version.py:96. *)
Definition run (o : option text) : option text := option_map bstrip o.

(** The leading characters satisfying [f] and the rest.
    Part of the regular expression at _version.py:269. *)
Fixpoint span (f : ascii -> bool) (s : text) : text * text :=
  match s with
  | c :: r => if f c then let '(a, b) := span f r in (c :: a, b) else ([], s)
  | [] => ([], [])
  end.

Definition newline : ascii := ascii_of_nat 10.

(** re.search(r'^(.+)-(\d+)-g([0-9a-f]+)$', s), matched from the right end;
    [$] also matches before a newline that ends the string, [.] does not match
    a newline.  PropVersion.v proves that this finds the match if there is one. *)
Definition match_describe (s : text) : option (text * text * text) :=
  let r := match rev s with c :: r => if Ascii.eqb c newline then r else c :: r | [] => [] end in
  match span is_hex r with
  | (h :: hs, g :: d :: r1) =>
      if Ascii.eqb g "g" && Ascii.eqb d "-" then
        match span is_digit r1 with
        | (n :: ns, dash2 :: t :: ts) =>
            if Ascii.eqb dash2 "-" && negb (has_char newline (t :: ts))
            then Some (rev (t :: ts), rev (n :: ns), rev (h :: hs)) else None
        | _ => None
        end
      else None
  | _ => None
  end.

(** The dictionary of pieces; after a parse error only long, short, dirty and
    error are set.  _version.py:246-304. *)
Record pieces := Pieces {
  p_tag : option text;
  p_distance : Z;
  p_short : text;
  p_long : text;
  p_dirty : bool;
  p_date : option text }.
Inductive parsed := Parsed (p : pieces) | ParseError (long : text) (dirty : bool) (error : text).

(** git_pieces_from_vcs: _version.py:217-305. *)
Definition git_pieces_from_vcs (prefix : text) (g : git) : vres parsed :=
  match run (g_dir g) with None => VRaise NotThisMethod | Some _ =>
  match run (g_describe g) with None => VRaise NotThisMethod | Some d0 =>
  let describe := strip d0 in
  match run (g_head g) with None => VRaise NotThisMethod | Some f0 =>
  let full := strip f0 in
  let dirty := ends_with (T "-dirty") describe in
  vbind (if dirty
         then match rindex (T "-dirty") describe with
              | Some k => VOk (firstn k describe)
              | None => VRaise VValueError
              end
         else VOk describe) (fun gd =>
  let finish tag distance short :=
    match run (g_show g) with
    | None => VRaise VAttributeError
    | Some d => VOk (Parsed (Pieces tag distance short full dirty (Some (iso_date (strip d)))))
    end in
  if has_char "-" gd then
    match match_describe gd with
    | None => VOk (ParseError full dirty (T "unable to parse git-describe output: '" ++ describe ++ T "'"))
    | Some (tag, num, hex) =>
        if starts_with prefix tag then
          match nat_of_text num with
          | Some n => finish (Some (skipn (length prefix) tag)) (Z.of_N n) hex
          | None => VRaise VValueError
          end
        else VOk (ParseError full dirty
                    (T "tag '" ++ tag ++ T "' doesn't start with prefix '" ++ prefix ++ T "'"))
    end
  else
    match run (g_count g) with
    | None => VRaise VTypeError
    | Some c => vbind (int_of_text c) (fun n => finish None n (firstn 7 full))
    end)
  end end end.

(** * Rendering *)

(** The truth value of pieces["closest-tag"]: None and '' are false.
    _version.py:315-442. *)
Definition tagged (p : pieces) : option text :=
  match p_tag p with Some (c :: r) => Some (c :: r) | _ => None end.
Definition away (p : pieces) : bool := negb (p_distance p =? 0)%Z || p_dirty p.
Definition when (b : bool) (s : string) : text := if b then T s else [].

(** plus_or_dot: _version.py:308-312.  Only called when there is a tag. *)
Definition plus_or_dot (tag : text) : text := if has_char "+" tag then T "." else T "+".

(** render_pep440: _version.py:315-337. *)
Definition render_pep440 (p : pieces) : text :=
  match tagged p with
  | Some tag =>
      if away p
      then tag ++ plus_or_dot tag ++ int_text (p_distance p) ++ T ".g" ++ p_short p ++ when (p_dirty p) ".dirty"
      else tag
  | None => T "0+untagged." ++ int_text (p_distance p) ++ T ".g" ++ p_short p ++ when (p_dirty p) ".dirty"
  end.

(** render_pep440_pre: _version.py:340-353. *)
Definition render_pep440_pre (p : pieces) : text :=
  match tagged p with
  | Some tag => if negb (p_distance p =? 0)%Z then tag ++ T ".post.dev" ++ int_text (p_distance p) else tag
  | None => T "0.post.dev" ++ int_text (p_distance p)
  end.

(** render_pep440_post: _version.py:356-380. *)
Definition render_pep440_post (p : pieces) : text :=
  match tagged p with
  | Some tag =>
      if away p
      then tag ++ T ".post" ++ int_text (p_distance p) ++ when (p_dirty p) ".dev0"
           ++ plus_or_dot tag ++ T "g" ++ p_short p
      else tag
  | None => T "0.post" ++ int_text (p_distance p) ++ when (p_dirty p) ".dev0" ++ T "+g" ++ p_short p
  end.

(** render_pep440_old: _version.py:383-402. *)
Definition render_pep440_old (p : pieces) : text :=
  match tagged p with
  | Some tag =>
      if away p then tag ++ T ".post" ++ int_text (p_distance p) ++ when (p_dirty p) ".dev0" else tag
  | None => T "0.post" ++ int_text (p_distance p) ++ when (p_dirty p) ".dev0"
  end.

(** render_git_describe: _version.py:405-422. *)
Definition render_git_describe (p : pieces) : text :=
  match tagged p with
  | Some tag =>
      if negb (p_distance p =? 0)%Z
      then tag ++ T "-" ++ int_text (p_distance p) ++ T "-g" ++ p_short p else tag
  | None => p_short p
  end ++ when (p_dirty p) "-dirty".

(** render_git_describe_long: _version.py:425-442. *)
Definition render_git_describe_long (p : pieces) : text :=
  match tagged p with
  | Some tag => tag ++ T "-" ++ int_text (p_distance p) ++ T "-g" ++ p_short p
  | None => p_short p
  end ++ when (p_dirty p) "-dirty".

(** render: _version.py:445-474. *)
Definition render_style (p : pieces) (style : text) : vres text :=
  let is s := text_eqb style (T s) in
  if is ""%string || is "default"%string || is "pep440"%string then VOk (render_pep440 p)
  else if is "pep440-pre"%string then VOk (render_pep440_pre p)
  else if is "pep440-post"%string then VOk (render_pep440_post p)
  else if is "pep440-old"%string then VOk (render_pep440_old p)
  else if is "git-describe"%string then VOk (render_git_describe p)
  else if is "git-describe-long"%string then VOk (render_git_describe_long p)
  else VRaise VValueError.
Definition render (r : parsed) (style : text) : vres versions :=
  match r with
  | ParseError long dirty error => VOk (Versions (T "unknown") (Some long) None (Some error) None)
  | Parsed p => vbind (render_style p style) (fun v =>
                  VOk (Versions v (Some (p_long p)) (Some (p_dirty p)) None (p_date p)))
  end.

(** * get_versions *)

(** get_config: _version.py:37-48. *)
Definition cfg_style : text := T "pep440".
Definition cfg_tag_prefix : text := T "v".
Definition cfg_parentdir_prefix : text := T "".
Definition cfg_versionfile_source : text := T "gcs/_version.py".

(** The directory above the source file: _version.py:495-500. *)
Definition source_root (file : text) : text :=
  fold_left (fun root _ => dirname root) (split_on "/" cfg_versionfile_source) file.

Definition otherwise {A} (m : vres A) (k : vres A) : vres A :=
  match m with VRaise NotThisMethod => k | _ => m end.

(** get_versions: _version.py:477-520.  [file] is the path of _version.py, None
    where Python does not define __file__.  [prefix] is cfg.parentdir_prefix. *)
Definition get_versions_with (parent_prefix : text) (k : keywords) (file : option text) (g : git) : vres versions :=
  otherwise (git_versions_from_keywords k cfg_tag_prefix)
  (match file with
   | None => VOk (Versions (T "0+unknown") None None (Some (T "unable to find root of source tree")) None)
   | Some f =>
      let root := source_root f in
      otherwise (vbind (git_pieces_from_vcs cfg_tag_prefix g) (fun p => render p cfg_style))
      (otherwise (match parent_prefix with
                  | [] => VRaise NotThisMethod
                  | _ => versions_from_parentdir parent_prefix root
                  end)
        (VOk (Versions (T "0+unknown") None None (Some (T "unable to compute version")) None)))
   end).
Definition get_versions := get_versions_with cfg_parentdir_prefix.

(** The git commands run with cwd=root: _version.py:222-262, 502-504.  [gits] gives
    for each directory what the commands print there.  __file__ without symbolic
    links (os.path.realpath: _version.py:495). *)
Definition get_versions_at (parent_prefix : text) (k : keywords) (file : option text) (gits : text -> git) : vres versions :=
  get_versions_with parent_prefix k file
    match file with Some f => gits (source_root f) | None => Git None None None None None end.
