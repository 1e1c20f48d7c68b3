(** versioneer.py: the version file written into distributions, and the version
    setup.py computes.  Files are inputs: their contents as text, lines ended by
    newline characters (Python's text mode translates other line ends). *)
From Coq Require Import String Ascii ZArith NArith Bool List.
Import ListNotations.
From Verif Require Import Version.
Open Scope list_scope.

(** * JSON.  Python's own; used at versioneer.py:1197, 1215, 1221-1222. *)
Inductive jval := JNull | JBool (b : bool) | JText (t : text).
Definition dict := list (text * jval).

Definition hex_digit (n : nat) : ascii := nth n (T "0123456789abcdef") "0"%char.
(** The escape \u00XX.  json.dumps, used at versioneer.py:1221-1222. *)
Definition unicode_escape (c : ascii) : text :=
  let n := nat_of_ascii c in T "\u00" ++ [hex_digit (n / 16); hex_digit (n mod 16)].
Definition quote : ascii := """".
Definition is_char (c : ascii) (n : nat) : bool := (nat_of_ascii c =? n)%nat.

(** A character of a string, json.dumps with ensure_ascii (CPython's
    Lib/json/encoder.py: ESCAPE_DCT, py_encode_basestring_ascii). *)
Definition json_char (c : ascii) : text :=
  if Ascii.eqb c quote then T "\" ++ [quote]
  else if Ascii.eqb c "\" then T "\\"
  else if is_char c 10 then T "\n"
  else if is_char c 13 then T "\r"
  else if is_char c 9 then T "\t"
  else if is_char c 12 then T "\f"
  else if is_char c 8 then T "\b"
  else if (32 <=? nat_of_ascii c)%nat && (nat_of_ascii c <=? 126)%nat then [c]
  else unicode_escape c.
Definition json_text (t : text) : text := quote :: flat_map json_char t ++ [quote].
Definition json_val (v : jval) : text :=
  match v with
  | JNull => T "null"
  | JBool true => T "true"
  | JBool false => T "false"
  | JText t => json_text t
  end.

(** The entries of the dictionary, in the order of the sorted keys.
    versioneer.py:1221-1222. *)
Definition opt_text (o : option text) : jval := match o with Some t => JText t | None => JNull end.
Definition dict_of (v : versions) : dict :=
  [(T "date", opt_text (v_date v));
   (T "dirty", match v_dirty v with Some b => JBool b | None => JNull end);
   (T "error", opt_text (v_error v));
   (T "full-revisionid", opt_text (v_full v));
   (T "version", JText (v_version v))].

(** json.dumps(versions, sort_keys=True, indent=1, separators=(",", ": ")):
    versioneer.py:1221-1222. *)
Definition json_member (m : text * jval) : text := T " " ++ json_text (fst m) ++ T ": " ++ json_val (snd m).
Fixpoint json_members (d : dict) : text :=
  match d with
  | [] => []
  | [m] => json_member m
  | m :: r => json_member m ++ T "," ++ newline :: json_members r
  end.
Definition json_dumps (d : dict) : text := T "{" ++ newline :: json_members d ++ newline :: T "}".

(** * write_to_version_file: versioneer.py:1183-1198, 1218-1224. *)
Fixpoint unlines (l : list string) : text :=
  match l with [] => [] | s :: r => T s ++ newline :: unlines r end.
Definition template_head : text :=
  unlines [""; "# This file was generated by 'versioneer.py' (0.18) from";
    "# revision-control system data, or from the parent directory name of an";
    "# unpacked source archive. Distribution tarballs contain a pre-generated copy";
    "# of this file."; ""; "import json"; ""]%string.
Definition template_open : text := T "version_json = '''".
Definition template_close : text := T "'''  # END VERSION_JSON".
Definition template_tail : text :=
  unlines [""; ""; ""; "def get_versions():"; "    return json.loads(version_json)"]%string.
Definition version_file (d : dict) : text :=
  template_head ++ template_open ++ newline :: json_dumps d ++ newline :: template_close ++ template_tail.

(** * json.loads *)
(** Numbers, arrays, nested objects and characters outside Latin-1 are outside the
    model.  JSONDecodeError is a ValueError.
    json.loads, used at versioneer.py:1197, 1215. *)
Definition is_jspace (c : ascii) : bool := Ascii.eqb c " " || is_char c 9 || is_char c 10 || is_char c 13.
Definition hex_value (c : ascii) : option nat :=
  let n := nat_of_ascii c in
  if is_digit c then Some (n - 48)%nat
  else if (97 <=? n)%nat && (n <=? 102)%nat then Some (n - 87)%nat
  else if (65 <=? n)%nat && (n <=? 70)%nat then Some (n - 55)%nat
  else None.
(** The character of four hexadecimal digits.
    json.loads, used at versioneer.py:1197, 1215. *)
Definition hex4 (a b c d : ascii) : vres ascii :=
  match hex_value a, hex_value b, hex_value c, hex_value d with
  | Some O, Some O, Some n, Some m => VOk (ascii_of_nat (16 * n + m))
  | Some _, Some _, Some _, Some _ => VRaise VOutOfModel
  | _, _, _, _ => VRaise VValueError
  end.
Definition simple_escape (e : ascii) : option ascii :=
  if Ascii.eqb e quote then Some quote
  else if Ascii.eqb e "\" then Some "\"%char
  else if Ascii.eqb e "/" then Some "/"%char
  else if Ascii.eqb e "b" then Some (ascii_of_nat 8)
  else if Ascii.eqb e "f" then Some (ascii_of_nat 12)
  else if Ascii.eqb e "n" then Some (ascii_of_nat 10)
  else if Ascii.eqb e "r" then Some (ascii_of_nat 13)
  else if Ascii.eqb e "t" then Some (ascii_of_nat 9)
  else None.
Definition after_char (c : ascii) (m : vres (text * text)) : vres (text * text) :=
  vbind m (fun '(t, r) => VOk (c :: t, r)).
(** The rest of a string, after the opening quote (py_scanstring, strict).
    json.loads, used at versioneer.py:1197, 1215. *)
Fixpoint json_string (s : text) : vres (text * text) :=
  match s with
  | [] => VRaise VValueError
  | c :: r =>
      if Ascii.eqb c quote then VOk ([], r)
      else if Ascii.eqb c "\" then
        match r with
        | [] => VRaise VValueError
        | e :: r1 =>
            if Ascii.eqb e "u" then
              match r1 with
              | h1 :: h2 :: h3 :: h4 :: r2 =>
                  vbind (hex4 h1 h2 h3 h4) (fun x => after_char x (json_string r2))
              | _ => VRaise VValueError
              end
            else match simple_escape e with
                 | Some x => after_char x (json_string r1)
                 | None => VRaise VValueError
                 end
        end
      else if (nat_of_ascii c <? 32)%nat then VRaise VValueError
      else after_char c (json_string r)
  end.
Definition json_value (s : text) : vres (jval * text) :=
  match s with
  | [] => VRaise VValueError
  | c :: r =>
      if Ascii.eqb c quote then vbind (json_string r) (fun '(t, r1) => VOk (JText t, r1))
      else if starts_with (T "null") s then VOk (JNull, skipn 4 s)
      else if starts_with (T "true") s then VOk (JBool true, skipn 4 s)
      else if starts_with (T "false") s then VOk (JBool false, skipn 5 s)
      else if is_digit c || existsb (Ascii.eqb c) (T "{[-NI") then VRaise VOutOfModel
      else VRaise VValueError
  end.
Definition skip_space (s : text) : text := lstrip_by is_jspace s.
(** The members of an object, from the quote of the first key (JSONObject).
    json.loads, used at versioneer.py:1197, 1215. *)
Fixpoint json_object (fuel : nat) (s : text) : vres (dict * text) :=
  match fuel with
  | O => VRaise VOutOfModel
  | S fuel' =>
      match s with
      | q :: r =>
          if Ascii.eqb q quote then
            vbind (json_string r) (fun '(k, r1) =>
            match skip_space r1 with
            | c :: r2 =>
                if Ascii.eqb c ":" then
                  vbind (json_value (skip_space r2)) (fun '(v, r3) =>
                  match skip_space r3 with
                  | e :: r4 =>
                      if Ascii.eqb e "}" then VOk ([(k, v)], r4)
                      else if Ascii.eqb e "," then
                        vbind (json_object fuel' (skip_space r4)) (fun '(d, r5) => VOk ((k, v) :: d, r5))
                      else VRaise VValueError
                  | [] => VRaise VValueError
                  end)
                else VRaise VValueError
            | [] => VRaise VValueError
            end)
          else VRaise VValueError
      | [] => VRaise VValueError
      end
  end.
Definition json_loads (s : text) : vres dict :=
  match skip_space s with
  | [] => VRaise VValueError
  | c :: r =>
      if Ascii.eqb c "{" then
        match skip_space r with
        | e :: r1 =>
            if Ascii.eqb e "}"
            then match skip_space r1 with [] => VOk [] | _ => VRaise VValueError end
            else vbind (json_object (length s) (e :: r1)) (fun '(d, r2) =>
                 match skip_space r2 with [] => VOk d | _ => VRaise VValueError end)
        | [] => VRaise VValueError
        end
      else VRaise VOutOfModel
  end.

(** d[k]; of repeated keys the last one counts.
    Python's own; used at versioneer.py:1226, 1480, 1518. *)
Definition dict_get (d : dict) (k : text) : vres jval :=
  match find (fun m => text_eqb (fst m) k) (rev d) with
  | Some m => VOk (snd m)
  | None => VRaise VKeyError
  end.

(** * versions_from_file: versioneer.py:1201-1215. *)
(** re.search with re.S for [pre], any characters (group 1) and [post]: the first
    [pre] for which there is a match, and the last [post].  versioneer.py:1208-1212. *)
Fixpoint search_between (pre post s : text) : option text :=
  let here := if starts_with pre s
              then let rest := skipn (length pre) s in
                   option_map (fun k => firstn k rest) (rindex post rest)
              else None in
  match here with
  | Some t => Some t
  | None => match s with [] => None | _ :: s' => search_between pre post s' end
  end.
Definition pattern_open : text := T "version_json = '''".
Definition pattern_close : text := T "'''  # END VERSION_JSON".
Definition versions_from_file (contents : text) : vres dict :=
  match search_between (pattern_open ++ [newline]) pattern_close contents with
  | Some t => json_loads t
  | None =>
      match search_between (pattern_open ++ [ascii_of_nat 13; newline]) pattern_close contents with
      | Some t => json_loads t
      | None => VRaise NotThisMethod
      end
  end.

(** * git_get_keywords: versioneer.py:945-970. *)
(** re.search for an equals sign, white space, a quote, any characters (group 1)
    and a quote, versioneer.py:956: the first equals sign for which there is a
    match, and the last closing quote. *)
Fixpoint search_quoted (s : text) : option text :=
  match s with
  | [] => None
  | c :: r =>
      let here := if Ascii.eqb c "="
                  then match lstrip_by is_space r with
                       | q :: r1 => if Ascii.eqb q quote
                                    then option_map (fun k => firstn k r1) (rindex [quote] r1) else None
                       | [] => None
                       end
                  else None in
      match here with Some t => Some t | None => search_quoted r end
  end.
(** One keyword: the last line that starts with its name and has a match.
    versioneer.py:945-970. *)
Definition keyword_step (name : text) (line : text) (old : option text) : option text :=
  if starts_with (name ++ T " =") (strip line)
  then match search_quoted line with Some t => Some t | None => old end
  else old.
Definition keyword_lines (name : text) (lines : list text) : option text :=
  fold_left (fun old line => keyword_step name line old) lines None.
Definition git_get_keywords (contents : text) : keywords :=
  let lines := split_on newline contents in
  Keywords (keyword_lines (T "git_refnames") lines) (keyword_lines (T "git_full") lines)
           (keyword_lines (T "git_date") lines).

(** * get_versions of setup.py: versioneer.py:1402-1475, with the options of
    setup.cfg.  parentdir_prefix is empty, so the parent directories are never
    used. *)
Definition setup_get_versions (contents : text) (g : git) : vres dict :=
  otherwise (vbind (git_versions_from_keywords (git_get_keywords contents) cfg_tag_prefix)
                   (fun v => VOk (dict_of v)))
  (otherwise (versions_from_file contents)
  (otherwise (vbind (git_pieces_from_vcs cfg_tag_prefix g) (fun p =>
              vbind (render p cfg_style) (fun v => VOk (dict_of v))))
  (VOk (dict_of (Versions (T "0+unknown") None None (Some (T "unable to compute version")) None))))).

(** * Importing the generated file *)

(** The value of a string literal, after its opening ''' (Python language
    reference, 2.4.1); escapes that json.dumps does not produce are outside the
    model where they matter.  Used for versioneer.py:1191-1197. *)
Definition py_escape (e : ascii) : option ascii :=
  if Ascii.eqb e quote then Some quote
  else if Ascii.eqb e "\" then Some "\"%char
  else if Ascii.eqb e "'" then Some "'"%char
  else if Ascii.eqb e "b" then Some (ascii_of_nat 8)
  else if Ascii.eqb e "f" then Some (ascii_of_nat 12)
  else if Ascii.eqb e "n" then Some (ascii_of_nat 10)
  else if Ascii.eqb e "r" then Some (ascii_of_nat 13)
  else if Ascii.eqb e "t" then Some (ascii_of_nat 9)
  else None.
Fixpoint triple_quoted (s : text) : vres (text * text) :=
  match s with
  | [] => VRaise VOutOfModel
  | c :: r =>
      if starts_with (T "'''") s then VOk ([], skipn 2 r)
      else if Ascii.eqb c "\" then
        match r with
        | [] => VRaise VOutOfModel
        | e :: r1 =>
            if Ascii.eqb e "u" then
              match r1 with
              | h1 :: h2 :: h3 :: h4 :: r2 =>
                  vbind (hex4 h1 h2 h3 h4) (fun x => after_char x (triple_quoted r2))
              | _ => VRaise VOutOfModel
              end
            else match py_escape e with
                 | Some x => after_char x (triple_quoted r1)
                 | None => VRaise VOutOfModel
                 end
        end
      else after_char c (triple_quoted r)
  end.
(** get_versions() of the generated module: versioneer.py:1183-1198.  Only files of
    these lines are programs of the model: empty lines and comments, the import
    of json, the assignment of a literal to version_json, the function. *)
Definition only_comment (line : text) : bool :=
  match strip line with [] => true | c :: _ => Ascii.eqb c "#" end.
Fixpoint defines_function (lines : list text) : bool :=
  match lines with
  | [] => false
  | l :: r =>
      if only_comment l then defines_function r
      else text_eqb l (T "def get_versions():")
           && match r with
              | body :: r' => text_eqb body (T "    return json.loads(version_json)") && forallb only_comment r'
              | [] => false
              end
  end.
Fixpoint text_of_lines (lines : list text) : text :=
  match lines with
  | [] => []
  | [l] => l
  | l :: r => l ++ newline :: text_of_lines r
  end.
Fixpoint import_lines (imported : bool) (lines : list text) : vres dict :=
  match lines with
  | [] => VRaise VOutOfModel
  | l :: r =>
      if only_comment l then import_lines imported r
      else if text_eqb l (T "import json") then import_lines true r
      else if imported && starts_with (T "version_json = '''") l then
        vbind (triple_quoted (skipn 18 (text_of_lines lines))) (fun '(json, rest) =>
        match split_on newline rest with
        | l1 :: r1 => if only_comment l1 && defines_function r1 then json_loads json else VRaise VOutOfModel
        | [] => VRaise VOutOfModel
        end)
      else VRaise VOutOfModel
  end.
Definition import_get_versions (contents : text) : vres dict :=
  import_lines false (split_on newline contents).
