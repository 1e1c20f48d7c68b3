(** Cases of C82. *)
From Coq Require Import String Ascii Bool Arith Lia List.
From Verif Require Import Version VersionFacts Versioneer Setup PropSetup.
Import ListNotations.
Open Scope list_scope.

(** An __init__.py without the lines gets them; one that has them with CRLF line ends
    is left alone, and so is one with lines after them; where there is no __init__.py
    none is made. *)
Example C82_case_init :
  let crlf := [carriage_return; newline] in
  let plain := T "import os" ++ [newline] in
  let windows := T "import os" ++ crlf ++ crlf ++ T "from ._version import get_versions" ++ crlf
                 ++ T "__version__ = get_versions()['version']" ++ crlf ++ T "del get_versions" ++ crlf in
  setup_init (Some plain) = Some (plain ++ init_snippet)
  /\ setup_init (Some windows) = Some windows
  /\ setup_init (Some (plain ++ init_snippet ++ plain)) = Some (plain ++ init_snippet ++ plain)
  /\ setup_init None = None.
Proof. repeat split; vm_compute; reflexivity. Qed.

(** A tree whose MANIFEST.in and .gitattributes end within a line: the first run joins
    its lines to these, the second adds them again, the third changes nothing. *)
Example C82_case_settles :
  let source := T "gcs/_version.py" in
  let t := Tree None (Some (T "import os")) (Some (T "include LICENSE")) (Some (T "*.py text")) in
  let once := do_setup (T "x = 1") source t in
  let twice := do_setup (T "x = 1") source once in
  path source
  /\ manifest_in once = Some (unlines ["include LICENSEinclude versioneer.py"; "include gcs/_version.py"]%string)
  /\ once <> twice /\ do_setup (T "x = 1") source twice = twice
  /\ init_py twice = Some (T "import os" ++ init_snippet).
Proof.
  split; [split; [discriminate|repeat constructor]|]. split; [vm_compute; reflexivity|]. split; [vm_compute; discriminate|].
  split; vm_compute; reflexivity.
Qed.
