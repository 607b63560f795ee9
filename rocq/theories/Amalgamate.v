(** script/amalgamate.py: the single header.  Texts are lists of code points; a line
    keeps its newline character. *)
From Coq Require Import ZArith Bool Ascii String.
From Coq Require Import List.
Import ListNotations.
Open Scope Z_scope.

Definition text := list Z.

(** String literals of the script, script/amalgamate.py:10-12 *)
Definition lit (s : string) : text := map (fun a => Z.of_nat (nat_of_ascii a)) (list_ascii_of_string s).

(** The lines of a file, [for line in f] and readlines(), script/amalgamate.py:8,20,47:
    each ends after its newline (universal newlines: there is no other line end) *)
Fixpoint lines (t : text) : list text :=
  match t with
  | [] => []
  | ch :: t => if ch =? 10 then [ch] :: lines t
               else match lines t with [] => [[ch]] | l :: ls => (ch :: l) :: ls end
  end.

(** str.strip, script/amalgamate.py:28; [space] is Python's str.isspace *)
Fixpoint lstrip (space : Z -> bool) (t : text) : text :=
  match t with
  | [] => []
  | ch :: t' => if space ch then lstrip space t' else t
  end.
Definition strip (space : Z -> bool) (t : text) : text := rev (lstrip space (rev (lstrip space t))).

(** AUTHORS and CONTRIBUTORS, script/amalgamate.py:5-13 *)
Definition people (prefix : text) (file : text) : text :=
  concat (map (fun line => prefix ++ line) (lines file)) ++ lit "//" ++ [10] ++ lit "//" ++ [10].

(** A license, script/amalgamate.py:16-33 *)
Definition commented (space : Z -> bool) (ls : list text) : text :=
  concat (map (fun line => let line := strip space line in
                           let line := match line with [] => [] | _ => lit "    " ++ line end in
                           lit "//" ++ line ++ [10]) ls).

(** The lines of LICENSE-APACHE that are used, script/amalgamate.py:22-23: [lines[179:-1]] *)
Definition apache_lines (file : text) : list text :=
  (lit "   Copyright 2021 The fast_float authors" ++ [10]) :: removelast (skipn 179 (lines file)).

(** The files of include/fast_float, script/amalgamate.py:36-46 *)
Inductive header := Constexpr_feature_detect | Float_common | Fast_float | Ascii_number | Fast_table | Decimal_to_binary
| Bigint | Digit_comparison | Parse_number.

(** str.startswith, script/amalgamate.py:49 *)
Fixpoint starts_with (prefix t : text) : bool :=
  match prefix, t with
  | [], _ => true
  | a :: prefix, b :: t => (a =? b) && starts_with prefix t
  | _ :: _, [] => false
  end.

(** The test for a local include, script/amalgamate.py:49 *)
Definition local_include (line : text) : bool := starts_with (lit "#include """) line.

(** A header without its local includes, script/amalgamate.py:47-52 *)
Definition processed (file : text) : text :=
  [10] ++ concat (filter (fun line => negb (local_include line)) (lines file)).

(** --license, script/amalgamate.py:57-63; argparse admits these values only *)
Inductive license := Dual | Triple | Mit | Apache | Boost.

(** The files read, script/amalgamate.py:5,16,36 *)
Record files := {
  authors : text; contributors : text;
  license_mit : text; license_apache : text; license_boost : text;
  code_of : header -> text
}.

(** license_content, script/amalgamate.py:69-98 *)
Definition license_content (space : Z -> bool) (fs : files) (arg : license) : text :=
  (match arg with
   | Triple => lit "// Licensed under the Apache License, Version 2.0, or the" ++ [10] ++
               lit "// MIT License or the Boost License. This file may not be copied," ++ [10] ++
               lit "// modified, or distributed except according to those terms." ++ [10] ++ lit "//" ++ [10]
   | Dual => lit "// Licensed under the Apache License, Version 2.0, or the" ++ [10] ++
             lit "// MIT License at your option. This file may not be copied," ++ [10] ++
             lit "// modified, or distributed except according to those terms." ++ [10] ++ lit "//" ++ [10]
   | _ => []
   end) ++
  (match arg with
   | Dual | Triple | Mit => lit "// MIT License Notice" ++ [10] ++ lit "//" ++ [10] ++ commented space (lines (license_mit fs)) ++ lit "//" ++ [10]
   | _ => []
   end) ++
  (match arg with
   | Dual | Triple | Apache => lit "// Apache License (Version 2.0) Notice" ++ [10] ++ lit "//" ++ [10] ++ commented space (apache_lines (license_apache fs)) ++ lit "//" ++ [10]
   | _ => []
   end) ++
  (match arg with
   | Triple | Boost => lit "// BOOST License Notice" ++ [10] ++ lit "//" ++ [10] ++ commented space (lines (license_boost fs)) ++ lit "//" ++ [10]
   | _ => []
   end).

(** What is written, script/amalgamate.py:101-116 *)
Definition amalgamated (space : Z -> bool) (fs : files) (arg : license) : text :=
  people (lit "// fast_float by ") (authors fs) ++ people (lit "// with contributions from ") (contributors fs) ++
  license_content space fs arg ++
  concat (map (fun h => processed (code_of fs h))
    [Constexpr_feature_detect; Float_common; Fast_float; Ascii_number; Fast_table; Decimal_to_binary; Bigint; Digit_comparison; Parse_number]).
