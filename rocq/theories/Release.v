(** script/release.py and the version macros of float_common.h:19-33: how one release
    follows another.  Texts are lists of code points, as in Amalgamate.v. *)
From Coq Require Import String.
From Verif Require Import Machine SpecPrint Amalgamate.
From Coq Require Import List.
Import ListNotations.
Open Scope Z_scope.

(** Three numbers, float_common.h:19-21, script/release.py:22 *)
Record version := { v_major : Z; v_minor : Z; v_patch : Z }.

(** FASTFLOAT_VERSION, float_common.h:31-33; the preprocessor's integers have 64 bits, of
    which no version comes near *)
Definition version_number (v : version) : Z := v_major v * 10000 + v_minor v * 100 + v_patch v.

(** FASTFLOAT_VERSION_STR, float_common.h:23-29: the three macros between points;
    toversionstring, script/release.py:25-26,113.  str of a number that is not negative *)
Definition str (n : Z) : text := print_natural false 10 n.
Definition version_string (v : version) : text :=
  str (v_major v) ++ [46] ++ str (v_minor v) ++ [46] ++ str (v_patch v).

(** \d in the regular expressions of script/release.py:22-160: ASCII digits only (Python
    admits those of other scripts) *)
Definition is_digit (ch : Z) : bool := (48 <=? ch) && (ch <=? 57).

(** \d+ at the start of a text: the longest run of digits and what follows,
    script/release.py:22.  What follows in every pattern is no digit, so that giving
    back digits would not help. *)
Fixpoint digit_run (t : text) : text * text :=
  match t with
  | ch :: t' => if is_digit ch then let '(ds, rest) := digit_run t' in (ch :: ds, rest) else ([], t)
  | [] => ([], [])
  end.
Definition some_digits (t : text) : option (text * text) :=
  match digit_run t with ([], _) => None | r => Some r end.

(** A literal part of a pattern, script/release.py:119,132-142 *)
Definition literal (l t : text) : option text :=
  if starts_with l t then Some (skipn (List.length l) t) else None.

(** int, script/release.py:22 *)
Definition int_of (ds : text) : Z := fold_left (fun a ch => 10 * a + (ch - 48)) ds 0.

(** (\d+)\.(\d+)\.(\d+) at the start of a text, script/release.py:22,119 *)
Definition version_at (t : text) : option (version * text) :=
  match some_digits t with
  | None => None
  | Some (a, t) =>
    match literal [46] t with
    | None => None
    | Some t =>
      match some_digits t with
      | None => None
      | Some (b, t) =>
        match literal [46] t with
        | None => None
        | Some t =>
          match some_digits t with
          | None => None
          | Some (c, t) => Some ({| v_major := int_of a; v_minor := int_of b; v_patch := int_of c |}, t)
          end
        end
      end
    end
  end.

(** extractnumbers, script/release.py:21-22: the first match; [None] is an exception *)
Fixpoint extractnumbers (t : text) : option version :=
  match version_at t with
  | Some (v, _) => Some v
  | None => match t with [] => None | _ :: t => extractnumbers t end
  end.

(** The version of the last tag, script/release.py:80-84 *)
Definition current_version (described : text) : version :=
  match extractnumbers described with Some v => v | None => {| v_major := 0; v_minor := 0; v_patch := 0 |} end.

(** The assertions, script/release.py:97-106 *)
Definition valid_next (cur new : version) : bool :=
  if negb (v_major new =? v_major cur) then
    (v_major new =? v_major cur + 1) && (v_minor new =? 0) && (v_patch new =? 0)
  else if negb (v_minor new =? v_minor cur) then
    (v_minor new =? v_minor cur + 1) && (v_patch new =? 0)
  else v_patch new =? v_patch cur + 1.

(** str.rstrip, script/release.py:121 *)
Definition rstrip (space : Z -> bool) (t : text) : text := rev (lstrip space (rev t)).

(** re.sub, script/release.py:118-122: [matches] gives what follows a match at the start;
    no pattern matches the empty text.  Fuel: one unit per character. *)
Fixpoint sub (fuel : nat) (matches : text -> option text) (repl t : text) : text :=
  match fuel with
  | O => t
  | S fuel =>
    match matches t with
    | Some rest => repl ++ sub fuel matches repl rest
    | None => match t with [] => [] | ch :: t => ch :: sub fuel matches repl t end
    end
  end.
Definition re_sub (matches : text -> option text) (repl t : text) : text := sub (S (List.length t)) matches repl t.

(** The patterns, script/release.py:119,132,137,142 *)
Definition numbered (l t : text) : option text :=
  match literal l t with
  | Some t => match some_digits t with Some (_, t) => Some t | None => None end
  | None => None
  end.
Definition project_line : text := lit "project(fast_float VERSION ".
Definition project_end : text := lit " LANGUAGES CXX)".
Definition project (t : text) : option text :=
  match literal project_line t with
  | Some t => match version_at t with Some (_, t) => literal project_end t | None => None end
  | None => None
  end.
Definition major_line : text := lit "#define FASTFLOAT_VERSION_MAJOR ".
Definition minor_line : text := lit "#define FASTFLOAT_VERSION_MINOR ".
Definition patch_line : text := lit "#define FASTFLOAT_VERSION_PATCH ".

(** CMakeLists.txt, script/release.py:117-124 *)
Definition new_cmake (space : Z -> bool) (new : version) (file : text) : text :=
  concat (map (fun line => re_sub project (project_line ++ version_string new ++ project_end) (rstrip space line) ++ [10]) (lines file)).

(** float_common.h, script/release.py:130-147 *)
Definition new_header (space : Z -> bool) (new : version) (file : text) : text :=
  concat (map (fun line =>
    let line := re_sub (numbered major_line) (major_line ++ str (v_major new)) (rstrip space line) in
    let line := re_sub (numbered minor_line) (minor_line ++ str (v_minor new)) (rstrip space line) in
    let line := re_sub (numbered patch_line) (patch_line ++ str (v_patch new)) (rstrip space line) in
    line ++ [10]) (lines file)).

(** A part of a pattern with points that are not escaped, script/release.py:153: each
    stands for any character but a newline *)
Fixpoint literal_any (l t : text) : option text :=
  match l with
  | [] => Some t
  | x :: l =>
    match t with
    | [] => None
    | ch :: t => if (if x =? 46 then negb (ch =? 10) else ch =? x) then literal_any l t else None
    end
  end.

(** The patterns, script/release.py:153,158,163 *)
Definition link_start : text := lit "https://github.com/fastfloat/fast_float/releases/download/v".
Definition link_end : text := lit "/fast_float.h".
Definition link (t : text) : option text :=
  match literal_any link_start t with
  | Some t => match version_at t with Some (_, t) => literal_any link_end t | None => None end
  | None => None
  end.
Definition fetch_start : text := lit "GIT_TAG tags/v".
Definition fetch (t : text) : option text :=
  match literal fetch_start t with
  | Some t => match version_at t with Some (_, t) => Some t | None => None end
  | None => None
  end.
Definition cpm_start : text := lit "GIT_TAG v".
Definition cpm_end : text := lit ")".
Definition cpm (t : text) : option text :=
  match literal cpm_start t with
  | Some t => match version_at t with Some (_, t) => literal cpm_end t | None => None end
  | None => None
  end.

(** README.md, script/release.py:151-166 *)
Definition new_readme (space : Z -> bool) (new : version) (file : text) : text :=
  concat (map (fun line =>
    let line := re_sub link (link_start ++ version_string new ++ link_end) (rstrip space line) in
    let line := re_sub fetch (fetch_start ++ version_string new) (rstrip space line) in
    let line := re_sub cpm (cpm_start ++ version_string new ++ cpm_end) (rstrip space line) in
    line ++ [10]) (lines file)).

(** A run of the script, script/release.py:75-166: [described] is what git describe says,
    [arg] the argument; [None]: it stops before it changes anything.  The questions to git
    about the branch (29-67) are left out; the single header (171-174) is Amalgamate.v. *)
Definition release (space : Z -> bool) (described arg : text) (cmake header readme : text) : option (version * text * text * text) :=
  match extractnumbers arg with
  | None => None
  | Some new =>
      if valid_next (current_version described) new
      then Some (new, new_cmake space new cmake, new_header space new header, new_readme space new readme)
      else None
  end.

(** The tag the user is told to set, script/release.py:182: v and the version *)
Definition new_tag (new : version) : text := [118] ++ version_string new.
