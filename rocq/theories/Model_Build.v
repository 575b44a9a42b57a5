(** Which files the go command compiles: build constraints of packages sha1cd and cgo.
    After the documentation of go/build ("Build Constraints").  The files with their constraints and functions are
    read from the text into Gen_Build.v. *)

From Coq Require Import String Ascii List Bool.
Import ListNotations.
Local Open Scope string_scope.

(** A constraint expression, "//go:build" or "// +build". *)
Inductive bexp := BTag (t : string) | BNot (e : bexp) | BAnd (x y : bexp) | BOr (x y : bexp).

(** A function at top level: name, parameters and results, has a body. *)
Record gofn := mkfn { f_name : string; f_sig : string; f_body : bool }.
(** A file: name, //go:build line, // +build lines, imports "C", functions, TEXT symbols of assembly, constants. *)
Record gofile := mkgf { g_name : string; g_build : option bexp; g_plus : list bexp; g_cgo : bool;
                        g_funcs : list gofn; g_text : list string; g_consts : list string }.

(** The tags that are satisfied: GOOS, GOARCH, the compiler (gc or gccgo), cgo, release tags, and those of -tags. *)
Definition tags := string -> bool.

Fixpoint beval (e : tags) (x : bexp) : bool :=
  match x with
  | BTag t => e t
  | BNot x => negb (beval e x)
  | BAnd x y => beval e x && beval e y
  | BOr x y => beval e x || beval e y
  end.

(** ** Constraints in file names: name_GOOS, name_GOARCH, name_GOOS_GOARCH *)

Definition known_os : list string :=
  ["aix"; "android"; "darwin"; "dragonfly"; "freebsd"; "hurd"; "illumos"; "ios"; "js"; "linux"; "nacl"; "netbsd"; "openbsd";
   "plan9"; "solaris"; "wasip1"; "windows"; "zos"].
Definition known_arch : list string :=
  ["386"; "amd64"; "amd64p32"; "arm"; "armbe"; "arm64"; "arm64be"; "loong64"; "mips"; "mipsle"; "mips64"; "mips64le"; "mips64p32";
   "mips64p32le"; "ppc"; "ppc64"; "ppc64le"; "riscv"; "riscv64"; "s390"; "s390x"; "sparc"; "sparc64"; "wasm"].
Definition mem_str (x : string) (l : list string) : bool := existsb (String.eqb x) l.

(** The part before the first dot, cut at the underscores, last piece first. *)
Fixpoint pieces (s cur : string) (acc : list string) : list string :=
  match s with
  | EmptyString => cur :: acc
  | String c r =>
    if Ascii.eqb c "." then cur :: acc
    else if Ascii.eqb c "_" then pieces r "" (cur :: acc)
    else pieces r (cur ++ String c "") acc
  end.
(** go/build goodOSArchFile: the first piece never counts. *)
Definition name_ok (e : tags) (name : string) : bool :=
  match pieces name "" [] with
  | a :: o :: _ :: _ => if mem_str a known_arch && mem_str o known_os then e a && e o
                        else if mem_str a known_arch || mem_str a known_os then e a else true
  | a :: _ :: _ => if mem_str a known_arch || mem_str a known_os then e a else true
  | _ => true
  end.

(** go/build: a file is compiled when its name, its //go:build line and, if it uses cgo, the tag cgo allow it.
    (The // +build lines are ignored when there is a //go:build line.) *)
Definition included (e : tags) (f : gofile) : bool :=
  name_ok e (g_name f) &&
  match g_build f with
  | Some x => beval e x
  | None => forallb (beval e) (g_plus f)
  end &&
  (if g_cgo f then e "cgo" else true).

(** The functions and symbols of a package in a build. *)
Definition funcs (e : tags) (p : list gofile) : list gofn := flat_map g_funcs (filter (included e) p).
Definition texts (e : tags) (p : list gofile) : list string := flat_map g_text (filter (included e) p).
Definition consts (e : tags) (p : list gofile) : list string := flat_map g_consts (filter (included e) p).
(** The declarations of a name. *)
Definition decls (e : tags) (p : list gofile) (n : string) : list gofn := filter (fun f => String.eqb (f_name f) n) (funcs e p).
