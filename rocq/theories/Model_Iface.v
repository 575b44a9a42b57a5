(** Method sets of the hasher types in a build (Go specification: "Method sets", "Implementing an interface"). *)

From Coq Require Import Arith Ascii String List Bool.
From Verif Require Import Model_Build.
Import ListNotations.
Local Open Scope string_scope.

(** A method: type of the receiver, by pointer, name, types of the parameters and results. *)
Record meth := mkmeth { m_recv : string; m_ptr : bool; m_name : string; m_in : list string; m_out : list string }.
Definition signature : Type := string * list string * list string.
Definition msig (m : meth) : signature := (m_name m, m_in m, m_out m).

(** The methods of package [p] in a build, from the table of methods by file. *)
Definition methods (e : tags) (p : list gofile) (tbl : list (string * list meth)) : list meth :=
  flat_map snd (filter (fun r => existsb (fun f => String.eqb (g_name f) (fst r) && included e f) p) tbl).
(** Method set of *T (all methods of T) and of T (those without pointer receiver). *)
Definition ptr_methods (e : tags) (p : list gofile) (tbl : list (string * list meth)) (t : string) : list signature :=
  map msig (filter (fun m => String.eqb (m_recv m) t) (methods e p tbl)).
(** The exported ones, which other packages can ask an interface value for. *)
Definition exported (n : string) : bool :=
  match n with String c _ => (Nat.leb 65 (Ascii.nat_of_ascii c) && Nat.leb (Ascii.nat_of_ascii c) 90)%bool | EmptyString => false end.
