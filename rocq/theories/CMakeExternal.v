(** The project of test/cmake/ExternalProject, and which targets of a project wait for which.

    Models: test/cmake/ExternalProject/CMakeLists.txt 1-23.

    ExternalProject_Add is put on record; it makes a target that downloads, configures, builds and tests the
    library when it is built.  ExternalProject_Get_Property is put on record too; the variable it sets is one of
    the values the run starts with ([external_values]). *)
From Coq Require Import Bool List Ascii String.
From Verif Require Import CMakeLang CMakeSource CMakeFiles.
Import ListNotations.
Open Scope string_scope.
Open Scope list_scope.

Definition use_external : list stmt := Eval vm_compute in read use_external_project.

Definition external_targets : list string := ["option-ExternalProject-target"; "run"].
(** source_dir is below PREFIX. *)
Definition external_source : string := "/bin/use/option/src/option".
Definition external_values (repository tag : string) : list (string * string) :=
  [("GIT_REPOSITORY", repository); ("GIT_TAG", tag); ("CMAKE_BINARY_DIR", "/bin/use"); ("source_dir", external_source)].

(** * The order of a build *)

(** x in $<TARGET_FILE:x>, which makes a custom target wait for x ([add_custom_target]); several may follow one another
    with a semicolon between them. *)
Definition mark : string := "$<TARGET_FILE:".
Fixpoint up_to (c : ascii) (s : string) : string :=
  match s with
  | EmptyString => EmptyString
  | String d r => if Ascii.eqb c d then EmptyString else String d (up_to c r)
  end.
Fixpoint named_files (s : string) : list string :=
  match s with
  | EmptyString => []
  | String _ r =>
      if String.prefix mark s
      then up_to ">" (substring (String.length mark) (String.length s - String.length mark) s) :: named_files r
      else named_files r
  end.

Definition keyword (s : string) : bool := mem s ["PRIVATE"; "PUBLIC"; "INTERFACE"; "SYSTEM"].

(** The targets that a build makes, in the order of the files. *)
Definition nodes (r : list event) : list string :=
  flat_map (fun e => match e with
                     | Made n _ _ _ _ _ => [n]
                     | Said "ExternalProject_Add" (n :: _) => [n]
                     | _ => []
                     end) r.
(** The targets that [t] waits for: those it is linked with, those whose files its commands name, and those of
    add_dependencies. *)
Definition waits_for (r : list event) (t : string) : list string :=
  flat_map (fun e => match e with
                     | Made n Custom _ args _ _ => if String.eqb n t then flat_map named_files args else []
                     | Said "target_link_libraries" (n :: l) => if String.eqb n t then filter (fun s => negb (keyword s)) l else []
                     | Said "add_dependencies" (n :: l) => if String.eqb n t then l else []
                     | _ => []
                     end) r.
