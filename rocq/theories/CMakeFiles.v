(** The CMake files of the repository as programs of [CMakeLang], and what a configuration run starts with. *)
From Coq Require Import Bool List Ascii String.
From Verif Require Import CMakeLang CMakeSource.
Import ListNotations.
Open Scope string_scope.
Open Scope list_scope.

Definition read (lines : list string) : list stmt := match parse lines with Some p => p | None => [] end.

(** CMakeLists.txt 1-112 *)
Definition root_cmake := Eval vm_compute in read root_txt.
(** test/CMakeLists.txt 1-84 *)
Definition test_cmake := Eval vm_compute in read test_txt.
(** test/codegen/CMakeLists.txt 1-61 *)
Definition codegen_cmake := Eval vm_compute in read codegen_txt.
(** examples/CMakeLists.txt 1-25 *)
Definition examples_cmake := Eval vm_compute in read examples_txt.
(** benchmark/CMakeLists.txt 1-29 *)
Definition benchmark_cmake := Eval vm_compute in read benchmark_txt.
(** cmake/clang_tidy.cmake 1-50, cmake/compiler_warnings.cmake 1-80, cmake/sanitizers.cmake 1-119 *)
Definition clang_tidy := Eval vm_compute in read clang_tidy_cmake.
Definition compiler_warnings := Eval vm_compute in read compiler_warnings_cmake.
Definition sanitizers := Eval vm_compute in read sanitizers_cmake.

(** The source tree. *)
Definition source_tree : list (string * list stmt) :=
  [("/src/CMakeLists.txt", root_cmake);
   ("/src/test/CMakeLists.txt", test_cmake);
   ("/src/test/codegen/CMakeLists.txt", codegen_cmake);
   ("/src/examples/CMakeLists.txt", examples_cmake);
   ("/src/benchmark/CMakeLists.txt", benchmark_cmake);
   ("/src/cmake/clang_tidy.cmake", clang_tidy);
   ("/src/cmake/compiler_warnings.cmake", compiler_warnings);
   ("/src/cmake/sanitizers.cmake", sanitizers)].
Definition find_file (l : list (string * list stmt)) (p : string) : option (list stmt) :=
  match find (fun e => String.eqb (fst e) p) l with Some (_, b) => Some b | None => None end.

(** Single words as values. *)
Definition single (f : string -> option string) : vmap := fun x => option_map (fun s => [s]) (f x).

(** cmake -B ... -S top: variables v (compiler, system, generator, and those set before), cache c. *)
Definition start (top d : string) (v c : string -> option string) : state :=
  mkst (upd (upd (upd (upd (single v) "CMAKE_SOURCE_DIR" (Some [top])) "CMAKE_BINARY_DIR" (Some [binary_dir top]))
                 "CMAKE_CURRENT_SOURCE_DIR" (Some [d])) "CMAKE_CURRENT_BINARY_DIR" (Some [binary_dir d]))
       (single c) [] (fun _ => None) (fun _ => false) (fun _ => false) d false [] [] [].

Definition fuel : nat := 200.
(** CMakeLists.txt is run by cmake -S top; top is /src if the project itself is configured, another
    directory if another project adds it, in which v and c hold at that place. *)
Definition configure (h : host) (top : string) (v c : string -> option string) : result :=
  exec h (find_file source_tree) fuel (start top "/src" v c) root_cmake.

(** * Projects that use the library (test/cmake) *)

(** test/cmake/add_subdirectory/CMakeLists.txt 1-11, FetchContent/CMakeLists.txt 1-16, find_package/CMakeLists.txt 1-10 *)
Definition use_subdirectory := Eval vm_compute in read use_add_subdirectory.
Definition use_fetched := Eval vm_compute in read use_fetch_content.
Definition use_package := Eval vm_compute in read use_find_package.

(** FetchContent_MakeAvailable of the library: the source is placed in /src and added with add_subdirectory. *)
Definition populate (s : stmt) : stmt :=
  match s with
  | Do "FetchContent_MakeAvailable" [mkarg false [Lit "option"]] => Do "add_subdirectory" [mkarg false [Lit "/src"]]
  | _ => s
  end.

(** configure_package_config_file: @X@ is the value that X has in the install run.  Here it is written ${X},
    and X has the same value in the run that reads the file; @PACKAGE_INIT@ defines macros that are not used. *)
Fixpoint at_name (s acc : string) : option (string * string) :=   (* the name up to the next @, and the rest *)
  match s with
  | EmptyString => None
  | String "@"%char r => Some (acc, r)
  | String c r => at_name r (snoc acc c)
  end.
Fixpoint substitute (n : nat) (s : string) : string :=
  match n, s with
  | S n, String "@"%char r =>
      match at_name r "" with
      | Some (x, r') => if String.eqb x "PACKAGE_INIT" then substitute n r' else ("${" ++ x ++ "}" ++ substitute n r')%string
      | None => s
      end
  | S n, String c r => String c (substitute n r)
  | _, _ => s
  end.
Definition configured (lines : list string) : list string := map (fun s => substitute (String.length s) s) lines.
(** cmake/option-config.cmake.in 1-10 *)
Definition package_config := Eval vm_compute in read (configured option_config_cmake_in).

(** install(EXPORT): option-targets.cmake defines the target again, with what the install run has put on record for it. *)
Definition words_of (l : list string) : list arg := map (fun s => mkarg true [Lit s]) l.
Definition prefixed (p s : string) : option string :=
  if String.prefix p s then Some (substring (String.length p) (String.length s - String.length p - 1) s) else None.
Definition arguments_of (c t : string) (r : list event) : list string :=
  flat_map (fun e => match e with
                     | Said c' (t' :: l) => if String.eqb c' c && String.eqb t' t then l else []
                     | _ => []
                     end) r.
Fixpoint last_of (l : list string) : string := match l with [] => "" | [s] => s | _ :: r => last_of r end.
(** $<BUILD_INTERFACE:...> is left out, $<INSTALL_INTERFACE:d> is d below the prefix. *)
Definition installed_path (s : string) : list string :=
  match prefixed "$<INSTALL_INTERFACE:" s with Some d => [("/prefix/" ++ d)%string] | None => [] end.
Definition export_includes (t : string) (r : list event) : list string :=
  flat_map installed_path (arguments_of "target_include_directories" t r)
  ++ flat_map (fun e => match e with
                        | Said "install" ("TARGETS" :: t' :: l) => if String.eqb t' t then ["/prefix/" ++ last_of l]%string else []
                        | _ => []
                        end) r.
Definition export_sources (t : string) (r : list event) : list string :=
  flat_map installed_path (arguments_of "target_sources" t r).
Definition exported (t : string) (r : list event) : list stmt :=
  [Do "add_library" (words_of [t; "INTERFACE"]);
   Do "set_target_properties"
     (words_of ([t; "PROPERTIES"; "INTERFACE_COMPILE_FEATURES";
                 join (filter (fun s => negb (String.eqb s "INTERFACE")) (arguments_of "target_compile_features" t r));
                 "INTERFACE_INCLUDE_DIRECTORIES"; join (export_includes t r)]
                ++ match export_sources t r with [] => [] | l => ["INTERFACE_SOURCES"; join l] end))].
