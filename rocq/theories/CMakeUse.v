(** Runs of the projects in test/cmake that use the library. *)
From Coq Require Import Bool List Ascii String.
From Verif Require Import CMakeLang CMakeSource CMakeFiles CMakeRules CMakeSym CMakeSpec CMakeFacts CMakeRun.
Import ListNotations.
Open Scope string_scope.
Open Scope list_scope.

(** The text was read completely. *)
Lemma use_files_read :
  parse use_add_subdirectory = Some use_subdirectory /\ parse use_fetch_content = Some use_fetched /\
  parse use_find_package = Some use_package /\ parse (configured option_config_cmake_in) = Some package_config.
Proof. vm_compute. repeat split. Qed.

Ltac settle h e H :=
  destruct e as [top id fe ver sys gen cm set ex op li];
  destruct h as [py prog lib sym down env prov al ldir];
  destruct H as (T & X & O & L); cbn in T, X, O, L; subst; destruct down.

(** * add_subdirectory *)

Definition run_subdirectory (h : host) (e : site) : option (trace * sflow) :=
  sexec h (find_file source_tree) (base_in "/use" subdirectory_targets subdirectory_values e) 100 TNil use_subdirectory.
Lemma subdirectory_root h e : outside e ->
  told_of (run_subdirectory h e) =
  match told_then (run_root h e) [link "option-add_subdirectory-target" ["option"]; user_run "option-add_subdirectory-target"] with
  | Some l => Some (user_target "option-add_subdirectory-target" :: l)
  | None => None
  end.
Proof. intros H. settle h e H; ev; reflexivity. Qed.

Lemma told_run x h files k st n l r : x = sexec h files k n TNil l -> fits h k st -> told_of x = Some r ->
  exists st' fl, runs h files st l (Done st' fl) /\ record st' = record st ++ r.
Proof. intros -> F E. apply told_of_some in E as (d & f & E & T). eapply sym_record; eassumption. Qed.
Lemma subdirectory_eq h e : run_subdirectory h e =
  sexec h (find_file source_tree) (base_in "/use" subdirectory_targets subdirectory_values e) 100 TNil use_subdirectory.
Proof. reflexivity. Qed.
Lemma subdirectory_told h e : outside e -> told_of (run_subdirectory h e) = Some (expected_subdirectory h e).
Proof. intros O. rewrite (subdirectory_root h e O), root_then. reflexivity. Qed.

Theorem subdirectory_run h e st : outside e -> ready_in "/use" subdirectory_targets h e st ->
  (forall x s, In (x, s) subdirectory_values -> lookup st x = Some [s]) ->
  exists st' f, runs h (find_file source_tree) st use_subdirectory (Done st' f) /\
    record st' = record st ++ expected_subdirectory h e.
Proof.
  intros O R V. pose proof (ready_fits_in _ _ _ h e st R V) as F.
  exact (told_run _ h _ _ st 100 _ _ (subdirectory_eq h e) F (subdirectory_told h e O)).
Qed.

(** * FetchContent *)

Definition run_fetched (r t : string) (h : host) (e : site) : option (trace * sflow) :=
  sexec h (find_file source_tree) (base_in "/use" fetched_targets (fetched_values r t) e) 100 TNil (map populate use_fetched).
Lemma fetched_root c r d t h e : outside e ->
  told_of (run_fetched (String c r) (String d t) h e) =
  match told_then (run_root h e)
    [user_target "option-FetchContent-target"; link "option-FetchContent-target" ["option"]; user_run "option-FetchContent-target"] with
  | Some l => Some (Said "FetchContent_Declare" ["option"; "GIT_REPOSITORY"; String c r; "GIT_TAG"; String d t] :: l)
  | None => None
  end.
Proof. intros H. settle h e H; ev; reflexivity. Qed.
Lemma fetched_eq r t h e : run_fetched r t h e =
  sexec h (find_file source_tree) (base_in "/use" fetched_targets (fetched_values r t) e) 100 TNil (map populate use_fetched).
Proof. reflexivity. Qed.
Lemma fetched_told r t h e : r <> "" -> t <> "" -> outside e ->
  told_of (run_fetched r t h e) = Some (expected_fetched r t h e).
Proof.
  intros Nr Nt O. destruct r as [|c r]; [contradiction|]. destruct t as [|d t]; [contradiction|].
  rewrite (fetched_root c r d t h e O), root_then. reflexivity.
Qed.

Theorem fetched_run r t h e st : r <> "" -> t <> "" -> outside e -> ready_in "/use" fetched_targets h e st ->
  (forall x s, In (x, s) (fetched_values r t) -> lookup st x = Some [s]) ->
  exists st' f, runs h (find_file source_tree) st (map populate use_fetched) (Done st' f) /\
    record st' = record st ++ expected_fetched r t h e.
Proof.
  intros Nr Nt O R V. pose proof (ready_fits_in _ _ _ h e st R V) as F.
  exact (told_run _ h _ _ st 100 _ _ (fetched_eq r t h e) F (fetched_told r t h e Nr Nt O)).
Qed.

(** * find_package *)

(** The exported target. *)
Definition option_targets (inc : string) : list stmt :=
  [Do "add_library" (words_of ["option"; "INTERFACE"]);
   Do "set_target_properties"
     (words_of ["option"; "PROPERTIES"; "INTERFACE_COMPILE_FEATURES"; "cxx_std_17"; "INTERFACE_INCLUDE_DIRECTORIES";
                ("/prefix/include;/prefix/" ++ inc)%string])].
Lemma exported_option h e : on e "OPTION_INSTALL" false = true ->
  exported "option" (expected h e) = option_targets (given_or e "CMAKE_INSTALL_INCLUDEDIR" "include").
Proof.
  intros I. unfold expected, library_events. rewrite I. unfold install_events.
  set (inc := given_or e "CMAKE_INSTALL_INCLUDEDIR" "include"). clearbody inc.
  set (lib := given_or e _ _). clearbody lib. set (share := given_or e _ _). clearbody share.
  destruct (on e "OPTION_USE_NATVIS" true), (on e "OPTION_USE_NATSTEPFILTER" false), (s_top e); reflexivity.
Qed.
Definition run_package (inc share : string) (h : host) (e : site) : option (trace * sflow) :=
  sexec h (find_file [("/package/option-config.cmake", package_config); ("/package/option-targets.cmake", option_targets inc)])
    (base_in "/use" package_targets (package_values share) e) 100 TNil use_package.
Lemma package_root inc share h e : outside e -> told_of (run_package inc share h e) = Some (expected_package inc share e).
Proof.
  intros H. destruct e as [top id fe ver sys gen cm set ex op li].
  destruct H as (T & X & O & L); cbn in T, X, O, L; subst. unfold expected_package, on. cbn [s_set].
  ev.
  destruct (set "OPTION_USE_NATVIS") as [v|]; [destruct (is_false v) eqn:Ev|];
    (destruct (set "OPTION_USE_NATSTEPFILTER") as [w|]; [destruct (is_false w) eqn:Ew|]);
    reflexivity.
Qed.
Lemma package_eq inc share h e : run_package inc share h e =
  sexec h (find_file [("/package/option-config.cmake", package_config); ("/package/option-targets.cmake", option_targets inc)])
    (base_in "/use" package_targets (package_values share) e) 100 TNil use_package.
Proof. reflexivity. Qed.

(** The package was installed by a run on a host h0 with the site e0; it is used on h with e. *)
Theorem package_run h0 e0 share h e st : on e0 "OPTION_INSTALL" false = true -> outside e ->
  ready_in "/use" package_targets h e st -> lookup st "CMAKE_INSTALL_FULL_DATAROOTDIR" = Some [share] ->
  exists st' f, runs h (find_file (package_tree (expected h0 e0))) st use_package (Done st' f) /\
    record st' = record st ++ expected_package (given_or e0 "CMAKE_INSTALL_INCLUDEDIR" "include") share e.
Proof.
  intros I O R V. unfold package_tree. rewrite (exported_option h0 e0 I).
  assert (V' : forall x s, In (x, s) (package_values share) -> lookup st x = Some [s])
    by (intros x s [E|[]]; injection E as <- <-; exact V).
  pose proof (ready_fits_in _ _ _ h e st R V') as F.
  exact (told_run _ h _ _ st 100 _ _ (package_eq _ share h e) F (package_root _ share h e O)).
Qed.
