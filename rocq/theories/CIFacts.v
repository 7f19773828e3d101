(** Proofs about the workflow. *)
From Coq Require Import Bool List Ascii String.
From Verif Require Import CMakeLang CMakeSource CMakeFiles CMakeRules CMakeSym CMakeSpec CMakeFacts CMakeRun CMakeUse CMakeLemmas
  CMakeExternal CILang CISpec.
From Verif Require CodegenSpec.
Import ListNotations.
Open Scope string_scope.
Open Scope list_scope.

(** The text was read completely. *)
Lemma ci_read : read_yaml CISource.ci_yml = Some ci.
Proof. vm_compute. reflexivity. Qed.
Lemma external_read : parse use_external_project = Some use_external.
Proof. vm_compute. reflexivity. Qed.

(** * test/cmake/ExternalProject *)

Definition run_external (r t : string) (h : host) (e : site) : option (trace * sflow) :=
  sexec h (find_file source_tree) (base_in "/use" external_targets (external_values r t) e) 100 TNil use_external.
Lemma external_told_at c r d t h e : outside e -> s_cmake e <> "" ->
  told_of (run_external (String c r) (String d t) h e) = Some (expected_external (String c r) (String d t) e).
Proof. intros H N. settle h e H; cbn in N; (destruct cm as [|x cm]; [contradiction|]); ev; reflexivity. Qed.
Lemma external_eq r t h e : run_external r t h e =
  sexec h (find_file source_tree) (base_in "/use" external_targets (external_values r t) e) 100 TNil use_external.
Proof. reflexivity. Qed.
Lemma external_told r t h e : r <> "" -> t <> "" -> outside e -> s_cmake e <> "" ->
  told_of (run_external r t h e) = Some (expected_external r t e).
Proof.
  intros Nr Nt O N. destruct r as [|c r]; [contradiction|]. destruct t as [|d t]; [contradiction|]. now apply external_told_at.
Qed.
Theorem external_runs r t h e st : r <> "" -> t <> "" -> outside e -> s_cmake e <> "" -> ready_in "/use" external_targets h e st ->
  (forall x s, In (x, s) (external_values r t) -> lookup st x = Some [s]) ->
  exists st' f, runs h (find_file source_tree) st use_external (Done st' f) /\ record st' = record st ++ expected_external r t e.
Proof.
  intros Nr Nt O N R V. pose proof (ready_fits_in _ _ _ h e st R V) as F.
  exact (told_run _ h _ _ st 100 _ _ (external_eq r t h e) F (external_told r t h e Nr Nt O N)).
Qed.
Lemma external_recorded r t h e l : r <> "" -> t <> "" -> outside e -> s_cmake e <> "" -> external r t h e l ->
  l = expected_external r t e.
Proof.
  intros Nr Nt O N (st & st' & f & R & V & H & E). destruct (external_runs r t h e st Nr Nt O N R V) as (st2 & f2 & H2 & E2).
  pose proof (runs_unique _ _ _ _ _ _ H H2) as D. injection D as <- <-. rewrite E in E2. now apply app_inv_head in E2.
Qed.

(** * Targets *)

Definition is_none {A} (o : option A) : bool := match o with Some _ => false | None => true end.
Definition other_sources : list string :=
  ["./test/cmake/find_package/"; "./test/cmake/FetchContent/"; "./test/cmake/ExternalProject/"; "./test/cmake/add_subdirectory/"].
(** A target is there after a configuration, as far as the settings tell. *)
Definition there (r : run) (c : CILang.configure) (t : string) : bool :=
  if String.eqb (c_source c) "." then
    forallb (fun x => is_none (set_by c x)) ["OPTION_INSTALL"; "OPTION_TEST"; "OPTION_EXAMPLES"; "OPTION_CODEGEN_TEST"] &&
    (mem t ["run-option-test"; "check-option-examples"; "run-option-codegen-test"] ||
     String.eqb t "clang-tidy" && String.eqb (given_text c "USE_CLANG_TIDY") "TRUE" &&
     String.eqb (field (r_env r) "CMAKE_GENERATOR") "Ninja")
  else
    mem (c_source c) other_sources && String.eqb t "run" &&
    (negb (mem (c_source c) ["./test/cmake/FetchContent/"; "./test/cmake/ExternalProject/"]) ||
     negb (String.eqb (given_text c "GIT_REPOSITORY") "") && negb (String.eqb (given_text c "GIT_TAG") "")).
Fixpoint walk (r : run) (pre l : list (list (string * string) * action)) : bool :=
  match l with
  | [] => true
  | (env, a) :: rest =>
      match a with
      | Build d _ t =>
          match configured_in d pre with
          | Some (_, c) => match t with Some t => there r c t | None => true end
          | None => false
          end
      | _ => true
      end && walk r (pre ++ [(env, a)]) rest
  end.
Lemma walk_at r l : forall pre, walk r pre l = true ->
  forall a env d cfg t b, l = a ++ (env, Build d cfg t) :: b ->
  exists env' c, configured_in d (pre ++ a) = Some (env', c) /\ forall t', t = Some t' -> there r c t' = true.
Proof.
  induction l as [|[env0 a0] rest IH]; intros pre W a env d cfg t b E.
  - destruct a; discriminate.
  - cbn [walk] in W. apply andb_prop in W. destruct W as [W1 W2]. destruct a as [|x a].
    + cbn [app] in E. injection E as -> -> ->. rewrite app_nil_r.
      destruct (configured_in d pre) as [[env' c]|]; [|discriminate]. exists env', c. split; [reflexivity|].
      intros t' ->. exact W1.
    + cbn [app] in E. injection E as <- E. destruct (IH _ W2 a env d cfg t b E) as (env' & c & H & K).
      exists env', c. split; [|exact K]. rewrite <- app_assoc in H. exact H.
Qed.
Lemma all_walk hit : match workflow_runs (github hit) ci with Some rs => forallb (fun r => walk r [] (r_actions r)) rs | None => false end = true.
Proof. destruct hit; vm_compute; reflexivity. Qed.

Lemma mem_In x l : mem x l = true -> In x l.
Proof. unfold mem. intros H. apply existsb_exists in H. destruct H as (y & I & E). apply String.eqb_eq in E. now subst. Qed.
Lemma is_none_eq {A} (o : option A) : is_none o = true -> o = None.
Proof. now destruct o. Qed.
Lemma made_names l : target_names l = map (fun p => fst (fst p)) (made l).
Proof. reflexivity. Qed.

Lemma there_top r env c h e rec t : arranged r env c h e -> equipped h -> c_source c = "." -> s_top e = true -> there r c t = true ->
  rec = expected h e -> In t (target_names rec).
Proof.
  intros A (P & (p & O & F) & (q & T) & D) S Top H ->. unfold there in H. rewrite S in H. cbn [String.eqb Ascii.eqb Bool.eqb] in H.
  apply andb_prop in H. destruct H as [H1 H2]. cbn [forallb] in H1. rewrite !andb_true_r in H1.
  apply andb_prop in H1. destruct H1 as [HI H1]. apply andb_prop in H1. destruct H1 as [HT H1]. apply andb_prop in H1.
  destruct H1 as [HE HC]. apply is_none_eq in HI, HT, HE, HC.
  assert (Py : found (h_python h) = true) by (destruct (h_python h); [reflexivity|contradiction]).
  assert (Us : usable (h_program h "llvm_objdump_path") "llvm_objdump_path" = true) by (unfold usable; now rewrite O, F).
  rewrite made_names, expected_made. unfold on. rewrite !(a_set _ _ _ _ _ A), HI, HT, HE, HC, Top, Py, Us. cbn [when andb].
  apply orb_prop in H2. destruct H2 as [H2|H2].
  - apply mem_In in H2. cbn [In] in H2. cbn [map fst]. rewrite !map_app. cbn [map fst].
    cbn [In]. repeat rewrite in_app_iff. cbn [In].
    destruct H2 as [<-|[<-|[<-|[]]]]; clear.
    + right. left. right. destruct (tidy_wanted h e); cbn; auto.
    + right. right. left. auto.
    + right. right. right. right. auto.
  - apply andb_prop in H2. destruct H2 as [H2 HG]. apply andb_prop in H2. destruct H2 as [HX HU].
    apply String.eqb_eq in HX, HG, HU. subst t.
    assert (W : tidy_wanted h e = true).
    { unfold tidy_wanted. rewrite D, Py, T. rewrite (a_generator _ _ _ _ _ A) by (rewrite HG; discriminate). rewrite HG.
      unfold on. rewrite (a_set _ _ _ _ _ A). unfold given_text in HU. destruct (set_by c "USE_CLANG_TIDY"); [|discriminate]. subst.
      reflexivity. }
    rewrite W. cbn [when app map fst In]. auto.
Qed.
Lemma run_last a t : In "run" (target_names (a ++ [user_run t])).
Proof. rewrite made_names, made_app, map_app, in_app_iff. right. left. reflexivity. Qed.
Lemma there_use r env c h e rec t : arranged r env c h e -> recorded_by c h e rec -> c_source c <> "." -> there r c t = true ->
  In t (target_names rec).
Proof.
  intros A R N H. unfold there in H. apply String.eqb_neq in N. rewrite N in H. apply andb_prop in H. destruct H as [H G].
  apply andb_prop in H. destruct H as [_ E]. apply String.eqb_eq in E. subst t.
  destruct R as [(S & _)|(O & R)]; [rewrite S in N; discriminate|].
  destruct R as [(S & h0 & e0 & share & I & R)|[(S & R)|[(S & R)|(S & _ & R)]]]; rewrite S in G; cbn in G.
  - apply (finds_expected h0 e0 share h e rec I O) in R. subst rec. unfold expected_package.
    rewrite made_names, !made_app, !map_app, !in_app_iff. right. right. right. right. left. reflexivity.
  - apply andb_prop in G. destruct G as [G1 G2]. apply negb_true_iff, String.eqb_neq in G1, G2.
    apply (fetches_expected _ _ h e rec G1 G2 O) in R. subst rec. unfold expected_fetched.
    rewrite made_names, !made_app, !map_app, !in_app_iff. right. right. right. left. reflexivity.
  - apply andb_prop in G. destruct G as [G1 G2]. apply negb_true_iff, String.eqb_neq in G1, G2.
    apply (external_recorded _ _ h e rec G1 G2 O (a_cmake _ _ _ _ _ A)) in R. subst rec. right. left. reflexivity.
  - apply (adds_expected h e rec O) in R. subst rec. unfold expected_subdirectory.
    rewrite made_names, !made_app, !map_app, !in_app_iff. right. right. left. reflexivity.
Qed.
Theorem builds_have_targets hit rs r pre env d cfg t post :
  workflow_runs (github hit) ci = Some rs -> In r rs -> r_actions r = pre ++ (env, Build d cfg t) :: post ->
  exists env' c, configured_in d pre = Some (env', c) /\
    forall t', t = Some t' -> forall h e rec, arranged r env' c h e -> equipped h -> recorded_by c h e rec -> In t' (target_names rec).
Proof.
  intros W I E. pose proof (all_walk hit) as H. rewrite W in H. rewrite forallb_forall in H. specialize (H r I).
  destruct (walk_at r _ [] H pre env d cfg t post E) as (env' & c & C & K). exists env', c. split; [exact C|].
  intros t' ->. specialize (K t' eq_refl). intros h e rec A Q R.
  destruct (String.eqb (c_source c) ".") eqn:S.
  - apply String.eqb_eq in S. destruct R as [(_ & T & R)|(_ & R)].
    + apply configures_expected in R. exact (there_top r env' c h e rec t' A Q S T K R).
    + exfalso. destruct R as [(X & _)|[(X & _)|[(X & _)|(X & _)]]]; rewrite S in X; discriminate.
  - apply String.eqb_neq in S. exact (there_use r env' c h e rec t' A R S K).
Qed.

(** * The compilers of the codegen test *)

Definition seen (i f : string) (libcpp old : bool) : CodegenSpec.compiler :=
  if same i "MSVC" then CodegenSpec.MSVC
  else if matches "Clang" i then
    if same f "MSVC" then CodegenSpec.ClangCl
    else if libcpp then CodegenSpec.ClangLibcpp
    else if old then CodegenSpec.ClangOldLibstdcpp else CodegenSpec.ClangLibstdcpp
  else if matches "GNU" i then if old then CodegenSpec.GccOldLibstdcpp else CodegenSpec.Gcc
  else if same i "IntelLLVM" then CodegenSpec.Icx
  else CodegenSpec.Unknown.
Lemma compiler_seen h e : compiler_of h e = seen (s_id e) (s_frontend e) (h_symbol h "_LIBCPP_VERSION") (on e "OLD_LIBSTDCPP" false).
Proof. reflexivity. Qed.
Definition same_compiler (a b : CodegenSpec.compiler) : bool :=
  match a, b with
  | CodegenSpec.MSVC, CodegenSpec.MSVC | CodegenSpec.ClangCl, CodegenSpec.ClangCl | CodegenSpec.ClangLibcpp, CodegenSpec.ClangLibcpp
  | CodegenSpec.ClangOldLibstdcpp, CodegenSpec.ClangOldLibstdcpp | CodegenSpec.ClangLibstdcpp, CodegenSpec.ClangLibstdcpp
  | CodegenSpec.GccOldLibstdcpp, CodegenSpec.GccOldLibstdcpp | CodegenSpec.Gcc, CodegenSpec.Gcc | CodegenSpec.Icx, CodegenSpec.Icx
  | CodegenSpec.Unknown, CodegenSpec.Unknown => true
  | _, _ => false
  end.
Lemma same_compiler_eq a b : same_compiler a b = true -> a = b.
Proof. now destruct a, b. Qed.
Definition listed_rightly (r : run) (env : list (string * string)) (c : CILang.configure) : bool :=
  match compiler (env ++ r_env r) c with
  | Some (i, f) =>
      same_compiler (seen i f (mem "--stdlib=libc++" (command_words Bash (field (env ++ r_env r) "CXXFLAGS")))
                       (match set_by c "OLD_LIBSTDCPP" with Some s => negb (is_false s) | None => false end))
        (listed (r_job r) (entry_name r))
  | None => false
  end.
(** A check of every build of a target together with its configuration. *)
Fixpoint each (t0 : string) (ok : string -> list (string * string) -> CILang.configure -> bool)
    (pre l : list (list (string * string) * action)) : bool :=
  match l with
  | [] => true
  | (env, a) :: rest =>
      match a with
      | Build d _ (Some t) =>
          if String.eqb t t0 then match configured_in d pre with Some (env', c) => ok d env' c | None => false end else true
      | _ => true
      end && each t0 ok (pre ++ [(env, a)]) rest
  end.
Lemma each_at t0 ok l : forall pre, each t0 ok pre l = true ->
  forall a env d cfg b, l = a ++ (env, Build d cfg (Some t0)) :: b ->
  exists env' c, configured_in d (pre ++ a) = Some (env', c) /\ ok d env' c = true.
Proof.
  induction l as [|[env0 a0] rest IH]; intros pre W a env d cfg b E.
  - destruct a; discriminate.
  - cbn [each] in W. apply andb_prop in W. destruct W as [W1 W2]. destruct a as [|x a].
    + cbn [app] in E. injection E as -> -> ->. rewrite app_nil_r. rewrite String.eqb_refl in W1.
      destruct (configured_in d pre) as [[env' c]|]; [|discriminate]. exists env', c. split; [reflexivity|]. exact W1.
    + cbn [app] in E. injection E as <- E. destruct (IH _ W2 a env d cfg b E) as (env' & c & H & K).
      exists env', c. split; [|exact K]. rewrite <- app_assoc in H. exact H.
Qed.
Definition all_each (t0 : string) (ok : run -> string -> list (string * string) -> CILang.configure -> bool) (o : option (list run)) : bool :=
  match o with Some rs => forallb (fun r => each t0 (ok r) [] (r_actions r)) rs | None => false end.
Lemma each_build t0 ok o rs r pre env d cfg post : all_each t0 ok o = true ->
  o = Some rs -> In r rs -> r_actions r = pre ++ (env, Build d cfg (Some t0)) :: post ->
  exists env' c, configured_in d pre = Some (env', c) /\ ok r d env' c = true.
Proof.
  intros H -> I E. unfold all_each in H. rewrite forallb_forall in H. specialize (H r I).
  exact (each_at t0 (ok r) _ [] H pre env d cfg post E).
Qed.
Lemma all_listed hit : all_each "run-option-codegen-test" (fun r _ => listed_rightly r) (workflow_runs (github hit) ci) = true.
Proof. destruct hit; vm_compute; reflexivity. Qed.
Theorem codegen_compilers hit rs r pre env d cfg post :
  workflow_runs (github hit) ci = Some rs -> In r rs ->
  r_actions r = pre ++ (env, Build d cfg (Some "run-option-codegen-test")) :: post ->
  exists env' c, configured_in d pre = Some (env', c) /\
    forall h e, arranged r env' c h e -> compiler_of h e = listed (r_job r) (entry_name r).
Proof.
  intros W I E. destruct (each_build _ _ _ rs r pre env d cfg post (all_listed hit) W I E) as (env' & c & C & K).
  exists env', c. split; [exact C|]. intros h e A. unfold listed_rightly in K.
  destruct (compiler (env' ++ r_env r) c) as [[i f]|] eqn:X; [|discriminate].
  destruct (a_compiler _ _ _ _ _ A i f X) as [Ei Ef]. apply same_compiler_eq in K. rewrite <- K, compiler_seen, Ei, Ef, (a_libcpp _ _ _ _ _ A).
  unfold on. now rewrite (a_set _ _ _ _ _ A).
Qed.

(** * The flags of the test *)

Lemma unlike_options t r : forallb (unlike t) r = true -> directory_options t r = [].
Proof.
  induction r as [|[n k x a o l|c' l] r IH]; cbn; auto. intros H. apply andb_prop in H as [H1 H2].
  apply negb_true_iff in H1. rewrite H1. now apply IH.
Qed.
Lemma options_app t a b : directory_options t (a ++ b) = directory_options t a ++ directory_options t b.
Proof. apply flat_map_app. Qed.
Lemma options_when t b l : directory_options t (when b l) = when b (directory_options t l).
Proof. now destruct b. Qed.
Lemma test_flags h e : on e "OPTION_INSTALL" false = false -> on e "OPTION_TEST" (s_top e) = true ->
  directory_options "option-test" (expected h e) = [(s_opts e ++ extra_flags e, s_links e ++ extra_flags e)].
Proof.
  intros I T. unfold expected. rewrite I, T. cbv zeta.
  set (o := s_opts e ++ extra_flags e). set (l := s_links e ++ extra_flags e). cbn [when].
  rewrite !options_app, !options_when.
  assert (L : directory_options "option-test" (library_events e) = []).
  { apply unlike_options. unfold library_events. unlike_auto. }
  assert (X : directory_options "option-test" (examples_events h o l) = []).
  { apply unlike_options. unfold examples_events. unlike_auto. }
  assert (B : directory_options "option-test" (benchmark_events h e o l) = []).
  { apply unlike_options. unfold benchmark_events. unlike_auto. }
  assert (C : directory_options "option-test" (codegen_events h e l) = []).
  { apply unlike_options. unfold codegen_events. unlike_auto. }
  rewrite L, X, B, C, !when_nil. unfold test_events. rewrite options_app.
  match goal with |- context [directory_options "option-test" ?r] =>
    match r with _ ++ _ => assert (U : directory_options "option-test" r = []) end end.
  { apply unlike_options. unfold tidy_events. unlike_auto. }
  rewrite U. reflexivity.
Qed.
Definition flags_of (c : CILang.configure) : list string :=
  match set_by c "OPTION_EXTRA_FLAGS" with Some s => separate [s] | None => [] end.
Definition flagged (r : run) (d : string) (_ : list (string * string)) (c : CILang.configure) : bool :=
  String.eqb (c_source c) "." && is_none (set_by c "OPTION_INSTALL") && is_none (set_by c "OPTION_TEST") &&
  Bool.eqb (sanitizes "address" (flags_of c)) (with_address (r_job r) (entry_name r) d) &&
  Bool.eqb (sanitizes "undefined" (flags_of c)) (with_undefined (r_job r) (entry_name r) d).
Lemma all_flagged hit : all_each "run-option-test" flagged (workflow_runs (github hit) ci) = true.
Proof. destruct hit; vm_compute; reflexivity. Qed.
Theorem test_sanitized hit rs r pre env d cfg post :
  workflow_runs (github hit) ci = Some rs -> In r rs ->
  r_actions r = pre ++ (env, Build d cfg (Some "run-option-test")) :: post ->
  exists env' c, configured_in d pre = Some (env', c) /\
    forall h e rec, arranged r env' c h e -> recorded_by c h e rec ->
    exists flags, directory_options "option-test" rec = [(flags, flags)] /\
      sanitizes "address" flags = with_address (r_job r) (entry_name r) d /\
      sanitizes "undefined" flags = with_undefined (r_job r) (entry_name r) d.
Proof.
  intros W I E. destruct (each_build _ _ _ rs r pre env d cfg post (all_flagged hit) W I E) as (env' & c & C & K).
  exists env', c. split; [exact C|]. intros h e rec A R. unfold flagged in K.
  repeat (apply andb_prop in K; destruct K as [K ?K']).
  apply String.eqb_eq in K. apply is_none_eq in K'1, K'2. apply Bool.eqb_prop in K', K'0.
  destruct R as [(_ & T & R)|(_ & [(X & _)|[(X & _)|[(X & _)|(X & _)]]])]; try (rewrite K in X; discriminate).
  apply configures_expected in R. subst rec. exists (flags_of c). rewrite test_flags.
  - rewrite (a_opts _ _ _ _ _ A), (a_links _ _ _ _ _ A). unfold extra_flags. rewrite (a_set _ _ _ _ _ A).
    split; [reflexivity|]. now split.
  - unfold on. now rewrite (a_set _ _ _ _ _ A), K'2.
  - unfold on. now rewrite (a_set _ _ _ _ _ A), K'1, T.
Qed.

(** * Both widths *)

Fixpoint looked (r : run) (bits32 : bool) (cfg : string) (pre l : list (list (string * string) * action)) : bool :=
  match l with
  | [] => false
  | (env, a) :: rest =>
      match a with
      | Build d cfg' (Some t) =>
          String.eqb t "run-option-test" && String.eqb cfg' cfg &&
          match configured_in d pre with Some (env', c) => Bool.eqb (narrow r env' c) bits32 | None => false end
      | _ => false
      end || looked r bits32 cfg (pre ++ [(env, a)]) rest
  end.
Lemma looked_at r b cfg l : forall pre, looked r b cfg pre l = true ->
  exists a env d post env' c, l = a ++ (env, Build d cfg (Some "run-option-test")) :: post /\
    configured_in d (pre ++ a) = Some (env', c) /\ narrow r env' c = b.
Proof.
  induction l as [|[env0 a0] rest IH]; intros pre H; [discriminate|].
  cbn [looked] in H. apply orb_prop in H. destruct H as [H|H].
  - destruct a0 as [| d cfg' [t|]| |]; try discriminate. apply andb_prop in H. destruct H as [H H3].
    apply andb_prop in H. destruct H as [H1 H2]. apply String.eqb_eq in H1, H2. subst.
    destruct (configured_in d pre) as [[env' c]|] eqn:C; [|discriminate]. apply Bool.eqb_prop in H3.
    exists [], env0, d, rest, env', c. rewrite app_nil_r. auto.
  - destruct (IH _ H) as (a & env & d & post & env' & c & -> & C & N).
    exists ((env0, a0) :: a), env, d, post, env', c. split; [reflexivity|]. rewrite <- app_assoc in C. now split.
Qed.
Lemma looked_tested r b cfg : looked r b cfg [] (r_actions r) = true -> tested r b cfg.
Proof. intros H. destruct (looked_at r b cfg _ [] H) as (a & env & d & post & env' & c & E & C & N). exists a, env, d, post, env', c. auto. Qed.
Definition all_of (f : run -> bool) (o : option (list run)) : bool := match o with Some rs => forallb f rs | None => false end.
Lemma all_of_at f o rs r : all_of f o = true -> o = Some rs -> In r rs -> f r = true.
Proof. intros H -> I. cbn in H. rewrite forallb_forall in H. now apply H. Qed.
Definition widths (r : run) : bool :=
  forallb (fun cfg =>
    (negb (mem (r_job r) testing_jobs) || looked r false cfg [] (r_actions r)) &&
    (negb (mem (r_job r) narrow_jobs) || looked r true cfg [] (r_actions r))) ["Debug"; "Release"].
Lemma all_widths hit : all_of widths (workflow_runs (github hit) ci) = true.
Proof. destruct hit; vm_compute; reflexivity. Qed.
Lemma In_mem x l : In x l -> mem x l = true.
Proof. intros H. unfold mem. apply existsb_exists. exists x. now rewrite String.eqb_refl. Qed.
Theorem both_widths hit rs r cfg : workflow_runs (github hit) ci = Some rs -> In r rs -> In cfg ["Debug"; "Release"] ->
  (In (r_job r) testing_jobs -> tested r false cfg) /\ (In (r_job r) narrow_jobs -> tested r true cfg).
Proof.
  intros W I C. pose proof (all_of_at _ _ rs r (all_widths hit) W I) as H. unfold widths in H. rewrite forallb_forall in H.
  specialize (H cfg C). apply andb_prop in H. destruct H as [H1 H2].
  split; intros J; apply In_mem in J; rewrite J in *; cbn [negb orb] in *; now apply looked_tested.
Qed.

(** * Every compiler *)

Definition some_of (f : run -> bool) (o : option (list run)) : bool := match o with Some rs => existsb f rs | None => false end.
Lemma some_of_at f o rs : some_of f o = true -> o = Some rs -> exists r, In r rs /\ f r = true.
Proof. intros H ->. cbn in H. now apply existsb_exists in H. Qed.
Definition about (k : CodegenSpec.compiler) (r : run) : bool :=
  mem "run-option-codegen-test" (named_targets r) && same_compiler (listed (r_job r) (entry_name r)) k.
Lemma some_about hit k : k <> CodegenSpec.Unknown -> some_of (about k) (workflow_runs (github hit) ci) = true.
Proof. intros N. destruct hit, k; try (vm_compute; reflexivity); contradiction. Qed.
Lemma listed_known job name : listed job name <> CodegenSpec.Unknown.
Proof.
  unfold listed. intros H. repeat match type of H with context [if ?b then _ else _] => destruct b; try discriminate end.
Qed.
Theorem compilers_covered hit rs : workflow_runs (github hit) ci = Some rs ->
  forall k, k <> CodegenSpec.Unknown <->
    exists r, In r rs /\ In "run-option-codegen-test" (named_targets r) /\ listed (r_job r) (entry_name r) = k.
Proof.
  intros W k. split.
  - intros N. destruct (some_of_at _ _ rs (some_about hit k N) W) as (r & I & H). unfold about in H.
    apply andb_prop in H. destruct H as [H1 H2]. apply mem_In in H1. apply same_compiler_eq in H2. exists r. split; [exact I|]. split; [exact H1|exact H2].
  - intros (r & _ & _ & <-). apply listed_known.
Qed.

(** * The order of builds *)

Lemma waits_app a b t : waits_for (a ++ b) t = waits_for a t ++ waits_for b t.
Proof. apply flat_map_app. Qed.
Lemma nodes_app a b : nodes (a ++ b) = nodes a ++ nodes b.
Proof. apply flat_map_app. Qed.
Lemma first_waits r t u l : In t (nodes r) -> allowed_order r l -> In u (waits_for r t) -> In u (nodes r) ->
  exists a b, l = a ++ t :: b /\ In u a.
Proof.
  intros T (_ & N & O) U M. apply N in T. destruct (in_split _ _ T) as (a & b & ->). exists a, b. split; [reflexivity|].
  now apply (O a t b).
Qed.
Lemma external_first r t e : allowed_order (expected_external r t e) ["option-ExternalProject-target"; "run"; "option"].
Proof.
  split; [|split].
  - repeat constructor; cbn; intuition discriminate.
  - intros x. cbn. intuition.
  - intros a x b E u U M. assert (W : waits_for (expected_external r t e) x =
      if String.eqb "run" x then ["option-ExternalProject-target"] else []).
    { unfold waits_for, expected_external, user_target, user_run. cbn [flat_map app].
      destruct (String.eqb "run" x); reflexivity. }
    rewrite W in U. destruct (String.eqb "run" x) eqn:X; [|contradiction]. apply String.eqb_eq in X. subst x.
    destruct U as [<-|[]]. destruct a as [|a0 [|a1 a]]; cbn in E; try discriminate.
    + injection E as <- _. now left.
    + injection E as <- _ E. now left.
Qed.
Lemma made_nodes n k x a o l r : In (Made n k x a o l) r -> In n (nodes r).
Proof. intros H. apply in_flat_map. eexists. split; [exact H|]. now left. Qed.
Lemma linked_waits t l u r : In (link t l) r -> In u l -> keyword u = false -> In u (waits_for r t).
Proof.
  intros H I K. apply in_flat_map. eexists. split; [exact H|]. cbn. rewrite String.eqb_refl. apply filter_In. split; [exact I|]. apply negb_true_iff. exact K.
Qed.
Lemma option_made h e : In (Made "option" InterfaceLibrary (s_excl e) ["include/opt/option.hpp"; "include/opt/option_fwd.hpp"]
  (s_opts e) (s_links e)) (expected h e).
Proof. left. reflexivity. Qed.
Lemma linked_first r u l : In (user_target u) r -> In (link u ["option"]) r -> In "option" (nodes r) -> allowed_order r l ->
  exists a b, l = a ++ u :: b /\ In "option" a.
Proof.
  intros T L N O. apply (first_waits r u "option" l); auto.
  - exact (made_nodes _ _ _ _ _ _ _ T).
  - apply (linked_waits u ["option"]); [exact L|now left|reflexivity].
Qed.
Lemma added_first h e l : allowed_order (expected_subdirectory h e) l ->
  exists a b, l = a ++ "option-add_subdirectory-target" :: b /\ In "option" a.
Proof.
  apply linked_first; unfold expected_subdirectory; rewrite ?nodes_app, !in_app_iff.
  - left. now left.
  - right. right. now left.
  - right. left. exact (made_nodes _ _ _ _ _ _ _ (option_made h e)).
Qed.
Lemma fetched_first a b h e l : allowed_order (expected_fetched a b h e) l ->
  exists x y, l = x ++ "option-FetchContent-target" :: y /\ In "option" x.
Proof.
  apply linked_first; unfold expected_fetched; rewrite ?nodes_app, !in_app_iff.
  - right. right. now left.
  - right. right. right. now left.
  - right. left. exact (made_nodes _ _ _ _ _ _ _ (option_made h e)).
Qed.
Theorem external_unordered r t h e rec : r <> "" -> t <> "" -> outside e -> s_cmake e <> "" -> external r t h e rec ->
  exists a b, allowed_order rec (a ++ "option-ExternalProject-target" :: b) /\ ~ In "option" a.
Proof.
  intros Nr Nt O N H. rewrite (external_recorded r t h e rec Nr Nt O N H).
  exists [], ["run"; "option"]. split; [apply external_first|]. intros [].
Qed.
Theorem users_ordered h e rec l : outside e -> allowed_order rec l ->
  (adds h e rec -> exists a b, l = a ++ "option-add_subdirectory-target" :: b /\ In "option" a) /\
  (forall r t, r <> "" -> t <> "" -> fetches r t h e rec ->
     exists a b, l = a ++ "option-FetchContent-target" :: b /\ In "option" a).
Proof.
  intros O A. split.
  - intros H. rewrite (adds_expected h e rec O H) in A. exact (added_first h e l A).
  - intros r t Nr Nt H. rewrite (fetches_expected r t h e rec Nr Nt O H) in A. exact (fetched_first r t h e l A).
Qed.

(** * There are such machines and settings *)

Lemma external_ready a b h e : proper external_targets h e ->
  ready_in "/use" external_targets h e (at_start_in "/use" (external_values a b) e).
Proof. start_tac e. Qed.
Lemma external_at a b h e : a <> "" -> b <> "" -> proper external_targets h e -> outside e -> s_cmake e <> "" ->
  external a b h e (expected_external a b e).
Proof.
  intros Na Nb P O N. pose proof (external_ready a b h e P) as R.
  assert (V : forall x s, In (x, s) (external_values a b) -> lookup (at_start_in "/use" (external_values a b) e) x = Some [s]).
  { intros x s H. cbn [external_values In] in H. destruct O as (T & _).
    repeat (destruct H as [E|H]; [injection E as <- <-; unfold at_start_in; rewrite T; reflexivity|]). contradiction. }
  destruct (external_runs a b h e _ Na Nb O N R V) as (st' & f & H & E).
  exists (at_start_in "/use" (external_values a b) e), st', f.
  split; [exact R|]. split; [exact V|]. split; [exact H|]. rewrite E. reflexivity.
Qed.
Definition machine_for (libcpp : bool) : host :=
  mkhost (Some "usr/bin/python3") (fun x => Some ("usr/bin/" ++ x)%string) (fun _ => None) (fun _ => libcpp) true (fun _ => "")
    (fun p => if String.eqb p "boost_pfr" then ["boost_pfr"; "Boost::pfr"]
              else if String.eqb p "libassert" then ["libassert-lib"; "cpptrace-lib"; "libassert::assert"]
              else if String.eqb p "doctest" then ["doctest::doctest"] else [])
    (fun _ => None) "lib".
Definition site_for (top : bool) (r : run) (env : list (string * string)) (c : CILang.configure) : site :=
  let '(i, f) := match compiler (env ++ r_env r) c with Some p => p | None => ("GNU", "GNU") end in
  mksite top i f "13.2.0" "Linux" (field (r_env r) "CMAKE_GENERATOR") "/usr/bin/cmake" (set_by c) false [] [].
Lemma machine_proper libcpp ts top r env c :
  forallb (fun x => is_none (set_by c x)) (unset ++ arguments) = true ->
  Forall (fun t => mem t ["boost_pfr"; "Boost::pfr"; "libassert-lib"; "cpptrace-lib"; "libassert::assert"; "doctest::doctest"] = false)
    (ts ++ own_targets) ->
  proper ts (machine_for libcpp) (site_for top r env c).
Proof.
  intros U T. rewrite forallb_forall in U. rewrite Forall_forall in T.
  assert (E : exists i f, site_for top r env c =
    mksite top i f "13.2.0" "Linux" (field (r_env r) "CMAKE_GENERATOR") "/usr/bin/cmake" (set_by c) false [] []).
  { unfold site_for. destruct (match compiler (env ++ r_env r) c with Some p => p | None => ("GNU", "GNU") end) as [i f].
    now exists i, f. }
  destruct E as (i & f & ->). constructor; try reflexivity.
  - intros x H. apply is_none_eq. exact (U x H).
  - intros t p H K. specialize (T t H). assert (M : mem t ["boost_pfr"; "Boost::pfr"; "libassert-lib"; "cpptrace-lib"; "libassert::assert"; "doctest::doctest"] = true).
    { apply In_mem. cbn [machine_for h_provides] in K. destruct (String.eqb p "boost_pfr"); [cbn in *; tauto|].
      destruct (String.eqb p "libassert"); [cbn in *; tauto|]. destruct (String.eqb p "doctest"); cbn in *; tauto. }
    rewrite M in T. discriminate.
  - intros p t H. cbn [downloads In] in H.
    repeat (destruct H as [E|H]; [injection E as <- <-; cbn; tauto|]). contradiction.
Qed.
Definition usable_configuration (p : list (string * string) * CILang.configure) : bool :=
  let c := snd p in
  forallb (fun x => is_none (set_by c x)) (unset ++ arguments) &&
  mem (c_source c) ("." :: other_sources) &&
  (negb (mem (c_source c) ["./test/cmake/FetchContent/"; "./test/cmake/ExternalProject/"]) ||
   negb (String.eqb (given_text c "GIT_REPOSITORY") "") && negb (String.eqb (given_text c "GIT_TAG") "")) &&
  (negb (String.eqb (c_source c) "./test/cmake/add_subdirectory/") || negb (String.eqb (given_text c "ROOT") "")).
Lemma all_usable hit : all_of (fun r => forallb usable_configuration (configurations r)) (workflow_runs (github hit) ci) = true.
Proof. destruct hit; vm_compute; reflexivity. Qed.
Lemma machine_arranged top r env c :
  arranged r env c (machine_for (mem "--stdlib=libc++" (command_words Bash (field (env ++ r_env r) "CXXFLAGS")))) (site_for top r env c).
Proof.
  unfold site_for. destruct (compiler (env ++ r_env r) c) as [[i f]|] eqn:X; constructor; try reflexivity; try discriminate.
  - intros i' f' E. rewrite E in X. injection X as -> ->. split; reflexivity.
  - intros i' f' E. rewrite E in X. discriminate.
Qed.
Lemma machine_equipped b : equipped (machine_for b).
Proof. split; [discriminate|]. split; [now exists "usr/bin/llvm_objdump_path"|]. split; [now exists "usr/bin/clang_tidy_binary"|reflexivity]. Qed.
Lemma site_outside r env c : outside (site_for false r env c).
Proof.
  unfold site_for. destruct (match compiler (env ++ r_env r) c with Some p => p | None => ("GNU", "GNU") end). repeat split.
Qed.
Lemma site_top top r env c : s_top (site_for top r env c) = top /\ s_cmake (site_for top r env c) = "/usr/bin/cmake".
Proof.
  unfold site_for. destruct (match compiler (env ++ r_env r) c with Some p => p | None => ("GNU", "GNU") end). now split.
Qed.
(** A machine on which the library was installed. *)
Definition install_call : CILang.configure := mkconfigure "build" "." "" "" [("OPTION_INSTALL", "TRUE")].
Theorem configurations_possible hit rs r env c : workflow_runs (github hit) ci = Some rs -> In r rs -> In (env, c) (configurations r) ->
  exists h e rec, arranged r env c h e /\ equipped h /\ recorded_by c h e rec.
Proof.
  intros W I C. pose proof (all_of_at _ _ rs r (all_usable hit) W I) as H. clear W. cbn beta in H. rewrite forallb_forall in H.
  specialize (H _ C). unfold usable_configuration in H. cbn [snd] in H.
  apply andb_prop in H. destruct H as [H HR]. apply andb_prop in H. destruct H as [H HG]. apply andb_prop in H. destruct H as [U S].
  apply mem_In in S. set (b := mem "--stdlib=libc++" (command_words Bash (field (env ++ r_env r) "CXXFLAGS"))).
  cbn [In other_sources] in S. destruct S as [S|[S|[S|[S|[S|[]]]]]]; symmetry in S; rewrite S in HG, HR.
  - exists (machine_for b), (site_for true r env c). eexists. split; [apply machine_arranged|]. split; [apply machine_equipped|].
    left. split; [exact S|]. split; [apply site_top|]. apply configures_at. apply machine_proper; [exact U|]. repeat constructor.
  - exists (machine_for b), (site_for false r env c). eexists. split; [apply machine_arranged|]. split; [apply machine_equipped|].
    right. split; [apply site_outside|]. left. split; [exact S|].
    exists (machine_for b), (site_for true r env install_call), "/prefix/share".
    assert (J : on (site_for true r env install_call) "OPTION_INSTALL" false = true).
    { unfold site_for. destruct (match compiler (env ++ r_env r) install_call with Some p => p | None => ("GNU", "GNU") end). reflexivity. }
    split; [exact J|]. apply finds_at; [|exact J| |apply site_outside]; (apply machine_proper; [first [exact U|reflexivity]|repeat constructor]).
  - cbn in HG. apply andb_prop in HG. destruct HG as [G1 G2]. apply negb_true_iff, String.eqb_neq in G1, G2.
    exists (machine_for b), (site_for false r env c). eexists. split; [apply machine_arranged|]. split; [apply machine_equipped|].
    right. split; [apply site_outside|]. right. left. split; [exact S|].
    apply fetches_at; [exact G1|exact G2| |apply site_outside]. apply machine_proper; [exact U|repeat constructor].
  - cbn in HG. apply andb_prop in HG. destruct HG as [G1 G2]. apply negb_true_iff, String.eqb_neq in G1, G2.
    exists (machine_for b), (site_for false r env c). eexists. split; [apply machine_arranged|]. split; [apply machine_equipped|].
    right. split; [apply site_outside|]. right. right. left. split; [exact S|].
    apply external_at; [exact G1|exact G2| |apply site_outside|].
    + apply machine_proper; [exact U|repeat constructor].
    + rewrite (proj2 (site_top false r env c)). discriminate.
  - cbn in HR. apply negb_true_iff, String.eqb_neq in HR.
    exists (machine_for b), (site_for false r env c). eexists. split; [apply machine_arranged|]. split; [apply machine_equipped|].
    right. split; [apply site_outside|]. right. right. right. split; [exact S|]. split; [exact HR|].
    apply adds_at; [|apply site_outside]. apply machine_proper; [exact U|repeat constructor].
Qed.
Lemma some_mapped {A B} (f : A -> B) o y : option_map f o = Some y -> exists x, o = Some x /\ f x = y.
Proof. destruct o as [x|]; [|discriminate]. cbn. intros E. injection E as E. now exists x. Qed.

(** * Installation *)

Definition good_install (r : run) (pre : list (list (string * string) * action)) (d : string) (sudo : bool) : bool :=
  Bool.eqb sudo (negb (String.prefix "windows" (r_system r))) &&
  match configured_in d pre with
  | Some (_, c) => String.eqb (c_source c) "." && match set_by c "OPTION_INSTALL" with Some v => String.eqb v "TRUE" | None => false end
  | None => false
  end.
Fixpoint has_install (r : run) (pre l : list (list (string * string) * action)) : bool :=
  match l with
  | [] => false
  | (env, a) :: rest =>
      match a with Install d s => good_install r pre d s | _ => false end || has_install r (pre ++ [(env, a)]) rest
  end.
Lemma has_install_at r l : forall pre, has_install r pre l = true -> installed r (pre ++ l).
Proof.
  induction l as [|[env a] rest IH]; intros pre H; cbn [has_install] in H; [discriminate|].
  apply orb_prop in H. destruct H as [H|H].
  - destruct a as [c|d cf t|d s|w]; try discriminate. unfold good_install in H. apply andb_prop in H. destruct H as [H1 H2].
    apply Bool.eqb_prop in H1. subst s. destruct (configured_in d pre) as [[env' c]|] eqn:C; [|discriminate].
    apply andb_prop in H2. destruct H2 as [H2 H3]. apply String.eqb_eq in H2.
    destruct (set_by c "OPTION_INSTALL") as [v|] eqn:V; [|discriminate]. apply String.eqb_eq in H3. subst v.
    exists pre, env, d, rest, env', c. auto.
  - apply IH in H. rewrite <- app_assoc in H. exact H.
Qed.
Fixpoint finds_after (r : run) (pre l : list (list (string * string) * action)) : bool :=
  match l with
  | [] => true
  | (env, a) :: rest =>
      match a with
      | Configure c => if String.eqb (c_source c) "./test/cmake/find_package/" then has_install r [] pre else true
      | _ => true
      end && finds_after r (pre ++ [(env, a)]) rest
  end.
Lemma finds_after_at r l : forall pre, finds_after r pre l = true -> forall a env c b, l = a ++ (env, Configure c) :: b ->
  c_source c = "./test/cmake/find_package/" -> installed r (pre ++ a).
Proof.
  induction l as [|[env0 a0] rest IH]; intros pre H a env c b E S; [destruct a; discriminate|].
  cbn [finds_after] in H. apply andb_prop in H. destruct H as [H1 H2]. destruct a as [|x a].
  - cbn [app] in E. injection E as -> -> ->. rewrite S in H1. rewrite app_nil_r. exact (has_install_at r pre [] H1).
  - cbn [app] in E. injection E as <- E. pose proof (IH _ H2 a env c b E S) as K. rewrite <- app_assoc in K. exact K.
Qed.
Lemma all_find hit : all_of (fun r => finds_after r [] (r_actions r)) (workflow_runs (github hit) ci) = true.
Proof. destruct hit; vm_compute; reflexivity. Qed.
Theorem found_installed hit rs r pre env c post : workflow_runs (github hit) ci = Some rs -> In r rs ->
  r_actions r = pre ++ (env, Configure c) :: post -> c_source c = "./test/cmake/find_package/" -> installed r pre.
Proof.
  intros W I E S. exact (finds_after_at r _ [] (all_of_at _ _ _ _ (all_find hit) W I) pre env c post E S).
Qed.
