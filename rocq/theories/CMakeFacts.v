(** What a configuration run of the repository's CMake files puts on record. *)
From Coq Require Import Bool List Ascii String.
From Verif Require Import CMakeLang CMakeSource CMakeFiles CMakeRules CMakeSym CMakeSpec.
Import ListNotations.
Open Scope string_scope.
Open Scope list_scope.

(** The text was read completely. *)
Lemma files_read :
  parse root_txt = Some root_cmake /\ parse test_txt = Some test_cmake /\ parse codegen_txt = Some codegen_cmake /\
  parse examples_txt = Some examples_cmake /\ parse benchmark_txt = Some benchmark_cmake /\
  parse clang_tidy_cmake = Some clang_tidy /\ parse compiler_warnings_cmake = Some compiler_warnings /\
  parse sanitizers_cmake = Some sanitizers.
Proof. vm_compute. repeat split. Qed.

(** * The run *)

Definition setting (e : site) (x : string) : string * option value := (x, option_map (fun s => [s]) (s_set e x)).
Definition site_base (e : site) : base :=
  mkbase (map (fun p => (fst p, Some [snd p])) (machine e) ++ map (setting e) settings ++ map (fun x => (x, None)) unset)
    searched arguments own_targets downloads "/src" (s_excl e) (s_opts e) (s_links e).

Definition run_root (h : host) (e : site) := sexec h (find_file source_tree) (site_base e) 100 TNil root_cmake.

(** The events of a trace from the front. *)
Definition cat (a b : list event) : list event := a ++ b.
Fixpoint told_onto (t : trace) (acc : list event) : list event :=
  match t with
  | TNil => acc
  | TOp (OSay e) t => told_onto t (e :: acc)
  | TOp _ t => told_onto t acc
  | TWhen b l t => told_onto t (cat (if b then told_onto l [] else []) acc)
  end.
Lemma told_onto_eq t : forall acc, told_onto t acc = told t ++ acc.
Proof.
  induction t as [|o t IH|b l IHl t IH]; intros acc; cbn; [reflexivity| |].
  - destruct o; rewrite IH; cbn; rewrite <- ?app_assoc, ?app_nil_r; reflexivity.
  - rewrite IH. unfold cat. destruct b; rewrite ?IHl, <- !app_assoc; now rewrite ?app_nil_r.
Qed.
Definition told_of (x : option (trace * sflow)) : option (list event) :=
  match x with Some (d, _) => Some (told_onto d []) | None => None end.

Ltac ev := lazy -[is_false matches same version_less separate h_python h_program h_library h_symbol h_download h_env h_provides
  h_alias h_libdir cat].
Ltac closed := repeat match goal with |- context [is_false (String ?a ?b)] =>
  let x := constr:(is_false (String a b)) in let y := eval vm_compute in x in
  match y with true => change x with true | false => change x with false end end.

Lemma seg (b c : bool) x y L R : b = c -> (c = true -> x = y) -> L = R ->
  cat (if b then x else []) L = (if c then y else []) ++ R.
Proof. intros -> H ->. unfold cat. destruct c; [now rewrite H|reflexivity]. Qed.
Lemma seg_last (b c : bool) x y L : b = c -> (c = true -> x = y) -> L = [] ->
  cat (if b then x else []) L = (if c then y else []).
Proof. intros -> H ->. unfold cat. rewrite app_nil_r. destruct c; [now rewrite H|reflexivity]. Qed.
Lemma silent (b : bool) X L R : X = [] -> L = R -> cat (if b then X else []) L = R.
Proof. intros -> ->. now destruct b. Qed.
Lemma drop (b : bool) L R : L = R -> cat (if b then [] else []) L = R.
Proof. intros ->. now destruct b. Qed.
Lemma cat_none L R : L = R -> cat [] L = R.
Proof. intros ->. reflexivity. Qed.
Lemma cat_some x l L R : x :: cat l L = R -> cat (x :: l) L = R.
Proof. intros <-. reflexivity. Qed.
Lemma cat_cat A B C R : cat A (cat B C) = R -> cat (cat A B) C = R.
Proof. intros <-. unfold cat. now rewrite app_assoc. Qed.
Lemma cons_eq {A} (x y : A) l m : x = y -> l = m -> x :: l = y :: m.
Proof. intros -> ->. reflexivity. Qed.
Lemma two_ways {A} (b : bool) (l m : list A) : (if b then l else m) = (if b then l else []) ++ (if negb b then m else []).
Proof. destruct b; cbn; now rewrite ?app_nil_r. Qed.

Lemma two_ways' {A} (b : bool) (l m : list A) : (if b then l else m) = (if negb b then m else []) ++ (if b then l else []).
Proof. destruct b; cbn; now rewrite ?app_nil_r. Qed.

Lemma separate_filter v : filter nonempty (separate v) = separate v.
Proof.
  unfold separate. induction v as [|s v IH]; [reflexivity|]. cbn. rewrite filter_app, IH. f_equal.
  generalize (split_at " " s). intros l. induction l as [|x l IHl]; [reflexivity|].
  cbn. destruct (nonempty x) eqn:E; cbn; [rewrite E, IHl; reflexivity|exact IHl].
Qed.
Lemma flags_eq o s : o ++ (filter nonempty (separate [s]) ++ []) = o ++ separate [s].
Proof. now rewrite separate_filter, app_nil_r. Qed.

Ltac inner t :=
  match t with
  | context [match ?y with _ => _ end] => inner y
  | _ => t
  end.
Ltac split1 := match goal with |- context [match ?x with _ => _ end] => let y := inner x in destruct y eqn:?; ev end.
Ltac same_bool := try reflexivity; unfold usable; ev; try reflexivity; repeat (split1; closed; try reflexivity; try discriminate; try congruence).
Ltac event_eq :=
  repeat match goal with
         | |- context [match ?f ?x with Some _ => _ | None => _ end] => destruct (f x) eqn:?
         | |- context [if ?b then true else false] => replace (if b then true else false) with b by (destruct b; reflexivity)
         end;
  lazymatch goal with
  | |- Made _ _ _ _ _ _ = Made _ _ _ _ _ _ => f_equal; first [reflexivity|exact (flags_eq _ _)|symmetry; apply app_nil_r]
  | |- _ => reflexivity
  end.
Ltac quiet :=
  lazymatch goal with
  | |- [] = [] => reflexivity
  | |- cat [] _ = _ => apply cat_none; quiet
  | |- cat (if _ then [] else []) _ = _ => apply drop; quiet
  | |- cat (cat _ _) _ = _ => apply cat_cat; quiet
  | |- cat (if _ then (_ :: _) else []) _ = _ => fail
  | |- cat (if _ then _ else []) _ = _ => apply silent; [quiet|quiet]
  end.
Ltac walk :=
  lazymatch goal with
  | |- cat [] _ = _ => apply cat_none; walk
  | |- cat (if _ then [] else []) _ = _ => apply drop; walk
  | |- cat (_ :: _) _ = _ => apply cat_some; walk
  | |- cat (cat _ _) _ = _ => apply cat_cat; walk
  | |- _ :: _ = _ :: _ => apply cons_eq; [lazymatch goal with |- ?x = ?x => reflexivity | |- _ => idtac end|walk]
  | |- cat (if _ then _ else []) _ = [] => apply silent; [quiet|walk]
  | |- cat (if _ then (cat _ _) else []) _ = _ =>
      first [apply silent; [solve [quiet]|walk]
            |lazymatch goal with
             | |- _ = (if _ then _ else []) ++ _ => apply seg; [ |intros ?; walk|walk]
             | |- _ = (if _ then _ else []) => apply seg_last; [|intros ?; walk|walk]
             end]
  | |- cat (if _ then _ else []) _ = (if _ then _ else []) ++ _ => apply seg; [ |intros ?; walk|walk]
  | |- cat (if _ then _ else []) _ = (if _ then _ else []) => apply seg_last; [|intros ?; walk|walk]
  | |- _ => try reflexivity
  end.

Ltac warnings_eq := unfold common_warnings, gcc_exceptions, clang_exceptions, clang_cl_exceptions;
  repeat match goal with |- context [if ?b then _ else _] =>
           lazymatch b with matches _ _ => destruct b | same _ _ => destruct b | version_less _ _ => destruct b end end; reflexivity.
Ltac refute := match goal with H : _ = true |- _ => vm_compute in H; discriminate H end.
Ltac tidy_eq := 
  match goal with H : negb (same (match ?h ?x with Some _ => _ | None => _ end) _) = true |- _ =>
    unfold tidy_args, path; cbn [h_python h_program]; destruct (h x) eqn:?; [|refute] end; event_eq.
Ltac codegen_eq :=
  match goal with H : usable (?h ?x) _ = true |- _ =>
    destruct (h x) eqn:?; [clear H|refute] end;
  f_equal; [unfold codegen_conditions, when, on, is_msvc, is_clang, is_gnu, is_cl_driver; cbn [s_id s_frontend s_set h_symbol];
    do 8 (match goal with
          | |- context [same ?x ?y] => destruct (same x y)
          | |- context [matches ?x ?y] => destruct (matches x y)
          | |- context [?s "_LIBCPP_VERSION"] => destruct (s "_LIBCPP_VERSION")
          | |- context [?s "OLD_LIBSTDCPP"] => destruct (s "OLD_LIBSTDCPP")
          | |- context [is_false ?x] => is_var x; destruct (is_false x)
          | |- _ => idtac
          end; ev); closed; reflexivity | destruct (_ "OPTION_EXTRA_FLAGS"); first [exact (flags_eq _ _)|symmetry; apply app_nil_r] ].

Ltac evaluate t := eval lazy -[is_false matches same version_less separate cat] in t.
Ltac closed_in t :=
  lazymatch t with
  | context [is_false (String ?a ?b)] =>
      let y := eval vm_compute in (is_false (String a b)) in
      let t' := eval pattern (is_false (String a b)) in t in
      lazymatch t' with ?f _ => let t'' := eval cbv beta in (f y) in closed_in t'' end
  | _ => t
  end.
Ltac flat := match goal with |- _ = expected ?h ?e => eassert (E : expected h e = _) end;
  [unfold expected; rewrite (two_ways (on _ "OPTION_INSTALL" _));
   unfold test_events, warnings; rewrite (two_ways' (is_msvc _));
   unfold library_events, benchmark_events, examples_events, codegen_events, install_events, tidy_events, fetch,
    gnu_like_warnings, given_or, generate, generated, timed, path, when, on, examples, is_msvc, is_clang, is_gnu,
    is_clang_or_gnu, is_cl_driver, extra_flags, found;
   cbn [s_top s_id s_frontend s_version s_system s_generator s_cmake s_set s_excl s_opts s_links
     h_python h_program h_symbol h_download h_libdir app flat_map negb map fst snd];
   rewrite <- !app_assoc; cbn [app]; reflexivity|].
Lemma told_expected h e : exists l, told_of (run_root h e) = Some l /\ l = expected h e.
Proof.
  destruct e as [top id fe ver sys gen cm set ex op li].
  destruct h as [py prog lib sym down env prov al ldir].
  destruct down, top.
  all: (match goal with |- context [told_of ?x] => let y := evaluate (told_of x) in let y := closed_in y in let y := evaluate y in
       lazymatch y with Some ?l => exists l; split; [vm_cast_no_check (@eq_refl _ (Some l))|] end end).
  all: flat.
  all: rewrite E; clear E.
  all: walk.
  all: lazymatch goal with |- @eq bool _ _ => same_bool | _ => try event_eq end.
  all: lazymatch goal with
       | |- Made "clang-tidy" _ _ _ _ _ = _ => tidy_eq
       | |- Made _ _ _ _ _ _ = _ => codegen_eq
       | |- _ => warnings_eq
       end.
Qed.
