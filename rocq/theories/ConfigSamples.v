(** Translation units used as examples for the configuration of the header. *)

From Coq Require Import ZArith String List Bool.
Import ListNotations.
From Verif Require Import Preproc ConfigSpec.
Open Scope Z_scope.
Open Scope string_scope.
Open Scope list_scope.

Definition of_list (l : list (string * body)) : macros :=
  fun n => match find (fun p => String.eqb (fst p) n) l with Some p => Some (snd p) | None => None end.

(** The standard headers, and [l]. *)
Definition world_of (l : list (string * list (string * body))) : world :=
  {| files := fun f => match find (fun p => String.eqb (fst p) f) l with
                       | Some p => Some (snd p)
                       | None => if existsb (String.eqb f) standard_headers then Some [] else None
                       end;
     answers := fun _ a =>
       if existsb (String.eqb a) ["pure"; "__builtin_addressof"; "clang::lifetimebound"] then 1 else 0 |}.

(** GCC 12 with libstdc++, C++17, exceptions on, a debug build. *)
Definition gcc12 : list (string * body) :=
  [("__GNUC__", Num 12); ("__GNUG__", Num 12); ("__GLIBCXX__", Num 20230528);
   ("__has_attribute", Operator); ("__has_cpp_attribute", Operator); ("__has_builtin", Operator);
   ("__cplusplus", Num 201703); ("__cpp_exceptions", Num 199711)].

(** Clang with libc++, C++20, without exceptions. *)
Definition clang17 : list (string * body) :=
  [("__clang__", Num 1); ("__GNUC__", Num 4); ("_LIBCPP_VERSION", Num 17000);
   ("__has_attribute", Operator); ("__has_cpp_attribute", Operator); ("__has_builtin", Operator);
   ("__has_feature", Operator); ("__cplusplus", Num 202002)].

(** A compiler that the header does not know. *)
Definition nobody : list (string * body) := [("__cplusplus", Num 201703); ("__cpp_exceptions", Num 199711)].

Definition boost_hpp := ("boost/pfr.hpp", [("BOOST_PFR_ENABLED", Num 1)]).
Definition pfr_hpp := ("pfr.hpp", [("PFR_ENABLED", Num 1)]).
Definition mine_hpp := ("third/pfr.hpp", [("BOOST_PFR_ENABLED", Num 1)]).
Definition assert_hpp := ("libassert/assert.hpp", [("LIBASSERT_LOWERCASE", Num 1)]).

(** Deciding the conditions of [setting]. *)
Definition ours_b (n : string) : bool := String.prefix "OPTION_" n.
Definition known_b (l : list string) (n : string) : bool := existsb (String.eqb n) l.

Definition good_macros (m : list (string * body)) : bool :=
  forallb (fun p => negb (ours_b (fst p)) || known_b documented (fst p)) m &&
  negb (known_b (map fst m) "BOOST_PFR_ENABLED") && negb (known_b (map fst m) "PFR_ENABLED").

Definition good_files (l : list (string * list (string * body))) : bool :=
  forallb (fun p => forallb (fun q => negb (ours_b (fst q)) && negb (known_b platform (fst q)) &&
                                      match snd q with Num _ => true | _ => false end) (snd p)) l.

Lemma known_in l n : known_b l n = true -> In n l.
Proof.
  unfold known_b. rewrite existsb_exists. intros (x & I & E). apply String.eqb_eq in E. congruence.
Qed.

Lemma in_known l n : In n l -> known_b l n = true.
Proof. intro I. apply existsb_exists. exists n. split; [exact I|apply String.eqb_refl]. Qed.

Lemma of_list_in m n b : of_list m n = Some b -> In (n, b) m.
Proof.
  unfold of_list. destruct (find _ m) as [[x y]|] eqn:E; [|discriminate].
  apply find_some in E as [I E]. cbn in E. apply String.eqb_eq in E. intros [= <-]. congruence.
Qed.

Lemma world_in l f x n b : files (world_of l) f = Some x -> In (n, b) x ->
  exists g, In (g, x) l.
Proof.
  cbn [world_of files]. destruct (find _ l) as [[g y]|] eqn:E.
  - apply find_some in E as [I _]. intros [= <-] _. exists g. exact I.
  - destruct (existsb (String.eqb f) standard_headers); [|discriminate]. intros [= <-] [].
Qed.

Lemma final_numeric l n before :
  Forall (fun q => match snd q with Num _ => true | _ => false end = true) l ->
  numeric before -> numeric (final l n before).
Proof.
  revert before. induction l as [|[m b] l IH]; intros before F N; [exact N|].
  inversion F as [|x y H T]; subst. cbn [final]. apply IH; [exact T|].
  destruct (String.eqb m n); [|exact N]. cbn in H. destruct b; try discriminate. exact I.
Qed.

Lemma sample_setting l m :
  good_macros m = true -> good_files l = true -> ordinary (of_list m) ->
  setting (world_of l) (of_list m).
Proof.
  intros M F O. unfold good_macros in M.
  apply andb_true_iff in M as [M M3]. apply andb_true_iff in M as [M1 M2].
  rewrite forallb_forall in M1. unfold good_files in F. rewrite forallb_forall in F.
  assert (N : forall n, known_b (map fst m) n = false -> of_list m n = None).
  { intros n K. destruct (of_list m n) eqn:E; [|reflexivity]. apply of_list_in in E.
    rewrite in_known in K; [discriminate|]. apply in_map_iff. exists (n, b). auto. }
  assert (FF : forall f x, files (world_of l) f = Some x ->
            Forall (fun q => negb (ours_b (fst q)) && negb (known_b platform (fst q)) &&
                             match snd q with Num _ => true | _ => false end = true) x).
  { intros f x E. apply Forall_forall. intros [n b] I.
    destruct (world_in l f x n b E I) as (g & Ig). specialize (F _ Ig). cbn in F.
    rewrite forallb_forall in F. apply (F _ I). }
  repeat split; try apply O.
  - intros n U D. destruct (of_list m n) eqn:E; [|contradiction]. apply of_list_in in E.
    specialize (M1 _ E). cbn in M1. unfold ours_b in M1. rewrite U in M1. cbn in M1.
    apply known_in. exact M1.
  - intro U. pose proof (FF _ _ H) as G. rewrite Forall_forall in G. specialize (G _ H0). cbn in G.
    apply andb_true_iff in G as [G _]. apply andb_true_iff in G as [G _].
    unfold ours_b in G. rewrite U in G. discriminate.
  - intro U. pose proof (FF _ _ H) as G. rewrite Forall_forall in G. specialize (G _ H0). cbn -[platform] in G.
    apply andb_true_iff in G as [G _]. apply andb_true_iff in G as [_ G].
    rewrite in_known in G; [discriminate|exact U].
  - intros f I. cbn [world_of files]. destruct (find _ l); [discriminate|].
    change (existsb (String.eqb f) standard_headers) with (known_b standard_headers f).
    rewrite in_known; [discriminate|exact I].
  - unfold after. destruct (files (world_of l) f) as [x|] eqn:E.
    + apply final_numeric.
      * eapply Forall_impl; [|apply (FF _ _ E)]. intros q Q. cbn in Q.
        apply andb_true_iff in Q as [_ Q]. exact Q.
      * rewrite N; [exact I|]. apply negb_true_iff. exact M2.
    + rewrite N; [exact I|]. apply negb_true_iff. exact M2.
  - unfold after. destruct (files (world_of l) f) as [x|] eqn:E.
    + apply final_numeric.
      * eapply Forall_impl; [|apply (FF _ _ E)]. intros q Q. cbn in Q.
        apply andb_true_iff in Q as [_ Q]. exact Q.
      * rewrite N; [exact I|]. apply negb_true_iff. exact M3.
    + rewrite N; [exact I|]. apply negb_true_iff. exact M3.
Qed.
