(** Rules for runs of the CMake interpreter: a run that ends does so with any larger amount of fuel, and a
    run of a list of commands is a sequence of runs of its commands. *)
From Coq Require Import Bool List Ascii String Lia.
From Verif Require Import CMakeLang.
Import ListNotations.
Open Scope string_scope.
Open Scope list_scope.

Section Rules.
Variable h : host.
Variable files : string -> option (list stmt).
Notation exec := (exec h files).
Notation loop := (loop h files).
Notation step := (step h files).
Notation step_do := (step_do h files).

Definition le_ex (e e' : state -> list stmt -> result) : Prop :=
  forall st l, e st l <> NoFuel -> e' st l = e st l.

Lemma le_then e e' r rest : le_ex e e' -> then_ e r rest <> NoFuel -> then_ e' r rest = then_ e r rest.
Proof. intros L. destruct r as [st []| | |]; cbn; auto. Qed.
Lemma le_then2 e e' st l rest : le_ex e e' ->
  then_ e (e st l) rest <> NoFuel -> then_ e' (e' st l) rest = then_ e (e st l) rest.
Proof.
  intros L H. rewrite (L st l). now apply le_then.
  intros E. rewrite E in H. now cbn in H.
Qed.
Lemma le_after e e' st l rest : le_ex e e' ->
  after_file e (e st l) rest <> NoFuel -> after_file e' (e' st l) rest = after_file e (e st l) rest.
Proof.
  intros L H. rewrite (L st l). destruct (e st l); cbn in *; auto.
  intros E. rewrite E in H. now cbn in H.
Qed.
Lemma le_scope e e' st l st0 rest : le_ex e e' ->
  match e st l with Done st' _ => e (leave st0 st') rest | r => r end <> NoFuel ->
  match e' st l with Done st' _ => e' (leave st0 st') rest | r => r end
  = match e st l with Done st' _ => e (leave st0 st') rest | r => r end.
Proof.
  intros L H. rewrite (L st l). destruct (e st l); auto.
  intros E. rewrite E in H. now cbn in H.
Qed.

Lemma le_step_do e e' st name args rest : le_ex e e' ->
  step_do e st name args rest <> NoFuel -> step_do e' st name args rest = step_do e st name args rest.
Proof.
  intros L. unfold CMakeLang.step_do.
  destruct (String.eqb name "return"); auto.
  destruct (String.eqb name "include").
  { destruct args as [|p [|]]; auto. destruct (files p) as [b|]; [|now apply le_then].
    destruct (guard b && guarded st p); [apply L|apply le_after; auto]. }
  destruct (String.eqb name "add_subdirectory").
  { destruct args as [|p r]; auto. cbv zeta. destruct (files _) as [b|]; auto. now apply le_scope. }
  destruct (String.eqb name "find_package" && package args).
  { destruct args as [|p r]; auto. destruct (files _) as [b|]; auto. apply le_after; auto. }
  destruct (mem name built_in); [now apply le_then|].
  destruct (funcs st name) as [f|]; auto. destruct (f_macro f); [now apply le_then2|now apply le_scope].
Qed.

Lemma more_fuel : forall n,
  le_ex (exec n) (exec (S n)) /\
  (forall st x vs b, loop n st x vs b <> NoFuel -> loop (S n) st x vs b = loop n st x vs b).
Proof.
  induction n as [|n [IHe IHl]].
  - split; [intros st l H|intros st x vs b H]; cbn in H; congruence.
  - split.
    + intros st l. change (exec (S (S n)) st l) with (step (exec (S n)) (loop (S n)) st l).
      change (exec (S n) st l) with (step (exec n) (loop n) st l).
      revert IHe IHl. generalize (exec n), (exec (S n)), (loop n), (loop (S n)). intros e e' lp lp' L LL Hnf.
      destruct l as [|[name args|bs el|args b|mc x ps b] rest]; cbn [CMakeLang.step] in *; auto.
      * now apply le_step_do.
      * destruct bs as [|[c b] bs]; [now apply le_then2|].
        destruct (condition h (lookup st) c) as [[|]|]; auto. now apply le_then2.
      * destruct (plain_words args) as [|x [|i [|li [|y [|]]]]]; auto.
        destruct (String.eqb i "IN" && String.eqb li "LISTS"); auto.
        rewrite (LL st x (get (lookup st) y) b); [now apply le_then|].
        intros E. rewrite E in Hnf. now cbn in Hnf.
    + intros st x vs b H.
      change (loop (S (S n)) st x vs b) with
        (match vs with [] => Done st Next | v :: vs =>
           match exec (S n) (act (OVar x (Some [v])) st) b with Done st Next => loop (S n) st x vs b | r => r end end).
      change (loop (S n) st x vs b) with
        (match vs with [] => Done st Next | v :: vs =>
           match exec n (act (OVar x (Some [v])) st) b with Done st Next => loop n st x vs b | r => r end end) in *.
      destruct vs as [|v vs]; auto.
      rewrite (IHe (act (OVar x (Some [v])) st) b).
      * destruct (exec n (act (OVar x (Some [v])) st) b) as [st' []| | |]; auto.
      * intros E. rewrite E in H. now cbn in H.
Qed.

Lemma fuel_le n m st l : n <= m -> exec n st l <> NoFuel -> exec m st l = exec n st l.
Proof.
  induction 1 as [|m Hle IHle]; auto. intros H. rewrite <- (IHle H). apply (more_fuel m). rewrite (IHle H). exact H.
Qed.

(** A run that ends. *)
Definition runs (st : state) (l : list stmt) (r : result) : Prop :=
  r <> NoFuel /\ exists n, forall m, n <= m -> exec m st l = r.

Lemma runs_intro n st l r : exec n st l = r -> r <> NoFuel -> runs st l r.
Proof. intros E H. split; auto. exists n. intros m Hm. rewrite (fuel_le n m); congruence. Qed.

Lemma runs_unique st l r r' : runs st l r -> runs st l r' -> r = r'.
Proof.
  intros [_ [n E]] [_ [m E']]. rewrite <- (E (max n m)) by lia. apply E'. lia.
Qed.

Lemma runs_nil st : runs st [] (Done st Next).
Proof. apply (runs_intro 1); [reflexivity|discriminate]. Qed.

Ltac fuel H := destruct H as [? [? ?]].

(** Commands of CMake. *)
Definition simple (name : string) : bool :=
  negb (mem name ["return"; "include"; "add_subdirectory"]) && mem name built_in.

Lemma runs_simple st name args rest st' r :
  simple name = true -> String.eqb name "find_package" && package (expand_all h (lookup st) args) = false ->
  run_command h st name (expand_all h (lookup st) args) = Done st' Next ->
  runs st' rest r -> runs st (Do name args :: rest) r.
Proof.
  intros Hs Hp Hc [Hr [n E]]. apply (runs_intro (S n)); auto.
  change (step_do (exec n) st name (expand_all h (lookup st) args) rest = r). unfold CMakeLang.step_do.
  unfold simple, mem in Hs. cbn [existsb] in Hs. apply andb_prop in Hs as [Hs Hb].
  destruct (String.eqb name "return"); [discriminate|].
  destruct (String.eqb name "include"); [discriminate|].
  destruct (String.eqb name "add_subdirectory"); [discriminate|].
  unfold mem. rewrite Hp, Hb. unfold then_. rewrite Hc. apply E. lia.
Qed.
Lemma runs_simple_fatal st name args rest w :
  simple name = true -> String.eqb name "find_package" && package (expand_all h (lookup st) args) = false ->
  run_command h st name (expand_all h (lookup st) args) = Fatal w -> runs st (Do name args :: rest) (Fatal w).
Proof.
  intros Hs Hp Hc. apply (runs_intro 1); [|discriminate].
  change (step_do (exec 0) st name (expand_all h (lookup st) args) rest = Fatal w). unfold CMakeLang.step_do.
  unfold simple, mem in Hs. cbn [existsb] in Hs. apply andb_prop in Hs as [Hs Hb].
  destruct (String.eqb name "return"); [discriminate|].
  destruct (String.eqb name "include"); [discriminate|].
  destruct (String.eqb name "add_subdirectory"); [discriminate|].
  unfold mem. rewrite Hp, Hb. unfold then_. now rewrite Hc.
Qed.
Lemma runs_return st args rest : runs st (Do "return" args :: rest) (Done st Returned).
Proof. apply (runs_intro 1); [reflexivity|discriminate]. Qed.

Lemma runs_define st m x ps b rest r :
  runs (act (OFunction x (mkfun m ps b)) st) rest r -> runs st (Define m x ps b :: rest) r.
Proof. intros [Hr [n E]]. apply (runs_intro (S n)); auto. apply E. lia. Qed.

(** Sequences. *)
Lemma runs_if_true st c b bs e rest st' r :
  condition h (lookup st) c = Some true -> runs st b (Done st' Next) -> runs st' rest r ->
  runs st (If ((c, b) :: bs) e :: rest) r.
Proof.
  intros Hc [_ [n E]] [Hr [m E']]. apply (runs_intro (S (max n m))); auto.
  change (step (exec (max n m)) (loop (max n m)) st (If ((c, b) :: bs) e :: rest) = r).
  cbn [CMakeLang.step]. rewrite Hc, E by lia. cbn [then_]. apply E'. lia.
Qed.
Lemma runs_if_leave st c b bs e rest r :
  condition h (lookup st) c = Some true -> runs st b r -> (forall st', r <> Done st' Next) ->
  runs st (If ((c, b) :: bs) e :: rest) r.
Proof.
  intros Hc [Hr [n E]] Hn. apply (runs_intro (S n)); auto.
  change (step (exec n) (loop n) st (If ((c, b) :: bs) e :: rest) = r).
  cbn [CMakeLang.step]. rewrite Hc, E by lia. destruct r as [st' []| | |]; cbn; auto. now destruct (Hn st').
Qed.
Lemma runs_if_false st c b bs e rest r :
  condition h (lookup st) c = Some false -> runs st (If bs e :: rest) r -> runs st (If ((c, b) :: bs) e :: rest) r.
Proof.
  intros Hc [Hr [n E]]. apply (runs_intro (S n)); auto.
  change (step (exec n) (loop n) st (If ((c, b) :: bs) e :: rest) = r).
  cbn [CMakeLang.step]. rewrite Hc. apply E. lia.
Qed.
Lemma runs_else st e rest st' r :
  runs st e (Done st' Next) -> runs st' rest r -> runs st (If [] e :: rest) r.
Proof.
  intros [_ [n E]] [Hr [m E']]. apply (runs_intro (S (max n m))); auto.
  change (step (exec (max n m)) (loop (max n m)) st (If [] e :: rest) = r).
  cbn [CMakeLang.step]. rewrite E by lia. cbn [then_]. apply E'. lia.
Qed.
Lemma runs_else_leave st e rest r :
  runs st e r -> (forall st', r <> Done st' Next) -> runs st (If [] e :: rest) r.
Proof.
  intros [Hr [n E]] Hn. apply (runs_intro (S n)); auto.
  change (step (exec n) (loop n) st (If [] e :: rest) = r).
  cbn [CMakeLang.step]. rewrite E by lia. destruct r as [st' []| | |]; cbn; auto. now destruct (Hn st').
Qed.
Lemma runs_no_else st rest r : runs st rest r -> runs st (If [] [] :: rest) r.
Proof. intros H. eapply runs_else; [apply runs_nil|exact H]. Qed.

(** Files, directories, functions. *)
Lemma runs_module st args p rest st' r :
  expand_all h (lookup st) args = [p] -> files p = None -> run_module h st p = Done st' Next -> runs st' rest r ->
  runs st (Do "include" args :: rest) r.
Proof.
  intros Ha Hf Hm [Hr [n E]]. apply (runs_intro (S n)); auto.
  change (step_do (exec n) st "include" (expand_all h (lookup st) args) rest = r).
  rewrite Ha. unfold CMakeLang.step_do. cbn [String.eqb Ascii.eqb Bool.eqb]. rewrite Hf, Hm. cbn [then_]. apply E. lia.
Qed.
Lemma runs_include st args p b rest st' f r :
  expand_all h (lookup st) args = [p] -> files p = Some b -> guard b = true -> guarded st p = false ->
  runs (act (OGuard p) st) b (Done st' f) -> runs st' rest r ->
  runs st (Do "include" args :: rest) r.
Proof.
  intros Ha Hf Hg Hgd [_ [n E]] [Hr [m E']]. apply (runs_intro (S (max n m))); auto.
  change (step_do (exec (max n m)) st "include" (expand_all h (lookup st) args) rest = r).
  rewrite Ha. unfold CMakeLang.step_do. cbn [String.eqb Ascii.eqb Bool.eqb]. rewrite Hf, Hg, Hgd. cbn [andb].
  rewrite E by lia. cbn [after_file]. apply E'. lia.
Qed.
Lemma runs_include_plain st args p b rest st' f r :
  expand_all h (lookup st) args = [p] -> files p = Some b -> guard b = false ->
  runs st b (Done st' f) -> runs st' rest r ->
  runs st (Do "include" args :: rest) r.
Proof.
  intros Ha Hf Hg [_ [n E]] [Hr [m E']]. apply (runs_intro (S (max n m))); auto.
  change (step_do (exec (max n m)) st "include" (expand_all h (lookup st) args) rest = r).
  rewrite Ha. unfold CMakeLang.step_do. cbn [String.eqb Ascii.eqb Bool.eqb]. rewrite Hf, Hg. cbn [andb].
  rewrite E by lia. cbn [after_file]. apply E'. lia.
Qed.
Lemma runs_subdirectory st args p l b rest st' f r :
  expand_all h (lookup st) args = p :: l -> files (under (dir st) p ++ "/CMakeLists.txt")%string = Some b ->
  runs (acts (enter_dir (under (dir st) p) (excl st || mem "EXCLUDE_FROM_ALL" l)) (with_up st [])) b (Done st' f) ->
  runs (leave st st') rest r ->
  runs st (Do "add_subdirectory" args :: rest) r.
Proof.
  intros Ha Hf [_ [n E]] [Hr [m E']]. apply (runs_intro (S (max n m))); auto.
  change (step_do (exec (max n m)) st "add_subdirectory" (expand_all h (lookup st) args) rest = r).
  rewrite Ha. unfold CMakeLang.step_do. cbn [String.eqb Ascii.eqb Bool.eqb]. cbv zeta. rewrite Hf.
  rewrite E by lia. apply E'. lia.
Qed.
Lemma runs_subdirectory_fatal st args p l b rest w :
  expand_all h (lookup st) args = p :: l -> files (under (dir st) p ++ "/CMakeLists.txt")%string = Some b ->
  runs (acts (enter_dir (under (dir st) p) (excl st || mem "EXCLUDE_FROM_ALL" l)) (with_up st [])) b (Fatal w) ->
  runs st (Do "add_subdirectory" args :: rest) (Fatal w).
Proof.
  intros Ha Hf [_ [n E]]. apply (runs_intro (S n)); [|discriminate].
  change (step_do (exec n) st "add_subdirectory" (expand_all h (lookup st) args) rest = Fatal w).
  rewrite Ha. unfold CMakeLang.step_do. cbn [String.eqb Ascii.eqb Bool.eqb]. cbv zeta. rewrite Hf.
  now rewrite E by lia.
Qed.
Lemma runs_package st args p l b rest st' f r :
  expand_all h (lookup st) args = p :: l -> String.eqb p "Python3" = false ->
  files (package_dir ++ "/" ++ p ++ "-config.cmake")%string = Some b ->
  runs (act (OVar "CMAKE_CURRENT_LIST_DIR" (Some [package_dir])) st) b (Done st' f) -> runs st' rest r ->
  runs st (Do "find_package" args :: rest) r.
Proof.
  intros Ha Hp Hf [_ [n E]] [Hr [m E']]. apply (runs_intro (S (max n m))); auto.
  change (step_do (exec (max n m)) st "find_package" (expand_all h (lookup st) args) rest = r).
  rewrite Ha. unfold CMakeLang.step_do. cbn [package]. rewrite Hp. cbn [String.eqb Ascii.eqb Bool.eqb negb andb].
  rewrite Hf. rewrite E by lia. cbn [after_file]. apply E'. lia.
Qed.
Definition user (name : string) : bool :=
  negb (mem name ["return"; "include"; "add_subdirectory"; "find_package"]) && negb (mem name built_in).
Lemma user_step ex st name args rest : user name = true ->
  step_do ex st name args rest =
    match funcs st name with
    | None => Fatal ("no command " ++ name)
    | Some f =>
        if f_macro f then then_ ex (ex st (map (subst (combine (f_params f) args)) (f_body f))) rest
        else
          match ex (acts (enter_function (f_params f) args) (with_up st [])) (f_body f) with
          | Done st' _ => ex (leave st st') rest
          | r => r
          end
    end.
Proof.
  intros Hs. unfold CMakeLang.step_do, user, mem in *. cbn [existsb] in Hs. apply andb_prop in Hs as [Hs Hb].
  destruct (String.eqb name "return"); [discriminate|].
  destruct (String.eqb name "include"); [discriminate|].
  destruct (String.eqb name "add_subdirectory"); [discriminate|].
  destruct (String.eqb name "find_package"); [discriminate|].
  cbn [andb]. now destruct (existsb (String.eqb name) built_in).
Qed.
Lemma runs_function st name args f rest st' fl r :
  user name = true -> funcs st name = Some f -> f_macro f = false ->
  runs (acts (enter_function (f_params f) (expand_all h (lookup st) args)) (with_up st [])) (f_body f) (Done st' fl) ->
  runs (leave st st') rest r ->
  runs st (Do name args :: rest) r.
Proof.
  intros Hu Hf Hm [_ [n E]] [Hr [m E']]. apply (runs_intro (S (max n m))); auto.
  change (step_do (exec (max n m)) st name (expand_all h (lookup st) args) rest = r).
  rewrite user_step, Hf, Hm by auto. rewrite E by lia. apply E'. lia.
Qed.
Lemma runs_macro st name args f rest st' r :
  user name = true -> funcs st name = Some f -> f_macro f = true ->
  runs st (map (subst (combine (f_params f) (expand_all h (lookup st) args))) (f_body f)) (Done st' Next) ->
  runs st' rest r ->
  runs st (Do name args :: rest) r.
Proof.
  intros Hu Hf Hm [_ [n E]] [Hr [m E']]. apply (runs_intro (S (max n m))); auto.
  change (step_do (exec (max n m)) st name (expand_all h (lookup st) args) rest = r).
  rewrite user_step, Hf, Hm by auto. rewrite E by lia. cbn [then_]. apply E'. lia.
Qed.

(** One list after the other. *)
Lemma runs_app st a b st1 r : runs st a (Done st1 Next) -> runs st1 b r -> runs st (a ++ b) r.
Proof.
  intros [_ [n E]] Hb. specialize (E n (le_n n)). revert st a E.
  induction n as [|n IH]; intros st a E; [discriminate|].
  destruct a as [|s a]; [injection E as ->; exact Hb|].
  change (exec (S n) st (s :: a)) with (step (exec n) (loop n) st (s :: a)) in E.
  assert (T : forall r0, then_ (exec n) r0 a = Done st1 Next ->
            exists st2, r0 = Done st2 Next /\ runs st2 (a ++ b) r).
  { intros [st2 []| | |] H; cbn in H; try discriminate. eauto. }
  assert (D : forall st0 l, exec n st0 l <> NoFuel -> runs st0 l (exec n st0 l)).
  { intros st0 l H. now apply (runs_intro n). }
  cbn [app]. destruct s as [name args|bs e|args body|m x ps body]; cbn [CMakeLang.step] in E.
  - assert (Hr : r <> NoFuel) by apply Hb.
    revert E. unfold CMakeLang.step_do.
    destruct (String.eqb name "return") eqn:E0; [discriminate|].
    destruct (String.eqb name "include") eqn:E1.
    { apply String.eqb_eq in E1; subst name. destruct (expand_all h (lookup st) args) as [|p [|]] eqn:Ea; try discriminate.
      destruct (files p) as [fb|] eqn:Ef.
      - destruct (guard fb && guarded st p) eqn:Eg.
        + intros E. specialize (IH _ _ E). destruct IH as [_ [k Ek]]. apply (runs_intro (S k)); auto.
          change (step_do (exec k) st "include" (expand_all h (lookup st) args) (a ++ b) = r).
          rewrite Ea. unfold CMakeLang.step_do. cbn [String.eqb Ascii.eqb Bool.eqb]. rewrite Ef, Eg. apply Ek. lia.
        + intros E.
          destruct (exec n (if guard fb then act (OGuard p) st else st) fb) as [st2 f2| | |] eqn:Ex;
            cbn in E; try discriminate.
          specialize (IH _ _ E). destruct IH as [_ [k Ek]]. apply (runs_intro (S (max n k))); auto.
          change (step_do (exec (max n k)) st "include" (expand_all h (lookup st) args) (a ++ b) = r).
          rewrite Ea. unfold CMakeLang.step_do. cbn [String.eqb Ascii.eqb Bool.eqb]. rewrite Ef, Eg.
          rewrite (fuel_le n (max n k)); [|lia|congruence]. rewrite Ex. cbn. apply Ek. lia.
      - intros E. destruct (T _ E) as (st2 & Em & Hc). eapply runs_module; eauto. }
    destruct (String.eqb name "add_subdirectory") eqn:E2.
    { apply String.eqb_eq in E2; subst name. destruct (expand_all h (lookup st) args) as [|p l] eqn:Ea; try discriminate.
      cbv zeta. destruct (files _) as [fb|] eqn:Ef; try discriminate.
      destruct (exec n (acts (enter_dir _ _) _) fb) as [st2 f2| | |] eqn:Ex; try discriminate.
      intros E. eapply runs_subdirectory; eauto. rewrite <- Ex. apply D. congruence. }
    destruct (String.eqb name "find_package" && package (expand_all h (lookup st) args)) eqn:E3.
    { pose proof E3 as E3'. apply andb_prop in E3' as [E4 E5]. apply String.eqb_eq in E4; subst name.
      destruct (expand_all h (lookup st) args) as [|p l] eqn:Ea; try discriminate.
      destruct (files _) as [fb|] eqn:Ef; try discriminate.
      destruct (exec n (act (OVar _ _) _) fb) as [st2 f2| | |] eqn:Ex; cbn; try discriminate.
      intros E. eapply runs_package; eauto.
      - cbn in E5. now destruct (String.eqb p "Python3").
      - rewrite <- Ex. apply D. congruence. }
    destruct (mem name built_in) eqn:E4.
    { intros E. destruct (T _ E) as (st2 & Em & Hc).
      eapply runs_simple; eauto. unfold simple. rewrite E4. unfold mem. cbn [existsb]. now rewrite E0, E1, E2. }
    assert (U : user name = true \/ name = "find_package").
    { unfold user. rewrite E4. unfold mem. cbn [existsb]. rewrite E0, E1, E2.
      destruct (String.eqb name "find_package") eqn:E5; auto. right. now apply String.eqb_eq. }
    destruct U as [U| ->]; [|discriminate E4].
    destruct (funcs st name) as [f|] eqn:Ef; try discriminate. destruct (f_macro f) eqn:Em.
    + intros E. destruct (T _ E) as (st2 & Ex & Hc). eapply runs_macro; eauto. rewrite <- Ex. apply D. congruence.
    + destruct (exec n (acts (enter_function _ _) _) _) as [st2 f2| | |] eqn:Ex; try discriminate.
      intros E. eapply runs_function; eauto. rewrite <- Ex. apply D. congruence.
  - destruct bs as [|[c body] bs].
    + destruct (T _ E) as (st2 & Ex & Hc). eapply runs_else; eauto. rewrite <- Ex. apply D. congruence.
    + destruct (condition h (lookup st) c) as [[|]|] eqn:Ec; try discriminate.
      * destruct (T _ E) as (st2 & Ex & Hc). eapply runs_if_true; eauto. rewrite <- Ex. apply D. congruence.
      * apply runs_if_false; auto. now apply (IH st (If bs e :: a)).
  - destruct (plain_words args) as [|x [|i [|l [|y [|]]]]] eqn:Ep; try discriminate.
    destruct (String.eqb i "IN" && String.eqb l "LISTS") eqn:Ei; try discriminate.
    destruct (T _ E) as (st2 & Ex & [Hr [k Ek]]). apply (runs_intro (S (max n k))); auto.
    change (step (exec (max n k)) (loop (max n k)) st (Foreach args body :: a ++ b) = r).
    cbn [CMakeLang.step]. rewrite Ep, Ei.
    assert (El : forall m, n <= m -> loop m st x (get (lookup st) y) body = Done st2 Next).
    { induction 1 as [|m Hm IHm]; auto. rewrite <- IHm. apply more_fuel. rewrite IHm. discriminate. }
    rewrite El by lia. cbn. apply Ek. lia.
  - apply runs_define. now apply IH.
Qed.

End Rules.

