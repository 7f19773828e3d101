(** Properties of object lifetimes, histories of calls and exceptions.  Statements only: each
    theorem is closed by [exact], with its assumptions printed, and examples that meet the hypotheses. *)
From Coq Require Import NArith ZArith Bool List Lia.
From Verif Require Import Outcome Words Lifetime LifetimeSpec LifetimeFacts History HistorySpec HistoryFacts
  Log LogFacts Classes ClassesFacts LifetimeLemmas.
Import ListNotations.
Open Scope N_scope.

(** Examples use [fussy m torn]: a class with m unused states whose members throw when the schedule
    says so; and [plain m]: a trivial scalar. *)
Definition ex_g (m : N) : cell (logged (fussy m false)) := mkcell (C := logged (fussy m false)) 77 1 false.
Definition ex_prog (m : N) : list (call (logged (fussy m false)) (log_sem _ (fussy_sem m false))) :=
  let i (n : N) : init (logged (fussy m false)) := n in
  [ New 0 (IVal (i 5)) (ex_g m); NewCopy 1 0 (ex_g m); New 2 INone (ex_g m);
    Emplace 0 (i 6);        (* throws *)
    Assign 0 (IVal (i 7)); Swap 1 2; CopyAssign 1 0; MoveAssign 2 1; NewTake true 3 2 (ex_g m);
    TryEmplace 1 (i 9);     (* already holds a value *)
    SetFrom 2 0; Destroy 3; Reset 1; Destroy 2; Destroy 1; Destroy 0 ].

Definition ex_flags (h : hout (logged (fussy 3 false))) : option (list bool * Z * nat) :=
  match h with
  | HDone ks l (_, lg) => Some (ks, balance lg, length lg)
  | _ => None
  end.

(** C17: for every class, program, pattern of exceptions: nothing undefined happens, has_value()
    answers whether an object lives in the storage, and constructions minus destructions is the
    number of engaged options. *)
Theorem C17_alive_iff_has_value : forall W (C : cls W) (S : sem C), lawful C S ->
  forall os n w,
  Forall (fair (logged C) (log_sem C S)) os -> Forall (gentle (logged C) (log_sem C S)) os ->
  match run (logged C) (log_sem C S) os (repeat None n) (w, []) with
  | HDone ks l (w', lg) =>
      (forall x c, slot l x = Some c -> o_has (logged C) c = Ok (c_alive c)) /\
      (td C = false -> balance lg = alive_count l)
  | HAbort _ => True
  | HUndef => False
  | HBad => True
  end.
Proof. exact liveness_history. Qed.
Print Assumptions C17_alive_iff_has_value.

Theorem C17_no_leak : forall W (C : cls W) (S : sem C), lawful C S ->
  forall os n w, td C = false ->
  Forall (fair (logged C) (log_sem C S)) os -> Forall (gentle (logged C) (log_sem C S)) os ->
  forall ks l w' lg, run (logged C) (log_sem C S) os (repeat None n) (w, []) = HDone ks l (w', lg) ->
  (forall x, slot l x = None) -> balance lg = 0%Z.
Proof. exact no_leak. Qed.
Print Assumptions C17_no_leak.

Example C17_ex_hyps : lawful (fussy 3 false) (fussy_sem 3 false) /\
  Forall (fair _ _) (ex_prog 3) /\ Forall (gentle _ _) (ex_prog 3).
Proof.
  split; [apply fussy_lawful; unfold umax_base; lia|].
  split; [repeat constructor|]. apply Forall_forall. intros o _. apply quiet_gentle, logged_quiet, fussy_quiet. auto.
Qed.
(** Sixteen calls to T are made, one of them throws (the construction in emplace), nothing is left. *)
Example C17_ex_run :
  ex_flags (run _ _ (ex_prog 3) (repeat None 4) ([false; false; true], [])) =
  Some ([false; false; false; true; false; false; false; false; false; false; false; false; false; false; false; false], 0%Z, 16%nat).
Proof. vm_compute. reflexivity. Qed.

(** C18: any history acts on the values as on mathematical optionals; it can end the program only by
    access to an empty option (or because T does so). *)
Theorem C18_refines_optional : forall W (C : cls W) (S : sem C), lawful C S ->
  forall os l w, healthy C S l -> Forall (fair C S) os -> Forall (gentle C S) os ->
  match run C S os l w with
  | HDone ks l' w' => healthy C S l' /\ runs C S os ks (values C S l) (values C S l') /\
                      (cnt S w' - owned C S l' = cnt S w - owned C S l)%Z
  | HAbort ks => stops S \/
      exists os1 o os2 a, os = os1 ++ o :: os2 /\ runs C S os1 ks (values C S l) a /\ misuse C S o a
  | HUndef => False
  | HBad => True
  end.
Proof. intros W C S L. exact (run_ok C S L). Qed.
Print Assumptions C18_refines_optional.

(** ... and has_value() and the contained object show exactly those values. *)
Theorem C18_observed : forall W (C : cls W) (S : sem C) (l : vars C), lawful C S -> healthy C S l ->
  forall x c, slot l x = Some c ->
    o_has C c = Ok (c_alive c) /\ (c_alive c = true -> ok S (c_raw c)) /\
    nth_error (values C S l) x = Some (Some (oval C S c)).
Proof. exact healthy_observed. Qed.
Print Assumptions C18_observed.

(** The hypotheses hold for nested options at any depth of a class whose constructors do not throw. *)
Theorem C18_any_depth : forall W (C : cls W) (S : sem C) n, lawful C S -> steady C S ->
  lawful (nest_cls n C) (nest_sem n C S) /\ steady (nest_cls n C) (nest_sem n C S) /\
  quiet (nest_cls n C) (nest_sem n C S).
Proof. exact nest_both. Qed.
Print Assumptions C18_any_depth.

(** For one level of nesting T may throw, from in-place construction with any storage, if its move
    constructor does not. *)
Theorem C18_nested_in_place : forall W (C : cls W) (S : sem C), lawful C S -> quiet C S ->
  lawful (opt_cls C) (opt_sem C S) /\
  (forall i, quiet_init (opt_cls C) (IVal i)) /\ quiet_init (opt_cls C) INone /\
  ((forall s r w p, ok S s -> mctor C r (s, w) <> Exn p) -> quiet_move (opt_cls C) (opt_sem C S)).
Proof. exact nested_in_place. Qed.
Print Assumptions C18_nested_in_place.

Definition ex_nest : cls unit := nest_cls 2 (plain 1).
Definition ex_cell : cell ex_nest :=
  mkcell (C := ex_nest) (mkcell (C := opt_cls (plain 1)) (mkcell (C := plain 1) 9 0 true) 0 false) 7 true.
Definition ex_val (v : option (option N)) : oinit (init ex_nest) :=
  IVal match v with
       | Some (Some n) => IVal (IVal (n : init (plain 1)))
       | Some None => IVal INone
       | None => INone
       end.
Definition ex_nested_prog : list (call ex_nest (nest_sem 2 (plain 1) (plain_sem 1))) :=
  [ New 0 (ex_val (Some (Some 5))) ex_cell; New 1 (ex_val (Some None)) ex_cell; Swap 0 1;
    New 2 (ex_val None) ex_cell; Reset 0 ].
Example C18_ex : lawful (plain 1) (plain_sem 1) /\ steady (plain 1) (plain_sem 1) /\
  match run _ _ ex_nested_prog (repeat None 3) tt with
  | HDone ks l w => values _ (nest_sem 2 (plain 1) (plain_sem 1)) l =
      [Some None; Some (Some (Some (Some 5))); Some (Some None)]
  | _ => False
  end.
Proof. split; [apply plain_lawful|]. split; [apply plain_steady|]. vm_compute. reflexivity. Qed.

(** C19: the calls that assignment makes to T.  [logs l m es es]: on return exactly the calls es were
    added to the log; on an exception the last of es is the one that threw. *)
Theorem C19_copy_assignment : forall W (C : cls W) (S : sem C), lawful C S ->
  forall s c w l, inv (logged C) (log_sem C S) s -> inv (logged C) (log_sem C S) c ->
  let es := if tcc C && (tca C && td C) then []
            else if c_alive s then if c_alive c then [ECopyAssign] else [ECopyCtor]
            else destroys (td C) (c_alive c) in
  logs l (o_cassign (logged C) s c (w, l)) es es.
Proof. intros W C S L. exact (cassign_logs C S L). Qed.
Print Assumptions C19_copy_assignment.

Theorem C19_move_assignment : forall W (C : cls W) (S : sem C), lawful C S ->
  forall s c w l, inv (logged C) (log_sem C S) s -> inv (logged C) (log_sem C S) c ->
  let es := if tmc C && (tma C && td C) then []
            else if c_alive s then if c_alive c then [EMoveAssign] else [EMoveCtor]
            else destroys (td C) (c_alive c) in
  logs2 l (o_massign (logged C) c (s, (w, l))) es es.
Proof. intros W C S L. exact (massign_logs C S L). Qed.
Print Assumptions C19_move_assignment.

Theorem C19_value_assignment : forall W (C : cls W) (S : sem C), lawful C S ->
  forall i c w l, inv (logged C) (log_sem C S) c ->
  let es := match i with
            | INone | IConv None => destroys (td C) (c_alive c)
            | IVal _ => if scalar C then [ECtor] else if c_alive c then [EAssign] else [ECtor]
            | IConv (Some _) => if c_alive c then [EAssign] else [ECtor]
            end in
  logs l (o_asgn (logged C) i c (w, l)) es es.
Proof. intros W C S L. exact (asgn_logs C S L). Qed.
Print Assumptions C19_value_assignment.

Theorem C19_emplace : forall W (C : cls W) (S : sem C), lawful C S ->
  forall i c w l, inv (logged C) (log_sem C S) c ->
  (let es := destroys (td C) (c_alive c) ++ [ECtor] in
   logs l (o_emplace (logged C) (o_reset (logged C)) (ctor (logged C) i) c (w, l)) es es) /\
  (let es := if c_alive c then [] else [ECtor] in
   logs l (o_try_emplace (logged C) i c (w, l)) es es) /\
  logs l (o_reset (logged C) c (w, l)) (destroys (td C) (c_alive c)) [] /\
  logs l (o_dtor (logged C) c (w, l)) (destroys (td C) (c_alive c)) [].
Proof. exact emplace_reset_logs. Qed.
Print Assumptions C19_emplace.

Example C19_ex : inv (logged (fussy 3 false)) (log_sem _ (fussy_sem 3 false)) (mkcell (C := logged (fussy 3 false)) 8 0 true) /\
  inv (logged (fussy 3 false)) (log_sem _ (fussy_sem 3 false)) (mkcell (C := logged (fussy 3 false)) 0 0 false) /\
  o_cassign (logged (fussy 3 false)) (mkcell (C := logged (fussy 3 false)) 8 0 true) (mkcell (C := logged (fussy 3 false)) 0 0 false) ([], []) =
  Ret (mkcell (C := logged (fussy 3 false)) 8 0 true, ([], [(ECopyCtor, true)])).
Proof. split; [|split; [|reflexivity]]; (split; [|split]); cbn; intros; try discriminate; try lia. Qed.

(** C20: T without unused states: no condition on how T throws. *)
Theorem C20_flag_histories : forall W (C : cls W) (S : sem C), lawful C S -> lmax C = 0 ->
  forall os l w, healthy C S l -> Forall (fair C S) os ->
  match run C S os l w with
  | HDone ks l' w' => healthy C S l' /\ runs C S os ks (values C S l) (values C S l') /\
                      (cnt S w' - owned C S l' = cnt S w - owned C S l)%Z
  | HAbort ks => stops S \/
      exists os1 o os2 a, os = os1 ++ o :: os2 /\ runs C S os1 ks (values C S l) a /\ misuse C S o a
  | HUndef => False
  | HBad => True
  end.
Proof. exact flag_histories. Qed.
Print Assumptions C20_flag_histories.

(** The states after an exception, call by call. *)
Theorem C20_flag_exceptions : forall W (C : cls W) (S : sem C), lawful C S -> lmax C = 0 ->
  forall c s w, inv C S c -> inv C S s ->
  let thrown (m : out (cell C * W)) (R : cell C -> Prop) := forall c' w', m = Exn (c', w') -> inv C S c' /\ R c' in
  let thrown2 (m : out (cell C * (cell C * W))) (R : cell C -> cell C -> Prop) :=
    forall c' s' w', m = Exn (c', (s', w')) -> inv C S c' /\ inv C S s' /\ R c' s' in
  (forall i, thrown (o_emplace C (o_reset C) (ctor C i) c w) (fun c' => o_has C c' = Ok false)) /\
  (forall i, thrown (o_try_emplace C i c w) (fun c' => o_has C c' = Ok false)) /\
  (forall i, thrown (o_asgn C i c w) (fun c' => o_has C c' = o_has C c)) /\
  thrown (o_cassign C s c w) (fun c' => o_has C c' = o_has C c) /\
  thrown2 (o_massign C c (s, w)) (fun c' s' => o_has C c' = o_has C c /\ o_has C s' = o_has C s) /\
  thrown2 (o_swap C c (s, w)) (fun c' s' => o_has C c' = o_has C c /\ o_has C s' = o_has C s).
Proof. exact flag_exceptions. Qed.
Print Assumptions C20_flag_exceptions.

Example C20_ex : lawful (fussy 0 true) (fussy_sem 0 true) /\ lmax (fussy 0 true) = 0 /\
  o_emplace (fussy 0 true) (o_reset (fussy 0 true)) (ctor (fussy 0 true) 5) (mkcell (C := fussy 0 true) 9 1 true) [true] =
  Exn (mkcell (C := fussy 0 true) 5 0 false, []).
Proof. split; [apply fussy_lawful; unfold umax_base; lia|]. split; reflexivity. Qed.

(** C21: with unused states inside T the claim of C20 is false. *)
Theorem C21_torn_constructor_refuted : exists (c c' : cell (fussy 3 true)) w w',
  inv _ (fussy_sem 3 true) c /\
  o_emplace _ (o_reset _) (ctor (fussy 3 true) 5) c w = Exn (c', w') /\
  c_alive c' = false /\ o_has _ c' = Ok true /\ o_dtor _ c' w' = Undef /\ o_reset _ c' w' = Undef.
Proof. exact torn_constructor. Qed.
Print Assumptions C21_torn_constructor_refuted.

Theorem C21_torn_copy_refuted : exists (s c : cell (fussy 3 true)) w,
  inv _ (fussy_sem 3 true) s /\ o_cctor _ s c w = Undef.
Proof. exact torn_copy. Qed.
Print Assumptions C21_torn_copy_refuted.

Theorem C21_nested_copy_refuted : exists (s : cell (fussy 0 false)) (c c' : cell oT) w w',
  inv (fussy 0 false) (fussy_sem 0 false) s /\ inv oT oT_sem c /\ c_alive c = false /\
  o_emplace oT (o_reset oT) (cctor oT s) c w = Exn (c', w') /\
  c_alive c' = false /\ o_has oT c' = Ok true /\ o_dtor oT c' w' = Undef.
Proof. exact nested_copy. Qed.
Print Assumptions C21_nested_copy_refuted.

(** What remains true: if a throwing constructor leaves the level pattern of its storage alone, all
    the states of C20 are reached with sentinel storage too. *)
Theorem C21_quiet_partial : forall W (C : cls W) (S : sem C), lawful C S -> quiet C S ->
  forall c s w, inv C S c -> inv C S s ->
  let thrown (m : out (cell C * W)) (R : cell C -> Prop) := forall c' w', m = Exn (c', w') -> inv C S c' /\ R c' in
  let thrown2 (m : out (cell C * (cell C * W))) (R : cell C -> cell C -> Prop) :=
    forall c' s' w', m = Exn (c', (s', w')) -> inv C S c' /\ inv C S s' /\ R c' s' in
  (forall i, thrown (o_emplace C (o_reset C) (ctor C i) c w) (fun c' => o_has C c' = Ok false)) /\
  (forall i, thrown (o_try_emplace C i c w) (fun c' => o_has C c' = Ok false)) /\
  (forall i, thrown (o_asgn C i c w) (fun c' => o_has C c' = o_has C c)) /\
  thrown (o_cassign C s c w) (fun c' => o_has C c' = o_has C c) /\
  thrown2 (o_massign C c (s, w)) (fun c' s' => o_has C c' = o_has C c /\ o_has C s' = o_has C s) /\
  thrown2 (o_swap C c (s, w)) (fun c' s' => o_has C c' = o_has C c /\ o_has C s' = o_has C s).
Proof. exact quiet_exceptions. Qed.
Print Assumptions C21_quiet_partial.
(** The condition is also necessary: for these arguments an exception leaves an empty option exactly if
    the constructor never disturbs the pattern of the empty option. *)
Theorem C21_exact : forall W (C : cls W) (S : sem C), lawful C S -> 0 < lmax C -> forall i,
  (forall c w c' w', inv C S c -> o_try_emplace C i c w = Exn (c', w') -> inv C S c' /\ o_has C c' = Ok false) <->
  (forall r w r' w', lget C r = 0 -> ctor C i r w = Exn (r', w') -> lget C r' = 0).
Proof. exact torn_exact. Qed.
Print Assumptions C21_exact.
Example C21_ex : lawful (fussy 3 false) (fussy_sem 3 false) /\ quiet (fussy 3 false) (fussy_sem 3 false) /\ lmax (fussy 3 false) = 3.
Proof. split; [apply fussy_lawful; unfold umax_base; lia|]. split; [apply fussy_quiet; auto|reflexivity]. Qed.

(** C22: x = x, x = std::move(x), swap(x, x), x = *x. *)
Theorem C22_self : forall W (C : cls W) (S : sem C), lawful C S -> forall c w, inv C S c ->
  let keeps (m : out (cell C * W)) (R : option (V S) -> option (V S) -> Prop) :=
    post (stops S) m (fun p => inv C S (fst p) /\ R (oval C S c) (oval C S (fst p)) /\ o_has C (fst p) = o_has C c)
                     (fun p => inv C S (fst p) /\ o_has C (fst p) = o_has C c) in
  keeps (o_self_cassign C c w) eq /\
  keeps (o_self_massign C c w) (opt_rel (selfmv S)) /\
  keeps (o_self_swap C c w) eq /\
  (quiet_copy C S -> c_alive c = true -> keeps (o_set_self C c w) eq).
Proof. exact self_keeps. Qed.
Print Assumptions C22_self.
Example C22_ex : inv (fussy 3 false) (fussy_sem 3 false) (mkcell (C := fussy 3 false) 8 0 true) /\
  o_self_cassign (fussy 3 false) (mkcell (C := fussy 3 false) 8 0 true) [] = Ret (mkcell (C := fussy 3 false) 8 0 true, []).
Proof. split; [|reflexivity]. split; [|split]; cbn; intros; try discriminate; lia. Qed.

(** C23: swap. *)
Theorem C23_swap : forall W (C : cls W) (S : sem C), lawful C S ->
  forall a b w, quiet_move C S -> inv C S a -> inv C S b ->
  post (stops S) (o_swap C a (b, w))
    (fun p => inv C S (fst p) /\ inv C S (fst (snd p)) /\ oval C S (fst p) = oval C S b /\ oval C S (fst (snd p)) = oval C S a /\
              (cnt S (snd (snd p)) + oown C S a + oown C S b = cnt S w + oown C S (fst p) + oown C S (fst (snd p)))%Z)
    (fun p => inv C S (fst p) /\ inv C S (fst (snd p)) /\ c_alive (fst p) = c_alive a /\ c_alive (fst (snd p)) = c_alive b /\
              (cnt S (snd (snd p)) + oown C S a + oown C S b = cnt S w + oown C S (fst p) + oown C S (fst (snd p)))%Z).
Proof. intros W C S L. exact (swap_ok C S L). Qed.
Print Assumptions C23_swap.

Theorem C23_swap_calls : forall W (C : cls W) (S : sem C), lawful C S ->
  forall a b w l, quiet_move C S -> inv (logged C) (log_sem C S) a -> inv (logged C) (log_sem C S) b ->
  let es := if c_alive a then if c_alive b then [ESwap] else EMoveCtor :: destroys (td C) true
            else if c_alive b then EMoveCtor :: destroys (td C) true else [] in
  logs2 l (o_swap (logged C) a (b, (w, l))) es (firstn 1 es).
Proof. intros W C S L. exact (swap_logs C S L). Qed.
Print Assumptions C23_swap_calls.

Theorem C23_swap_twice : forall W (C : cls W) (S : sem C), lawful C S -> quiet_move C S ->
  forall a b w a' b' w' a2 b2 w2, inv C S a -> inv C S b ->
  o_swap C a (b, w) = Ret (a', (b', w')) -> o_swap C a' (b', w') = Ret (a2, (b2, w2)) ->
  oval C S a2 = oval C S a /\ oval C S b2 = oval C S b.
Proof. exact swap_twice. Qed.
Print Assumptions C23_swap_twice.
(** std::swap of two options, which is what swap(a, b) calls. *)
Theorem C23_std_swap : forall W (C : cls W) (S : sem C), lawful C S ->
  forall a b w, quiet_move C S -> inv C S a -> inv C S b ->
  post (stops S) (o_std_swap C a (b, w))
    (fun p => inv C S (fst p) /\ inv C S (fst (snd p)) /\ oval C S (fst p) = oval C S b /\ oval C S (fst (snd p)) = oval C S a /\
              (cnt S (snd (snd p)) + oown C S a + oown C S b = cnt S w + oown C S (fst p) + oown C S (fst (snd p)))%Z)
    (fun p => inv C S (fst p) /\ inv C S (fst (snd p)) /\
              (cnt S (snd (snd p)) + oown C S a + oown C S b = cnt S w + oown C S (fst p) + oown C S (fst (snd p)))%Z).
Proof. intros W C S L. exact (std_swap_ok C S L). Qed.
Print Assumptions C23_std_swap.

Theorem C23_self_std_swap : forall W (C : cls W) (S : sem C), lawful C S ->
  forall c w, quiet_move C S -> inv C S c ->
  post (stops S) (o_self_std_swap C c w)
    (fun p => inv C S (fst p) /\ oval C S (fst p) = oval C S c /\ (cnt S (snd p) + oown C S c = cnt S w + oown C S (fst p))%Z)
    (fun p => inv C S (fst p) /\ (cnt S (snd p) + oown C S c = cnt S w + oown C S (fst p))%Z).
Proof. intros W C S L. exact (self_std_swap_ok C S L). Qed.
Print Assumptions C23_self_std_swap.
Example C23_std_ex :
  o_std_swap (fussy 3 false) (mkcell (C := fussy 3 false) 8 0 true) (mkcell (C := fussy 3 false) 0 0 false, []) =
  Ret (mkcell (C := fussy 3 false) 0 0 false, (mkcell (C := fussy 3 false) 8 0 true, [])).
Proof. reflexivity. Qed.
Example C23_ex :
  o_swap (fussy 3 false) (mkcell (C := fussy 3 false) 8 0 true) (mkcell (C := fussy 3 false) 0 0 false, []) =
  Ret (mkcell (C := fussy 3 false) 0 0 false, (mkcell (C := fussy 3 false) 8 0 true, [])).
Proof. reflexivity. Qed.

(** C24: take and take_if.  [pr v b v']: what the predicate may answer about v and leave in its place. *)
Theorem C24_take : forall W (C : cls W) (S : sem C), lawful C S ->
  forall nrvo c s w, quiet_move C S -> inv C S s ->
  post (stops S) (o_take C nrvo c (s, w))
    (fun p => inv C S (fst p) /\ oval C S (fst p) = oval C S s /\ inv C S (fst (snd p)) /\ oval C S (fst (snd p)) = None /\
              (cnt S (snd (snd p)) + oown C S s = cnt S w + oown C S (fst p) + oown C S (fst (snd p)))%Z)
    (fun p => inv C S (fst (snd p)) /\ c_alive s = true /\ (cnt S (snd (snd p)) + oown C S s = cnt S w + oown C S (fst (snd p)))%Z /\
              (nrvo = true -> c_alive (fst (snd p)) = true)).
Proof. intros W C S L. exact (take_ok C S L). Qed.
Print Assumptions C24_take.

Theorem C24_take_if : forall W (C : cls W) (S : sem C), lawful C S -> quiet_move C S ->
  forall nrvo (p : raw C -> W -> out (raw C * (bool * W))) (pr : V S -> bool -> V S -> Prop) c s w, inv C S s ->
  (forall r w, ok S r -> post (stops S) (p r w)
      (fun q => ok S (fst q) /\ pr (val S r) (fst (snd q)) (val S (fst q)) /\
                (cnt S (snd (snd q)) + own S r = cnt S w + own S (fst q))%Z)
      (fun q => ok S (fst q) /\ (cnt S (snd (snd q)) + own S r = cnt S w + own S (fst q))%Z)) ->
  post (stops S) (o_take_if C nrvo p c (s, w))
    (fun q => inv C S (fst q) /\ inv C S (fst (snd q)) /\
       match oval C S s with
       | None => oval C S (fst q) = None /\ oval C S (fst (snd q)) = None
       | Some v => (exists v', pr v true v' /\ oval C S (fst q) = Some v' /\ oval C S (fst (snd q)) = None) \/
                   (exists v', pr v false v' /\ oval C S (fst q) = None /\ oval C S (fst (snd q)) = Some v')
       end)
    (fun q => inv C S (fst (snd q)) /\ oval C S s <> None).
Proof. exact take_if_spec. Qed.
Print Assumptions C24_take_if.

(** The predicate sees the contained object, and only if there is one. *)
Theorem C24_take_if_calls : forall W (C : cls W) (S : sem C) nrvo (p p' : raw C -> W -> out (raw C * (bool * W))) g s w,
  lawful C S -> inv C S s ->
  (c_alive s = true -> p (c_raw s) w = p' (c_raw s) w) ->
  o_take_if C nrvo p g (s, w) = o_take_if C nrvo p' g (s, w).
Proof. exact take_if_calls. Qed.
Print Assumptions C24_take_if_calls.

Theorem C24_take_calls : forall W (C : cls W) (S : sem C), lawful C S ->
  forall s c w l, quiet_move C S -> inv (logged C) (log_sem C S) s ->
  let mv := if tmc C then [] else if c_alive s then [EMoveCtor] else [] in
  logs2 l (o_take (logged C) true c (s, (w, l))) (mv ++ destroys (td C) (c_alive s)) mv.
Proof. intros W C S L. exact (take_logs C S L). Qed.
Print Assumptions C24_take_calls.

Example C24_ex : inv (fussy 3 false) (fussy_sem 3 false) (mkcell (C := fussy 3 false) 8 0 true) /\
  o_take_if (fussy 3 false) true (fun (r : raw (fussy 3 false)) w => Ret ((r : N) + 1, (r =? 8, w)))
    (mkcell (C := fussy 3 false) 1 0 true) (mkcell (C := fussy 3 false) 8 0 true, []) =
  Ret (mkcell (C := fussy 3 false) 9 0 true, (mkcell (C := fussy 3 false) 0 0 false, [])).
Proof. split; [|reflexivity]. split; [|split]; cbn; intros; try discriminate; lia. Qed.

(** C43: a moved-from option is as engaged as before. *)
Theorem C43_moved_from_engaged : forall W (C : cls W) (S : sem C), lawful C S -> quiet_move C S ->
  forall s c w, inv C S s ->
  let keeps (m : out (cell C * (cell C * W))) :=
    post (stops S) m
      (fun p => inv C S (fst (snd p)) /\ o_has C (fst (snd p)) = o_has C s /\ opt_rel (mv S) (oval C S s) (oval C S (fst (snd p))))
      (fun p => inv C S (fst (snd p)) /\ o_has C (fst (snd p)) = o_has C s) in
  keeps (o_mctor C c (s, w)) /\ (inv C S c -> keeps (o_massign C c (s, w))).
Proof. exact moved_from. Qed.
Print Assumptions C43_moved_from_engaged.
Example C43_ex : o_mctor (fussy 3 false) (mkcell (C := fussy 3 false) 1 0 true) (mkcell (C := fussy 3 false) 8 0 true, []) =
  Ret (mkcell (C := fussy 3 false) 8 0 true, (mkcell (C := fussy 3 false) 3 0 true, [])).
Proof. reflexivity. Qed.
