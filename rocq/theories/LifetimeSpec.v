(** What is asked of a class T, and what option<T> should do, stated without the code of option. *)
From Coq Require Import NArith ZArith Bool List.
From Verif Require Import Outcome Words Lifetime.
Import ListNotations.
Open Scope N_scope.

(** Specification of one operation: never undefined; [R] on return, [E] on exception; it may end
    the program (a failed OPTION_VERIFY, std::terminate) only if [B]. *)
Definition post {A} (B : Prop) (m : out A) (R E : A -> Prop) : Prop :=
  match m with
  | Ret a => R a
  | Exn a => E a
  | Abort => B
  | Undef => False
  end.

(** The meaning of a class: which storage contents are proper objects, their values, which values
    an argument pack may produce, what moving from an object may leave behind, and a census:
    [own r] counts the things object [r] owns, [cnt w] counts the things in existence.  (Take [V]
    as unit and the census as 0 to ignore them; take [own] as 1 and [cnt] as constructions minus
    destructions to count objects.)  [stops] says whether the class may end the program, throw from
    its destructor, or make an object with the pattern of the empty option. *)
Record sem {W} (C : cls W) : Type := {
  V : Type;
  ok : raw C -> Prop;
  val : raw C -> V;
  denotes : init C -> V -> Prop;
  mv : V -> V -> Prop;
  selfmv : V -> V -> Prop;
  own : raw C -> Z;
  cnt : W -> Z;
  stops : Prop
}.
Arguments V {W C} _.
Arguments ok {W C} _.
Arguments val {W C} _.
Arguments denotes {W C} _.
Arguments mv {W C} _.
Arguments selfmv {W C} _.
Arguments own {W C} _.
Arguments cnt {W C} _.
Arguments stops {W C} _.

Section Laws.
Context {W : Type} (C : cls W) (S : sem C).

(** The storage holds the pattern that option_traits<T> uses for the empty option. *)
Definition none_pattern (r : raw C) : Prop := 0 < lmax C /\ lget C r = 0.

(** A class that behaves: operations on proper objects give proper objects with the right values,
    also when they throw; a throwing constructor leaves nothing behind (but may have scribbled on
    the storage); levels obey their contract. *)
Record lawful : Prop := {
  l_ctor : forall i r w, post (stops S) (ctor C i r w)
    (fun p => (ok S (fst p) /\ denotes S i (val S (fst p)) /\ cnt S (snd p) = (cnt S w + own S (fst p))%Z)
              \/ (stops S /\ none_pattern (fst p)))
    (fun p => cnt S (snd p) = cnt S w);
  l_cctor : forall s r w, ok S s -> post (stops S) (cctor C s r w)
    (fun p => ok S (fst p) /\ val S (fst p) = val S s /\ cnt S (snd p) = (cnt S w + own S (fst p))%Z)
    (fun p => cnt S (snd p) = cnt S w);
  l_mctor : forall s r w, ok S s -> post (stops S) (mctor C r (s, w))
    (fun p => ok S (fst p) /\ val S (fst p) = val S s /\ ok S (fst (snd p)) /\ mv S (val S s) (val S (fst (snd p))) /\
              (cnt S (snd (snd p)) + own S s = cnt S w + own S (fst p) + own S (fst (snd p)))%Z)
    (fun p => ok S (fst (snd p)) /\ (cnt S (snd (snd p)) + own S s = cnt S w + own S (fst (snd p)))%Z);
  l_asgn : forall i r w, ok S r -> post (stops S) (asgn C i r w)
    (fun p => (ok S (fst p) /\ denotes S i (val S (fst p)) /\
               (cnt S (snd p) + own S r = cnt S w + own S (fst p))%Z) \/ (stops S /\ none_pattern (fst p)))
    (fun p => ok S (fst p) /\ (cnt S (snd p) + own S r = cnt S w + own S (fst p))%Z);
  l_cassign : forall s r w, ok S s -> ok S r -> post (stops S) (cassign C s r w)
    (fun p => ok S (fst p) /\ val S (fst p) = val S s /\ (cnt S (snd p) + own S r = cnt S w + own S (fst p))%Z)
    (fun p => ok S (fst p) /\ (cnt S (snd p) + own S r = cnt S w + own S (fst p))%Z);
  l_massign : forall s r w, ok S s -> ok S r -> post (stops S) (massign C r (s, w))
    (fun p => ok S (fst p) /\ val S (fst p) = val S s /\ ok S (fst (snd p)) /\ mv S (val S s) (val S (fst (snd p))) /\
              (cnt S (snd (snd p)) + own S r + own S s = cnt S w + own S (fst p) + own S (fst (snd p)))%Z)
    (fun p => ok S (fst p) /\ ok S (fst (snd p)) /\
              (cnt S (snd (snd p)) + own S r + own S s = cnt S w + own S (fst p) + own S (fst (snd p)))%Z);
  l_self_cassign : forall r w, ok S r -> post (stops S) (self_cassign C r w)
    (fun p => ok S (fst p) /\ val S (fst p) = val S r /\ (cnt S (snd p) + own S r = cnt S w + own S (fst p))%Z)
    (fun p => ok S (fst p) /\ (cnt S (snd p) + own S r = cnt S w + own S (fst p))%Z);
  l_self_massign : forall r w, ok S r -> post (stops S) (self_massign C r w)
    (fun p => ok S (fst p) /\ selfmv S (val S r) (val S (fst p)) /\ (cnt S (snd p) + own S r = cnt S w + own S (fst p))%Z)
    (fun p => ok S (fst p) /\ (cnt S (snd p) + own S r = cnt S w + own S (fst p))%Z);
  l_swp : forall a b w, ok S a -> ok S b -> post (stops S) (swp C a (b, w))
    (fun p => ok S (fst p) /\ ok S (fst (snd p)) /\ val S (fst p) = val S b /\ val S (fst (snd p)) = val S a /\
              (cnt S (snd (snd p)) + own S a + own S b = cnt S w + own S (fst p) + own S (fst (snd p)))%Z)
    (fun p => ok S (fst p) /\ ok S (fst (snd p)) /\
              (cnt S (snd (snd p)) + own S a + own S b = cnt S w + own S (fst p) + own S (fst (snd p)))%Z);
  l_self_swp : forall r w, ok S r -> post (stops S) (self_swp C r w)
    (fun p => ok S (fst p) /\ val S (fst p) = val S r /\ (cnt S (snd p) + own S r = cnt S w + own S (fst p))%Z)
    (fun p => ok S (fst p) /\ (cnt S (snd p) + own S r = cnt S w + own S (fst p))%Z);
  l_dtor : forall r w, ok S r -> post (stops S) (dtor C r w)
    (fun p => (cnt S (snd p) + own S r = cnt S w)%Z)
    (fun p => stops S);
  l_level : forall l r, l < lmax C -> lget C (lset C l r) = l;
  l_ok_level : forall r, 0 < lmax C -> ok S r -> lmax C <= lget C r;
  l_bound : forall r, lget C r < umax_base;
  l_max_bound : lmax C < umax_base;
  l_tcc_td : tcc C = true -> td C = true;
  l_tmc_td : tmc C = true -> td C = true;
  l_scalar_td : scalar C = true -> td C = true;
  l_td_own : forall r, td C = true -> ok S r -> own S r = 0%Z;
  l_tmc_mv : forall v, tmc C = true -> mv S v v;
  l_tma_selfmv : forall v, tmc C = true -> tma C = true -> selfmv S v v;
  l_scalar_throw : forall i r w r' w', scalar C = true -> ctor C i r w = Exn (r', w') -> r' = r;
  l_scalar_copy : forall s r w p, scalar C = true -> ok S s -> cctor C s r w <> Exn p
}.

(** A throwing constructor does not disturb a level pattern in the storage it was given.  Needed
    only when T carries levels; see the refutations for classes without it.  One condition per
    kind of constructor. *)
Definition quiet_init (i : init C) : Prop := forall r w r' w',
  0 < lmax C -> lget C r < lmax C -> ctor C i r w = Exn (r', w') -> lget C r' = lget C r.
Definition quiet_copy : Prop := forall s r w r' w', ok S s ->
  0 < lmax C -> lget C r < lmax C -> cctor C s r w = Exn (r', w') -> lget C r' = lget C r.
Definition quiet_move : Prop := forall s r w r' x, ok S s ->
  0 < lmax C -> lget C r < lmax C -> mctor C r (s, w) = Exn (r', x) -> lget C r' = lget C r.

Record quiet : Prop := {
  q_ctor : forall i, quiet_init i;
  q_cctor : quiet_copy;
  q_mctor : quiet_move
}.

(** Constructors that never throw. *)
Record steady : Prop := {
  s_ctor : forall i r w p, ctor C i r w <> Exn p;
  s_cctor : forall s r w p, ok S s -> cctor C s r w <> Exn p;
  s_mctor : forall s r w p, ok S s -> mctor C r (s, w) <> Exn p
}.

(** The invariant of an option: the ghost bit and what has_value() looks at agree, and a live
    object is proper. *)
Definition inv (c : cell C) : Prop :=
  (c_alive c = true -> ok S (c_raw c)) /\
  (0 < lmax C -> c_alive c = false -> lget C (c_raw c) = 0) /\
  (lmax C = 0 -> c_flag c = if c_alive c then 1 else 0).

(** The mathematical optional that an option stands for. *)
Definition oval (c : cell C) : option (V S) := if c_alive c then Some (val S (c_raw c)) else None.

Definition oown (c : cell C) : Z := if c_alive c then own S (c_raw c) else 0%Z.

(** Lifting relations on values to optionals. *)
Definition opt_rel {A} (R : A -> A -> Prop) (a b : option A) : Prop :=
  match a, b with
  | None, None => True
  | Some x, Some y => R x y
  | _, _ => False
  end.

(** Values that constructor arguments of option<T> may produce. *)
Definition odenotes (i : oinit (init C)) (o : option (V S)) : Prop :=
  match i with
  | INone | IConv None => o = None
  | IVal i | IConv (Some i) => exists v, o = Some v /\ denotes S i v
  end.

(** option<T> as a class has the optionals of T's values as its values. *)
Definition opt_sem : sem (opt_cls C) := {|
  V := option (V S) : Type;
  ok := inv : raw (opt_cls C) -> Prop;
  val := oval : raw (opt_cls C) -> _;
  denotes := odenotes : init (opt_cls C) -> _ -> Prop;
  mv := opt_rel (mv S);
  selfmv := opt_rel (selfmv S);
  own := oown : raw (opt_cls C) -> Z;
  cnt := cnt S;
  stops := stops S
|}.

End Laws.
Arguments none_pattern {W} C r.
Arguments lawful {W} C S.
Arguments quiet_init {W} C i.
Arguments quiet_copy {W} C S.
Arguments quiet_move {W} C S.
Arguments quiet {W} C S.
Arguments steady {W} C S.
Arguments inv {W} C S c.
Arguments oval {W} C S c.
Arguments oown {W} C S c.
Arguments odenotes {W} C S i o.
Arguments opt_sem {W} C S.

Fixpoint nest_sem {W} (n : nat) (C : cls W) (S : sem C) : sem (nest_cls n C) :=
  match n with
  | O => S
  | S n => opt_sem (nest_cls n C) (nest_sem n C S)
  end.
