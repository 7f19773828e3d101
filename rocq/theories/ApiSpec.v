(** What the functional members should do, stated without their code. *)
From Coq Require Import NArith ZArith Bool List.
From Verif Require Import Outcome Words Lifetime LifetimeSpec Api.
Import ListNotations.
Open Scope N_scope.

(** [m] runs its callback exactly once, on [x] in the state [y], and passes its exceptions, failed
    checks and undefined behaviour on: the outcome is a function of that one call, whatever the
    callback. *)
Definition calls_once {X Y A B} (m : (X -> Y -> out A) -> out B) (x : X) (y : Y) : Prop :=
  exists k : out A -> out B,
    k Undef = Undef /\ k Abort = Abort /\ (forall e, exists b, k (Exn e) = Exn b) /\
    forall f, m f = k (f x y).

(** [m] does not run its callback. *)
Definition never_calls {X B} (m : X -> out B) : Prop := forall f f', m f = m f'.

Section Two.
Context {W : Type} (C D : cls W) (S : sem C) (T : sem D).

(** A callback that gets a contained object of class C and builds an object of class D: what it
    makes of the old value, the new value and the value left behind. *)
Definition produces (f : raw D -> raw C * W -> out (raw D * (raw C * W))) (R : V S -> V T -> V S -> Prop) : Prop :=
  forall d r w, ok S r -> post (stops S \/ stops T) (f d (r, w))
    (fun p => ok T (fst p) /\ ok S (fst (snd p)) /\ R (val S r) (val T (fst p)) (val S (fst (snd p))) /\
              (cnt S (snd (snd p)) + own S r = cnt S w + own T (fst p) + own S (fst (snd p)))%Z)
    (fun p => ok S (fst (snd p)) /\ (cnt S (snd (snd p)) + own S r = cnt S w + own S (fst (snd p)))%Z).

(** The same, except that it may also return the reserved pattern of class D (if [stops T]). *)
Definition attempts (f : raw D -> raw C * W -> out (raw D * (raw C * W))) (R : V S -> V T -> V S -> Prop) : Prop :=
  forall d r w, ok S r -> post (stops S \/ stops T) (f d (r, w))
    (fun p => (ok T (fst p) /\ ok S (fst (snd p)) /\ R (val S r) (val T (fst p)) (val S (fst (snd p))) /\
               (cnt S (snd (snd p)) + own S r = cnt S w + own T (fst p) + own S (fst (snd p)))%Z)
              \/ (stops T /\ none_pattern D (fst p)))
    (fun p => ok S (fst (snd p)) /\ (cnt S (snd (snd p)) + own S r = cnt S w + own S (fst (snd p)))%Z).

(** An assignment to an object of class D from an object of class C. *)
Definition assigns (f : raw D -> raw C * W -> out (raw D * (raw C * W))) (R : V S -> V T -> V S -> Prop) : Prop :=
  forall d r w, ok T d -> ok S r -> post (stops S \/ stops T) (f d (r, w))
    (fun p => (ok T (fst p) /\ ok S (fst (snd p)) /\ R (val S r) (val T (fst p)) (val S (fst (snd p))) /\
               (cnt S (snd (snd p)) + own T d + own S r = cnt S w + own T (fst p) + own S (fst (snd p)))%Z)
              \/ (stops T /\ none_pattern D (fst p)))
    (fun p => ok T (fst p) /\ ok S (fst (snd p)) /\
              (cnt S (snd (snd p)) + own T d + own S r = cnt S w + own T (fst p) + own S (fst (snd p)))%Z).

(** A throwing constructor does not disturb a level pattern. *)
Definition quiet_conv (f : raw D -> raw C * W -> out (raw D * (raw C * W))) : Prop := forall d r w d' q,
  ok S r -> 0 < lmax D -> lget D d < lmax D -> f d (r, w) = Exn (d', q) -> lget D d' = lget D d.
End Two.
Arguments assigns {W C D} S T f R.
Arguments quiet_conv {W C D} S f.
Arguments produces {W C D} S T f R.
Arguments attempts {W C D} S T f R.

Section One.
Context {W : Type} (C : cls W) (S : sem C).

(** A predicate or observer on the contained object. *)
Definition asks {X} (f : raw C -> W -> out (raw C * (X * W))) (R : V S -> X -> V S -> Prop) : Prop :=
  forall r w, ok S r -> post (stops S) (f r w)
    (fun p => ok S (fst p) /\ R (val S r) (fst (snd p)) (val S (fst p)) /\
              (cnt S (snd (snd p)) + own S r = cnt S w + own S (fst p))%Z)
    (fun p => ok S (fst p) /\ (cnt S (snd (snd p)) + own S r = cnt S w + own S (fst p))%Z).

Definition visits (f : raw C -> W -> out (raw C * W)) (R : V S -> V S -> Prop) : Prop :=
  forall r w, ok S r -> post (stops S) (f r w)
    (fun p => ok S (fst p) /\ R (val S r) (val S (fst p)) /\ (cnt S (snd p) + own S r = cnt S w + own S (fst p))%Z)
    (fun p => ok S (fst p) /\ (cnt S (snd p) + own S r = cnt S w + own S (fst p))%Z).

(** A callback without arguments that builds an object. *)
Definition makes (f : raw C -> W -> out (raw C * W)) (R : V S -> Prop) : Prop :=
  forall r w, post (stops S) (f r w)
    (fun p => ok S (fst p) /\ R (val S (fst p)) /\ cnt S (snd p) = (cnt S w + own S (fst p))%Z)
    (fun p => cnt S (snd p) = cnt S w).

(** What passing an operand leaves in it. *)
Definition left_by (p : pass) (v v' : V S) : Prop :=
  match p with
  | ByCopy => v' = v
  | ByMove => mv S v v'
  end.

Definition quiet_pass (p : pass) : Prop :=
  match p with
  | ByCopy => quiet_copy C S
  | ByMove => quiet_move C S
  end.
(** The operand is engaged afterwards iff it was before, also if the operation throws. *)
Definition keeps_engagement {A} (c : cell C) (m : out (A * (cell C * W))) : Prop :=
  post (stops S) m
    (fun q => inv C S (fst (snd q)) /\ c_alive (fst (snd q)) = c_alive c)
    (fun q => inv C S (fst (snd q)) /\ c_alive (fst (snd q)) = c_alive c).
End One.
Arguments asks {W C} S {X} f R.
Arguments visits {W C} S f R.
Arguments makes {W C} S f R.
Arguments left_by {W C} S p v v'.
Arguments quiet_pass {W} C S p.
Arguments keeps_engagement {W} C S {A} c m.

(** The mathematical versions of the operations, on optionals. *)
Definition first_of {A} (a b : option A) : option A := match a with Some _ => a | None => b end.
Definition both_of {A B} (a : option A) (b : option B) : option B := match a with Some _ => b | None => None end.
Definition one_of {A} (a b : option A) : option A :=
  match a, b with
  | Some _, None => a
  | None, Some _ => b
  | _, _ => None
  end.

(** A nested option as a tower of optionals, collapsed. *)
Fixpoint collapse {W} (C : cls W) (S : sem C) (n : nat) : V (nest_sem (Datatypes.S n) C S) -> option (V S) :=
  match n return V (nest_sem (Datatypes.S n) C S) -> option (V S) with
  | O => fun o => o
  | Datatypes.S n => fun o : option (V (nest_sem (Datatypes.S n) C S)) =>
      match o with
      | Some x => collapse C S n x
      | None => None
      end
  end.
