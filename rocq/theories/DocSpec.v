(** When a class of the model and a class as the documentation sees it are the same, and what it means that a
    function does what its code equivalent does.

    The world is the same on both sides, so equal worlds afterwards mean that the same functions of T were called
    in the same order with the same effects: take a world that records all calls. *)
From Coq Require Import NArith List Bool.
From Verif Require Import Outcome Lifetime LifetimeSpec Api DocLang DocSnippets.
Import ListNotations.
Open Scope N_scope.

(** The outcomes agree: both return, both throw, both end the program, both are undefined. *)
Definition agree {P Q R} (ret : P -> R -> Q -> Prop) (exn : P -> Q -> Prop) (m : out P) (n : step Q R) : Prop :=
  match m, n with
  | Ret p, Got r q => ret p r q
  | Exn p, Thrown q => exn p q
  | Abort, Stopped => True
  | Undef, Wrong => True
  | _, _ => False
  end.

Section Same.
Context {W : Type} (C : cls W) (S : sem C) (A : dcls W).
Context (R : raw C -> obj A -> Prop) (I : init C -> darg A -> Prop).

(** A new object and the world; an object that stays and the world; two objects. *)
Definition new_ (p : raw C * W) (a : obj A) (w : W) : Prop := R (fst p) a /\ snd p = w.
Definition new_thrown (p : raw C * W) (w : W) : Prop := snd p = w.
Definition stays (p : raw C * W) (q : obj A * W) : Prop := R (fst p) (fst q) /\ snd p = snd q.
Definition two_stay (p : raw C * (raw C * W)) (q : obj A * (obj A * W)) : Prop :=
  R (fst p) (fst q) /\ R (fst (snd p)) (fst (snd q)) /\ snd (snd p) = snd (snd q).

(** [R r a]: the bytes r are the object a.  A trivial operation does nothing but copy the bytes. *)
Record same : Prop := {
  m_ok : forall r a, R r a -> ok S r;
  m_ctor : forall i j r w, I i j -> agree new_ new_thrown (ctor C i r w) (d_make A j w);
  m_cctor : forall s a r w, R s a -> agree new_ new_thrown (cctor C s r w) (d_copy A a w);
  m_mctor : forall s a r w, R s a ->
    agree (fun p a q => R (fst p) a /\ stays (snd p) q) (fun p q => stays (snd p) q) (mctor C r (s, w)) (d_move A (a, w));
  m_asgn : forall i j r a w, I i j -> R r a -> agree (fun p _ q => stays p q) stays (asgn C i r w) (d_assign A j (a, w));
  m_cassign : forall s a r b w, R s a -> R r b ->
    agree (fun p _ q => stays p q) stays (cassign C s r w) (d_cassign A a (b, w));
  m_massign : forall s a r b w, R s a -> R r b ->
    agree (fun p _ q => two_stay p q) two_stay (massign C r (s, w)) (d_massign A (b, (a, w)));
  m_swp : forall s a r b w, R s a -> R r b ->
    agree (fun p _ q => two_stay p q) two_stay (swp C r (s, w)) (d_swap A (b, (a, w)));
  m_dtor : forall r a w, R r a -> agree (fun p _ w => snd p = w) (fun p w => snd p = w) (dtor C r w) (d_destroy A a w);
  m_td : forall r a w, td C = true -> R r a -> d_destroy A a w = Got tt w;
  m_tcc : forall s a w, tcc C = true -> R s a -> exists b, d_copy A a w = Got b w /\ R s b;
  m_tmc : forall s a w, tmc C = true -> R s a -> exists b a', d_move A (a, w) = Got b (a', w) /\ R s b /\ R s a';
  m_tca : forall s a r b w, tcc C = true -> tca C = true -> R s a -> R r b ->
    exists b', d_cassign A a (b, w) = Got tt (b', w) /\ R s b';
  m_tma : forall s a r b w, tmc C = true -> tma C = true -> R s a -> R r b ->
    exists b' a', d_massign A (b, (a, w)) = Got tt (b', (a', w)) /\ R s b' /\ R s a';
  m_scalar : forall i j r a w, scalar C = true -> I i j -> R r a ->
    agree (fun p _ q => stays p q) stays (ctor C i r w) (d_assign A j (a, w))
}.

(** The storage c is an option that holds a, or is empty. *)
Definition orel (c : cell C) (o : option (obj A)) : Prop :=
  inv C S c /\
  match o with
  | Some a => c_alive c = true /\ R (c_raw c) a
  | None => c_alive c = false
  end.

Definition oirel (i : oinit (init C)) (j : oarg (darg A)) : Prop :=
  match i, j with
  | INone, ANone => True
  | IVal i, AValue j => I i j
  | IConv (Some i), AOption (Some j) => I i j
  | IConv None, AOption None => True
  | _, _ => False
  end.
End Same.
Arguments new_ {W C A} R p a w.
Arguments new_thrown {W C} p w.
Arguments stays {W C A} R p q.
Arguments two_stay {W C A} R p q.
Arguments same {W} C S A R I.
Arguments orel {W C} S {A} R c o.
Arguments oirel {W C A} I i j.

(** The relation for nested options. *)
Fixpoint nrel {W} {C : cls W} (S : sem C) {A : dcls W} (R : raw C -> obj A -> Prop) (n : nat)
  : raw (nest_cls n C) -> obj (doc_nest n A) -> Prop :=
  match n return raw (nest_cls n C) -> obj (doc_nest n A) -> Prop with
  | O => R
  | Datatypes.S n => orel (C := nest_cls n C) (nest_sem n C S) (A := doc_nest n A) (nrel S R n)
  end.
Fixpoint nirel {W} {C : cls W} {A : dcls W} (I : init C -> darg A -> Prop) (n : nat)
  : init (nest_cls n C) -> darg (doc_nest n A) -> Prop :=
  match n return init (nest_cls n C) -> darg (doc_nest n A) -> Prop with
  | O => I
  | Datatypes.S n => oirel (C := nest_cls n C) (A := doc_nest n A) (nirel I n)
  end.

(** What the code equivalents and the functions leave behind. *)
Definition category_of (p : pass) : category := match p with ByCopy => Lvalue | ByMove => Rvalue end.

Section One.
Context {W : Type} (C : cls W) (S : sem C) (A : dcls W) (R : raw C -> obj A -> Prop).
Notation orel := (orel S R).

(** An option and the world. *)
Definition srel (p : cell C * W) (q : option (obj A) * W) : Prop := orel (fst p) (fst q) /\ snd p = snd q.

(** The result of a function and the option it was called on; only the latter if the function throws. *)
Definition result (p : cell C * (cell C * W)) (o : option (obj A)) (q : option (obj A) * W) : Prop :=
  orel (fst p) o /\ srel (snd p) q.
Definition thrown (p : cell C * (cell C * W)) (q : option (obj A) * W) : Prop := srel (snd p) q.

(** The same predicate, the same visitor of the contained object. *)
Definition same_predicate (f : raw C -> W -> out (raw C * (bool * W))) (g : obj A * W -> step (obj A * W) bool) : Prop :=
  forall r a w, R r a -> agree (fun p b q => fst (snd p) = b /\ stays R (fst p, snd (snd p)) q)
    (fun p q => stays R (fst p, snd (snd p)) q) (f r w) (g (a, w)).
Definition same_visitor (f : raw C -> W -> out (raw C * W)) (g : obj A * W -> step (obj A * W) unit) : Prop :=
  forall r a w, R r a -> agree (fun p _ q => stays R p q) (stays R) (f r w) (g (a, w)).

(** The result and both operands. *)
Definition result2 (p : cell C * (cell C * (cell C * W))) (o : option (obj A)) (q : option (obj A) * (option (obj A) * W)) : Prop :=
  orel (fst p) o /\ orel (fst (snd p)) (fst q) /\ srel (snd (snd p)) (snd q).
Definition thrown2 (p : cell C * (cell C * (cell C * W))) (q : option (obj A) * (option (obj A) * W)) : Prop :=
  orel (fst (snd p)) (fst q) /\ srel (snd (snd p)) (snd q).
End One.

Section Two.
Context {W : Type} (C : cls W) (S : sem C) (A : dcls W) (R : raw C -> obj A -> Prop).
Context (D : cls W) (T : sem D) (B : dcls W) (R' : raw D -> obj B -> Prop).
Notation orel' := (orel T R').
Notation orel := (orel S R).
Notation srel := (srel C S A R).

(** The same function of the contained object that makes an object of the other class, is assigned to one, or makes
    an option of the other class. *)
Definition same_function (f : raw D -> raw C * W -> out (raw D * (raw C * W))) (g : obj A * W -> step (obj A * W) (obj B)) : Prop :=
  forall x r a w, R r a -> agree (fun p y q => R' (fst p) y /\ stays R (snd p) q) (fun p q => stays R (snd p) q) (f x (r, w)) (g (a, w)).
Definition same_assignment (f : raw D -> raw C * W -> out (raw D * (raw C * W))) (g : obj B * (obj A * W) -> step (obj B * (obj A * W)) unit) : Prop :=
  forall x y r a w, R' x y -> R r a -> agree (fun p _ q => R' (fst p) (fst q) /\ stays R (snd p) (snd q))
    (fun p q => R' (fst p) (fst q) /\ stays R (snd p) (snd q)) (f x (r, w)) (g (y, (a, w))).
Definition same_option_function (f : cell D -> raw C * W -> out (cell D * (raw C * W))) (g : obj A * W -> step (obj A * W) (option (obj B))) : Prop :=
  forall x r a w, R r a -> agree (fun p y q => orel' (fst p) y /\ stays R (snd p) q) (fun p q => stays R (snd p) q) (f x (r, w)) (g (a, w)).

(** What was made and the option it was made from. *)
Definition made_option_rel (p : cell D * (cell C * W)) (o : option (obj B)) (q : option (obj A) * W) : Prop :=
  orel' (fst p) o /\ srel (snd p) q.
Definition made_object_rel (p : raw D * (cell C * W)) (y : obj B) (q : option (obj A) * W) : Prop :=
  R' (fst p) y /\ srel (snd p) q.
Definition not_made {X} (p : X * (cell C * W)) (q : option (obj A) * W) : Prop := srel (snd p) q.

(** A function that makes an object does not change the level of the storage when it throws. *)
Definition quiet_function (f : raw D -> raw C * W -> out (raw D * (raw C * W))) : Prop :=
  forall d r w d' q, ok S r -> 0 < lmax D -> lget D d < lmax D -> f d (r, w) = Exn (d', q) -> lget D d' = lget D d.
End Two.
