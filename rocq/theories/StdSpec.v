(** When two classes, options or programs behave alike: C69. *)
From Coq Require Import NArith ZArith Bool List.
From Verif Require Import Outcome Words Lifetime LifetimeSpec History HistorySpec StdOptional.
Import ListNotations.

(** The first outcome is as good as the second: both return or both throw, with related results.  The second
    may be undefined; the first may end the program if [B]. *)
Definition agree {A1 A2} (B : Prop) (m1 : out A1) (m2 : out A2) (R E : A1 -> A2 -> Prop) : Prop :=
  match m1, m2 with
  | _, Undef => True
  | Abort, Abort => True
  | Abort, _ => B
  | Ret a, Ret b => R a b
  | Exn a, Exn b => E a b
  | _, _ => False
  end.

Section Sim.
Context {W : Type} (C1 C2 : cls W) (Sm : sem C1) (R : raw C1 -> raw C2 -> Prop) (Ri : init C1 -> init C2 -> Prop).

(** Objects and worlds after a call. *)
Definition one (p : raw C1 * W) (q : raw C2 * W) : Prop := R (fst p) (fst q) /\ snd p = snd q.
Definition two (p : raw C1 * (raw C1 * W)) (q : raw C2 * (raw C2 * W)) : Prop :=
  R (fst p) (fst q) /\ one (snd p) (snd q).

(** A new value may have the pattern of the empty option, if the class allows it; option notices. *)
Definition one_or_none (p : raw C1 * W) (q : raw C2 * W) : Prop :=
  snd p = snd q /\ (R (fst p) (fst q) \/ (stops Sm /\ none_pattern C1 (fst p))).

(** The members of the classes do the same to the world and to related objects, in whatever storage. *)
Record sim : Prop := {
  sim_ok : forall r1 r2, R r1 r2 -> ok Sm r1;
  sim_ctor : forall i1 i2 r1 r2 w, Ri i1 i2 ->
    agree (stops Sm) (ctor C1 i1 r1 w) (ctor C2 i2 r2 w) one_or_none (fun p q => snd p = snd q);
  sim_cctor : forall s1 s2 r1 r2 w, R s1 s2 ->
    agree (stops Sm) (cctor C1 s1 r1 w) (cctor C2 s2 r2 w) one (fun p q => snd p = snd q);
  sim_mctor : forall s1 s2 r1 r2 w, R s1 s2 ->
    agree (stops Sm) (mctor C1 r1 (s1, w)) (mctor C2 r2 (s2, w)) two (fun p q => one (snd p) (snd q));
  sim_asgn : forall i1 i2 r1 r2 w, Ri i1 i2 -> R r1 r2 ->
    agree (stops Sm) (asgn C1 i1 r1 w) (asgn C2 i2 r2 w) one_or_none one;
  sim_cassign : forall s1 s2 r1 r2 w, R s1 s2 -> R r1 r2 ->
    agree (stops Sm) (cassign C1 s1 r1 w) (cassign C2 s2 r2 w) one one;
  sim_massign : forall s1 s2 r1 r2 w, R s1 s2 -> R r1 r2 ->
    agree (stops Sm) (massign C1 r1 (s1, w)) (massign C2 r2 (s2, w)) two two;
  sim_self_cassign : forall r1 r2 w, R r1 r2 ->
    agree (stops Sm) (self_cassign C1 r1 w) (self_cassign C2 r2 w) one one;
  sim_self_massign : forall r1 r2 w, R r1 r2 ->
    agree (stops Sm) (self_massign C1 r1 w) (self_massign C2 r2 w) one one;
  sim_dtor : forall r1 r2 w, R r1 r2 ->
    agree (stops Sm) (dtor C1 r1 w) (s_destroy C2 r2 w) (fun p w' => snd p = w') (fun _ _ => False)
}.

(** The same for the functions that exchange objects. *)
Record sim_swap : Prop := {
  sim_swp : forall a1 a2 b1 b2 w, R a1 a2 -> R b1 b2 ->
    agree (stops Sm) (swp C1 a1 (b1, w)) (swp C2 a2 (b2, w)) two two;
  sim_self_swp : forall r1 r2 w, R r1 r2 ->
    agree (stops Sm) (self_swp C1 r1 w) (self_swp C2 r2 w) one one
}.

(** An option and a std::optional with related contents. *)
Definition pairs (c : cell C1) (o : option (raw C2)) : Prop :=
  inv C1 Sm c /\
  match o with
  | Some r => c_alive c = true /\ R (c_raw c) r
  | None => c_alive c = false
  end.

Definition oinit_rel (i1 : oinit (init C1)) (i2 : oinit (init C2)) : Prop :=
  match i1, i2 with
  | INone, INone => True
  | IVal a, IVal b => Ri a b
  | IConv None, IConv None => True
  | IConv (Some a), IConv (Some b) => Ri a b
  | _, _ => False
  end.

(** The same call. *)
Definition same_call (o1 : call C1 Sm) (o2 : scall C2) : Prop :=
  match o1, o2 with
  | New x i _, SNew x' i' => x = x' /\ oinit_rel i i'
  | NewCopy x y _, SNewCopy x' y' => x = x' /\ y = y'
  | NewMove x y _, SNewMove x' y' => x = x' /\ y = y'
  | Destroy x, SDestroy x' => x = x'
  | Assign x i, SAssign x' i' => x = x' /\ oinit_rel i i'
  | CopyAssign x y, SCopyAssign x' y' => x = x' /\ y = y'
  | MoveAssign x y, SMoveAssign x' y' => x = x' /\ y = y'
  | Reset x, SReset x' => x = x'
  | Emplace x i, SEmplace x' i' => x = x' /\ Ri i i'
  | EmplaceFrom x y, SEmplaceFrom x' y' => x = x' /\ y = y'
  | SetFrom x y, SSetFrom x' y' => x = x' /\ y = y'
  | Swap x y, SSwap x' y' => x = x' /\ y = y'
  | Update x f _, SUpdate x' f' => x = x' /\
      forall r1 r2 w, R r1 r2 -> agree (stops Sm) (f r1 w) (f' r2 w) one one
  | _, _ => False
  end.

Definition exchanges (o : call C1 Sm) : bool := match o with Swap _ _ => true | _ => false end.

(** The variables of the two programs. *)
Definition alike (l1 : vars C1) (l2 : svars C2) : Prop :=
  Forall2 (fun s1 s2 =>
    match s1, s2 with
    | Some c, Some o => pairs c o
    | None, None => True
    | _, _ => False
    end) l1 l2.

(** The same run: the same calls throw, the world ends up the same, the variables are alike.  Where the
    program with std::optional is undefined nothing is said; where T may stop the program, option may. *)
Definition same_run (B : Prop) (h1 : hout C1) (h2 : rout C2) : Prop :=
  match h1, h2 with
  | _, RUndef => True
  | HDone ks1 l1 w1, RDone ks2 l2 w2 => ks1 = ks2 /\ w1 = w2 /\ alike l1 l2
  | HAbort ks1, RAbort ks2 => ks1 = ks2 \/ B
  | HAbort _, _ => B
  | HBad, RBad => True
  | _, _ => False
  end.

(** What has_value() answers for the variables of the two programs. *)
Definition same_answers (l1 : vars C1) (l2 : svars C2) : Prop :=
  length l1 = length l2 /\
  forall x c, slot l1 x = Some c ->
    exists o, s_slot C2 l2 x = Some o /\ o_has C1 c = Ok (match o with Some _ => true | None => false end).

End Sim.

(** A class whose trivial members do what trivial members do: copy the bytes and nothing else.  Assigning to
    a scalar is constructing it. *)
Record honest {W} (C : cls W) (Sm : sem C) : Prop := {
  h_tcc : forall s r w, tcc C = true -> ok Sm s -> cctor C s r w = Ret (s, w);
  h_tca : forall s r w, tca C = true -> ok Sm s -> ok Sm r -> cassign C s r w = Ret (s, w);
  h_tca_self : forall r w, tca C = true -> ok Sm r -> self_cassign C r w = Ret (r, w);
  h_tmc : forall s r w, tmc C = true -> ok Sm s -> mctor C r (s, w) = Ret (s, (s, w));
  h_tma : forall s r w, tma C = true -> ok Sm s -> ok Sm r -> massign C r (s, w) = Ret (s, (s, w));
  h_tma_self : forall r w, tma C = true -> ok Sm r -> self_massign C r w = Ret (r, w);
  h_td : forall r w, td C = true -> ok Sm r -> exists r', dtor C r w = Ret (r', w);
  h_scalar : forall i r w, scalar C = true -> ok Sm r -> asgn C i r w = ctor C i r w;
  h_scalar_copy : forall s r w, scalar C = true -> ok Sm s -> ok Sm r -> cassign C s r w = cctor C s r w;
  h_scalar_self : forall r w, scalar C = true -> ok Sm r -> self_cassign C r w = cctor C r r w
}.

(** A class whose constructors do not look at what the storage held before. *)
Record fresh {W} (C : cls W) (Sm : sem C) : Prop := {
  f_ctor : forall i r r' w, agree False (ctor C i r w) (ctor C i r' w) eq (fun p q => snd p = snd q);
  f_cctor : forall s r r' w, ok Sm s -> agree False (cctor C s r w) (cctor C s r' w) eq (fun p q => snd p = snd q);
  f_mctor : forall s r r' w, ok Sm s ->
    agree False (mctor C r (s, w)) (mctor C r' (s, w)) eq (fun p q => snd p = snd q)
}.

(** The relation for the innermost objects: equal and proper. *)
Definition equal {W} (C : cls W) (Sm : sem C) (a b : raw C) : Prop := a = b /\ ok Sm a.

Fixpoint nest_init_rel {W} (n : nat) (C : cls W) (g : raw C)
  : init (nest_cls n C) -> init (projT1 (nest_std n C g)) -> Prop :=
  match n with
  | O => eq
  | S n => oinit_rel (nest_cls n C) (projT1 (nest_std n C g)) (nest_init_rel n C g)
  end.

Fixpoint nest_rel {W} (n : nat) (C : cls W) (Sm : sem C) (g : raw C)
  : raw (nest_cls n C) -> raw (projT1 (nest_std n C g)) -> Prop :=
  match n with
  | O => equal C Sm
  | S n => pairs (nest_cls n C) (projT1 (nest_std n C g)) (nest_sem n C Sm) (nest_rel n C Sm g)
  end.
