(** What it means that a noexcept specification is right. *)
From Coq Require Import NArith ZArith Bool List.
From Verif Require Import Outcome Words Lifetime LifetimeSpec Select SelectSpec Noexcept.
Import ListNotations.
Open Scope N_scope.

(** No exception comes out. *)
Definition silent {A} (m : out A) : Prop := forall a, m <> Exn a.

(** The operation throws. *)
Definition loud {A} (m : out A) : Prop := exists a, m = Exn a.

Section Traits.
Context {W : Type} (C : cls W) (S : sem C).

(** An operation of T on proper objects, per trait: whether it throws. *)
Definition copy_ctor_silent : Prop := forall s r w, ok S s -> silent (cctor C s r w).
Definition move_ctor_silent : Prop := forall s r w, ok S s -> silent (mctor C r (s, w)).
Definition copy_assign_silent : Prop :=
  (forall s r w, ok S s -> ok S r -> silent (cassign C s r w)) /\ (forall r w, ok S r -> silent (self_cassign C r w)).
Definition move_assign_silent : Prop :=
  (forall s r w, ok S s -> ok S r -> silent (massign C r (s, w))) /\ (forall r w, ok S r -> silent (self_massign C r w)).
Definition swap_silent : Prop :=
  (forall a b w, ok S a -> ok S b -> silent (swp C a (b, w))) /\ (forall r w, ok S r -> silent (self_swp C r w)).

(** The is_nothrow_... traits tell the truth about T. *)
Record truthful (f : flags) : Prop := {
  y_cc : f_ncc f = true -> copy_ctor_silent;
  y_ca : f_nca f = true -> copy_assign_silent;
  y_mc : f_nmc f = true -> move_ctor_silent;
  y_ma : f_nma f = true -> move_assign_silent
}.

(** They are false only if there is something to throw. *)
Record exacting (f : flags) : Prop := {
  z_cc : f_ncc f = false -> exists s r w, ok S s /\ loud (cctor C s r w);
  z_ca : f_nca f = false -> exists s r w, ok S s /\ ok S r /\ loud (cassign C s r w);
  z_mc : f_nmc f = false -> exists s r w, ok S s /\ loud (mctor C r (s, w));
  z_ma : f_nma f = false -> exists s r w, ok S s /\ ok S r /\ loud (massign C r (s, w))
}.

(** Whether a constructor throws does not depend on what was in the storage before. *)
Definition blind : Prop :=
  (forall s r r' w, loud (cctor C s r w) -> loud (cctor C s r' w)) /\
  (forall s r r' w, loud (mctor C r (s, w)) -> loud (mctor C r' (s, w))).

(** The member [k] of option<T>, declared noexcept(b), never ends the program because of an
    exception: the declaration makes no difference. *)
Definition honest (k : kind) (b : bool) : Prop :=
  match k with
  | CopyCtor => forall src c w, inv C S src -> declared b (o_cctor C src c w) = o_cctor C src c w
  | MoveCtor => forall src c w, inv C S src -> declared b (o_mctor C c (src, w)) = o_mctor C c (src, w)
  | CopyAssign =>
      (forall src c w, inv C S src -> inv C S c -> declared b (o_cassign C src c w) = o_cassign C src c w) /\
      (forall c w, inv C S c -> declared b (o_self_cassign C c w) = o_self_cassign C c w)
  | MoveAssign =>
      (forall src c w, inv C S src -> inv C S c -> declared b (o_massign C c (src, w)) = o_massign C c (src, w)) /\
      (forall c w, inv C S c -> declared b (o_self_massign C c w) = o_self_massign C c w)
  end.

(** The member [k] does throw on some options. *)
Definition throws (k : kind) : Prop :=
  match k with
  | CopyCtor => exists src c w, inv C S src /\ loud (o_cctor C src c w)
  | MoveCtor => exists src c w, inv C S src /\ loud (o_mctor C c (src, w))
  | CopyAssign => exists src c w, inv C S src /\ inv C S c /\ loud (o_cassign C src c w)
  | MoveAssign => exists src c w, inv C S src /\ inv C S c /\ loud (o_massign C c (src, w))
  end.
End Traits.
Arguments copy_ctor_silent {W} C S.
Arguments move_ctor_silent {W} C S.
Arguments copy_assign_silent {W} C S.
Arguments move_assign_silent {W} C S.
Arguments swap_silent {W} C S.
Arguments truthful {W} C S f.
Arguments exacting {W} C S f.
Arguments blind {W} C.
Arguments honest {W} C S k b.
Arguments throws {W} C S k.

(** Two classes that convert to each other and can be swapped: the conversions relate values by [to]
    and [fro] and leave proper objects behind, also when they throw; [stop] is as for a class. *)
Record cross_lawful {W} {C D : cls W} (S : sem C) (R : sem D) (X : cross C D)
  (stop : Prop) (to : V S -> V R -> Prop) (fro : V R -> V S -> Prop) : Prop := {
  x_right : forall a r w, ok S a -> post stop (to_right X r (a, w))
    (fun p => ok R (fst p) /\ to (val S a) (val R (fst p)) /\ ok S (fst (snd p)))
    (fun p => ok S (fst (snd p)) /\ (0 < lmax D -> lget D r = 0 -> lget D (fst p) = 0));
  x_left : forall b r w, ok R b -> post stop (to_left X r (b, w))
    (fun p => ok S (fst p) /\ fro (val R b) (val S (fst p)) /\ ok R (fst (snd p)))
    (fun p => ok R (fst (snd p)) /\ (0 < lmax C -> lget C r = 0 -> lget C (fst p) = 0));
  x_both : forall a b w, ok S a -> ok R b -> post stop (exchange X a (b, w))
    (fun p => ok S (fst p) /\ ok R (fst (snd p)) /\ to (val S a) (val R (fst (snd p))) /\ fro (val R b) (val S (fst p)))
    (fun p => ok S (fst p) /\ ok R (fst (snd p)))
}.

(** Empty becomes empty, a value becomes a converted value. *)
Definition carried {A B} (R : A -> B -> Prop) (x : option A) (y : option B) : Prop :=
  match x, y with
  | None, None => True
  | Some a, Some b => R a b
  | _, _ => False
  end.

Record cross_silent {W} {C D : cls W} (S : sem C) (R : sem D) (X : cross C D) : Prop := {
  w_right : forall a r w, ok S a -> silent (to_right X r (a, w));
  w_left : forall b r w, ok R b -> silent (to_left X r (b, w));
  w_both : forall a b w, ok S a -> ok R b -> silent (exchange X a (b, w))
}.
