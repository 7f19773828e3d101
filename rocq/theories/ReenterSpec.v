(** What is asked of callbacks that use the option, and what the functions should do with them. *)
From Coq Require Import NArith ZArith Bool List.
From Verif Require Import Outcome Words Lifetime LifetimeSpec Api ApiSpec Reenter.
Import ListNotations.

Section Spec.
Context {W : Type} (C : cls W) (S : sem C).

(** A callback that leaves the option in a proper state and loses no object, whatever else it does; [R v b o]: with
    the value v in the option it may answer b and leave the optional o.  It may end the program if [B]. *)
Definition tells (B : Prop) (f : cell C * W -> out (bool * (cell C * W))) (R : V S -> bool -> option (V S) -> Prop) : Prop :=
  forall c w, inv C S c -> c_alive c = true -> post B (f (c, w))
    (fun q => inv C S (fst (snd q)) /\ R (val S (c_raw c)) (fst q) (oval C S (fst (snd q))) /\
              (cnt S (snd (snd q)) + oown C S c = cnt S w + oown C S (fst (snd q)))%Z)
    (fun q => inv C S (fst (snd q)) /\ (cnt S (snd (snd q)) + oown C S c = cnt S w + oown C S (fst (snd q)))%Z).

(** filter on optionals: the result and what is left. *)
Definition filter_says (p : pass) (R : V S -> bool -> option (V S) -> Prop) (o d s : option (V S)) : Prop :=
  match o with
  | None => d = None /\ s = None
  | Some v => exists b o', R v b o' /\
      if b then exists v1 v2, o' = Some v1 /\ d = Some v1 /\ left_by S p v1 v2 /\ s = Some v2
      else d = None /\ s = o'
  end.

(** take_if on optionals. *)
Definition take_if_says (R : V S -> bool -> option (V S) -> Prop) (o d s : option (V S)) : Prop :=
  match o with
  | None => d = None /\ s = None
  | Some v => exists b o', R v b o' /\ if b then d = o' /\ s = None else d = None /\ s = o'
  end.

(** A callback that sees the contained object only. *)
Definition inside {X} (f : raw C -> W -> out (raw C * (X * W))) (st : cell C * W) : out (X * (cell C * W)) :=
  let back (r : raw C) := mkcell r (c_flag (fst st)) true in
  match f (c_raw (fst st)) (snd st) with
  | Ret (r, (x, w)) => Ret (x, (back r, w))
  | Exn (r, (x, w)) => Exn (x, (back r, w))
  | Abort => Abort
  | Undef => Undef
  end.
Definition inside_visit (f : raw C -> W -> out (raw C * W)) (st : cell C * W) : out (cell C * W) :=
  let back (r : raw C) := mkcell r (c_flag (fst st)) true in
  match f (c_raw (fst st)) (snd st) with
  | Ret (r, w) => Ret (back r, w)
  | Exn (r, w) => Exn (back r, w)
  | Abort => Abort
  | Undef => Undef
  end.
Definition inside_make {A} (f : A -> raw C * W -> out (A * (raw C * W))) (a : A) (st : cell C * W) : out (A * (cell C * W)) :=
  let back (r : raw C) := mkcell r (c_flag (fst st)) true in
  match f a (c_raw (fst st), snd st) with
  | Ret (x, (r, w)) => Ret (x, (back r, w))
  | Exn (x, (r, w)) => Exn (x, (back r, w))
  | Abort => Abort
  | Undef => Undef
  end.
End Spec.
Arguments tells {W} C S B f R.
Arguments filter_says {W C} S p R o d s.
Arguments take_if_says {W C} S R o d s.
Arguments inside {W} C {X} f st.
Arguments inside_visit {W} C f st.
Arguments inside_make {W} C {A} f a st.
