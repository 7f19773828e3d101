(** std::optional<T> as the C++ standard describes it, for comparison with option<T>: README.md 330-341 says
    that the two can be exchanged.

    Sources: [optional.ctor], [optional.dtor], [optional.assign], [optional.swap], [optional.observe],
    [optional.mod] of the working draft of C++23.  A std::optional is what it contains: nothing or an object
    of T.  No storage, flag or level occurs here.  The bytes [g] in which a new object is created are
    unspecified; T's functions are those of Lifetime.v.  A destructor that throws and access to an empty
    optional are undefined ([res.on.functions], [optional.observe]). *)
From Coq Require Import NArith Bool List Arith.
From Verif Require Import Outcome Words Lifetime History.
Import ListNotations.

Section StdOptional.
Context {W : Type} (C : cls W) (g : raw C).

Definition held : Type := option (raw C).

(** val->T::~T() *)
Definition s_destroy (r : raw C) (w : W) : out W :=
  match dtor C r w with
  | Ret (_, w') => Ret w'
  | Exn _ => Undef
  | Abort => Abort
  | Undef => Undef
  end.

(** Direct-non-list-initialises the contained value.  If that throws there is none. *)
Definition s_make {X} (mk : raw C -> X -> out (raw C * X)) (x : X) : out (held * X) :=
  match mk g x with
  | Ret (r, x') => Ret (Some r, x')
  | Exn (_, x') => Exn (None, x')
  | Abort => Abort
  | Undef => Undef
  end.

(** Uses the contained value. *)
Definition s_use {X} (f : raw C -> X -> out (raw C * X)) (r : raw C) (x : X) : out (held * X) :=
  match f r x with
  | Ret (r', x') => Ret (Some r', x')
  | Exn (r', x') => Exn (Some r', x')
  | Abort => Abort
  | Undef => Undef
  end.

(** T's function that takes an rvalue, applied to the contained value of another optional. *)
Definition s_other (f : raw C -> raw C * W -> out (raw C * (raw C * W))) (r : raw C) (sw : held * W)
  : out (raw C * (held * W)) :=
  match sw with
  | (Some s, w) =>
      match f r (s, w) with
      | Ret (r', (s', w')) => Ret (r', (Some s', w'))
      | Exn (r', (s', w')) => Exn (r', (Some s', w'))
      | Abort => Abort
      | Undef => Undef
      end
  | (None, _) => Undef
  end.

(** reset, operator=(nullopt_t), ~optional *)
Definition s_reset (o : held) (w : W) : out (held * W) :=
  match o with
  | Some r =>
      match s_destroy r w with
      | Ret w' => Ret (None, w')
      | Exn w' => Exn (None, w')
      | Abort => Abort
      | Undef => Undef
      end
  | None => Ret (None, w)
  end.

Definition s_reset2 {X} (o : held) (xw : X * W) : out (held * (X * W)) :=
  match s_reset o (snd xw) with
  | Ret (o', w') => Ret (o', (fst xw, w'))
  | Exn (o', w') => Exn (o', (fst xw, w'))
  | Abort => Abort
  | Undef => Undef
  end.

(** Constructors from nullopt, a value or arguments, another optional<U>. *)
Definition s_ctor (i : oinit (init C)) (_ : held) (w : W) : out (held * W) :=
  match i with
  | INone | IConv None => Ret (None, w)
  | IVal i | IConv (Some i) => s_make (ctor C i) w
  end.

Definition s_cctor (s : held) (_ : held) (w : W) : out (held * W) :=
  match s with
  | Some s => s_make (cctor C s) w
  | None => Ret (None, w)
  end.

Definition s_mctor (_ : held) (sw : held * W) : out (held * (held * W)) :=
  match fst sw with
  | Some _ => s_make (s_other (mctor C)) sw
  | None => Ret (None, sw)
  end.

(** Assignment: from nullopt; from a value; from an optional<U>. *)
Definition s_asgn (i : oinit (init C)) (o : held) (w : W) : out (held * W) :=
  match i with
  | INone | IConv None => s_reset o w
  | IVal i | IConv (Some i) =>
      match o with
      | Some r => s_use (asgn C i) r w
      | None => s_make (ctor C i) w
      end
  end.

(** Copy assignment, [optional.assign] table 60. *)
Definition s_cassign (s o : held) (w : W) : out (held * W) :=
  match s, o with
  | Some s, Some r => s_use (cassign C s) r w
  | Some s, None => s_make (cctor C s) w
  | None, Some _ => s_reset o w
  | None, None => Ret (None, w)
  end.

Definition s_self_cassign (o : held) (w : W) : out (held * W) :=
  match o with
  | Some r => s_use (self_cassign C) r w
  | None => Ret (None, w)
  end.

(** Move assignment, table 61. *)
Definition s_massign (o : held) (sw : held * W) : out (held * (held * W)) :=
  match fst sw, o with
  | Some _, Some r => s_use (s_other (massign C)) r sw
  | Some _, None => s_make (s_other (mctor C)) sw
  | None, Some _ => s_reset2 o sw
  | None, None => Ret (None, sw)
  end.

Definition s_self_massign (o : held) (w : W) : out (held * W) :=
  match o with
  | Some r => s_use (self_massign C) r w
  | None => Ret (None, w)
  end.

(** x = v for an lvalue v of type T that is not inside x; x = *x. *)
Definition s_set_from (v : raw C) (o : held) (w : W) : out (held * W) :=
  match o with
  | Some r => s_use (cassign C v) r w
  | None => s_make (cctor C v) w
  end.

Definition s_set_self (o : held) (w : W) : out (held * W) :=
  match o with
  | Some r => s_use (self_cassign C) r w
  | None => Undef
  end.

(** emplace: calls *this = nullopt, then initialises. *)
Definition s_emplace (mk : raw C -> W -> out (raw C * W)) (o : held) (w : W) : out (held * W) :=
  match s_reset o w with
  | Ret (_, w') => s_make mk w'
  | m => m
  end.

(** swap, table 63. *)
Definition s_swap (a : held) (bw : held * W) : out (held * (held * W)) :=
  match a, fst bw with
  | Some ra, Some _ => s_use (s_other (swp C)) ra bw
  | Some _, None =>
      match s_make (s_other (mctor C)) (a, snd bw) with
      | Ret (b', (a', w')) =>
          match s_reset a' w' with
          | Ret (a'', w'') => Ret (a'', (b', w''))
          | Exn (a'', w'') => Exn (a'', (b', w''))
          | Abort => Abort
          | Undef => Undef
          end
      | Exn (b', (a', w')) => Exn (a', (b', w'))
      | Abort => Abort
      | Undef => Undef
      end
  | None, Some _ =>
      match s_make (s_other (mctor C)) bw with
      | Ret (a', (b', w')) =>
          match s_reset b' w' with
          | Ret (b'', w'') => Ret (a', (b'', w''))
          | Exn (b'', w'') => Exn (a', (b'', w''))
          | Abort => Abort
          | Undef => Undef
          end
      | Exn p => Exn p
      | Abort => Abort
      | Undef => Undef
      end
  | None, None => Ret (None, bw)
  end.

Definition s_self_swap (o : held) (w : W) : out (held * W) :=
  match o with
  | Some r => s_use (self_swp C) r w
  | None => Ret (None, w)
  end.

(** operator* and what the program does with the object. *)
Definition s_with_value (f : raw C -> W -> out (raw C * W)) (o : held) (w : W) : out (held * W) :=
  match o with
  | Some r => s_use f r w
  | None => Undef
  end.

(** std::optional<T> is a class, so it nests.  Levels do not exist; swap(a, b) of two optionals calls
    a.swap(b) ([optional.specalg]). *)
Definition std_cls : cls W := {|
  raw := held;
  init := oinit (init C);
  td := td C;
  tcc := tcc C;
  tca := tcc C && (tca C && td C);
  tmc := tmc C;
  tma := tmc C && (tma C && td C);
  scalar := false;
  ctor := s_ctor;
  cctor := s_cctor;
  mctor := s_mctor;
  asgn := s_asgn;
  cassign := s_cassign;
  massign := s_massign;
  self_cassign := s_self_cassign;
  self_massign := s_self_massign;
  swp := s_swap;
  self_swp := s_self_swap;
  dtor := s_reset;
  lmax := 0%N;
  lget := fun _ => 0%N;
  lset := fun _ o => o
|}.

(** * Programs *)

(** The calls that both classes have.  The names of the variables as in History.v. *)
Inductive scall : Type :=
| SNew (x : nat) (i : oinit (init C))              (* std::optional<T> x(i); *)
| SNewCopy (x y : nat)                             (* std::optional<T> x(y); *)
| SNewMove (x y : nat)                             (* std::optional<T> x(std::move(y)); *)
| SDestroy (x : nat)                               (* end of x's scope *)
| SAssign (x : nat) (i : oinit (init C))           (* x = nullopt, value or optional<U> *)
| SCopyAssign (x y : nat)                          (* x = y; *)
| SMoveAssign (x y : nat)                          (* x = std::move(y); *)
| SReset (x : nat)                                 (* x.reset(); *)
| SEmplace (x : nat) (i : init C)                  (* x.emplace(i); *)
| SEmplaceFrom (x y : nat)                         (* x.emplace( *y ); *)
| SSetFrom (x y : nat)                             (* x = *y; *)
| SSwap (x y : nat)                                (* x.swap(y); *)
| SUpdate (x : nat) (f : raw C -> W -> out (raw C * W)).  (* f( *x ); *)

Definition svars : Type := list (option held).

Inductive vout : Type :=
| VRet (l : svars) (w : W)
| VThrow (l : svars) (w : W)
| VAbort
| VUndef
| VBad.

Definition s_slot (l : svars) (x : nat) : option held :=
  match nth_error l x with
  | Some (Some o) => Some o
  | _ => None
  end.

Definition s_free (l : svars) (x : nat) : bool :=
  match nth_error l x with
  | Some None => true
  | _ => false
  end.

Definition s_on1 (l : svars) (x : nat) (m : held -> out (held * W)) : vout :=
  match s_slot l x with
  | Some o =>
      match m o with
      | Ret (o', w') => VRet (put l x (Some o')) w'
      | Exn (o', w') => VThrow (put l x (Some o')) w'
      | Abort => VAbort
      | Undef => VUndef
      end
  | None => VBad
  end.

Definition s_new1 (l : svars) (x : nat) (m : out (held * W)) : vout :=
  if s_free l x then
    match m with
    | Ret (o', w') => VRet (put l x (Some o')) w'
    | Exn (_, w') => VThrow l w'
    | Abort => VAbort
    | Undef => VUndef
    end
  else VBad.

Definition s_on2 (l : svars) (x y : nat) (m : held -> held -> out (held * (held * W))) : vout :=
  match s_slot l x, s_slot l y with
  | Some o, Some s =>
      match m o s with
      | Ret (o', (s', w')) => VRet (put (put l y (Some s')) x (Some o')) w'
      | Exn (o', (s', w')) => VThrow (put (put l y (Some s')) x (Some o')) w'
      | Abort => VAbort
      | Undef => VUndef
      end
  | _, _ => VBad
  end.

Definition s_step (o : scall) (l : svars) (w : W) : vout :=
  match o with
  | SNew x i => s_new1 l x (s_ctor i None w)
  | SNewCopy x y =>
      match s_slot l y with
      | Some s => s_new1 l x (s_cctor s None w)
      | None => VBad
      end
  | SNewMove x y =>
      if s_free l x then
        match s_slot l y with
        | Some s =>
            match s_mctor None (s, w) with
            | Ret (o', (s', w')) => VRet (put (put l y (Some s')) x (Some o')) w'
            | Exn (_, (s', w')) => VThrow (put l y (Some s')) w'
            | Abort => VAbort
            | Undef => VUndef
            end
        | None => VBad
        end
      else VBad
  | SDestroy x =>
      match s_slot l x with
      | Some o =>
          match s_reset o w with
          | Ret (_, w') => VRet (put l x None) w'
          | Exn (_, w') => VThrow (put l x None) w'
          | Abort => VAbort
          | Undef => VUndef
          end
      | None => VBad
      end
  | SAssign x i => s_on1 l x (fun o => s_asgn i o w)
  | SCopyAssign x y =>
      if Nat.eqb x y then s_on1 l x (fun o => s_self_cassign o w)
      else
        match s_slot l y with
        | Some s => s_on1 l x (fun o => s_cassign s o w)
        | None => VBad
        end
  | SMoveAssign x y =>
      if Nat.eqb x y then s_on1 l x (fun o => s_self_massign o w)
      else s_on2 l x y (fun o s => s_massign o (s, w))
  | SReset x => s_on1 l x (fun o => s_reset o w)
  | SEmplace x i => s_on1 l x (fun o => s_emplace (ctor C i) o w)
  | SEmplaceFrom x y =>
      if Nat.eqb x y then VUndef
      else
        match s_slot l y with
        | Some (Some r) => s_on1 l x (fun o => s_emplace (cctor C r) o w)
        | Some None => VUndef
        | None => VBad
        end
  | SSetFrom x y =>
      if Nat.eqb x y then s_on1 l x (fun o => s_set_self o w)
      else
        match s_slot l y with
        | Some (Some r) => s_on1 l x (fun o => s_set_from r o w)
        | Some None => VUndef
        | None => VBad
        end
  | SSwap x y =>
      if Nat.eqb x y then s_on1 l x (fun o => s_self_swap o w)
      else s_on2 l x y (fun o s => s_swap o (s, w))
  | SUpdate x f => s_on1 l x (fun o => s_with_value f o w)
  end.

Inductive rout : Type :=
| RDone (ks : list bool) (l : svars) (w : W)
| RAbort (ks : list bool)
| RUndef
| RBad.

Fixpoint s_run (os : list scall) (l : svars) (w : W) : rout :=
  match os with
  | [] => RDone [] l w
  | o :: os =>
      let next k l' w' :=
        match s_run os l' w' with
        | RDone ks l'' w'' => RDone (k :: ks) l'' w''
        | RAbort ks => RAbort (k :: ks)
        | h => h
        end in
      match s_step o l w with
      | VRet l' w' => next false l' w'
      | VThrow l' w' => next true l' w'
      | VAbort => RAbort []
      | VUndef => RUndef
      | VBad => RBad
      end
  end.

End StdOptional.
Arguments SNew {W C} _ _.
Arguments SNewCopy {W C} _ _.
Arguments SNewMove {W C} _ _.
Arguments SDestroy {W C} _.
Arguments SAssign {W C} _ _.
Arguments SCopyAssign {W C} _ _.
Arguments SMoveAssign {W C} _ _.
Arguments SReset {W C} _.
Arguments SEmplace {W C} _ _.
Arguments SEmplaceFrom {W C} _ _.
Arguments SSetFrom {W C} _ _.
Arguments SSwap {W C} _ _.
Arguments SUpdate {W C} _ _.
Arguments VRet {W C} _ _.
Arguments VThrow {W C} _ _.
Arguments VAbort {W C}.
Arguments VUndef {W C}.
Arguments VBad {W C}.
Arguments RDone {W C} _ _ _.
Arguments RAbort {W C} _.
Arguments RUndef {W C}.
Arguments RBad {W C}.

(** std::optional<std::optional<...<T>...>>, n times, with the bytes in which an innermost object is created. *)
Fixpoint nest_std {W} (n : nat) (C : cls W) (g : raw C) : {D : cls W & raw D} :=
  match n with
  | O => existT _ C g
  | S n => existT (fun D => raw D) (std_cls (projT1 (nest_std n C g)) (projT2 (nest_std n C g))) None
  end.
