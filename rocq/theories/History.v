(** Programs that use any number of option<T> variables.

    A program is a list of calls; each call is one member function of option<T> (Lifetime.v) applied
    to variables.  A variable is a slot: [None] while no option object lives there.  Exceptions
    leave the call and the program goes on with the next one, so a program with arbitrary try
    blocks is covered by the list of the calls it actually makes. *)
From Coq Require Import NArith Bool List Arith.
From Verif Require Import Outcome Words Lifetime LifetimeSpec.
Import ListNotations.

Fixpoint put {A} (l : list A) (x : nat) (v : A) : list A :=
  match l, x with
  | [], _ => []
  | _ :: l, O => v :: l
  | a :: l, S x => a :: put l x v
  end.

Section History.
Context {W : Type} (C : cls W) (Sm : sem C).

(** Calls.  [x] is the variable the function is called on or the one that is declared, [y] another
    operand, [g] the bytes that the storage of a declared variable held before.  [Update] is any use
    of the contained object through get() / operator* on an lvalue; [TakeIf] has a predicate.  The
    relations beside the two functions say what the functions are known to do to values; they do
    not influence execution. *)
Inductive call : Type :=
| New (x : nat) (i : oinit (init C)) (g : cell C)                (* option<T> x(i); *)
| NewCopy (x y : nat) (g : cell C)                               (* option<T> x(y); *)
| NewMove (x y : nat) (g : cell C)                               (* option<T> x(std::move(y)); *)
| NewTake (nrvo : bool) (x y : nat) (g : cell C)                 (* option<T> x(y.take()); *)
| NewTakeIf (nrvo : bool) (p : raw C -> W -> out (raw C * (bool * W))) (pr : V Sm -> bool -> V Sm -> Prop)
    (x y : nat) (g : cell C)                                     (* option<T> x(y.take_if(p)); *)
| Destroy (x : nat)                                              (* end of x's scope *)
| Assign (x : nat) (i : oinit (init C))                          (* x = none, value or option<U> *)
| CopyAssign (x y : nat)                                         (* x = y; *)
| MoveAssign (x y : nat)                                         (* x = std::move(y); *)
| Reset (x : nat)                                                (* x.reset(); *)
| Emplace (x : nat) (i : init C)                                 (* x.emplace(i); *)
| TryEmplace (x : nat) (i : init C)                              (* x.try_emplace(i); *)
| EmplaceFrom (x y : nat)                                        (* x.emplace( *y ); *)
| SetFrom (x y : nat)                                            (* x = *y; *)
| Swap (x y : nat)                                               (* x.swap(y); *)
| Update (x : nat) (f : raw C -> W -> out (raw C * W)) (fr : V Sm -> V Sm -> Prop).  (* f( *x ); *)

Definition vars : Type := list (option (cell C)).

(** [Bad]: the text of the program is wrong (undeclared variable, redeclaration). *)
Inductive sout : Type :=
| SRet (l : vars) (w : W)
| SThrow (l : vars) (w : W)
| SAbort
| SUndef
| SBad.

Definition slot (l : vars) (x : nat) : option (cell C) :=
  match nth_error l x with
  | Some (Some c) => Some c
  | _ => None
  end.

Definition free (l : vars) (x : nat) : bool :=
  match nth_error l x with
  | Some None => true
  | _ => false
  end.

(** A member function called on variable x. *)
Definition on1 (l : vars) (w : W) (x : nat) (m : cell C -> W -> out (cell C * W)) : sout :=
  match slot l x with
  | Some c =>
      match m c w with
      | Ret (c', w') => SRet (put l x (Some c')) w'
      | Exn (c', w') => SThrow (put l x (Some c')) w'
      | Abort => SAbort
      | Undef => SUndef
      end
  | None => SBad
  end.

(** A constructor; if it throws there is no object. *)
Definition new1 (l : vars) (w : W) (x : nat) (m : W -> out (cell C * W)) : sout :=
  if free l x then
    match m w with
    | Ret (c', w') => SRet (put l x (Some c')) w'
    | Exn (_, w') => SThrow l w'
    | Abort => SAbort
    | Undef => SUndef
    end
  else SBad.

Definition new2 (l : vars) (w : W) (x y : nat) (m : cell C * W -> out (cell C * (cell C * W))) : sout :=
  if free l x then
    match slot l y with
    | Some d =>
        match m (d, w) with
        | Ret (c', (d', w')) => SRet (put (put l y (Some d')) x (Some c')) w'
        | Exn (_, (d', w')) => SThrow (put l y (Some d')) w'
        | Abort => SAbort
        | Undef => SUndef
        end
    | None => SBad
    end
  else SBad.

Definition on2 (l : vars) (w : W) (x y : nat) (m : cell C -> cell C * W -> out (cell C * (cell C * W))) : sout :=
  match slot l x, slot l y with
  | Some c, Some d =>
      match m c (d, w) with
      | Ret (c', (d', w')) => SRet (put (put l y (Some d')) x (Some c')) w'
      | Exn (c', (d', w')) => SThrow (put (put l y (Some d')) x (Some c')) w'
      | Abort => SAbort
      | Undef => SUndef
      end
  | _, _ => SBad
  end.

(** operator*() const& on variable y (3106-3124, 3069): check, then the object. *)
Definition deref {A} (c : cell C) (k : raw C -> out A) : out A :=
  check (o_has C c) (fun h => if h then if c_alive c then k (c_raw c) else Undef else Abort).

Definition step (o : call) (l : vars) (w : W) : sout :=
  match o with
  | New x i g => new1 l w x (o_ctor C i g)
  | NewCopy x y g =>
      match slot l y with
      | Some s => new1 l w x (o_cctor C s g)
      | None => SBad
      end
  | NewMove x y g => new2 l w x y (o_mctor C g)
  | NewTake nrvo x y g => new2 l w x y (o_take C nrvo g)
  | NewTakeIf nrvo p _ x y g => new2 l w x y (o_take_if C nrvo p g)
  | Destroy x =>
      match slot l x with
      | Some c =>
          match o_dtor C c w with
          | Ret (_, w') => SRet (put l x None) w'
          | Exn (_, w') => SThrow (put l x None) w'
          | Abort => SAbort
          | Undef => SUndef
          end
      | None => SBad
      end
  | Assign x i => on1 l w x (o_asgn C i)
  | CopyAssign x y =>
      if Nat.eqb x y then on1 l w x (o_self_cassign C)
      else
        match slot l y with
        | Some s => on1 l w x (o_cassign C s)
        | None => SBad
        end
  | MoveAssign x y =>
      if Nat.eqb x y then on1 l w x (o_self_massign C) else on2 l w x y (o_massign C)
  | Reset x => on1 l w x (o_reset C)
  | Emplace x i => on1 l w x (o_emplace C (o_reset C) (ctor C i))
  | TryEmplace x i => on1 l w x (o_try_emplace C i)
  | EmplaceFrom x y =>
      if Nat.eqb x y then on1 l w x (fun c w => deref c (fun _ => o_emplace_self C c w))
      else
        match slot l y with
        | Some s => on1 l w x (fun c w => deref s (fun r => o_emplace C (o_reset C) (cctor C r) c w))
        | None => SBad
        end
  | SetFrom x y =>
      if Nat.eqb x y then on1 l w x (fun c w => deref c (fun _ => o_set_self C c w))
      else
        match slot l y with
        | Some s => on1 l w x (fun c w => deref s (fun r => o_set_from C r c w))
        | None => SBad
        end
  | Swap x y => if Nat.eqb x y then on1 l w x (o_self_swap C) else on2 l w x y (o_swap C)
  | Update x f _ => on1 l w x (o_with_value C f)
  end.

(** A whole program: the list says for each call whether it threw. *)
Inductive hout : Type :=
| HDone (ks : list bool) (l : vars) (w : W)
| HAbort (ks : list bool)
| HUndef
| HBad.

Fixpoint run (os : list call) (l : vars) (w : W) : hout :=
  match os with
  | [] => HDone [] l w
  | o :: os =>
      let next k l' w' :=
        match run os l' w' with
        | HDone ks l'' w'' => HDone (k :: ks) l'' w''
        | HAbort ks => HAbort (k :: ks)
        | h => h
        end in
      match step o l w with
      | SRet l' w' => next false l' w'
      | SThrow l' w' => next true l' w'
      | SAbort => HAbort []
      | SUndef => HUndef
      | SBad => HBad
      end
  end.

End History.
Arguments New {W C Sm} _ _ _.
Arguments NewCopy {W C Sm} _ _ _.
Arguments NewMove {W C Sm} _ _ _.
Arguments NewTake {W C Sm} _ _ _ _.
Arguments NewTakeIf {W C Sm} _ _ _ _ _ _.
Arguments Destroy {W C Sm} _.
Arguments Assign {W C Sm} _ _.
Arguments CopyAssign {W C Sm} _ _.
Arguments MoveAssign {W C Sm} _ _.
Arguments Reset {W C Sm} _.
Arguments Emplace {W C Sm} _ _.
Arguments TryEmplace {W C Sm} _ _.
Arguments EmplaceFrom {W C Sm} _ _.
Arguments SetFrom {W C Sm} _ _.
Arguments Swap {W C Sm} _ _.
Arguments Update {W C Sm} _ _ _.
Arguments SRet {W C} _ _.
Arguments SThrow {W C} _ _.
Arguments SAbort {W C}.
Arguments SUndef {W C}.
Arguments SBad {W C}.
Arguments HDone {W C} _ _ _.
Arguments HAbort {W C} _.
Arguments HUndef {W C}.
Arguments HBad {W C}.
Arguments slot {W C} _ _.
Arguments free {W C} _ _.
