(** Watching the calls that an option makes to T.

    [logged C] is the class C with a recorder in the world: every call of a special member function
    of T that does not end the program is written down with whether it returned (true) or threw
    (false).  The option code of Lifetime.v is used unchanged on top of it. *)
From Coq Require Import NArith ZArith Bool List.
From Verif Require Import Outcome Words Lifetime LifetimeSpec.
Import ListNotations.

Inductive event : Type := ECtor | ECopyCtor | EMoveCtor | EAssign | ECopyAssign | EMoveAssign | ESwap | EDtor.

Definition log : Type := list (event * bool).

Section Log.
Context {W : Type} (C : cls W).

Definition rec1 (e : event) (f : raw C -> W -> out (raw C * W)) (r : raw C) (wl : W * log)
  : out (raw C * (W * log)) :=
  match f r (fst wl) with
  | Ret (r', w') => Ret (r', (w', snd wl ++ [(e, true)]))
  | Exn (r', w') => Exn (r', (w', snd wl ++ [(e, false)]))
  | Abort => Abort
  | Undef => Undef
  end.

Definition rec2 (e : event) (f : raw C -> raw C * W -> out (raw C * (raw C * W))) (r : raw C)
  (sw : raw C * (W * log)) : out (raw C * (raw C * (W * log))) :=
  match f r (fst sw, fst (snd sw)) with
  | Ret (r', (s', w')) => Ret (r', (s', (w', snd (snd sw) ++ [(e, true)])))
  | Exn (r', (s', w')) => Exn (r', (s', (w', snd (snd sw) ++ [(e, false)])))
  | Abort => Abort
  | Undef => Undef
  end.

Definition logged : cls (W * log) := {|
  raw := raw C;
  init := init C;
  td := td C;
  tcc := tcc C;
  tca := tca C;
  tmc := tmc C;
  tma := tma C;
  scalar := scalar C;
  ctor := fun i => rec1 ECtor (ctor C i);
  cctor := fun s => rec1 ECopyCtor (cctor C s);
  mctor := rec2 EMoveCtor (mctor C);
  asgn := fun i => rec1 EAssign (asgn C i);
  cassign := fun s => rec1 ECopyAssign (cassign C s);
  massign := rec2 EMoveAssign (massign C);
  self_cassign := rec1 ECopyAssign (self_cassign C);
  self_massign := rec1 EMoveAssign (self_massign C);
  swp := rec2 ESwap (swp C);
  self_swp := rec1 ESwap (self_swp C);
  dtor := rec1 EDtor (dtor C);
  lmax := lmax C;
  lget := lget C;
  lset := lset C
|}.

(** Objects made minus objects destroyed, according to a log. *)
Definition made1 (e : event * bool) : Z :=
  match e with
  | (ECtor, true) | (ECopyCtor, true) | (EMoveCtor, true) => 1
  | (EDtor, _) => -1
  | _ => 0
  end%Z.

Definition balance (l : log) : Z := fold_right (fun e z => (made1 e + z)%Z) 0%Z l.

(** The meaning of [logged C]: as C, each object counting one.  Trivial destructors leave no trace,
    so objects of trivially destructible classes count nothing. *)
Definition log_sem (S : sem C) : sem logged := {|
  V := V S;
  ok := ok S : raw logged -> Prop;
  val := val S : raw logged -> _;
  denotes := denotes S : init logged -> _ -> Prop;
  mv := mv S;
  selfmv := selfmv S;
  own := fun _ => (if td C then 0 else 1)%Z;
  cnt := fun wl => (if td C then 0 else balance (snd wl))%Z;
  stops := stops S
|}.

End Log.

(** What each operation should ask of T, given whether source and target hold a value ([hs], [h]).
    A member function that throws is the last one of the list and is recorded as thrown. *)
Definition returned (es : list event) : log := map (fun e => (e, true)) es.

(** [es] were called and returned; if the operation threw, the last event of [es'] did. *)
Definition logs {W A} (l : log) (m : out (A * (W * log))) (es es' : list event) : Prop :=
  match m with
  | Ret (_, (_, l')) => l' = l ++ returned es
  | Exn (_, (_, l')) => exists es0 e, es' = es0 ++ [e] /\ l' = l ++ returned es0 ++ [(e, false)]
  | _ => True
  end.

Definition logs2 {W A B} (l : log) (m : out (A * (B * (W * log)))) (es es' : list event) : Prop :=
  match m with
  | Ret (_, (_, (_, l'))) => l' = l ++ returned es
  | Exn (_, (_, (_, l'))) => exists es0 e, es' = es0 ++ [e] /\ l' = l ++ returned es0 ++ [(e, false)]
  | _ => True
  end.

Definition destroys (td h : bool) : list event := if h && negb td then [EDtor] else [].
