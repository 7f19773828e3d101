(** Concrete classes used as witnesses and examples for the lifetime properties. *)
From Coq Require Import NArith ZArith Bool List.
From Verif Require Import Outcome Words Lifetime LifetimeSpec.
Import ListNotations.
Open Scope N_scope.

(** The world is a schedule: whether the next fallible call throws. *)
Definition schedule : Type := list bool.

Definition tick (w : schedule) : bool * schedule :=
  match w with
  | [] => (false, [])
  | b :: w => (b, w)
  end.

(** A class with [m] unused states (patterns 0 .. m-1), whose non-trivial members may throw.  A
    value v is kept as v + m; a moved-from object holds 0.  [torn]: a constructor that throws has
    already written something that looks like a value. *)
Definition may_throw {A} (w : schedule) (bad good : A) : out (A * schedule) :=
  let (b, w') := tick w in if b then Exn (bad, w') else Ret (good, w').

Definition fussy (m : N) (torn : bool) : cls schedule := {|
  raw := N;
  init := N;
  td := false;
  tcc := false;
  tca := false;
  tmc := false;
  tma := false;
  scalar := false;
  ctor := fun i r w => may_throw w (if torn then i + m else r) (i + m);
  cctor := fun s r w => may_throw w (if torn then s else r) s;
  mctor := fun r sw =>
    let (b, w') := tick (snd sw) in
    if b then Exn (if torn then fst sw else r, (fst sw, w')) else Ret (fst sw, (m, w'));
  asgn := fun i r w => may_throw w r (i + m);
  cassign := fun s r w => may_throw w r s;
  massign := fun r sw =>
    let (b, w') := tick (snd sw) in
    if b then Exn (r, (fst sw, w')) else Ret (fst sw, (m, w'));
  self_cassign := fun r w => may_throw w r r;
  self_massign := fun r w => may_throw w r r;
  swp := fun a bw =>
    let (b, w') := tick (snd bw) in
    if b then Exn (a, (fst bw, w')) else Ret (fst bw, (a, w'));
  self_swp := fun r w => may_throw w r r;
  dtor := fun r w => Ret (r, w);
  lmax := m;
  lget := fun r => if r <? m then r else m;
  lset := fun l _ => l
|}.

Definition fussy_sem (m : N) (torn : bool) : sem (fussy m torn) := {|
  V := N;
  ok := fun r : raw (fussy m torn) => m <= r;
  val := fun r : raw (fussy m torn) => r - m;
  denotes := fun (i : init (fussy m torn)) v => v = i;
  mv := fun _ v' => v' = 0;
  selfmv := fun v v' => v' = v;
  own := fun _ => 0%Z;
  cnt := fun _ => 0%Z;
  stops := False
|}.

(** A trivial scalar, like int: no calls are made, copying is a byte copy.  [m] unused states. *)
Definition plain (m : N) : cls unit := {|
  raw := N;
  init := N;
  td := true;
  tcc := true;
  tca := true;
  tmc := true;
  tma := true;
  scalar := true;
  ctor := fun i _ w => Ret (i, w);
  cctor := fun s _ w => Ret (s, w);
  mctor := fun _ sw => Ret (fst sw, sw);
  asgn := fun i _ w => Ret (i, w);
  cassign := fun s _ w => Ret (s, w);
  massign := fun _ sw => Ret (fst sw, sw);
  self_cassign := fun r w => Ret (r, w);
  self_massign := fun r w => Ret (r, w);
  swp := fun a bw => Ret (fst bw, (a, snd bw));
  self_swp := fun r w => Ret (r, w);
  dtor := fun r w => Ret (r, w);
  lmax := if m =? 0 then 0 else 1;
  lget := fun r => if (r =? 0) && negb (m =? 0) then 0 else 1;
  lset := fun _ _ => 0
|}.

Definition plain_sem (m : N) : sem (plain m) := {|
  V := N;
  ok := fun r : raw (plain m) => m <> 0 -> r <> 0;
  val := fun r : raw (plain m) => r;
  denotes := fun (i : init (plain m)) v => v = i;
  mv := fun v v' => v' = v;
  selfmv := fun v v' => v' = v;
  own := fun _ => 0%Z;
  cnt := fun _ => 0%Z;
  stops := True
|}.
