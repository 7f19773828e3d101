(** Classes used as witnesses and examples for the noexcept properties. *)
From Coq Require Import NArith ZArith Bool List Lia.
From Verif Require Import Outcome Words Lifetime LifetimeSpec LifetimeFacts Select SelectSpec Noexcept NoexceptSpec Classes ClassesFacts.
Import ListNotations.
Open Scope N_scope.

(** A call that throws according to the schedule only if [b]. *)
Definition risky {A} (b : bool) (w : schedule) (bad good : A) : out (A * schedule) :=
  if b then may_throw w bad good else Ret (good, w).
Definition risky_move {A} (b : bool) (sw : N * schedule) (bad : A) (good : A) : out (A * (N * schedule)) :=
  if b then let (t, w) := tick (snd sw) in if t then Exn (bad, (fst sw, w)) else Ret (good, sw) else Ret (good, sw).

(** [copies]: copying may throw; [moves]: moving may throw.  A moved-from object keeps its value. *)
Definition picky (m : N) (copies moves : bool) : cls schedule := {|
  raw := N;
  init := N;
  td := false;
  tcc := false;
  tca := false;
  tmc := false;
  tma := false;
  scalar := false;
  ctor := fun i r w => may_throw w r (i + m);
  cctor := fun s r w => risky copies w r s;
  mctor := fun r sw => risky_move moves sw r (fst sw);
  asgn := fun i r w => may_throw w r (i + m);
  cassign := fun s r w => risky copies w r s;
  massign := fun r sw => risky_move moves sw r (fst sw);
  self_cassign := fun r w => risky copies w r r;
  self_massign := fun r w => risky moves w r r;
  swp := fun a bw => if moves then let (t, w) := tick (snd bw) in if t then Exn (a, (fst bw, w)) else Ret (fst bw, (a, w))
                     else Ret (fst bw, (a, snd bw));
  self_swp := fun r w => risky moves w r r;
  dtor := fun r w => Ret (r, w);
  lmax := m;
  lget := fun r => if r <? m then r else m;
  lset := fun l _ => l
|}.

Definition picky_sem (m : N) (copies moves : bool) : sem (picky m copies moves) := {|
  V := N;
  ok := fun r : raw (picky m copies moves) => m <= r;
  val := fun r : raw (picky m copies moves) => r - m;
  denotes := fun (i : init (picky m copies moves)) v => v = i;
  mv := fun v v' => v' = v;
  selfmv := fun v v' => v' = v;
  own := fun _ => 0%Z;
  cnt := fun _ => 0%Z;
  stops := False
|}.

(** std::is_... of it: like std::string for copies and not moves. *)
Definition picky_flags (copies moves : bool) : flags :=
  mkflags false false true true true true false false false false
    (negb copies) (negb copies) (negb moves) (negb moves).

Theorem picky_lawful : forall m c v, m < umax_base -> lawful (picky m c v) (picky_sem m c v).
Proof.
  intros m c v Hm. constructor; cbn -[umax_base N.add N.sub]; try discriminate; try exact Hm.
  - intros i r w. apply may_throw_post; cbn -[N.add N.sub]; intros w'; [|reflexivity]. left. repeat split; lia.
  - intros s r w Hs. unfold risky. destruct c; [apply may_throw_post|]; cbn; intros; auto.
  - intros s r w Hs. unfold risky_move. destruct v; cbn [snd fst]; [destruct (tick w) as [[|] w']|]; cbn; repeat split; auto; lia.
  - intros i r w Hr. apply may_throw_post; cbn -[N.add N.sub]; intros w'; auto; left; repeat split; lia.
  - intros s r w Hs Hr. unfold risky. destruct c; [apply may_throw_post|]; cbn; intros; auto.
  - intros s r w Hs Hr. unfold risky_move. destruct v; cbn [snd fst]; [destruct (tick w) as [[|] w']|]; cbn; repeat split; auto; lia.
  - intros r w Hr. unfold risky. destruct c; [apply may_throw_post|]; cbn; intros; auto.
  - intros r w Hr. unfold risky. destruct v; [apply may_throw_post|]; cbn; intros; auto.
  - intros a b w Ha Hb. destruct v; cbn [snd fst]; [destruct (tick w) as [[|] w']|]; cbn; repeat split; auto.
  - intros r w Hr. unfold risky. destruct v; [apply may_throw_post|]; cbn; intros; auto.
  - intros; reflexivity.
  - intros l r H. destruct (N.ltb_spec l m); lia.
  - intros r _ H. destruct (N.ltb_spec r m); lia.
  - intros r. destruct (N.ltb_spec r m); lia.
Qed.

Lemma risky_exn : forall A b w (bad good : A) p, risky b w bad good = Exn p -> fst p = bad.
Proof. intros A b w bad good p. unfold risky, may_throw. destruct b; [|discriminate]. destruct (tick w) as [[|] w']; intros [= <-]. reflexivity. Qed.
Lemma risky_move_exn : forall A b sw (bad good : A) p, risky_move b sw bad good = Exn p -> fst p = bad.
Proof. intros A b sw bad good p. unfold risky_move. destruct b; [|discriminate]. destruct (tick (snd sw)) as [[|] w']; intros [= <-]. reflexivity. Qed.

Theorem picky_quiet : forall m c v, quiet (picky m c v) (picky_sem m c v).
Proof.
  intros m c v. constructor.
  - intros i r w r' w' _ _ E. cbn [ctor picky] in E. unfold may_throw in E. destruct (tick w) as [[|] w2]; [|discriminate].
    injection E as <- _. reflexivity.
  - intros s r w r' w' _ _ _ E. cbn [cctor picky] in E. apply risky_exn in E. cbn in E. now subst.
  - intros s r w r' x _ _ _ E. cbn [mctor picky] in E. apply risky_move_exn in E. cbn in E. now subst.
Qed.

Theorem picky_blind : forall m c v, blind (picky m c v).
Proof.
  intros m c v. split.
  - intros s r r' w. cbn. unfold risky, may_throw. destruct c; [destruct (tick w) as [[|] w']|]; intros [p E]; try discriminate. now eexists.
  - intros s r r' w. cbn. unfold risky_move. destruct v; cbn [snd fst]; [destruct (tick w) as [[|] w']|]; intros [p E]; try discriminate. now eexists.
Qed.

Theorem picky_truthful : forall m c v, truthful (picky m c v) (picky_sem m c v) (picky_flags c v).
Proof.
  intros m c v. constructor; cbn; intros H; apply negb_true_iff in H; subst.
  - intros s r w _ p. discriminate.
  - split; [intros s r w _ _ p|intros r w _ p]; discriminate.
  - intros s r w _ p. discriminate.
  - split; [intros s r w _ _ p|intros r w _ p]; discriminate.
Qed.

Theorem picky_exacting : forall m c v, exacting (picky m c v) (picky_sem m c v) (picky_flags c v).
Proof.
  intros m c v. constructor; cbn; intros H; apply negb_false_iff in H; subst; exists m, m, [true]; repeat split; try reflexivity; now eexists.
Qed.

Lemma picky_describes : forall m c v, describes (picky_flags c v) (picky m c v).
Proof. intros. repeat split. Qed.

Lemma picky_swaps : forall m c, swap_silent (picky m c false) (picky_sem m c false).
Proof. intros m c. split; [intros a b w _ _ p|intros r w _ p]; discriminate. Qed.

(** Two such classes, with conversions that may throw; swap(T&, U&) does not. *)
Definition convert (m n : N) (r : N) (sw : N * schedule) : out (N * (N * schedule)) :=
  risky_move true sw r (fst sw - m + n).
Definition converters (m n : N) : cross (picky m false false) (picky n false false) :=
  @mkcross schedule (picky m false false) (picky n false false) (convert m n) (convert n m)
    (fun a bw => Ret (fst bw - n + m, (a - m + n, snd bw))).

Theorem converters_lawful : forall m n, cross_lawful (picky_sem m false false) (picky_sem n false false) (converters m n)
  (stops (picky_sem m false false) \/ stops (picky_sem n false false)) (fun x y : N => x = y) (fun x y : N => x = y).
Proof.
  intros m n. constructor; cbn -[N.add N.sub].
  - intros a r w Ha. unfold convert, risky_move. cbn [snd fst]. destruct (tick w) as [[|] w']; cbn -[N.add N.sub]; repeat split; auto; lia.
  - intros a r w Ha. unfold convert, risky_move. cbn [snd fst]. destruct (tick w) as [[|] w']; cbn -[N.add N.sub]; repeat split; auto; lia.
  - intros a b w Ha Hb. repeat split; lia.
Qed.

(** Options of these classes. *)
Definition pc (m : N) (copies moves : bool) (r flag : N) (alive : bool) : cell (picky m copies moves) :=
  @mkcell schedule (picky m copies moves) r flag alive.
