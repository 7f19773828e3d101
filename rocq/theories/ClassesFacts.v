(** The example classes obey the rules for classes, and the witnesses of the refutations. *)
From Coq Require Import NArith ZArith Bool List Lia ZifyBool ZifyN.
From Verif Require Import Outcome Words Lifetime LifetimeSpec LifetimeFacts Classes.
Import ListNotations.
Open Scope N_scope.

Lemma may_throw_post : forall A (B : Prop) w (bad good : A) (R E : A * schedule -> Prop),
  (forall w', R (good, w')) -> (forall w', E (bad, w')) -> post B (may_throw w bad good) R E.
Proof. intros A B w bad good R E HR HE. unfold may_throw. destruct (tick w) as [[|] w']; cbn; auto. Qed.

Theorem fussy_lawful : forall m torn, m < umax_base -> lawful (fussy m torn) (fussy_sem m torn).
Proof.
  intros m torn Hm. constructor; cbn -[umax_base N.add N.sub]; try discriminate; try exact Hm.
  - intros i r w. apply may_throw_post; cbn -[N.add N.sub]; intros w'; [|reflexivity]. left. repeat split; lia.
  - intros s r w Hs. apply may_throw_post; cbn; intros w'; auto.
  - intros s r w Hs. destruct (tick w) as [[|] w']; cbn -[N.sub]; auto; repeat split; lia.
  - intros i r w Hr. apply may_throw_post; cbn -[N.add N.sub]; intros w'; auto; left; repeat split; lia.
  - intros s r w Hs Hr. apply may_throw_post; cbn; intros w'; auto.
  - intros s r w Hs Hr. destruct (tick w) as [[|] w']; cbn -[N.sub]; auto; repeat split; lia.
  - intros r w Hr. apply may_throw_post; cbn; intros w'; auto.
  - intros r w Hr. apply may_throw_post; cbn; intros w'; auto.
  - intros a b w Ha Hb. destruct (tick w) as [[|] w']; cbn -[N.sub]; auto; repeat split; auto.
  - intros r w Hr. apply may_throw_post; cbn; intros w'; auto.
  - intros; reflexivity.
  - intros l r H. destruct (N.ltb_spec l m); lia.
  - intros r _ H. destruct (N.ltb_spec r m); lia.
  - intros r. destruct (N.ltb_spec r m); lia.
Qed.

Theorem fussy_quiet : forall m torn, (m = 0 \/ torn = false) -> quiet (fussy m torn) (fussy_sem m torn).
Proof.
  intros m torn H.
  constructor.
  - intros i r w r' w' Hm _ E. cbn in Hm, E. destruct H as [->| ->]; [lia|].
    unfold may_throw in E. destruct (tick w) as [[|] w2]; [|discriminate]. injection E as <- _. reflexivity.
  - intros s r w r' w' _ Hm _ E. cbn in Hm, E. destruct H as [->| ->]; [lia|].
    unfold may_throw in E. destruct (tick w) as [[|] w2]; [|discriminate]. injection E as <- _. reflexivity.
  - intros s r w r' w' _ Hm _ E. cbn in Hm, E. destruct H as [->| ->]; [lia|].
    destruct (tick w) as [[|] w2]; [|discriminate]. injection E as <- _. reflexivity.
Qed.

Theorem plain_lawful : forall m, lawful (plain m) (plain_sem m).
Proof.
  intros m.
  constructor; cbn; try discriminate; try reflexivity; auto.
  - intros i r w. destruct (N.eqb_spec i 0) as [->|Hi].
    + destruct (N.eqb_spec m 0) as [->|Hm].
      * left. repeat split. congruence.
      * right. split; [exact I|]. unfold none_pattern. cbn. destruct (N.eqb_spec m 0); [lia|]. cbn. split; lia.
    + left. repeat split. auto.
  - intros i r w Hr. destruct (N.eqb_spec i 0) as [->|Hi].
    + destruct (N.eqb_spec m 0) as [->|Hm].
      * left. repeat split. congruence.
      * right. split; [exact I|]. unfold none_pattern. cbn. destruct (N.eqb_spec m 0); [lia|]. cbn. split; lia.
    + left. repeat split. auto.
  - intros l r H. destruct (N.eqb_spec m 0); cbn; lia.
  - intros r H Hr. destruct (N.eqb_spec m 0); [lia|]. destruct (N.eqb_spec r 0); cbn; [|lia]. destruct (Hr n e).
  - intros r. unfold umax_base. destruct ((r =? 0) && negb (m =? 0)); lia.
  - unfold umax_base. destruct (N.eqb_spec m 0); lia.
Qed.

Theorem plain_steady : forall m, steady (plain m) (plain_sem m).
Proof. intros m. constructor; cbn; discriminate. Qed.

(** A constructor of T throws after it has written a value pattern: the option with its unused
    states inside T is then taken for engaged although no object lives in it; destroying it
    destroys a dead object. *)
Lemma torn_constructor : exists (c c' : cell (fussy 3 true)) w w',
  inv _ (fussy_sem 3 true) c /\
  o_emplace _ (o_reset _) (ctor (fussy 3 true) 5) c w = Exn (c', w') /\
  c_alive c' = false /\ o_has _ c' = Ok true /\ o_dtor _ c' w' = Undef /\ o_reset _ c' w' = Undef.
Proof.
  exists (mkcell (C := fussy 3 true) 0 0 false), (mkcell (C := fussy 3 true) 8 0 false), [true], [].
  split; [|repeat split; reflexivity].
  split; [|split]; cbn; intros; try discriminate; reflexivity.
Qed.

(** Copying an option whose T throws part-way: the unwinding runs the destructor of the base, which
    already destroys a dead object. *)
Lemma torn_copy : exists (s c : cell (fussy 3 true)) w,
  inv _ (fussy_sem 3 true) s /\ o_cctor _ s c w = Undef.
Proof.
  exists (mkcell (C := fussy 3 true) 8 0 true), (mkcell (C := fussy 3 true) 0 0 false), [true].
  split; [|reflexivity]. split; [|split]; cbn; intros; try discriminate; lia.
Qed.

(** option<option<T>> with T without unused states: emplacing a copy of an option<T> whose T throws.
    The inner option was default-constructed first, which wrote 0 into the flag; the flag also
    carries the outer option's emptiness, so the outer option now reads as engaged. *)
Definition oT : cls schedule := opt_cls (fussy 0 false).
Definition oT_sem : sem oT := opt_sem (fussy 0 false) (fussy_sem 0 false).

Lemma nested_copy : exists (s : cell (fussy 0 false)) (c c' : cell oT) w w',
  inv (fussy 0 false) (fussy_sem 0 false) s /\ inv oT oT_sem c /\ c_alive c = false /\
  o_emplace oT (o_reset oT) (cctor oT s) c w = Exn (c', w') /\
  c_alive c' = false /\ o_has oT c' = Ok true /\ o_dtor oT c' w' = Undef.
Proof.
  set (s := mkcell (C := fussy 0 false) 5 1 true).
  set (e := mkcell (C := fussy 0 false) 0 2 false).
  set (d := mkcell (C := fussy 0 false) 0 0 false).
  exists s, (mkcell (C := oT) e 0 false), (mkcell (C := oT) d 0 false), [true], [].
  split; [|split; [|repeat split; reflexivity]].
  - split; [|split]; cbn; intros; try discriminate; auto; lia.
  - split; [|split]; cbn; intros; try discriminate; auto.
Qed.

(** The same without exceptions goes well, at any depth. *)
Theorem fussy_flag_lawful_nested1 : forall torn, lawful (fussy 0 torn) (fussy_sem 0 torn) /\ quiet (fussy 0 torn) (fussy_sem 0 torn).
Proof. intros torn. split; [apply fussy_lawful; unfold umax_base; lia|apply fussy_quiet; auto]. Qed.
