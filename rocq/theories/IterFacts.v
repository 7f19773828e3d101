(** Iterating an option visits its value; random access laws. *)
From Coq Require Import NArith ZArith Bool List Lia ZifyBool ZifyN.
From Verif Require Import Outcome Words Lifetime LifetimeSpec LifetimeFacts Api ApiSpec ApiFacts ApiLaws Observe ObserveFacts Iter.
Import ListNotations.
Open Scope Z_scope.

(** A pointer that the language lets one hold. *)
Definition pointing (p : iptr) : Prop := match p with INull => True | IAt _ i => i = 0 \/ i = 1 end.

Theorem range_ok : forall W (C : cls W) (S : sem C), lawful C S -> forall o c, inv C S c ->
  (c_alive c = true -> begin_ o c = Ret (IAt o 0) /\ end_ o c = Ret (IAt o 1)) /\
  (c_alive c = false -> begin_ o c = Ret INull /\ end_ o c = Ret INull).
Proof.
  intros W C S L o c Hi. unfold begin_, end_. rewrite (has_ok C S L c Hi). cbn. split; intros Ha; rewrite Ha.
  - rewrite !(operand_ok W C S L c _ _ Hi Ha). split; reflexivity.
  - auto.
Qed.

Lemma ne_pos : forall o i j, it_ne (IAt o i) (IAt o j) = negb (i =? j).
Proof. intros o i j. unfold it_ne, p_eqb. now rewrite N.eqb_refl. Qed.

Lemma loop_some : forall St (body : N -> St -> res St) o s fuel,
  loop body (S (S fuel)) (IAt o 0) (IAt o 1) s = Some (body o s).
Proof.
  intros St body o s fuel. cbn -[it_ne]. rewrite ne_pos. cbn -[it_ne]. destruct (body o s) as [s'| |]; cbn -[it_ne]; auto.
  rewrite ne_pos. reflexivity.
Qed.

Lemma loop_none : forall St (body : N -> St -> res St) s fuel, loop body (S fuel) INull INull s = Some (Ok s).
Proof. reflexivity. Qed.

Lemma rloop_some : forall St (body : N -> St -> res St) o s fuel,
  rloop body (S (S fuel)) (IAt o 1) (IAt o 0) s = Some (body o s).
Proof.
  intros St body o s fuel. cbn -[it_ne]. rewrite ne_pos. cbn -[it_ne]. destruct (body o s) as [s'| |]; cbn -[it_ne]; auto.
  rewrite ne_pos. reflexivity.
Qed.

Theorem loop_ok : forall W (C : cls W) (S : sem C), lawful C S -> forall o c, inv C S c ->
  exists b e, begin_ o c = Ret b /\ end_ o c = Ret e /\ pointing b /\ pointing e /\
    it_diff e b = Ok (if c_alive c then 1 else 0) /\
    forall St (body : N -> St -> res St) s fuel,
      loop body (Datatypes.S (Datatypes.S fuel)) b e s = Some (if c_alive c then body o s else Ok s) /\
      rloop body (Datatypes.S (Datatypes.S fuel)) e b s = Some (if c_alive c then body o s else Ok s).
Proof.
  intros W C S L o c Hi. destruct (range_ok W C S L o c Hi) as [H1 H2]. destruct (c_alive c).
  - destruct (H1 eq_refl) as [-> ->]. do 2 eexists. split; [reflexivity|]. split; [reflexivity|]. cbn [pointing].
    split; [auto|]. split; [auto|]. split; [cbn; now rewrite N.eqb_refl|]. intros. split; [apply loop_some|apply rloop_some].
  - destruct (H2 eq_refl) as [-> ->]. do 2 eexists. split; [reflexivity|]. split; [reflexivity|]. cbn [pointing].
    split; [auto|]. split; [auto|]. split; [reflexivity|]. intros. split; reflexivity.
Qed.

(** A value-initialised iterator: every checked operation ends in the check. *)
Theorem null_checked : forall n p,
  it_star INull = Verify /\ it_arrow INull = Verify /\ it_inc INull = Verify /\ it_inc_post INull = Verify /\
  it_dec INull = Verify /\ it_dec_post INull = Verify /\ it_add INull n = Verify /\ add_it n INull = Verify /\
  it_sub INull n = Verify /\ it_index INull n = Verify /\ it_lt INull p = Verify /\ it_gt INull p = Verify /\
  it_lt p INull = Verify /\ it_gt p INull = Verify /\
  it_eq INull INull = true /\ it_diff INull INull = Ok 0 /\ it_le INull INull = Ok true /\ it_ge INull INull = Ok true.
Proof. intros n [|o i]; repeat split. Qed.

(** <=, >= and the difference of a value-initialised iterator and a proper one are not checked. *)
Theorem null_unchecked : forall o i, it_le INull (IAt o i) = UB /\ it_ge INull (IAt o i) = UB /\ it_diff INull (IAt o i) = UB.
Proof. repeat split. Qed.

Lemma add_range : forall o i n q, it_add (IAt o i) n = Ok q <-> (q = IAt o (i + n) /\ 0 <= i + n <= 1).
Proof.
  intros o i n q. unfold it_add, checked. cbn. destruct ((0 <=? i + n) && (i + n <=? 1)) eqn:E.
  - split; [injection 1 as <-; split; [reflexivity|lia]|intros [-> _]; reflexivity].
  - split; [discriminate|intros [_ ?]; lia].
Qed.

(** Random access: moving, moving back, distance, order, for all positions and offsets. *)
Theorem random_access : forall o i n m q, 0 <= i <= 1 -> it_add (IAt o i) n = Ok q ->
  add_it n (IAt o i) = Ok q /\ it_sub q n = Ok (IAt o i) /\ it_diff q (IAt o i) = Ok n /\
  it_add q m = it_add (IAt o i) (n + m) /\
  it_index (IAt o i) n = it_star q /\
  it_lt (IAt o i) q = Ok (0 <? n) /\ it_gt (IAt o i) q = Ok (n <? 0) /\
  it_le (IAt o i) q = Ok (0 <=? n) /\ it_ge (IAt o i) q = Ok (n <=? 0) /\
  it_eq (IAt o i) q = (n =? 0) /\ it_ne (IAt o i) q = negb (n =? 0).
Proof.
  intros o i n m q Hi H. pose proof H as H0. apply add_range in H as [-> Hr].
  split; [exact H0|]. split.
  { unfold it_sub, checked. cbn. replace (i + n + - n) with i by lia.
    destruct ((0 <=? i) && (i <=? 1)) eqn:E; [reflexivity|lia]. }
  split. { unfold it_diff, p_diff. rewrite N.eqb_refl. f_equal. lia. }
  split. { unfold it_add, checked. cbn. now rewrite Z.add_assoc. }
  split. { unfold it_index, it_star, checked. cbn. destruct ((0 <=? i + n) && (i + n <=? 1)) eqn:E; [reflexivity|lia]. }
  unfold it_lt, it_gt, it_le, it_ge, it_eq, it_ne, checked. unfold verify, p_cmp, p_eqb. cbn [is_null negb].
  rewrite N.eqb_refl. cbn [andb]. repeat split; first [lia | f_equal; lia | f_equal; f_equal; lia].
Qed.

(** Increment and decrement are moving by one; the post forms also give the old position. *)
Theorem increments : forall p,
  it_inc p = it_add p 1 /\ it_dec p = it_sub p 1 /\
  it_inc_post p = match it_inc p with Ok q => Ok (p, q) | Verify => Verify | UB => UB end /\
  it_dec_post p = match it_dec p with Ok q => Ok (p, q) | Verify => Verify | UB => UB end.
Proof. intros [|o i]; repeat split; cbn; now destruct ((0 <=? _) && _). Qed.

Theorem arrow_star : forall p, it_star p = match it_arrow p with Ok q => p_deref q | Verify => Verify | UB => UB end.
Proof. intros [|o i]; reflexivity. Qed.
