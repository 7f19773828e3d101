(** Proofs about versions and the constants of if(). *)
From Coq Require Import Bool List Ascii String NArith Lia.
From Verif Require Import CMakeLang.
Import ListNotations.
Open Scope string_scope.
Open Scope list_scope.

Theorem less_first a : forall b, less a b = true <->
  exists i, (nth i a 0 < nth i b 0)%N /\ forall j, (j < i)%nat -> nth j a 0%N = nth j b 0%N.
Proof.
  assert (E : forall b, less [] b = true <-> exists i, (0 < nth i b 0)%N /\ forall j, (j < i)%nat -> 0%N = nth j b 0%N).
  { induction b as [|y b IH]; cbn [less].
    - split; [discriminate|]. intros (i & H & _). destruct i; cbn in H; lia.
    - rewrite orb_true_iff, N.ltb_lt, IH. split.
      + intros [H|(i & H & K)]; [exists 0%nat; cbn; split; [exact H|lia]|].
        destruct (N.eq_dec y 0) as [->|Y]; [|exists 0%nat; cbn; split; [lia|lia]].
        exists (S i). cbn [nth]. split; [exact H|]. intros [|j] J; cbn [nth]; [reflexivity|]. apply K. lia.
      + intros ([|i] & H & K); cbn [nth] in H; [now left|]. right. exists i. split; [exact H|].
        intros j J. apply (K (S j)). lia. }
  induction a as [|x a IH]; intros b.
  - rewrite E. split; intros (i & H & K); exists i.
    + split; [destruct i; exact H|]. intros j J. rewrite <- (K j J). now destruct j.
    + split; [destruct i; exact H|]. intros j J. specialize (K j J). now destruct j.
  - destruct b as [|y b]; cbn [less].
    + split; [discriminate|]. intros (i & H & _). destruct i; cbn in H; lia.
    + rewrite orb_true_iff, andb_true_iff, N.ltb_lt, N.eqb_eq, IH. split.
      * intros [H|[-> (i & H & K)]]; [exists 0%nat; cbn; split; [exact H|lia]|].
        exists (S i). cbn [nth]. split; [exact H|]. intros [|j] J; cbn [nth]; [reflexivity|]. apply K. lia.
      * intros ([|i] & H & K); cbn [nth] in H; [now left|]. right. split; [apply (K 0%nat); lia|].
        exists i. split; [exact H|]. intros j J. apply (K (S j)). lia.
Qed.

Lemma mem_iff x l : mem x l = true <-> In x l.
Proof.
  unfold mem. rewrite existsb_exists. split.
  - intros (y & I & E). apply String.eqb_eq in E. now subst.
  - intros I. exists x. now rewrite String.eqb_refl.
Qed.
Lemma ends_iff e s : ends_with s e = true <-> exists p, s = (p ++ e)%string.
Proof.
  induction s as [|c s IH]; cbn [ends_with].
  - rewrite orb_false_r, String.eqb_eq. split.
    + intros <-. now exists "".
    + intros ([|a p] & H); [exact H|discriminate].
  - rewrite orb_true_iff, String.eqb_eq, IH. split.
    + intros [<-|(p & ->)]; [now exists ""|now exists (String c p)].
    + intros ([|a p] & H); [now left|]. right. cbn in H. injection H as _ H. now exists p.
Qed.
Theorem false_constants s : is_false s = true <->
  In (upper s) [""; "0"; "OFF"; "NO"; "FALSE"; "N"; "IGNORE"; "NOTFOUND"] \/ exists p, upper s = (p ++ "-NOTFOUND")%string.
Proof. unfold is_false. rewrite orb_true_iff, mem_iff, ends_iff. reflexivity. Qed.
Theorem true_constants s : is_true_constant s = true <->
  In (upper s) ["1"; "ON"; "YES"; "TRUE"; "Y"] \/ exists n, number s = Some n /\ n <> 0%N.
Proof.
  unfold is_true_constant, is_on. rewrite orb_true_iff, mem_iff. destruct (number s) as [n|].
  - rewrite negb_true_iff, N.eqb_neq. split; intros [H|H]; auto.
    + right. now exists n.
    + destruct H as (m & [= <-] & H). auto.
  - split; intros [H|H]; auto; [discriminate|]. destruct H as (m & ? & _). discriminate.
Qed.
Theorem versions_first a b : version_less a b = true <->
  exists i, (nth i (map component (split_at "." a)) 0 < nth i (map component (split_at "." b)) 0)%N /\
    forall j, (j < i)%nat -> nth j (map component (split_at "." a)) 0%N = nth j (map component (split_at "." b)) 0%N.
Proof. apply less_first. Qed.

Theorem patterns p : plain_pattern p = true <->
  forall c, In c (list_ascii_of_string p) -> ~ In c (list_ascii_of_string "^$.[]-*+?()\").
Proof.
  unfold plain_pattern. rewrite forallb_forall. split; intros H c I.
  - intros J. specialize (H c I). unfold special in H. apply negb_true_iff in H. rewrite <- not_true_iff_false in H. apply H.
    apply existsb_exists. exists c. split; [exact J|apply Ascii.eqb_refl].
  - apply negb_true_iff. rewrite <- not_true_iff_false. unfold special. intros E. apply existsb_exists in E.
    destruct E as (d & J & E). apply Ascii.eqb_eq in E. subst d. exact (H c I J).
Qed.
Theorem guards b : guard b = true <-> exists args rest, b = Do "include_guard" args :: rest.
Proof.
  unfold guard. destruct b as [|[] b]; try (split; [discriminate|intros (a & r & [=])]).
  rewrite String.eqb_eq. split; [intros ->; now eexists _, _|intros (a & r & [= -> _ _]); reflexivity].
Qed.
