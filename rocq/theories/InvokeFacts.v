(** impl::invoke chooses one overload, and it is the expression of the standard. *)
From Coq Require Import Bool List Arith Lia.
From Verif Require Import Invoke InvokeSpec.
Import ListNotations.

Lemma same_ity_eq : forall a b, same_ity a b = true <-> a = b.
Proof.
  induction a as [n|a IH]; intros [m|b]; cbn; split; intros H; try discriminate.
  - apply Nat.eqb_eq in H. now subst.
  - injection H as ->. apply Nat.eqb_refl.
  - f_equal. now apply IH.
  - injection H as ->. now apply IH.
Qed.

Section Facts.
Variable base_of : ity -> ity -> bool.
Variable wrapper_base : ity -> option ity.
Notation related := (fun c t => c = t \/ base_of c t = true).
Notation invoke := (invoke base_of wrapper_base).

Lemma belongs_related : forall c t, belongs base_of c t = true <-> related c t.
Proof. intros c t. unfold belongs. now rewrite orb_true_iff, same_ity_eq. Qed.

Lemma belongs_not : forall c t, belongs base_of c t = false <-> ~ related c t.
Proof. intros c t. rewrite <- belongs_related. destruct (belongs base_of c t); split; intros H; congruence. Qed.

(** The result in all cases. *)
Definition result (f : callee) (ts : list ity) : expression :=
  match f, ts with
  | MemberFunction c, Wrapper _ :: r => CallMember (Referred 0) (seq 1 (length r))
  | MemberFunction c, t :: r => CallMember (if belongs base_of c t then Itself 0 else Pointee 0) (seq 1 (length r))
  | DataMember c, [Wrapper _] => Member (Referred 0)
  | DataMember c, [t] => Member (if belongs base_of c t then Itself 0 else Pointee 0)
  | _, _ => Call (seq 0 (length ts))
  end.

Lemma invoke_result : forall f ts, invoke f ts = Some (result f ts).
Proof.
  intros f ts. unfold Invoke.invoke, chosen, overloads, better, converts, viable, deduced.
  destruct f as [|c|c].
  - reflexivity.
  - destruct ts as [|[n|x] r]; [reflexivity| |]; cbn -[belongs seq];
      destruct (belongs base_of c _); try destruct (wrapper_base (Named n)); cbn -[seq];
      rewrite ?Nat.sub_0_r; reflexivity.
  - destruct ts as [|[n|x] [|u r]]; [reflexivity| | | |]; cbn -[belongs seq]; try reflexivity;
      destruct (belongs base_of c _); try destruct (wrapper_base (Named n)); reflexivity.
Qed.

Theorem invoke_standard : forall f ts, ~ own_member related f ts ->
  exists e, invoke f ts = Some e /\ stands_for related f ts e.
Proof.
  intros f ts N. exists (result f ts). split; [apply invoke_result|].
  destruct f as [|c|c].
  - apply Case7. exact I.
  - destruct ts as [|[n|x] r]; cbn [result].
    + apply Case7. reflexivity.
    + destruct (belongs base_of c (Named n)) eqn:B.
      * apply Case1. now apply belongs_related.
      * apply Case3; [now apply belongs_not|discriminate].
    + apply Case2. exact N.
  - destruct ts as [|[n|x] [|u r]]; cbn [result].
    + apply Case7. discriminate.
    + destruct (belongs base_of c (Named n)) eqn:B.
      * apply Case4. now apply belongs_related.
      * apply Case6; [now apply belongs_not|discriminate].
    + apply Case7. cbn. lia.
    + apply Case5. exact N.
    + apply Case7. cbn. lia.
Qed.

Theorem stands_for_unique : forall f ts e e', stands_for related f ts e -> stands_for related f ts e' -> e = e'.
Proof.
  intros f ts e e' H H'.
  destruct H; inversion H'; subst; try reflexivity; try contradiction; try congruence;
    try (exfalso; match goal with H : forall x, Wrapper ?y <> Wrapper x |- _ => now apply (H y) end);
    try (cbn in *; congruence).
Qed.

(** The exception: get() of the wrapper is used although the member is one of the wrapper's own. *)
Theorem invoke_own_member : forall f ts, own_member related f ts ->
  forall e e', invoke f ts = Some e -> stands_for related f ts e' -> e <> e'.
Proof.
  intros f ts O e e' E S. rewrite invoke_result in E. injection E as <-.
  destruct f as [|c|c]; [contradiction| |].
  - destruct ts as [|[n|x] r]; try contradiction. cbn [own_member] in O. cbn [result].
    inversion S; subst; try contradiction; discriminate.
  - destruct ts as [|[n|x] [|u r]]; try contradiction. cbn [own_member] in O. cbn [result].
    inversion S; subst; try contradiction; try discriminate.
Qed.
End Facts.

Theorem invoke_iff : forall base_of wrapper_base f ts,
  let related := fun c t => c = t \/ base_of c t = true in
  ~ own_member related f ts ->
  forall e, invoke base_of wrapper_base f ts = Some e <-> stands_for related f ts e.
Proof.
  intros b w f ts related N e. destruct (invoke_standard b w f ts N) as (e' & E & S). split; intros H.
  - rewrite H in E. injection E as ->. exact S.
  - rewrite E. f_equal. exact (stands_for_unique b f ts e' e S H).
Qed.

Theorem invoke_total : forall base_of wrapper_base f ts, exists o, chosen base_of wrapper_base f ts = Some o /\
  forall p, viable base_of wrapper_base p f ts = true -> p <> o -> better wrapper_base ts o p = true.
Proof.
  intros b w f ts. pose proof (invoke_result b w f ts) as R. unfold Invoke.invoke in R.
  destruct (chosen b w f ts) as [o|] eqn:C; [|discriminate]. exists o. split; [reflexivity|]. intros p V N.
  unfold chosen in C. apply find_some in C. destruct C as (_ & F). rewrite forallb_forall in F.
  assert (P : In p (filter (fun o => viable b w o f ts) overloads)).
  { apply filter_In. split; [destruct p; cbn; tauto|exact V]. }
  specialize (F p P). apply orb_true_iff in F. destruct F as [F|F]; [|exact F].
  exfalso. apply N. destruct o, p; try discriminate F; reflexivity.
Qed.
