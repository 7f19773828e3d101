(** Proofs about traits that need others. *)
From Coq Require Import Bool List.
From Verif Require Import Choice ChoiceSpec ChoiceFacts ChoiceDeep ChoiceDeepSpec.
Import ListNotations.

Lemma use_chosen s t c : choice_of t (chosen s) = Some c -> unit_step s (Use t) = Some s.
Proof. intros E. cbn [unit_step]. now rewrite E. Qed.
Lemma use_chain t : forall s s', use_deep s t = Some s' -> exists l, chain t l /\ translate s l = Some s'.
Proof.
  induction t as [n|w u IH]; intros s s'; cbn [use_deep].
  - destruct (choice_of (Class n) (chosen s)) as [c|] eqn:E.
    + intros [= <-]. exists [Use (Class n)]. split; [constructor|]. cbn [translate]. now rewrite (use_chosen _ _ _ E).
    + destruct (unit_step s (Use (Class n))) as [s1|] eqn:S; [|discriminate]. intros [= <-]. exists [Use (Class n)]. split; [constructor|].
      cbn [translate]. now rewrite S.
  - destruct (choice_of (Wrapped w u) (chosen s)) as [c|] eqn:E.
    + intros [= <-]. exists [Use (Wrapped w u)]. split; [constructor|]. cbn [translate]. now rewrite (use_chosen _ _ _ E).
    + destruct (unit_step s (Use (Wrapped w u))) as [s1|] eqn:S; [|discriminate].
      assert (D : Some s1 = Some s' -> exists l, chain (Wrapped w u) l /\ translate s l = Some s').
      { intros [= <-]. exists [Use (Wrapped w u)]. split; [constructor|]. cbn [translate]. now rewrite S. }
      destruct (choice_of (Wrapped w u) (chosen s1)) as [[| |v|p|]|]; try exact D.
      destruct w; cbn [needs_inner]; try exact D; intros H; destruct (IH _ _ H) as (l & C & T); eexists; (split; [constructor; exact C|]);
        cbn [translate]; now rewrite S.
Qed.
Lemma deep_written es : forall s s', translate_deep s es = Some s' -> exists es', written_out es es' /\ translate s es' = Some s'.
Proof.
  induction es as [|e es IH]; intros s s'; cbn [translate_deep]; [intros [= <-]; exists []; split; [constructor|reflexivity]|].
  destruct (step_deep s e) as [s1|] eqn:S; [|discriminate]. intros H. destruct (IH _ _ H) as (es' & W & T).
  destruct e as [t|t|p|t]; cbn [step_deep] in S.
  - exists (Explicit t :: es'). split; [now constructor|]. cbn [translate]. now rewrite S.
  - exists (Hook t :: es'). split; [now constructor|]. cbn [translate]. now rewrite S.
  - exists (Partial p :: es'). split; [now constructor|]. cbn [translate]. now rewrite S.
  - destruct (use_chain t s s1 S) as (l & C & L). exists (l ++ es'). split; [now constructor|]. rewrite translate_app, L. exact T.
Qed.

(** What the traits of a wrapper need has been chosen. *)
Definition closed (s : unit_state) : Prop :=
  forall w u v, needs_inner w = true -> choice_of (Wrapped w u) (chosen s) = Some (ByWrapper v) -> choice_of u (chosen s) <> None.
Lemma unit_use s t s' : choice_of t (chosen s) = None -> unit_step s (Use t) = Some s' ->
  exists c, choice_of t (chosen s') = Some c /\ forall u, u <> t -> choice_of u (chosen s') = choice_of u (chosen s).
Proof.
  intros N S. cbn [unit_step] in S. rewrite N in S. destruct (choose s t) as [c|]; [|discriminate]. injection S as <-. exists c.
  cbn [chosen choice_of]. split.
  - assert (type_eqb t t = true) as -> by (now apply type_eq). reflexivity.
  - intros u D. destruct (type_eqb u t) eqn:E; [apply type_eq in E; contradiction|reflexivity].
Qed.
Lemma keeps_some s s' t u : choice_of t (chosen s) = None -> unit_step s (Use t) = Some s' -> choice_of u (chosen s) <> None -> choice_of u (chosen s') <> None.
Proof. intros N S K. destruct (choice_of u (chosen s)) as [c|] eqn:E; [|now destruct K]. now rewrite (step_keeps _ _ _ _ _ S E). Qed.
Lemma translate_keeps_some l s s' u : translate s l = Some s' -> choice_of u (chosen s) <> None -> choice_of u (chosen s') <> None.
Proof. intros T K. destruct (choice_of u (chosen s)) as [c|] eqn:E; [|now destruct K]. now rewrite (translate_keeps _ _ _ _ _ T E). Qed.

Lemma use_chosen_after t s s' : use_deep s t = Some s' -> choice_of t (chosen s') <> None.
Proof.
  intros H. destruct (use_chain t s s' H) as (l & C & T).
  assert (X : exists m, l = Use t :: m) by (destruct C; eexists; reflexivity). destruct X as (m & ->). cbn [translate] in T.
  destruct (unit_step s (Use t)) as [s1|] eqn:S; [|discriminate]. apply (translate_keeps_some _ _ _ _ T).
  destruct (choice_of t (chosen s)) as [c|] eqn:E; [now rewrite (step_keeps _ _ _ _ _ S E)|].
  destruct (unit_use s t s1 E S) as (c & -> & _). discriminate.
Qed.
(** [X] holds for the types that are being instantiated. *)
Lemma use_closed t : forall (X : type -> Prop) s s',
  (forall w u v, needs_inner w = true -> choice_of (Wrapped w u) (chosen s) = Some (ByWrapper v) -> ~ X (Wrapped w u) -> choice_of u (chosen s) <> None) ->
  use_deep s t = Some s' ->
  forall w u v, needs_inner w = true -> choice_of (Wrapped w u) (chosen s') = Some (ByWrapper v) -> ~ X (Wrapped w u) -> choice_of u (chosen s') <> None.
Proof.
  induction t as [n|w0 u0 IH]; intros X s s' C; cbn [use_deep].
  - destruct (choice_of (Class n) (chosen s)) as [c|] eqn:E; [intros [= <-]; exact C|].
    destruct (unit_step s (Use (Class n))) as [s1|] eqn:S; [|discriminate]. intros [= <-] w u v N K NX.
    destruct (unit_use s _ s1 E S) as (c & _ & R). rewrite R in K by discriminate. eapply keeps_some; [exact E|exact S|]. eapply C; eassumption.
  - destruct (choice_of (Wrapped w0 u0) (chosen s)) as [c|] eqn:E; [intros [= <-]; exact C|].
    destruct (unit_step s (Use (Wrapped w0 u0))) as [s1|] eqn:S; [|discriminate].
    destruct (unit_use s _ s1 E S) as (c & K1 & R). rewrite K1.
    assert (C1 : forall w u v, needs_inner w = true -> choice_of (Wrapped w u) (chosen s1) = Some (ByWrapper v) ->
                 ~ (X (Wrapped w u) \/ Wrapped w u = Wrapped w0 u0) -> choice_of u (chosen s1) <> None).
    { intros w u v N K NX. rewrite R in K by (intros Y; apply NX; now right). eapply keeps_some; [exact E|exact S|].
      eapply C; [exact N|exact K|]. intros Y. apply NX. now left. }
    assert (D : (forall v, c = ByWrapper v -> needs_inner w0 = false) -> Some s1 = Some s' ->
      forall w u v, needs_inner w = true -> choice_of (Wrapped w u) (chosen s') = Some (ByWrapper v) -> ~ X (Wrapped w u) -> choice_of u (chosen s') <> None).
    { intros V [= <-] w u v N K NX. apply (C1 w u v N K). intros [Y|Y]; [contradiction|]. injection Y as -> ->. rewrite K1 in K. injection K as K.
      rewrite (V v K) in N. discriminate. }
    destruct c as [| |v|p|]; try (apply D; discriminate).
    destruct (needs_inner w0) eqn:NI; [|apply D; intros; exact NI || reflexivity].
    intros H w u x N K NX.
    destruct (type_eqb (Wrapped w u) (Wrapped w0 u0)) eqn:T.
    + apply type_eq in T. injection T as -> ->. eapply use_chosen_after. exact H.
    + apply (IH (fun y => X y \/ y = Wrapped w0 u0) s1 s' C1 H w u x N K). intros [Y|Y]; [contradiction|].
      apply type_eq in Y. congruence.
Qed.
Lemma step_closed s e s' : closed s -> step_deep s e = Some s' -> closed s'.
Proof.
  intros C. destruct e as [t|t|p|t]; cbn [step_deep unit_step].
  - destruct (known t (explicit s)); [discriminate|]. destruct (choice_of t (chosen s)); [discriminate|]. intros [= <-]. exact C.
  - destruct (known t (hooks s)); [discriminate|]. intros [= <-]. exact C.
  - intros [= <-]. exact C.
  - intros H w u v N K. refine (use_closed t (fun _ => False) s s' _ H w u v N K (fun x => x)). intros w1 u1 v1 N1 K1 _. eapply C; eassumption.
Qed.
Lemma deep_closed es : forall s s', closed s -> translate_deep s es = Some s' -> closed s'.
Proof.
  induction es as [|e es IH]; intros s s' C; cbn [translate_deep]; [intros [= <-]; exact C|].
  destruct (step_deep s e) as [s1|] eqn:S; [|discriminate]. apply IH. eapply step_closed; eassumption.
Qed.
Lemma inner_chosen es s w u v : translate_deep empty_unit es = Some s -> w = Enforce \/ w = Member ->
  choice_of (Wrapped w u) (chosen s) = Some (ByWrapper v) -> choice_of u (chosen s) <> None.
Proof.
  intros T W K. assert (C : closed s) by (apply (deep_closed es empty_unit s); [intros w1 u1 v1 _ X; discriminate|exact T]).
  apply (C w u v); [destruct W as [-> | ->]; reflexivity|exact K].
Qed.
Lemma deep_app s a b : translate_deep s (a ++ b) = match translate_deep s a with Some s => translate_deep s b | None => None end.
Proof. revert s. induction a as [|e a IH]; intros s; [reflexivity|]. cbn [app translate_deep]. destruct (step_deep s e); [apply IH|reflexivity]. Qed.
Lemma inner_late es s w u v : translate_deep empty_unit es = Some s -> w = Enforce \/ w = Member ->
  choice_of (Wrapped w u) (chosen s) = Some (ByWrapper v) -> translate_deep empty_unit (es ++ [Explicit u]) = None.
Proof.
  intros T W K. assert (I := inner_chosen es s w u v T W K). rewrite deep_app, T. cbn [translate_deep step_deep unit_step].
  destruct (known u (explicit s)); [reflexivity|]. destruct (choice_of u (chosen s)); [reflexivity|now destruct I].
Qed.
Lemma inner_ignored : exists es s u, translate_deep empty_unit es = Some s /\ ~ In (Use u) (firstn 2 es) /\ nth_error es 1 = Some (Hook u) /\
  nth_error es 0 = Some (Use (Wrapped Enforce u)) /\ choice_of u (chosen s) = Some Builtin.
Proof.
  exists [Use (Wrapped Enforce (Class 0)); Hook (Class 0); Use (Class 0)].
  exists (mkunit [] [Class 0] [] [(Class 0, Builtin); (Wrapped Enforce (Class 0), ByWrapper Enforce)]), (Class 0).
  repeat split. cbn. intros [X|[X|[]]]; discriminate.
Qed.

(** Failures too. *)
Lemma use_chain_eq t : forall s, exists l, chain t l /\ use_deep s t = translate s l.
Proof.
  intros s. destruct (use_deep s t) as [s'|] eqn:U; [destruct (use_chain t s s' U) as (l & C & T); exists l; now split|].
  revert s U. induction t as [n|w u IH]; intros s; cbn [use_deep].
  - destruct (choice_of (Class n) (chosen s)) as [c|]; [discriminate|]. destruct (unit_step s (Use (Class n))) as [s1|] eqn:S; [discriminate|].
    intros _. exists [Use (Class n)]. split; [constructor|]. cbn [translate]. now rewrite S.
  - destruct (choice_of (Wrapped w u) (chosen s)) as [c|]; [discriminate|]. destruct (unit_step s (Use (Wrapped w u))) as [s1|] eqn:S.
    + destruct (choice_of (Wrapped w u) (chosen s1)) as [[| |v|p|]|]; try discriminate. destruct w; cbn [needs_inner]; try discriminate; intros H;
        destruct (IH s1 H) as (l & C & T); eexists; (split; [constructor; exact C|]); cbn [translate]; now rewrite S.
    + intros _. exists [Use (Wrapped w u)]. split; [constructor|]. cbn [translate]. now rewrite S.
Qed.
Lemma any_written es : exists es', written_out es es'.
Proof.
  induction es as [|e es (es' & W)]; [exists []; constructor|].
  destruct e as [t|t|p|t]; try (eexists; constructor; [discriminate|exact W]). eexists. constructor; [constructor|exact W].
Qed.
Lemma deep_eq es : forall s, exists es', written_out es es' /\ translate_deep s es = translate s es'.
Proof.
  induction es as [|e es IH]; intros s; [exists []; split; [constructor|reflexivity]|]. cbn [translate_deep].
  assert (O : (forall t, e <> Use t) -> exists es', written_out (e :: es) es' /\
    match unit_step s e with Some s => translate_deep s es | None => None end = translate s es').
  { intros N. destruct (unit_step s e) as [s1|] eqn:S.
    - destruct (IH s1) as (es' & W & T). exists (e :: es'). split; [now constructor|]. cbn [translate]. now rewrite S.
    - destruct (any_written es) as (es' & W). exists (e :: es'). split; [now constructor|]. cbn [translate]. now rewrite S. }
  destruct e as [t|t|p|t]; cbn [step_deep]; try (apply O; discriminate).
  destruct (use_chain_eq t s) as (l & C & T). rewrite T. destruct (translate s l) as [s1|] eqn:L.
  - destruct (IH s1) as (es' & W & Q). exists (l ++ es'). split; [now constructor|]. now rewrite translate_app, L.
  - destruct (any_written es) as (es' & W). exists (l ++ es'). split; [now constructor|]. now rewrite translate_app, L.
Qed.
Lemma deep_eq_empty es : exists es', written_out es es' /\ translate_deep empty_unit es = translate empty_unit es'.
Proof. apply deep_eq. Qed.

(** Nothing else is chosen. *)
Definition reason (s : unit_state) (u : type) : Prop :=
  exists w v, (w = Enforce \/ w = Member) /\ choice_of (Wrapped w u) (chosen s) = Some (ByWrapper v).
Lemma use_keeps t s s' u c : use_deep s t = Some s' -> choice_of u (chosen s) = Some c -> choice_of u (chosen s') = Some c.
Proof. intros H K. destruct (use_chain t s s' H) as (l & _ & T). eapply translate_keeps; eassumption. Qed.
Lemma use_only t : forall s s' u, use_deep s t = Some s' -> choice_of u (chosen s') <> None -> choice_of u (chosen s) <> None \/ u = t \/ reason s' u.
Proof.
  induction t as [n|w t IH]; intros s s' u; cbn [use_deep].
  - destruct (choice_of (Class n) (chosen s)) as [c|] eqn:E; [intros [= <-]; now left|].
    destruct (unit_step s (Use (Class n))) as [s1|] eqn:S; [|discriminate]. intros [= <-] K.
    destruct (unit_use s _ s1 E S) as (c & _ & R). destruct (type_eqb u (Class n)) eqn:T; [apply type_eq in T; right; now left|].
    left. rewrite <- R; [exact K|]. intros ->. assert (type_eqb (Class n) (Class n) = true) by (now apply type_eq). congruence.
  - destruct (choice_of (Wrapped w t) (chosen s)) as [c|] eqn:E; [intros [= <-]; now left|].
    destruct (unit_step s (Use (Wrapped w t))) as [s1|] eqn:S; [|discriminate].
    destruct (unit_use s _ s1 E S) as (c & K1 & R). rewrite K1.
    assert (F : choice_of u (chosen s1) <> None -> choice_of u (chosen s) <> None \/ u = Wrapped w t).
    { intros K. destruct (type_eqb u (Wrapped w t)) eqn:T; [apply type_eq in T; now right|]. left. rewrite <- R; [exact K|]. intros ->.
      assert (type_eqb (Wrapped w t) (Wrapped w t) = true) by (now apply type_eq). congruence. }
    assert (D : Some s1 = Some s' -> choice_of u (chosen s') <> None -> choice_of u (chosen s) <> None \/ u = Wrapped w t \/ reason s' u).
    { intros [= <-] K. destruct (F K); auto. }
    destruct c as [| |v|p|]; try exact D. destruct (needs_inner w) eqn:N; [|exact D]. intros H K.
    destruct (IH s1 s' u H K) as [X|[-> |X]]; [destruct (F X); auto| |auto].
    right. right. exists w, v. split; [destruct w; try discriminate; auto|]. eapply use_keeps; eassumption.
Qed.
Lemma deep_only es : forall s s' u, translate_deep s es = Some s' -> choice_of u (chosen s') <> None ->
  choice_of u (chosen s) <> None \/ In (Use u) es \/ reason s' u.
Proof.
  induction es as [|e es IH] using rev_ind; intros s s' u; [intros [= <-]; now left|]. rewrite deep_app.
  destruct (translate_deep s es) as [s1|] eqn:T; [|discriminate]. cbn [translate_deep]. destruct (step_deep s1 e) as [s2|] eqn:S; [|discriminate].
  intros [= <-] K.
  assert (P : forall c x, choice_of x (chosen s1) = Some c -> choice_of x (chosen s2) = Some c).
  { intros c x Q. destruct e as [t|t|p|t]; cbn [step_deep] in S; try (eapply step_keeps; eassumption). eapply use_keeps; eassumption. }
  assert (G : choice_of u (chosen s1) <> None -> choice_of u (chosen s) <> None \/ In (Use u) (es ++ [e]) \/ reason s2 u).
  { intros Q. destruct (IH s s1 u T Q) as [X|[X|(w & v & W & X)]]; [now left|right; left; apply in_app_iff; now left|].
    right. right. exists w, v. split; [exact W|now apply P]. }
  destruct e as [t|t|p|t]; cbn [step_deep] in S.
  1, 2, 3: apply G; cbn [unit_step] in S.
  - destruct (known t (explicit s1)); [discriminate|]. destruct (choice_of t (chosen s1)); [discriminate|]. injection S as <-. exact K.
  - destruct (known t (hooks s1)); [discriminate|]. injection S as <-. exact K.
  - injection S as <-. exact K.
  - destruct (use_only t s1 s2 u S K) as [X|[-> |X]]; [now apply G| |auto]. right. left. apply in_app_iff. right. now left.
Qed.
Lemma deep_only_empty es s u : translate_deep empty_unit es = Some s -> choice_of u (chosen s) <> None ->
  In (Use u) es \/ exists w v, (w = Enforce \/ w = Member) /\ choice_of (Wrapped w u) (chosen s) = Some (ByWrapper v).
Proof. intros T K. destruct (deep_only es empty_unit s u T K) as [X|X]; [now destruct X|exact X]. Qed.
