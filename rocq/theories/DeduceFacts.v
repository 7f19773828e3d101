(** Lemmas about class template argument deduction. *)
From Coq Require Import List Bool Arith Lia.
From Verif Require Import Results ResultsFacts Deduce DeduceSpec.
Import ListNotations.

Lemma best_unique : forall e, exists g, best e = Some g /\ In g guides /\ viable e g = true /\
  forall h, In h guides -> viable e h = true -> h <> g -> better g h = true.
Proof.
  intros [c k b]. destruct b; destruct c, k; (eexists; split; [ reflexivity | ]); split; try (cbn; tauto);
    (split; [ reflexivity | ]); intros h Hin Hv Hne; cbn in Hin;
    repeat (destruct Hin as [ <- | Hin ]; [ try discriminate Hv; try reflexivity; contradiction | ]); contradiction.
Qed.

Lemma ctad_held : forall banned e, ctad banned e =
  if may_hold banned (held e) then Some (Q false Val (Opt (held e))) else None.
Proof. intros banned [c k b]. destruct b; destruct c, k; reflexivity. Qed.

Lemma ctad_again : forall banned e o, ctad banned e = Some o -> ctad banned o = Some o.
Proof.
  intros banned e o. rewrite !ctad_held. destruct (may_hold banned (held e)) eqn:E; [ | discriminate ].
  intros H. injection H as <-. cbn [held]. now rewrite E.
Qed.

Lemma ty_eqb_true : forall b, ty_eqb b b = true.
Proof. apply ty_eqb_refl. Qed.

Lemma ctad_made : forall banned e, may_hold banned (held e) = true ->
  ctad_value banned e = Some (Q false Val (Opt (held e)), made_how e).
Proof.
  intros banned [c k b] H. unfold ctad_value. rewrite ctad_held, H. cbn [bind q_base].
  destruct b; destruct k, c; cbn [inits q_kind q_base q_const remove_cvref bind held made_how];
    rewrite ?ty_eqb_true; reflexivity.
Qed.

(** No type contains itself. *)
Fixpoint depth (b : ty) : nat := match b with Opt (Q _ _ b') => S (depth b') | _ => O end.
Definition qdepth (t : qty) : nat := match t with Q _ _ b => depth b end.
Lemma qdepth_opt : forall t c k, qdepth (Q c k (Opt t)) = S (qdepth t).
Proof. intros [c' k' b'] c k. reflexivity. Qed.
Lemma no_loop : forall t c k, t <> Q c k (Opt t).
Proof. intros t c k H. assert (E := f_equal qdepth H). rewrite qdepth_opt in E. lia. Qed.

Lemma make_option_type : forall e, exists h, make_option_value e = Some (Q false Val (Opt (remove_cvref e)), h).
Proof.
  intros [c k b]. unfold make_option_value. destruct k, c; cbn [remove_cvref inits q_kind q_base bind];
    rewrite ty_eqb_true; cbn [bind]; eexists; reflexivity.
Qed.

Lemma held_remove : forall e, held e = remove_cvref e <-> ~ holds_option e.
Proof.
  intros [c k b]. split.
  - intros H [t E]. cbn in E. subst b. exact (no_loop t false Val H).
  - intros H. destruct b; try reflexivity. exfalso. apply H. eexists; reflexivity.
Qed.

Lemma ctad_make : forall banned e, may_hold banned (held e) = true ->
  ((exists h, make_option_value e = Some (Q false Val (Opt (held e)), h)) <-> ~ holds_option e).
Proof.
  intros banned e H. destruct (make_option_type e) as [h E]. rewrite E. split.
  - intros [h' F]. injection F as F _. apply held_remove. symmetry. exact F.
  - intros F. exists h. apply held_remove in F. now rewrite F.
Qed.

Lemma ordinary_held : forall t, ordinary t -> held t = t.
Proof. intros [c k b] (H1 & H2 & H3). cbn in *. subst. destruct b; try reflexivity. exfalso. apply H3. eexists; reflexivity. Qed.

Lemma layers_ctad : forall banned t n, ordinary t -> may_hold banned t = true ->
  Nat.iter (S n) (fun x => bind x (ctad banned)) (Some t) = Some (wrapped 1 t).
Proof.
  intros banned t n H B. induction n as [ | n IH ].
  - change (ctad banned t = Some (wrapped 1 t)). rewrite ctad_held, (ordinary_held t H), B. reflexivity.
  - change (bind (Nat.iter (S n) (fun x => bind x (ctad banned)) (Some t)) (ctad banned) = Some (wrapped 1 t)).
    rewrite IH. cbn [bind wrapped]. rewrite ctad_held. cbn [held]. now rewrite B.
Qed.

Lemma layers_make : forall t n, ordinary t ->
  Nat.iter n (fun x => bind x (fun e => bind (make_option_value e) (fun p => Some (fst p)))) (Some t) = Some (wrapped n t).
Proof.
  intros t n H. induction n as [ | n IH ]; [ reflexivity | ].
  change (bind (Nat.iter n (fun x => bind x (fun e => bind (make_option_value e) (fun p => Some (fst p)))) (Some t))
    (fun e => bind (make_option_value e) (fun p => Some (fst p))) = Some (wrapped (S n) t)).
  rewrite IH. cbn [bind]. destruct (make_option_type (wrapped n t)) as [h E]. rewrite E. cbn [bind fst].
  cbn [wrapped]. repeat f_equal. destruct n; [ | reflexivity ]. destruct t as [c k b], H as (H1 & H2 & _).
  cbn in *. now subst.
Qed.

(** The documented equivalents. *)
Lemma doc_map_exact : forall banned R, may_hold banned (held R) = true -> forall t h, map_value R = Some (t, h) ->
  (doc_map banned R = Some t <-> is_ref R = false /\ ~ holds_option R).
Proof.
  intros banned [c k b] B t h H. unfold doc_map. rewrite ctad_held, B. unfold map_value in H. cbn [remove_cv] in H.
  destruct k.
  - cbn in H. injection H as <- <-. split.
    + intros E. injection E as E. split; [ reflexivity | ]. apply held_remove. exact E.
    + intros [_ E]. apply held_remove in E. rewrite E. reflexivity.
  - destruct (binds _ _) in H; cbn in H; [ | discriminate H ]. injection H as <- <-. split.
    + intros E. injection E as E. exfalso. destruct b as [ n | t0 | l | l | t0 | t0 ]; cbn in E; try discriminate E.
      exact (no_loop t0 c LRef E).
    + intros [E _]. discriminate E.
  - destruct (binds _ _) in H; cbn in H; [ | discriminate H ]. injection H as <- <-. split.
    + intros E. injection E as E. exfalso. destruct b as [ n | t0 | l | l | t0 | t0 ]; cbn in E; try discriminate E.
      exact (no_loop t0 c RRef E).
    + intros [E _]. discriminate E.
Qed.

Lemma doc_unzip_exact : forall banned s T E, may_hold banned (held E) = true ->
  forall p, arrow_of s T = Some p -> forall g r h, unzip_element g E = Some (r, h) ->
  (doc_unzip_element banned s T E = Some r <-> ordinary E).
Proof.
  intros banned s T E B p Hp g r h H. unfold doc_unzip_element. rewrite Hp. cbn [bind]. rewrite ctad_held.
  unfold unzip_element in H. destruct (inits E (tuple_get g E)) in H; [ | discriminate H ]. injection H as <- <-.
  assert (He : held (dot (add_lref p) E) = held E) by (destruct p as [c k b], E as [c' k' []]; reflexivity).
  rewrite He, B. split.
  - intros F. injection F as F. destruct E as [c k b].
    destruct b as [ n | t0 | l | l | t0 | t0 ]; cbn in F;
      try (injection F as <- <-; repeat split; intros [t E]; discriminate E).
    exfalso. exact (no_loop t0 c k F).
  - intros F. rewrite (ordinary_held E F). reflexivity.
Qed.

Lemma zip_return_right : forall banned l, zip_return banned l = Some (Q false Val (Opt (Q false Val (Tup l)))).
Proof. intros banned l. unfold zip_return. rewrite ctad_held. reflexivity. Qed.

Lemma traverse_get : forall l es, traverse (fun p => get_of (fst p) (snd p)) l = Some es ->
  map remove_cvref es = map (fun p => remove_cvref (snd p)) l.
Proof.
  induction l as [ | [s T] l IH ]; cbn [traverse map fst snd]; intros es H; [ now injection H as <- | ].
  destruct (get_of s T) as [g | ] eqn:G; [ | discriminate H ]. cbn [bind] in H.
  destruct (traverse _ l) as [r | ] eqn:R in H; [ | discriminate H ]. cbn [bind] in H. injection H as <-.
  cbn [map]. rewrite (IH r R). f_equal. clear - G.
  unfold get_of, declared, stored, returns, casts in G. destruct T as [c k b], s as [sc sr].
  destruct sc, sr, k, c; cbn -[ty_eqb binds] in G;
    repeat match type of G with context [ if ?x then _ else _ ] => destruct x; cbn -[ty_eqb binds] in G end;
    try discriminate G; injection G as <-; reflexivity.
Qed.

Lemma zip_types : forall l t h, zip_of l = Some (t, h) -> t = Q false Val (Opt (Q false Val (Tup (map snd l)))).
Proof.
  intros l t h H. unfold zip_of in H. destruct (traverse _ l) as [r | ] eqn:R in H; [ | discriminate H ].
  cbn [bind] in H. injection H as <- <-. repeat f_equal. revert r R.
  induction l as [ | [s T] l IH ]; cbn [traverse]; intros r R; [ now injection R as <- | ].
  cbn [fst snd] in R. unfold zip_element in R at 1. destruct (get_of s T); [ | discriminate R ]. cbn [bind] in R.
  destruct (inits T q); [ | discriminate R ]. cbn [bind] in R.
  destruct (traverse _ l) as [r' | ] eqn:R' in R; [ | discriminate R ]. cbn [bind] in R. injection R as <-.
  cbn [map fst snd]. f_equal. now apply IH.
Qed.

(** A single tuple. *)
Definition one_tuple (l : list qty) : Prop := exists t m, l = [t] /\ q_base t = Tup m.

Fixpoint tdepth (b : ty) : nat :=
  match b with
  | Tup [Q _ _ b'] => S (tdepth b')
  | _ => O
  end.

Lemma doc_zip_exact : forall l r h, zip_of l = Some (r, h) -> forall d, doc_zip l = Some d ->
  (d = r <-> Forall (fun p => q_const (snd p) = false /\ q_kind (snd p) = Val) l /\ ~ one_tuple (map snd l)).
Proof.
  intros l r h H d D. apply zip_types in H. subst r. unfold doc_zip in D.
  destruct (traverse _ l) as [es | ] eqn:R in D; [ | discriminate D ]. cbn [bind] in D. injection D as <-.
  assert (M := traverse_get l es R).
  assert (P : one_tuple (map snd l) \/ tuple_ctad es = Q false Val (Tup (map remove_cvref es)) /\ ~ one_tuple (map snd l)).
  { destruct es as [ | [c k b] [ | e' es ] ].
    - right. split; [ reflexivity | ]. intros (t & m & E & _). destruct l; [ discriminate E | discriminate M ].
    - destruct l as [ | [s T] [ | ] ]; try discriminate M. cbn in M. injection M as M.
      destruct b; try (right; split; [ reflexivity | intros (t' & m & E & F); cbn in E; injection E as <-; destruct T; cbn in *; congruence ]).
      left. destruct T as [c' k' b']. cbn in M. exists (Q c' k' b'), l. split; [ reflexivity | ]. cbn. congruence.
    - right. split; [ destruct b; reflexivity | ]. intros (t & m & E & _).
      destruct l as [ | ? [ | ] ]; try discriminate E; discriminate M. }
  destruct P as [P | [P N]].
  - split; [ | intros [_ F]; contradiction ]. intros E. exfalso. destruct P as (t & m & E1 & E2).
    destruct l as [ | [s T] [ | ] ]; try discriminate E1. cbn in E1. injection E1 as ->.
    destruct es as [ | [c k b] [ | ] ]; try discriminate M. cbn in M. destruct t as [c' k' b']. cbn in M, E2. subst b'.
    injection M as ->. cbn in E. injection E as E.
    assert (F := f_equal (fun l => tdepth (Tup l)) E). clear - E F.
    change (tdepth (Tup m) = S (tdepth (Tup m))) in F. lia.
  - rewrite P, M. split.
    + intros E. split; [ | exact N ]. injection E as E. clear - E.
      induction l as [ | [s [c k b]] l IH ]; constructor.
      * cbn in E. injection E. intros. subst. now split.
      * apply IH. cbn in E. now injection E.
    + intros [F _]. assert (G : map (fun p : self * qty => remove_cvref (snd p)) l = map snd l); [ | now rewrite G ].
      clear - F. induction F as [ | [s [c k b]] l [F1 F2] F IH ]; [ reflexivity | ].
      cbn in *. subst. now rewrite IH.
Qed.
