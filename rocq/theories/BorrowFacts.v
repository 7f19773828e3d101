(** Proofs for BorrowSpec.v. *)
From Coq Require Import List Bool Arith Lia.
From Verif Require Import Borrow BorrowSpec.
Import ListNotations.

Ltac inv H := inversion H; subst; clear H.

(** Parts and the references in them. *)
Lemma part_held o i a q : part o i = Some a -> In q (held a) -> In q (held o).
Proof.
  destruct o as [| |l|k b|[b|]|[b|]]; destruct i; cbn; intros H I; try discriminate; try (inv H; exact I).
  - apply in_flat_map. exists a. split; [|exact I]. destruct l; cbn in *; [discriminate|]. inv H. now left.
  - apply in_flat_map. exists a. split; [|exact I]. destruct l; cbn in *; [discriminate|].
    right. eapply nth_error_In; eauto.
Qed.

Lemma down_held l : forall o a q, down o l = Some a -> In q (held a) -> In q (held o).
Proof.
  induction l as [|i l IH]; cbn; intros o a q H I.
  - now inv H.
  - destruct (part o i) eqn:P; [|discriminate]. eapply part_held; eauto.
Qed.

Lemma down_app k : forall o l, down o (l ++ k) = match down o l with Some a => down a k | None => None end.
Proof.
  intros o l. revert o. induction l as [|i l IH]; cbn; intros o; [reflexivity|].
  destruct (part o i); auto.
Qed.

Lemma read_inner m p i : read m (inner p i) = match read m p with Some a => part a i | None => None end.
Proof.
  unfold read, inner; cbn [fst snd]. destruct (nth_error m (fst p)); [|reflexivity].
  rewrite down_app. destruct (down o (snd p)); [|reflexivity]. cbn. now destruct (part o0 i).
Qed.

Lemma read_held m p o q : read m p = Some o -> In q (held o) -> exists r, In r m /\ In q (held r).
Proof.
  unfold read. destruct (nth_error m (fst p)) eqn:E; [|discriminate]. intros H I.
  exists o0. split; [eapply nth_error_In; eauto | eapply down_held; eauto].
Qed.

Lemma replace_in {A} (a x : A) l : forall i, In x (replace l i a) -> In x l \/ x = a.
Proof.
  induction l as [|y l IH]; intros i H; [destruct H|].
  destruct i; cbn in H; destruct H as [H|H]; subst; cbn; auto.
  destruct (IH _ H); auto.
Qed.

Lemma set_down_held a q l : forall o, In q (held (set_down o l a)) -> In q (held o) \/ In q (held a).
Proof.
  induction l as [|i l IH]; intros o H; [now right|].
  destruct o as [| |xs|k b|[b|]|[b|]]; cbn in H.
  1,2,6,7,8: destruct i; auto.
  - destruct (nth_error xs i) eqn:E; [|auto].
    cbn in H. apply in_flat_map in H. destruct H as (y & Hy & I).
    destruct (replace_in _ _ _ _ Hy) as [M| ->].
    + left. cbn. apply in_flat_map. eauto.
    + destruct (IH _ I) as [J|J]; [|now right].
      left. cbn. apply in_flat_map. exists o. split; [eapply nth_error_In; eauto|exact J].
  - destruct i; auto. cbn in H. destruct (IH _ H); auto.
  - destruct i; auto. cbn in H. destruct (IH _ H); auto.
Qed.

Lemma write_held n m p a :
  settled n m -> (forall q, In q (held a) -> ~ dangling n q) -> settled n (write m p a).
Proof.
  intros S A. unfold write. destruct (nth_error m (fst p)) eqn:E; [|exact S].
  intros x Hx q I. destruct (replace_in _ _ _ _ Hx) as [M| ->]; [eapply S; eauto|].
  destruct (set_down_held _ _ _ _ I) as [J|J]; [|now apply A].
  eapply S; [eapply nth_error_In; eauto|exact J].
Qed.

(** Places. *)
Lemma within_refl p : within p p.
Proof. split; [reflexivity|]. exists []. now rewrite app_nil_r. Qed.

Lemma within_inner p i : within p (inner p i).
Proof. split; [reflexivity|]. now exists [i]. Qed.

Lemma within_trans p q r : within p q -> within q r -> within p r.
Proof.
  intros (A & l & B) (C & k & D). split; [congruence|]. exists (l ++ k). now rewrite D, B, app_assoc.
Qed.

Lemma held_beyond m p o q : read m p = Some o -> In q (held o) -> beyond m p q.
Proof. intros R I. exists o, q. repeat split; auto. apply here, within_refl. Qed.

Lemma get_place_spec m p q :
  get_place m p = Some q ->
  (exists a, read m p = Some (OptVal (Some a)) /\ q = inner p 0) \/ read m p = Some (OptRef (Some q)).
Proof.
  unfold get_place. destruct (read m p) as [[| | | |[a|]|[r|]]|]; intros H; inv H; eauto.
Qed.

Lemma get_place_within m p q : get_place m p = Some q -> within p q \/ beyond m p q.
Proof.
  intros H. destruct (get_place_spec _ _ _ H) as [(a & R & ->)|R].
  - left. apply within_inner.
  - right. eapply held_beyond; eauto. now left.
Qed.

Lemma inner_held m p i a q :
  read m (inner p i) = Some a -> In q (held a) -> exists o, read m p = Some o /\ In q (held o).
Proof.
  rewrite read_inner. destruct (read m p); [|discriminate]. intros H I. eexists; split; [reflexivity|].
  eapply part_held; eauto.
Qed.

Lemma element_within m p i q : element_place m p i = Some q -> within p q \/ beyond m p q.
Proof.
  unfold element_place. destruct (read m (inner p i)) as [a|] eqn:R; [|discriminate].
  intros H.
  assert (q = inner p i \/ a = Link q) as [->| ->] by (destruct a; inv H; auto).
  - left. apply within_inner.
  - right. destruct (inner_held _ _ _ _ q R) as (o & A & B); [now left|]. eapply held_beyond; eauto.
Qed.

Lemma beyond_reach m p q : within p q \/ beyond m p q -> reach m p q.
Proof. intros [W|(o & r & A & B & C)]; [now apply here | eapply through; eauto]. Qed.

(** An element of what an option gives. *)
Lemma get_element m p g i q :
  get_place m p = Some g -> element_place m g i = Some q -> within p q \/ beyond m p q.
Proof.
  intros G E. destruct (get_place_spec _ _ _ G) as [(a & R & ->)|R].
  - destruct (element_within _ _ _ _ E) as [W|(o & r & A & B & C)].
    + left. eapply within_trans; [apply within_inner|exact W].
    + right. destruct (inner_held _ _ _ _ r A B) as (o' & A' & B'). now exists o', r.
  - right. exists (OptRef (Some g)), g. repeat split; [exact R|now left|].
    apply beyond_reach. now apply element_within in E.
Qed.

(** The contents of what an option gives. *)
Lemma get_held m p g a q :
  get_place m p = Some g -> read m g = Some a -> In q (held a) -> beyond m p q.
Proof.
  intros G R I. destruct (get_place_spec _ _ _ G) as [(b & E & ->)|E].
  - destruct (inner_held _ _ _ _ q R I) as (o & A & B). eapply held_beyond; eauto.
  - exists (OptRef (Some g)), g. repeat split; [exact E|now left|].
    eapply through; eauto. apply here, within_refl.
Qed.

Lemma to_option_held l q : In q (flat_map held (map to_option l)) -> In q (flat_map held l).
Proof.
  rewrite !in_flat_map. intros (x & A & B). apply in_map_iff in A. destruct A as (y & <- & M).
  exists y. split; [exact M|]. destruct y as [| | | |[|]|[|]]; cbn in *; auto.
Qed.

Lemma from_option_held o a q : from_option o = Some a -> In q (held a) -> In q (held o).
Proof. destruct o as [| | | |[|]|[|]]; cbn; intros H I; inv H; auto. Qed.

Lemma all_some_in {A} (l : list (option A)) : forall r, all_some l = Some r ->
  forall a, In a r -> In (Some a) l.
Proof.
  induction l as [|[x|] l IH]; cbn; intros r H a I; try discriminate; [now inv H|].
  destruct (all_some l); [|discriminate]. inv H. destruct I as [->|I]; eauto.
Qed.

(** The marked arguments account for the result. *)
Lemma by_first f m p rv args q :
  annotated f 0 = true -> within p q \/ beyond m p q -> accounted f m ((p, rv) :: args) q.
Proof.
  intros A [W|B]; [left | right]; exists 0, p, rv; cbn; auto.
Qed.

Lemma by_held f m args i p rv o q :
  nth_error args i = Some (p, rv) -> read m p = Some o -> In q (held o) -> accounted f m args q.
Proof. intros N R I. right. exists i, p, rv. split; [exact N|]. eapply held_beyond; eauto. Qed.

Lemma construct_value m p q m' x :
  construct_at m false p q = Some (m', x) ->
  exists a, read m q = Some a /\ m' = write m p (OptVal (Some a)) /\
            exists v, read m p = Some (OptVal v).
Proof.
  unfold construct_at, constructed, copy. destruct (read m p) as [[| | | |v|]|]; try discriminate.
  destruct (read m q) as [a|]; [|discriminate].
  destruct (get_place (write m p (OptVal (Some a))) p) eqn:E; [|discriminate].
  intros H. inv H. eauto.
Qed.

(** Writing a part that exists, then reading it. *)
Lemma replace_nth {A} (a x : A) l : forall i, nth_error l i = Some x -> nth_error (replace l i a) i = Some a.
Proof. induction l; destruct i; cbn; intros H; try discriminate; auto. Qed.

Lemma down_set a l : forall o b, down o l = Some b -> down (set_down o l a) l = Some a.
Proof.
  induction l as [|i l IH]; cbn; intros o b H; [reflexivity|].
  destruct o as [| |xs|k c|[c|]|[c|]]; destruct i; cbn in *; try discriminate; eauto.
  - destruct xs as [|y xs]; cbn in *; [discriminate|]. eauto.
  - destruct xs as [|y xs]; cbn in *; [discriminate|].
    destruct (nth_error xs i) eqn:E; [|discriminate]. cbn. rewrite (replace_nth _ _ _ _ E). eauto.
Qed.

Lemma read_write m p o a : read m p = Some o -> read (write m p a) p = Some a.
Proof.
  unfold read, write. destruct (nth_error m (fst p)) eqn:E; [|discriminate]. intros H.
  rewrite (replace_nth _ _ _ _ E). eapply down_set; eauto.
Qed.

Lemma construct_value_place m p q m' x :
  construct_at m false p q = Some (m', x) -> x = Ref (inner p 0) false.
Proof.
  intros H. destruct (construct_value _ _ _ _ _ H) as (a & R & E & v & V).
  unfold construct_at, constructed, copy in H. rewrite V, R in H.
  unfold get_place in H. rewrite (read_write _ _ _ _ V) in H. now inv H.
Qed.

Ltac cases H :=
  repeat match type of H with
    | context [match ?e with _ => _ end] => destruct e eqn:?; try discriminate H
    end.

Lemma accounted_zip m args q :
  In q (held (OptVal match all_some (map (fun a : arg => match copy m (fst a) with
      Some o => from_option o | None => None end) args) with Some l => Some (Pack l) | None => None end)) ->
  accounted Zip m args q.
Proof.
  destruct (all_some _) as [l|] eqn:E; [|intros []]. cbn. rewrite in_flat_map. intros (a & A & I).
  apply (all_some_in _ _ E) in A. apply in_map_iff in A. destruct A as ((p & rv) & B & C).
  unfold copy in B. cbn in B. destruct (read m p) eqn:R; [|discriminate].
  apply In_nth_error in C. destruct C as (i & N). eapply by_held; eauto. eapply from_option_held; eauto.
Qed.

Ltac fin H := injection H as <- <-.

Lemma plain_accounted f m args m' x q :
  plain f = true -> result f m args = Some (m', x) -> In q (refs x) -> accounted f m args q.
Proof.
  intros P H I. destruct f; try discriminate P.
  (* Begin, End, Arrow, PtrOrNull *)
  1-4: destruct args as [|(p, rv) [|]]; try discriminate H; cbn in H;
    destruct (is_opt m p); [|discriminate H]; fin H; cbn in I;
    destruct (get_place m p) eqn:G; cbn in I; [|now destruct I]; destruct I as [<-|[]];
    apply by_first; [reflexivity | now apply get_place_within].
  (* Get, Star, Value, Throw *)
  1-4: destruct args as [|(p, rv) [|]]; try discriminate H; cbn in H;
    destruct (get_place m p) eqn:G; [|discriminate H]; fin H; destruct I as [<-|[]];
    apply by_first; [reflexivity | now apply get_place_within].
  - (* Emplace *)
    destruct r; [discriminate P|]. destruct args as [|(p, rv) [|(s, rs) [|]]]; try discriminate H. cbn [result] in H.
    rewrite (construct_value_place _ _ _ _ _ H) in I. destruct I as [<-|[]].
    apply by_first; [reflexivity | left; apply within_inner].
  - (* TryEmplace *)
    destruct r; [discriminate P|]. destruct args as [|(p, rv) [|(s, rs) [|]]]; try discriminate H. cbn [result] in H.
    destruct (get_place m p) eqn:G.
    + destruct (Bool.eqb _ _); [|discriminate H]. fin H. destruct I as [<-|[]].
      apply by_first; [reflexivity | now apply get_place_within].
    + rewrite (construct_value_place _ _ _ _ _ H) in I. destruct I as [<-|[]].
      apply by_first; [reflexivity | left; apply within_inner].
  - (* Take *)
    destruct args as [|(p, rv) [|]]; try discriminate H. cbn [result] in H. unfold copy in H.
    destruct (read m p) as [o|] eqn:R; [|discriminate H].
    eapply (by_held _ _ _ 0); [reflexivity|exact R|]. destruct o; try discriminate H; fin H; exact I.
  - (* Filter *)
    destruct args as [|(p, rv) [|]]; try discriminate H. cbn [result] in H. unfold copy in H.
    destruct (read m p) as [o|] eqn:R; [|discriminate H].
    eapply (by_held _ _ _ 0); [reflexivity|exact R|].
    destruct o; try discriminate H; fin H; destruct yes; try exact I; destruct I.
  - (* ValueOr *)
    destruct r; [discriminate P|]. destruct args as [|(p, rv) [|(s, rs) [|]]]; try discriminate H. cbn [result] in H.
    unfold copy in H. destruct (read m p) as [o|] eqn:R; [|discriminate H].
    destruct o as [| | | |[a|]|[a|]]; try discriminate H.
    + fin H. eapply (by_held _ _ _ 0); [reflexivity|exact R|exact I].
    + destruct (read m s) eqn:S; [|discriminate H]. fin H.
      eapply (by_held _ _ _ 1); [reflexivity|exact S|exact I].
  - (* ValueOrConstruct *)
    destruct r; [discriminate P|]. destruct args as [|(p, rv) [|(s, rs) [|]]]; try discriminate H. cbn [result] in H.
    unfold copy in H. destruct (read m p) as [o|] eqn:R; [|discriminate H].
    destruct o as [| | | |[a|]|[a|]]; try discriminate H.
    + fin H. eapply (by_held _ _ _ 0); [reflexivity|exact R|exact I].
    + destruct (read m s) eqn:S; [|discriminate H]. fin H.
      eapply (by_held _ _ _ 1); [reflexivity|exact S|exact I].
  - (* GetI *)
    destruct args as [|(p, rv) [|]]; try discriminate H. cbn [result] in H.
    destruct (get_place m p) as [g|] eqn:G.
    + destruct (element_place m g i) eqn:E; [|discriminate H]. fin H. destruct I as [<-|[]].
      apply by_first; [reflexivity | eapply get_element; eauto].
    + destruct (is_opt m p); [|discriminate H]. fin H. destruct I.
  - (* VariantGet *)
    destruct args as [|(p, rv) [|]]; try discriminate H. cbn [result] in H.
    destruct (read m p) as [[| | |j o| |]|]; try discriminate H. fin H.
    destruct (i =? j); [|destruct I]. destruct I as [<-|[]].
    apply by_first; [reflexivity | left; apply within_inner].
  - (* Io *)
    destruct args as [|(p, rv) [|(s, rs) [|]]]; try discriminate H; cbn [result] in H;
      destruct (is_opt m p); try discriminate H; fin H; cbn in I.
    + destruct I as [<-|[]]. apply by_first; [reflexivity | left; apply within_refl].
    + destruct I as [<-|[<-|[]]].
      * apply by_first; [reflexivity | left; apply within_refl].
      * left. exists 1, s, rs. repeat split; auto. exists []. now rewrite app_nil_r.
  - (* At *)
    destruct args as [|(p, rv) [|]]; try discriminate H. cbn [result] in H.
    destruct (read m p) as [[| | | | |]|]; try discriminate H. fin H.
    destruct (element_place m p i) eqn:E; [|destruct I]. destruct I as [<-|[]].
    apply by_first; [reflexivity | now apply element_within in E].
  - (* Lookup *)
    destruct args as [|(p, rv) [|(s, rs) [|]]]; try discriminate H. cbn [result] in H.
    destruct (read m p) as [[| | | | |]|]; try discriminate H.
    destruct found as [i|].
    + destruct (element_place m p i) eqn:E; [|discriminate H]. fin H. destruct I as [<-|[]].
      apply by_first; [reflexivity | now apply element_within in E].
    + fin H. destruct I.
  - (* Zip *)
    cbn [result] in H. assert (x = New (OptVal match all_some (map (fun a : arg => match copy m (fst a) with
      Some o => from_option o | None => None end) args) with Some l => Some (Pack l) | None => None end)) as ->.
    { destruct (forallb (fun a : place * bool => is_opt m (fst a)) args); [|discriminate H]. now fin H. }
    now apply accounted_zip.
  - (* Unzip *)
    destruct args as [|(p, rv) [|]]; try discriminate H. cbn [result] in H.
    destruct (get_place m p) as [g|] eqn:G.
    + unfold copy in H. destruct (read m g) as [[| |l| | |]|] eqn:R; try discriminate H. fin H.
      right. exists 0, p, rv. split; [reflexivity|]. eapply get_held; eauto. cbn. now apply to_option_held.
    + destruct (is_opt m p); [|discriminate H]. fin H. destruct I.
  - (* FromNullable *)
    destruct args as [|(p, rv) [|]]; try discriminate H. cbn [result] in H. unfold copy in H.
    destruct (read m p) as [o|] eqn:R; [|discriminate H].
    eapply (by_held _ _ _ 0); [reflexivity|exact R|]. destruct o; try discriminate H; fin H; exact I.
  - (* MakeOption *)
    destruct args as [|(p, rv) [|]]; try discriminate H. cbn [result] in H. unfold copy in H.
    destruct (read m p) as [o|] eqn:R; [|discriminate H]. fin H.
    eapply (by_held _ _ _ 0); [reflexivity|exact R|exact I].
  - (* AsOption *)
    destruct args as [|(p, rv) [|]]; try discriminate H. cbn [result] in H. unfold copy in H.
    destruct (read m p) as [o|] eqn:R; [|discriminate H]. fin H.
    eapply (by_held _ _ _ 0); [reflexivity|exact R|exact I].
  - (* Or *)
    destruct args as [|(p, rv) [|(s, rs) [|]]]; try discriminate H. cbn [result] in H. unfold copy in H.
    destruct (read m p) as [a|] eqn:R; [|discriminate H]. destruct (read m s) as [b|] eqn:S; [|discriminate H].
    destruct (is_opt m p && is_opt m s); [|discriminate H]. fin H. destruct (get_place m p).
    + eapply (by_held _ _ _ 0); [reflexivity|exact R|exact I].
    + eapply (by_held _ _ _ 1); [reflexivity|exact S|exact I].
  - (* And *)
    destruct args as [|(p, rv) [|(s, rs) [|]]]; try discriminate H. cbn [result] in H. unfold copy in H.
    destruct (read m s) as [b|] eqn:S; [|discriminate H].
    destruct (is_opt m p && is_opt m s); [|discriminate H]. fin H. destruct (get_place m p); [|destruct I].
    eapply (by_held _ _ _ 1); [reflexivity|exact S|exact I].
  - (* Xor *)
    destruct args as [|(p, rv) [|(s, rs) [|]]]; try discriminate H. cbn [result] in H. unfold copy in H.
    destruct (read m p) as [a|] eqn:R; [|discriminate H]. destruct (read m s) as [b|] eqn:S; [|discriminate H].
    destruct (is_opt m p && is_opt m s); [|discriminate H]. fin H.
    destruct (get_place m p), (get_place m s); try destruct I.
    + eapply (by_held _ _ _ 0); [reflexivity|exact R|exact I].
    + eapply (by_held _ _ _ 1); [reflexivity|exact S|exact I].
Qed.

(** Without references in the arguments, the result lies in a marked one. *)
Lemma plain_inside f m args m' x q :
  plain f = true ->
  (forall i p rv o, nth_error args i = Some (p, rv) -> read m p = Some o -> held o = []) ->
  result f m args = Some (m', x) -> In q (refs x) ->
  exists i p rv, nth_error args i = Some (p, rv) /\ annotated f i = true /\ within p q.
Proof.
  intros P E H I. destruct (plain_accounted _ _ _ _ _ _ P H I) as [A|(i & p & rv & N & o & r & R & J & _)]; [exact A|].
  rewrite (E _ _ _ _ N R) in J. destruct J.
Qed.

(** Temporaries. *)
Lemma alive_within n p q : within p q -> ~ dangling n p -> ~ dangling n q.
Proof. unfold dangling. intros (-> & _). auto. Qed.

Lemma reach_alive n m p q : settled n m -> reach m p q -> ~ dangling n p -> ~ dangling n q.
Proof.
  intros S R. induction R as [p q W|p o r q E I R IH]; intros A; [eapply alive_within; eauto|].
  apply IH. destruct (read_held _ _ _ _ E I) as (b & B & J). eapply S; eauto.
Qed.

Lemma beyond_alive n m p q : settled n m -> beyond m p q -> ~ dangling n q.
Proof.
  intros S (o & r & R & I & C). destruct (read_held _ _ _ _ R I) as (b & B & J).
  eapply reach_alive; eauto.
Qed.

Lemma accounted_alive n f m args q :
  settled n m ->
  (forall i p rv, nth_error args i = Some (p, rv) -> annotated f i = true -> ~ dangling n p) ->
  accounted f m args q -> ~ dangling n q.
Proof.
  intros S A [(i & p & rv & N & M & W)|(i & p & rv & N & B)].
  - eapply alive_within; eauto.
  - eapply beyond_alive; eauto.
Qed.

(** What a plain function leaves in memory. *)
Lemma plain_settled n f m args m' x :
  plain f = true -> settled n m -> result f m args = Some (m', x) -> settled n m'.
Proof.
  intros P S H.
  assert (N : forall p o, read m p = Some o -> forall q, In q (held o) -> ~ dangling n q).
  { intros p o R q I. destruct (read_held _ _ _ _ R I) as (b & B & J). eapply S; eauto. }
  assert (C : forall p s y, construct_at m false p s = Some (m', y) -> settled n m').
  { intros p s y E. destruct (construct_value _ _ _ _ _ E) as (a & R & -> & _).
    apply write_held; [exact S|]. intros q I. cbn in I. eapply N; eauto. }
  destruct f; try discriminate P; cbn [result] in H.
  all: try (destruct r; [discriminate P|]).
  all: try (destruct args as [|(p, rv) [|(s, rs) [|]]]; try discriminate H).
  all: try (eapply C; exact H).
  all: try (match goal with |- settled _ ?k => assert (k = m) as -> end; [cases H; congruence | exact S]).
  - (* TryEmplace *)
    destruct (get_place m p); [|eapply C; exact H]. destruct (Bool.eqb _ _); [|discriminate H].
    injection H as <- <-. exact S.
  - (* Take *)
    destruct (copy m p) as [[]|]; try discriminate H; injection H as <- <-; apply write_held; auto; intros q [].
Qed.

(** Induction over expressions. *)
Lemma expr_nested (Q : expr -> Prop) :
  (forall x, Q (Var x)) -> (forall o, Q (Make o)) ->
  (forall f l, Forall Q l -> Q (Call f l)) -> forall e, Q e.
Proof.
  intros V M C. fix F 1. intros [x|o|f l]; [apply V|apply M|apply C].
  induction l as [|e l IH]; constructor; [apply F|exact IH].
Qed.

Fixpoint evals (l : list expr) (m : memory) : option (memory * list arg) :=
  match l with
  | [] => Some (m, [])
  | e :: l' =>
      match eval e m with
      | Some (m1, x) =>
          let (m2, a) := materialize m1 x in
          match evals l' m2 with Some (m3, r) => Some (m3, a :: r) | None => None end
      | None => None
      end
  end.

Lemma eval_call f l m :
  eval (Call f l) m = match evals l m with Some (m', args) => result f m' args | None => None end.
Proof. reflexivity. Qed.

Fixpoint all_quiet (n : nat) (f : func) (l : list expr) (i : nat) : bool :=
  match l with
  | [] => true
  | e :: l' => quiet n e && implb (annotated f i) (negb (prvalue e)) && all_quiet n f l' (S i)
  end.

Lemma quiet_call n f l : quiet n (Call f l) = plain f && all_quiet n f l 0.
Proof. cbn. f_equal. generalize 0. induction l as [|e l IH]; intros i; cbn; [reflexivity|]. now rewrite IH. Qed.

Lemma makes_ref f m args m' x : plain f = true -> makes f = false -> result f m args = Some (m', x) ->
  exists p rv, x = Ref p rv.
Proof.
  intros P M H. destruct f; try discriminate P; try discriminate M; cbn [result] in H.
  all: try (destruct r; [discriminate P|]; try discriminate M).
  all: destruct args as [|(p, rv) [|(s, rs) [|]]]; try discriminate H.
  1-4: destruct (get_place m p); [|discriminate H]; injection H as <- <-; eauto.
  - rewrite (construct_value_place _ _ _ _ _ H). eauto.
  - destruct (get_place m p); [|rewrite (construct_value_place _ _ _ _ _ H); eauto].
    destruct (Bool.eqb _ _); [|discriminate H]. injection H as <- <-. eauto.
Qed.

Definition good (n : nat) (e : expr) : Prop :=
  quiet n e = true -> forall m m' x, settled n m -> eval e m = Some (m', x) ->
  settled n m' /\ (forall q, In q (refs x) -> ~ dangling n q) /\
  (prvalue e = false -> exists p rv, x = Ref p rv).

Lemma evals_good n f l : Forall (good n) l ->
  forall i m m' args, all_quiet n f l i = true -> settled n m -> evals l m = Some (m', args) ->
  settled n m' /\
  (forall k p rv, nth_error args k = Some (p, rv) -> annotated f (i + k) = true -> ~ dangling n p).
Proof.
  induction 1 as [|e l G Gs IH]; intros i m m' args Qt S E; cbn in E.
  - injection E as <- <-. split; [exact S|]. intros [|k]; discriminate.
  - cbn in Qt. apply andb_prop in Qt as [Qt Ql]. apply andb_prop in Qt as [Qe Qi].
    destruct (eval e m) as [(m1, x)|] eqn:Ee; [|discriminate].
    destruct (G Qe _ _ _ S Ee) as (S1 & R1 & V1).
    destruct (materialize m1 x) as (m2, a) eqn:M.
    destruct (evals l m2) as [(m3, r)|] eqn:El; [|discriminate]. injection E as <- <-.
    assert (S2 : settled n m2).
    { destruct x as [p rv|o]; cbn in M; injection M as <- <-; [exact S1|].
      intros b B q I. apply in_app_or in B. destruct B as [B|[<-|[]]]; [eapply S1; eauto|now apply R1]. }
    destruct (IH _ _ _ _ Ql S2 El) as (S3 & R3). split; [exact S3|].
    intros [|k] p rv N A.
    + cbn in N. injection N as ->. rewrite Nat.add_0_r in A. rewrite A in Qi. cbn in Qi.
      destruct (V1 (proj1 (negb_true_iff _) Qi)) as (p' & rv' & ->). cbn in M. injection M as <- <- <-.
      apply R1. now left.
    + apply (R3 k p rv N). rewrite <- A. f_equal. lia.
Qed.

Lemma quiet_alive n : forall e, good n e.
Proof.
  apply expr_nested.
  - intros x Qt m m' y S E. cbn [quiet] in Qt. cbn [eval] in E. destruct (x <? length m); [|discriminate]. injection E as <- <-.
    repeat split; [exact S| |eauto]. intros q [<-|[]]. unfold dangling. cbn. apply Nat.ltb_lt in Qt. lia.
  - intros o Qt m m' y S E. cbn in Qt, E. injection E as <- <-.
    repeat split; [exact S| |discriminate]. intros q I. cbn in I. rewrite forallb_forall in Qt.
    specialize (Qt _ I). apply Nat.ltb_lt in Qt. unfold dangling. lia.
  - intros f l F Qt m m' y S E. rewrite quiet_call in Qt. apply andb_prop in Qt as [P Ql].
    rewrite eval_call in E. destruct (evals l m) as [(m1, args)|] eqn:El; [|discriminate].
    destruct (evals_good _ _ _ F _ _ _ _ Ql S El) as (S1 & R1).
    repeat split.
    + eapply plain_settled; eauto.
    + intros q I. eapply accounted_alive; [exact S1| |eapply plain_accounted; eauto].
      intros k p rv N A. apply (R1 k p rv N A).
    + intros V. cbn in V. eapply makes_ref; eauto.
Qed.

Lemma quiet_no_dangling n e m m' x q :
  quiet n e = true -> settled n m -> eval e m = Some (m', x) -> In q (refs x) -> ~ dangling n q.
Proof. intros Q S E I. now apply (quiet_alive n e Q m m' x S E). Qed.

(** The warning. *)
Fixpoint any_warned (f : func) (l : list expr) (i : nat) : bool :=
  match l with
  | [] => false
  | e :: l' => annotated f i && (prvalue e || warned e) || any_warned f l' (S i)
  end.

Lemma warned_call f l : warned (Call f l) = any_warned f l 0.
Proof. cbn. generalize 0. induction l as [|e l IH]; intros i; cbn; [reflexivity|]. now rewrite IH. Qed.

Fixpoint all_traced (n : nat) (f : func) (l : list expr) (i : nat) : bool :=
  match l with
  | [] => true
  | e :: l' => traced n e && (annotated f i || is_var e) && all_traced n f l' (S i)
  end.

Lemma traced_call n f l : traced n (Call f l) = plain f && all_traced n f l 0.
Proof. cbn. f_equal. generalize 0. induction l as [|e l IH]; intros i; cbn; [reflexivity|]. now rewrite IH. Qed.

Lemma traced_quiet n : forall e, traced n e = true -> warned e = false -> quiet n e = true.
Proof.
  apply (expr_nested (fun e => traced n e = true -> warned e = false -> quiet n e = true)).
  - intros x T _. exact T.
  - intros o T _. exact T.
  - intros f l F T W. rewrite traced_call in T. apply andb_prop in T as [P T]. rewrite warned_call in W.
    rewrite quiet_call, P. cbn [andb]. clear P. revert T W. generalize 0.
    induction F as [|e l G Gs IH]; intros i T W; [reflexivity|]. cbn in T, W |- *.
    apply andb_prop in T as [T Tl]. apply andb_prop in T as [T Ta]. apply orb_false_iff in W as [W Wl].
    rewrite (IH _ Tl Wl), andb_true_r. destruct (annotated f i); cbn in *.
    + apply orb_false_iff in W as [Wp W]. rewrite (G T W), Wp. reflexivity.
    + destruct e; try discriminate Ta. cbn in T |- *. now rewrite T.
Qed.

Lemma no_warning_no_dangling n e m m' x q :
  traced n e = true -> warned e = false -> settled n m -> eval e m = Some (m', x) -> In q (refs x) ->
  ~ dangling n q.
Proof. intros T W. apply quiet_no_dangling. now apply traced_quiet. Qed.

(** A warning that is right. *)
Lemma warning_right n f m p rv args m' x q :
  plain f = true -> (forall i, annotated f i = true -> i = 0) ->
  (forall i s rs o, nth_error ((p, rv) :: args) i = Some (s, rs) -> read m s = Some o -> held o = []) ->
  dangling n p -> result f m ((p, rv) :: args) = Some (m', x) -> In q (refs x) -> dangling n q.
Proof.
  intros P Z E D H I. destruct (plain_inside _ _ _ _ _ _ P E H I) as (i & s & rs & N & A & W).
  rewrite (Z _ A) in N. injection N as -> ->. destruct W as (F & _). unfold dangling in *. now rewrite <- F.
Qed.

(** * Elements *)

Theorem elements_at m p rv l i : read m p = Some (Pack l) ->
  let e := match nth_error l i with Some (Link q) => Some q | Some _ => Some (inner p i) | None => None end in
  result (At i) m [(p, rv)] = Some (m, New (OptRef e)) /\
  (forall k a, nth_error l i <> None -> result (Lookup (Some i)) m [(p, rv); (k, a)] = Some (m, New (OptRef e))) /\
  (forall o rv', nth_error l i <> None -> get_place m o = Some p -> result (GetI i) m [(o, rv')] = Some (m, New (OptRef e))).
Proof.
  intros R e. assert (E : element_place m p i = e).
  { unfold element_place, e. rewrite read_inner, R. cbn [part]. now destruct (nth_error l i) as [[]|]. }
  assert (N : nth_error l i <> None -> exists q, e = Some q).
  { unfold e. destruct (nth_error l i) as [[]|]; intros H; eauto. now destruct H. }
  split; [|split].
  - cbn [result]. rewrite R, E. reflexivity.
  - intros k a H. destruct (N H) as [q Hq]. cbn [result]. rewrite R, E, Hq. reflexivity.
  - intros o rv' H G. destruct (N H) as [q Hq]. cbn [result]. rewrite G, E, Hq. reflexivity.
Qed.
