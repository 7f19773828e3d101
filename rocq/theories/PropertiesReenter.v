(** Property C81: callbacks that use the option they are called by. *)
From Coq Require Import NArith ZArith Bool List.
From Verif Require Import Outcome Words Lifetime LifetimeSpec LifetimeFacts Api ApiSpec ApiFacts Classes ClassesFacts Reenter ReenterSpec ReenterFacts PropertiesApi.
Import ListNotations.
Open Scope N_scope.

(** C81: filter looks at the option again after the predicate.  It ends the program if the predicate answered yes and left
    the option empty; in all other cases it returns what the predicate left. *)
Theorem C81_filter : forall W (C : cls W) (S : sem C), lawful C S ->
  forall (B : Prop) p f R d c w, (stops S -> B) -> tells C S B f R -> inv C S c ->
  post (B \/ exists v, oval C S c = Some v /\ R v true None) (r_filter C p f d (c, w))
    (fun q => inv C S (fst q) /\ inv C S (fst (snd q)) /\
       filter_says S p R (oval C S c) (oval C S (fst q)) (oval C S (fst (snd q))) /\
       (cnt S (snd (snd q)) + oown C S c = cnt S w + oown C S (fst q) + oown C S (fst (snd q)))%Z)
    (fun q => inv C S (fst (snd q)) /\ c_alive c = true /\
       (cnt S (snd (snd q)) + oown C S c = cnt S w + oown C S (fst (snd q)))%Z).
Proof. intros W C S L. exact (r_filter_ok C S L). Qed.
Print Assumptions C81_filter.

Theorem C81_filter_stops : forall W (C : cls W) (S : sem C), lawful C S ->
  forall p f d c w c' w', inv C S c -> c_alive c = true ->
  f (c, w) = Ret (true, (c', w')) -> inv C S c' -> c_alive c' = false -> r_filter C p f d (c, w) = Abort.
Proof. intros W C S L. exact (r_filter_stops C S L). Qed.
Print Assumptions C81_filter_stops.

(** C81: take_if takes what the predicate left, if anything; it never fails a check. *)
Theorem C81_take_if : forall W (C : cls W) (S : sem C), lawful C S ->
  forall (B : Prop) nrvo f R d c w, (stops S -> B) -> quiet_move C S -> tells C S B f R -> inv C S c ->
  post B (r_take_if C nrvo f d (c, w))
    (fun q => inv C S (fst q) /\ inv C S (fst (snd q)) /\
       take_if_says S R (oval C S c) (oval C S (fst q)) (oval C S (fst (snd q))) /\
       (cnt S (snd (snd q)) + oown C S c = cnt S w + oown C S (fst q) + oown C S (fst (snd q)))%Z)
    (fun q => inv C S (fst (snd q)) /\ c_alive c = true /\
       (cnt S (snd (snd q)) + oown C S c = cnt S w + oown C S (fst (snd q)))%Z).
Proof. intros W C S L. exact (r_take_if_ok C S L). Qed.
Print Assumptions C81_take_if.

(** C81: the other functions do not touch the option after the callback: their outcome is that of the callback. *)
Theorem C81_last : forall W (C D : cls W) (S : sem C), lawful C S -> forall c w, inv C S c ->
  (forall f, r_inspect C f (c, w) = if c_alive c then f (c, w) else Ret (c, w)) /\
  (forall f, r_has_value_and C f (c, w) = if c_alive c then f (c, w) else Ret (false, (c, w))) /\
  (forall f d, r_and_then C D f d (c, w) = if c_alive c then f d (c, w) else o_none D d (c, w)) /\
  (forall f d, r_map C D f d (c, w) = if c_alive c then o_build D f d (c, w) else o_none D d (c, w)) /\
  (forall i f d, r_map_or C D i f d (c, w) = if c_alive c then f d (c, w) else lift (ctor D i) d (c, w)) /\
  (forall g f d, r_map_or_else C D g f d (c, w) = if c_alive c then f d (c, w) else g d (c, w)) /\
  (forall p f d, c_alive c = false -> r_or_else C p f d (c, w) = f d (c, w)).
Proof.
  intros W C D S L c w Hi. exact (conj (fun f => r_inspect_exact C S L f c w Hi) (conj (fun f => r_has_value_and_exact C S L f c w Hi)
    (conj (fun f d => r_and_then_exact C D S L f d c w Hi) (conj (fun f d => r_map_exact C D S L f d c w Hi)
    (conj (fun i f d => r_map_or_exact C D S L i f d c w Hi) (conj (fun g f d => r_map_or_else_exact C D S L g f d c w Hi)
    (fun p f d H => r_or_else_exact C S L p f d c w Hi H))))))).
Qed.
Print Assumptions C81_last.

(** C81: callbacks that see the contained object only are a special case: the functions are then those of C28. *)
Theorem C81_inside : forall W (C D : cls W) (S : sem C), lawful C S -> forall c w, inv C S c ->
  (forall f, r_inspect C (inside_visit C f) (c, w) = a_inspect C f c w) /\
  (forall p f d, r_filter C p (inside C f) d (c, w) = a_filter C p f d (c, w)) /\
  (forall nrvo f d, r_take_if C nrvo (inside C f) d (c, w) = o_take_if C nrvo f d (c, w)) /\
  (forall f d, r_and_then C D (inside_make C f) d (c, w) = a_and_then C D f d (c, w)) /\
  (forall f d, r_map C D (inside_make C f) d (c, w) = a_map C D f d (c, w)) /\
  (forall i f d, r_map_or C D i (inside_make C f) d (c, w) = a_map_or C D i f d (c, w)) /\
  (forall g f d, r_map_or_else C D (lift g) (inside_make C f) d (c, w) = a_map_or_else C D g f d (c, w)).
Proof.
  intros W C D S L c w Hi. exact (conj (fun f => r_inspect_inside C S L f c w Hi) (conj (fun p f d => r_filter_inside C S L p f d c w Hi)
    (conj (fun n f d => r_take_if_inside C S L n f d c w Hi) (conj (fun f d => r_and_then_inside C D S L f d c w Hi)
    (conj (fun f d => r_map_inside C D S L f d c w Hi) (conj (fun i f d => r_map_or_inside C D S L i f d c w Hi)
    (fun g f d => r_map_or_else_inside C D S L g f d c w Hi))))))).
Qed.
Print Assumptions C81_inside.

(** C81: callbacks may be nested and chained: what calls has_value_and again, or two callbacks one after the other, is again a
    proper callback; so is one that resets the option. *)
Theorem C81_nested : forall W (C : cls W) (S : sem C), lawful C S -> forall B f R g Q, tells C S B f R -> tells C S B g Q ->
  tells C S B (r_has_value_and C f) R /\
  tells C S B (andalso C f g) (fun v b o =>
    R v false o /\ b = false \/
    exists o1, R v true o1 /\ match o1 with Some v1 => Q v1 b o | None => b = false /\ o = None end).
Proof. intros W C S L B f R g Q Hf Hg. exact (conj (has_value_and_tells C S L B f R Hf) (andalso_tells C S L B f g R Q Hf Hg)). Qed.
Print Assumptions C81_nested.

Theorem C81_reset : forall W (C : cls W) (S : sem C), lawful C S -> forall b,
  tells C S (stops S) (fun st => match o_reset C (fst st) (snd st) with
                                 | Ret st' => Ret (b, st')
                                 | Exn st' => Exn (b, st')
                                 | Abort => Abort
                                 | Undef => Undef
                                 end) (fun _ x o => x = b /\ o = None).
Proof. intros W C S L. exact (reset_tells C S L). Qed.
Print Assumptions C81_reset.

(** A predicate that resets the option and says yes (or no); one that assigns to it. *)
Definition resets (b : bool) (st : cell T3 * schedule) : out (bool * (cell T3 * schedule)) := Ret (b, (none3, snd st)).
Definition sets9 (st : cell T3 * schedule) : out (bool * (cell T3 * schedule)) := Ret (true, (some3 9, snd st)).
Lemma resets_tells b : tells T3 S3 (stops S3) (resets b) (fun _ x o => x = b /\ o = None).
Proof.
  intros c w Hi Ha. cbn. split; [apply none3_inv|]. unfold oown. rewrite Ha. cbn. auto.
Qed.
Lemma sets9_tells : tells T3 S3 (stops S3) sets9 (fun _ x o => x = true /\ o = Some (9 : N)).
Proof.
  intros c w Hi Ha. cbn. split; [apply some3_inv|]. unfold oown. rewrite Ha. cbn. auto.
Qed.
Example C81_ex : lawful T3 S3 /\ inv T3 S3 (some3 4) /\
  tells T3 S3 (stops S3) (resets true) (fun _ x o => x = true /\ o = None) /\
  tells T3 S3 (stops S3) sets9 (fun _ x o => x = true /\ o = Some (9 : N)) /\
  r_filter T3 ByCopy (resets true) junk3 (some3 4, []) = Abort /\
  r_filter T3 ByCopy (resets false) junk3 (some3 4, []) = Ret (none3, (none3, [])) /\
  r_filter T3 ByMove sets9 junk3 (some3 4, []) = Ret (some3 9, (some3 0, [])) /\
  r_take_if T3 true (resets true) junk3 (some3 4, []) = Ret (none3, (none3, [])) /\
  r_take_if T3 true sets9 junk3 (some3 4, []) = Ret (some3 9, (none3, [])) /\
  r_has_value_and T3 (resets true) (some3 4, []) = Ret (true, (none3, [])).
Proof.
  split; [apply (proj1 C28_ex)|]. split; [apply some3_inv|]. split; [apply (resets_tells true)|]. split; [apply sets9_tells|].
  repeat split.
Qed.
(** filter without failing checks: false, even if the predicate itself fails none. *)
Theorem C81_filter_refuted : exists W (C : cls W) (S : sem C) f R c w d, lawful C S /\ inv C S c /\ tells C S False f R /\
  r_filter C ByCopy f d (c, w) = Abort.
Proof.
  exists schedule, T3, S3, (resets true), (fun _ x o => x = true /\ o = None), (some3 4), [], junk3.
  split; [exact (proj1 C28_ex)|]. split; [exact (some3_inv 4)|]. split; [|reflexivity].
  intros c w Hi Ha. cbn. split; [apply none3_inv|]. unfold oown. rewrite Ha. cbn. auto.
Qed.
Print Assumptions C81_filter_refuted.
