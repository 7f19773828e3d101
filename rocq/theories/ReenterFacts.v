(** Proofs about callbacks that use the option. *)
From Coq Require Import NArith ZArith Bool List Lia ZifyBool ZifyN.
From Verif Require Import Outcome Words Lifetime LifetimeSpec LifetimeFacts Api ApiSpec ApiFacts Reenter ReenterSpec.
Import ListNotations.
Open Scope N_scope.

Section One.
Context {W : Type} (C : cls W) (S : sem C).
Hypothesis L : lawful C S.

Lemma r_call_alive {A} (f : cell C * W -> out A) c w : inv C S c -> c_alive c = true -> r_call C f (c, w) = f (c, w).
Proof. intros Hi Ha. unfold r_call. cbn [fst]. rewrite (has_ok C S L c Hi), Ha. reflexivity. Qed.

(** With callbacks that see the contained object only, the functions are those of Api.v. *)
Lemma r_has_value_and_inside f c w : inv C S c ->
  r_has_value_and C (inside C f) (c, w) =
    match a_has_value_and C f c w with
    | Ret (c', (b, w')) => Ret (b, (c', w'))
    | Exn (c', (b, w')) => Exn (b, (c', w'))
    | Abort => Abort
    | Undef => Undef
    end.
Proof.
  intros Hi. unfold r_has_value_and, a_has_value_and, o_with_value, r_call, inside. cbn [fst snd]. rewrite (has_ok C S L c Hi). cbn [check].
  destruct (c_alive c); [|reflexivity]. destruct (f (c_raw c) w) as [(r & b & w')|(r & b & w')| |]; reflexivity.
Qed.

Lemma r_inspect_inside f c w : inv C S c -> r_inspect C (inside_visit C f) (c, w) = a_inspect C f c w.
Proof.
  intros Hi. unfold r_inspect, a_inspect, o_with_value, r_call, inside_visit. cbn [fst snd]. rewrite (has_ok C S L c Hi). cbn [check].
  destruct (c_alive c); reflexivity.
Qed.

Lemma r_filter_inside p f d c w : inv C S c -> r_filter C p (inside C f) d (c, w) = a_filter C p f d (c, w).
Proof.
  intros Hi. unfold r_filter, a_filter, o_with_value, r_call, inside. cbn [fst snd]. rewrite (has_ok C S L c Hi). cbn [check].
  destruct (c_alive c); [|reflexivity]. destruct (f (c_raw c) w) as [(r & b & w')|(r & b & w')| |]; reflexivity.
Qed.

Lemma r_take_if_inside nrvo f d c w : inv C S c -> r_take_if C nrvo (inside C f) d (c, w) = o_take_if C nrvo f d (c, w).
Proof.
  intros Hi. unfold r_take_if, o_take_if, o_with_value, r_call, inside, o_none. cbn [fst snd]. rewrite (has_ok C S L c Hi). cbn [check].
  destruct (c_alive c); [|reflexivity]. destruct (f (c_raw c) w) as [(r & b & w')|(r & b & w')| |]; reflexivity.
Qed.

(** inspect, has_value_and: nothing happens after the callback. *)
Lemma r_inspect_exact f c w : inv C S c -> r_inspect C f (c, w) = if c_alive c then f (c, w) else Ret (c, w).
Proof.
  intros Hi. unfold r_inspect. cbn [fst]. rewrite (has_ok C S L c Hi). cbn [check].
  destruct (c_alive c) eqn:Ha; [now apply r_call_alive|reflexivity].
Qed.

Lemma r_has_value_and_exact f c w : inv C S c ->
  r_has_value_and C f (c, w) = if c_alive c then f (c, w) else Ret (false, (c, w)).
Proof.
  intros Hi. unfold r_has_value_and. cbn [fst]. rewrite (has_ok C S L c Hi). cbn [check].
  destruct (c_alive c) eqn:Ha; [now apply r_call_alive|reflexivity].
Qed.

Lemma r_or_else_exact p f d c w : inv C S c -> c_alive c = false -> r_or_else C p f d (c, w) = f d (c, w).
Proof. intros Hi Ha. unfold r_or_else. cbn [fst]. rewrite (has_ok C S L c Hi), Ha. reflexivity. Qed.

(** filter. *)
Lemma r_filter_ok : forall (B : Prop) p f R d c w, (stops S -> B) -> tells C S B f R -> inv C S c ->
  post (B \/ exists v, oval C S c = Some v /\ R v true None) (r_filter C p f d (c, w))
    (fun q => inv C S (fst q) /\ inv C S (fst (snd q)) /\
       filter_says S p R (oval C S c) (oval C S (fst q)) (oval C S (fst (snd q))) /\
       (cnt S (snd (snd q)) + oown C S c = cnt S w + oown C S (fst q) + oown C S (fst (snd q)))%Z)
    (fun q => inv C S (fst (snd q)) /\ c_alive c = true /\
       (cnt S (snd (snd q)) + oown C S c = cnt S w + oown C S (fst (snd q)))%Z).
Proof.
  intros B p f R d c w HB Hf Hi. unfold r_filter. cbn [fst]. rewrite (has_ok C S L c Hi). cbn [check].
  destruct (c_alive c) eqn:Ha.
  - rewrite (r_call_alive f c w Hi Ha), (oval_alive C S c Ha). specialize (Hf c w Hi Ha).
    destruct (f (c, w)) as [(b & c1 & w1)|(b & c1 & w1)| |]; cbn in Hf; [..|contradiction]; [| |left; exact Hf].
    2: { destruct Hf as (H1 & H2). cbn. auto. }
    destruct Hf as (H1 & H2 & H3). destruct b.
    + destruct (c_alive c1) eqn:Ha1.
      * rewrite (oval_alive C S c1 Ha1) in H2. rewrite (oown_alive C S c1 Ha1) in H3. eapply post_mono.
        -- apply build_ok with (T := S)
             (R := fun x (q : cell C * W) => inv C S (fst q) /\
                (exists v', (val S x = val S (c_raw c1) /\ left_by S p (val S (c_raw c1)) v') /\ oval C S (fst q) = Some v') /\
                (cnt S (snd q) + own S (c_raw c1) = cnt S w1 + own S x + oown C S (fst q))%Z)
             (E := fun q : cell C * W => inv C S (fst q) /\ c_alive (fst q) = true /\
                (cnt S (snd q) + own S (c_raw c1) = cnt S w1 + oown C S (fst q))%Z); [exact L|auto|].
           pose proof (with_get_produces C C S S L _ _ (c_raw d) c1 w1 (from_value_produces C S L p) H1 Ha1) as H.
           rewrite (oown_alive C S c1 Ha1) in H.
           destruct (with_get C (from_value C p) (c_raw d) (c1, w1)) as [q|q| |]; cbn in *; [left|exact H|tauto|exact H].
           destruct H as (A1 & A2 & A3 & A4). auto.
        -- cbn. intros q (A1 & A2 & A3 & (v' & (A4 & A5) & A6) & A7).
           rewrite (oval_alive C S _ A2), (oown_alive C S _ A2), A4.
           split; [exact A1|]. split; [exact A3|]. split; [|lia]. exists true, (Some (val S (c_raw c1))). eauto 8.
        -- cbn. intros q (A1 & A2 & A3). split; [exact A1|]. split; [reflexivity|lia].
      * rewrite (oval_dead C S c1 Ha1) in H2. unfold o_build, with_get. rewrite (has_ok C S L c1 H1), Ha1. cbn. right. eauto.
    + destruct (none_ok C S L _ d (c1, w1)) as (d' & -> & Hd & Hda). cbn.
      rewrite (oval_dead C S _ Hda), (dead_own C S _ Hda). split; [exact Hd|]. split; [exact H1|]. split; [|lia].
      exists false, (oval C S c1). auto.
  - rewrite (oval_dead C S c Ha).
    destruct (none_ok C S L _ d (c, w)) as (d' & -> & Hd & Hda). cbn.
    rewrite (oval_dead C S _ Hda), (oval_dead C S c Ha), (dead_own C S _ Hda), (dead_own C S c Ha). split; [exact Hd|]. split; [exact Hi|].
    split; [auto|lia].
Qed.

Lemma r_filter_stops : forall p f d c w c' w', inv C S c -> c_alive c = true ->
  f (c, w) = Ret (true, (c', w')) -> inv C S c' -> c_alive c' = false -> r_filter C p f d (c, w) = Abort.
Proof.
  intros p f d c w c' w' Hi Ha Hf Hi' Ha'. unfold r_filter. cbn [fst]. rewrite (has_ok C S L c Hi), Ha. cbn [check].
  rewrite (r_call_alive f c w Hi Ha), Hf. unfold o_build, with_get. rewrite (has_ok C S L c' Hi'), Ha'. reflexivity.
Qed.

(** take_if. *)
Lemma r_take_if_ok : forall (B : Prop) nrvo f R d c w, (stops S -> B) -> quiet_move C S -> tells C S B f R -> inv C S c ->
  post B (r_take_if C nrvo f d (c, w))
    (fun q => inv C S (fst q) /\ inv C S (fst (snd q)) /\
       take_if_says S R (oval C S c) (oval C S (fst q)) (oval C S (fst (snd q))) /\
       (cnt S (snd (snd q)) + oown C S c = cnt S w + oown C S (fst q) + oown C S (fst (snd q)))%Z)
    (fun q => inv C S (fst (snd q)) /\ c_alive c = true /\
       (cnt S (snd (snd q)) + oown C S c = cnt S w + oown C S (fst (snd q)))%Z).
Proof.
  intros B nrvo f R d c w HB Q Hf Hi. unfold r_take_if. cbn [fst]. rewrite (has_ok C S L c Hi). cbn [check].
  destruct (c_alive c) eqn:Ha.
  - rewrite (r_call_alive f c w Hi Ha), (oval_alive C S c Ha). specialize (Hf c w Hi Ha).
    destruct (f (c, w)) as [(b & c1 & w1)|(b & c1 & w1)| |]; cbn in Hf; [..|contradiction]; [| |exact Hf].
    2: { destruct Hf as (H1 & H2). cbn. auto. }
    destruct Hf as (H1 & H2 & H3). destruct b.
    + pose proof (take_ok C S L nrvo d c1 w1 Q H1) as H.
      destruct (o_take C nrvo d (c1, w1)) as [q|q| |]; cbn in *; [| |auto|exact H].
      * destruct H as (A1 & A2 & A3 & A4 & A5). split; [exact A1|]. split; [exact A3|]. split; [|lia]. exists true, (oval C S c1). auto.
      * destruct H as (A1 & A2 & A3 & A4). split; [exact A1|]. split; [reflexivity|lia].
    + destruct (none_ok C S L _ d (c1, w1)) as (d' & -> & Hd & Hda). cbn.
      rewrite (oval_dead C S _ Hda), (dead_own C S _ Hda). split; [exact Hd|]. split; [exact H1|]. split; [|lia].
      exists false, (oval C S c1). auto.
  - rewrite (oval_dead C S c Ha).
    destruct (none_ok C S L _ d (c, w)) as (d' & -> & Hd & Hda). cbn.
    rewrite (oval_dead C S _ Hda), (oval_dead C S c Ha), (dead_own C S _ Hda), (dead_own C S c Ha). split; [exact Hd|]. split; [exact Hi|].
    split; [auto|lia].
Qed.

(** Callbacks may call members again. *)
Lemma has_value_and_tells B f R : tells C S B f R -> tells C S B (r_has_value_and C f) R.
Proof. intros Hf c w Hi Ha. rewrite (r_has_value_and_exact f c w Hi), Ha. now apply Hf. Qed.

(** ... and one after another. *)
Definition andalso (f g : cell C * W -> out (bool * (cell C * W))) (st : cell C * W) : out (bool * (cell C * W)) :=
  match f st with
  | Ret (true, st') => r_has_value_and C g st'
  | m => m
  end.
Lemma andalso_tells B f g R Q : tells C S B f R -> tells C S B g Q ->
  tells C S B (andalso f g) (fun v b o =>
    R v false o /\ b = false \/
    exists o1, R v true o1 /\ match o1 with Some v1 => Q v1 b o | None => b = false /\ o = None end).
Proof.
  intros Hf Hg c w Hi Ha. specialize (Hf c w Hi Ha). unfold andalso.
  destruct (f (c, w)) as [([] & c1 & w1)|(b & c1 & w1)| |]; cbn in *; auto.
  2: { destruct Hf as (H1 & H2 & H3). auto. }
  destruct Hf as (H1 & H2 & H3). rewrite (r_has_value_and_exact g c1 w1 H1). destruct (c_alive c1) eqn:Ha1.
  - specialize (Hg c1 w1 H1 Ha1). rewrite (oval_alive C S c1 Ha1) in H2.
    destruct (g (c1, w1)) as [(b & c2 & w2)|(b & c2 & w2)| |]; cbn in *; auto.
    + destruct Hg as (A1 & A2 & A3). split; [exact A1|]. split; [right; eauto|lia].
    + destruct Hg as (A1 & A2). split; [exact A1|lia].
  - cbn. split; [exact H1|]. split; [|exact H3]. right. exists (oval C S c1). split; [exact H2|].
    rewrite (oval_dead C S c1 Ha1). auto.
Qed.

(** reset() inside the callback. *)
Lemma reset_tells b :
  tells C S (stops S) (fun st => match o_reset C (fst st) (snd st) with
                                 | Ret st' => Ret (b, st')
                                 | Exn st' => Exn (b, st')
                                 | Abort => Abort
                                 | Undef => Undef
                                 end) (fun _ x o => x = b /\ o = None).
Proof.
  intros c w Hi Ha. cbn [fst snd]. pose proof (reset_ok C S L c w Hi) as H.
  destruct (o_reset C c w) as [[c' w']|[c' w']| |]; cbn in *; auto; try contradiction.
  destruct H as (H1 & H2 & H3). rewrite (oval_dead C S c' H2), (dead_own C S c' H2). split; [exact H1|]. split; [auto|lia].
Qed.
End One.

Section Two.
Context {W : Type} (C D : cls W) (S : sem C).
Hypothesis L : lawful C S.

Lemma r_and_then_inside f d c w : inv C S c ->
  r_and_then C D (inside_make C f) d (c, w) = a_and_then C D f d (c, w).
Proof.
  intros Hi. unfold r_and_then, a_and_then, with_get, r_call, inside_make. cbn [fst snd]. rewrite (has_ok C S L c Hi). cbn [check].
  destruct (c_alive c); [|reflexivity]. reflexivity.
Qed.

Lemma r_map_inside f d c w : inv C S c -> r_map C D (inside_make C f) d (c, w) = a_map C D f d (c, w).
Proof.
  intros Hi. unfold r_map, a_map, o_build, with_get, r_call, inside_make. cbn [fst snd]. rewrite (has_ok C S L c Hi). cbn [check].
  destruct (c_alive c); [|reflexivity]. destruct (f (c_raw d) (c_raw c, w)) as [(r & b & w')|(r & b & w')| |]; reflexivity.
Qed.

Lemma r_map_or_inside i f d c w : inv C S c -> r_map_or C D i (inside_make C f) d (c, w) = a_map_or C D i f d (c, w).
Proof.
  intros Hi. unfold r_map_or, a_map_or, with_get, r_call, inside_make. cbn [fst snd]. rewrite (has_ok C S L c Hi). cbn [check].
  destruct (c_alive c); reflexivity.
Qed.

Lemma r_map_or_else_inside g f d c w : inv C S c ->
  r_map_or_else C D (lift g) (inside_make C f) d (c, w) = a_map_or_else C D g f d (c, w).
Proof.
  intros Hi. unfold r_map_or_else, a_map_or_else, with_get, r_call, inside_make. cbn [fst snd]. rewrite (has_ok C S L c Hi). cbn [check].
  destruct (c_alive c); reflexivity.
Qed.

(** Nothing happens to the option after the callback. *)
Lemma r_and_then_exact f d c w : inv C S c ->
  r_and_then C D f d (c, w) = if c_alive c then f d (c, w) else o_none D d (c, w).
Proof.
  intros Hi. unfold r_and_then. cbn [fst]. rewrite (has_ok C S L c Hi). cbn [check].
  destruct (c_alive c) eqn:Ha; [now apply (r_call_alive C S L)|reflexivity].
Qed.

Lemma r_map_exact f d c w : inv C S c ->
  r_map C D f d (c, w) = if c_alive c then o_build D f d (c, w) else o_none D d (c, w).
Proof.
  intros Hi. unfold r_map. cbn [fst]. rewrite (has_ok C S L c Hi). cbn [check].
  destruct (c_alive c) eqn:Ha; [|reflexivity]. unfold o_build. now rewrite (r_call_alive C S L).
Qed.

Lemma r_map_or_exact i f d c w : inv C S c ->
  r_map_or C D i f d (c, w) = if c_alive c then f d (c, w) else lift (ctor D i) d (c, w).
Proof.
  intros Hi. unfold r_map_or. cbn [fst]. rewrite (has_ok C S L c Hi). cbn [check].
  destruct (c_alive c) eqn:Ha; [now apply (r_call_alive C S L)|reflexivity].
Qed.

Lemma r_map_or_else_exact g f d c w : inv C S c ->
  r_map_or_else C D g f d (c, w) = if c_alive c then f d (c, w) else g d (c, w).
Proof.
  intros Hi. unfold r_map_or_else. cbn [fst]. rewrite (has_ok C S L c Hi). cbn [check].
  destruct (c_alive c) eqn:Ha; [now apply (r_call_alive C S L)|reflexivity].
Qed.
End Two.
