(** zip and unzip undo each other, and examples. *)
From Coq Require Import NArith ZArith Bool List Lia ZifyBool ZifyN.
From Verif Require Import Outcome Words Lifetime LifetimeSpec LifetimeFacts Api ApiSpec ApiFacts Tuple TupleSpec TupleFacts ZipFacts
  Classes ClassesFacts.
Import ListNotations.
Open Scope N_scope.

Section Laws.
Context {W : Type} (count : W -> Z) (sh : shape).
Notation tsem := (tuple_sem count sh).

Lemma sequence_none : forall Cs (Ss : sems Cs) os, sequence count sh Cs Ss os = None <-> some_none count sh Cs Ss os.
Proof.
  induction Cs as [|C Cs IH]; intros Ss os; cbn [some_none].
  - cbn. split; [discriminate|tauto].
  - destruct os as [o os]. change (match o, sequence count sh Cs (snd Ss) os with
                                   | Some v, Some vs => Some (v, vs)
                                   | _, _ => None
                                   end = None <-> o = None \/ some_none count sh Cs (snd Ss) os).
    rewrite <- (IH (snd Ss) os). destruct o as [v|]; [|intuition].
    destruct (sequence count sh Cs (snd Ss) os) as [u|]; intuition congruence.
Qed.
Lemma sequence_some : forall Cs (Ss : sems Cs) os vs,
  sequence count sh Cs Ss os = Some vs <-> os = distribute count sh Cs Ss (Some vs).
Proof.
  intros Cs Ss os vs. split.
  - intros H. symmetry. now apply distribute_sequence.
  - intros ->. destruct Cs as [|C Cs].
    + now destruct vs.
    + now apply sequence_distribute.
Qed.
Lemma distribute_none : forall Cs (Ss : sems Cs), all_none count sh Cs Ss (distribute count sh Cs Ss None).
Proof. induction Cs as [|C Cs IH]; intros Ss; cbn; [exact I|]. split; [reflexivity|apply IH]. Qed.
Lemma distribute_spec : forall Cs (Ss : sems Cs) os,
  (some_none count sh Cs Ss os -> all_none count sh Cs Ss (distribute count sh Cs Ss (sequence count sh Cs Ss os))) /\
  (~ some_none count sh Cs Ss os -> distribute count sh Cs Ss (sequence count sh Cs Ss os) = os).
Proof.
  intros Cs Ss os. rewrite <- sequence_none. destruct (sequence count sh Cs Ss os) as [vs|] eqn:E.
  - split; [discriminate|]. intros _. now apply distribute_sequence.
  - split; [|congruence]. intros _. apply distribute_none.
Qed.

Lemma as_cells_ok : forall Cs (Ss : sems Cs) r, ok (tsem (opts Cs) (osems Cs Ss)) r ->
  invs Cs Ss (as_cells sh Cs r) /\ ovals count sh Cs Ss (as_cells sh Cs r) = val (tsem (opts Cs) (osems Cs Ss)) r.
Proof.
  induction Cs as [|C Cs IH]; intros Ss r H; cbn; [split; [exact I|reflexivity]|].
  destruct H as [H1 H2]. destruct (IH (snd Ss) (snd r) H2) as [K1 K2]. split; [split; [exact H1|exact K1]|].
  apply pair_eq; [reflexivity|exact K2].
Qed.

(** unzip(zip(o...)). *)
Lemma unzip_zip_ok : forall Cs (Ss : sems Cs) ps t d cs w elide p t' r', every (element count) Cs Ss ->
  every (@quiet W) Cs Ss -> invs Cs Ss cs ->
  post (stops (tsem Cs Ss)) (a_zip sh Cs ps t d (cs, w))
    (fun q => post (stops (tsem Cs Ss)) (a_unzip elide sh Cs p t' r' (fst q, snd (snd q)))
       (fun u => ok (tsem (opts Cs) (osems Cs Ss)) (fst u) /\
          (some_none count sh Cs Ss (ovals count sh Cs Ss cs) ->
             all_none count sh Cs Ss (val (tsem (opts Cs) (osems Cs Ss)) (fst u))) /\
          (~ some_none count sh Cs Ss (ovals count sh Cs Ss cs) ->
             val (tsem (opts Cs) (osems Cs Ss)) (fst u) = ovals count sh Cs Ss cs))
       (fun _ => True))
    (fun _ => True).
Proof.
  intros Cs Ss ps t d cs w elide p t' r' H Q Hi.
  eapply post_imp; [apply (zip_ok count sh Cs Ss ps t d cs w H Hi)|auto| |auto].
  intros [d' [cs' w']]; cbn [fst snd]. intros (A1 & _ & _ & _ & A2 & _).
  eapply post_imp; [apply (unzip_ok count sh elide Cs Ss p t' r' d' w' H Q A1)|auto| |auto].
  intros [u [d'' w'']]; cbn [fst snd]. intros (B1 & B2 & _). rewrite B2, A2. split; [exact B1|].
  apply distribute_spec.
Qed.

(** zip(unzip(o)). *)
Lemma zip_unzip_ok : forall Cs (Ss : sems Cs) elide p t r c w ps t' d', Cs <> [] -> every (element count) Cs Ss ->
  every (@quiet W) Cs Ss -> inv _ (tsem Cs Ss) c ->
  post (stops (tsem Cs Ss)) (a_unzip elide sh Cs p t r (c, w))
    (fun q => post (stops (tsem Cs Ss)) (a_zip sh Cs ps t' d' (as_cells sh Cs (fst q), snd (snd q)))
       (fun u => inv _ (tsem Cs Ss) (fst u) /\ oval _ (tsem Cs Ss) (fst u) = oval _ (tsem Cs Ss) c)
       (fun _ => True))
    (fun _ => True).
Proof.
  intros Cs Ss elide p t r c w ps t' d' Hne H Q Hi.
  eapply post_imp; [apply (unzip_ok count sh elide Cs Ss p t r c w H Q Hi)|auto| |auto].
  intros [u [c' w']]; cbn [fst snd]. intros (A1 & A2 & _). destruct (as_cells_ok Cs Ss u A1) as [B1 B2].
  eapply post_imp; [apply (zip_ok count sh Cs Ss ps t' d' _ w' H B1)|auto| |auto].
  intros [d'' [cs'' w'']]; cbn [fst snd]. intros (C1 & _ & _ & _ & C2 & _). split; [exact C1|].
  rewrite C2, B2, A2. now apply sequence_distribute.
Qed.
End Laws.

(** * Elements for the examples *)
Lemma fussy_whole : forall m torn, whole (fussy m torn) (fussy_sem m torn).
Proof.
  intros m torn. constructor; intros; cbn; unfold may_throw; destruct (tick w) as [[|] w']; cbn; repeat split; auto; lia.
Qed.
Lemma fussy_element : forall m torn, m < umax_base -> element (fun _ => 0%Z) (fussy m torn) (fussy_sem m torn).
Proof. intros m torn H. split; [now apply fussy_lawful|]. split; [apply fussy_whole|reflexivity]. Qed.

(** A tuple whose first constructed element carries the levels, and whose next constructor throws. *)
Definition head_tail : cls schedule := tuple_cls (mkshape false false) [fussy 3 false; fussy 0 false].
Definition head_tail_sem : sem head_tail :=
  tuple_sem (fun _ => 0%Z) (mkshape false false) [fussy 3 false; fussy 0 false] (fussy_sem 3 false, (fussy_sem 0 false, tt)).

Lemma tuple_torn : exists (c c' : cell head_tail) w w',
  (quiet (fussy 3 false) (fussy_sem 3 false) /\ quiet (fussy 0 false) (fussy_sem 0 false)) /\
  lawful head_tail head_tail_sem /\ inv head_tail head_tail_sem c /\
  o_emplace head_tail (o_reset head_tail) (ctor head_tail (5, (6, tt))) c w = Exn (c', w') /\
  c_alive c' = false /\ o_has head_tail c' = Ok true /\ o_dtor head_tail c' w' = Undef.
Proof.
  exists (mkcell (C := head_tail) (0, (0, tt)) 0 false), (mkcell (C := head_tail) (8, (0, tt)) 0 false), [false; true], [].
  split; [split; apply fussy_quiet; auto|]. split.
  - apply (tuple_element (fun _ => 0%Z) (mkshape false false) [fussy 3 false; fussy 0 false] (fussy_sem 3 false, (fussy_sem 0 false, tt))).
    split; [apply fussy_element; unfold umax_base; lia|]. split; [apply fussy_element; unfold umax_base; lia|exact I].
  - split; [|repeat split]. split; [|split]; cbn; intros; try discriminate; try lia; reflexivity.
Qed.
