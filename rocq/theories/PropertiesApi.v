(** Properties of the functional members and operators (C27-C30, C32, C33, C41, C43), each with a
    concrete case that meets its hypotheses. *)
From Coq Require Import NArith ZArith Bool List Lia ZifyBool ZifyN.
From Verif Require Import Outcome Words Lifetime LifetimeSpec LifetimeFacts Api ApiSpec ApiFacts ApiLaws ConvFacts ApiMore
  Classes ClassesFacts LifetimeLemmas.
Import ListNotations.
Open Scope N_scope.

(** The class of the examples: three unused states, members that may throw; an engaged and an
    empty option of it. *)
Definition T3 : cls schedule := fussy 3 false.
Definition S3 : sem T3 := fussy_sem 3 false.
Definition some3 (v : N) : cell T3 := mkcell (C := T3) (v + 3 : N) 0 true.
Definition none3 : cell T3 := mkcell (C := T3) (0 : N) 0 false.
Definition junk3 : cell T3 := mkcell (C := T3) (77 : N) 0 false.

Lemma some3_inv : forall v, inv T3 S3 (some3 v).
Proof. intros v. split; [|split]; cbn; intros; try discriminate; lia. Qed.
Lemma none3_inv : inv T3 S3 none3.
Proof. split; [|split]; cbn; intros; try discriminate; reflexivity. Qed.

(** A callback: adds one to the object it is given and builds ten times the old value; throws when
    the schedule says so. *)
Definition cb3 (d : raw T3) (rw : raw T3 * schedule) : out (raw T3 * (raw T3 * schedule)) :=
  let (b, w) := tick (snd rw) in
  let r : N := fst rw in
  if b then Exn (d, ((r + 1 : N) : raw T3, w))
  else Ret ((((r - 3) * 10 + 3 : N) : raw T3), (((r + 1 : N) : raw T3), w)).

Definition cb3_rel (v u v' : N) : Prop := u = v * 10 /\ v' = v + 1.

Lemma cb3_produces : produces S3 S3 cb3 cb3_rel.
Proof.
  intros d r w Hr. unfold cb3. cbn [fst snd]. destruct (tick w) as [b w']. destruct b; cbn in *.
  - split; [lia|reflexivity].
  - unfold cb3_rel. repeat split; lia.
Qed.

(** C27: get, operator* and operator-> (checked), value() (throwing), get_unchecked() and
    ptr_or_null() on every state. *)
Theorem C27_access : forall W (C : cls W) (S : sem C), lawful C S -> forall c, inv C S c ->
  (c_alive c = true -> a_get C c = Ret (c_raw c) /\ a_value C c = Ret (c_raw c) /\
     a_get_unchecked C c = Ret (c_raw c) /\ a_ptr_or_null C c = Ret (Some (c_raw c)) /\ ok S (c_raw c)) /\
  (c_alive c = false -> a_get C c = Abort /\ a_value C c = Exn (c_raw c) /\ a_ptr_or_null C c = Ret None /\
     a_get_unchecked C c = Undef).
Proof. intros W C S L. exact (access_ok C S L). Qed.
Print Assumptions C27_access.
Example C27_ex : a_get T3 (some3 5) = Ret (8 : N) /\ a_value T3 (some3 5) = Ret (8 : N) /\
  a_get T3 none3 = Abort /\ a_value T3 none3 = Exn (0 : N) /\ a_ptr_or_null T3 none3 = Ret None /\
  a_get_unchecked T3 none3 = Undef.
Proof. repeat split. Qed.

(** C28: callbacks run exactly once, on the contained object, iff they should. *)
Theorem C28_map : forall W (C D : cls W) (S : sem C), lawful C S -> forall d c w, inv C S c ->
  (c_alive c = true -> calls_once (fun f => a_map C D f d (c, w)) (c_raw d) (c_raw c, w)) /\
  (c_alive c = false -> never_calls (fun f => a_map C D f d (c, w))).
Proof. intros W C D S L. exact (map_calls C S L D). Qed.
Print Assumptions C28_map.

Theorem C28_and_then : forall W (C D : cls W) (S : sem C), lawful C S -> forall d c w, inv C S c ->
  (c_alive c = true -> calls_once (fun f => a_and_then C D f d (c, w)) d (c_raw c, w)) /\
  (c_alive c = false -> never_calls (fun f => a_and_then C D f d (c, w))).
Proof. intros W C D S L. exact (and_then_calls C S L D). Qed.
Print Assumptions C28_and_then.

Theorem C28_map_or : forall W (C D : cls W) (S : sem C), lawful C S -> forall i d c w, inv C S c ->
  (c_alive c = true -> calls_once (fun f => a_map_or C D i f d (c, w)) d (c_raw c, w)) /\
  (c_alive c = false -> never_calls (fun f => a_map_or C D i f d (c, w))).
Proof. intros W C D S L. exact (map_or_calls C S L D). Qed.
Print Assumptions C28_map_or.

Theorem C28_map_or_else : forall W (C D : cls W) (S : sem C), lawful C S -> forall g f d c w, inv C S c ->
  (c_alive c = true -> calls_once (fun f => a_map_or_else C D g f d (c, w)) d (c_raw c, w) /\
                       never_calls (fun g => a_map_or_else C D g f d (c, w))) /\
  (c_alive c = false -> calls_once (fun g => a_map_or_else C D g f d (c, w)) d w /\
                        never_calls (fun f => a_map_or_else C D g f d (c, w))).
Proof. intros W C D S L. exact (map_or_else_calls C S L D). Qed.
Print Assumptions C28_map_or_else.

Theorem C28_or_else : forall W (C : cls W) (S : sem C), lawful C S -> forall p d c w, inv C S c ->
  (c_alive c = false -> calls_once (fun f => a_or_else C p f d (c, w)) d w) /\
  (c_alive c = true -> never_calls (fun f => a_or_else C p f d (c, w))).
Proof. intros W C S L. exact (or_else_calls C S L). Qed.
Print Assumptions C28_or_else.

Theorem C28_has_value_and : forall W (C : cls W) (S : sem C), lawful C S -> forall c w, inv C S c ->
  (c_alive c = true -> calls_once (fun f => a_has_value_and C f c w) (c_raw c) w) /\
  (c_alive c = false -> never_calls (fun f => a_has_value_and C f c w)).
Proof. intros W C S L. exact (has_value_and_calls C S L). Qed.
Print Assumptions C28_has_value_and.

Theorem C28_inspect : forall W (C : cls W) (S : sem C), lawful C S -> forall c w, inv C S c ->
  (c_alive c = true -> calls_once (fun f => a_inspect C f c w) (c_raw c) w) /\
  (c_alive c = false -> never_calls (fun f => a_inspect C f c w)).
Proof. intros W C S L. exact (inspect_calls C S L). Qed.
Print Assumptions C28_inspect.

Theorem C28_filter : forall W (C : cls W) (S : sem C), lawful C S -> forall p d c w, inv C S c ->
  (c_alive c = true -> calls_once (fun f => a_filter C p f d (c, w)) (c_raw c) w) /\
  (c_alive c = false -> never_calls (fun f => a_filter C p f d (c, w))).
Proof. intros W C S L. exact (filter_calls C S L). Qed.
Print Assumptions C28_filter.

(** Results, what the callback left in the option, exceptions and the census. *)
Theorem C28_map_result : forall W (C D : cls W) (S : sem C) (T : sem D), lawful C S -> lawful D T ->
  forall f R d c w, attempts S T f R -> inv C S c ->
  post (stops S \/ stops T) (a_map C D f d (c, w))
    (fun p => inv D T (fst p) /\ inv C S (fst (snd p)) /\
       match oval C S c with
       | None => oval D T (fst p) = None /\ snd p = (c, w)
       | Some v => exists u v', R v u v' /\ oval D T (fst p) = Some u /\ oval C S (fst (snd p)) = Some v'
       end /\
       (cnt S (snd (snd p)) + oown C S c = cnt S w + oown D T (fst p) + oown C S (fst (snd p)))%Z)
    (fun p => inv C S (fst (snd p)) /\ c_alive c = true /\ c_alive (fst (snd p)) = true /\
       (cnt S (snd (snd p)) + oown C S c = cnt S w + oown C S (fst (snd p)))%Z).
Proof. intros W C D S T L LD. exact (map_ok C D S T L LD). Qed.
Print Assumptions C28_map_result.

Theorem C28_and_then_result : forall W (C D : cls W) (S : sem C) (T : sem D), lawful C S -> lawful D T ->
  forall f R d c w, produces S (opt_sem D T) f R -> inv C S c ->
  post (stops S \/ stops T) (a_and_then C D f d (c, w))
    (fun p => inv D T (fst p) /\ inv C S (fst (snd p)) /\
       match oval C S c with
       | None => oval D T (fst p) = None /\ snd p = (c, w)
       | Some v => exists v', R v (oval D T (fst p)) v' /\ oval C S (fst (snd p)) = Some v'
       end /\
       (cnt S (snd (snd p)) + oown C S c = cnt S w + oown D T (fst p) + oown C S (fst (snd p)))%Z)
    (fun p => inv C S (fst (snd p)) /\ c_alive c = true /\ c_alive (fst (snd p)) = true /\
       (cnt S (snd (snd p)) + oown C S c = cnt S w + oown C S (fst (snd p)))%Z).
Proof. intros W C D S T L LD. exact (and_then_ok C D S T L LD). Qed.
Print Assumptions C28_and_then_result.

Theorem C28_or_else_result : forall W (C : cls W) (S : sem C), lawful C S ->
  forall p f F d c w, quiet_pass C S p -> makes (opt_sem C S) f F -> inv C S c ->
  post (stops S) (a_or_else C p f d (c, w))
    (fun q => inv C S (fst q) /\ inv C S (fst (snd q)) /\
       match oval C S c with
       | None => F (oval C S (fst q)) /\ fst (snd q) = c
       | Some v => oval C S (fst q) = Some v /\ exists v', left_by S p v v' /\ oval C S (fst (snd q)) = Some v'
       end /\
       (cnt S (snd (snd q)) + oown C S c = cnt S w + oown C S (fst q) + oown C S (fst (snd q)))%Z)
    (fun q => inv C S (fst (snd q)) /\ c_alive (fst (snd q)) = c_alive c /\
       (cnt S (snd (snd q)) + oown C S c = cnt S w + oown C S (fst (snd q)))%Z).
Proof. intros W C S L. exact (or_else_ok C S L). Qed.
Print Assumptions C28_or_else_result.

Theorem C28_has_value_and_result : forall W (C : cls W) (S : sem C), lawful C S ->
  forall f R c w, asks S f R -> inv C S c ->
  post (stops S) (a_has_value_and C f c w)
    (fun q => inv C S (fst q) /\
       match oval C S c with
       | None => fst (snd q) = false /\ fst q = c /\ snd (snd q) = w
       | Some v => exists v', R v (fst (snd q)) v' /\ oval C S (fst q) = Some v'
       end /\ (cnt S (snd (snd q)) + oown C S c = cnt S w + oown C S (fst q))%Z)
    (fun q => inv C S (fst q) /\ c_alive (fst q) = true /\ c_alive c = true /\
       (cnt S (snd (snd q)) + oown C S c = cnt S w + oown C S (fst q))%Z).
Proof. intros W C S L. exact (has_value_and_ok C S L). Qed.
Print Assumptions C28_has_value_and_result.

Theorem C28_inspect_result : forall W (C : cls W) (S : sem C), lawful C S ->
  forall f R c w, visits S f R -> inv C S c ->
  post (stops S) (a_inspect C f c w)
    (fun q => inv C S (fst q) /\
       match oval C S c with
       | None => q = (c, w)
       | Some v => exists v', R v v' /\ oval C S (fst q) = Some v'
       end /\ (cnt S (snd q) + oown C S c = cnt S w + oown C S (fst q))%Z)
    (fun q => inv C S (fst q) /\ c_alive (fst q) = true /\ c_alive c = true /\
       (cnt S (snd q) + oown C S c = cnt S w + oown C S (fst q))%Z).
Proof. intros W C S L. exact (inspect_ok C S L). Qed.
Print Assumptions C28_inspect_result.

Theorem C28_filter_result : forall W (C : cls W) (S : sem C), lawful C S ->
  forall p f R d c w, asks S f R -> inv C S c ->
  post (stops S) (a_filter C p f d (c, w))
    (fun q => inv C S (fst q) /\ inv C S (fst (snd q)) /\
       match oval C S c with
       | None => oval C S (fst q) = None /\ snd q = (c, w)
       | Some v => (exists v1 v2, R v true v1 /\ left_by S p v1 v2 /\ oval C S (fst q) = Some v1 /\ oval C S (fst (snd q)) = Some v2) \/
                   (exists v1, R v false v1 /\ oval C S (fst q) = None /\ oval C S (fst (snd q)) = Some v1)
       end /\
       (cnt S (snd (snd q)) + oown C S c = cnt S w + oown C S (fst q) + oown C S (fst (snd q)))%Z)
    (fun q => inv C S (fst (snd q)) /\ c_alive (fst (snd q)) = true /\ c_alive c = true /\
       (cnt S (snd (snd q)) + oown C S c = cnt S w + oown C S (fst (snd q)))%Z).
Proof. intros W C S L. exact (filter_ok C S L). Qed.
Print Assumptions C28_filter_result.

Example C28_ex : lawful T3 S3 /\ produces S3 S3 cb3 cb3_rel /\ inv T3 S3 (some3 4) /\
  a_map T3 T3 cb3 junk3 (some3 4, []) = Ret (some3 40, (some3 5, [])) /\
  a_map T3 T3 cb3 junk3 (some3 4, [true]) = Exn (junk3, (some3 5, [])) /\
  a_map T3 T3 cb3 junk3 (none3, [true]) = Ret (none3, (none3, [true])).
Proof.
  split; [apply fussy_lawful; unfold umax_base; lia|]. split; [exact cb3_produces|]. split; [apply some3_inv|]. repeat split.
Qed.

(** C29: laws, for callbacks with effects and exceptions. *)
Theorem C29_map_identity : forall W (C : cls W) (S : sem C), lawful C S -> forall p d c w, inv C S c ->
  post (stops S) (a_map C C (from_value C p) d (c, w))
    (fun q => inv C S (fst q) /\ oval C S (fst q) = oval C S c /\ inv C S (fst (snd q)) /\
              opt_rel (left_by S p) (oval C S c) (oval C S (fst (snd q))))
    (fun q => inv C S (fst (snd q)) /\ c_alive (fst (snd q)) = c_alive c).
Proof. intros W C S L. exact (map_identity C S L). Qed.
Print Assumptions C29_map_identity.

(** c.map(f).map(g) and c.map(g after f) do the same, down to the destruction of the temporary. *)
Theorem C29_map_compose : forall W (C D E : cls W) (S : sem C) (T : sem D) (U : sem E),
  lawful C S -> lawful D T -> lawful E U ->
  forall f g Rf Rg d e c w, produces S T f Rf -> produces T U g Rg -> inv C S c -> c_alive e = false ->
  map_map C D E f g d e (c, w) = a_map C E (after C D E f g (c_raw d)) e (c, w).
Proof. intros W C D E S T U L LD LE. exact (map_compose C D E S T U L LD LE). Qed.
Print Assumptions C29_map_compose.

Theorem C29_and_then_left_identity : forall W (C D : cls W) (S : sem C), lawful C S ->
  forall f d x fl w, ok S x -> (lmax C = 0 -> fl = 1) ->
  a_and_then C D f d (mkcell x fl true, w) =
  match f d (x, w) with
  | Ret (d', (x', w')) => Ret (d', (mkcell x' fl true, w'))
  | Exn (d', (x', w')) => Exn (d', (mkcell x' fl true, w'))
  | Abort => Abort
  | Undef => Undef
  end.
Proof. intros W C D S L. exact (and_then_left_identity C D S L). Qed.
Print Assumptions C29_and_then_left_identity.

Theorem C29_and_then_right_identity : forall W (C : cls W) (S : sem C), lawful C S -> forall p d c w, inv C S c ->
  post (stops S) (a_and_then C C (o_build C (from_value C p)) d (c, w))
    (fun q => inv C S (fst q) /\ oval C S (fst q) = oval C S c /\ inv C S (fst (snd q)) /\
              opt_rel (left_by S p) (oval C S c) (oval C S (fst (snd q))))
    (fun q => inv C S (fst (snd q)) /\ c_alive (fst (snd q)) = c_alive c).
Proof.
  intros W C S L p d c w Hi. rewrite <- (map_via_and_then C C S L) by exact Hi. exact (map_identity C S L p d c w Hi).
Qed.
Print Assumptions C29_and_then_right_identity.

Theorem C29_and_then_assoc : forall W (C D E : cls W) (S : sem C) (T : sem D) (U : sem E),
  lawful C S -> lawful D T -> lawful E U ->
  forall f g d e c w, inv C S c ->
  and_then_then C D E f g d e (c, w) = a_and_then C E (kleisli C D E f g d) e (c, w).
Proof. intros W C D E S T U L LD LE. exact (and_then_assoc C D E S T U L LD LE). Qed.
Print Assumptions C29_and_then_assoc.

Theorem C29_map_via_and_then : forall W (C D : cls W) (S : sem C), lawful C S -> forall f d c w, inv C S c ->
  a_map C D f d (c, w) = a_and_then C D (o_build D f) d (c, w).
Proof. intros W C D S L. exact (map_via_and_then C D S L). Qed.
Print Assumptions C29_map_via_and_then.

Theorem C29_filter_via_and_then : forall W (C : cls W) (S : sem C), lawful C S ->
  forall p f R d c w, asks S f R -> inv C S c ->
  a_filter C p f d (c, w) = a_and_then C C (keep_if C p f) d (c, w).
Proof. intros W C S L. exact (filter_via_and_then C S L). Qed.
Print Assumptions C29_filter_via_and_then.

(** or_else is associative: exactly so when the first option is empty; when it is engaged no
    callback runs on either side and both results have its value. *)
Theorem C29_or_else_assoc : forall W (C : cls W) (S : sem C), lawful C S -> forall p f g d e c w, inv C S c ->
  (c_alive c = false -> or_else_else C p f g d e (c, w) = a_or_else C p (otherwise C f g d) e (c, w)) /\
  (c_alive c = true -> quiet_pass C S p -> quiet_move C S ->
    never_calls (fun f => or_else_else C p f g d e (c, w)) /\ never_calls (fun g => or_else_else C p f g d e (c, w)) /\
    never_calls (fun f => a_or_else C p (otherwise C f g d) e (c, w)) /\
    never_calls (fun g => a_or_else C p (otherwise C f g d) e (c, w)) /\
    post (stops S) (or_else_else C p f g d e (c, w)) (fun q => oval C S (fst q) = oval C S c) (fun _ => True) /\
    post (stops S) (a_or_else C p (otherwise C f g d) e (c, w)) (fun q => oval C S (fst q) = oval C S c) (fun _ => True)).
Proof.
  intros W C S L p f g d e c w Hi. split; intros Ha.
  - exact (or_else_assoc_empty C S L p f g d e c w Hi Ha).
  - intros Qp Qm. exact (or_else_assoc_engaged C S L p f g d e c w Qp Qm Hi Ha).
Qed.
Print Assumptions C29_or_else_assoc.

Example C29_ex : inv T3 S3 (some3 4) /\ c_alive junk3 = false /\
  map_map T3 T3 T3 cb3 cb3 junk3 junk3 (some3 4, []) = Ret (some3 400, (some3 5, [])) /\
  a_map T3 T3 (after T3 T3 T3 cb3 cb3 (c_raw junk3)) junk3 (some3 4, []) = Ret (some3 400, (some3 5, [])) /\
  map_map T3 T3 T3 cb3 cb3 junk3 junk3 (some3 4, [false; true]) = Exn (junk3, (some3 5, [])).
Proof. split; [apply some3_inv|]. repeat split. Qed.

(** C30: accessors with a default. *)
Theorem C30_value_or : forall W (C : cls W) (S : sem C), lawful C S -> forall p i r c w, inv C S c ->
  post (stops S) (a_value_or C p i r (c, w))
    (fun q => inv C S (fst (snd q)) /\
       match oval C S c with
       | None => fst (snd q) = c /\ ((ok S (fst q) /\ denotes S i (val S (fst q))) \/ (stops S /\ none_pattern C (fst q)))
       | Some v => ok S (fst q) /\ val S (fst q) = v /\ exists v', left_by S p v v' /\ oval C S (fst (snd q)) = Some v'
       end)
    (fun q => inv C S (fst (snd q)) /\ c_alive (fst (snd q)) = c_alive c /\
       (cnt S (snd (snd q)) + oown C S c = cnt S w + oown C S (fst (snd q)))%Z).
Proof. intros W C S L. exact (value_or_ok C S L). Qed.
Print Assumptions C30_value_or.

(** The default is not even converted unless it is needed. *)
Theorem C30_default_unused : forall W (C : cls W) (S : sem C), lawful C S -> forall p r c w, inv C S c ->
  c_alive c = true -> never_calls (fun i => a_value_or C p i r (c, w)).
Proof.
  intros W C S L p r c w Hi Ha i i'. unfold a_value_or. cbn [fst]. now rewrite (has_ok C S L c Hi), Ha.
Qed.
Print Assumptions C30_default_unused.

Theorem C30_map_or : forall W (C D : cls W) (S : sem C) (T : sem D), lawful C S -> lawful D T ->
  (forall w, cnt T w = cnt S w) ->
  forall i f R d c w, produces S T f R -> inv C S c ->
  post (stops S \/ stops T) (a_map_or C D i f d (c, w))
    (fun p => inv C S (fst (snd p)) /\
       match oval C S c with
       | None => fst (snd p) = c /\ ((ok T (fst p) /\ denotes T i (val T (fst p))) \/ (stops T /\ none_pattern D (fst p)))
       | Some v => ok T (fst p) /\ exists v', R v (val T (fst p)) v' /\ oval C S (fst (snd p)) = Some v'
       end)
    (fun p => inv C S (fst (snd p)) /\ c_alive (fst (snd p)) = c_alive c /\
       (cnt S (snd (snd p)) + oown C S c = cnt S w + oown C S (fst (snd p)))%Z).
Proof. intros W C D S T L LD Same. exact (map_or_ok C D S T L LD Same). Qed.
Print Assumptions C30_map_or.

Theorem C30_map_or_else : forall W (C D : cls W) (S : sem C) (T : sem D), lawful C S ->
  (forall w, cnt T w = cnt S w) ->
  forall g G f R d c w, produces S T f R -> makes T g G -> inv C S c ->
  post (stops S \/ stops T) (a_map_or_else C D g f d (c, w))
    (fun p => ok T (fst p) /\ inv C S (fst (snd p)) /\
       match oval C S c with
       | None => G (val T (fst p)) /\ fst (snd p) = c
       | Some v => exists v', R v (val T (fst p)) v' /\ oval C S (fst (snd p)) = Some v'
       end /\
       (cnt S (snd (snd p)) + oown C S c = cnt S w + own T (fst p) + oown C S (fst (snd p)))%Z)
    (fun p => inv C S (fst (snd p)) /\ c_alive (fst (snd p)) = c_alive c /\
       (cnt S (snd (snd p)) + oown C S c = cnt S w + oown C S (fst (snd p)))%Z).
Proof. intros W C D S T L Same. exact (map_or_else_ok C D S T L Same). Qed.
Print Assumptions C30_map_or_else.

Example C30_ex : inv T3 S3 (some3 4) /\ inv T3 S3 none3 /\
  a_value_or T3 ByMove (9 : N) (77 : N) (some3 4, []) = Ret (7 : N, (some3 0, [])) /\
  a_value_or T3 ByCopy (9 : N) (77 : N) (some3 4, []) = Ret (7 : N, (some3 4, [])) /\
  a_value_or T3 ByCopy (9 : N) (77 : N) (none3, []) = Ret (12 : N, (none3, [])).
Proof. split; [apply some3_inv|]. split; [apply none3_inv|]. repeat split. Qed.

(** C32: flatten of an (n+1)-fold nested option. *)
Theorem C32_flatten : forall W (C : cls W) (S : sem C), lawful C S -> steady C S ->
  forall n c, ok (nest_sem (Datatypes.S n) C S) c ->
  exists o, a_flatten C n c = Ret o /\ option_map (val S) o = collapse C S n (val (nest_sem (Datatypes.S n) C S) c) /\
            (forall r, o = Some r -> ok S r).
Proof.
  intros W C S L St. exact (flatten_ok W C S (fun n => proj1 (nest_lawful W n C S L St))).
Qed.
Print Assumptions C32_flatten.
Example C32_ex :
  let C := plain 2 in
  let one (v : N) : cell C := mkcell (C := C) v 0 true in
  let two (c : cell C) : cell (opt_cls C) := mkcell (C := opt_cls C) c 1 true in
  ok (nest_sem 2 C (plain_sem 2)) (two (one 5)) /\
  a_flatten C 1 (two (one 5)) = Ret (Some (5 : N)) /\
  a_flatten C 1 (two (mkcell (C := C) (0 : N) 0 false)) = Ret None.
Proof.
  split; [|split; reflexivity]. split; [|split]; cbn; intros; try discriminate; try lia.
  split; [|split]; cbn; intros; try discriminate; lia.
Qed.

(** C33: the operators. *)
Theorem C33_or : forall W (C : cls W) (S : sem C), lawful C S ->
  forall pl pr d a b w, quiet_pass C S pl -> quiet_pass C S pr -> inv C S a -> inv C S b ->
  post (stops S) (a_or C pl pr d a b w)
    (fun q => inv C S (fst q) /\ oval C S (fst q) = first_of (oval C S a) (oval C S b) /\
       inv C S (fst (snd q)) /\ inv C S (fst (snd (snd q))) /\
       c_alive (fst (snd q)) = c_alive a /\ c_alive (fst (snd (snd q))) = c_alive b /\
       (oval C S a = None \/ pl = ByCopy -> oval C S (fst (snd q)) = oval C S a) /\
       (oval C S a <> None \/ pr = ByCopy -> oval C S (fst (snd (snd q))) = oval C S b) /\
       (cnt S (snd (snd (snd q))) + oown C S a + oown C S b =
        cnt S w + oown C S (fst q) + oown C S (fst (snd q)) + oown C S (fst (snd (snd q))))%Z)
    (fun q => operands C S a b q w).
Proof. intros W C S L. exact (or_ok C S L). Qed.
Print Assumptions C33_or.

Theorem C33_xor : forall W (C : cls W) (S : sem C), lawful C S ->
  forall pl pr d a b w, quiet_pass C S pl -> quiet_pass C S pr -> inv C S a -> inv C S b ->
  post (stops S) (a_xor C pl pr d a b w)
    (fun q => inv C S (fst q) /\ oval C S (fst q) = one_of (oval C S a) (oval C S b) /\
       inv C S (fst (snd q)) /\ inv C S (fst (snd (snd q))) /\
       c_alive (fst (snd q)) = c_alive a /\ c_alive (fst (snd (snd q))) = c_alive b /\
       (pl = ByCopy -> oval C S (fst (snd q)) = oval C S a) /\
       (pr = ByCopy -> oval C S (fst (snd (snd q))) = oval C S b) /\
       (cnt S (snd (snd (snd q))) + oown C S a + oown C S b =
        cnt S w + oown C S (fst q) + oown C S (fst (snd q)) + oown C S (fst (snd (snd q))))%Z)
    (fun q => operands C S a b q w).
Proof. intros W C S L. exact (xor_ok C S L). Qed.
Print Assumptions C33_xor.

Theorem C33_and : forall W (C D : cls W) (S : sem C) (T : sem D), lawful C S -> lawful D T ->
  forall p d a b w, (forall w, cnt T w = cnt S w) -> quiet_pass D T p -> inv C S a -> inv D T b ->
  post (stops T) (a_and C D p d a (b, w))
    (fun q => inv D T (fst q) /\ oval D T (fst q) = both_of (oval C S a) (oval D T b) /\ inv D T (fst (snd q)) /\
       c_alive (fst (snd q)) = c_alive b /\
       (p = ByCopy \/ oval C S a = None -> oval D T (fst (snd q)) = oval D T b) /\
       (cnt T (snd (snd q)) + oown D T b = cnt T w + oown D T (fst q) + oown D T (fst (snd q)))%Z)
    (fun q => inv D T (fst (snd q)) /\ c_alive (fst (snd q)) = c_alive b /\ oval C S a <> None /\
       (cnt T (snd (snd q)) + oown D T b = cnt T w + oown D T (fst (snd q)))%Z).
Proof. intros W C D S T L LD. exact (and_ok C D S T L LD). Qed.
Print Assumptions C33_and.

(** a |= b changes a only when it is empty. *)
Theorem C33_or_assign : forall W (C : cls W) (S : sem C), lawful C S ->
  forall i c w, (forall i', i = IVal i' \/ i = IConv (Some i') -> quiet_init C i') -> inv C S c ->
  post (stops S) (a_or_assign C i c w)
    (fun q => inv C S (fst q) /\
       match oval C S c with
       | Some v => q = (c, w)
       | None => odenotes C S i (oval C S (fst q))
       end /\ (cnt S (snd q) + oown C S c = cnt S w + oown C S (fst q))%Z)
    (fun q => inv C S (fst q) /\ oval C S c = None /\ (cnt S (snd q) + oown C S c = cnt S w + oown C S (fst q))%Z).
Proof. intros W C S L. exact (or_assign_ok C S L). Qed.
Print Assumptions C33_or_assign.

Theorem C33_or_assign_copy : forall W (C : cls W) (S : sem C), lawful C S ->
  forall s c w, quiet_copy C S -> inv C S s -> inv C S c ->
  post (stops S) (a_or_assign_copy C s c w)
    (fun q => inv C S (fst q) /\ oval C S (fst q) = first_of (oval C S c) (oval C S s) /\
       (c_alive c = true -> q = (c, w)) /\ (cnt S (snd q) + oown C S c = cnt S w + oown C S (fst q))%Z)
    (fun q => inv C S (fst q) /\ oval C S c = None /\ (cnt S (snd q) + oown C S c = cnt S w + oown C S (fst q))%Z).
Proof. intros W C S L. exact (or_assign_copy_ok C S L). Qed.
Print Assumptions C33_or_assign_copy.

Theorem C33_or_assign_move : forall W (C : cls W) (S : sem C), lawful C S ->
  forall s c w, quiet_move C S -> inv C S s -> inv C S c ->
  post (stops S) (a_or_assign_move C c (s, w))
    (fun q => inv C S (fst q) /\ oval C S (fst q) = first_of (oval C S c) (oval C S s) /\
       (c_alive c = true -> q = (c, (s, w))) /\ inv C S (fst (snd q)) /\ c_alive (fst (snd q)) = c_alive s)
    (fun q => inv C S (fst q) /\ oval C S c = None /\ inv C S (fst (snd q))).
Proof. intros W C S L. exact (or_assign_move_ok C S L). Qed.
Print Assumptions C33_or_assign_move.

(** The algebra of the results. *)
Theorem C33_algebra : forall A (a b c : option A),
  first_of (first_of a b) c = first_of a (first_of b c) /\ first_of a None = a /\ first_of None a = a /\
  first_of a a = a /\
  both_of (both_of a b) c = both_of a (both_of b c) /\ both_of a (None : option A) = None /\
  both_of (None : option A) a = None /\
  one_of a None = a /\ one_of None a = a /\ one_of a a = None /\
  (one_of a b <> None <-> (a <> None /\ b = None \/ a = None /\ b <> None)).
Proof.
  intros A [a|] [b|] [c|]; cbn; repeat split; auto; try tauto; try congruence; intros; intuition congruence.
Qed.
Print Assumptions C33_algebra.

Example C33_ex : inv T3 S3 (some3 4) /\ inv T3 S3 none3 /\
  a_or T3 ByCopy ByMove junk3 none3 (some3 4) [] = Ret (some3 4, (none3, (some3 0, []))) /\
  a_xor T3 ByCopy ByMove junk3 (some3 1) (some3 4) [] = Ret (none3, (some3 1, (some3 4, []))) /\
  a_and T3 T3 ByCopy junk3 (some3 1) (some3 4, []) = Ret (some3 4, (some3 4, [])) /\
  a_or_assign T3 (IVal (9 : N)) (some3 4) [] = Ret (some3 4, []) /\
  a_or_assign T3 (IVal (9 : N)) none3 [] = Ret (some3 9, []).
Proof. split; [apply some3_inv|]. split; [apply none3_inv|]. repeat split. Qed.

(** C41: conversions between options. *)
Theorem C41_converting_construction : forall W (C D : cls W) (S : sem C) (T : sem D), lawful C S -> lawful D T ->
  (forall w, cnt T w = cnt S w) ->
  forall mk R d c w, attempts S T mk R -> quiet_conv S mk -> inv C S c ->
  post (stops S \/ stops T) (a_conv_ctor C D mk d (c, w))
    (fun p => inv D T (fst p) /\ inv C S (fst (snd p)) /\
       match oval C S c with
       | None => oval D T (fst p) = None /\ snd p = (c, w)
       | Some v => exists u v', R v u v' /\ oval D T (fst p) = Some u /\ oval C S (fst (snd p)) = Some v'
       end /\
       (cnt S (snd (snd p)) + oown C S c = cnt S w + oown D T (fst p) + oown C S (fst (snd p)))%Z)
    (fun p => inv C S (fst (snd p)) /\ c_alive c = true /\ c_alive (fst (snd p)) = true /\
       (cnt S (snd (snd p)) + oown C S c = cnt S w + oown C S (fst (snd p)))%Z).
Proof. intros W C D S T L LD Same. exact (conv_ctor_ok C D S T L LD Same). Qed.
Print Assumptions C41_converting_construction.

Theorem C41_converting_construction_calls : forall W (C D : cls W) (S : sem C) (T : sem D), lawful C S -> lawful D T ->
  forall d c w, inv C S c ->
  (c_alive c = true -> exists d0, o_default D d = Ret d0 /\ forall mk mk',
     mk (c_raw d0) (c_raw c, w) = mk' (c_raw d0) (c_raw c, w) ->
     a_conv_ctor C D mk d (c, w) = a_conv_ctor C D mk' d (c, w)) /\
  (c_alive c = false -> never_calls (fun mk => a_conv_ctor C D mk d (c, w))).
Proof. intros W C D S T L LD. exact (conv_ctor_calls C D S T L LD). Qed.
Print Assumptions C41_converting_construction_calls.

Theorem C41_converting_assignment : forall W (C D : cls W) (S : sem C) (T : sem D), lawful C S -> lawful D T ->
  (forall w, cnt T w = cnt S w) ->
  forall mk asg R d c w, attempts S T mk R -> quiet_conv S mk -> assigns S T asg R ->
  inv D T d -> inv C S c ->
  post (stops S \/ stops T) (a_conv_assign C D mk asg d (c, w))
    (fun p => inv D T (fst p) /\ inv C S (fst (snd p)) /\
       match oval C S c with
       | None => oval D T (fst p) = None /\ fst (snd p) = c
       | Some v => exists u v', R v u v' /\ oval D T (fst p) = Some u /\ oval C S (fst (snd p)) = Some v'
       end /\
       (cnt S (snd (snd p)) + oown D T d + oown C S c = cnt S w + oown D T (fst p) + oown C S (fst (snd p)))%Z)
    (fun p => inv D T (fst p) /\ inv C S (fst (snd p)) /\ c_alive c = true /\ c_alive (fst (snd p)) = true /\
       c_alive (fst p) = c_alive d /\
       (cnt S (snd (snd p)) + oown D T d + oown C S c = cnt S w + oown D T (fst p) + oown C S (fst (snd p)))%Z).
Proof. intros W C D S T L LD Same. exact (conv_assign_ok C D S T L LD Same). Qed.
Print Assumptions C41_converting_assignment.

(** option_cast is map with the conversion: engaged iff the source is, with the converted value. *)
Theorem C41_option_cast : forall W (C D : cls W) (S : sem C) (T : sem D), lawful C S -> lawful D T ->
  (forall w, cnt T w = cnt S w) ->
  forall conv d c w, inv C S c ->
  post (stops S \/ stops T) (a_cast C D conv d (c, w))
    (fun p => inv D T (fst p) /\ inv C S (fst (snd p)) /\
       match oval C S c with
       | None => oval D T (fst p) = None /\ snd p = (c, w)
       | Some v => exists u v', (v' = v /\ exists x, val S x = v /\ denotes T (conv x) u) /\
                     oval D T (fst p) = Some u /\ oval C S (fst (snd p)) = Some v'
       end /\
       (cnt S (snd (snd p)) + oown C S c = cnt S w + oown D T (fst p) + oown C S (fst (snd p)))%Z)
    (fun p => inv C S (fst (snd p)) /\ c_alive c = true /\ c_alive (fst (snd p)) = true /\
       (cnt S (snd (snd p)) + oown C S c = cnt S w + oown C S (fst (snd p)))%Z).
Proof.
  intros W C D S T L LD Same conv d c w. exact (map_ok C D S T L LD _ _ d c w (cast_attempts C D S T LD Same conv)).
Qed.
Print Assumptions C41_option_cast.

Example C41_ex :
  let conv : raw T3 -> init T3 := fun r : N => (r - 3) * 2 in
  inv T3 S3 (some3 4) /\
  a_cast T3 T3 conv junk3 (some3 4, []) = Ret (some3 8, (some3 4, [])) /\
  a_conv_ctor T3 T3 cb3 junk3 (some3 4, []) = Ret (some3 40, (some3 5, [])) /\
  a_conv_ctor T3 T3 cb3 junk3 (none3, []) = Ret (none3, (none3, [])) /\
  a_conv_assign T3 T3 cb3 cb3 (some3 2) (none3, []) = Ret (none3, (none3, [])) /\
  a_conv_assign T3 T3 cb3 cb3 (some3 2) (some3 4, []) = Ret (some3 40, (some3 5, [])).
Proof. split; [apply some3_inv|]. repeat split. Qed.

(** make_option(value) and make_option<T>(args...). *)
Theorem C41_make_option : forall W (C : cls W) (S : sem C), lawful C S -> forall i d w,
  post (stops S) (o_build C (ctor C i) d w)
    (fun p => inv C S (fst p) /\ (exists v, oval C S (fst p) = Some v /\ denotes S i v) /\
              cnt S (snd p) = (cnt S w + oown C S (fst p))%Z)
    (fun p => cnt S (snd p) = cnt S w).
Proof. intros W C S L. exact (make_option_ok C S L). Qed.
Print Assumptions C41_make_option.

(** Casting twice is casting by the composite conversion, which builds the intermediate object,
    converts it and destroys it; effects and exceptions included. *)
Theorem C41_cast_compose : forall W (C D E : cls W) (S : sem C) (T : sem D) (U : sem E),
  lawful C S -> lawful D T -> lawful E U -> ~ stops T -> ~ stops U ->
  (forall w, cnt T w = cnt S w) -> (forall w, cnt U w = cnt T w) ->
  forall conv conv' d e c w, inv C S c -> c_alive e = false ->
  let f := fun r sw => lift (ctor D (conv (fst sw))) r sw in
  let g := fun r sw => lift (ctor E (conv' (fst sw))) r sw in
  map_map C D E f g d e (c, w) = a_map C E (after C D E f g (c_raw d)) e (c, w).
Proof. exact cast_compose. Qed.
Print Assumptions C41_cast_compose.
Example C41_compose_ex :
  let conv : raw T3 -> init T3 := fun r : N => (r - 3) * 2 in
  let f := fun r sw => lift (ctor T3 (conv (fst sw))) r sw in
  ~ stops S3 /\ inv T3 S3 (some3 4) /\
  map_map T3 T3 T3 f f junk3 junk3 (some3 4, []) = Ret (some3 16, (some3 4, [])) /\
  map_map T3 T3 T3 f f junk3 junk3 (some3 4, [false; true]) = Exn (junk3, (some3 4, [])).
Proof. split; [exact (fun x => x)|]. split; [apply some3_inv|]. repeat split. Qed.

(** The predicate of take_if. *)
Theorem C28_take_if : forall W (C : cls W) (S : sem C), lawful C S -> forall nrvo d c w, inv C S c ->
  (c_alive c = true -> calls_once (fun f => o_take_if C nrvo f d (c, w)) (c_raw c) w) /\
  (c_alive c = false -> never_calls (fun f => o_take_if C nrvo f d (c, w))).
Proof. intros W C S L. exact (take_if_once C S L). Qed.
Print Assumptions C28_take_if.

(** none is the identity of or_else. *)
Theorem C29_or_else_none_right : forall W (C : cls W) (S : sem C), lawful C S ->
  forall p d c w, quiet_pass C S p -> inv C S c ->
  post (stops S) (a_or_else C p (o_none C) d (c, w))
    (fun q => inv C S (fst q) /\ oval C S (fst q) = oval C S c)
    (fun _ => True).
Proof. intros W C S L. exact (or_else_none_right C S L). Qed.
Print Assumptions C29_or_else_none_right.

Theorem C29_or_else_none_left : forall W (C : cls W) (S : sem C), lawful C S ->
  forall p f d c w, inv C S c -> c_alive c = false ->
  a_or_else C p f d (c, w) = lift f d (c, w).
Proof. intros W C S L. exact (or_else_none_left C S L). Qed.
Print Assumptions C29_or_else_none_left.

(** C43: the overloads for rvalues (and the others) do not change whether the operand is engaged,
    whether they return or throw. *)
Theorem C43_rvalue_overloads : forall W (C : cls W) (S : sem C), lawful C S -> forall p c w, inv C S c ->
  (forall i r, keeps_engagement C S c (a_value_or C p i r (c, w))) /\
  (forall f F d, quiet_pass C S p -> makes (opt_sem C S) f F -> keeps_engagement C S c (a_or_else C p f d (c, w))) /\
  (forall f R d, asks S f R -> keeps_engagement C S c (a_filter C p f d (c, w))).
Proof.
  intros W C S L p c w Hi. exact (conj (fun i r => value_or_keeps C S L p i r c w Hi) (conj
    (fun f F d Q H => or_else_keeps C S L p f F d c w Q H Hi) (fun f R d H => filter_keeps C S L p f R d c w H Hi))).
Qed.
Print Assumptions C43_rvalue_overloads.

Theorem C43_rvalue_map : forall W (C D : cls W) (S : sem C) (T : sem D), lawful C S -> lawful D T ->
  forall f R d c w, attempts S T f R -> inv C S c ->
  post (stops S \/ stops T) (a_map C D f d (c, w))
    (fun q => inv C S (fst (snd q)) /\ c_alive (fst (snd q)) = c_alive c)
    (fun q => inv C S (fst (snd q)) /\ c_alive (fst (snd q)) = c_alive c).
Proof. intros W C D S T L LD. exact (map_keeps C D S T L LD). Qed.
Print Assumptions C43_rvalue_map.

Theorem C43_rvalue_and_then : forall W (C D : cls W) (S : sem C) (T : sem D), lawful C S -> lawful D T ->
  forall f R d c w, produces S (opt_sem D T) f R -> inv C S c ->
  post (stops S \/ stops T) (a_and_then C D f d (c, w))
    (fun q => inv C S (fst (snd q)) /\ c_alive (fst (snd q)) = c_alive c)
    (fun q => inv C S (fst (snd q)) /\ c_alive (fst (snd q)) = c_alive c).
Proof. intros W C D S T L LD. exact (and_then_keeps C D S T L LD). Qed.
Print Assumptions C43_rvalue_and_then.

Example C43_rvalue_ex : inv T3 S3 (some3 4) /\
  a_value_or T3 ByMove (9 : N) (77 : N) (some3 4, []) = Ret (7 : N, (some3 0, [])) /\
  a_value_or T3 ByMove (9 : N) (77 : N) (some3 4, [true]) = Exn (77 : N, (some3 4, [])) /\
  a_or_else T3 ByMove (o_none T3) junk3 (some3 4, []) = Ret (some3 4, (some3 0, [])) /\
  a_filter T3 ByMove (fun r w => Ret (r, (true, w))) junk3 (some3 4, []) = Ret (some3 4, (some3 0, [])) /\
  a_filter T3 ByMove (fun r w => Ret (r, (false, w))) junk3 (some3 4, []) = Ret (none3, (some3 4, [])).
Proof. split; [apply some3_inv|]. repeat split. Qed.
